(** * Cases that meet the hypotheses of the theorems of SmProperties to SmProperties4. *)
From Verif.Lib Require Import Base Outcome.
From Verif.Gmm Require GmmModel GmmExec GmmDemo GmmProperties GmmProperties3.
From Verif.Sndcp Require SndcpModel SndcpSpec.
From Verif.Sm Require Import SmModel SmProofs SmProofs2 SmProofs3 SmExec SmRun SmDemo SmEmits SmAccept SmProperties SmProperties2 SmProperties3 SmProperties4.

Definition ra0 : list Z := [0; 0; 0; 0; 0; 0].
(** A mobile with two contexts asked for, one of them sent; then the first is active; then it has ended. *)
Definition pending : list input := [IActReq 1 (act_as 7); IEstAcc 0 7 0 9 ra0; IActReq 2 (with_nsapi6 8)].
Definition answered : list input := pending ++ [IUnit 0 (accept_pdu 0x8a 3 [0x0b; 0x91; 0x1f] 4 [])].
Definition active : list input := answered ++ [ISnAct 9 5].
Definition ended : list input := active ++ [IRelease 0].

Lemma act_t q : q = act_as 7 \/ q = with_nsapi6 8 -> req_typed q.
Proof. intros [->| ->]; constructor; cbn; try lia; try (apply bytes_b; reflexivity); reflexivity. Qed.
Lemma act_f q : q = act_as 7 \/ q = with_nsapi6 8 -> req_fits q.
Proof. intros [->| ->]; split; cbn; lia. Qed.
Lemma act_sound q : q = act_as 7 \/ q = with_nsapi6 8 -> req_sound q.
Proof.
  intros H. split; [exact (act_t q H)|]. split; [exact (act_f q H)|]. destruct H as [->| ->]; cbn; (split; [lia|]); (split; [lia|]); (split; [left; reflexivity|]);
  (split; [discriminate|]); (split; [discriminate|]); lia.
Qed.
Lemma a3_ok : accept_ok 3 [0x0b; 0x91; 0x1f] 4 [] [].
Proof.
  split; [apply bytes_b; reflexivity|]. split; [cbn; lia|]. split; [constructor|]. split; intros v; discriminate.
Qed.
Lemma a3_b : bytes (accept_pdu 0x8a 3 [0x0b; 0x91; 0x1f] 4 []). Proof. apply bytes_b. reflexivity. Qed.
Lemma a3_m : msg_ok (accept_pdu 0x8a 3 [0x0b; 0x91; 0x1f] 4 []). Proof. exact (accept_msg_ok 0x8a _ _ _ _ _ a3_ok). Qed.
Lemma ok_run l l' o c : l = l' -> Forall (fun x => typed x /\ input_ok x) l' -> run ctx0 l' = Ok (c, o) -> zlen l' < 2 ^ 32 -> reached_ok (after l).
Proof. intros -> F E Z. unfold after. rewrite E. exists l', o. repeat split; assumption. Qed.
Ltac inputs := repeat (apply Forall_cons; [split; [first [exact I|exact (act_t _ (or_introl eq_refl))|exact (act_t _ (or_intror eq_refl))|exact a3_b]
   |first [exact I|exact a3_m|split; [first [exact (act_f _ (or_introl eq_refl))|exact (act_f _ (or_intror eq_refl))]|cbn; lia]|cbn; lia]]|]); try apply Forall_nil.
Lemma pending_ok : reached_ok (after pending).
Proof. eapply ok_run; [reflexivity|unfold pending; inputs|vm_compute; reflexivity|cbn; lia]. Qed.
Lemma answered_ok : reached_ok (after answered).
Proof. eapply ok_run; [reflexivity|unfold answered, pending; cbn [app]; inputs|vm_compute; reflexivity|cbn; lia]. Qed.
Lemma active_ok : reached_ok (after active).
Proof. eapply ok_run; [reflexivity|unfold active, answered, pending; cbn [app]; inputs|vm_compute; reflexivity|cbn; lia]. Qed.
Lemma ended_ok : reached_ok (after ended).
Proof. eapply ok_run; [reflexivity|unfold ended, active, answered, pending; cbn [app]; inputs|vm_compute; reflexivity|cbn; lia]. Qed.
Definition pent : sme := match slots (after pending) 1 5 with Some s => s | None => new_sme 0 0 end.
Lemma pent_is : slots (after pending) 1 5 = Some pent /\ st pent = Pending /\ sess pent = 0 /\ qlen pent = 3.
Proof. split; [vm_compute; reflexivity|]. repeat split; vm_compute; reflexivity. Qed.
Lemma tlli_own : forall m, In m (mss (after pending)) -> tlli (gid m) = tlli (ident (after pending) 1) -> mid m = 1.
Proof.
  assert (E : forallb (fun m => negb (tlli (gid m) =? tlli (ident (after pending) 1)) || (mid m =? 1)) (mss (after pending)) = true) by (vm_compute; reflexivity).
  rewrite forallb_forall in E. intros m Hm Ht. specialize (E m Hm). lia.
Qed.

Example C72_case : reached (after pending) /\ req_sound (act_as 7) /\ slots (after pending) 2 5 = None.
Proof. split; [exact (reached_ok_reached _ pending_ok)|]. split; [exact (act_sound _ (or_introl eq_refl))|vm_compute; reflexivity]. Qed.
Example C73_case : exists d pre g post, GmmExec.cb_ok GmmDemo.demo /\ GmmModel.gmmes d = pre ++ g :: post /\ GmmModel.sess g = 1 /\ (forall x, In x pre -> GmmModel.sess x <> 1) /\
  (exists c s, reached c /\ slots c 1 5 = Some s /\ st s = Pending /\ sess s = 1).
Proof.
  exists (GmmProperties.after (GmmProperties.registered ++ [GmmModel.EEstablish 1 GmmProperties3.q1 []])), []. do 2 eexists.
  split; [apply GmmDemo.demo_ok|]. split; [vm_compute; reflexivity|]. split; [reflexivity|]. split; [intros x []|].
  exists (after [IActReq 2 (with_nsapi6 8); IActReq 1 (act_as 7)]). eexists. split; [|split; [vm_compute; reflexivity|split; reflexivity]].
  apply reached_ok_reached. eapply ok_run; [reflexivity|inputs|vm_compute; reflexivity|cbn; lia].
Qed.
Example C74_case : exists s s', slots (after pending) 1 5 = Some s /\ slots (after pending) 2 6 = Some s' /\ sess s <> sess s' /\ req_typed (act_as 7).
Proof. do 2 eexists. split; [vm_compute; reflexivity|]. split; [vm_compute; reflexivity|]. split; [cbn; lia|]. exact (act_t _ (or_introl eq_refl)). Qed.
(** The request of mobile 1 for NSAPI 5 is confirmed, that of mobile 2 not yet. *)
Example C75_case : exists c o, run ctx0 active = Ok (c, o) /\ count (is_cnf 1 5) o = 1 /\ count (is_req 1 5) active = 1 /\ count (is_cnf 2 6) o = 0 /\ count (is_req 2 6) active = 1.
Proof. do 2 eexists. split; [vm_compute; reflexivity|]. repeat split; vm_compute; reflexivity. Qed.
Example C76_case : exists s s', slots (after pending) 1 5 = Some s /\ st s = Pending /\ slots (after active) 1 5 = Some s' /\ st s' = Active.
Proof. do 2 eexists. split; [vm_compute; reflexivity|]. split; [reflexivity|]. split; [vm_compute; reflexivity|reflexivity]. Qed.
Example C77_case : exists c o, run ctx0 active = Ok (c, o) /\ Exists to_sndcp o /\ Exists accepted o.
Proof.
  do 2 eexists. split; [vm_compute; reflexivity|]. split.
  - do 3 apply Exists_cons_tl. apply Exists_cons_hd. do 5 eexists. reflexivity.
  - do 4 apply Exists_cons_tl. apply Exists_cons_hd. do 12 eexists. reflexivity.
Qed.
Example C78_case : reached_ok (after pending) /\ slots (after pending) 1 5 = Some pent /\ st pent = Pending /\ accept_ok 3 [0x0b; 0x91; 0x1f] 4 [] [] /\ zlen [0x0b; 0x91; 0x1f] = qlen pent /\
  (forall m, In m (mss (after pending)) -> tlli (gid m) = tlli (ident (after pending) 1) -> mid m = 1).
Proof.
  destruct pent_is as (A & B & _ & D). split; [exact pending_ok|]. split; [exact A|]. split; [exact B|]. split; [exact a3_ok|]. split; [rewrite D; reflexivity|].
  exact tlli_own.
Qed.
Example C79_case : exists q, req_sound q /\ q_atype q = 0x8d /\ given (q_v4 q) = [10; 0; 0; 1] /\ given (q_v6 q) = repeat 7 16.
Proof.
  exists (mkActreq 5 3 0x8d (Some [10; 0; 0; 1]) (Some (repeat 7 16)) (repeat 0 22) 3 [97] (repeat 0 253) 0 7 0 [49] [] [] ra0).
  split; [|repeat split].
  split; [constructor; cbn; try lia; try (apply bytes_b; reflexivity); reflexivity|]. split; [split; cbn; lia|]. cbn. split; [lia|]. split; [lia|].
  split; [right; right; left; reflexivity|]. split; [intros l [= <-]; reflexivity|]. split; [intros l [= <-]; reflexivity|lia].
Qed.
Example C80_case : Forall (fun x => typed x /\ input_ok x) (ended ++ [IExpire 1 5; ISnDeact 9 6; IModify 1 7 0 9 ra0 None]).
Proof. unfold ended, active, answered, pending; cbn [app]; inputs. Qed.
(** Contexts 5 and 6 of a mobile, of which the network keeps 6. *)
Example C81_case : exists c o s, run ctx0 [IActReq 1 (act_as 7); IActReq 1 (with_nsapi6 7)] = Ok (c, o) /\
  slots c 1 5 = Some s /\ (exists c', step c (IModify (sess s) 7 0 9 ra0 (Some [0x40; 0])) = Ok (c', [OSnDeact 9 5], 0)).
Proof. do 3 eexists. split; [vm_compute; reflexivity|]. split; [vm_compute; reflexivity|]. eexists. vm_compute. reflexivity. Qed.
Example C82_case : reached_ok (after pending) /\ req_sound (act_as 7) /\ slots (after pending) 3 5 = None.
Proof. split; [exact pending_ok|]. split; [exact (act_sound _ (or_introl eq_refl))|vm_compute; reflexivity]. Qed.
Example C83_case : exists c', step (after pending) (IUnit (sess pent) [0x8a; 0x44]) = Ok (c', [], -22) /\ bytes [0x8a; 0x44] /\ msg_ok [0x8a; 0x44].
Proof.
  eexists. split; [vm_compute; reflexivity|]. split; [apply bytes_b; reflexivity|]. intros l Hl. cbn in Hl. inversion Hl; subst. split; intros v; discriminate.
Qed.
Example C84_case : SndcpSpec.reachable (SndcpModel.init true) /\ SndcpModel.c_ms (SndcpModel.init true) = true /\
  (forall a, SndcpSpec.entity (SndcpModel.init true) (tlli (ident (after pending) 1)) a 5 = None) /\ qos_len [0x0b; 0x91; 0x1f].
Proof. split; [exists true, [], []; reflexivity|]. split; [reflexivity|]. split; [intros a; reflexivity|]. left. reflexivity. Qed.
Example C85_case : exists s, reached (after ended) /\ slots (after ended) 1 5 = Some s /\ st s = Inactive /\ req_sound (act_as 7).
Proof.
  eexists. split; [exact (reached_ok_reached _ ended_ok)|]. split; [vm_compute; reflexivity|]. split; [reflexivity|exact (act_sound _ (or_introl eq_refl))].
Qed.
Example C86_case : exists c', step (after pending) (IUnit 0 (accept_pdu 0x3a 3 [0x0b; 0x91; 0x1f] 4 [])) = Ok (c', [OSnAct 9 5 3 4 [0x0b; 0x91; 0x1f]], 0).
Proof. eexists. vm_compute. reflexivity. Qed.
