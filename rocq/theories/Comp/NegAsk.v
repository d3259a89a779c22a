From Verif.Lib Require Import Base Outcome.
From Verif.Comp Require Import SlhcModel XidModel XidSpec XidProofs XidRead XidCode NegModel NegSpec NegProofs NegAnswer.

(** ** The end that asks *)
Lemma one_nsapi n : 5 <= n <= 15 -> nsapi_set [n].
Proof. intros H. split; [constructor; constructor|constructor; [exact H|constructor]]. Qed.
Lemma wanted_request n pc dc : 5 <= n <= 15 -> pc_ok pc -> dc_ok dc -> request (wanted n pc dc).
Proof.
  intros Hn Hp Hd. pose proof (one_nsapi n Hn) as NS. unfold wanted. split.
  - apply Forall_app. split.
    + destruct dc as [[[p0 p1] p2]|]; constructor; [|constructor]. split; [|split; [exact Hd|eexists; reflexivity]].
      split; [cbn; destruct pc; lia|]. split; [exact NS|]. split; [exists []; exact Hd|]. split; [split; [reflexivity|constructor; [lia|constructor]]|]. split; [intros H; exfalso; apply H; reflexivity|]. split; [cbn; lia|constructor].
    + destruct pc as [s01|]; constructor; [|constructor]. split; [|split; [exact Hp|eexists; reflexivity]].
      split; [cbn; lia|]. split; [exact NS|]. split; [exists []; exact Hp|]. split; [split; [reflexivity|constructor; [lia|constructor; [lia|constructor]]]|]. split; [intros H; exfalso; apply H; reflexivity|]. split; [cbn; lia|constructor].
  - destruct dc as [[[p0 p1] p2]|], pc as [s01|]; cbn; repeat constructor; cbn; intuition lia.
Qed.
Lemma wanted_fields n pc dc : gen_fields n pc dc = map x_field (wanted n pc dc).
Proof. destruct dc as [[[p0 p1] p2]|], pc as [s01|]; reflexivity. Qed.
Lemma wanted_order n pc dc : of_class 2 (wanted n pc dc) ++ of_class 1 (wanted n pc dc) = rev (wanted n pc dc).
Proof. destruct dc as [[[p0 p1] p2]|], pc as [s01|]; reflexivity. Qed.
Lemma wanted_len n pc dc cls : zlen (concat (map x_oct (of_class cls (wanted n pc dc)))) <= 10.
Proof.
  destruct dc as [[[p0 p1] p2]|], pc as [s01|]; unfold wanted, of_class; cbn [app filter x_alg kind]; try destruct (1 =? cls) eqn:?; try destruct (2 =? cls) eqn:?; try lia; unfold zlen; cbn; lia.
Qed.
Definition asking (n : Z) (pc : option Z) (dc : option (Z * Z * Z)) : list Z :=
  match wanted n pc dc with [] => [] | l => msg (block_of 0 l) end.
Lemma wanted_rev n pc dc cls : of_class cls (rev (wanted n pc dc)) = of_class cls (wanted n pc dc).
Proof. rewrite of_class_rev. destruct dc as [[[p0 p1] p2]|], pc as [s01|]; unfold wanted, of_class; cbn [app filter x_alg kind]; try destruct (1 =? cls) eqn:?; try destruct (2 =? cls) eqn:?; try reflexivity. lia. Qed.
Lemma asking_len n pc dc : zlen (msg (block_of 0 (wanted n pc dc))) <= 27.
Proof.
  unfold block_of. rewrite !msg_app, !zlen_app. change (zlen (msg (if 0 <=? 0 then [Version 0] else []))) with 3. rewrite !elems_oct, !wanted_rev.
  pose proof (wanted_len n pc dc 1) as L1. pose proof (wanted_len n pc dc 2) as L2.
  destruct (concat (map x_oct (of_class 1 (wanted n pc dc)))); destruct (concat (map x_oct (of_class 2 (wanted n pc dc)))); rewrite ?zlen_cons in *; change (zlen (@nil Z)) with 0 in *; lia.
Qed.
Lemma gen_ok n pc dc : 5 <= n <= 15 -> pc_ok pc -> dc_ok dc -> gen_xid n pc dc = Ok (asking n pc dc).
Proof.
  intros Hn Hp Hd. unfold gen_xid, asking. rewrite wanted_fields. destruct (wanted_request n pc dc Hn Hp Hd) as [F _].
  assert (wanted n pc dc <> [] -> compile_xid (repeat 0 1024) (map x_field (wanted n pc dc)) 0 =
    Ok (msg (block_of 0 (wanted n pc dc)) ++ skipn (length (msg (block_of 0 (wanted n pc dc)))) (repeat 0 1024), zlen (msg (block_of 0 (wanted n pc dc))))) as C.
  { intros _. pose proof (asking_len n pc dc). pose proof (wanted_len n pc dc 1). pose proof (wanted_len n pc dc 2). assert (zlen (repeat 0 1024) = 1024) as Z1 by apply zrepeat.
    apply compile_ok; [revert F; apply Forall_impl; unfold full; tauto|lia|rewrite Z1; lia|rewrite Z1; lia|rewrite wanted_rev; lia|rewrite wanted_rev; lia]. }
  destruct (wanted n pc dc) as [|x l] eqn:E; [reflexivity|]. remember (map x_field (x :: l)) as fs eqn:Ef. destruct fs as [|f fs]; [discriminate|]. rewrite C by discriminate. cbn [bind fst snd]. rewrite firstn_msg by reflexivity. reflexivity.
Qed.

(** What is left: the tables are empty, the request is stored. *)
Definition asked_state (m : snme) (e : sne) (pc : option Z) (dc : option (Z * Z * Z)) : sne :=
  mkSne (e_nsapi e) (e_sapi e) (asking (e_nsapi e) pc dc) (e_act e) true (e_peer e).
Theorem ask m e pc dc : mobile_ok m -> In e (m_sne m) -> 5 <= e_nsapi e <= 15 -> pc_ok pc -> dc_ok dc ->
  sn_xid_req m (e_sapi e) (e_nsapi e) pc dc =
    Ok (mkR (put_sne (mkM (m_sne m) [] []) (asked_state m e pc dc)) [LlXidReq (e_sapi e) (asking (e_nsapi e) pc dc)] true) /\
  mobile_ok (put_sne (mkM (m_sne m) [] []) (asked_state m e pc dc)).
Proof.
  intros (S & R & T2 & T1) Hin Hn Hp Hd. split.
  - unfold sn_xid_req. rewrite (by_dlci_in m e S R Hin). cbn [bind]. rewrite (free_ok _ _ T2), (free_ok _ _ T1). cbn [bind]. rewrite (gen_ok _ _ _ Hn Hp Hd). reflexivity.
  - split; [rewrite put_nsapis; exact S|]. split; [apply put_range; [cbn; lia|exact R]|]. split; (split; [constructor|constructor]).
Qed.

(** ** The answer arrives *)
Lemma wanted_cases n pc dc x : In x (wanted n pc dc) -> (x_alg x = RFC1144 /\ x_prop x = Some [1; 2] \/ x_alg x = V42BIS /\ x_prop x = Some [1]) /\ x_prof x = [] /\ x_nsapi x = [n].
Proof.
  unfold wanted. intros H. apply in_app_iff in H as [H|H].
  - destruct dc as [[[p0 p1] p2]|]; [|destruct H]. destruct H as [<-|[]]. cbn. auto.
  - destruct pc as [s01|]; [|destruct H]. destruct H as [<-|[]]. cbn. auto.
Qed.
(** An answer to it: no proposals; NSAPIs and the first of the parameters may be others. *)
Definition replies (xs : list xf) (y : xf) : Prop := xf_ok y /\ answers xs y.
Lemma replies_good n pc dc y : replies (wanted n pc dc) y -> good (rev (wanted n pc dc)) y /\ exists x, In x (wanted n pc dc) /\ x_entity x = x_entity y /\ x_alg x = x_alg y /\ (x_alg y = RFC1144 \/ x_alg y = V42BIS).
Proof.
  intros (K & P & x & Hin & He & Ha). destruct (wanted_cases n pc dc x Hin) as [C _].
  assert (x_alg y = RFC1144 \/ x_alg y = V42BIS) as Hy by (rewrite <- Ha; tauto). split; [|exists x; auto].
  split; [exact K|]. split; [split|split].
  - intros E. exfalso. rewrite E in Hy. destruct Hy; discriminate.
  - left. destruct K as (_ & _ & _ & _ & K & _). destruct (x_prof y); [reflexivity|]. exfalso. destruct K as [E _]; [discriminate|]. rewrite E in Hy. destruct Hy; discriminate.
  - split; [exact P|]. exists x. rewrite <- in_rev. auto.
  - destruct Hy as [-> | ->]; discriminate.
Qed.
Lemma find_entity xs x (y : xf) : NoDup (map x_entity xs) -> In x xs -> x_entity x = x_entity y -> find (fun z => x_entity z =? x_entity y) xs = Some x.
Proof.
  intros N Hin E. destruct (find (fun z => x_entity z =? x_entity y) xs) as [z|] eqn:F.
  - apply find_some in F as [F1 F2]. f_equal. apply (entity_inj xs); try assumption. lia.
  - pose proof (find_none _ _ F x Hin) as G. cbn beta in G. lia.
Qed.
Lemma merged_given xs y : request xs -> replies xs y -> (x_alg y = RFC1144 \/ x_alg y = V42BIS) -> whole (merged xs y) /\ meaning (rev xs) y = given false (merged xs y) /\ x_entity (merged xs y) = x_entity y.
Proof.
  intros [F N] (K & P & x & Hin & He & Ha) Hy. rewrite Forall_forall in F. destruct (F x Hin) as (Kx & Px & cs & Ecs).
  unfold meaning. rewrite perm_rev_look by (intros a b A1 A2 A3 A4; apply (entity_inj xs); try assumption; lia). unfold merged. rewrite (find_entity xs x y N Hin He).
  destruct K as (K1 & K2 & (rest & K3) & K4 & K5 & K6 & K7). destruct Kx as (X1 & X2 & X3 & X4 & X5 & X6 & X7).
  assert (x_prof y = []) as Py. { destruct (x_prof y); [reflexivity|]. destruct K5 as [E _]; [discriminate|]. rewrite E in Hy. destruct Hy; discriminate. }
  assert (x_prof x = []) as Px'. { destruct (x_prof x); [reflexivity|]. destruct X5 as [E _]; [discriminate|]. rewrite <- Ha, E in Hy. destruct Hy; discriminate. }
  split; [|split; [unfold given, comps_of; cbn [x_entity x_alg x_prop x_nsapi x_vals x_prof]; rewrite Py, Px'; reflexivity|reflexivity]].
  assert (par_ok (x_alg y) (x_vals y ++ skipn (length (x_vals y)) (x_vals x))) as PO.
  { destruct Hy as [E|E]; rewrite E in *; rewrite Ha in Px.
    - destruct (x_vals x) as [|a [|]]; try destruct Px. destruct (x_vals y) as [|b [|b' l]]; cbn [app skipn length]; [cbn; lia|cbn in *; destruct rest; [lia|destruct K3]|cbn in K3; destruct K3].
    - destruct (x_vals x) as [|a [|a1 [|a2 [|]]]]; try destruct Px. destruct (x_vals y) as [|b [|b1 [|b2 [|b3 l]]]]; cbn [app skipn length] in *.
      + cbn. lia.
      + destruct rest as [|? [|? [|]]]; cbn in *; lia.
      + destruct rest as [|? [|]]; cbn in *; lia.
      + destruct rest as [|]; cbn in *; lia.
      + destruct K3. }
  split; [|split; [exact PO|exists cs; exact Ecs]]. split; [exact K1|]. split; [exact K2|]. split; [exists []; cbn [x_alg x_vals]; rewrite app_nil_r; exact PO|]. cbn [x_prop x_alg x_prof]. rewrite Ecs in *. rewrite <- Ha. split; [exact X4|]. split; [intros H; exfalso; apply H; reflexivity|]. split; [cbn; lia|constructor].
Qed.

(** The request as read back when the answer is there. *)
Lemma reread n pc dc : 5 <= n <= 15 -> pc_ok pc -> dc_ok dc ->
  parse_xid false (msg (block_of 0 (wanted n pc dc))) (zlen (msg (block_of 0 (wanted n pc dc)))) None = Ok (Some (None, map x_field (rev (wanted n pc dc)))).
Proof.
  intros Hn Hp Hd. pose proof (wanted_request n pc dc Hn Hp Hd) as RQ.
  assert (parse_xid true (msg (block_of 0 (wanted n pc dc))) (zlen (msg (block_of 0 (wanted n pc dc)))) None = Ok (Some (Some (version_of (block_of 0 (wanted n pc dc))), fields_of (block_of 0 (wanted n pc dc))))) as P1.
  { rewrite <- (app_nil_r (msg (block_of 0 (wanted n pc dc)))) at 1. apply parse_elems; [split; [cbn; lia|apply block_len]|].
    assert (Forall (fun x => xf_ok x /\ readable x /\ (exists cs, x_prop x = Some cs)) (rev (wanted n pc dc))) as Fr.
    { apply Forall_rev. apply Forall_forall. intros x Hx. destruct RQ as [F _]. rewrite Forall_forall in F. destruct (F x Hx) as (K1 & K2 & K3). split; [exact K1|]. split; [|exact K3]. destruct (wanted_cases _ _ _ _ Hx) as ([[A _]|[A _]] & B & _); (split; [intros E; rewrite A in E; discriminate|rewrite B; left; reflexivity]). }
    pose proof (wanted_len n pc dc 1). pose proof (wanted_len n pc dc 2).
    unfold block_of. apply Forall_app. split; [constructor; [split; [cbn; lia|constructor]|constructor]|]. apply Forall_app. split; apply elems_read; auto; rewrite wanted_rev; lia. }
  apply parse_want in P1. rewrite fields_block, wanted_order in P1.
  exact P1.
Qed.
Theorem take c m s e n pc dc es room : mobile_ok m -> by_sapi m s = Some e -> 5 <= n <= 15 -> pc_ok pc -> dc_ok dc -> wanted n pc dc <> [] -> e_req e = asking n pc dc ->
  (1 <= length es <= 3)%nat -> Forall elem_ok es -> Forall (replies (wanted n pc dc)) (concat (map e_fields es)) ->
  exists pt dt, ll_xid_cnf c m s (msg es ++ room) (zlen (msg es)) = Ok (confirm (mkM (m_sne m) pt dt) e) /\
    (pt, dt) = fold_left (upd2 c) (rev (map (merged (wanted n pc dc)) (concat (map e_fields es)))) (m_proto m, m_data m) /\ table_ok 2 pt /\ table_ok 1 dt.
Proof.
  intros (S & R & T2 & T1) Hs Hn Hp Hd Hw Hq Hl He Hr. pose proof (wanted_request n pc dc Hn Hp Hd) as RQ.
  unfold ll_xid_cnf. rewrite Hs, Hq. unfold asking. destruct (wanted n pc dc) as [|x0 l0] eqn:Ew; [congruence|]. rewrite <- Ew in *. clear x0 l0 Ew Hw.
  pose proof (reread n pc dc Hn Hp Hd) as P1.
  assert (exists b q, msg (block_of 0 (wanted n pc dc)) = b :: q) as (b & q & Eq) by (unfold block_of, msg; cbn; eauto). rewrite Eq in *. rewrite P1. cbn [bind].
  assert (request (rev (wanted n pc dc))) as RR. { destruct RQ as [F N]. split; [apply Forall_rev; exact F|]. rewrite map_rev. apply NoDup_rev. exact N. }
  assert (Forall (good (rev (wanted n pc dc))) (concat (map e_fields es))) as G by (revert Hr; apply Forall_impl; intros y Hy; apply replies_good; exact Hy).
  pose proof (parse_want _ _ _ _ (answer_ok (rev (wanted n pc dc)) es room RR Hl He G)) as P2. rewrite P2. cbn [bind].
  set (ys := concat (map e_fields es)) in *.
  assert (rev (map (meaning (rev (wanted n pc dc))) ys) = map (given false) (rev (map (merged (wanted n pc dc)) ys))) as EM.
  { rewrite map_rev, map_map. f_equal. apply map_ext_in. intros y Hy. rewrite Forall_forall in Hr. destruct (replies_good _ _ _ _ (Hr y Hy)) as (_ & x & _ & _ & _ & Ha). apply (merged_given _ _ RQ (Hr y Hy) Ha). }
  rewrite EM.
  assert (Forall whole (rev (map (merged (wanted n pc dc)) ys))) as W.
  { apply Forall_rev. rewrite Forall_map. apply Forall_forall. intros y Hy. rewrite Forall_forall in Hr. destruct (replies_good _ _ _ _ (Hr y Hy)) as (_ & x & _ & _ & _ & Ha). apply (merged_given _ _ RQ (Hr y Hy) Ha). }
  destruct (handle_all_ok c false _ (m_proto m) (m_data m) W T2 T1) as (EH & T2' & T1'). cbv zeta in EH. rewrite EH. cbn [bind].
  destruct (fold_left (upd2 c) (rev (map (merged (wanted n pc dc)) ys)) (m_proto m, m_data m)) as [pt dt] eqn:EF. cbn [fst snd] in *. exists pt, dt. auto.
Qed.
