(** Proofs about the model of GPRS mobility management: invariants of all executions. *)
From Verif.Lib Require Import Base Outcome.
From Verif.Gmm Require Import TmrModel GmmModel.

(** ** Reasoning about functions of one entity *)
Definition okm {A} (m : M A) (g : gmme) (Q : gmme -> list out -> A -> Prop) : Prop :=
  match m g with Ok (g', o, a) => Q g' o a | _ => False end.

Lemma okm_bind : forall A B (m : M A) (f : A -> M B) g (R : gmme -> list out -> A -> Prop) Q,
  okm m g R ->
  (forall g' o a, R g' o a -> okm (f a) g' (fun g2 o2 b => Q g2 (o ++ o2) b)) -> okm (bindM m f) g Q.
Proof.
  unfold okm, bindM; intros A B m f g R Q Hm Hf.
  destruct (m g) as [[[g1 o1] a]| |]; try easy.
  specialize (Hf g1 o1 a Hm). destruct (f a g1) as [[[g2 o2] b]| |]; easy.
Qed.
Lemma okm_ret : forall A (a : A) g (Q : gmme -> list out -> A -> Prop), Q g [] a -> okm (ret a) g Q.
Proof. easy. Qed.
Lemma okm_get : forall A (f : gmme -> M A) g Q, okm (f g) g Q -> okm (bindM get f) g Q.
Proof. unfold okm, bindM, get; intros. destruct (f g g) as [[[? ?] ?]| |]; easy. Qed.
Lemma okm_upd : forall f g (Q : gmme -> list out -> unit -> Prop), Q (f g) [] tt -> okm (upd f) g Q.
Proof. easy. Qed.
Lemma okm_upd_bind : forall A f (k : unit -> M A) g Q, okm (k tt) (f g) Q -> okm (bindM (upd f) k) g Q.
Proof. unfold okm, bindM, upd; intros. destruct (k tt (f g)) as [[[? ?] ?]| |]; easy. Qed.
Lemma okm_weaken : forall A (m : M A) g (R Q : gmme -> list out -> A -> Prop),
  okm m g R -> (forall g' o a, R g' o a -> Q g' o a) -> okm m g Q.
Proof. unfold okm; intros A m g R Q H HQ. destruct (m g) as [[[? ?] ?]| |]; auto. Qed.
Lemma okm_liftr : forall A B (r : res A) (a : A) (f : A -> M B) g Q,
  r = Ok a -> okm (f a) g Q -> okm (bindM (liftr r) f) g Q.
Proof. unfold okm, bindM, liftr; intros A B r a f g Q -> H. destruct (f a g) as [[[? ?] ?]| |]; easy. Qed.
Lemma bindM_assoc : forall A B C (m : M A) (f : A -> M B) (h : B -> M C) g,
  bindM (bindM m f) h g = bindM m (fun a => bindM (f a) h) g.
Proof.
  unfold bindM; intros. destruct (m g) as [[[g1 o1] a]| |]; try easy.
  destruct (f a g1) as [[[g2 o2] b]| |]; try easy. destruct (h b g2) as [[[g3 o3] c]| |]; try easy.
  now rewrite app_assoc.
Qed.

(** An invariant kept by a function of one entity, whatever it sends. *)
Definition keeps {A} (I : gmme -> Prop) (m : M A) : Prop := forall g, I g -> okm m g (fun g' _ _ => I g').

Lemma keeps_bind : forall A B (I : gmme -> Prop) (m : M A) (f : A -> M B), keeps I m -> (forall a, keeps I (f a)) -> keeps I (bindM m f).
Proof.
  intros A B I m f Hm Hf g Hg. apply okm_bind with (R := fun g' _ _ => I g'); [now apply Hm |].
  intros g' o a H. exact (Hf a g' H).
Qed.
Lemma keeps_get : forall A (I : gmme -> Prop) (f : gmme -> M A), (forall g, I g -> okm (f g) g (fun g' _ _ => I g')) -> keeps I (bindM get f).
Proof. intros A I f H g Hg. apply okm_get. auto. Qed.
Lemma keeps_ret : forall A (I : gmme -> Prop) (a : A), keeps I (ret a).
Proof. easy. Qed.
Lemma keeps_upd : forall (I : gmme -> Prop) f, (forall g, I g -> I (f g)) -> keeps I (upd f).
Proof. intros I f H g Hg. cbv [okm upd]. auto. Qed.
Lemma keeps_call : forall (I : gmme -> Prop) E o, keeps I (call E o).
Proof. intros I E o g H. exact H. Qed.
Lemma keeps_liftr : forall A B (I : gmme -> Prop) (r : res A) (a : A) (f : A -> M B), r = Ok a -> keeps I (f a) -> keeps I (bindM (liftr r) f).
Proof. intros A B I r a f Hr Hf g Hg. eapply okm_liftr; [exact Hr | apply Hf, Hg]. Qed.

(** ** The invariant *)
Definition tlli_inv (g : gmme) : Prop :=
  tlli g = 0xffffffff \/ tlli g = tlli_local (ptmsi g) \/ tlli g = tlli_foreign (ptmsi g) \/
  (ptmsi g = 0xffffffff /\ 0x78000000 <= tlli g < 0x80000000).

Definition fsm_inv (g : gmme) : Prop :=
  match st g with
  | Null | Dereg => fi_on g = false /\ a_tries g = 0
  | RegInit => fi_T g = 3310 /\ fi_on g = true /\ 0 <= a_tries g <= 3 /\ (a_expl g = true \/ a_impl g = true)
  | Reg | DeregInit => fi_on g = false
  | RauInit => fi_T g = 3330 /\ fi_on g = true
  | SrInit => False
  end.
Definition tmr_inv (g : gmme) : Prop := t3314_on g = true -> t3312_on g = false.
Definition inv (g : gmme) : Prop := fsm_inv g /\ tmr_inv g /\ tlli_inv g.

(** What is assumed of the environment: timers configured and elements of the lengths of the table. *)
Definition env_ok (E : ext) : Prop :=
  0 < d3310 E /\ 0 < d3330 E /\
  forall l p, tlv E l = Some p ->
    (forall v, p 0x19 = Some v -> zlen v = 3) /\ (forall v, p 0x17 = Some v -> 1 <= zlen v) /\
    (forall v, p 0x21 = Some v -> zlen v = 16) /\ (forall v, p 0x08 = Some v -> 1 <= zlen v).

Lemma rd_some : forall l i, 0 <= i < zlen l -> exists b, rd l i = Ok b.
Proof. intros l i H. eexists. now apply rd_ok. Qed.
Lemma rdn_some : forall l i n, 0 <= i -> 0 <= n -> i + n <= zlen l -> exists b, rdn l i n = Ok b.
Proof. intros l i n H1 H2 H3. eexists. now apply rdn_ok. Qed.

Local Ltac fin := repeat match goal with |- _ /\ _ => split end; cbn; auto; try lia.

Section Inv.
Variable E : ext.
Hypothesis HE : env_ok E.

Lemma keeps_tx : forall I f, keeps I (tx E f).
Proof. intros I f. unfold tx. apply keeps_get. intros g Hg. destruct (f g); [now apply keeps_call | exact Hg]. Qed.

Lemma t3312_start_ok : forall g, inv g -> t3314_on g = false ->
  okm t3312_start g (fun g' _ _ => inv g' /\ t3314_on g' = false).
Proof.
  intros g (Hf & Ht & Hl) H0. unfold t3312_start. apply okm_get. destruct (t3312_sec g =? 0).
  - cbv [okm ret]. repeat split; assumption.
  - cbv [okm upd]. repeat split; try assumption. intros X. cbn in X. congruence.
Qed.
Lemma keeps_t3312_stop : keeps inv t3312_stop.
Proof. apply keeps_upd. intros g (Hf & Ht & Hl). repeat split; try assumption. Qed.
Lemma keeps_t3316_stop : keeps inv t3316_stop.
Proof. apply keeps_upd. intros g H. exact H. Qed.
Lemma keeps_t3316_start : keeps inv (t3316_start E).
Proof. unfold t3316_start. destruct (d3316 E =? 0); [apply keeps_ret | apply keeps_upd; intros g H; exact H]. Qed.
Lemma keeps_ready_start : keeps inv ready_start.
Proof.
  unfold ready_start. apply keeps_get. intros g (Hf & Ht & Hl). destruct (t3314_sec g =? 0).
  - cbv [okm ret]. repeat split; assumption.
  - apply okm_upd_bind. cbv [okm t3312_stop upd]. repeat split; try assumption.
Qed.
Lemma ready_stop_ok : forall g, inv g -> okm ready_stop g (fun g' _ _ => inv g' /\ t3314_on g' = false).
Proof.
  intros g H. unfold ready_stop. apply okm_get. destruct (t3314_on g) eqn:X.
  - apply okm_upd_bind. apply t3312_start_ok; [| reflexivity].
    destruct H as (Hf & Ht & Hl). repeat split; try assumption. intros Y. discriminate Y.
  - cbv [okm ret]. split; assumption.
Qed.
Lemma keeps_ready_stop : keeps inv ready_stop.
Proof. intros g H. eapply okm_weaken; [apply ready_stop_ok, H |]. intros g' o a [Hi _]. exact Hi. Qed.
Lemma keeps_if_ready_stop : forall b : bool, keeps inv (if b then ready_stop else ret tt).
Proof. intros []; [apply keeps_ready_stop | apply keeps_ret]. Qed.

(** *** State changes *)
Lemma chg_dereg : forall g, tmr_inv g -> tlli_inv g -> okm (state_chg E Dereg) g (fun g' _ _ => inv g' /\ st g' = Dereg).
Proof.
  intros g Ht Hl. unfold state_chg. apply okm_get.
  replace (out_ok (st g) Dereg) with true by (destruct (st g); reflexivity).
  apply okm_bind with (R := fun g' _ _ => tmr_inv g' /\ tlli_inv g' /\ st g' = Dereg /\ fi_on g' = false).
  { apply okm_upd. repeat split; assumption. }
  intros g1 o1 [] (A1 & A2 & A3 & A4). generalize (st g). intros prev. clear g Ht Hl. unfold on_enter.
  apply okm_bind with (R := fun g' _ _ => inv g' /\ st g' = Dereg).
  { apply okm_upd. split; [| exact A3]. split; [| split; [exact A1 | exact A2]].
    unfold fsm_inv. cbn [st set_a_tries set_a_impl set_a_expl set_a_imsi set_a_type]. rewrite A3.
    split; [exact A4 | reflexivity]. }
  intros g2 o2 [] H. revert g2 H. apply keeps_bind.
  { apply keeps_upd. intros g [(Hf & Ht & Hl) Hs]. split; [| exact Hs]. split; [exact Hf |]. split; [| exact Hl]. intros _. reflexivity. }
  intros _. apply keeps_bind; [apply keeps_upd; intros g X; exact X |]. intros _. apply keeps_get. intros g H.
  assert (K : okm (let* _ := release_ind E in ret tt) g (fun g' _ _ => inv g' /\ st g' = Dereg)).
  { apply okm_bind with (R := fun g' _ _ => inv g' /\ st g' = Dereg); [| intros; now apply okm_ret].
    unfold release_ind. apply okm_get. now apply (keeps_call (fun g' => inv g' /\ st g' = Dereg)). }
  destruct prev; try (now apply okm_ret); (destruct (sess g =? _); [now apply okm_ret | exact K]).
Qed.
Lemma chg_dereg_inv : forall g, inv g -> okm (state_chg E Dereg) g (fun g' _ _ => inv g').
Proof. intros g (_ & Ht & Hl). eapply okm_weaken; [now apply chg_dereg |]. intros g' o a [H _]. exact H. Qed.
Lemma chg_null : forall g, inv g -> st g = Dereg -> okm (state_chg E Null) g (fun g' _ _ => inv g').
Proof.
  intros g (Hf & Ht & Hl) Hs. unfold state_chg. apply okm_get. rewrite Hs. cbn [out_ok].
  unfold fsm_inv in Hf. rewrite Hs in Hf. destruct Hf as [_ Ha].
  apply okm_upd_bind. cbv [okm on_enter t3316_stop upd]. split; [| split; assumption].
  split; [reflexivity | exact Ha].
Qed.
Lemma chg_reg_init : forall g, inv g -> st g = Dereg -> (a_expl g = true \/ a_impl g = true) ->
  okm (state_chg E RegInit) g (fun g' _ _ => inv g').
Proof.
  intros g (Hf & Ht & Hl) Hs Ha. unfold state_chg. apply okm_get. rewrite Hs. cbn [out_ok].
  unfold fsm_inv in Hf. rewrite Hs in Hf. destruct Hf as [_ Hn]. destruct HE as (H1 & _ & _).
  apply okm_upd_bind. cbv [okm on_enter ret]. split; [| split; assumption].
  unfold fsm_inv. cbn [st fi_T fi_on a_tries a_expl a_impl set_fi_on set_fi_T set_st tmo tmo_val].
  rewrite Hn. split; [reflexivity |]. split; [destruct (Z.eqb_spec (d3310 E) 0); [lia | reflexivity] |].
  split; [lia | exact Ha].
Qed.
Lemma chg_reg : forall g, inv g -> out_ok (st g) Reg = true -> okm (state_chg E Reg) g (fun g' _ _ => inv g' /\ st g' = Reg).
Proof.
  intros g (Hf & Ht & Hl) Hs. unfold state_chg. apply okm_get. rewrite Hs.
  apply okm_upd_bind. cbv [okm on_enter upd]. split; [split; [reflexivity | split; assumption] | reflexivity].
Qed.
Lemma chg_dereg_init : forall g, inv g -> st g = Reg -> okm (state_chg E DeregInit) g (fun g' _ _ => inv g').
Proof.
  intros g (Hf & Ht & Hl) Hs. unfold state_chg. apply okm_get. rewrite Hs. cbn [out_ok].
  apply okm_upd_bind. cbv [okm on_enter ret]. split; [reflexivity | split; assumption].
Qed.
Lemma chg_rau_init : forall g, inv g -> st g = Reg -> okm (state_chg E RauInit) g (fun g' _ _ => inv g').
Proof.
  intros g (Hf & Ht & Hl) Hs. unfold state_chg. apply okm_get. rewrite Hs. cbn [out_ok].
  destruct HE as (_ & H1 & _).
  apply okm_upd_bind. cbv [okm on_enter ret]. split; [| split; assumption].
  unfold fsm_inv. cbn [st fi_T fi_on set_fi_on set_fi_T set_st tmo tmo_val].
  split; [reflexivity |]. destruct (Z.eqb_spec (d3330 E) 0); [lia | reflexivity].
Qed.

Lemma keeps_cnf : forall I b c, keeps I (attach_cnf E b c).
Proof. intros I b c. unfold attach_cnf. apply keeps_get. intros g H. now apply keeps_call. Qed.
Lemma keeps_est : forall I b c, keeps I (establish_cnf E b c).
Proof. intros I b c. unfold establish_cnf. apply keeps_get. intros g H. now apply keeps_call. Qed.
Lemma keeps_bool : forall A I (b : bool) (m n : M A), keeps I m -> keeps I n -> keeps I (if b then m else n).
Proof. intros A I [] m n Hm Hn; assumption. Qed.

Lemma attach_failed_ok : forall c g, tmr_inv g -> tlli_inv g -> okm (attach_failed E c) g (fun g' _ _ => inv g' /\ st g' = Dereg).
Proof.
  intros c g Ht Hl. unfold attach_failed. apply okm_get.
  apply okm_bind with (R := fun g' _ _ => inv g' /\ st g' = Dereg); [now apply chg_dereg |].
  intros g1 o1 [] H1.
  assert (K : keeps (fun g' => inv g' /\ st g' = Dereg)
    (let* rc := (if a_expl g then attach_cnf E false c else ret 0) in
     if rc <? 0 then ret tt else
     let* _ := (if a_impl g then establish_cnf E false c else ret 0) in ret tt)).
  { apply keeps_bind; [apply keeps_bool; [apply keeps_cnf | apply keeps_ret] |]. intros rc.
    apply keeps_bool; [apply keeps_ret |]. apply keeps_bind; [| intros; apply keeps_ret].
    apply keeps_bool; [apply keeps_est | apply keeps_ret]. }
  exact (K g1 H1).
Qed.

Lemma reinit_attach_ok : forall g, inv g -> st g = RegInit -> okm (reinit_attach E) g (fun g' _ _ => inv g').
Proof.
  intros g H Hs. unfold reinit_attach. apply okm_get. destruct H as (Hf & Ht & Hl).
  pose proof Hf as Hf'. unfold fsm_inv in Hf'. rewrite Hs in Hf'. destruct Hf' as (H1 & H2 & H3 & H4).
  rewrite Hs, H1. cbn [is_state andb Z.eqb]. change (3310 =? 3310) with true. cbn [andb].
  apply okm_upd_bind. apply keeps_tx. split; [| split; assumption].
  unfold fsm_inv. cbn [st fi_T fi_on a_tries a_expl a_impl set_fi_on]. rewrite Hs. exact (conj H1 (conj eq_refl (conj H3 H4))).
Qed.

(** *** Events *)
Lemma dispatch_ok : forall e g, inv g -> (e = EvAttReq -> a_expl g = true \/ a_impl g = true) ->
  okm (dispatch E e) g (fun g' _ _ => inv g').
Proof.
  intros e g H Ha.
  assert (K : forall m : M unit, okm m g (fun g' _ _ => inv g') -> okm (m ;; ret 0) g (fun g' _ _ => inv g')).
  { intros m Hm. apply okm_bind with (R := fun g' _ _ => inv g'); [exact Hm |]. intros. now apply okm_ret. }
  assert (KZ : forall m : M Z, okm m g (fun g' _ _ => inv g') -> okm (let* _ := m in ret tt) g (fun g' _ _ => inv g')).
  { intros m Hm. apply okm_bind with (R := fun g' _ _ => inv g'); [exact Hm |]. intros. now apply okm_ret. }
  assert (D : okm (state_chg E Dereg) g (fun g' _ _ => inv g')) by now apply chg_dereg_inv.
  assert (R : out_ok (st g) Reg = true -> okm (state_chg E Reg) g (fun g' _ _ => inv g')).
  { intros Ho. eapply okm_weaken; [now apply chg_reg |]. intros g' o a [X _]. exact X. }
  assert (F : forall c, okm (attach_failed E c) g (fun g' _ _ => inv g')).
  { intros c. eapply okm_weaken; [apply attach_failed_ok; apply H |]. intros g' o a [X _]. exact X. }
  destruct e; unfold dispatch; try (apply okm_get; destruct (st g) eqn:Hs; cbn [in_ok]; try (now apply okm_ret);
    apply K; cbn [action act_null act_dereg act_reg_init act_reg act_dereg_init act_rau_init]; auto).
  - now apply chg_null.
  - apply okm_get. apply okm_bind with (R := fun g' _ _ => inv g' /\ st g' = Dereg /\ (a_expl g' = true \/ a_impl g' = true)).
    { apply (keeps_tx (fun g' => inv g' /\ st g' = Dereg /\ (a_expl g' = true \/ a_impl g' = true))). auto. }
    intros g1 o1 rc (H1 & H2 & H3). destruct (rc <? 0); [now apply okm_ret |]. now apply chg_reg_init.
  - apply KZ. now apply reinit_attach_ok.
  - apply okm_bind with (R := fun g' _ _ => inv g' /\ st g' = Reg); [apply chg_reg; [exact H | now rewrite Hs] |].
    intros g1 o1 [] [H1 _]. revert g1 H1. apply keeps_get. intros g1 H1.
    apply okm_bind with (R := fun g' _ _ => inv g').
    { destruct (a_expl g1); [now apply keeps_cnf | now apply okm_ret]. }
    intros g2 o2 rc H2. destruct (rc <? 0); [now apply okm_ret |].
    apply okm_get. apply okm_bind with (R := fun g' _ _ => inv g').
    { destruct (a_impl g2); [now apply keeps_est | now apply okm_ret]. }
    intros. now apply okm_ret.
  - now apply chg_dereg_init.
  - apply K. exact D.
  - apply okm_get. apply okm_bind with (R := fun g' _ _ => inv g' /\ st g' = Reg).
    { apply (keeps_call (fun g' => inv g' /\ st g' = Reg)). auto. }
    intros g1 o1 rc1 H1. apply okm_bind with (R := fun g' _ _ => inv g' /\ st g' = Reg).
    { apply (keeps_tx (fun g' => inv g' /\ st g' = Reg)). auto. }
    intros g2 o2 rc [H2 H3]. destruct (rc <? 0); [now apply okm_ret |]. now apply chg_rau_init.
  - destruct (_ || _); auto.
  - apply okm_bind with (R := fun g' _ _ => inv g' /\ st g' = RauInit).
    { apply (keeps_upd (fun g' => inv g' /\ st g' = RauInit)); auto. }
    intros g1 o1 [] [H1 H2]. revert g1 H1 H2. intros g1 H1 H2. apply okm_get.
    apply okm_bind with (R := fun g' _ _ => inv g' /\ st g' = RauInit).
    { apply (keeps_call (fun g' => inv g' /\ st g' = RauInit)). auto. }
    intros g2 o2 rc [H3 H4]. eapply okm_weaken; [apply chg_reg; [exact H3 | now rewrite H4] |]. intros g' o a [X _]. exact X.
Qed.

Lemma keeps_dispatch : forall e, e <> EvAttReq -> keeps inv (dispatch E e).
Proof. intros e He g H. apply dispatch_ok; [exact H |]. intros X. contradiction. Qed.

Lemma fsm_timeout_ok : forall g, inv g -> fi_on g = true -> okm (fsm_timeout E) g (fun g' _ _ => inv g').
Proof.
  intros g H Hon. destruct H as (Hf & Ht & Hl). unfold fsm_inv in Hf.
  assert (KZ : forall (m : M Z) g1, okm m g1 (fun g' _ _ => inv g') -> okm (let* _ := m in ret tt) g1 (fun g' _ _ => inv g')).
  { intros m g1 Hm. apply okm_bind with (R := fun g' _ _ => inv g'); [exact Hm |]. intros. now apply okm_ret. }
  destruct (st g) eqn:Hs.
  - destruct Hf as [X _]. congruence.
  - destruct Hf as [X _]. congruence.
  - destruct Hf as (H1 & _ & H3 & H4). unfold fsm_timeout.
    apply okm_bind with (R := fun g' _ _ => tmr_inv g' /\ tlli_inv g' /\ st g' = RegInit /\ fi_T g' = 3310 /\
                                  0 <= a_tries g' <= 3 /\ (a_expl g' = true \/ a_impl g' = true)).
    { apply okm_upd. exact (conj Ht (conj Hl (conj Hs (conj H1 (conj H3 H4))))). }
    clear g Ht Hl Hs H1 H3 H4 Hon. intros g o [] (Ht & Hl & Hs & H1 & H3 & H4).
    apply okm_get. rewrite H1, Hs. change (3310 =? 3310) with true. cbv iota zeta. cbn [is_state].
    replace (u8 (a_tries g + 1)) with (a_tries g + 1) by (unfold u8; rewrite Z.mod_small; lia).
    apply okm_bind with (R := fun g' _ _ => tmr_inv g' /\ tlli_inv g' /\ st g' = RegInit /\ fi_T g' = 3310 /\
                                  a_tries g' = a_tries g + 1 /\ (a_expl g' = true \/ a_impl g' = true)).
    { apply okm_upd. exact (conj Ht (conj Hl (conj Hs (conj H1 (conj eq_refl H4))))). }
    clear Ht Hl Hs H1 H4. intros g1 o1 [] (Ht & Hl & Hs & H1 & H2 & H4). destruct (Z.eqb_spec (a_tries g + 1) 4) as [X|X].
    + apply KZ. unfold dispatch. apply okm_get. rewrite Hs. cbn [in_ok action act_reg_init].
      apply okm_bind with (R := fun g' _ _ => inv g' /\ st g' = Dereg); [now apply attach_failed_ok |].
      intros g2 o2 [] [Y _]. now apply okm_ret.
    + apply KZ. unfold reinit_attach. apply okm_get. rewrite Hs, H1. change (3310 =? 3310) with true. cbn [is_state andb].
      apply okm_upd_bind. apply keeps_tx. split; [| exact (conj Ht Hl)].
      unfold fsm_inv. cbn [st fi_T fi_on a_tries a_expl a_impl set_fi_on]. rewrite Hs.
      split; [exact H1 |]. split; [reflexivity |]. split; [lia | exact H4].
  - congruence.
  - congruence.
  - destruct Hf as (H1 & _). unfold fsm_timeout.
    apply okm_bind with (R := fun g' _ _ => tmr_inv g' /\ tlli_inv g' /\ st g' = RauInit /\ fi_T g' = 3330).
    { apply okm_upd. exact (conj Ht (conj Hl (conj Hs H1))). }
    clear g Ht Hl Hs H1 Hon. intros g o [] (Ht & Hl & Hs & H1).
    apply okm_get. rewrite H1, Hs. change (3330 =? 3310) with false. change (3330 =? 3330) with true. cbv iota zeta. cbn [is_state].
    apply okm_bind with (R := fun g' _ _ => tmr_inv g' /\ tlli_inv g' /\ st g' = RauInit /\ fi_T g' = 3330).
    { apply okm_upd. exact (conj Ht (conj Hl (conj Hs H1))). }
    generalize (u8 (r_tries g + 1)). intros n.
    clear g Ht Hl Hs H1. intros g o1 [] (Ht & Hl & Hs & H1). destruct (n =? 4).
    + apply KZ. unfold dispatch. apply okm_get. rewrite Hs. cbn [in_ok action act_rau_init].
      unfold state_chg. apply okm_bind with (R := fun g' _ _ => inv g'); [| intros; now apply okm_ret].
      apply okm_get. rewrite Hs. cbn [out_ok]. apply okm_upd_bind. cbv [okm on_enter upd].
      split; [reflexivity | exact (conj Ht Hl)].
    + apply KZ. unfold reinit_rau. apply okm_get. rewrite Hs, H1. change (3330 =? 3330) with true. cbn [is_state andb].
      apply okm_upd_bind. apply keeps_tx. split; [| exact (conj Ht Hl)].
      unfold fsm_inv. cbn [st fi_T fi_on set_fi_on]. rewrite Hs. split; [exact H1 | reflexivity].
  - contradiction.
Qed.

(** *** Requests of the upper layers *)
Lemma request_attach_ok : forall type w ex, keeps inv (request_attach E type w ex).
Proof.
  intros type w ex g H. unfold request_attach.
  apply okm_bind with (R := fun g' _ _ => inv g'); [apply okm_upd; exact H |]. intros g1 _ [] H1.
  apply okm_bind with (R := fun g' _ _ => inv g' /\ (a_expl g' = true \/ a_impl g' = true)).
  { apply okm_upd. destruct H1 as (Hf & Ht & Hl). split.
    - split; [| destruct ex; exact (conj Ht Hl)]. unfold fsm_inv in Hf |- *.
      destruct ex; cbn [st fi_T fi_on a_tries a_expl a_impl set_a_expl set_a_impl];
        (destruct (st g1); try exact Hf; destruct Hf as (F1 & F2 & F3 & F4)).
      + exact (conj F1 (conj F2 (conj F3 (or_introl eq_refl)))).
      + exact (conj F1 (conj F2 (conj F3 (or_intror eq_refl)))).
    - destruct ex; [left | right]; reflexivity. }
  intros g2 _ [] [H2 H3]. apply dispatch_ok; auto.
Qed.
Lemma keeps_request_rau : forall t, keeps inv (request_rau E t).
Proof.
  intros t. unfold request_rau. apply keeps_bind; [apply keeps_upd; intros g H; exact H |]. intros _. now apply keeps_dispatch.
Qed.
Lemma keeps_request_detach : forall type off, off = 0 \/ off = 1 -> keeps inv (request_detach E type off).
Proof.
  intros type off Ho. unfold request_detach. apply keeps_bind; [apply keeps_upd; intros g H; exact H |]. intros _.
  apply keeps_bind; [| intros; apply keeps_tx].
  destruct Ho as [-> | ->]; cbn [Z.eqb]; [change (0 =? 0) with true | change (1 =? 0) with false; change (1 =? 1) with true];
    cbv iota; now apply keeps_dispatch.
Qed.
Lemma keeps_set_imeis : forall q, keeps inv (set_imeis q).
Proof.
  intros q. unfold set_imeis. apply keeps_bind.
  - destruct (q_imei q); [apply keeps_ret | apply keeps_upd; intros g H; exact H].
  - intros _. destruct (q_imeisv q); [apply keeps_ret | apply keeps_upd; intros g H; exact H].
Qed.
Lemma keeps_attach_req : forall q, keeps inv (attach_req E q).
Proof.
  intros q. unfold attach_req. apply keeps_bind; [apply keeps_set_imeis |]. intros _.
  apply keeps_bind; [apply keeps_upd; intros g H; exact H |]. intros _.
  apply keeps_bind; [apply keeps_upd; intros g H; exact H |]. intros _. apply request_attach_ok.
Qed.
Lemma keeps_establish_req : forall i q, keeps inv (establish_req E i q).
Proof.
  intros i q. unfold establish_req. apply keeps_bind; [apply keeps_upd; intros g H; exact H |]. intros _.
  apply keeps_bind; [apply keeps_upd; intros g H; exact H |]. intros _. apply keeps_get. intros g H.
  destruct (is_state (st g) Reg); [now apply keeps_est |]. revert g H.
  apply keeps_bind; [apply keeps_set_imeis |]. intros _.
  apply keeps_bind; [apply keeps_upd; intros g H; exact H |]. intros _. apply request_attach_ok.
Qed.
Lemma keeps_ll_assign : forall I, keeps I (ll_assign E).
Proof. intros I. unfold ll_assign. apply keeps_get. intros g H. now apply keeps_call. Qed.
Lemma keeps_rr_assign : forall I, keeps I (rr_assign E).
Proof. intros I. unfold rr_assign. apply keeps_get. intros g H. now apply keeps_call. Qed.
Lemma keeps_set_ref : forall r, keeps inv (upd (set_ac_ref r)).
Proof. intros r. apply keeps_upd. intros g H. exact H. Qed.
Lemma keeps_auth_fail : forall c, keeps inv (tx_auth_ciph_fail E c).
Proof.
  intros c. unfold tx_auth_ciph_fail. apply keeps_bind; [apply keeps_t3316_stop |]. intros _.
  apply keeps_bind; [apply keeps_set_ref |]. intros _. apply keeps_tx.
Qed.
Lemma keeps_sim_auth_rsp : forall s k, keeps inv (sim_auth_rsp E s k).
Proof.
  intros s k. unfold sim_auth_rsp. apply keeps_bind; [apply keeps_upd; intros g H; exact H |]. intros _.
  apply keeps_bind; [apply keeps_t3316_start |]. intros _. apply keeps_bind; [apply keeps_ll_assign |]. intros rc.
  apply keeps_bool.
  - apply keeps_bind; [apply keeps_set_ref |]. intros _. apply keeps_bind; [apply keeps_auth_fail |]. intros. apply keeps_ret.
  - apply keeps_bind; [apply keeps_tx |]. intros rc2. apply keeps_bind; [apply keeps_set_ref |]. intros. apply keeps_ret.
Qed.

(** *** Messages of the network *)
Lemma keeps_update_ptmsi : forall t, keeps inv (update_ptmsi t).
Proof.
  intros t. apply keeps_upd. intros g (Hf & Ht & _). split; [exact Hf |]. split; [exact Ht |]. right. left. reflexivity.
Qed.
Lemma keeps_alloc : forall p, keeps inv (rx_alloc_ptmsi E p).
Proof.
  intros p. unfold rx_alloc_ptmsi. destruct (p IE_ALLOC_PTMSI); [| apply keeps_ret].
  destruct (mi_dec E l) as [[]|]; try apply keeps_ret. apply keeps_bind; [apply keeps_update_ptmsi |]. intros. apply keeps_ret.
Qed.
Lemma keeps_sig : forall l p, tlv E l = Some p -> keeps inv (rx_ptmsi_sig p).
Proof.
  intros l p Hp. destruct HE as (_ & _ & HT). destruct (HT l p Hp) as (H1 & _).
  unfold rx_ptmsi_sig. change IE_PTMSI_SIG with 0x19. destruct (p 0x19) as [v|]; [| apply keeps_upd; intros g H; exact H].
  specialize (H1 v eq_refl).
  destruct (rd_some v 0) as [a Ra]; [lia |]. destruct (rd_some v 1) as [b Rb]; [lia |]. destruct (rd_some v 2) as [c Rc]; [lia |].
  unfold rdM. eapply keeps_liftr; [exact Ra |]. eapply keeps_liftr; [exact Rb |]. eapply keeps_liftr; [exact Rc |].
  apply keeps_upd. intros g H. exact H.
Qed.
Lemma keeps_ready_timer : forall l p, tlv E l = Some p -> keeps inv (rx_ready_timer E p).
Proof.
  intros l p Hp. destruct HE as (_ & _ & HT). destruct (HT l p Hp) as (_ & H1 & _).
  unfold rx_ready_timer. apply keeps_bind.
  - change IE_TIMER_READY with 0x17. destruct (p 0x17) as [v|]; [| apply keeps_upd; intros g H; exact H].
    destruct (rd_some v 0) as [a Ra]; [specialize (H1 v eq_refl); lia |]. unfold rdM. eapply keeps_liftr; [exact Ra |].
    apply keeps_upd. intros g H. exact H.
  - intros _. apply keeps_get. intros g H. destruct (t3314_sec g =? 0); [| now apply okm_ret].
    apply okm_bind with (R := fun g' _ _ => inv g' /\ t3314_on g' = false); [now apply ready_stop_ok |].
    intros g1 o1 _ [A1 A2]. eapply okm_weaken; [now apply t3312_start_ok |]. intros g' o a [X _]. exact X.
Qed.
Lemma keeps_t3302 : forall p, keeps inv (rx_t3302 p).
Proof. intros p. unfold rx_t3302. destruct (p IE_T3302) as [[|o l]|]; try apply keeps_ret. apply keeps_upd. intros g H. exact H. Qed.
Lemma keeps_t3346 : forall p, keeps inv (rx_t3346 p).
Proof. intros p. unfold rx_t3346. destruct (p IE_T3346) as [[|o l]|]; try apply keeps_ret. apply keeps_upd. intros g H. exact H. Qed.
Lemma keeps_rau_timer : forall o b, keeps inv (rx_rau_timer o b).
Proof.
  intros o b. unfold rx_rau_timer. apply keeps_bind; [apply keeps_upd; intros g H; exact H |]. intros _.
  apply keeps_bind; [destruct (_ =? _); [apply keeps_t3312_stop | apply keeps_ret] |]. intros _. apply keeps_if_ready_stop.
Qed.

Ltac rd1 pdu i := let b := fresh "b" in let H := fresh "R" in
  destruct (rd_some pdu i) as [b H]; [lia |]; unfold rdM; eapply keeps_liftr; [exact H |]; clear H.
Ltac bnd := apply keeps_bind.
Ltac updk := apply keeps_upd; let g := fresh in let H := fresh in intros g H; exact H.

Lemma keeps_tail : forall (m : M Z), keeps inv m ->
  keeps inv (let* rc := ll_assign E in if rc <? 0 then ret (- EINVAL) else
             let* rc := rr_assign E in if rc <? 0 then ret (- EINVAL) else m).
Proof.
  intros m Hm. bnd; [apply keeps_ll_assign |]. intros rc. apply keeps_bool; [apply keeps_ret |].
  bnd; [apply keeps_rr_assign |]. intros rc2. apply keeps_bool; [apply keeps_ret | exact Hm].
Qed.

Lemma keeps_att_ack : forall pdu, keeps inv (rx_att_ack E pdu).
Proof.
  intros pdu. unfold rx_att_ack. destruct (zlen pdu <? 11) eqn:X; [apply keeps_ret |].
  rd1 pdu 2. rd1 pdu 3. rd1 pdu 4. destruct (rdn_some pdu 5 6) as [r R]; [lia | lia | lia |]. eapply keeps_liftr; [exact R |].
  bnd; [updk |]. intros _. bnd; [apply keeps_rau_timer |]. intros _. bnd; [updk |]. intros _. bnd.
  - apply keeps_bool; [| apply keeps_ret]. destruct (tlv E (skipn 11 pdu)) as [p|] eqn:Hp; [| apply keeps_ret].
    bnd; [eapply keeps_sig, Hp |]. intros _. bnd; [eapply keeps_ready_timer, Hp |]. intros _.
    bnd; [apply keeps_alloc |]. intros ok. apply keeps_bool; [| apply keeps_ret].
    bnd; [apply keeps_t3302 |]. intros. apply keeps_ret.
  - intros ok. apply keeps_bool; [apply keeps_ret |]. apply keeps_tail. bnd; [apply keeps_tx |]. intros rc.
    apply keeps_bool; [apply keeps_ret |]. now apply keeps_dispatch.
Qed.
Lemma keeps_att_rej : forall pdu, keeps inv (rx_att_rej E pdu).
Proof.
  intros pdu. unfold rx_att_rej. destruct (zlen pdu <? 3) eqn:X; [apply keeps_ret |]. rd1 pdu 2. bnd.
  - apply keeps_bool; [| apply keeps_ret]. destruct (tlv E (skipn 3 pdu)); [| apply keeps_ret].
    bnd; [apply keeps_t3302 |]. intros _. bnd; [apply keeps_t3346 |]. intros. apply keeps_ret.
  - intros ok. apply keeps_bool; [now apply keeps_dispatch | apply keeps_ret].
Qed.
Lemma keeps_detach_accept : forall pdu, keeps inv (rx_detach_accept E pdu).
Proof.
  intros pdu. unfold rx_detach_accept. destruct (zlen pdu <? 3) eqn:X; [apply keeps_ret |]. rd1 pdu 2.
  bnd; [apply keeps_if_ready_stop |]. intros _. bnd.
  { apply keeps_upd. intros g (Hf & Ht & _). split; [exact Hf |]. split; [exact Ht | left; reflexivity]. }
  intros _. bnd; [apply keeps_ll_assign |]. intros rc. apply keeps_bool; [apply keeps_ret |].
  bnd; [unfold detach_cnf; apply keeps_get; intros g H; now apply keeps_call |]. intros rc2.
  apply keeps_bool; [apply keeps_ret |]. now apply keeps_dispatch.
Qed.
Lemma keeps_rau_acc : forall pdu, keeps inv (rx_rau_acc E pdu).
Proof.
  intros pdu. unfold rx_rau_acc. destruct (zlen pdu <? 10) eqn:X; [apply keeps_ret |].
  rd1 pdu 2. rd1 pdu 3. destruct (rdn_some pdu 4 6) as [r R]; [lia | lia | lia |]. eapply keeps_liftr; [exact R |].
  bnd; [apply keeps_rau_timer |]. intros _. bnd; [updk |]. intros _. bnd.
  - apply keeps_bool; [| apply keeps_ret]. destruct (tlv E (skipn 10 pdu)) as [p|] eqn:Hp; [| apply keeps_ret].
    bnd; [eapply keeps_sig, Hp |]. intros _. bnd; [apply keeps_alloc |]. intros ok.
    apply keeps_bool; [apply keeps_ret |]. apply keeps_bool; [apply keeps_ret |].
    bnd; [destruct (p IE_RX_NPDU); [destruct (_ <=? _) |]; updk |]. intros _.
    bnd; [eapply keeps_ready_timer, Hp |]. intros _. bnd; [apply keeps_t3302 |]. intros _.
    bnd; [destruct (p IE_PDP_CTX); [destruct (_ <=? _) |]; updk |]. intros. apply keeps_ret.
  - intros ok. apply keeps_bool; [apply keeps_ret |]. apply keeps_tail. apply keeps_get. intros g H.
    apply okm_bind with (R := fun g' _ _ => inv g').
    { destruct (_ =? _); [now apply okm_ret |]. unfold modify_ind. apply okm_get. now apply keeps_call. }
    intros g1 o1 rc H1. destruct (rc <? 0); [now apply okm_ret |].
    assert (K : keeps inv (let* rc := tx_rau_compl E in if rc <? 0 then ret (- EINVAL) else dispatch E EvRauAcc)).
    { bnd; [apply keeps_tx |]. intros rc2. apply keeps_bool; [apply keeps_ret | now apply keeps_dispatch]. }
    exact (K g1 H1).
Qed.
Lemma keeps_rau_rej : forall pdu, keeps inv (rx_rau_rej E pdu).
Proof.
  intros pdu. unfold rx_rau_rej. destruct (zlen pdu <? 4) eqn:X.
  { bnd; [now apply keeps_dispatch |]. intros. apply keeps_ret. }
  rd1 pdu 2. rd1 pdu 3. bnd; [apply keeps_if_ready_stop |]. intros _. bnd.
  - apply keeps_bool; [| apply keeps_ret]. destruct (tlv E (skipn 4 pdu)); [| apply keeps_ret].
    bnd; [apply keeps_t3302 |]. intros _. apply keeps_t3346.
  - intros _. bnd; [now apply keeps_dispatch |]. intros. apply keeps_ret.
Qed.
Lemma keeps_realloc : forall pdu, keeps inv (rx_ptmsi_realloc_cmd E pdu).
Proof.
  intros pdu. unfold rx_ptmsi_realloc_cmd. destruct (Z.eqb_spec (zlen pdu) 15) as [X|X]; cbn [negb]; [| apply keeps_ret].
  rd1 pdu 2. apply keeps_bool; [apply keeps_ret |].
  destruct (rdn_some pdu 3 5) as [v R]; [lia | lia | lia |]. eapply keeps_liftr; [exact R |]. clear R.
  destruct (mi_dec E v) as [[]|]; try apply keeps_ret. bnd; [apply keeps_update_ptmsi |]. intros _.
  destruct (rdn_some pdu 8 6) as [r R]; [lia | lia | lia |]. eapply keeps_liftr; [exact R |]. clear R.
  bnd; [updk |]. intros _. rd1 pdu 14. bnd; [apply keeps_if_ready_stop |]. intros _. bnd.
  - apply keeps_bool; [| apply keeps_ret]. destruct (tlv E (skipn 15 pdu)) as [p|] eqn:Hp; [| apply keeps_ret].
    bnd; [eapply keeps_sig, Hp |]. intros. apply keeps_ret.
  - intros ok. apply keeps_bool; [apply keeps_ret |]. apply keeps_tail. apply keeps_tx.
Qed.
Lemma keeps_auth_req : forall pdu, keeps inv (rx_auth_ciph_req E pdu).
Proof.
  intros pdu. unfold rx_auth_ciph_req. destruct (zlen pdu <? 4) eqn:X.
  { bnd; [apply keeps_auth_fail |]. intros. apply keeps_ret. }
  rd1 pdu 2. rd1 pdu 3. bnd.
  - apply keeps_bool; [| apply keeps_ret]. destruct (tlv E (skipn 4 pdu)) as [p|] eqn:Hp; [| apply keeps_ret].
    destruct HE as (_ & _ & HT). destruct (HT _ p Hp) as (_ & _ & H1 & H2).
    change IE_AUTH_RAND with 0x21. change IE_CKSN with 0x08.
    destruct (p 0x21) as [v|]; [| apply keeps_ret]. destruct (rdn_some v 0 16) as [r R]; [lia | lia | specialize (H1 v eq_refl); lia |].
    eapply keeps_liftr; [exact R |]. destruct (p 0x08) as [w|]; [| apply keeps_ret].
    destruct (rd_some w 0) as [k K]; [specialize (H2 w eq_refl); lia |]. unfold rdM. eapply keeps_liftr; [exact K |]. apply keeps_ret.
  - intros [[rnd key]|]; [| bnd; [apply keeps_auth_fail |]; intros; apply keeps_ret].
    bnd; [apply keeps_bool; [apply keeps_ret | apply keeps_ready_stop] |]. intros _.
    bnd; [updk |]. intros _. bnd; [updk |]. intros _. bnd; [updk |]. intros _. bnd; [updk |]. intros _.
    destruct rnd as [r|].
    + bnd; [updk |]. intros _. bnd; [unfold sim_auth_ind; apply keeps_get; intros g H; now apply keeps_call |]. intros rc.
      apply keeps_bool; [| apply keeps_ret]. bnd; [apply keeps_auth_fail |]. intros. apply keeps_ret.
    + bnd; [apply keeps_ll_assign |]. intros rc. apply keeps_bool.
      * bnd; [updk |]. intros _. bnd; [apply keeps_auth_fail |]. intros. apply keeps_ret.
      * bnd; [apply keeps_tx |]. intros rc2. bnd; [updk |]. intros. apply keeps_ret.
Qed.
Lemma keeps_gmm_rx : forall pdu, 2 <= zlen pdu -> keeps inv (gmm_rx E pdu).
Proof.
  intros pdu Hl. unfold gmm_rx. rd1 pdu 1.
  apply keeps_bool; [apply keeps_att_ack |]. apply keeps_bool; [apply keeps_att_rej |].
  apply keeps_bool; [apply keeps_detach_accept |]. apply keeps_bool; [apply keeps_rau_acc |].
  apply keeps_bool; [apply keeps_rau_rej |]. apply keeps_bool.
  { unfold rx_id_req. destruct (zlen pdu <? 3) eqn:X; [apply keeps_ret |]. rd1 pdu 2.
    bnd; [apply keeps_if_ready_stop |]. intros. apply keeps_tx. }
  apply keeps_bool; [apply keeps_realloc |]. apply keeps_bool; [apply keeps_auth_req |].
  apply keeps_bool; [now apply keeps_dispatch |]. apply keeps_bool; [unfold rx_status; apply keeps_bool; apply keeps_ret |].
  apply keeps_bool; [| apply keeps_ret]. unfold rx_information. apply keeps_bool; [apply keeps_ret |].
  destruct (tlv E (skipn 2 pdu)); apply keeps_ret.
Qed.
(** The messages the library does not abort on: GMM and SM. *)
Definition pd_ok (pdu : list Z) : Prop := 2 <= zlen pdu -> nth 0 pdu 0 mod 16 = 8 \/ nth 0 pdu 0 mod 16 = 10.
Lemma keeps_rx_pdu : forall pdu, pd_ok pdu -> keeps inv (rx_pdu E pdu).
Proof.
  intros pdu Hd. unfold rx_pdu. destruct (zlen pdu <? 2) eqn:X; [apply keeps_ret |]. unfold rdM.
  eapply keeps_liftr; [apply rd_ok; lia |]. change (Z.to_nat 0) with 0%nat.
  replace (Z.land (nth 0 pdu 0) 15) with (nth 0 pdu 0 mod 16) by (change 15 with (Z.ones 4); rewrite Z.land_ones; [reflexivity | lia]).
  destruct (Hd ltac:(lia)) as [-> | ->].
  - apply keeps_gmm_rx. lia.
  - change (10 =? PDISC_MM) with false. change (10 =? PDISC_SM) with true. cbv iota.
    apply keeps_get. intros g H. now apply keeps_call.
Qed.
Lemma expire_ok : forall w, keeps inv (expire E w).
Proof.
  intros w. unfold expire. apply keeps_get. intros g H. destruct w.
  - destruct (fi_on g) eqn:X; [| now apply okm_ret].
    apply okm_bind with (R := fun g' _ _ => inv g'); [now apply fsm_timeout_ok |]. intros. now apply okm_ret.
  - destruct (t3314_on g) eqn:X; [| now apply okm_ret].
    apply okm_bind with (R := fun g' _ _ => inv g'); [| intros; now apply okm_ret].
    unfold t3314_cb. apply okm_upd_bind. eapply okm_weaken; [apply t3312_start_ok |].
    + destruct H as (Hf & Ht & Hl). split; [exact Hf |]. split; [| exact Hl]. intros Y. discriminate Y.
    + reflexivity.
    + intros g' o a [Y _]. exact Y.
  - destruct (t3312_on g) eqn:X; [| now apply okm_ret]. revert g H X.
    assert (K : keeps inv (t3312_cb E ;; ret 0)).
    { bnd; [| intros; apply keeps_ret]. unfold t3312_cb. bnd; [apply keeps_t3312_stop |]. intros _.
      bnd; [apply keeps_request_rau |]. intros. apply keeps_ret. }
    intros g H _. exact (K g H).
  - destruct (t3316_on g); [| now apply okm_ret].
    assert (K : keeps inv (t3316_cb ;; ret 0)).
    { bnd; [| intros; apply keeps_ret]. unfold t3316_cb. bnd; [updk |]. intros _. updk. }
    exact (K g H).
Qed.
End Inv.

(** ** All entities *)
Lemma on_first_inv : forall p m l, keeps inv m -> Forall inv l ->
  match on_first p m l with Some (Ok (l', _, _)) => Forall inv l' | Some _ => False | None => True end.
Proof.
  intros p m l Hm. induction l as [|g l IH]; intros HF; [exact I |]. inversion_clear HF as [|? ? Hg Hl].
  cbn [on_first]. destruct (p g).
  - specialize (Hm g Hg). unfold okm in Hm. destruct (m g) as [[[g' o] z]| |]; try contradiction. now constructor.
  - specialize (IH Hl). destruct (on_first p m l) as [[[[l' o] z]| |]|]; try contradiction; [| exact I]. now constructor.
Qed.
Lemma at_nth_inv : forall m l i, keeps inv m -> Forall inv l ->
  match at_nth i m l with Some (Ok (l', _, _)) => Forall inv l' | Some _ => False | None => True end.
Proof.
  intros m l. induction l as [|g l IH]; intros [|i] Hm HF; try exact I; inversion_clear HF as [|? ? Hg Hl]; cbn [at_nth].
  - specialize (Hm g Hg). unfold okm in Hm. destruct (m g) as [[[g' o] z]| |]; try contradiction. now constructor.
  - specialize (IH i Hm Hl). destruct (at_nth i m l) as [[[[l' o] z]| |]|]; try contradiction; [| exact I]. now constructor.
Qed.
Lemma on_all_inv : forall m l, keeps inv m -> Forall inv l -> exists l' o, on_all m l = Ok (l', o) /\ Forall inv l'.
Proof.
  intros m l Hm. induction l as [|g l IH]; intros HF; [now exists [], [] |]. inversion_clear HF as [|? ? Hg Hl].
  specialize (Hm g Hg). unfold okm in Hm. cbn [on_all]. destruct (m g) as [[[g' o] z]| |]; try contradiction.
  destruct (IH Hl) as (l' & o' & -> & X). exists (g' :: l'), (o ++ o'). split; [reflexivity | now constructor].
Qed.
Lemma wrap_inv : forall c z r, Forall inv (gmmes c) ->
  match r with Some (Ok (l', _, _)) => Forall inv l' | Some _ => False | None => True end ->
  exists c' o rc, wrap c z r = Ok (c', o, rc) /\ Forall inv (gmmes c').
Proof.
  intros c z [[[[l o] rc]| |]|] Hc H; try contradiction; cbn [wrap]; do 3 eexists; (split; [reflexivity |]); assumption.
Qed.
Lemma rand_tlli_range : forall rnd l, rand_tlli rnd l = 0xffffffff \/ 0x78000000 <= rand_tlli rnd l < 0x80000000.
Proof.
  induction rnd as [|x r IH]; intros l; cbn [rand_tlli]; [left; reflexivity |].
  cbv zeta. destruct (existsb _ _); [apply IH |]. right.
  change 0x07ffffff with (Z.ones 27). rewrite Z.land_ones by lia.
  assert (B : 0 <= x mod 2 ^ 27 < 2 ^ 27) by (apply Z.mod_pos_bound; lia).
  rewrite Z.lor_comm. rewrite (lor_add 0x78000000 (x mod 2 ^ 27) 27) by (try lia; reflexivity). lia.
Qed.
Lemma new_inv : forall E b t s r, (t = 0xffffffff -> r = 0xffffffff \/ 0x78000000 <= r < 0x80000000) -> inv (new_gmme E b t s r).
Proof.
  intros E b t s r H. split; [destruct b; split; reflexivity |]. split; [intros X; discriminate X |].
  unfold tlli_inv. cbn [tlli ptmsi new_gmme]. unfold RESERVED_TMSI. destruct (Z.eqb_spec t 0xffffffff) as [X|X].
  - destruct (H X) as [-> | Y]; [left; reflexivity | right; right; right; split; [exact X | exact Y]].
  - right; right; left. reflexivity.
Qed.

Definition ev_ok (e : event) : Prop :=
  match e with EDetach _ _ off => off = 0 \/ off = 1 | EUnitdata _ pdu => pd_ok pdu | _ => True end.

Lemma step_inv : forall E c e, env_ok E -> ev_ok e -> Forall inv (gmmes c) ->
  exists c' o rc, step E c e = Ok (c', o, rc) /\ Forall inv (gmmes c').
Proof.
  intros E c e HE He HF.
  assert (FC : forall q rnd m, keeps inv m -> exists c' o rc, find_or_create E c q rnd m = Ok (c', o, rc) /\ Forall inv (gmmes c')).
  { intros q rnd m Hm. unfold find_or_create.
    pose proof (on_first_inv (by_ptmsi (q_ptmsi q)) m (gmmes c) Hm HF) as H1.
    pose proof (on_first_inv (by_imsi (q_imsi q)) m (gmmes c) Hm HF) as H2.
    assert (H3 : exists c' o rc, match on_first (by_imsi (q_imsi q)) m (gmmes c) with
      | Some r => wrap c 0 (Some r)
      | None => let g := new_gmme E (enabled c) (q_ptmsi q) (q_imsi q) (rand_tlli rnd (gmmes c)) in
          wrap c 0 (on_first (fun _ => true) m (g :: gmmes c)) end = Ok (c', o, rc) /\ Forall inv (gmmes c')).
    { destruct (on_first (by_imsi (q_imsi q)) m (gmmes c)) as [r|] eqn:X; [now apply wrap_inv |].
      cbv zeta. apply wrap_inv; [exact HF |]. apply on_first_inv; [exact Hm |]. constructor; [| exact HF].
      apply new_inv. intros _. apply rand_tlli_range. }
    destruct (q_ptmsi q =? RESERVED_TMSI); [exact H3 |].
    destruct (on_first (by_ptmsi (q_ptmsi q)) m (gmmes c)) as [r|]; [now apply wrap_inv | exact H3]. }
  destruct e; cbn [step]; try (apply wrap_inv; [exact HF |]; apply on_first_inv; [| exact HF]).
  - apply FC. now apply keeps_attach_req.
  - now apply keeps_request_detach.
  - now apply keeps_sim_auth_rsp.
  - apply FC. now apply keeps_establish_req.
  - unfold sm_unitdata_req. apply keeps_get. intros g H. now apply keeps_call.
  - unfold page_ind. apply keeps_bind; [apply keeps_ready_start |]. intros _. apply keeps_get. intros g H. now apply keeps_call.
  - unfold llc_transmitted. apply keeps_bind; [apply keeps_ready_start |]. intros. apply keeps_ret.
  - now apply keeps_rx_pdu.
  - destruct (Bool.eqb (enabled c) on); [now exists c, [], 0 |].
    destruct (on_all_inv (dispatch E (if on then EvEnable else EvDisable)) (gmmes c)) as (l' & o & -> & X);
      [destruct on; now apply keeps_dispatch | exact HF |].
    do 3 eexists. split; [reflexivity | exact X].
  - apply wrap_inv; [exact HF |]. apply at_nth_inv; [now apply expire_ok | exact HF].
Qed.

Lemma run_inv : forall l c, Forall (fun x => env_ok (fst x) /\ ev_ok (snd x)) l -> Forall inv (gmmes c) ->
  exists c' o, run c l = Ok (c', o) /\ Forall inv (gmmes c').
Proof.
  induction l as [|[E e] l IH]; intros c Hl Hc; cbn [run]; [now exists c, [] |].
  inversion_clear Hl as [|? ? [H1 H2] Hr]. cbn [fst snd] in *.
  destruct (step_inv E c e H1 H2 Hc) as (c1 & o1 & rc & -> & X). destruct (IH c1 Hr X) as (c2 & o2 & -> & Y).
  now exists c2, (o1 ++ o2).
Qed.
