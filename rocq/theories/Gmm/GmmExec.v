(** Symbolic execution of the model of GPRS mobility management: what one message does. *)
From Verif.Lib Require Import Base Outcome.
From Verif.Gmm Require Import TmrModel GmmModel GmmProofs.

Definition cb_ok (E : ext) : Prop := forall o, 0 <= cb E o.

Lemma okm_call_bind : forall B E o (k : Z -> M B) g Q,
  cb_ok E -> (forall rc, 0 <= rc -> okm (k rc) g (fun g2 o2 b => Q g2 (o :: o2) b)) -> okm (bindM (call E o) k) g Q.
Proof.
  intros B E o k g Q HE H. unfold okm, bindM, call in *.
  specialize (H (if cb E o =? 1 then 0 else cb E o)). specialize (HE o).
  destruct (k _ g) as [[[g2 o2] b]| |]; apply H; destruct (_ =? _); lia.
Qed.
Lemma okm_call : forall E o g (Q : gmme -> list out -> Z -> Prop),
  cb_ok E -> (forall rc, 0 <= rc -> Q g [o] rc) -> okm (call E o) g Q.
Proof.
  intros E o g Q HE H. unfold okm, call. apply H. specialize (HE o). destruct (_ =? _); lia.
Qed.
Lemma okm_out : forall A (m : M A) g (Q : gmme -> list out -> A -> Prop), okm m g Q -> exists g' o a, m g = Ok (g', o, a) /\ Q g' o a.
Proof. unfold okm. intros A m g Q H. destruct (m g) as [[[g' o] a]| |]; try contradiction. eauto. Qed.

(** [m] sends nothing and keeps [f]. *)
Definition quiet {A T} (f : gmme -> T) (m : M A) : Prop := forall g, okm m g (fun g' o _ => f g' = f g /\ o = []).

Lemma quiet_bind : forall A B T (f : gmme -> T) (m : M A) (k : A -> M B),
  quiet f m -> (forall a, quiet f (k a)) -> quiet f (bindM m k).
Proof.
  intros A B T f m k Hm Hk g. apply okm_bind with (R := fun g' o _ => f g' = f g /\ o = []); [apply Hm |].
  intros g1 o1 a [H ->]. eapply okm_weaken; [apply Hk |]. intros g2 o2 b [H2 ->]. split; [congruence | reflexivity].
Qed.
Lemma quiet_get : forall A T (f : gmme -> T) (k : gmme -> M A), (forall g, quiet f (k g)) -> quiet f (bindM get k).
Proof. intros A T f k H g. apply okm_get. apply H. Qed.
Lemma quiet_ret : forall A T (f : gmme -> T) (a : A), quiet f (ret a).
Proof. intros A T f a g. apply okm_ret. split; reflexivity. Qed.
Lemma quiet_upd : forall T (f : gmme -> T) h, (forall g, f (h g) = f g) -> quiet f (upd h).
Proof. intros T f h H g. apply okm_upd. split; [apply H | reflexivity]. Qed.
Lemma quiet_liftr : forall A B T (f : gmme -> T) (r : res A) (a : A) (k : A -> M B),
  r = Ok a -> quiet f (k a) -> quiet f (bindM (liftr r) k).
Proof. intros A B T f r a k Hr Hk g. eapply okm_liftr; [exact Hr | apply Hk]. Qed.
Lemma quiet_bool : forall A T (f : gmme -> T) (b : bool) (m n : M A), quiet f m -> quiet f n -> quiet f (if b then m else n).
Proof. intros A T f [] m n Hm Hn; assumption. Qed.

(** After a quiet part the rest runs from some state that agrees on [f]. *)
Lemma okm_quiet : forall A B T (f : gmme -> T) (m : M A) (k : A -> M B) g Q,
  quiet f m -> (forall g' a, f g' = f g -> okm (k a) g' Q) -> okm (bindM m k) g Q.
Proof.
  intros A B T f m k g Q Hm Hk. eapply okm_bind; [apply Hm |]. intros g' o a [H ->]. cbv beta.
  eapply okm_weaken; [now apply Hk |]. intros g2 o2 b X. exact X.
Qed.

(** What the timers and elements without effect on others leave alone. *)
Definition core (g : gmme) :=
  (st g, a_type g, a_imsi g, a_expl g, a_impl g, a_tries g, d_type g, sess g, imsi g, imei g, imeisv g, gea g, kc g, ac_ref g).
Definition ids (g : gmme) := (ptmsi g, old_ptmsi g, tlli g, old_tlli g).
Definition quies (g : gmme) := (core g, ids g, psig g, ra g, (pdp_present g, pdp_status g, npdu_present g, npdu_list g)).

Lemma quies_split : forall g g', quies g' = quies g ->
  core g' = core g /\ ids g' = ids g /\ psig g' = psig g /\ ra g' = ra g /\
  (pdp_present g', pdp_status g', npdu_present g', npdu_list g') = (pdp_present g, pdp_status g, npdu_present g, npdu_list g).
Proof.
  intros g g' H. unfold quies in H. apply pair_equal_spec in H as [H H5]. apply pair_equal_spec in H as [H H4].
  apply pair_equal_spec in H as [H H3]. apply pair_equal_spec in H as [H1 H2]. repeat (split; [assumption |]). exact H5.
Qed.

Section Exec.
Variable E : ext.
Hypothesis HE : env_ok E.

Lemma q_t3312_start : quiet quies t3312_start.
Proof. unfold t3312_start. apply quiet_get. intros g. apply quiet_bool; [apply quiet_ret | now apply quiet_upd]. Qed.
Lemma q_ready_stop : quiet quies ready_stop.
Proof.
  unfold ready_stop. apply quiet_get. intros g. apply quiet_bool; [| apply quiet_ret].
  apply quiet_bind; [now apply quiet_upd | intros _; apply q_t3312_start].
Qed.
Lemma q_if_ready_stop : forall b : bool, quiet quies (if b then ready_stop else ret tt).
Proof. intros b. apply quiet_bool; [apply q_ready_stop | apply quiet_ret]. Qed.
Lemma q_rau_timer : forall o b, quiet quies (rx_rau_timer o b).
Proof.
  intros o b. unfold rx_rau_timer. apply quiet_bind; [now apply quiet_upd |]. intros _.
  apply quiet_bind; [apply quiet_bool; [now apply quiet_upd | apply quiet_ret] |]. intros _. apply q_if_ready_stop.
Qed.
Lemma q_ready_timer : forall l p, tlv E l = Some p -> quiet quies (rx_ready_timer E p).
Proof.
  intros l p Hp. destruct HE as (_ & _ & HT). destruct (HT l p Hp) as (_ & H1 & _).
  unfold rx_ready_timer. apply quiet_bind.
  - change IE_TIMER_READY with 0x17. destruct (p 0x17) as [v|]; [| now apply quiet_upd].
    destruct (rd_some v 0) as [a Ra]; [specialize (H1 v eq_refl); lia |]. eapply quiet_liftr; [exact Ra |]. now apply quiet_upd.
  - intros _. apply quiet_get. intros g. apply quiet_bool; [| apply quiet_ret].
    apply quiet_bind; [apply q_ready_stop | intros _; apply q_t3312_start].
Qed.
Lemma q_t3302 : forall p, quiet quies (rx_t3302 p).
Proof. intros p. unfold rx_t3302. destruct (p IE_T3302) as [[|o l]|]; try apply quiet_ret. now apply quiet_upd. Qed.
Lemma q_t3346 : forall p, quiet quies (rx_t3346 p).
Proof. intros p. unfold rx_t3346. destruct (p IE_T3346) as [[|o l]|]; try apply quiet_ret. now apply quiet_upd. Qed.

(** The P-TMSI signature stored. *)
Definition stored_sig (p : Z -> option (list Z)) : Z :=
  match p 0x19 with
  | Some v => Z.lor (Z.lor (Z.shiftl (nth 0 v 0) 8) (Z.shiftl (nth 1 v 0) 4)) (nth 2 v 0)
  | None => 0xffffffff
  end.
Lemma sig_eq : forall l p g, tlv E l = Some p -> rx_ptmsi_sig p g = Ok (set_psig (stored_sig p) g, [], tt).
Proof.
  intros l p g Hp. destruct HE as (_ & _ & HT). destruct (HT l p Hp) as (H1 & _).
  unfold rx_ptmsi_sig, stored_sig. change IE_PTMSI_SIG with 0x19. destruct (p 0x19) as [v|]; [| reflexivity].
  specialize (H1 v eq_refl). unfold rdM. rewrite !rd_ok by lia. reflexivity.
Qed.
Lemma okm_eq_bind : forall A B (m : M A) (k : A -> M B) g g' a Q,
  m g = Ok (g', [], a) -> okm (k a) g' Q -> okm (bindM m k) g Q.
Proof. intros A B m k g g' a Q Hm Hk. unfold okm, bindM in *. rewrite Hm. destruct (k a g') as [[[? ?] ?]| |]; exact Hk. Qed.

(** The elements of an Attach Accept after the fixed part. *)
Definition acc_opt (p : Z -> option (list Z)) : M bool :=
  rx_ptmsi_sig p ;; rx_ready_timer E p ;;
  let* ok := rx_alloc_ptmsi E p in if ok then rx_t3302 p ;; ret true else ret false.

Lemma local_arith : forall t, tlli_local t = 3 * 2 ^ 30 + t mod 2 ^ 30.
Proof.
  intros t. unfold tlli_local. change 0x3fffffff with (Z.ones 30). rewrite Z.land_ones by lia.
  assert (B : 0 <= t mod 2 ^ 30 < 2 ^ 30) by (apply Z.mod_pos_bound; lia).
  rewrite Z.lor_comm. rewrite (lor_add 0xc0000000 (t mod 2 ^ 30) 30) by (try lia; reflexivity). lia.
Qed.
Lemma foreign_arith : forall t, tlli_foreign t = 2 * 2 ^ 30 + t mod 2 ^ 30.
Proof.
  intros t. unfold tlli_foreign. change 0x3fffffff with (Z.ones 30). rewrite Z.land_ones by lia.
  assert (B : 0 <= t mod 2 ^ 30 < 2 ^ 30) by (apply Z.mod_pos_bound; lia).
  rewrite Z.lor_comm. rewrite (lor_add 0x80000000 (t mod 2 ^ 30) 30) by (try lia; reflexivity). lia.
Qed.

Definition new_ids (g : gmme) (t : Z) := (t, ptmsi g, 3 * 2 ^ 30 + t mod 2 ^ 30, tlli g).

(** The identities after an accept with elements [p]. *)
Definition alloc_ids (p : Z -> option (list Z)) (g : gmme) :=
  match p 0x18 with
  | None => ids g
  | Some v => match mi_dec E v with Some (MiTmsi t) => new_ids g t | _ => ids g end
  end.
Definition alloc_ok (p : Z -> option (list Z)) : bool :=
  match p 0x18 with None => true | Some v => match mi_dec E v with Some (MiTmsi _) => true | _ => false end end.

Lemma alloc_spec : forall p g, okm (rx_alloc_ptmsi E p) g (fun g' o ok =>
  o = [] /\ ok = alloc_ok p /\ core g' = core g /\ ids g' = alloc_ids p g /\ psig g' = psig g /\ ra g' = ra g /\
  (pdp_present g', pdp_status g', npdu_present g', npdu_list g') = (pdp_present g, pdp_status g, npdu_present g, npdu_list g)).
Proof.
  intros p g. unfold rx_alloc_ptmsi, alloc_ok, alloc_ids. change IE_ALLOC_PTMSI with 0x18.
  destruct (p 0x18) as [v|]; [| apply okm_ret; repeat split].
  destruct (mi_dec E v) as [[s|t|s|s|]|]; [apply okm_ret; repeat split | | apply okm_ret; repeat split ..].
  unfold update_ptmsi. apply okm_upd_bind. apply okm_ret. repeat (split; [reflexivity |]).
  split; [| repeat split]. unfold ids, new_ids. cbn [ptmsi old_ptmsi tlli old_tlli set_tlli set_old_tlli set_ptmsi set_old_ptmsi].
  now rewrite local_arith.
Qed.

Lemma acc_opt_spec : forall l p g, tlv E l = Some p -> okm (acc_opt p) g (fun g' o ok =>
  o = [] /\ ok = alloc_ok p /\ core g' = core g /\ ids g' = alloc_ids p g /\ psig g' = stored_sig p /\ ra g' = ra g).
Proof.
  intros l p g Hp. unfold acc_opt. eapply okm_eq_bind; [eapply sig_eq, Hp |].
  remember (set_psig (stored_sig p) g) as g1 eqn:X.
  assert (A1 : core g1 = core g) by (subst; reflexivity). assert (A2 : ids g1 = ids g) by (subst; reflexivity).
  assert (A3 : psig g1 = stored_sig p) by (subst; reflexivity). assert (A4 : ra g1 = ra g) by (subst; reflexivity).
  assert (A5 : alloc_ids p g1 = alloc_ids p g) by (subst; reflexivity). clear X.
  eapply okm_quiet; [eapply q_ready_timer, Hp |]. intros g2 _ H2. apply quies_split in H2 as (B1 & B2 & B3 & B4 & _).
  assert (B5 : alloc_ids p g2 = alloc_ids p g).
  { rewrite <- A5. unfold alloc_ids, new_ids. rewrite B2. unfold ids in B2.
    apply pair_equal_spec in B2 as [B2 _]. apply pair_equal_spec in B2 as [B2 T2]. apply pair_equal_spec in B2 as [P2 _].
    rewrite P2, T2. reflexivity. }
  eapply okm_bind; [apply alloc_spec |]. intros g3 o3 ok (-> & -> & C1 & C2 & C3 & C4 & _).
  destruct (alloc_ok p).
  - eapply okm_quiet; [apply q_t3302 |]. intros g4 _ H4. apply quies_split in H4 as (D1 & D2 & D3 & D4 & _).
    apply okm_ret. repeat split; congruence.
  - apply okm_ret. repeat split; congruence.
Qed.

(** *** State changes *)
Definition rest (g : gmme) := (a_type g, a_imsi g, a_expl g, a_impl g, d_type g, sess g, imsi g, gea g, kc g, (ids g, psig g, ra g), (t3314_on g, t3312_on g, t3314_sec g, t3312_sec g), r_tries g).
Lemma chg_reg_exec : forall g, out_ok (st g) Reg = true ->
  okm (state_chg E Reg) g (fun g' o _ => o = [] /\ st g' = Reg /\ rest g' = rest g).
Proof.
  intros g H. unfold state_chg. apply okm_get. rewrite H. apply okm_upd_bind. cbv [on_enter]. apply okm_upd. repeat split.
Qed.
Lemma rest_split : forall g g', rest g' = rest g ->
  a_expl g' = a_expl g /\ a_impl g' = a_impl g /\ sess g' = sess g /\ ptmsi g' = ptmsi g /\ tlli g' = tlli g /\ old_tlli g' = old_tlli g /\
  psig g' = psig g /\ ra g' = ra g.
Proof. intros g g' H. unfold rest, ids in H. repeat (apply pair_equal_spec in H as [H ?] || fail).
  repeat match goal with X : (_, _) = (_, _) |- _ => apply pair_equal_spec in X as [? ?] end. repeat split; congruence. Qed.
Lemma core_split : forall g g', core g' = core g ->
  st g' = st g /\ a_expl g' = a_expl g /\ a_impl g' = a_impl g /\ d_type g' = d_type g /\ sess g' = sess g /\ imsi g' = imsi g /\
  imei g' = imei g /\ imeisv g' = imeisv g /\ gea g' = gea g /\ kc g' = kc g /\ ac_ref g' = ac_ref g.
Proof. intros g g' H. unfold core in H.
  repeat match goal with X : (_, _) = (_, _) |- _ => apply pair_equal_spec in X as [? ?] end. repeat split; congruence. Qed.
Lemma ids_split : forall g a b c d, ids g = (a, b, c, d) -> ptmsi g = a /\ old_ptmsi g = b /\ tlli g = c /\ old_tlli g = d.
Proof. intros g a b c d H. unfold ids in H.
  repeat match goal with X : (_, _) = (_, _) |- _ => apply pair_equal_spec in X as [? ?] end. auto. Qed.

Hypothesis HC : cb_ok E.

Lemma nonneg : forall rc, 0 <= rc -> rc <? 0 = false.
Proof. intros rc H. lia. Qed.

(** Confirmations of a successful attach. *)
Definition acc_cnf (g : gmme) : list out :=
  (if a_expl g then [OAttachAcc (ptmsi g) (psig g) (tlli g) (ra g)] else []) ++
  (if a_impl g then [OEstAcc (sess g) (ptmsi g) (psig g) (tlli g) (ra g)] else []).

Lemma attach_acc_exec : forall g, st g = RegInit -> okm (dispatch E EvAttAcc) g (fun g' o rc =>
  rc = 0 /\ st g' = Reg /\ rest g' = rest g /\ o = acc_cnf g).
Proof.
  intros g H. unfold dispatch. apply okm_get. rewrite H. cbn [in_ok action act_reg_init].
  apply okm_bind with (R := fun g' o _ => st g' = Reg /\ rest g' = rest g /\ o = acc_cnf g).
  2:{ intros g' o _ (A & B & ->). apply okm_ret. rewrite app_nil_r. auto. }
  eapply okm_bind; [apply chg_reg_exec; now rewrite H |]. intros g1 o1 _ (-> & S1 & R1).
  pose proof (rest_split _ _ R1) as (A1 & A2 & A3 & A4 & A5 & A6 & A7 & A8).
  apply okm_get. unfold acc_cnf. rewrite <- A1, <- A2, <- A3, <- A4, <- A5, <- A7, <- A8.
  apply okm_bind with (R := fun g' o rc => g' = g1 /\ 0 <= rc /\ o = if a_expl g1 then [OAttachAcc (ptmsi g1) (psig g1) (tlli g1) (ra g1)] else []).
  { destruct (a_expl g1); [| apply okm_ret; repeat split; lia]. unfold attach_cnf. apply okm_get. apply okm_call; [exact HC |]. auto. }
  intros g2 o2 rc (-> & Hrc & ->). rewrite nonneg by exact Hrc. apply okm_get.
  apply okm_bind with (R := fun g' o _ => g' = g1 /\ o = if a_impl g1 then [OEstAcc (sess g1) (ptmsi g1) (psig g1) (tlli g1) (ra g1)] else []).
  { destruct (a_impl g1); [| apply okm_ret; repeat split]. unfold establish_cnf. apply okm_get. apply okm_call; [exact HC |]. auto. }
  intros g3 o3 rc3 (-> & ->). apply okm_ret. rewrite app_nil_r. repeat split; assumption.
Qed.

Lemma att_tail_exec : forall g, st g = RegInit ->
  okm (let* rc := ll_assign E in if rc <? 0 then ret (- EINVAL) else
       let* rc := rr_assign E in if rc <? 0 then ret (- EINVAL) else
       let* rc := tx_att_compl E in if rc <? 0 then ret (- EINVAL) else dispatch E EvAttAcc) g (fun g' o rc =>
  rc = 0 /\ st g' = Reg /\ rest g' = rest g /\
  o = [OAssign (old_tlli g) (tlli g) (gea g) (kc g); ORrAssign (old_tlli g) (tlli g) (ptmsi g) (imsi g); OUnit (tlli g) [8; 3]] ++ acc_cnf g).
Proof.
  intros g H. unfold ll_assign.
  assert (K : forall (A B C : Type) (f : gmme -> M A) (k : A -> M B) Q, okm (bindM (f g) k) g Q -> okm (bindM (bindM get f) k) g Q).
  { intros A B _ f k Q X. unfold okm in *. rewrite bindM_assoc. apply (okm_get _ (fun g0 => bindM (f g0) k) g Q X). }
  apply (K _ _ unit). apply okm_call_bind; [exact HC |]. intros rc Hrc. rewrite nonneg by exact Hrc.
  apply (K _ _ unit). apply okm_call_bind; [exact HC |]. intros rc2 Hrc2. rewrite nonneg by exact Hrc2.
  unfold tx_att_compl, tx. apply (K _ _ unit). apply okm_call_bind; [exact HC |]. intros rc3 Hrc3. rewrite nonneg by exact Hrc3.
  eapply okm_weaken; [apply attach_acc_exec, H |]. intros g' o rc4 (A & B & C & ->). repeat split; assumption.
Qed.

Lemma nth_app6 : forall (a : list Z) b n, length a = 6%nat -> rdn (n ++ a ++ b) (zlen n) 6 = Ok a.
Proof.
  intros a b n H. rewrite rdn_ok.
  - unfold slice. unfold zlen. rewrite Nat2Z.id. rewrite skipn_app, Nat.sub_diag, skipn_all. cbn [app skipn].
    replace (Z.to_nat 6) with (length a) by (rewrite H; reflexivity). rewrite firstn_app, Nat.sub_diag, firstn_all.
    cbn [firstn]. now rewrite app_nil_r.
  - unfold zlen. lia.
  - lia.
  - unfold zlen. rewrite !app_length. lia.
Qed.

Lemma skipn_pre : forall (a b : list Z) n, length a = n -> skipn n (a ++ b) = b.
Proof. intros a b n <-. rewrite skipn_app, skipn_all, Nat.sub_diag. reflexivity. Qed.

(** Attach Accept in REGISTERED-INITIATED; the identities, signature and routing area of the result. *)
Lemma att_ack_exec : forall g b0 b1 b2 area opt b_,
  st g = RegInit -> length area = 6%nat ->
  (opt = [] \/ exists p, tlv E opt = Some p /\ alloc_ok p = true) ->
  okm (rx_att_ack E ([b_; 2; b0; b1; b2] ++ area ++ opt)) g (fun g' o rc =>
    rc = 0 /\ st g' = Reg /\ a_expl g' = a_expl g /\ a_impl g' = a_impl g /\ sess g' = sess g /\ ra g' = area /\
    ids g' = match opt with [] => ids g | _ => match tlv E opt with Some p => alloc_ids p g | None => ids g end end /\
    psig g' = match opt with [] => psig g | _ => match tlv E opt with Some p => stored_sig p | None => psig g end end /\
    o = [OAssign (old_tlli g') (tlli g') (gea g) (kc g); ORrAssign (old_tlli g') (tlli g') (ptmsi g') (imsi g);
         OUnit (tlli g') [8; 3]] ++ acc_cnf g').
Proof.
  intros g b0 b1 b2 area opt b_ Hs Ha Ho. unfold rx_att_ack.
  assert (L : zlen ([b_; 2; b0; b1; b2] ++ area ++ opt) = 11 + zlen opt).
  { unfold zlen. rewrite !app_length, Ha. cbn [length]. lia. }
  assert (L0 : 0 <= zlen opt) by (unfold zlen; lia).
  rewrite L. replace (11 + zlen opt <? 11) with false by lia.
  set (pdu := [b_; 2; b0; b1; b2] ++ area ++ opt) in *.
  unfold rdM. eapply okm_liftr; [apply rd_ok; lia |]. eapply okm_liftr; [apply rd_ok; lia |]. eapply okm_liftr; [apply rd_ok; lia |].
  eapply okm_liftr; [exact (nth_app6 area opt [b_; 2; b0; b1; b2] Ha) |].
  set (tail := fun ok : bool => if negb ok then _ else _).
  assert (Q1 : skipn 11 pdu = opt).
  { unfold pdu. rewrite app_assoc. apply skipn_pre. rewrite app_length, Ha. reflexivity. }
  eapply okm_quiet with (f := quies); [now apply quiet_upd |]. intros g1 _ H1.
  eapply okm_quiet; [apply q_rau_timer |]. intros g2 _ H2. rewrite H1 in H2.
  apply quies_split in H2 as (B1 & B2 & B3 & _). clear H1 g1.
  eapply okm_bind with (R := fun g' o _ => o = [] /\ core g' = core g /\ ids g' = ids g /\ psig g' = psig g /\ ra g' = area).
  { apply okm_upd. repeat split; assumption. }
  clear g2 B1 B2 B3. intros g3 _ _ (-> & C1 & C2 & C3 & C4). cbn [app].
  assert (AI : forall p, alloc_ids p g3 = alloc_ids p g).
  { intros p. unfold alloc_ids, new_ids. rewrite C2. pose proof (ids_split _ _ _ _ _ C2) as (P & _ & T & _). now rewrite P, T. }
  eapply okm_bind with (R := fun g' o ok => o = [] /\ ok = true /\ core g' = core g /\ ra g' = area /\
    ids g' = match opt with [] => ids g | _ => match tlv E opt with Some p => alloc_ids p g | None => ids g end end /\
    psig g' = match opt with [] => psig g | _ => match tlv E opt with Some p => stored_sig p | None => psig g end end).
  { rewrite Q1. destruct opt as [|x opt'].
    - change (11 + zlen []) with 11. change (11 <? 11) with false. apply okm_ret. repeat split; assumption.
    - replace (11 <? 11 + zlen (x :: opt')) with true by (unfold zlen; cbn [length]; lia).
      destruct Ho as [Ho | (p & Hp & Hk)]; [discriminate Ho |]. rewrite Hp.
      eapply okm_weaken; [eapply acc_opt_spec, Hp |].
      intros g' o ok (-> & -> & D1 & D2 & D3 & D4). rewrite Hk. rewrite AI in D2. repeat split; congruence. }
  clear C1 C2 C3 C4 AI g3. intros g4 _ _ (-> & -> & D1 & D2 & D3 & D4). unfold tail. cbn [negb app].
  pose proof (core_split _ _ D1) as (S1 & S2 & S3 & S4 & S5 & S6 & S7 & S8 & S9 & S10 & S11).
  eapply okm_weaken; [apply att_tail_exec; congruence |]. intros g5 o rc (-> & F1 & F2 & ->).
  pose proof (rest_split _ _ F2) as (G1 & G2 & G3 & G4 & G5 & G6 & G7 & G8).
  assert (GI : ids g5 = ids g4). { unfold rest in F2. repeat match goal with X : (_, _) = (_, _) |- _ => apply pair_equal_spec in X as [? ?] end. assumption. }
  repeat split; try congruence.
  unfold acc_cnf. rewrite G1, G2, G3, G4, G5, G6, G7, G8, S9, S10, S6. reflexivity.
Qed.

(** *** Leaving for DEREGISTERED *)
Definition perm (g : gmme) := (d_type g, sess g, imsi g, imei g, imeisv g, gea g, kc g, (ids g, psig g, ra g), r_tries g, t3314_on g).
Lemma chg_dereg_exec : forall g, st g <> Null ->
  okm (state_chg E Dereg) g (fun g' o _ => st g' = Dereg /\ fi_on g' = false /\ perm g' = perm g /\
    o = if sess g =? 0xffffffff then [] else [ORelease (sess g)]).
Proof.
  intros g Hn. unfold state_chg. apply okm_get.
  replace (out_ok (st g) Dereg) with true by (destruct (st g); reflexivity).
  apply okm_bind with (R := fun g' o _ => o = [] /\ st g' = Dereg /\ fi_on g' = false /\ perm g' = perm g).
  { apply okm_upd. repeat split. }
  intros g1 _ _ (-> & S1 & F1 & P1). cbn [app]. unfold on_enter.
  apply okm_bind with (R := fun g' o _ => o = [] /\ st g' = Dereg /\ fi_on g' = false /\ perm g' = perm g).
  { apply okm_upd. repeat split; assumption. }
  clear g1 S1 F1 P1. intros g1 _ _ (-> & S1 & F1 & P1). cbn [app].
  apply okm_bind with (R := fun g' o _ => o = [] /\ st g' = Dereg /\ fi_on g' = false /\ perm g' = perm g).
  { apply okm_upd. repeat split; assumption. }
  clear g1 S1 F1 P1. intros g1 _ _ (-> & S1 & F1 & P1). cbn [app].
  apply okm_bind with (R := fun g' o _ => o = [] /\ st g' = Dereg /\ fi_on g' = false /\ perm g' = perm g).
  { apply okm_upd. repeat split; assumption. }
  clear g1 S1 F1 P1. intros g1 _ _ (-> & S1 & F1 & P1). cbn [app].
  apply okm_get. assert (P2 : sess g1 = sess g).
  { unfold perm in P1. repeat match goal with X : (_, _) = (_, _) |- _ => apply pair_equal_spec in X as [? ?] end. assumption. }
  rewrite <- P2. unfold SESS_UNASSIGNED. change 4294967295 with 0xffffffff.
  assert (K : okm (if sess g1 =? 0xffffffff then ret tt else let* _ := release_ind E in ret tt) g1
    (fun g' o _ => st g' = Dereg /\ fi_on g' = false /\ perm g' = perm g /\ o = if sess g1 =? 0xffffffff then [] else [ORelease (sess g1)])).
  { destruct (sess g1 =? 0xffffffff); [apply okm_ret; repeat split; assumption |].
    unfold release_ind. apply okm_bind with (R := fun g' o _ => g' = g1 /\ o = [ORelease (sess g1)]).
    { apply okm_get. apply okm_call; [exact HC |]. auto. }
    intros g2 o2 _ (-> & ->). apply okm_ret. repeat split; assumption. }
  destruct (st g); try exact K. contradiction.
Qed.

Definition rej_out (g : gmme) (cause : Z) : list out :=
  (if sess g =? 0xffffffff then [] else [ORelease (sess g)]) ++
  (if a_expl g then [OAttachRej cause] else []) ++ (if a_impl g then [OEstRej (sess g) cause] else []).

Lemma attach_failed_exec : forall c g, c <> 0 -> st g <> Null -> okm (attach_failed E c) g (fun g' o _ =>
  st g' = Dereg /\ fi_on g' = false /\ perm g' = perm g /\ o = rej_out g c).
Proof.
  intros c g Hc Hn. unfold attach_failed. apply okm_get. eapply okm_bind; [now apply chg_dereg_exec |].
  intros g1 o1 _ (S1 & F1 & P1 & ->).
  assert (P2 : sess g1 = sess g).
  { unfold perm in P1. repeat match goal with X : (_, _) = (_, _) |- _ => apply pair_equal_spec in X as [? ?] end. assumption. }
  unfold rej_out. eapply okm_bind with (R := fun g' o rc => g' = g1 /\ 0 <= rc /\ o = if a_expl g then [OAttachRej c] else []).
  { destruct (a_expl g); [| apply okm_ret; repeat split; lia]. unfold attach_cnf. apply okm_get. apply okm_call; [exact HC |]. auto. }
  intros g2 o2 rc (-> & Hrc & ->). rewrite nonneg by exact Hrc.
  eapply okm_bind with (R := fun g' o rc => g' = g1 /\ o = if a_impl g then [OEstRej (sess g1) c] else []).
  { destruct (a_impl g); [| apply okm_ret; repeat split]. unfold establish_cnf. apply okm_get.
    replace (c =? 0) with false by lia. apply okm_call; [exact HC |]. auto. }
  intros g3 o3 _ (-> & ->). apply okm_ret. rewrite app_nil_r, P2. repeat split; assumption.
Qed.

Lemma attach_rej_exec : forall c g, c <> 0 -> st g = RegInit -> okm (dispatch E (EvAttRej c)) g (fun g' o rc =>
  rc = 0 /\ st g' = Dereg /\ perm g' = perm g /\ o = rej_out g c).
Proof.
  intros c g Hc H. unfold dispatch. apply okm_get. rewrite H. cbn [in_ok action act_reg_init].
  eapply okm_bind; [apply attach_failed_exec; [exact Hc | congruence] |]. intros g1 o1 _ (A & B & C & ->). apply okm_ret.
  rewrite app_nil_r. auto.
Qed.

(** T3310: the request is repeated, or given up at the fourth expiry. *)
Lemma fsm_timeout_exec : forall g q, st g = RegInit -> fi_T g = 3310 -> 0 <= a_tries g <= 3 ->
  build_attach_req E g (a_type g) (a_imsi g) = Some q ->
  okm (fsm_timeout E) g (fun g' o _ =>
    if a_tries g =? 3 then st g' = Dereg /\ fi_on g' = false /\ perm g' = perm g /\ o = rej_out g 0x14
    else st g' = RegInit /\ fi_on g' = true /\ fi_T g' = 3310 /\ a_tries g' = a_tries g + 1 /\
         build_attach_req E g' (a_type g') (a_imsi g') = Some q /\ tlli g' = tlli g /\ rej_out g' 0x14 = rej_out g 0x14 /\
         o = [OUnit (tlli g) q]).
Proof.
  intros g q Hs HT Hn Hq. unfold fsm_timeout.
  set (keep := fun g' => st g' = RegInit /\ fi_T g' = 3310 /\ perm g' = perm g /\ rej_out g' 0x14 = rej_out g 0x14 /\ tlli g' = tlli g /\
     build_attach_req E g' (a_type g') (a_imsi g') = Some q).
  apply okm_bind with (R := fun g' o _ => o = [] /\ keep g' /\ a_tries g' = a_tries g).
  { apply okm_upd. split; [reflexivity |]. split; [| reflexivity]. unfold keep. repeat (split; [assumption || reflexivity |]). exact Hq. }
  intros g1 _ _ (-> & (A1 & A2 & A3 & A4 & A5 & A6) & A7). cbn [app].
  apply okm_get. rewrite A2, A1, A7. change (3310 =? 3310) with true. cbv iota zeta. cbn [is_state].
  replace (u8 (a_tries g + 1)) with (a_tries g + 1) by (unfold u8; rewrite Z.mod_small; lia).
  apply okm_bind with (R := fun g' o _ => o = [] /\ keep g' /\ a_tries g' = a_tries g + 1).
  { apply okm_upd. split; [reflexivity |]. split; [| reflexivity]. unfold keep. repeat (split; [assumption |]). exact A6. }
  clear g1 A1 A2 A3 A4 A5 A6 A7. intros g1 _ _ (-> & (A1 & A2 & A3 & A4 & A5 & A6) & A7). cbn [app].
  replace (a_tries g + 1 =? 4) with (a_tries g =? 3) by lia. destruct (Z.eqb_spec (a_tries g) 3) as [X|X].
  - apply okm_bind with (R := fun g' o _ => st g' = Dereg /\ fi_on g' = false /\ perm g' = perm g /\ o = rej_out g 0x14).
    2:{ intros g2 o2 _ (B1 & B2 & B3 & ->). apply okm_ret. rewrite app_nil_r. auto. }
    unfold dispatch. apply okm_get. rewrite A1. cbn [in_ok action act_reg_init].
    eapply okm_bind; [apply attach_failed_exec; [discriminate | congruence] |]. intros g2 o2 _ (B1 & B2 & B3 & ->).
    apply okm_ret. rewrite app_nil_r. change CAUSE_MAC_FAIL with 0x14. repeat split; congruence.
  - apply okm_bind with (R := fun g' o _ => st g' = RegInit /\ fi_on g' = true /\ fi_T g' = 3310 /\ a_tries g' = a_tries g + 1 /\
         build_attach_req E g' (a_type g') (a_imsi g') = Some q /\ tlli g' = tlli g /\ rej_out g' 0x14 = rej_out g 0x14 /\
         o = [OUnit (tlli g) q]).
    2:{ intros g2 o2 _ H2. apply okm_ret. rewrite app_nil_r. exact H2. }
    unfold reinit_attach. apply okm_get. rewrite A1, A2. change (3310 =? 3310) with true. cbn [is_state andb].
    apply okm_bind with (R := fun g' o _ => o = [] /\ keep g' /\ a_tries g' = a_tries g + 1 /\ fi_on g' = true /\
       build_attach_req E g' (a_type g1) (a_imsi g1) = Some q).
    { apply okm_upd. split; [reflexivity |]. split; [unfold keep; repeat (split; [assumption |]); exact A6 |].
      split; [exact A7 |]. split; [reflexivity | exact A6]. }
    intros g2 _ _ (-> & (B1 & B2 & B3 & B4 & B5 & B6) & B7 & B8 & B9). unfold tx_att_req, tx. apply okm_get. rewrite B9, B5.
    apply okm_call; [exact HC |]. intros rc _. cbn [app]. repeat split; assumption.
Qed.

(** *** Routing area update *)
Definition opt_pdp (p : Z -> option (list Z)) : option (list Z) :=
  match p 0x32 with Some v => if 2 <=? zlen v then Some (firstn 2 v) else None | None => None end.
Definition opt_npdu (p : Z -> option (list Z)) : option (list Z) :=
  match p 0x26 with Some v => if 2 <=? zlen v then Some (firstn 17 v) else None | None => None end.
Definition imeisv_ok (p : Z -> option (list Z)) : bool :=
  match p 0x23 with Some v => match mi_dec E v with Some (MiImeisv _) => true | _ => false end | None => true end.
Definition pdp_of (g : gmme) := if pdp_present g then Some (pdp_status g) else None.
Definition npdu_of (g : gmme) := if npdu_present g then Some (npdu_list g) else None.

Lemma rau_opt_spec : forall l p g, tlv E l = Some p -> alloc_ok p = true -> imeisv_ok p = true ->
  okm (rx_ptmsi_sig p ;;
          let* ok := rx_alloc_ptmsi E p in
          if negb ok then ret false else
          if match p IE_IMEISV with Some v => match mi_dec E v with Some (MiImeisv _) => false | _ => true end | None => false end
          then ret false else
          match p IE_RX_NPDU with
          | Some v => if 2 <=? zlen v then upd (fun g => set_npdu_present true (set_npdu_list (firstn 17 v) g))
                      else upd (set_npdu_present false)
          | None => upd (set_npdu_present false)
          end ;;
          rx_ready_timer E p ;;
          rx_t3302 p ;;
          match p IE_PDP_CTX with
          | Some v => if 2 <=? zlen v then upd (fun g => set_pdp_present true (set_pdp_status (firstn 2 v) g))
                      else upd (set_pdp_present false)
          | None => upd (set_pdp_present false)
          end ;;
          ret true) g (fun g' o ok =>
   o = [] /\ ok = true /\ core g' = core g /\ ids g' = alloc_ids p g /\ psig g' = stored_sig p /\ ra g' = ra g /\
   pdp_of g' = opt_pdp p /\ npdu_of g' = opt_npdu p).
Proof.
  intros l p g Hp Hk Hi. eapply okm_eq_bind; [eapply sig_eq, Hp |].
  remember (set_psig (stored_sig p) g) as g1 eqn:X.
  assert (A1 : core g1 = core g) by (subst; reflexivity).
  assert (A3 : psig g1 = stored_sig p) by (subst; reflexivity). assert (A4 : ra g1 = ra g) by (subst; reflexivity).
  assert (A5 : alloc_ids p g1 = alloc_ids p g) by (subst; reflexivity). clear X.
  eapply okm_bind; [apply alloc_spec |]. intros g3 o3 ok (-> & -> & C1 & C2 & C3 & C4 & _). rewrite Hk. cbn [negb app].
  replace (match p IE_IMEISV with Some v => match mi_dec E v with Some (MiImeisv _) => false | _ => true end | None => false end)
    with false.
  2:{ unfold imeisv_ok in Hi. change IE_IMEISV with 0x23. destruct (p 0x23) as [v|]; [| reflexivity].
      destruct (mi_dec E v) as [[]|]; try discriminate Hi; reflexivity. }
  apply okm_bind with (R := fun g' o _ => o = [] /\ core g' = core g /\ ids g' = alloc_ids p g /\ psig g' = stored_sig p /\ ra g' = ra g /\
      npdu_of g' = opt_npdu p).
  { assert (K1 : core g3 = core g) by congruence. assert (K2 : ids g3 = alloc_ids p g) by congruence.
    assert (K3 : psig g3 = stored_sig p) by congruence. assert (K4 : ra g3 = ra g) by congruence.
    unfold npdu_of, opt_npdu. change IE_RX_NPDU with 0x26. destruct (p 0x26) as [v|].
    - destruct (2 <=? zlen v); apply okm_upd; exact (conj eq_refl (conj K1 (conj K2 (conj K3 (conj K4 eq_refl))))).
    - apply okm_upd. exact (conj eq_refl (conj K1 (conj K2 (conj K3 (conj K4 eq_refl))))). }
  clear g1 A1 A3 A4 A5 g3 C1 C2 C3 C4. intros g1 _ _ (-> & A1 & A2 & A3 & A4 & A5). cbn [app].
  eapply okm_quiet; [eapply q_ready_timer, Hp |]. intros g2 _ H2.
  eapply okm_quiet; [apply q_t3302 |]. intros g3 _ H3. rewrite H2 in H3. clear H2 g2.
  apply quies_split in H3 as (B1 & B2 & B3 & B4 & B5).
  assert (B6 : npdu_of g3 = npdu_of g1).
  { apply pair_equal_spec in B5 as [B5 X1]. apply pair_equal_spec in B5 as [B5 X2]. unfold npdu_of. now rewrite X1, X2. }
  apply okm_bind with (R := fun g' o _ => o = [] /\ core g' = core g /\ ids g' = alloc_ids p g /\ psig g' = stored_sig p /\ ra g' = ra g /\
      pdp_of g' = opt_pdp p /\ npdu_of g' = opt_npdu p).
  { unfold pdp_of, opt_pdp. change IE_PDP_CTX with 0x32.
    assert (G : forall g4, quies g4 = quies g4 -> core g4 = core g3 -> ids g4 = ids g3 -> psig g4 = psig g3 -> ra g4 = ra g3 -> npdu_of g4 = npdu_of g3 ->
       core g4 = core g /\ ids g4 = alloc_ids p g /\ psig g4 = stored_sig p /\ ra g4 = ra g /\ npdu_of g4 = opt_npdu p).
    { intros g4 _ D1 D2 D3 D4 D5. repeat split; congruence. }
    destruct (p 0x32) as [v|].
    - destruct (2 <=? zlen v); apply okm_upd.
      + destruct (G (set_pdp_present true (set_pdp_status (firstn 2 v) g3)) eq_refl eq_refl eq_refl eq_refl eq_refl eq_refl) as (G1 & G2 & G3 & G4 & G5).
        repeat (split; [assumption || reflexivity |]). exact G5.
      + destruct (G (set_pdp_present false g3) eq_refl eq_refl eq_refl eq_refl eq_refl eq_refl) as (G1 & G2 & G3 & G4 & G5).
        repeat (split; [assumption || reflexivity |]). exact G5.
    - apply okm_upd. destruct (G (set_pdp_present false g3) eq_refl eq_refl eq_refl eq_refl eq_refl eq_refl) as (G1 & G2 & G3 & G4 & G5).
      repeat (split; [assumption || reflexivity |]). exact G5. }
  intros g4 o4 _ (-> & D). apply okm_ret. tauto.
Qed.

Lemma get_bind : forall A B (f : gmme -> M A) (k : A -> M B) g Q, okm (bindM (f g) k) g Q -> okm (bindM (bindM get f) k) g Q.
Proof. intros A B f k g Q X. unfold okm in *. rewrite bindM_assoc. apply (okm_get _ (fun g0 => bindM (f g0) k) g Q X). Qed.

Lemma rau_acc_ev_exec : forall g, st g = RauInit -> okm (dispatch E EvRauAcc) g (fun g' o rc =>
  rc = 0 /\ st g' = Reg /\ rest g' = rest g /\ o = [OResume (tlli g)]).
Proof.
  intros g H. unfold dispatch. apply okm_get. rewrite H. cbn [in_ok action act_rau_init].
  apply okm_bind with (R := fun g' o _ => st g' = Reg /\ rest g' = rest g /\ o = [OResume (tlli g)]).
  2:{ intros g1 o1 _ (A & B & ->). apply okm_ret. auto. }
  apply okm_bind with (R := fun g' o _ => o = [] /\ st g' = RauInit /\ rest g' = rest g).
  { apply okm_upd. repeat split. exact H. }
  intros g1 _ _ (-> & S1 & R1). cbn [app]. apply okm_get. apply okm_call_bind; [exact HC |]. intros rc _.
  eapply okm_weaken; [apply chg_reg_exec; now rewrite S1 |]. intros g2 o2 _ (-> & S2 & R2).
  pose proof (rest_split _ _ R1) as (_ & _ & _ & _ & T & _). repeat split; congruence.
Qed.

Lemma rau_acc_exec : forall g b0 b1 area opt b_,
  st g = RauInit -> length area = 6%nat ->
  (opt = [] \/ exists p, tlv E opt = Some p /\ alloc_ok p = true /\ imeisv_ok p = true) ->
  okm (rx_rau_acc E ([b_; 9; b0; b1] ++ area ++ opt)) g (fun g' o rc =>
    rc = 0 /\ st g' = Reg /\ sess g' = sess g /\ ra g' = area /\
    ids g' = match opt with [] => ids g | _ => match tlv E opt with Some p => alloc_ids p g | None => ids g end end /\
    psig g' = match opt with [] => psig g | _ => match tlv E opt with Some p => stored_sig p | None => psig g end end /\
    o = [OAssign (old_tlli g') (tlli g') (gea g) (kc g); ORrAssign (old_tlli g') (tlli g') (ptmsi g') (imsi g)] ++
        (if sess g =? 0xffffffff then []
         else [OModify (sess g) (ptmsi g') (psig g') (tlli g') area
                 match opt with [] => pdp_of g | _ => match tlv E opt with Some p => opt_pdp p | None => pdp_of g end end
                 match opt with [] => npdu_of g | _ => match tlv E opt with Some p => opt_npdu p | None => npdu_of g end end]) ++
        [OUnit (tlli g') [8; 10]; OResume (tlli g')]).
Proof.
  intros g b0 b1 area opt b_ Hs Ha Ho. unfold rx_rau_acc.
  assert (L : zlen ([b_; 9; b0; b1] ++ area ++ opt) = 10 + zlen opt).
  { unfold zlen. rewrite !app_length, Ha. cbn [length]. lia. }
  assert (L0 : 0 <= zlen opt) by (unfold zlen; lia).
  rewrite L. replace (10 + zlen opt <? 10) with false by lia.
  set (pdu := [b_; 9; b0; b1] ++ area ++ opt) in *.
  unfold rdM. eapply okm_liftr; [apply rd_ok; lia |]. eapply okm_liftr; [apply rd_ok; lia |].
  eapply okm_liftr; [exact (nth_app6 area opt [b_; 9; b0; b1] Ha) |].
  set (tail := fun ok : bool => if negb ok then _ else _).
  assert (Q1 : skipn 10 pdu = opt).
  { unfold pdu. rewrite app_assoc. apply skipn_pre. rewrite app_length, Ha. reflexivity. }
  eapply okm_quiet; [apply q_rau_timer |]. intros g2 _ H2. apply quies_split in H2 as (B1 & B2 & B3 & _ & B5).
  assert (B6 : pdp_of g2 = pdp_of g /\ npdu_of g2 = npdu_of g).
  { apply pair_equal_spec in B5 as [B5 X1]. apply pair_equal_spec in B5 as [B5 X2]. apply pair_equal_spec in B5 as [X4 X3].
    unfold pdp_of, npdu_of. now rewrite X1, X2, X3, X4. }
  destruct B6 as [B6 B7]. clear B5.
  eapply okm_bind with (R := fun g' o _ => o = [] /\ core g' = core g /\ ids g' = ids g /\ psig g' = psig g /\ ra g' = area /\
      pdp_of g' = pdp_of g /\ npdu_of g' = npdu_of g).
  { apply okm_upd. repeat split; assumption. }
  clear g2 B1 B2 B3 B6 B7. intros g3 _ _ (-> & C1 & C2 & C3 & C4 & C5 & C6). cbn [app].
  assert (AI : forall p, alloc_ids p g3 = alloc_ids p g).
  { intros p. unfold alloc_ids, new_ids. rewrite C2. pose proof (ids_split _ _ _ _ _ C2) as (P & _ & T & _). now rewrite P, T. }
  eapply okm_bind with (R := fun g' o ok => o = [] /\ ok = true /\ core g' = core g /\ ra g' = area /\
    ids g' = match opt with [] => ids g | _ => match tlv E opt with Some p => alloc_ids p g | None => ids g end end /\
    psig g' = match opt with [] => psig g | _ => match tlv E opt with Some p => stored_sig p | None => psig g end end /\
    pdp_of g' = match opt with [] => pdp_of g | _ => match tlv E opt with Some p => opt_pdp p | None => pdp_of g end end /\
    npdu_of g' = match opt with [] => npdu_of g | _ => match tlv E opt with Some p => opt_npdu p | None => npdu_of g end end).
  { rewrite Q1. destruct opt as [|x opt'].
    - change (10 + zlen []) with 10. change (10 <? 10) with false. apply okm_ret. repeat split; assumption.
    - replace (10 <? 10 + zlen (x :: opt')) with true by (unfold zlen; cbn [length]; lia).
      destruct Ho as [Ho | (p & Hp & Hk & Hi)]; [discriminate Ho |]. rewrite Hp.
      eapply okm_weaken; [eapply rau_opt_spec; [exact Hp | exact Hk | exact Hi] |].
      intros g' o ok (-> & -> & D1 & D2 & D3 & D4 & D5 & D6). rewrite AI in D2. repeat split; congruence. }
  clear C1 C2 C3 C4 C5 C6 AI g3. intros g4 _ _ (-> & -> & D1 & D2 & D3 & D4 & D5 & D6). unfold tail. cbn [negb app].
  pose proof (core_split _ _ D1) as (S1 & S2 & S3 & S4 & S5 & S6 & S7 & S8 & S9 & S10 & S11).
  unfold ll_assign, rr_assign. apply get_bind. apply okm_call_bind; [exact HC |]. intros rc Hrc. rewrite nonneg by exact Hrc.
  apply get_bind. apply okm_call_bind; [exact HC |]. intros rc2 Hrc2. rewrite nonneg by exact Hrc2. apply okm_get.
  unfold SESS_UNASSIGNED. change 4294967295 with 0xffffffff. rewrite S5.
  apply okm_bind with (R := fun g' o rc => g' = g4 /\ 0 <= rc /\ o = if sess g =? 0xffffffff then [] else
      [OModify (sess g4) (ptmsi g4) (psig g4) (tlli g4) (ra g4) (pdp_of g4) (npdu_of g4)]).
  { destruct (sess g =? 0xffffffff); [apply okm_ret; repeat split; lia |]. unfold modify_ind. apply okm_get. apply okm_call; [exact HC |]. auto. }
  intros g5 o5 rc5 (-> & Hrc5 & ->). rewrite nonneg by exact Hrc5.
  unfold tx_rau_compl, tx. apply get_bind. apply okm_call_bind; [exact HC |]. intros rc6 Hrc6. rewrite nonneg by exact Hrc6.
  eapply okm_weaken; [apply rau_acc_ev_exec; congruence |]. intros g7 o rc7 (-> & F1 & F2 & ->).
  pose proof (rest_split _ _ F2) as (G1 & G2 & G3 & G4 & G5 & G6 & G7 & G8).
  assert (GI : ids g7 = ids g4). { unfold rest in F2. repeat match goal with X : (_, _) = (_, _) |- _ => apply pair_equal_spec in X as [? ?] end. assumption. }
  repeat split; try congruence.
  rewrite D5, D6, D2, S5, G4, G5, G6, G7, S9, S10, S6.
  destruct (sess g =? 0xffffffff); reflexivity.
Qed.

(** Expiry of T3312 in REGISTERED. *)
Lemma t3312_exec : forall g, st g = Reg -> okm (t3312_cb E) g (fun g' o _ =>
  st g' = RauInit /\ t3312_on g' = false /\ ids g' = ids g /\
  exists body, o = [OSuspend (tlli g); OUnit (tlli g) ([8; 8] ++ body)] /\
    body = u8 (Z.lor (Z.shiftl (ac_key g) 4) 3) :: ra g ++ ms_ra_acc_cap ++
      (if negb (psig g =? RESERVED_TMSI) then sig_ie (psig g) else []) ++
      [IE_TIMER_READY; secs_to_tmr_floor (d3314 E)] ++ drx_param_def ++ ms_net_cap ++ [0xe1]).
Proof.
  intros g H. unfold t3312_cb, request_rau.
  apply okm_bind with (R := fun g' o _ => o = [] /\ st g' = Reg /\ t3312_on g' = false /\ (ids g', psig g', ra g', ac_key g') = (ids g, psig g, ra g, ac_key g)).
  { apply okm_upd. repeat split. exact H. }
  intros g1 _ _ (-> & S1 & T1 & I1). cbn [app].
  apply okm_bind with (R := fun g' o _ => st g' = RauInit /\ t3312_on g' = false /\ ids g' = ids g /\
     o = [OSuspend (tlli g); OUnit (tlli g) ([8; 8] ++ u8 (Z.lor (Z.shiftl (ac_key g) 4) 3) :: ra g ++ ms_ra_acc_cap ++
      (if negb (psig g =? RESERVED_TMSI) then sig_ie (psig g) else []) ++
      [IE_TIMER_READY; secs_to_tmr_floor (d3314 E)] ++ drx_param_def ++ ms_net_cap ++ [0xe1])]).
  2:{ intros g2 o2 _ (A & B & C & ->). apply okm_ret. rewrite app_nil_r. repeat (split; [assumption |]). eexists. split; reflexivity. }
  apply okm_bind with (R := fun g' o _ => o = [] /\ st g' = Reg /\ t3312_on g' = false /\ r_type g' = 3 /\ (ids g', psig g', ra g', ac_key g') = (ids g, psig g, ra g, ac_key g)).
  { apply okm_upd. repeat split; assumption. }
  clear g1 S1 T1 I1. intros g1 _ _ (-> & S1 & T1 & Y1 & I1). cbn [app].
  repeat match goal with X : (_, _) = (_, _) |- _ => apply pair_equal_spec in X as [? ?] end.
  pose proof (ids_split _ _ _ _ _ H0) as (P1 & _ & P2 & _).
  unfold dispatch. apply okm_get. rewrite S1. cbn [in_ok action act_reg].
  apply okm_bind with (R := fun g' o _ => st g' = RauInit /\ t3312_on g' = false /\ ids g' = ids g /\
     o = [OSuspend (tlli g); OUnit (tlli g) ([8; 8] ++ u8 (Z.lor (Z.shiftl (ac_key g) 4) 3) :: ra g ++ ms_ra_acc_cap ++
      (if negb (psig g =? RESERVED_TMSI) then sig_ie (psig g) else []) ++
      [IE_TIMER_READY; secs_to_tmr_floor (d3314 E)] ++ drx_param_def ++ ms_net_cap ++ [0xe1])]).
  2:{ intros g2 o2 _ (A & B & C & ->). apply okm_ret. auto. }
  apply okm_get. apply okm_call_bind; [exact HC |]. intros rc _.
  unfold tx_rau_req, tx. apply get_bind. apply okm_call_bind; [exact HC |]. intros rc2 Hrc2. rewrite nonneg by exact Hrc2.
  unfold state_chg. apply okm_get. rewrite S1. cbn [out_ok]. apply okm_upd_bind. cbv [on_enter]. apply okm_ret.
  split; [reflexivity |]. split; [exact T1 |]. split; [exact H0 |]. unfold build_rau_req. rewrite Y1, P2, H1, H2, H3.
  reflexivity.
Qed.

(** The attach is refused. *)
Lemma att_rej_exec : forall g b_ c rest_, c <> 0 -> st g = RegInit -> (rest_ = [] \/ exists p, tlv E rest_ = Some p) ->
  okm (rx_att_rej E ([b_; 4; c] ++ rest_)) g (fun g' o rc => rc = 0 /\ st g' = Dereg /\ perm g' = perm g /\ o = rej_out g c).
Proof.
  intros g b_ c rest_ Hc Hs Hr. unfold rx_att_rej.
  assert (L : zlen ([b_; 4; c] ++ rest_) = 3 + zlen rest_) by (unfold zlen; rewrite app_length; cbn [length]; lia).
  assert (L0 : 0 <= zlen rest_) by (unfold zlen; lia).
  rewrite L. replace (3 + zlen rest_ <? 3) with false by lia.
  unfold rdM. eapply okm_liftr; [apply rd_ok; lia |]. cbn [nth Z.to_nat Pos.to_nat Pos.iter_op Nat.add app].
  change (nth (Z.to_nat 2) (b_ :: 4 :: c :: rest_) 0) with c. change (skipn 3 (b_ :: 4 :: c :: rest_)) with rest_.
  set (f := fun g => (quies g, t3314_on g, r_tries g)).
  assert (Q2 : forall p, quiet f (rx_t3302 p)).
  { intros p. unfold rx_t3302. destruct (p IE_T3302) as [[|o l]|]; try apply quiet_ret. now apply quiet_upd. }
  assert (Q3 : forall p, quiet f (rx_t3346 p)).
  { intros p. unfold rx_t3346. destruct (p IE_T3346) as [[|o l]|]; try apply quiet_ret. now apply quiet_upd. }
  apply okm_bind with (R := fun g' o ok => o = [] /\ ok = true /\ f g' = f g).
  { destruct rest_ as [|x r].
    - change (3 <? 3 + zlen []) with false. apply okm_ret. repeat split.
    - replace (3 <? 3 + zlen (x :: r)) with true by (unfold zlen; cbn [length]; lia).
      destruct Hr as [Hr | [p Hp]]; [discriminate Hr |]. rewrite Hp.
      eapply okm_quiet; [apply Q2 |]. intros g1 _ H1. eapply okm_quiet; [apply Q3 |]. intros g2 _ H2.
      apply okm_ret. repeat split. congruence. }
  intros g1 _ _ (-> & -> & H1). cbn [app]. unfold f in H1.
  apply pair_equal_spec in H1 as [H1 X1]. apply pair_equal_spec in H1 as [H1 X2]. apply quies_split in H1 as (B1 & B2 & B3 & B4 & _).
  pose proof (core_split _ _ B1) as (S1 & S2 & S3 & S4 & S5 & S6 & S7 & S8 & S9 & S10 & S11).
  eapply okm_weaken; [apply attach_rej_exec; [exact Hc | congruence] |]. intros g2 o rc (-> & F1 & F2 & ->).
  split; [reflexivity |]. split; [exact F1 |]. split.
  - rewrite F2. unfold perm. now rewrite S4, S5, S6, S7, S8, S9, S10, B2, B3, B4, X1, X2.
  - unfold rej_out. now rewrite S2, S3, S5.
Qed.

(** Detach Accept. *)
Lemma detach_acc_exec : forall g b_ o0, st g = DeregInit -> okm (rx_detach_accept E [b_; 6; o0]) g (fun g' o rc =>
  rc = 0 /\ st g' = Dereg /\ tlli g' = 0xffffffff /\ old_tlli g' = tlli g /\ ptmsi g' = ptmsi g /\
  o = [OAssign (tlli g) 0xffffffff (gea g) (kc g); ODetachCnf (d_type g)] ++
      (if sess g =? 0xffffffff then [] else [ORelease (sess g)])).
Proof.
  intros g b_ o0 Hs. unfold rx_detach_accept. change (zlen [b_; 6; o0] <? 3) with false.
  unfold rdM. eapply okm_liftr; [apply rd_ok; unfold zlen; cbn [length]; lia |].
  eapply okm_quiet; [apply q_if_ready_stop |]. intros g1 _ H1. apply quies_split in H1 as (B1 & B2 & B3 & B4 & _).
  pose proof (core_split _ _ B1) as (S1 & S2 & S3 & S4 & S5 & S6 & S7 & S8 & S9 & S10 & S11).
  pose proof (ids_split _ _ _ _ _ B2) as (P1 & _ & P2 & _).
  apply okm_bind with (R := fun g' o _ => o = [] /\ st g' = DeregInit /\ tlli g' = 0xffffffff /\ old_tlli g' = tlli g /\ ptmsi g' = ptmsi g /\
     sess g' = sess g /\ d_type g' = d_type g /\ gea g' = gea g /\ kc g' = kc g).
  { apply okm_upd. cbn [st tlli old_tlli ptmsi sess d_type gea kc set_tlli set_old_tlli]. repeat split; try congruence. }
  clear g1 B1 B2 B3 B4 S1 S2 S3 S4 S5 S6 S7 S8 S9 S10 S11 P1 P2.
  intros g1 _ _ (-> & A1 & A2 & A3 & A4 & A5 & A6 & A7 & A8). cbn [app].
  unfold ll_assign, detach_cnf. apply get_bind. apply okm_call_bind; [exact HC |]. intros rc Hrc. rewrite nonneg by exact Hrc.
  apply get_bind. apply okm_call_bind; [exact HC |]. intros rc2 Hrc2. rewrite nonneg by exact Hrc2.
  unfold dispatch. apply okm_get. rewrite A1. cbn [in_ok action act_dereg_init].
  eapply okm_bind; [apply chg_dereg_exec; congruence |]. intros g2 o2 _ (F1 & F2 & F3 & ->). apply okm_ret.
  unfold perm in F3. repeat match goal with X : (_, _) = (_, _) |- _ => apply pair_equal_spec in X as [? ?] end.
  repeat match goal with X : ids _ = ids _ |- _ => pose proof (ids_split _ _ _ _ _ X) as (? & ? & ? & ?); clear X end.
  repeat split; try congruence. now rewrite app_nil_r, A2, A3, A5, A6, A7, A8.
Qed.

(** Authentication and Ciphering Request with a challenge; the answer of the SIM. *)
Lemma q_set : forall T (f : gmme -> T) h, (forall g, f (h g) = f g) -> quiet f (upd h).
Proof. exact quiet_upd. Qed.

Lemma auth_req_exec : forall g b_ o0 o1 opt p rnd,
  0 <= o0 < 256 -> 0 <= o1 < 256 -> opt <> [] -> tlv E opt = Some p -> p 0x21 = Some rnd ->
  okm (rx_auth_ciph_req E ([b_; 0x12; o0; o1] ++ opt)) g (fun g' o rc =>
    0 <= rc /\ st g' = st g /\ ids g' = ids g /\ imeisv g' = imeisv g /\ gea g' = o0 mod 16 /\ ac_ref g' = o1 / 16 /\ ac_rand g' = rnd /\
    ac_imeisv g' = negb (o0 / 16 =? 0) /\
    ac_key g' = (match p 0x08 with Some w => nth 0 w 0 mod 16 | None => 0xff end) /\
    o = [OSimAuth (o1 / 16) (match p 0x08 with Some w => nth 0 w 0 mod 16 | None => 0xff end) rnd]).
Proof.
  intros g b_ o0 o1 opt p rnd H0 H1 Hn Hp Hr. unfold rx_auth_ciph_req.
  assert (L : zlen ([b_; 0x12; o0; o1] ++ opt) = 4 + zlen opt) by (unfold zlen; rewrite app_length; cbn [length]; lia).
  assert (L0 : 0 < zlen opt) by (unfold zlen; destruct opt; [contradiction | cbn [length]; lia]).
  rewrite L. replace (4 + zlen opt <? 4) with false by lia. replace (4 <? 4 + zlen opt) with true by lia.
  unfold rdM. eapply okm_liftr; [apply rd_ok; lia |]. eapply okm_liftr; [apply rd_ok; lia |].
  change (nth (Z.to_nat 2) ([b_; 0x12; o0; o1] ++ opt) 0) with o0. change (nth (Z.to_nat 3) ([b_; 0x12; o0; o1] ++ opt) 0) with o1.
  change (skipn 4 ([b_; 0x12; o0; o1] ++ opt)) with opt. rewrite Hp. change IE_AUTH_RAND with 0x21. rewrite Hr. change IE_CKSN with 0x08.
  destruct HE as (_ & _ & HT). destruct (HT opt p Hp) as (_ & _ & L1 & L2). specialize (L1 rnd Hr).
  set (key := match p 0x08 with Some w => nth 0 w 0 mod 16 | None => 0xff end).
  apply okm_bind with (R := fun g' o a => g' = g /\ o = [] /\ a = Some (Some rnd, key)).
  { eapply okm_liftr; [apply rdn_ok; lia |].
    assert (X : slice 0 16 rnd = rnd).
    { unfold slice. cbn [skipn]. rewrite firstn_all2; [reflexivity |]. unfold zlen in L1. lia. }
    change (Z.to_nat 0) with 0%nat. change (Z.to_nat 16) with 16%nat. rewrite X. unfold key. destruct (p 0x08) as [w|].
    - specialize (L2 w eq_refl). unfold rdM. eapply okm_liftr; [apply rd_ok; lia |]. apply okm_ret.
      change 15 with (Z.ones 4). rewrite Z.land_ones by lia. repeat split.
    - apply okm_ret. repeat split. }
  intros g_ _ _ (-> & -> & ->). cbn [app].
  apply okm_bind with (R := fun g' o _ => o = [] /\ quies g' = quies g).
  { destruct (Z.land o1 15 =? 0); [apply okm_ret; split; reflexivity |].
    eapply okm_weaken; [apply q_ready_stop |]. intros g1 o1' _ [X ->]. split; [reflexivity | exact X]. }
  intros g1 _ _ (-> & B). apply quies_split in B as (B1 & B2 & _). pose proof (core_split _ _ B1) as (S1 & S2 & S3 & S4 & S5 & S6 & S7 & S8 & S9 & S10 & S11).
  cbn [app].
  apply okm_bind with (R := fun g' o _ => o = [] /\ st g' = st g /\ ids g' = ids g /\ imeisv g' = imeisv g /\ gea g' = Z.land o0 15).
  { apply okm_upd. exact (conj eq_refl (conj S1 (conj B2 (conj S8 eq_refl)))). }
  clear g1 B1 B2 S1 S2 S3 S4 S5 S6 S7 S8 S9 S10 S11. intros g1 _ _ (-> & A1 & A2 & A3 & A4). cbn [app].
  apply okm_bind with (R := fun g' o _ => o = [] /\ st g' = st g /\ ids g' = ids g /\ imeisv g' = imeisv g /\ gea g' = Z.land o0 15 /\ ac_ref g' = Z.shiftr o1 4).
  { apply okm_upd. exact (conj eq_refl (conj A1 (conj A2 (conj A3 (conj A4 eq_refl))))). }
  clear g1 A1 A2 A3 A4. intros g1 _ _ (-> & A1 & A2 & A3 & A4 & A5). cbn [app].
  apply okm_bind with (R := fun g' o _ => o = [] /\ st g' = st g /\ ids g' = ids g /\ imeisv g' = imeisv g /\ gea g' = Z.land o0 15 /\ ac_ref g' = Z.shiftr o1 4 /\
     ac_imeisv g' = negb (Z.shiftr o0 4 =? 0)).
  { apply okm_upd. exact (conj eq_refl (conj A1 (conj A2 (conj A3 (conj A4 (conj A5 eq_refl)))))). }
  clear g1 A1 A2 A3 A4 A5. intros g1 _ _ (-> & A1 & A2 & A3 & A4 & A5 & A6). cbn [app].
  apply okm_bind with (R := fun g' o _ => o = [] /\ st g' = st g /\ ids g' = ids g /\ imeisv g' = imeisv g /\ gea g' = Z.land o0 15 /\ ac_ref g' = Z.shiftr o1 4 /\
     ac_imeisv g' = negb (Z.shiftr o0 4 =? 0) /\ ac_key g' = key).
  { apply okm_upd. exact (conj eq_refl (conj A1 (conj A2 (conj A3 (conj A4 (conj A5 (conj A6 eq_refl))))))). }
  clear g1 A1 A2 A3 A4 A5 A6. intros g1 _ _ (-> & A1 & A2 & A3 & A4 & A5 & A6 & A7). cbn [app].
  apply okm_bind with (R := fun g' o _ => o = [] /\ st g' = st g /\ ids g' = ids g /\ imeisv g' = imeisv g /\ gea g' = Z.land o0 15 /\ ac_ref g' = Z.shiftr o1 4 /\
     ac_imeisv g' = negb (Z.shiftr o0 4 =? 0) /\ ac_key g' = key /\ ac_rand g' = rnd).
  { apply okm_upd. exact (conj eq_refl (conj A1 (conj A2 (conj A3 (conj A4 (conj A5 (conj A6 (conj A7 eq_refl)))))))). }
  clear g1 A1 A2 A3 A4 A5 A6 A7. intros g1 _ _ (-> & A1 & A2 & A3 & A4 & A5 & A6 & A7 & A8). cbn [app].
  unfold sim_auth_ind. apply get_bind. apply okm_call_bind; [exact HC |]. intros rc Hrc. rewrite nonneg by exact Hrc. apply okm_ret.
  change 15 with (Z.ones 4) in A4. rewrite Z.land_ones in A4 by lia. rewrite Z.shiftr_div_pow2 in A5, A6 by lia.
  change (2 ^ 4) with 16 in *. repeat split; try assumption. rewrite A5, A7, A8. reflexivity.
Qed.

Lemma sim_rsp_exec : forall g sres k, (ac_imeisv g = true -> exists v, mi_enc E (MiImeisv (imeisv g)) = Some v) ->
  okm (sim_auth_rsp E sres k) g (fun g' o rc =>
    0 <= rc /\ st g' = st g /\ ids g' = ids g /\ ac_ref g' = 0xff /\ kc g' = k /\
    exists m, o = [OAssign (old_tlli g) (tlli g) (gea g) k; OUnit (tlli g) ([8; 0x13; ac_ref g mod 16; 0x22] ++ sres ++ m)] /\
      m = if ac_imeisv g then match mi_enc E (MiImeisv (imeisv g)) with Some v => 0x23 :: zlen v mod 256 :: v | None => [] end else []).
Proof.
  intros g sres k Hi. unfold sim_auth_rsp.
  apply okm_bind with (R := fun g' o _ => o = [] /\ st g' = st g /\ ids g' = ids g /\ kc g' = k /\ gea g' = gea g /\ ac_ref g' = ac_ref g /\
     ac_imeisv g' = ac_imeisv g /\ imeisv g' = imeisv g).
  { apply okm_upd. repeat split. }
  intros g1 _ _ (-> & A1 & A2 & A3 & A4 & A5 & A6 & A7). cbn [app].
  apply okm_bind with (R := fun g' o _ => o = [] /\ st g' = st g /\ ids g' = ids g /\ kc g' = k /\ gea g' = gea g /\ ac_ref g' = ac_ref g /\
     ac_imeisv g' = ac_imeisv g /\ imeisv g' = imeisv g).
  { unfold t3316_start. destruct (d3316 E =? 0).
    - apply okm_ret. repeat split; assumption.
    - apply okm_upd. exact (conj eq_refl (conj A1 (conj A2 (conj A3 (conj A4 (conj A5 (conj A6 A7))))))). }
  clear g1 A1 A2 A3 A4 A5 A6 A7. intros g1 _ _ (-> & A1 & A2 & A3 & A4 & A5 & A6 & A7). cbn [app].
  unfold ll_assign. apply get_bind. apply okm_call_bind; [exact HC |]. intros rc Hrc. rewrite nonneg by exact Hrc.
  pose proof (ids_split _ _ _ _ _ A2) as (P1 & P2 & P3 & P4).
  unfold tx_auth_ciph_resp, tx. apply get_bind.
  set (m := if ac_imeisv g then match mi_enc E (MiImeisv (imeisv g)) with Some v => 0x23 :: zlen v mod 256 :: v | None => [] end else []).
  replace (build_auth_ciph_resp E g1 (Some sres)) with (Some ([8; 0x13; ac_ref g mod 16; 0x22] ++ sres ++ m)).
  2:{ unfold build_auth_ciph_resp, mi_lv, m. rewrite A5, A6, A7. change 15 with (Z.ones 4). rewrite Z.land_ones by lia.
      destruct (ac_imeisv g).
      - destruct (Hi eq_refl) as [v Hv]. rewrite Hv. cbn [app]. rewrite <- ?app_assoc. reflexivity.
      - cbn [app]. rewrite app_nil_r. reflexivity. }
  apply okm_call_bind; [exact HC |]. intros rc2 Hrc2. apply okm_upd_bind. apply okm_ret.
  split; [exact Hrc2 |]. split; [exact A1 |]. split; [exact A2 |]. split; [reflexivity |]. split; [exact A3 |].
  exists m. split; [| reflexivity]. rewrite P3, P4, A4, A3. reflexivity.
Qed.

(** Identity Request. *)
Lemma id_req_exec : forall g b_ o0 i v, 0 <= o0 < 256 ->
  ((o0 mod 16 = 1 /\ i = MiImsi (imsi g)) \/ (o0 mod 16 = 2 /\ i = MiImei (imei g)) \/ (o0 mod 16 = 3 /\ i = MiImeisv (imeisv g)) \/
   (o0 mod 16 = 4 /\ i = MiTmsi (ptmsi g))) -> mi_enc E i = Some v ->
  okm (rx_id_req E [b_; 0x15; o0]) g (fun g' o rc => 0 <= rc /\ quies g' = quies g /\ o = [OUnit (tlli g) ([8; 0x16; zlen v mod 256] ++ v)]).
Proof.
  intros g b_ o0 i v H0 Hi Hv. unfold rx_id_req. change (zlen [b_; 0x15; o0] <? 3) with false.
  unfold rdM. eapply okm_liftr; [apply rd_ok; unfold zlen; cbn [length]; lia |]. change (nth (Z.to_nat 2) [b_; 0x15; o0] 0) with o0.
  eapply okm_quiet; [apply q_if_ready_stop |]. intros g1 _ H1. pose proof H1 as H2. apply quies_split in H2 as (B1 & B2 & B3 & B4 & _).
  pose proof (core_split _ _ B1) as (S1 & S2 & S3 & S4 & S5 & S6 & S7 & S8 & S9 & S10 & S11).
  pose proof (ids_split _ _ _ _ _ B2) as (P1 & _ & P2 & _).
  unfold tx_id_resp, tx. apply okm_get. change 15 with (Z.ones 4). rewrite Z.land_ones by lia. change (2 ^ 4) with 16.
  replace (build_identity_resp E g1 (o0 mod 16)) with (Some ([8; 0x16; zlen v mod 256] ++ v)).
  2:{ unfold build_identity_resp, mi_lv. rewrite S6, S7, S8, P1.
      destruct Hi as [[-> ->] | [[-> ->] | [[-> ->] | [-> ->]]]];
        [change (1 =? MI_IMSI) with true | change (2 =? MI_IMSI) with false; change (2 =? MI_TMSI) with false; change (2 =? MI_IMEI) with true
        | change (3 =? MI_IMSI) with false; change (3 =? MI_TMSI) with false; change (3 =? MI_IMEI) with false; change (3 =? MI_IMEISV) with true
        | change (4 =? MI_IMSI) with false; change (4 =? MI_TMSI) with true]; cbv iota; rewrite Hv; reflexivity. }
  apply okm_call; [exact HC |]. intros rc Hrc. rewrite P2. repeat split; [exact Hrc | exact H1].
Qed.

Lemma firstn_pre : forall (a b : list Z), firstn (length a) (a ++ b) = a.
Proof. intros a b. rewrite firstn_app, Nat.sub_diag, firstn_all. cbn [firstn]. apply app_nil_r. Qed.

(** P-TMSI Reallocation Command. *)
Lemma realloc_exec : forall g b_ v area o0 t, length v = 5%nat -> length area = 6%nat -> mi_dec E v = Some (MiTmsi t) ->
  okm (rx_ptmsi_realloc_cmd E ([b_; 0x10; 5] ++ v ++ area ++ [o0])) g (fun g' o rc =>
    0 <= rc /\ st g' = st g /\ ids g' = new_ids g t /\ ra g' = area /\
    o = [OAssign (tlli g) (3 * 2 ^ 30 + t mod 2 ^ 30) (gea g) (kc g); ORrAssign (tlli g) (3 * 2 ^ 30 + t mod 2 ^ 30) t (imsi g);
         OUnit (3 * 2 ^ 30 + t mod 2 ^ 30) [8; 0x11]]).
Proof.
  intros g b_ v area o0 t Hv Ha Hm. unfold rx_ptmsi_realloc_cmd.
  set (pdu := [b_; 0x10; 5] ++ v ++ area ++ [o0]).
  assert (L : zlen pdu = 15). { unfold pdu, zlen. rewrite !app_length, Hv, Ha. reflexivity. }
  rewrite L. change (negb (15 =? 15)) with false. change (15 <? 15) with false.
  unfold rdM. eapply okm_liftr; [apply rd_ok; lia |]. change (nth (Z.to_nat 2) pdu 0) with 5. change (negb (5 =? 5)) with false.
  eapply okm_liftr; [apply rdn_ok; lia |].
  replace (slice (Z.to_nat 3) (Z.to_nat 5) pdu) with v.
  2:{ unfold slice, pdu. change (Z.to_nat 3) with 3%nat. change (Z.to_nat 5) with 5%nat. cbn [app skipn].
      symmetry. rewrite <- Hv. apply firstn_pre. }
  rewrite Hm.
  apply okm_bind with (R := fun g' o _ => o = [] /\ st g' = st g /\ ids g' = new_ids g t /\ gea g' = gea g /\ kc g' = kc g /\ imsi g' = imsi g).
  { unfold update_ptmsi. apply okm_upd. split; [reflexivity |]. split; [reflexivity |]. split; [| repeat split].
    unfold ids, new_ids. cbn [ptmsi old_ptmsi tlli old_tlli set_tlli set_old_tlli set_ptmsi set_old_ptmsi]. now rewrite local_arith. }
  intros g1 _ _ (-> & A1 & A2 & A3 & A4 & A5). cbn [app].
  eapply okm_liftr; [apply rdn_ok; lia |].
  replace (slice (Z.to_nat 8) (Z.to_nat 6) pdu) with area.
  2:{ unfold slice, pdu. change (Z.to_nat 8) with 8%nat. change (Z.to_nat 6) with 6%nat. rewrite app_assoc.
      rewrite (skipn_pre ([b_; 0x10; 5] ++ v) (area ++ [o0]) 8) by (rewrite app_length, Hv; reflexivity).
      symmetry. rewrite <- Ha. apply firstn_pre. }
  apply okm_bind with (R := fun g' o _ => o = [] /\ st g' = st g /\ ids g' = new_ids g t /\ gea g' = gea g /\ kc g' = kc g /\ imsi g' = imsi g /\ ra g' = area).
  { apply okm_upd. exact (conj eq_refl (conj A1 (conj A2 (conj A3 (conj A4 (conj A5 eq_refl)))))). }
  clear g1 A1 A2 A3 A4 A5. intros g1 _ _ (-> & A1 & A2 & A3 & A4 & A5 & A6). cbn [app].
  eapply okm_liftr; [apply rd_ok; lia |].
  eapply okm_quiet; [apply q_if_ready_stop |]. intros g2 _ H2. apply quies_split in H2 as (B1 & B2 & B3 & B4 & _).
  pose proof (core_split _ _ B1) as (S1 & S2 & S3 & S4 & S5 & S6 & S7 & S8 & S9 & S10 & S11).
  rewrite A2 in B2. pose proof (ids_split _ _ _ _ _ B2) as (P1 & P2 & P3 & P4).
  eapply okm_bind with (R := fun g' o ok => g' = g2 /\ o = [] /\ ok = true); [apply okm_ret; repeat split |].
  intros g_ _ _ (-> & -> & ->). cbn [negb app].
  unfold ll_assign, rr_assign. apply get_bind. apply okm_call_bind; [exact HC |]. intros rc Hrc. rewrite nonneg by exact Hrc.
  apply get_bind. apply okm_call_bind; [exact HC |]. intros rc2 Hrc2. rewrite nonneg by exact Hrc2.
  unfold tx_ptmsi_realloc_compl, tx. apply okm_get. apply okm_call; [exact HC |]. intros rc3 Hrc3.
  split; [exact Hrc3 |]. split; [congruence |]. split; [exact B2 |]. split; [congruence |].
  rewrite P1, P3, P4, S9, S10, S6, A3, A4, A5. reflexivity.
Qed.

(** T3330: the request is repeated, or given up. *)
Lemma t3330_exec : forall g, st g = RauInit -> fi_T g = 3330 -> 0 <= r_tries g <= 254 ->
  okm (fsm_timeout E) g (fun g' o _ =>
    ids g' = ids g /\ r_tries g' = r_tries g + 1 /\
    if r_tries g =? 3 then st g' = Reg /\ fi_on g' = false /\ o = []
    else st g' = RauInit /\ fi_on g' = true /\ fi_T g' = 3330 /\ o = [OUnit (tlli g) (build_rau_req E g (r_type g))]).
Proof.
  intros g Hs HT Hn. unfold fsm_timeout.
  set (keep := fun g' => st g' = RauInit /\ fi_T g' = 3330 /\ ids g' = ids g /\ r_type g' = r_type g /\
     build_rau_req E g' (r_type g) = build_rau_req E g (r_type g)).
  apply okm_bind with (R := fun g' o _ => o = [] /\ keep g' /\ r_tries g' = r_tries g).
  { apply okm_upd. split; [reflexivity |]. split; [| reflexivity]. unfold keep. repeat (split; [assumption || reflexivity |]). reflexivity. }
  intros g1 _ _ (-> & (A1 & A2 & A3 & A4 & A5) & A7). cbn [app].
  apply okm_get. rewrite A2, A1, A7. change (3330 =? 3310) with false. change (3330 =? 3330) with true. cbv iota zeta. cbn [is_state].
  replace (u8 (r_tries g + 1)) with (r_tries g + 1) by (unfold u8; rewrite Z.mod_small; lia).
  apply okm_bind with (R := fun g' o _ => o = [] /\ keep g' /\ r_tries g' = r_tries g + 1).
  { apply okm_upd. split; [reflexivity |]. split; [| reflexivity]. unfold keep. repeat (split; [assumption |]). exact A5. }
  clear g1 A1 A2 A3 A4 A5 A7. intros g1 _ _ (-> & (A1 & A2 & A3 & A4 & A5) & A7). cbn [app].
  replace (r_tries g + 1 =? 4) with (r_tries g =? 3) by lia. destruct (Z.eqb_spec (r_tries g) 3) as [X|X].
  - apply okm_bind with (R := fun g' o _ => ids g' = ids g /\ r_tries g' = r_tries g + 1 /\ st g' = Reg /\ fi_on g' = false /\ o = []).
    2:{ intros g2 o2 _ (B1 & B2 & B3 & B4 & ->). apply okm_ret. auto. }
    unfold dispatch. apply okm_get. rewrite A1. cbn [in_ok action act_rau_init].
    apply okm_bind with (R := fun g' o _ => ids g' = ids g /\ r_tries g' = r_tries g + 1 /\ st g' = Reg /\ fi_on g' = false /\ o = []).
    2:{ intros g2 o2 _ (B1 & B2 & B3 & B4 & ->). apply okm_ret. auto. }
    unfold state_chg. apply okm_get. rewrite A1. cbn [out_ok]. apply okm_upd_bind. cbv [on_enter]. apply okm_upd.
    split; [exact A3 |]. split; [exact A7 |]. repeat split.
  - apply okm_bind with (R := fun g' o _ => ids g' = ids g /\ r_tries g' = r_tries g + 1 /\ st g' = RauInit /\ fi_on g' = true /\ fi_T g' = 3330 /\
         o = [OUnit (tlli g) (build_rau_req E g (r_type g))]).
    2:{ intros g2 o2 _ (B1 & B2 & B3 & B4 & B5 & ->). apply okm_ret. repeat split; assumption. }
    unfold reinit_rau. apply okm_get. rewrite A1, A2. change (3330 =? 3330) with true. cbn [is_state andb].
    apply okm_bind with (R := fun g' o _ => o = [] /\ keep g' /\ r_tries g' = r_tries g + 1 /\ fi_on g' = true).
    { apply okm_upd. split; [reflexivity |]. split; [| split; [exact A7 | reflexivity]]. unfold keep. repeat (split; [assumption |]). exact A5. }
    intros g2 _ _ (-> & (B1 & B2 & B3 & B4 & B5) & B7 & B8). unfold tx_rau_req, tx. apply okm_get. rewrite A4, B5.
    pose proof (ids_split _ _ _ _ _ B3) as (_ & _ & P3 & _). rewrite P3.
    apply okm_call; [exact HC |]. intros rc _. cbn [app]. repeat split; assumption.
Qed.

(** An Attach Request is sent from DEREGISTERED. *)
Lemma attach_req_exec : forall g q m, st g = Dereg -> a_expl g = false -> a_impl g = false ->
  mi_enc E (if q_with_imsi q then MiImsi (imsi g) else MiTmsi (ptmsi g)) = Some m ->
  okm (attach_req E q) g (fun g' o rc =>
    rc = 0 /\ st g' = RegInit /\ ids g' = ids g /\ psig g' = q_sig q /\ ra g' = q_rai q /\ a_expl g' = true /\ a_impl g' = false /\
    o = [OUnit (tlli g) ([8; 1; 4; 0x97; 0x07; 0; 0; q_type q mod 16; 10; 0; zlen m mod 256] ++ m ++ q_rai q ++ [0] ++
           (if negb (q_with_imsi q) && negb (ptmsi g =? 0xffffffff)
            then [0x19; q_sig q / 2 ^ 16 mod 256; q_sig q / 2 ^ 8 mod 256; q_sig q mod 256] else []) ++
           [0x17; secs_to_tmr_floor (d3314 E)] ++ (if q_with_imsi q then [] else [0xe1]))]).
Proof.
  intros g q m Hs He Hi Hm. unfold attach_req.
  set (f := fun g => (st g, ids g, (a_expl g, a_impl g), imsi g)).
  assert (QI : quiet f (set_imeis q)).
  { unfold set_imeis. apply quiet_bind.
    - destruct (q_imei q); [apply quiet_ret | now apply quiet_upd].
    - intros _. destruct (q_imeisv q); [apply quiet_ret | now apply quiet_upd]. }
  eapply okm_quiet; [exact QI |]. intros g1 _ H1. unfold f in H1. clear f QI.
  apply pair_equal_spec in H1 as [H1 A4]. apply pair_equal_spec in H1 as [H1 A3]. apply pair_equal_spec in A3 as [A3 A3'].
  apply pair_equal_spec in H1 as [A1 A2].
  apply okm_bind with (R := fun g' o _ => o = [] /\ st g' = Dereg /\ ids g' = ids g /\ a_expl g' = false /\ a_impl g' = false /\ imsi g' = imsi g /\ ra g' = q_rai q).
  { apply okm_upd. cbn [st a_expl a_impl imsi ra set_ra]. split; [reflexivity |]. split; [congruence |]. split; [exact A2 |]. repeat split; congruence. }
  clear g1 A1 A2 A3 A3' A4. intros g1 _ _ (-> & A1 & A2 & A3 & A4 & A5 & A6). cbn [app].
  apply okm_bind with (R := fun g' o _ => o = [] /\ st g' = Dereg /\ ids g' = ids g /\ a_expl g' = false /\ a_impl g' = false /\ imsi g' = imsi g /\ ra g' = q_rai q /\
     psig g' = q_sig q).
  { apply okm_upd. exact (conj eq_refl (conj A1 (conj A2 (conj A3 (conj A4 (conj A5 (conj A6 eq_refl))))))). }
  clear g1 A1 A2 A3 A4 A5 A6. intros g1 _ _ (-> & A1 & A2 & A3 & A4 & A5 & A6 & A7). cbn [app]. unfold request_attach.
  apply okm_bind with (R := fun g' o _ => o = [] /\ st g' = Dereg /\ ids g' = ids g /\ a_impl g' = false /\ imsi g' = imsi g /\ ra g' = q_rai q /\
     psig g' = q_sig q /\ a_type g' = q_type q /\ a_imsi g' = q_with_imsi q).
  { apply okm_upd. exact (conj eq_refl (conj A1 (conj A2 (conj A4 (conj A5 (conj A6 (conj A7 (conj eq_refl eq_refl)))))))). }
  clear g1 A1 A2 A3 A4 A5 A6 A7. intros g1 _ _ (-> & A1 & A2 & A3 & A4 & A5 & A6 & A7 & A8). cbn [app].
  apply okm_bind with (R := fun g' o _ => o = [] /\ st g' = Dereg /\ ids g' = ids g /\ a_impl g' = false /\ imsi g' = imsi g /\ ra g' = q_rai q /\
     psig g' = q_sig q /\ a_type g' = q_type q /\ a_imsi g' = q_with_imsi q /\ a_expl g' = true).
  { apply okm_upd. exact (conj eq_refl (conj A1 (conj A2 (conj A3 (conj A4 (conj A5 (conj A6 (conj A7 (conj A8 eq_refl))))))))). }
  clear g1 A1 A2 A3 A4 A5 A6 A7 A8. intros g1 _ _ (-> & A1 & A2 & A3 & A4 & A5 & A6 & A7 & A8 & A9). cbn [app].
  unfold dispatch. apply okm_get. rewrite A1. cbn [in_ok action act_dereg].
  pose proof (ids_split _ _ _ _ _ A2) as (P1 & P2 & P3 & P4).
  set (pdu := [8; 1; 4; 0x97; 0x07; 0; 0; q_type q mod 16; 10; 0; zlen m mod 256] ++ m ++ q_rai q ++ [0] ++
           (if negb (q_with_imsi q) && negb (ptmsi g =? 0xffffffff)
            then [0x19; q_sig q / 2 ^ 16 mod 256; q_sig q / 2 ^ 8 mod 256; q_sig q mod 256] else []) ++
           [0x17; secs_to_tmr_floor (d3314 E)] ++ (if q_with_imsi q then [] else [0xe1])).
  apply okm_bind with (R := fun g' o _ => st g' = RegInit /\ ids g' = ids g /\ psig g' = q_sig q /\ ra g' = q_rai q /\ a_expl g' = true /\ a_impl g' = false /\
     o = [OUnit (tlli g) pdu]).
  2:{ intros g2 o2 _ (B1 & B2 & B3 & B4 & B5 & B6 & ->). apply okm_ret. repeat split; assumption. }
  apply okm_get. unfold tx_att_req, tx. apply get_bind.
  replace (build_attach_req E g1 (a_type g1) (a_imsi g1)) with (Some pdu).
  2:{ unfold build_attach_req, mi_lv. rewrite A4, A5, A6, A7, A8, P1, Hm. unfold pdu, sig_ie.
      change 15 with (Z.ones 4). rewrite Z.land_ones by lia. rewrite !Z.shiftr_div_pow2 by lia.
      destruct (q_with_imsi q); cbn [negb andb app]; rewrite <- ?app_assoc; reflexivity. }
  rewrite P3. apply okm_call_bind; [exact HC |]. intros rc Hrc. rewrite nonneg by exact Hrc.
  unfold state_chg. apply okm_get. rewrite A1. cbn [out_ok]. apply okm_upd_bind. cbv [on_enter]. apply okm_ret.
  exact (conj eq_refl (conj A2 (conj A6 (conj A5 (conj A9 (conj A3 eq_refl)))))).
Qed.
End Exec.

(** The first entity with the given identity, and no other, handles an event. *)
Lemma on_first_app : forall p m pre g post g' o z, existsb p pre = false -> p g = true -> m g = Ok (g', o, z) ->
  on_first p m (pre ++ g :: post) = Some (Ok (pre ++ g' :: post, o, z)).
Proof.
  intros p m pre g post g' o z Hp Hg Hm. induction pre as [|x pre IH]; cbn [app on_first existsb] in *.
  - now rewrite Hg, Hm.
  - apply orb_false_iff in Hp as [Hx Hp]. now rewrite Hx, IH.
Qed.
Lemma at_nth_app : forall m pre g post g' o z, m g = Ok (g', o, z) ->
  at_nth (length pre) m (pre ++ g :: post) = Some (Ok (pre ++ g' :: post, o, z)).
Proof.
  intros m pre g post g' o z Hm. induction pre as [|x pre IH]; cbn [app at_nth length].
  - now rewrite Hm.
  - now rewrite IH.
Qed.
