(** GPRS mobility management: properties C61 to C71. *)
From Verif.Lib Require Import Base Outcome.
From Verif.Gmm Require Import TmrModel GmmModel GmmProofs GmmExec GmmDemo.

(** ** What the theorems below speak about *)

(** The entity a message under TLLI [t] reaches: the first whose current or previous TLLI it is. *)
Definition owns (c : gctx) (t : Z) (pre : list gmme) (g : gmme) (post : list gmme) : Prop :=
  gmmes c = pre ++ g :: post /\ (forall x, In x pre -> tlli x <> t /\ old_tlli x <> t) /\ (tlli g = t \/ old_tlli g = t).

(** Executions: any primitives, messages and timer expiries, from the state after initialization, in
    environments whose parser respects the lengths of the table. *)
Definition reaches (c : gctx) : Prop :=
  exists l o, Forall (fun x => env_ok (fst x) /\ ev_ok (snd x)) l /\ run ctx0 l = Ok (c, o).

(** 3GPP TS 23.003, 2.6: the local TLLI of a P-TMSI has the two upper bits set. *)
Definition local_tlli (p : Z) : Z := 3 * 2 ^ 30 + p mod 2 ^ 30.

Lemma reaches_inv : forall c, reaches c -> Forall inv (gmmes c).
Proof.
  intros c (l & o & Hl & Hr). destruct (run_inv l ctx0 Hl) as (c' & o' & Hr' & Hi); [constructor |].
  rewrite Hr in Hr'. injection Hr' as <- <-. exact Hi.
Qed.
Lemma reaches_at : forall c pre g post, reaches c -> gmmes c = pre ++ g :: post -> inv g.
Proof. intros c pre g post H E. apply reaches_inv in H. rewrite E in H. apply Forall_app in H as [_ H]. now inversion H. Qed.

Lemma owns_first : forall c t pre g post, owns c t pre g post -> existsb (by_tlli t) pre = false /\ by_tlli t g = true.
Proof.
  intros c t pre g post (_ & Hp & Hg). split.
  - apply not_true_iff_false. intros X. apply existsb_exists in X as (x & Hx & Hb). destruct (Hp x Hx). unfold by_tlli in Hb. lia.
  - unfold by_tlli. lia.
Qed.
Lemma unit_step : forall E c t pre g post pdu Q, owns c t pre g post -> okm (rx_pdu E pdu) g Q ->
  exists g' o z, step E c (EUnitdata t pdu) = Ok (mkCtx (enabled c) (pre ++ g' :: post), o, z) /\ Q g' o z.
Proof.
  intros E c t pre g post pdu Q Ho Hm. destruct (owns_first _ _ _ _ _ Ho) as [H1 H2]. destruct Ho as (Hc & _).
  apply okm_out in Hm as (g' & o & z & Hm & HQ). exists g', o, z. split; [| exact HQ].
  cbn [step]. rewrite Hc, (on_first_app _ _ _ _ _ _ _ _ H1 H2 Hm). reflexivity.
Qed.
Lemma rx_head : forall E b mt r g Q, b mod 16 = 8 -> okm (gmm_rx E (b :: mt :: r)) g Q -> okm (rx_pdu E (b :: mt :: r)) g Q.
Proof.
  intros E b mt r g Q Hb H. unfold rx_pdu. replace (zlen (b :: mt :: r) <? 2) with false by (unfold zlen; cbn [length]; lia).
  unfold rdM. eapply okm_liftr; [apply rd_ok; unfold zlen; cbn [length]; lia |]. change (nth (Z.to_nat 0) (b :: mt :: r) 0) with b.
  change 15 with (Z.ones 4). rewrite Z.land_ones by lia. change (2 ^ 4) with 16. rewrite Hb. change (8 =? PDISC_MM) with true. exact H.
Qed.
Lemma rx_mt : forall E b mt r g Q, okm (if mt =? MT_ATTACH_ACK then rx_att_ack E (b :: mt :: r)
  else if mt =? MT_ATTACH_REJ then rx_att_rej E (b :: mt :: r)
  else if mt =? MT_DETACH_ACK then rx_detach_accept E (b :: mt :: r)
  else if mt =? MT_RA_UPD_ACK then rx_rau_acc E (b :: mt :: r)
  else if mt =? MT_RA_UPD_REJ then rx_rau_rej E (b :: mt :: r)
  else if mt =? MT_ID_REQ then rx_id_req E (b :: mt :: r)
  else if mt =? MT_PTMSI_REALL_CMD then rx_ptmsi_realloc_cmd E (b :: mt :: r)
  else if mt =? MT_AUTH_CIPH_REQ then rx_auth_ciph_req E (b :: mt :: r)
  else if mt =? MT_AUTH_CIPH_REJ then rx_auth_ciph_rej E
  else if mt =? MT_STATUS then rx_status (b :: mt :: r)
  else if mt =? MT_INFO then rx_information E (b :: mt :: r)
  else ret (- EINVAL)) g Q -> okm (gmm_rx E (b :: mt :: r)) g Q.
Proof.
  intros E b mt r g Q H. unfold gmm_rx, rdM. eapply okm_liftr; [apply rd_ok; unfold zlen; cbn [length]; lia |].
  change (nth (Z.to_nat 1) (b :: mt :: r) 0) with mt. exact H.
Qed.

(** ** C61: no sequence of messages, primitives and expiries aborts the process *)
Theorem C61_no_abort_partial : forall l, Forall (fun x => env_ok (fst x) /\ ev_ok (snd x)) l -> exists c o, run ctx0 l = Ok (c, o).
Proof. intros l H. destruct (run_inv l ctx0 H) as (c & o & Hr & _); [constructor | eauto]. Qed.

(** A message with another protocol discriminator (here the low half of the first octet) does. *)
Theorem C61_no_abort_refuted : forall E c t pre g post b mt r, owns c t pre g post -> b mod 16 <> 8 -> b mod 16 <> 10 ->
  step E c (EUnitdata t (b :: mt :: r)) = UB.
Proof.
  intros E c t pre g post b mt r Ho H1 H2. destruct (owns_first _ _ _ _ _ Ho) as [X1 X2]. destruct Ho as (Hc & _).
  assert (K : rx_pdu E (b :: mt :: r) g = UB).
  { unfold rx_pdu. replace (zlen (b :: mt :: r) <? 2) with false by (unfold zlen; cbn [length]; lia).
    unfold rdM. rewrite rd_ok by (unfold zlen; cbn [length]; lia). change (nth (Z.to_nat 0) (b :: mt :: r) 0) with b.
    unfold bindM, liftr, PDISC_MM, PDISC_SM. cbv zeta. change 15 with (Z.ones 4). rewrite Z.land_ones by lia. change (2 ^ 4) with 16.
    replace (b mod 16 =? 8) with false by lia. replace (b mod 16 =? 10) with false by lia. reflexivity. }
  cbn [step]. rewrite Hc. clear Hc.
  assert (K2 : on_first (by_tlli t) (rx_pdu E (b :: mt :: r)) (pre ++ g :: post) = Some UB).
  { induction pre as [|x pre IH]; cbn [app on_first existsb] in *.
    - now rewrite X2, K.
    - apply orb_false_iff in X1 as [Y1 Y2]. rewrite Y1, (IH Y2). reflexivity. }
  now rewrite K2.
Qed.
(** So an initialized stack with one attached subscriber is stopped by two octets. *)
Example C61_reached :
  run ctx0 (each demo [EEnable true; EAttach q0 []; EUnitdata 0x80001234 [0x06; 0x00]]) = UB.
Proof. vm_compute. reflexivity. Qed.
Example C61_nonvacuous : Forall (fun x => env_ok (fst x) /\ ev_ok (snd x))
  (each demo [EEnable true; EAttach q0 []; EUnitdata 0x80001234 m_att_acc; EExpiry 0 T3312; EUnitdata 0xea711b41 [0x08; 0xff]; EDetach 0x1234 1 1]).
Proof.
  unfold each, map. repeat (apply Forall_cons; [split; [exact (proj1 demo_ok) | cbn; unfold pd_ok; cbn; auto] |]). constructor.
Qed.

(** ** C62: READY and periodic update timers *)

(** The two never run together. *)
Theorem C62_exclusive : forall c pre g post, reaches c -> gmmes c = pre ++ g :: post -> ~ (t3314_on g = true /\ t3312_on g = true).
Proof. intros c pre g post H E [H1 H2]. destruct (reaches_at _ _ _ _ H E) as (_ & Ht & _). specialize (Ht H1). congruence. Qed.

(** When LLC has sent something the READY timer runs and the other one does not; when it expires the periodic
    one is started; when that expires in REGISTERED a periodic update is requested, LLC being suspended
    first. *)
Theorem C62_ready : forall E c t pre g post, owns c t pre g post -> t3314_sec g <> 0 ->
  exists g', step E c (ELlcTransmitted t) = Ok (mkCtx (enabled c) (pre ++ g' :: post), [], 0) /\
    t3314_on g' = true /\ t3312_on g' = false /\ st g' = st g.
Proof.
  intros E c t pre g post Ho H. destruct (owns_first _ _ _ _ _ Ho) as [H1 H2]. destruct Ho as (Hc & _).
  assert (K : okm llc_transmitted g (fun g' o z => o = [] /\ z = 0 /\ t3314_on g' = true /\ t3312_on g' = false /\ st g' = st g)).
  { unfold llc_transmitted, ready_start. apply okm_bind with (R := fun g' o _ => o = [] /\ t3314_on g' = true /\ t3312_on g' = false /\ st g' = st g).
    - apply okm_get. replace (t3314_sec g =? 0) with false by lia. apply okm_upd_bind. apply okm_upd. repeat split.
    - intros g1 o1 _ (-> & A & B & C). apply okm_ret. repeat split; assumption. }
  apply okm_out in K as (g' & o & z & Hm & -> & -> & K). exists g'. split; [| exact K].
  cbn [step]. rewrite Hc, (on_first_app _ _ _ _ _ _ _ _ H1 H2 Hm). reflexivity.
Qed.
Theorem C62_ready_expiry : forall E c pre g post, gmmes c = pre ++ g :: post -> t3314_on g = true -> t3312_sec g <> 0 ->
  exists g', step E c (EExpiry (length pre) T3314) = Ok (mkCtx (enabled c) (pre ++ g' :: post), [], 0) /\
    t3314_on g' = false /\ t3312_on g' = true /\ st g' = st g.
Proof.
  intros E c pre g post Hc Hon H.
  assert (K : okm (expire E T3314) g (fun g' o z => o = [] /\ z = 0 /\ t3314_on g' = false /\ t3312_on g' = true /\ st g' = st g)).
  { unfold expire, t3314_cb. apply okm_get. rewrite Hon.
    apply okm_bind with (R := fun g' o _ => o = [] /\ t3314_on g' = false /\ t3312_on g' = true /\ st g' = st g).
    - apply okm_upd_bind. unfold t3312_start. apply okm_get. change (t3312_sec (set_t3314_on false g)) with (t3312_sec g).
      replace (t3312_sec g =? 0) with false by lia. apply okm_upd. repeat split.
    - intros g1 o1 _ (-> & A & B & C). apply okm_ret. repeat split; assumption. }
  apply okm_out in K as (g' & o & z & Hm & -> & -> & K). exists g'. split; [| exact K].
  cbn [step]. rewrite Hc, (at_nth_app _ _ _ _ _ _ _ Hm). reflexivity.
Qed.
Theorem C62_periodic : forall E c pre g post, cb_ok E -> gmmes c = pre ++ g :: post -> st g = Reg -> t3312_on g = true ->
  exists g' k tail, step E c (EExpiry (length pre) T3312) =
      Ok (mkCtx (enabled c) (pre ++ g' :: post), [OSuspend (tlli g); OUnit (tlli g) ([8; 8; k] ++ ra g ++ tail)], 0) /\
    k mod 8 = 3 /\ st g' = RauInit.
Proof.
  intros E c pre g post HC Hc Hs Hon.
  assert (K : okm (expire E T3312) g (fun g' o z => z = 0 /\ st g' = RauInit /\ exists k tail,
     o = [OSuspend (tlli g); OUnit (tlli g) ([8; 8; k] ++ ra g ++ tail)] /\ k mod 8 = 3)).
  { unfold expire. apply okm_get. rewrite Hon. eapply okm_bind; [apply (t3312_exec E HC g Hs) |].
    intros g1 o1 _ (A & _ & _ & body & -> & Hb). apply okm_ret. split; [reflexivity |]. split; [exact A |].
    rewrite Hb. eexists. eexists. split; [reflexivity |].
    unfold u8. rewrite <- Znumtheory.Zmod_div_mod; [| lia | lia | exists 32; lia].
    assert (X : Z.lor (Z.shiftl (ac_key g) 4) 3 = ac_key g * 16 + 3).
    { rewrite Z.shiftl_mul_pow2 by lia. change (2 ^ 4) with 16. rewrite (lor_add (ac_key g * 16) 3 4) by lia. reflexivity. }
    rewrite X. replace (ac_key g * 16 + 3) with (3 + (ac_key g * 2) * 8) by lia. rewrite Z.mod_add by lia. reflexivity. }
  apply okm_out in K as (g' & o & z & Hm & -> & Hr & k & tail & -> & Hk). exists g', k, tail. split; [| split; assumption].
  cbn [step]. rewrite Hc, (at_nth_app _ _ _ _ _ _ _ Hm). reflexivity.
Qed.

(** Neither timer runs, and no traffic starts one, in a mobile registered by an Attach Accept without optional
    elements, though it assigns a periodic timer of 10 minutes: there will be no periodic update. *)
Definition m_att_acc_short : list Z := [0x08; 0x02; 0x01; 0x2a; 0x44; 0x32; 0xf4; 0x07; 0x00; 0x05; 0x00].
Definition timers (r : res (gctx * list out)) : option (fstate * bool * bool) :=
  match r with Ok (c, _) => match gmmes c with g :: _ => Some (st g, t3314_on g, t3312_on g) | [] => None end | _ => None end.
Theorem C62_registered_refuted :
  timers (run ctx0 (each demo [EEnable true; EAttach q0 []; EUnitdata 0x80001234 m_att_acc_short;
                               ELlcTransmitted 0x80001234; EUnitdata 0x80001234 [0x0a; 0x00]; ELlcTransmitted 0x80001234]))
  = Some (Reg, false, false).
Proof. vm_compute. reflexivity. Qed.
(** The READY timer survives a detach; when it expires the periodic timer runs in a mobile that is not registered. *)
Theorem C62_deregistered_refuted :
  timers (run ctx0 (each demo [EEnable true; EAttach q0 []; EUnitdata 0x80001234 m_att_acc; ELlcTransmitted 0xea711b41;
                               EDetach 0xea711b41 1 0; EUnitdata 0xea711b41 [0x08; 0x06; 0x00]; EExpiry 0 T3314]))
  = Some (Dereg, false, true).
Proof. vm_compute. reflexivity. Qed.

(** The state of the examples. *)
Definition after (l : list event) : gctx := match run ctx0 (each demo l) with Ok (c, _) => c | _ => ctx0 end.
Definition registered : list event :=
  [EEnable true; EAttach q0 []; EUnitdata 0x80001234 m_att_acc; ELlcTransmitted 0xea711b41].
Example C62_nonvacuous :
  (exists g, gmmes (after registered) = [g] /\ t3314_on g = true /\ t3312_sec g <> 0 /\ t3314_sec g <> 0) /\
  (exists g, gmmes (after (registered ++ [EExpiry 0 T3314])) = [g] /\ st g = Reg /\ t3312_on g = true).
Proof. split; eexists; (split; [vm_compute; reflexivity |]); cbn; repeat split; discriminate. Qed.

(** ** C63: an attach that was requested is answered *)

(** While an attach is under way T3310 runs, at most three repetitions have been made and at least one
    requester is recorded. *)
Theorem C63_pending : forall c pre g post, reaches c -> gmmes c = pre ++ g :: post -> st g = RegInit ->
  fi_on g = true /\ fi_T g = 3310 /\ 0 <= a_tries g <= 3 /\ (a_expl g = true \/ a_impl g = true).
Proof.
  intros c pre g post H E Hs. destruct (reaches_at _ _ _ _ H E) as (Hf & _). unfold fsm_inv in Hf. rewrite Hs in Hf. tauto.
Qed.

(** Attach Accept: Attach Complete is sent and each requester gets its confirmation. *)
Theorem C63_accept : forall E c t pre g post b r tm pr area opt,
  env_ok E -> cb_ok E -> owns c t pre g post -> st g = RegInit -> b mod 16 = 8 -> length area = 6%nat ->
  (opt = [] \/ exists p, tlv E opt = Some p /\ (forall v, p 0x18 = Some v -> exists n, mi_dec E v = Some (MiTmsi n))) ->
  exists g' o, step E c (EUnitdata t ([b; 2; r; tm; pr] ++ area ++ opt)) = Ok (mkCtx (enabled c) (pre ++ g' :: post), o, 0) /\
    st g' = Reg /\
    exists old k, o = [OAssign old (tlli g') (gea g) k; ORrAssign old (tlli g') (ptmsi g') (imsi g); OUnit (tlli g') [8; 3]] ++
      (if a_expl g then [OAttachAcc (ptmsi g') (psig g') (tlli g') area] else []) ++
      (if a_impl g then [OEstAcc (sess g) (ptmsi g') (psig g') (tlli g') area] else []).
Proof.
  intros E c t pre g post b r tm pr area opt HE HC Ho Hs Hb Ha Hopt.
  assert (Hopt' : opt = [] \/ exists p, tlv E opt = Some p /\ alloc_ok E p = true).
  { destruct Hopt as [X | (p & Hp & Hk)]; [now left | right]. exists p. split; [exact Hp |]. unfold alloc_ok.
    destruct (p 0x18) as [v|]; [| reflexivity]. destruct (Hk v eq_refl) as [n ->]. reflexivity. }
  pose proof (att_ack_exec E HE HC g r tm pr area opt b Hs Ha Hopt') as K.
  assert (K2 : okm (rx_pdu E ([b; 2; r; tm; pr] ++ area ++ opt)) g (fun g' o rc =>
    rc = 0 /\ st g' = Reg /\ a_expl g' = a_expl g /\ a_impl g' = a_impl g /\ sess g' = sess g /\ ra g' = area /\
    o = [OAssign (old_tlli g') (tlli g') (gea g) (kc g); ORrAssign (old_tlli g') (tlli g') (ptmsi g') (imsi g);
         OUnit (tlli g') [8; 3]] ++ acc_cnf g')).
  { apply rx_head; [exact Hb |]. apply rx_mt. change (2 =? MT_ATTACH_ACK) with true. cbv iota.
    eapply okm_weaken; [exact K |]. intros g' o rc (A1 & A2 & A3 & A4 & A5 & A6 & _ & _ & A7). repeat split; assumption. }
  destruct (unit_step E c t pre g post _ _ Ho K2) as (g' & o & z & Hst & -> & A2 & A3 & A4 & A5 & A6 & ->).
  exists g'. eexists. split; [exact Hst |]. split; [exact A2 |]. exists (old_tlli g'), (kc g).
  unfold acc_cnf. rewrite A3, A4, A5, A6. reflexivity.
Qed.

(** Attach Reject with a cause other than 0. *)
Definition refusal (g : gmme) (cause : Z) : list out :=
  (if sess g =? 0xffffffff then [] else [ORelease (sess g)]) ++
  (if a_expl g then [OAttachRej cause] else []) ++ (if a_impl g then [OEstRej (sess g) cause] else []).
Theorem C63_reject_partial : forall E c t pre g post b cause opt,
  env_ok E -> cb_ok E -> owns c t pre g post -> st g = RegInit -> b mod 16 = 8 -> cause <> 0 ->
  (opt = [] \/ exists p, tlv E opt = Some p) ->
  exists g', step E c (EUnitdata t ([b; 4; cause] ++ opt)) = Ok (mkCtx (enabled c) (pre ++ g' :: post), refusal g cause, 0) /\ st g' = Dereg.
Proof.
  intros E c t pre g post b cause opt HE HC Ho Hs Hb Hc Hopt.
  pose proof (att_rej_exec E HC g b cause opt Hc Hs Hopt) as K.
  assert (K2 : okm (rx_pdu E ([b; 4; cause] ++ opt)) g (fun g' o rc => rc = 0 /\ st g' = Dereg /\ o = refusal g cause)).
  { apply rx_head; [exact Hb |]. apply rx_mt. change (4 =? MT_ATTACH_ACK) with false. change (4 =? MT_ATTACH_REJ) with true. cbv iota.
    eapply okm_weaken; [exact K |]. intros g' o rc (A1 & A2 & _ & A4). repeat split; assumption. }
  destruct (unit_step E c t pre g post _ _ Ho K2) as (g' & o & z & Hst & -> & A2 & ->). exists g'. split; assumption.
Qed.

(** No answer at all: the request is repeated at each expiry of T3310 until the fourth, then every requester
    is told. *)
Lemma expiries : forall E n c pre g post q, env_ok E -> cb_ok E -> gmmes c = pre ++ g :: post -> st g = RegInit -> fi_T g = 3310 ->
  fi_on g = true -> a_tries g = 3 - Z.of_nat n -> 0 <= a_tries g -> build_attach_req E g (a_type g) (a_imsi g) = Some q ->
  exists g', run c (repeat (E, EExpiry (length pre) FsmTimer) (S n)) =
      Ok (mkCtx (enabled c) (pre ++ g' :: post), repeat (OUnit (tlli g) q) n ++ refusal g 0x14) /\ st g' = Dereg.
Proof.
  intros E n. induction n as [|n IH]; intros c pre g post q HE HC Hc Hs HT Hon Ht H0 Hq.
  - assert (K : okm (expire E FsmTimer) g (fun g' o z => z = 0 /\ st g' = Dereg /\ o = refusal g 0x14)).
    { unfold expire. apply okm_get. rewrite Hon. eapply okm_bind; [apply (fsm_timeout_exec E HC g q Hs HT); [lia | exact Hq] |].
      intros g1 o1 a1 A. cbv beta in A. replace (a_tries g =? 3) with true in A by lia. destruct A as (A & _ & _ & ->). apply okm_ret.
      rewrite app_nil_r. repeat split; assumption. }
    apply okm_out in K as (g' & o & z & Hm & -> & A & ->). exists g'. split; [| exact A].
    cbn [repeat run step app]. rewrite Hc, (at_nth_app _ _ _ _ _ _ _ Hm). cbn [wrap]. now rewrite app_nil_r.
  - assert (K : okm (expire E FsmTimer) g (fun g' o z => z = 0 /\ st g' = RegInit /\ fi_on g' = true /\ fi_T g' = 3310 /\ a_tries g' = a_tries g + 1 /\
         build_attach_req E g' (a_type g') (a_imsi g') = Some q /\ tlli g' = tlli g /\ refusal g' 0x14 = refusal g 0x14 /\ o = [OUnit (tlli g) q])).
    { unfold expire. apply okm_get. rewrite Hon. eapply okm_bind; [apply (fsm_timeout_exec E HC g q Hs HT); [lia | exact Hq] |].
      intros g1 o1 a1 A. cbv beta in A. replace (a_tries g =? 3) with false in A by lia. destruct A as (A1 & A2 & A3 & A4 & A5 & A6 & A7 & ->). apply okm_ret.
      rewrite app_nil_r. repeat split; assumption. }
    apply okm_out in K as (g1 & o & z & Hm & -> & A1 & A2 & A3 & A4 & A5 & A6 & A7 & ->).
    destruct (IH (mkCtx (enabled c) (pre ++ g1 :: post)) pre g1 post q HE HC eq_refl A1 A3 A2 ltac:(lia) ltac:(lia) A5) as (g' & Hr & Hd).
    exists g'. split; [| exact Hd].
    change (repeat (E, EExpiry (length pre) FsmTimer) (S (S n)))
      with ((E, EExpiry (length pre) FsmTimer) :: repeat (E, EExpiry (length pre) FsmTimer) (S n)).
    cbn [run]. cbn [step]. rewrite Hc, (at_nth_app _ _ _ _ _ _ _ Hm). cbn [wrap].
    rewrite Hr. cbn [enabled repeat app]. rewrite A6, A7. reflexivity.
Qed.
Theorem C63_unanswered : forall E c pre g post m, env_ok E -> cb_ok E -> reaches c -> gmmes c = pre ++ g :: post -> st g = RegInit ->
  mi_enc E (if a_imsi g then MiImsi (imsi g) else MiTmsi (ptmsi g)) = Some m ->
  exists g' request, run c (repeat (E, EExpiry (length pre) FsmTimer) (Z.to_nat (4 - a_tries g))) =
      Ok (mkCtx (enabled c) (pre ++ g' :: post), repeat (OUnit (tlli g) request) (Z.to_nat (3 - a_tries g)) ++ refusal g 0x14) /\
    st g' = Dereg /\ refusal g 0x14 <> [] /\ firstn 2 request = [8; 1].
Proof.
  intros E c pre g post m HE HC Hr Hc Hs Hm. destruct (C63_pending _ _ _ _ Hr Hc Hs) as (A1 & A2 & A3 & A4).
  assert (Hq : exists q, build_attach_req E g (a_type g) (a_imsi g) = Some q /\ firstn 2 q = [8; 1]).
  { unfold build_attach_req, mi_lv. rewrite Hm. eexists. split; reflexivity. }
  destruct Hq as (q & Hq & Hq2).
  destruct (expiries E (Z.to_nat (3 - a_tries g)) c pre g post q HE HC Hc Hs A2 A1 ltac:(lia) ltac:(lia) Hq) as (g' & Hrun & Hd).
  exists g', q. replace (Z.to_nat (4 - a_tries g)) with (S (Z.to_nat (3 - a_tries g))) by lia.
  split; [exact Hrun |]. split; [exact Hd |]. split; [| exact Hq2]. unfold refusal. intros X.
  apply app_eq_nil in X as [_ X]. apply app_eq_nil in X as [X1 X2]. destruct A4 as [A4|A4]; rewrite A4 in *; discriminate.
Qed.

Definition outs (l : list event) : option (list out) := match run ctx0 (each demo l) with Ok (_, o) => Some o | _ => None end.
Definition outs_by (l : list (ext * event)) : option (list out) := match run ctx0 l with Ok (_, o) => Some o | _ => None end.
Definition is_cnf (o : out) : bool :=
  match o with OAttachAcc _ _ _ _ | OAttachRej _ | OEstAcc _ _ _ _ _ | OEstRej _ _ => true | _ => false end.
Definition answered (r : option (list out)) : bool := match r with Some o => existsb is_cnf o | None => false end.
Definition state_after (r : res (gctx * list out)) : option fstate :=
  match r with Ok (c, _) => match gmmes c with g :: _ => Some (st g) | [] => None end | _ => None end.

(** No confirmation: if LLC refuses the first request; if the upper layer detaches meanwhile.  A reject with
    cause 0 reaches session management as an acceptance. *)
Theorem C63_answered_refuted :
  (answered (outs_by (each demo [EEnable true] ++ each demo_llc_down [EAttach q0 []])) = false /\
   state_after (run ctx0 (each demo [EEnable true] ++ each demo_llc_down [EAttach q0 []])) = Some Dereg) /\
  (answered (outs [EEnable true; EAttach q0 []; EDetach 0x1234 1 0; EUnitdata 0x80001234 [0x08; 0x06; 0x00]]) = false /\
   state_after (run ctx0 (each demo [EEnable true; EAttach q0 []; EDetach 0x1234 1 0; EUnitdata 0x80001234 [0x08; 0x06; 0x00]])) = Some Dereg) /\
  (exists o, outs [EEnable true; EEstablish 7 q0 []; EUnitdata 0x80001234 [0x08; 0x04; 0x00]] = Some (o ++ [OEstAcc 7 0 0 0 []])) /\
  state_after (run ctx0 (each demo [EEnable true; EEstablish 7 q0 []; EUnitdata 0x80001234 [0x08; 0x04; 0x00]])) = Some Dereg.
Proof.
  split; [split; vm_compute; reflexivity |]. split; [split; vm_compute; reflexivity |]. split; [| vm_compute; reflexivity].
  match goal with |- exists o, ?x = _ => let y := eval vm_compute in x in
    match y with Some [?a; ?b; ?d] => exists [a; b]; vm_compute; reflexivity end end.
Qed.

Example C63_nonvacuous :
  (exists g, owns (after [EEnable true; EAttach q0 []]) 0x80001234 [] g [] /\ st g = RegInit /\ a_expl g = true) /\
  (exists o, outs ([EEnable true; EAttach q0 []] ++ repeat (EExpiry 0 FsmTimer) 4) = Some (o ++ [OAttachRej 0x14])) /\
  (exists p, tlv demo (skipn 11 m_att_acc) = Some p /\ exists v, p 0x18 = Some v /\ mi_dec demo v = Some (MiTmsi 0xea711b41)).
Proof.
  split; [| split].
  - eexists. split; [split; [vm_compute; reflexivity |]; split; [intros x [] | left; reflexivity] |]. split; reflexivity.
  - match goal with |- exists o, ?x = _ => let y := eval vm_compute in x in
      match y with Some ?l => let k := eval vm_compute in (removelast l) in exists k; vm_compute; reflexivity end end.
  - eexists. split; [vm_compute; reflexivity |]. eexists. split; vm_compute; reflexivity.
Qed.

Print Assumptions C61_no_abort_partial.
Print Assumptions C61_no_abort_refuted.
Print Assumptions C62_exclusive.
Print Assumptions C62_ready.
Print Assumptions C62_ready_expiry.
Print Assumptions C62_periodic.
Print Assumptions C62_registered_refuted.
Print Assumptions C62_deregistered_refuted.
Print Assumptions C63_pending.
Print Assumptions C63_accept.
Print Assumptions C63_reject_partial.
Print Assumptions C63_unanswered.
Print Assumptions C63_answered_refuted.
