(** GPRS mobility management: properties C64 to C67. *)
From Verif.Lib Require Import Base Outcome.
From Verif.Gmm Require Import TmrModel GmmModel GmmProofs GmmExec GmmDemo GmmProperties.

(** The optional elements of an accept can be read: the P-TMSI, if any, is a P-TMSI, and the IMEISV, if
    any, an IMEISV. *)
Definition readable (E : ext) (opt : list Z) : Prop :=
  opt = [] \/ exists p, tlv E opt = Some p /\
    (forall v, p 0x18 = Some v -> exists n, mi_dec E v = Some (MiTmsi n)) /\
    (forall v, p 0x23 = Some v -> exists s, mi_dec E v = Some (MiImeisv s)).
Lemma readable_ok : forall E opt, readable E opt ->
  opt = [] \/ exists p, tlv E opt = Some p /\ alloc_ok E p = true /\ imeisv_ok E p = true.
Proof.
  intros E opt [X | (p & Hp & H1 & H2)]; [now left | right]. exists p. split; [exact Hp |]. unfold alloc_ok, imeisv_ok. split.
  - destruct (p 0x18) as [v|]; [| reflexivity]. destruct (H1 v eq_refl) as [n ->]. reflexivity.
  - destruct (p 0x23) as [v|]; [| reflexivity]. destruct (H2 v eq_refl) as [n ->]. reflexivity.
Qed.

Lemma rau_acc_step : forall E c t pre g post b r tm area opt,
  env_ok E -> cb_ok E -> owns c t pre g post -> st g = RauInit -> b mod 16 = 8 -> length area = 6%nat -> readable E opt ->
  exists g' o, step E c (EUnitdata t ([b; 9; r; tm] ++ area ++ opt)) = Ok (mkCtx (enabled c) (pre ++ g' :: post), o, 0) /\
    st g' = Reg /\ sess g' = sess g /\ ra g' = area /\
    ids g' = match opt with [] => ids g | _ => match tlv E opt with Some p => alloc_ids E p g | None => ids g end end /\
    psig g' = match opt with [] => psig g | _ => match tlv E opt with Some p => stored_sig p | None => psig g end end /\
    o = [OAssign (old_tlli g') (tlli g') (gea g) (kc g); ORrAssign (old_tlli g') (tlli g') (ptmsi g') (imsi g)] ++
        (if sess g =? 0xffffffff then []
         else [OModify (sess g) (ptmsi g') (psig g') (tlli g') area
                 match opt with [] => pdp_of g | _ => match tlv E opt with Some p => opt_pdp p | None => pdp_of g end end
                 match opt with [] => npdu_of g | _ => match tlv E opt with Some p => opt_npdu p | None => npdu_of g end end]) ++
        [OUnit (tlli g') [8; 10]; OResume (tlli g')].
Proof.
  intros E c t pre g post b r tm area opt HE HC Ho Hs Hb Ha Hr.
  pose proof (rau_acc_exec E HE HC g r tm area opt b Hs Ha (readable_ok E opt Hr)) as K.
  assert (K2 := K). apply (rx_mt E b 9 (r :: tm :: area ++ opt)) in K2. apply (rx_head E b 9 _ g _ Hb) in K2.
  destruct (unit_step E c t pre g post _ _ Ho K2) as (g' & o & z & Hst & -> & A).
  exists g', o. split; [exact Hst | exact A].
Qed.

(** ** C64: LLC is suspended during a routing area update and resumed after it *)

(** (Suspending: C62_periodic.)  After an accept LLC is resumed, under the TLLI then valid, and not earlier. *)
Definition is_resume (o : out) : bool := match o with OResume _ => true | _ => false end.
Theorem C64_resumed_partial : forall E c t pre g post b r tm area opt,
  env_ok E -> cb_ok E -> owns c t pre g post -> st g = RauInit -> b mod 16 = 8 -> length area = 6%nat -> readable E opt ->
  exists g' o, step E c (EUnitdata t ([b; 9; r; tm] ++ area ++ opt)) =
      Ok (mkCtx (enabled c) (pre ++ g' :: post), o ++ [OUnit (tlli g') [8; 10]; OResume (tlli g')], 0) /\
    existsb is_resume o = false /\ st g' = Reg.
Proof.
  intros E c t pre g post b r tm area opt HE HC Ho Hs Hb Ha Hr.
  destruct (rau_acc_step _ _ _ _ _ _ b r tm area opt HE HC Ho Hs Hb Ha Hr) as (g' & o & Hst & A1 & _ & _ & _ & _ & ->).
  rewrite (app_assoc [OAssign _ _ _ _; ORrAssign _ _ _ _]) in Hst. eexists. eexists. split; [exact Hst |]. split; [| exact A1].
  destruct (sess g =? 0xffffffff); reflexivity.
Qed.

Lemma t3330_step : forall E c pre g post, cb_ok E -> reaches c -> gmmes c = pre ++ g :: post -> st g = RauInit -> 0 <= r_tries g <= 254 ->
  exists g' o, step E c (EExpiry (length pre) FsmTimer) = Ok (mkCtx (enabled c) (pre ++ g' :: post), o, 0) /\
    if r_tries g =? 3 then st g' = Reg /\ o = []
    else st g' = RauInit /\ r_tries g' = r_tries g + 1 /\ exists q, o = [OUnit (tlli g) ([8; 8] ++ q)].
Proof.
  intros E c pre g post HC Hr Hc Hs Hn. destruct (reaches_at _ _ _ _ Hr Hc) as (Hf & _). unfold fsm_inv in Hf. rewrite Hs in Hf.
  destruct Hf as [HT Hon].
  assert (K : okm (expire E FsmTimer) g (fun g' o z => z = 0 /\ if r_tries g =? 3 then st g' = Reg /\ o = []
    else st g' = RauInit /\ r_tries g' = r_tries g + 1 /\ exists q, o = [OUnit (tlli g) ([8; 8] ++ q)])).
  { unfold expire. apply okm_get. rewrite Hon. eapply okm_bind; [apply (t3330_exec E HC g Hs HT Hn) |].
    intros g1 o1 a1 A. cbv beta in A. apply okm_ret. split; [reflexivity |]. rewrite app_nil_r. destruct A as (_ & A2 & A).
    destruct (r_tries g =? 3); [tauto |]. destruct A as (A3 & _ & _ & ->). split; [exact A3 |]. split; [exact A2 |]. eexists. reflexivity. }
  apply okm_out in K as (g' & o & z & Hm & -> & K). exists g', o. split; [| exact K].
  cbn [step]. rewrite Hc, (at_nth_app _ _ _ _ _ _ _ Hm). reflexivity.
Qed.

(** Not after an update given up: at the fourth expiry of T3330 the mobile is back in REGISTERED and nothing
    is sent to LLC, which stays suspended. *)
Theorem C64_giveup_refuted : forall E c pre g post, cb_ok E -> reaches c -> gmmes c = pre ++ g :: post -> st g = RauInit -> r_tries g = 3 ->
  exists g', step E c (EExpiry (length pre) FsmTimer) = Ok (mkCtx (enabled c) (pre ++ g' :: post), [], 0) /\ st g' = Reg.
Proof.
  intros E c pre g post HC Hr Hc Hs Hn. destruct (t3330_step E c pre g post HC Hr Hc Hs ltac:(lia)) as (g' & o & Hst & A).
  rewrite Hn in A. change (3 =? 3) with true in A. destruct A as [A ->]. eauto.
Qed.
(** Nor after a second update without answer: the counter still holds the expiries of the first, so that the
    fourth one only repeats the request. *)
Theorem C64_second_refuted : forall E c pre g post, cb_ok E -> reaches c -> gmmes c = pre ++ g :: post -> st g = RauInit -> 4 <= r_tries g <= 254 ->
  exists g' q, step E c (EExpiry (length pre) FsmTimer) = Ok (mkCtx (enabled c) (pre ++ g' :: post), [OUnit (tlli g) ([8; 8] ++ q)], 0) /\
    st g' = RauInit /\ r_tries g' = r_tries g + 1.
Proof.
  intros E c pre g post HC Hr Hc Hs Hn. destruct (t3330_step E c pre g post HC Hr Hc Hs ltac:(lia)) as (g' & o & Hst & A).
  replace (r_tries g =? 3) with false in A by lia. destruct A as (A & B & q & ->). eauto 6.
Qed.

(** LLC as the last suspend or resume leaves it. *)
Fixpoint suspended (s : bool) (l : list out) : bool :=
  match l with [] => s | OSuspend _ :: r => suspended true r | OResume _ :: r => suspended false r | _ :: r => suspended s r end.
Definition status (r : res (gctx * list out)) : option (fstate * bool) :=
  match r with Ok (c, o) => match gmmes c with g :: _ => Some (st g, suspended false o) | [] => None end | _ => None end.
Definition updating : list event := registered ++ [EExpiry 0 T3314; EExpiry 0 T3312].

(** The mobile is registered, no update under way, but LLC suspended: after four expiries, after a reject
    with cause "roaming not allowed", and if LLC could not send the request. *)
Theorem C64_registered_refuted :
  status (run ctx0 (each demo (updating ++ repeat (EExpiry 0 FsmTimer) 4))) = Some (Reg, true) /\
  status (run ctx0 (each demo (updating ++ [EUnitdata 0xea711b41 [0x08; 0x0b; 0x0d; 0x00]]))) = Some (Reg, true) /\
  status (run ctx0 (each demo (registered ++ [EExpiry 0 T3314]) ++ each demo_llc_down [EExpiry 0 T3312])) = Some (Reg, true) /\
  (** after a second update has been repeated six times: *)
  status (run ctx0 (each demo (updating ++ repeat (EExpiry 0 FsmTimer) 4 ++
     [ELlcTransmitted 0xea711b41; EExpiry 0 T3314; EExpiry 0 T3312] ++ repeat (EExpiry 0 FsmTimer) 6))) = Some (RauInit, true).
Proof. repeat split; vm_compute; reflexivity. Qed.

Lemma each_ok : forall l, Forall ev_ok l -> Forall (fun x => env_ok (fst x) /\ ev_ok (snd x)) (each demo l).
Proof. induction 1; constructor; [split; [exact (proj1 demo_ok) | assumption] | assumption]. Qed.
Lemma after_reaches : forall l c o, Forall ev_ok l -> run ctx0 (each demo l) = Ok (c, o) -> reaches c.
Proof. intros l c o H R. exists (each demo l), o. split; [now apply each_ok | exact R]. Qed.
Ltac evs := repeat (apply Forall_cons; [cbn; unfold pd_ok; cbn; auto |]); apply Forall_nil.

Example C64_nonvacuous :
  (exists c g o, run ctx0 (each demo updating) = Ok (c, o) /\ reaches c /\ owns c 0xea711b41 [] g [] /\ st g = RauInit /\ r_tries g = 0) /\
  (exists c g o, run ctx0 (each demo (updating ++ repeat (EExpiry 0 FsmTimer) 3)) = Ok (c, o) /\ reaches c /\ owns c 0xea711b41 [] g [] /\ st g = RauInit /\ r_tries g = 3) /\
  readable demo (skipn 10 m_rau_acc).
Proof.
  split; [| split].
  - eexists. eexists. eexists. split; [vm_compute; reflexivity |]. split.
    + eapply (after_reaches updating); [evs | vm_compute; reflexivity].
    + split; [split; [reflexivity |]; split; [intros x [] | left; reflexivity] | split; reflexivity].
  - eexists. eexists. eexists. split; [vm_compute; reflexivity |]. split.
    + eapply (after_reaches (updating ++ repeat (EExpiry 0 FsmTimer) 3)); [evs | vm_compute; reflexivity].
    + split; [split; [reflexivity |]; split; [intros x [] | left; reflexivity] | split; reflexivity].
  - right. eexists. split; [vm_compute; reflexivity |]. split; intros v Hv; vm_compute in Hv; [injection Hv as <-; eexists; reflexivity | discriminate Hv].
Qed.

(** ** C65: a new P-TMSI is used by all layers *)

(** Attach Accept, update accept and reallocation command with P-TMSI [n]: LLC and RLC/MAC are told the new
    local TLLI together with the one used so far, before the answer is sent under the new one. *)
Theorem C65_attach : forall E c t pre g post b r tm pr area opt p v n,
  env_ok E -> cb_ok E -> owns c t pre g post -> st g = RegInit -> b mod 16 = 8 -> length area = 6%nat ->
  tlv E opt = Some p -> opt <> [] -> p 0x18 = Some v -> mi_dec E v = Some (MiTmsi n) ->
  exists g' o, step E c (EUnitdata t ([b; 2; r; tm; pr] ++ area ++ opt)) =
      Ok (mkCtx (enabled c) (pre ++ g' :: post),
          [OAssign (tlli g) (local_tlli n) (gea g) (kc g); ORrAssign (tlli g) (local_tlli n) n (imsi g); OUnit (local_tlli n) [8; 3]] ++ o, 0) /\
    ptmsi g' = n /\ tlli g' = local_tlli n /\ old_tlli g' = tlli g /\ old_ptmsi g' = ptmsi g /\ ra g' = area.
Proof.
  intros E c t pre g post b r tm pr area opt p v n HE HC Ho Hs Hb Ha Hp Hn Hv Hm.
  assert (Hk : alloc_ok E p = true) by (unfold alloc_ok; now rewrite Hv, Hm).
  pose proof (att_ack_exec E HE HC g r tm pr area opt b Hs Ha (or_intror (ex_intro _ p (conj Hp Hk)))) as K.
  apply (rx_mt E b 2 (r :: tm :: pr :: area ++ opt)) in K. apply (rx_head E b 2 _ g _ Hb) in K.
  destruct (unit_step E c t pre g post _ _ Ho K) as (g' & o & z & Hst & -> & A1 & _ & _ & _ & A6 & A7 & _ & ->).
  assert (A8 : ids g' = (n, ptmsi g, local_tlli n, tlli g)).
  { rewrite A7, Hp. unfold alloc_ids. rewrite Hv, Hm. destruct opt; [contradiction | reflexivity]. }
  apply ids_split in A8 as (P1 & P2 & P3 & P4).
  rewrite P1, P3, P4 in Hst. exists g'. eexists. split; [exact Hst |]. repeat split; assumption.
Qed.
Theorem C65_update : forall E c t pre g post b r tm area opt p v n,
  env_ok E -> cb_ok E -> owns c t pre g post -> st g = RauInit -> b mod 16 = 8 -> length area = 6%nat ->
  tlv E opt = Some p -> opt <> [] -> p 0x18 = Some v -> mi_dec E v = Some (MiTmsi n) ->
  (forall w, p 0x23 = Some w -> exists s, mi_dec E w = Some (MiImeisv s)) ->
  exists g' o, step E c (EUnitdata t ([b; 9; r; tm] ++ area ++ opt)) =
      Ok (mkCtx (enabled c) (pre ++ g' :: post),
          [OAssign (tlli g) (local_tlli n) (gea g) (kc g); ORrAssign (tlli g) (local_tlli n) n (imsi g)] ++ o ++
          [OUnit (local_tlli n) [8; 10]; OResume (local_tlli n)], 0) /\
    ptmsi g' = n /\ tlli g' = local_tlli n /\ old_tlli g' = tlli g /\ old_ptmsi g' = ptmsi g /\ ra g' = area.
Proof.
  intros E c t pre g post b r tm area opt p v n HE HC Ho Hs Hb Ha Hp Hn Hv Hm Hi.
  assert (Hr : readable E opt).
  { right. exists p. split; [exact Hp |]. split; [| exact Hi]. intros w Hw. rewrite Hv in Hw. injection Hw as <-. eauto. }
  destruct (rau_acc_step _ _ _ _ _ _ b r tm area opt HE HC Ho Hs Hb Ha Hr) as (g' & o & Hst & A1 & A2 & A3 & A4 & A5 & ->).
  assert (A8 : ids g' = (n, ptmsi g, local_tlli n, tlli g)).
  { rewrite A4, Hp. unfold alloc_ids. rewrite Hv, Hm. destruct opt; [contradiction | reflexivity]. }
  apply ids_split in A8 as (P1 & P2 & P3 & P4).
  rewrite P1, P3, P4 in Hst. exists g'. eexists. split; [exact Hst |]. repeat split; assumption.
Qed.
Theorem C65_reallocation : forall E c t pre g post b v area o0 n,
  cb_ok E -> owns c t pre g post -> b mod 16 = 8 -> length v = 5%nat -> length area = 6%nat -> mi_dec E v = Some (MiTmsi n) ->
  exists g' z, step E c (EUnitdata t ([b; 0x10; 5] ++ v ++ area ++ [o0])) =
      Ok (mkCtx (enabled c) (pre ++ g' :: post),
          [OAssign (tlli g) (local_tlli n) (gea g) (kc g); ORrAssign (tlli g) (local_tlli n) n (imsi g); OUnit (local_tlli n) [8; 0x11]], z) /\
    0 <= z /\ ptmsi g' = n /\ tlli g' = local_tlli n /\ old_tlli g' = tlli g /\ ra g' = area.
Proof.
  intros E c t pre g post b v area o0 n HC Ho Hb Hl Ha Hm.
  pose proof (realloc_exec E HC g b v area o0 n Hl Ha Hm) as K.
  apply (rx_mt E b 0x10 (5 :: v ++ area ++ [o0])) in K. apply (rx_head E b 0x10 _ g _ Hb) in K.
  destruct (unit_step E c t pre g post _ _ Ho K) as (g' & o & z & Hst & A1 & A2 & A3 & A4 & ->).
  exists g', z. split; [exact Hst |]. apply ids_split in A3 as (P1 & P2 & P3 & P4). repeat split; assumption.
Qed.

(** In every execution the TLLI in use is unassigned, the local or foreign one of the P-TMSI, or, without
    P-TMSI, a random one. *)
Theorem C65_tlli : forall c pre g post, reaches c -> gmmes c = pre ++ g :: post ->
  tlli g = 2 ^ 32 - 1 \/ tlli g = local_tlli (ptmsi g) \/ tlli g = 2 * 2 ^ 30 + ptmsi g mod 2 ^ 30 \/
  (ptmsi g = 2 ^ 32 - 1 /\ 15 * 2 ^ 27 <= tlli g < 16 * 2 ^ 27).
Proof.
  intros c pre g post H E. destruct (reaches_at _ _ _ _ H E) as (_ & _ & Hl). unfold tlli_inv in Hl.
  rewrite local_arith, foreign_arith in Hl. unfold local_tlli. lia.
Qed.

(** An update accept with a P-TMSI and an element IMEISV that holds no IMEISV is dropped, but the P-TMSI is
    kept: what is sent next goes out under a TLLI LLC was never told.  After a detach the next Attach Request
    is sent under the TLLI 0xffffffff.  An Attach Accept nobody asked for is answered and its P-TMSI
    taken over in DEREGISTERED. *)
Definition m_rau_acc_bad : list Z := m_rau_acc ++ [0x23; 0x01; 0x01].
Definition told (t : Z) (o : out) : bool := match o with OAssign _ n _ _ => n =? t | _ => false end.
Definition sent_under (t : Z) (o : out) : bool := match o with OUnit u _ => u =? t | _ => false end.
Theorem C65_layers_refuted :
  (exists o, outs (updating ++ [EUnitdata 0xea711b41 m_rau_acc_bad; EDetach 0xec999002 1 0]) = Some o /\
     existsb (sent_under 0xec999002) o = true /\ existsb (told 0xec999002) o = false) /\
  (exists o m, outs (registered ++ [EDetach 0xea711b41 1 0; EUnitdata 0xea711b41 [0x08; 0x06; 0x00]; EAttach (mkAttreq 1 false 0xea711b41 0 [] [] [] [0;0;0;0;0;0]) []])
     = Some (o ++ [OUnit 0xffffffff ([8; 1] ++ m)])) /\
  (exists o c, run ctx0 (each demo [EEnable true; EAttach q0 []; EUnitdata 0x80001234 [0x08; 0x04; 0x07]; EUnitdata 0x80001234 m_att_acc])
     = Ok (c, o ++ [OUnit 0xea711b41 [8; 3]]) /\ map st (gmmes c) = [Dereg] /\ map ptmsi (gmmes c) = [0xea711b41]).
Proof.
  split; [| split].
  - eexists. split; [vm_compute; reflexivity | split; vm_compute; reflexivity].
  - match goal with |- exists o m, ?x = _ => let y := eval vm_compute in x in
      match y with Some ?l => let k := eval vm_compute in (removelast l) in
        let u := eval vm_compute in (match last l (OSuspend 0) with OUnit _ d => skipn 2 d | _ => [] end) in exists k, u; vm_compute; reflexivity end end.
  - match goal with |- exists o c, ?x = _ /\ _ => let y := eval vm_compute in x in
      match y with Ok (?c, ?l) => let k := eval vm_compute in (removelast l) in exists k, c; vm_compute; repeat split end end.
Qed.

Definition m_realloc : list Z := [0x08; 0x10; 0x05; 0xf4; 0xea; 0x71; 0x1b; 0x42; 0x32; 0xf4; 0x07; 0x00; 0x05; 0x00; 0x00].
Example C65_nonvacuous :
  (exists g, owns (after [EEnable true; EAttach q0 []]) 0x80001234 [] g [] /\ st g = RegInit) /\
  (exists g, owns (after updating) 0xea711b41 [] g [] /\ st g = RauInit) /\
  (exists p v, tlv demo (skipn 11 m_att_acc) = Some p /\ p 0x18 = Some v /\ mi_dec demo v = Some (MiTmsi 0xea711b41) /\ p 0x23 = None) /\
  (exists v area o0, m_realloc = [8; 0x10; 5] ++ v ++ area ++ [o0] /\ length v = 5%nat /\ length area = 6%nat /\ mi_dec demo v = Some (MiTmsi 0xea711b42)).
Proof.
  split; [| split; [| split]].
  - eexists. split; [split; [vm_compute; reflexivity |]; split; [intros x [] | left; reflexivity] |]. reflexivity.
  - eexists. split; [split; [vm_compute; reflexivity |]; split; [intros x [] | left; reflexivity] |]. reflexivity.
  - eexists. eexists. split; [vm_compute; reflexivity |]. repeat split.
  - exists [0xf4; 0xea; 0x71; 0x1b; 0x42], [0x32; 0xf4; 0x07; 0x00; 0x05; 0x00], 0. repeat split.
Qed.

(** ** C66: the P-TMSI signature *)

(** 3GPP TS 24.008, 10.5.5.8: three octets, the most significant first. *)
Definition sig_octets (s : Z) : list Z := [s / 2 ^ 16 mod 256; s / 2 ^ 8 mod 256; s mod 256].

(** The signature the upper layer passes is sent in the Attach Request as it is. *)
Theorem C66_given_partial : forall E c pre g post q rnd m,
  cb_ok E -> gmmes c = pre ++ g :: post -> q_ptmsi q <> 0xffffffff ->
  (forall x, In x pre -> ptmsi x <> q_ptmsi q /\ old_ptmsi x <> q_ptmsi q) -> ptmsi g = q_ptmsi q ->
  st g = Dereg -> a_expl g = false -> a_impl g = false -> q_with_imsi q = false ->
  mi_enc E (MiTmsi (ptmsi g)) = Some m -> zlen m = 5 -> length (q_rai q) = 6%nat ->
  exists g', step E c (EAttach q rnd) =
      Ok (mkCtx (enabled c) (pre ++ g' :: post),
          [OUnit (tlli g) ([8; 1; 4; 0x97; 0x07; 0; 0; q_type q mod 16; 10; 0; 5] ++ m ++ q_rai q ++ [0] ++
             [0x19] ++ sig_octets (q_sig q) ++ [0x17; secs_to_tmr_floor (d3314 E); 0xe1])], 0) /\ st g' = RegInit.
Proof.
  intros E c pre g post q rnd m HC Hc Hq Hpre Hg Hs He Hi Hw Hm Hl Hr.
  assert (K : okm (attach_req E q) g (fun g' o rc => rc = 0 /\ st g' = RegInit /\
    o = [OUnit (tlli g) ([8; 1; 4; 0x97; 0x07; 0; 0; q_type q mod 16; 10; 0; 5] ++ m ++ q_rai q ++ [0] ++
             [0x19] ++ sig_octets (q_sig q) ++ [0x17; secs_to_tmr_floor (d3314 E); 0xe1])])).
  { eapply okm_weaken; [apply (attach_req_exec E HC g q m Hs He Hi); now rewrite Hw |].
    intros g' o rc (-> & A & _ & _ & _ & _ & _ & ->). split; [reflexivity |]. split; [exact A |].
    rewrite Hw, Hl. cbn [negb andb]. replace (ptmsi g =? 0xffffffff) with false by lia. reflexivity. }
  apply okm_out in K as (g' & o & z & K & -> & A & ->). exists g'. split; [| exact A].
  cbn [step]. unfold find_or_create, RESERVED_TMSI. replace (q_ptmsi q =? 4294967295) with false by lia. rewrite Hc.
  rewrite (on_first_app (by_ptmsi (q_ptmsi q)) _ pre g post _ _ _) with (3 := K); [reflexivity | |].
  - apply not_true_iff_false. intros X. apply existsb_exists in X as (x & Hx & Hb). destruct (Hpre x Hx). unfold by_ptmsi in Hb. lia.
  - unfold by_ptmsi. lia.
Qed.

(** A signature received with octets [x], [y], [z] is sent back as such in the next update request if and
    only if [x] and [y] are 0. *)
Theorem C66_echo_refuted : forall E g x y z k, byte x -> byte y -> byte z ->
  let p := fun t => if t =? 0x19 then Some [x; y; z] else None in
  psig g = stored_sig p ->
  exists a b, build_rau_req E g k = a ++ [0x19] ++ sig_octets (psig g) ++ b /\ length a = (4 + length (ra g))%nat /\
    (sig_octets (psig g) = [x; y; z] <-> x = 0 /\ y = 0).
Proof.
  intros E g x y z k Hx Hy Hz p Hp. unfold stored_sig, p in Hp. change (0x19 =? 0x19) with true in Hp. cbv iota in Hp. cbn [nth] in Hp.
  unfold byte in *.
  assert (B1 : psig g < 2 ^ 16).
  { rewrite Hp. assert (Hs : forall u v, 0 <= u < 2 ^ 16 -> 0 <= v < 2 ^ 16 -> Z.lor u v < 2 ^ 16).
    { intros u v Hu Hv. destruct (Z.eq_dec (Z.lor u v) 0) as [->|Hne]; [lia |].
      apply Z.log2_lt_pow2; [pose proof (proj2 (Z.lor_nonneg u v)); lia |]. rewrite Z.log2_lor by lia.
      assert (L : forall w, 0 <= w < 2 ^ 16 -> Z.log2 w < 16).
      { intros w Hw. destruct (Z.eq_dec w 0) as [->|]; [reflexivity |]. apply Z.log2_lt_pow2; lia. }
      apply Z.max_lub_lt; apply L; assumption. }
    rewrite !Z.shiftl_mul_pow2 by lia. apply Hs; [| lia].
    split; [apply Z.lor_nonneg; lia | apply Hs; lia]. }
  assert (B0 : 0 <= psig g).
  { rewrite Hp. rewrite !Z.shiftl_mul_pow2 by lia. apply Z.lor_nonneg; split; [apply Z.lor_nonneg|]; lia. }
  exists ([PDISC_MM; MT_RA_UPD_REQ; u8 (Z.lor (Z.shiftl (ac_key g) 4) (Z.land k 0x07))] ++ ra g ++ ms_ra_acc_cap). eexists.
  split; [| split].
  - unfold build_rau_req, RESERVED_TMSI. replace (psig g =? 4294967295) with false by lia. cbn [negb]. rewrite <- !app_assoc.
    unfold sig_ie, sig_octets, u8. rewrite !Z.shiftr_div_pow2 by lia. reflexivity.
  - rewrite !app_length. cbn [length ms_ra_acc_cap]. lia.
  - unfold sig_octets. replace (psig g / 2 ^ 16) with 0 by lia. change (0 mod 256) with 0. split.
    + intros E0. assert (E1 : 0 = x) by exact (f_equal (fun l => nth 0 l 0) E0).
      assert (E2 : psig g / 2 ^ 8 mod 256 = y) by exact (f_equal (fun l => nth 1 l 0) E0).
      assert (E3 : psig g mod 256 = z) by exact (f_equal (fun l => nth 2 l 0) E0). clear E0. subst x. split; [reflexivity |]. rewrite Hp in E2, E3. rewrite !Z.shiftl_mul_pow2 in * by lia.
      change (0 * 2 ^ 8) with 0 in *. rewrite Z.lor_0_l in *. destruct (Z.eq_dec y 0) as [|Hne]; [assumption | exfalso].
      assert (X : Z.lor (y * 2 ^ 4) z / 2 ^ 8 = y / 2 ^ 4).
      { rewrite <- (Z.shiftr_div_pow2 _ 8) by lia. rewrite Z.shiftr_lor, !Z.shiftr_div_pow2 by lia.
        replace (z / 2 ^ 8) with 0 by lia. rewrite Z.lor_0_r. lia. }
      rewrite X in E2. lia.
    + intros [-> ->]. rewrite Hp. cbn [Z.shiftl Pos.iter Z.mul]. rewrite !Z.lor_0_l. repeat (f_equal; try lia).
Qed.
(** The value told to the upper layers is not the one received either: 55 66 77 becomes 0x005777. *)
Example C66_reached :
  exists o q, outs ([EEnable true; EAttach q0 []; EUnitdata 0x80001234 (m_att_acc ++ [0x19; 0x55; 0x66; 0x77]); ELlcTransmitted 0xea711b41;
                     EExpiry 0 T3314; EExpiry 0 T3312]) =
    Some (o ++ [OAttachAcc 0xea711b41 0x5777 0xea711b41 [0x32;0xf4;0x07;0x00;0x05;0x00]; OSuspend 0xea711b41;
                OUnit 0xea711b41 ([0x08;0x08;0x03;0x32;0xf4;0x07;0x00;0x05;0x00;0x00] ++ [0x19; 0x00; 0x57; 0x77] ++ q)]).
Proof.
  match goal with |- exists o q, ?x = _ => let y := eval vm_compute in x in
    match y with Some [?a; ?b; ?c; ?d; _; _; OUnit _ ?l] => let u := eval vm_compute in (skipn 14 l) in exists [a; b; c; d], u; vm_compute; reflexivity end end.
Qed.
Example C66_nonvacuous : exists c g o, run ctx0 (each demo [EEnable true; EAttach q0 []; EUnitdata 0x80001234 [0x08; 0x04; 0x07]]) = Ok (c, o) /\
  gmmes c = [] ++ g :: [] /\ st g = Dereg /\ a_expl g = false /\ a_impl g = false /\ ptmsi g = q_ptmsi q0 /\
  mi_enc demo (MiTmsi (ptmsi g)) = Some [0xf4; 0; 0; 0x12; 0x34].
Proof. eexists. eexists. eexists. split; [vm_compute; reflexivity |]. repeat split. Qed.

(** ** C67: authentication *)

(** A challenge is passed to the SIM with the network's reference number and key sequence number. *)
Theorem C67_challenge : forall E c t pre g post b o0 o1 opt p rnd,
  env_ok E -> cb_ok E -> owns c t pre g post -> b mod 16 = 8 -> byte o0 -> byte o1 -> opt <> [] -> tlv E opt = Some p -> p 0x21 = Some rnd ->
  let key := match p 0x08 with Some w => nth 0 w 0 mod 16 | None => 0xff end in
  exists g' z, step E c (EUnitdata t ([b; 0x12; o0; o1] ++ opt)) =
      Ok (mkCtx (enabled c) (pre ++ g' :: post), [OSimAuth (o1 / 16) key rnd], z) /\ 0 <= z /\
    (st g', ptmsi g', tlli g', old_tlli g', imeisv g') = (st g, ptmsi g, tlli g, old_tlli g, imeisv g) /\
    (gea g', ac_ref g', ac_key g', ac_rand g', ac_imeisv g') = (o0 mod 16, o1 / 16, key, rnd, negb (o0 / 16 =? 0)).
Proof.
  intros E c t pre g post b o0 o1 opt p rnd HE HC Ho Hb H0 H1 Hn Hp Hr key.
  pose proof (auth_req_exec E HE HC g b o0 o1 opt p rnd H0 H1 Hn Hp Hr) as K.
  apply (rx_mt E b 0x12 (o0 :: o1 :: opt)) in K. apply (rx_head E b 0x12 _ g _ Hb) in K.
  destruct (unit_step E c t pre g post _ _ Ho K) as (g' & o & z & Hst & A1 & A2 & A3 & A4 & A5 & A6 & A7 & A8 & A9 & ->).
  exists g', z. split; [exact Hst |]. split; [exact A1 |]. apply ids_split in A3 as (P1 & P2 & P3 & P4).
  unfold key. split; congruence.
Qed.
(** The SIM's answer: LLC gets the new key, then the response with the signed result goes out under the
    mobile's TLLI, with the reference number, and with the IMEISV if it was asked for. *)
Theorem C67_answer : forall E c pre g post ref key rnd sres k,
  cb_ok E -> gmmes c = pre ++ g :: post -> ac_ref g = ref -> ac_key g = key -> ac_rand g = rnd -> 0 <= ref < 16 ->
  (forall x, In x pre -> ac_ref x <> ref) -> (ac_imeisv g = true -> exists v, mi_enc E (MiImeisv (imeisv g)) = Some v) ->
  exists g' z m, step E c (ESimAuth ref key rnd sres k) =
      Ok (mkCtx (enabled c) (pre ++ g' :: post),
          [OAssign (old_tlli g) (tlli g) (gea g) k; OUnit (tlli g) ([8; 0x13; ref; 0x22] ++ sres ++ m)], z) /\ 0 <= z /\
    (ac_imeisv g = false -> m = []) /\
    (forall v, ac_imeisv g = true -> mi_enc E (MiImeisv (imeisv g)) = Some v -> m = [0x23; zlen v mod 256] ++ v) /\
    (st g', ptmsi g', tlli g', old_tlli g', kc g') = (st g, ptmsi g, tlli g, old_tlli g, k).
Proof.
  intros E c pre g post ref key rnd sres k HC Hc H1 H2 H3 Hr Hpre Hi.
  pose proof (sim_rsp_exec E HC g sres k Hi) as K. apply okm_out in K as (g' & o & z & K & A1 & A2 & A3 & A4 & A5 & m & -> & Hm).
  exists g', z, m. split; [| split; [exact A1 |]].
  - cbn [step]. rewrite Hc, (on_first_app _ _ pre g post _ _ _) with (3 := K).
    + cbn [wrap]. rewrite H1, Z.mod_small by exact Hr. reflexivity.
    + apply not_true_iff_false. intros X. apply existsb_exists in X as (x & Hx & Hb). specialize (Hpre x Hx). lia.
    + assert (L : forall l, list_eqb l l = true) by (induction l as [|y l IH]; cbn [list_eqb]; [reflexivity | rewrite Z.eqb_refl; exact IH]).
      rewrite H1, H2, H3, L, !Z.eqb_refl. reflexivity.
  - split; [intros X; rewrite Hm, X; reflexivity |]. split; [intros v X Y; rewrite Hm, X, Y; reflexivity |].
    apply ids_split in A3 as (P1 & P2 & P3 & P4). congruence.
Qed.
(** An answer to a challenge no subscriber has had is refused and changes nothing. *)
Theorem C67_unknown : forall E c ref key rnd sres k,
  (forall g, In g (gmmes c) -> ac_ref g <> ref \/ ac_key g <> key \/ ac_rand g <> rnd) ->
  step E c (ESimAuth ref key rnd sres k) = Ok (c, [], -22).
Proof.
  intros E c ref key rnd sres k H. cbn [step].
  assert (L : forall a b, list_eqb a b = true -> a = b).
  { induction a as [|x a IH]; intros [|y b'] X; cbn [list_eqb] in X; try discriminate; [reflexivity |].
    apply andb_true_iff in X as [X1 X2]. apply Z.eqb_eq in X1. f_equal; [exact X1 | now apply IH]. }
  assert (K : forall l m, (forall g, In g l -> ac_ref g <> ref \/ ac_key g <> key \/ ac_rand g <> rnd) ->
    on_first (fun g => (ac_ref g =? ref) && (ac_key g =? key) && list_eqb (ac_rand g) rnd) m l = None).
  { clear H. induction l as [|g l IH]; intros m H; cbn [on_first]; [reflexivity |].
    destruct ((ac_ref g =? ref) && (ac_key g =? key) && list_eqb (ac_rand g) rnd) eqn:X.
    - exfalso. apply andb_true_iff in X as [X X3]. apply andb_true_iff in X as [X1 X2]. apply L in X3.
      apply Z.eqb_eq in X1, X2. destruct (H g (or_introl eq_refl)) as [Y|[Y|Y]]; contradiction.
    - rewrite (IH m); [reflexivity |]. intros x Hx. apply H. now right. }
  now rewrite (K _ _ H).
Qed.

(** A failure is reported with the message type of P-TMSI Reallocation Complete (0x11) instead of
    Authentication and Ciphering Failure (0x1c); and an answer is accepted twice, the second time with the
    reference number 255 that stands for none (15 in the message). *)
Theorem C67_failure_refuted :
  (exists o, outs [EEnable true; EAttach q0 []; EUnitdata 0x80001234 [0x08; 0x12; 0x10]] = Some (o ++ [OUnit 0x80001234 [8; 0x11; 0x5f]])) /\
  (exists o m, outs [EEnable true; EAttach q0 []; EUnitdata 0x80001234 m_auth; ESimAuth 2 0 rand0 [1;2;3;4] []; ESimAuth 255 0 rand0 [5;6;7;8] []] =
     Some (o ++ [OUnit 0x80001234 ([8; 0x13; 0x0f; 0x22; 5; 6; 7; 8] ++ m)])).
Proof.
  split.
  - match goal with |- exists o, ?x = _ => let y := eval vm_compute in x in
      match y with Some ?l => let k := eval vm_compute in (removelast l) in exists k; vm_compute; reflexivity end end.
  - match goal with |- exists o m, ?x = _ => let y := eval vm_compute in x in
      match y with Some ?l => let k := eval vm_compute in (removelast l) in
        let u := eval vm_compute in (match last l (OSuspend 0) with OUnit _ d => skipn 8 d | _ => [] end) in exists k, u; vm_compute; reflexivity end end.
Qed.
Example C67_nonvacuous :
  (exists p, tlv demo (skipn 4 m_auth) = Some p /\ p 0x21 = Some rand0 /\ p 0x08 = Some [0x80]) /\
  (exists g, gmmes (after [EEnable true; EAttach q0 []; EUnitdata 0x80001234 m_auth]) = [g] /\ ac_ref g = 2 /\ ac_key g = 0 /\ ac_rand g = rand0 /\
     ac_imeisv g = true /\ exists v, mi_enc demo (MiImeisv (imeisv g)) = Some v).
Proof.
  split.
  - eexists. split; [vm_compute; reflexivity |]. split; reflexivity.
  - eexists. split; [vm_compute; reflexivity |]. repeat split. eexists. reflexivity.
Qed.

Print Assumptions C64_resumed_partial.
Print Assumptions C64_giveup_refuted.
Print Assumptions C64_second_refuted.
Print Assumptions C64_registered_refuted.
Print Assumptions C65_attach.
Print Assumptions C65_update.
Print Assumptions C65_reallocation.
Print Assumptions C65_tlli.
Print Assumptions C65_layers_refuted.
Print Assumptions C66_given_partial.
Print Assumptions C66_echo_refuted.
Print Assumptions C67_challenge.
Print Assumptions C67_answer.
Print Assumptions C67_unknown.
Print Assumptions C67_failure_refuted.
