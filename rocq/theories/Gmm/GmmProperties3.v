(** GPRS mobility management: properties C68 to C71, and three more refutations for C65 to C67. *)
From Verif.Lib Require Import Base Outcome.
From Verif.Gmm Require Import TmrModel GmmModel GmmProofs GmmExec GmmDemo GmmProperties GmmProperties2.

Lemma land15 : forall x, Z.land x 0x0f = x mod 16.
Proof. intros x. change 15 with (Z.ones 4). now rewrite Z.land_ones by lia. Qed.

(** ** C68: the requests follow 3GPP TS 24.008 *)

(** 3GPP TS 24.007, 11.2.4: the optional elements of a message.  Bit 8 set: identifier and value in one
    octet; the identifiers 0x17, 0x19 and 0x27 of TS 24.008, 9.4 have values of fixed length; the others
    carry their length. *)
Fixpoint elements (f : nat) (l : list Z) : list (Z * list Z) :=
  match f, l with
  | S f, t :: r =>
      if 128 <=? t then (t / 16 * 16, [t mod 16]) :: elements f r
      else if t =? 0x17 then (t, firstn 1 r) :: elements f (skipn 1 r)
      else if t =? 0x19 then (t, firstn 3 r) :: elements f (skipn 3 r)
      else if t =? 0x27 then (t, firstn 2 r) :: elements f (skipn 2 r)
      else match r with
           | n :: v => if n <=? zlen v then (t, firstn (Z.to_nat n) v) :: elements f (skipn (Z.to_nat n) v) else []
           | [] => []
           end
  | _, _ => []
  end.
Lemma elements_tlv : forall f t n v, t < 128 -> t <> 0x17 -> t <> 0x19 -> t <> 0x27 ->
  elements (S f) (t :: n :: v) = if n <=? zlen v then (t, firstn (Z.to_nat n) v) :: elements f (skipn (Z.to_nat n) v) else [].
Proof.
  intros f t n v H1 H2 H3 H4. cbn [elements]. replace (128 <=? t) with false by lia. replace (t =? 0x17) with false by lia.
  replace (t =? 0x19) with false by lia. replace (t =? 0x27) with false by lia. reflexivity.
Qed.
Definition element (t : Z) (l : list Z) : option (list Z) :=
  match filter (fun x => fst x =? t) (elements (length l) l) with x :: _ => Some (snd x) | [] => None end.

(** Attach Request (TS 24.008, 9.4.1): network capability, key sequence number and attach type, DRX
    parameter, identity, routing area, radio access capability, then the optional elements.  The message is
    made of these parts; the type, the identity, the area and the signature are those of the primitive. *)
Theorem C68_attach_partial : forall E c pre g post q rnd m,
  cb_ok E -> gmmes c = pre ++ g :: post -> q_ptmsi q <> 0xffffffff ->
  (forall x, In x pre -> ptmsi x <> q_ptmsi q /\ old_ptmsi x <> q_ptmsi q) -> ptmsi g = q_ptmsi q ->
  st g = Dereg -> a_expl g = false -> a_impl g = false ->
  mi_enc E (if q_with_imsi q then MiImsi (imsi g) else MiTmsi (ptmsi g)) = Some m -> 0 <= zlen m < 256 -> 0 <= q_type q < 8 ->
  exists g' capability drx opt, step E c (EAttach q rnd) =
      Ok (mkCtx (enabled c) (pre ++ g' :: post),
          [OUnit (tlli g) ([8; 1] ++ ([zlen capability] ++ capability) ++ [q_type q] ++ drx ++ ([zlen m] ++ m) ++ q_rai q ++ [0] ++ opt)], 0) /\
    st g' = RegInit /\ length drx = 2%nat /\ 2 <= zlen capability <= 8 /\
    element 0x17 opt = Some [secs_to_tmr_floor (d3314 E)] /\
    element 0x19 opt = (if q_with_imsi q then None else Some (sig_octets (q_sig q))) /\
    element 0xe0 opt = (if q_with_imsi q then None else Some [1]).
Proof.
  intros E c pre g post q rnd m HC Hc Hq Hpre Hg Hs He Hi Hm Hl Ht.
  assert (K : okm (attach_req E q) g (fun g' o rc => rc = 0 /\ st g' = RegInit /\
    o = [OUnit (tlli g) ([8; 1; 4; 0x97; 0x07; 0; 0; q_type q mod 16; 10; 0; zlen m mod 256] ++ m ++ q_rai q ++ [0] ++
           (if negb (q_with_imsi q) && negb (ptmsi g =? 0xffffffff)
            then [0x19; q_sig q / 2 ^ 16 mod 256; q_sig q / 2 ^ 8 mod 256; q_sig q mod 256] else []) ++
           [0x17; secs_to_tmr_floor (d3314 E)] ++ (if q_with_imsi q then [] else [0xe1]))])).
  { eapply okm_weaken; [apply (attach_req_exec E HC g q m Hs He Hi Hm) |]. intros g' o rc (-> & A & _ & _ & _ & _ & _ & ->). auto. }
  apply okm_out in K as (g' & o & z & K & -> & A & ->).
  exists g', [0x97; 0x07; 0; 0], [10; 0],
    ((if negb (q_with_imsi q) && negb (ptmsi g =? 0xffffffff) then 0x19 :: sig_octets (q_sig q) else []) ++
           [0x17; secs_to_tmr_floor (d3314 E)] ++ (if q_with_imsi q then [] else [0xe1])).
  split; [| split; [exact A |]; split; [reflexivity |]; split; [unfold zlen; cbn [length]; lia |]].
  - cbn [step]. unfold find_or_create, RESERVED_TMSI. replace (q_ptmsi q =? 4294967295) with false by lia. rewrite Hc.
    rewrite (on_first_app (by_ptmsi (q_ptmsi q)) _ pre g post _ _ _) with (3 := K).
    + cbn [wrap]. rewrite (Z.mod_small (zlen m)) by lia. rewrite (Z.mod_small (q_type q)) by lia. reflexivity.
    + apply not_true_iff_false. intros X. apply existsb_exists in X as (x & Hx & Hb). destruct (Hpre x Hx). unfold by_ptmsi in Hb. lia.
    + unfold by_ptmsi. lia.
  - replace (ptmsi g =? 0xffffffff) with false by lia. destruct (q_with_imsi q); cbn [negb andb]; repeat split.
Qed.
(** But the radio access capability is always the empty one (the 0 after the area above; the smallest value
    TS 24.008 allows has 5 octets), and the key sequence number always 0, though 7 stands for "no key". *)

(** Identity Response. *)
Theorem C68_identity : forall E c t pre g post b o0 i v,
  cb_ok E -> owns c t pre g post -> b mod 16 = 8 -> byte o0 ->
  ((o0 mod 16 = 1 /\ i = MiImsi (imsi g)) \/ (o0 mod 16 = 2 /\ i = MiImei (imei g)) \/ (o0 mod 16 = 3 /\ i = MiImeisv (imeisv g)) \/
   (o0 mod 16 = 4 /\ i = MiTmsi (ptmsi g))) -> mi_enc E i = Some v -> zlen v < 256 ->
  exists g' z, step E c (EUnitdata t [b; 0x15; o0]) =
    Ok (mkCtx (enabled c) (pre ++ g' :: post), [OUnit (tlli g) ([8; 0x16; zlen v] ++ v)], z) /\ 0 <= z /\ st g' = st g.
Proof.
  intros E c t pre g post b o0 i v HC Ho Hb H0 Hi Hv Hl.
  pose proof (id_req_exec E HC g b o0 i v H0 Hi Hv) as K.
  apply (rx_mt E b 0x15 [o0]) in K. apply (rx_head E b 0x15 _ g _ Hb) in K.
  destruct (unit_step E c t pre g post _ _ Ho K) as (g' & o & z & Hst & A1 & A2 & ->).
  exists g', z. rewrite Z.mod_small in Hst by (unfold zlen in *; lia). split; [exact Hst |]. split; [exact A1 |].
  apply quies_split in A2 as (B1 & _). apply core_split in B1 as (S1 & _). exact S1.
Qed.

(** Detach Request (9.4.5.2): detach type in the lower half of the third octet (power-off: bit 4), then the
    P-TMSI as element 0x18.  What is sent has 0 in that half, which stands for no type at all, whatever the
    primitive asks for, and no element 0x18. *)
Theorem C68_detach_refuted : forall E c pre g post m type,
  cb_ok E -> gmmes c = pre ++ g :: post -> (forall x, In x pre -> ptmsi x <> ptmsi g /\ old_ptmsi x <> ptmsi g) ->
  st g = Reg -> mi_enc E (MiTmsi (ptmsi g)) = Some m -> zlen m = 5 -> 0 <= type < 8 -> 128 <= nth 0 m 0 ->
  exists g' z o opt, step E c (EDetach (ptmsi g) type 0) =
      Ok (mkCtx (enabled c) (pre ++ g' :: post), [OUnit (tlli g) ([8; 5; o] ++ opt)], z) /\
    st g' = DeregInit /\ o mod 16 = 0 /\ element 0x18 opt = None.
Proof.
  intros E c pre g post m type HC Hc Hpre Hs Hm Hl Ht Hh.
  assert (K : okm (request_detach E type 0) g (fun g' o rc => st g' = DeregInit /\
     o = [OUnit (tlli g) ([8; 5; u8 (Z.lor (Z.shiftl (Z.land type 7) 5) (Z.shiftl (Z.land 0 1) 4))] ++ [10; 0; 5] ++ m)])).
  { unfold request_detach. change (0 =? 0) with true. cbv iota.
    apply okm_bind with (R := fun g' o _ => o = [] /\ st g' = Reg /\ ids g' = ids g); [apply okm_upd; repeat split; assumption |].
    intros g1 _ _ (-> & A1 & A2). cbn [app].
    apply okm_bind with (R := fun g' o _ => o = [] /\ st g' = DeregInit /\ ids g' = ids g).
    - unfold dispatch. apply okm_get. rewrite A1. cbn [in_ok action act_reg].
      apply okm_bind with (R := fun g' o _ => o = [] /\ st g' = DeregInit /\ ids g' = ids g).
      + unfold state_chg. apply okm_get. rewrite A1. cbn [out_ok].
        apply okm_upd_bind. cbn [on_enter]. apply okm_ret. split; [reflexivity |]. split; [reflexivity | exact A2].
      + intros g2 o2 _ (-> & B1 & B2). apply okm_ret. auto.
    - intros g2 o2 _ (-> & B1 & B2). apply ids_split in B2 as (P1 & _ & P3 & _). cbn [app].
      unfold tx_detach_req, tx. apply okm_get. unfold build_detach_req, mi_lv. rewrite P1, Hm, Hl, P3.
      apply okm_call; [exact HC |]. intros rc Hrc. split; [exact B1 | reflexivity]. }
  apply okm_out in K as (g' & o & z & K & A & ->). exists g', z. eexists. eexists. split; [| split; [exact A |]; split].
  - cbn [step]. rewrite Hc, (on_first_app (by_ptmsi (ptmsi g)) _ pre g post _ _ _) with (3 := K); [reflexivity | |].
    + apply not_true_iff_false. intros X. apply existsb_exists in X as (x & Hx & Hb). destruct (Hpre x Hx). unfold by_ptmsi in Hb. lia.
    + unfold by_ptmsi. lia.
  - assert (X : type = 0 \/ type = 1 \/ type = 2 \/ type = 3 \/ type = 4 \/ type = 5 \/ type = 6 \/ type = 7) by lia.
    destruct X as [-> | [-> | [-> | [-> | [-> | [-> | [-> | ->]]]]]]]; reflexivity.
  - destruct m as [|a [|b [|x [|d [|e [|? ?]]]]]]; unfold zlen in Hl; cbn [length] in Hl; try lia. cbn [nth] in Hh.
    unfold element. cbn [app length]. rewrite elements_tlv by lia.
    replace (0 <=? zlen [5; a; b; x; d; e]) with true by reflexivity. change (Z.to_nat 0) with 0%nat. cbn [firstn skipn].
    rewrite elements_tlv by lia. replace (a <=? zlen [b; x; d; e]) with false by (unfold zlen; cbn [length]; lia). reflexivity.
Qed.

(** Routing Area Update Request (9.4.14): update type and key sequence number, old area, radio access
    capability, then the optional elements.  The DRX parameter (0x27) and the network capability (0x31) are
    written without identifiers, so they are not there for the network, and the radio access capability is
    the empty one. *)
Theorem C68_update_refuted : forall E c pre g post, cb_ok E -> gmmes c = pre ++ g :: post -> st g = Reg -> t3312_on g = true ->
  exists g' k opt, step E c (EExpiry (length pre) T3312) =
      Ok (mkCtx (enabled c) (pre ++ g' :: post), [OSuspend (tlli g); OUnit (tlli g) ([8; 8; k] ++ ra g ++ [0] ++ opt)], 0) /\
    element 0x17 opt = Some [secs_to_tmr_floor (d3314 E)] /\
    element 0x19 opt = (if psig g =? 0xffffffff then None else Some (sig_octets (psig g))) /\
    element 0x27 opt = None /\ element 0x31 opt = None /\ element 0xe0 opt = Some [5].
Proof.
  intros E c pre g post HC Hc Hs Hon.
  assert (K : okm (expire E T3312) g (fun g' o z => z = 0 /\ 
     o = [OSuspend (tlli g); OUnit (tlli g) ([8; 8; u8 (Z.lor (Z.shiftl (ac_key g) 4) 3)] ++ ra g ++ [0] ++
        (if negb (psig g =? RESERVED_TMSI) then sig_ie (psig g) else []) ++
        [IE_TIMER_READY; secs_to_tmr_floor (d3314 E)] ++ drx_param_def ++ ms_net_cap ++ [0xe1])])).
  { unfold expire. apply okm_get. rewrite Hon. eapply okm_bind; [apply (t3312_exec E HC g Hs) |].
    intros g1 o1 _ (A & _ & _ & body & -> & ->). apply okm_ret. split; reflexivity. }
  apply okm_out in K as (g' & o & z & Hm & -> & ->). exists g'. eexists. eexists. split; [| split; [| split; [| split; [| split]]]].
  1: cbn [step]; rewrite Hc, (at_nth_app _ _ _ _ _ _ _ Hm); reflexivity.
  all: unfold RESERVED_TMSI; destruct (psig g =? 4294967295); try reflexivity.
  unfold sig_ie, sig_octets, u8. rewrite !Z.shiftr_div_pow2 by lia. reflexivity.
Qed.

Example C68_nonvacuous :
  (exists g, gmmes (after registered) = [] ++ g :: [] /\ st g = Reg /\ mi_enc demo (MiTmsi (ptmsi g)) = Some [0xf4; 0xea; 0x71; 0x1b; 0x41]) /\
  (exists g, gmmes (after (registered ++ [EExpiry 0 T3314])) = [] ++ g :: [] /\ st g = Reg /\ t3312_on g = true) /\
  (exists g, gmmes (after [EEnable true; EAttach q0 []; EUnitdata 0x80001234 [0x08; 0x04; 0x07]]) = [] ++ g :: [] /\ st g = Dereg /\ a_expl g = false /\ a_impl g = false).
Proof. split; [| split]; eexists; split; try (vm_compute; reflexivity); repeat split. Qed.

(** ** C69: force to standby *)

Definition pres {A} (I : gmme -> Prop) (m : M A) : Prop := forall g g' o a, I g -> m g = Ok (g', o, a) -> I g'.
Definition post {A} (I : gmme -> Prop) (m : M A) : Prop := forall g g' o a, m g = Ok (g', o, a) -> I g'.
Section Pres.
Variable I : gmme -> Prop.
Lemma bind_inv : forall A B (m : M A) (f : A -> M B) g g' o b, bindM m f g = Ok (g', o, b) ->
  exists g1 o1 a o2, m g = Ok (g1, o1, a) /\ f a g1 = Ok (g', o2, b) /\ o = o1 ++ o2.
Proof.
  intros A B m f g g' o b H. unfold bindM in H. destruct (m g) as [[[g1 o1] a]| |] eqn:E1; [| discriminate H | discriminate H].
  destruct (f a g1) as [[[g2 o2] b']| |] eqn:E2; [| discriminate H | discriminate H]. injection H as <- <- <-. exists g1, o1, a, o2. auto.
Qed.
Lemma pres_bind : forall A B (m : M A) (f : A -> M B), pres I m -> (forall a, pres I (f a)) -> pres I (bindM m f).
Proof. intros A B m f Hm Hf g g' o b Hg H. apply bind_inv in H as (g1 & o1 & a & o2 & E1 & E2 & _). exact (Hf _ _ _ _ _ (Hm _ _ _ _ Hg E1) E2). Qed.
Lemma pres_ret : forall A (a : A), pres I (ret a).
Proof. intros A a g g' o x Hg [= <- _ _]. exact Hg. Qed.
Lemma pres_upd : forall f, (forall g, I g -> I (f g)) -> pres I (upd f).
Proof. intros f H g g' o x Hg [= <- _ _]. auto. Qed.
Lemma pres_call : forall E x, pres I (call E x).
Proof. intros E x g g' o y Hg [= <- _ _]. exact Hg. Qed.
Lemma pres_get : pres I get.
Proof. intros g g' o y Hg [= <- _ _]. exact Hg. Qed.
Lemma pres_liftr : forall A (r : res A), pres I (liftr r).
Proof. intros A r g g' o y Hg H. unfold liftr in H. destruct r; [injection H as <- _ _; exact Hg | discriminate H | discriminate H]. Qed.
Lemma pres_abort : forall A, pres I (@abort A).
Proof. intros A g g' o y Hg H. discriminate H. Qed.
Lemma post_bind : forall A B (m : M A) (f : A -> M B), (forall a, post I (f a)) -> post I (bindM m f).
Proof. intros A B m f Hf g g' o b H. apply bind_inv in H as (g1 & o1 & a & o2 & E1 & E2 & _). exact (Hf _ _ _ _ _ E2). Qed.
Lemma post_pres : forall A B (m : M A) (f : A -> M B), post I m -> (forall a, pres I (f a)) -> post I (bindM m f).
Proof. intros A B m f Hm Hf g g' o b H. apply bind_inv in H as (g1 & o1 & a & o2 & E1 & E2 & _). exact (Hf _ _ _ _ _ (Hm _ _ _ _ E1) E2). Qed.
End Pres.

Definition stopped (g : gmme) : Prop := t3314_on g = false.
Ltac pr := repeat first
  [ match goal with
    | |- pres _ (ret _) => apply pres_ret | |- pres _ (call _ _) => apply pres_call | |- pres _ get => apply pres_get
    | |- pres _ (liftr _) => apply pres_liftr | |- pres _ abort => apply pres_abort end
  | match goal with |- pres _ (upd _) => apply pres_upd end; solve [intros ? H; exact H | intros ? _; reflexivity]
  | match goal with |- pres _ (bindM _ _) => apply pres_bind; [| intros ?] end
  | match goal with |- pres _ (if ?b then _ else _) => destruct b end
  | match goal with |- pres _ (match ?x with _ => _ end) => destruct x end ].
Lemma s_rs : pres stopped ready_stop. Proof. unfold ready_stop, t3312_start. pr. Qed.
Lemma s_chg : forall E n, pres stopped (state_chg E n).
Proof. intros E n. unfold state_chg, on_enter, t3316_stop, t3312_stop, release_ind. pr. Qed.
Lemma s_tx : forall E f, pres stopped (tx E f). Proof. intros E f. unfold tx. pr. Qed.
Lemma s_disp : forall E e, pres stopped (dispatch E e).
Proof.
  intros E e.
  assert (K : forall e0, pres stopped (let* g := get in if in_ok (st g) e0 then action E (st g) e0 ;; ret 0 else ret (-1))).
  { intros e0. apply pres_bind; [apply pres_get |]. intros a. destruct (in_ok (st a) e0); [| apply pres_ret].
    apply pres_bind; [| intros; apply pres_ret].
    destruct (st a); cbn [action]; destruct e0; cbn [act_null act_dereg act_reg_init act_reg act_dereg_init act_rau_init act_sr_init];
      try apply pres_abort; try apply s_chg;
      unfold attach_failed, reinit_attach, attach_cnf, establish_cnf, tx_att_req, tx_rau_req, t3316_stop;
      repeat first [apply s_chg | apply s_tx | progress pr]. }
  destruct e; try apply K. unfold dispatch. apply pres_bind; [apply s_chg | intros; apply pres_ret].
Qed.
Lemma s_fail : forall E c, pres stopped (tx_auth_ciph_fail E c).
Proof. intros E c. unfold tx_auth_ciph_fail, t3316_stop. pr. apply s_tx. Qed.
Ltac pr2 := repeat first [apply s_rs | apply s_chg | apply s_tx | apply s_disp | apply s_fail | progress pr].

Lemma p_rs : post stopped ready_stop.
Proof.
  intros g g' o [] H. unfold ready_stop in H. apply bind_inv in H as (g1 & o1 & a & o2 & E1 & E2 & _). injection E1 as <- _ <-.
  destruct (t3314_on g) eqn:X; [| injection E2 as <- _; exact X].
  apply bind_inv in E2 as (g1 & o3 & a & o4 & E1 & E2 & _). injection E1 as <- _ _.
  assert (P : pres stopped t3312_start) by (unfold t3312_start; pr). exact (P (set_t3314_on false g) g' o4 tt eq_refl E2).
Qed.
Lemma post_rd : forall A pdu i (f : Z -> M A), (forall x, x = nth (Z.to_nat i) pdu 0 -> post stopped (f x)) -> 0 <= i < zlen pdu -> post stopped (bindM (rdM pdu i) f).
Proof.
  intros A pdu i f H Hi g g' o b E. unfold rdM in E. apply bind_inv in E as (g1 & o1 & a & o2 & E1 & E2 & _).
  unfold liftr in E1. rewrite rd_ok in E1 by exact Hi. injection E1 as <- _ <-. exact (H _ eq_refl _ _ _ _ E2).
Qed.
Lemma p_rau_timer : forall o, post stopped (rx_rau_timer o true).
Proof. intros o. unfold rx_rau_timer. apply post_bind. intros _. apply post_bind. intros _. apply p_rs. Qed.
Lemma p_att : forall E pdu, 11 <= zlen pdu -> nth 2 pdu 0 / 16 <> 0 -> post stopped (rx_att_ack E pdu).
Proof.
  intros E pdu Hl Hf. unfold rx_att_ack. replace (zlen pdu <? 11) with false by lia.
  apply post_rd; [intros o0 -> | lia]. change (Z.to_nat 2) with 2%nat. do 4 (apply post_bind; intros ?).
  rewrite Z.shiftr_div_pow2 by lia. change (2 ^ 4) with 16. replace (nth 2 pdu 0 / 16 =? 0) with false by lia. cbn [negb].
  apply post_pres; [apply p_rau_timer |]. intros _.
  unfold rx_ptmsi_sig, rx_ready_timer, rx_alloc_ptmsi, update_ptmsi, rx_t3302, t3312_start, ll_assign, rr_assign, tx_att_compl, rdM. pr2.
Qed.
Lemma p_rau : forall E pdu, 10 <= zlen pdu -> nth 2 pdu 0 mod 16 <> 0 -> post stopped (rx_rau_acc E pdu).
Proof.
  intros E pdu Hl Hf. unfold rx_rau_acc. replace (zlen pdu <? 10) with false by lia.
  apply post_rd; [intros o0 -> | lia]. change (Z.to_nat 2) with 2%nat. do 2 (apply post_bind; intros ?).
  rewrite land15. replace (nth 2 pdu 0 mod 16 =? 0) with false by lia. cbn [negb].
  apply post_pres; [apply p_rau_timer |]. intros _.
  unfold rx_ptmsi_sig, rx_ready_timer, rx_alloc_ptmsi, update_ptmsi, rx_t3302, t3312_start, ll_assign, rr_assign, modify_ind, tx_rau_compl, rdM. pr2.
Qed.
Lemma p_id : forall E pdu, 3 <= zlen pdu -> nth 2 pdu 0 / 16 = 1 -> post stopped (rx_id_req E pdu).
Proof.
  intros E pdu Hl Hf. unfold rx_id_req. replace (zlen pdu <? 3) with false by lia.
  apply post_rd; [intros o0 -> | lia]. change (Z.to_nat 2) with 2%nat.
  rewrite Z.shiftr_div_pow2 by lia. change (2 ^ 4) with 16. rewrite Hf. change (1 =? 1) with true. cbv iota.
  apply post_pres; [apply p_rs |]. intros _. unfold tx_id_resp. pr2.
Qed.
Lemma p_auth : forall E pdu, 4 <= zlen pdu -> nth 3 pdu 0 mod 16 <> 0 ->
  (4 < zlen pdu -> exists p, tlv E (skipn 4 pdu) = Some p) -> post stopped (rx_auth_ciph_req E pdu).
Proof.
  intros E pdu Hl Hf Hp. unfold rx_auth_ciph_req. replace (zlen pdu <? 4) with false by lia.
  apply post_bind; intros o0. apply post_rd; [intros o1 -> | lia]. change (Z.to_nat 3) with 3%nat.
  assert (K : forall x, x <> None -> post stopped (match x with
    | None => let* _ := tx_auth_ciph_fail E CAUSE_COND_IE in ret (- EINVAL)
    | Some (rnd, key) =>
      (if Z.land (nth 3 pdu 0) 0x0f =? 0 then ret tt else ready_stop) ;;
      upd (set_gea (Z.land o0 0x0f)) ;; upd (set_ac_ref (Z.shiftr (nth 3 pdu 0) 4)) ;;
      upd (set_ac_imeisv (negb (Z.shiftr o0 4 =? 0))) ;; upd (set_ac_key key) ;;
      match rnd with
      | Some r =>
          upd (set_ac_rand r) ;;
          let* rc := sim_auth_ind E in
          if rc <? 0 then let* _ := tx_auth_ciph_fail E CAUSE_AUTH_UNACCEPT in ret rc else ret rc
      | None =>
          let* rc := ll_assign E in
          if rc <? 0 then upd (set_ac_ref 0xff) ;; let* _ := tx_auth_ciph_fail E CAUSE_P_STATE in ret rc
          else let* rc := tx_auth_ciph_resp E None in upd (set_ac_ref 0xff) ;; ret rc
      end
  end)).
  { intros [[rnd key]|] Hx; [| contradiction]. rewrite land15. replace (nth 3 pdu 0 mod 16 =? 0) with false by lia.
    apply post_pres; [apply p_rs |]. intros _. unfold sim_auth_ind, ll_assign, tx_auth_ciph_resp. pr2. }
  intros g g' o b H. apply bind_inv in H as (g1 & o1 & a & o2 & E1 & E2 & _).
  assert (Ha : a <> None).
  { intros ->. destruct (4 <? zlen pdu) eqn:X; [| discriminate E1].
    destruct (Hp ltac:(lia)) as [p Hq]. rewrite Hq in E1. destruct (p IE_AUTH_RAND); [| discriminate E1].
    apply bind_inv in E1 as (? & ? & ? & ? & _ & E1 & _). destruct (p IE_CKSN); [| discriminate E1].
    unfold rdM in E1. apply bind_inv in E1 as (? & ? & ? & ? & _ & E1 & _). discriminate E1. }
  exact (K a Ha _ _ _ _ E2).
Qed.

Lemma unit_inv : forall E c t pre g post b mt r c' o z, owns c t pre g post -> b mod 16 = 8 ->
  step E c (EUnitdata t (b :: mt :: r)) = Ok (c', o, z) -> exists g', gmm_rx E (b :: mt :: r) g = Ok (g', o, z) /\ gmmes c' = pre ++ g' :: post.
Proof.
  intros E c t pre g post b mt r c' o z Ho Hb H. destruct (owns_first _ _ _ _ _ Ho) as [H1 H2]. destruct Ho as (Hc & _).
  cbn [step] in H. rewrite Hc in H. clear Hc.
  assert (X : rx_pdu E (b :: mt :: r) g = gmm_rx E (b :: mt :: r) g).
  { unfold rx_pdu. replace (zlen (b :: mt :: r) <? 2) with false by (unfold zlen; cbn [length]; lia).
    unfold rdM. rewrite rd_ok by (unfold zlen; cbn [length]; lia). change (nth (Z.to_nat 0) (b :: mt :: r) 0) with b.
    unfold bindM at 1, liftr. cbv zeta. rewrite land15, Hb. change (8 =? PDISC_MM) with true. cbv iota.
    destruct (gmm_rx E (b :: mt :: r) g) as [[[? ?] ?]| |]; reflexivity. }
  destruct (rx_pdu E (b :: mt :: r) g) as [[[g' o'] z']| |] eqn:R.
  - rewrite (on_first_app _ _ _ _ _ _ _ _ H1 H2 R) in H. cbn [wrap] in H. injection H as <- <- <-. exists g'. split; [now symmetry | reflexivity].
  - exfalso. assert (Y : exists e, on_first (by_tlli t) (rx_pdu E (b :: mt :: r)) (pre ++ g :: post) = Some (Err e)).
    { clear H. induction pre as [|x pre IH]; cbn [app on_first existsb] in *; [rewrite H2, R; eauto |].
      apply orb_false_iff in H1 as [-> H1]. destruct (IH H1) as [e0 ->]. eauto. }
    destruct Y as [e0 Y]. rewrite Y in H. discriminate H.
  - exfalso. assert (Y : on_first (by_tlli t) (rx_pdu E (b :: mt :: r)) (pre ++ g :: post) = Some UB).
    { clear H. induction pre as [|x pre IH]; cbn [app on_first existsb] in *; [rewrite H2, R; reflexivity |].
      apply orb_false_iff in H1 as [-> H1]. now rewrite (IH H1). }
    rewrite Y in H. discriminate H.
Qed.

(** 3GPP TS 24.008, 10.5.5.7 and 9.4: where the element "force to standby" is in each message. *)
Inductive forces : list Z -> Prop :=
| f_attach : forall b o r, o / 16 <> 0 -> 11 <= zlen (b :: 2 :: o :: r) -> forces (b :: 2 :: o :: r)
| f_update : forall b o r, o mod 16 <> 0 -> 10 <= zlen (b :: 9 :: o :: r) -> forces (b :: 9 :: o :: r)
| f_identity : forall b o r, o / 16 = 1 -> forces (b :: 0x15 :: o :: r)
| f_auth : forall b a o r, o mod 16 <> 0 -> forces (b :: 0x12 :: a :: o :: r).

(** After an accept, an identity or an authentication request that forces to standby the READY timer does
    not run, whatever else happens while the message is handled. *)
Theorem C69_standby_partial : forall E c t pre g post b mt r c' o z,
  owns c t pre g post -> b mod 16 = 8 -> forces (b :: mt :: r) ->
  (mt = 0x12 -> skipn 2 r <> [] -> exists p, tlv E (skipn 2 r) = Some p) ->
  step E c (EUnitdata t (b :: mt :: r)) = Ok (c', o, z) ->
  exists g', gmmes c' = pre ++ g' :: post /\ t3314_on g' = false.
Proof.
  intros E c t pre g post b mt r c' o z Ho Hb Hf Hp Hst.
  destruct (unit_inv _ _ _ _ _ _ _ _ _ _ _ _ Ho Hb Hst) as (g' & R & Hc). exists g'. split; [exact Hc |].
  unfold gmm_rx, rdM in R. rewrite rd_ok in R by (unfold zlen; cbn [length]; lia). change (nth (Z.to_nat 1) (b :: mt :: r) 0) with mt in R.
  apply bind_inv in R as (g1 & o1 & a & o2 & E1 & R & _). injection E1 as <- _ <-.
  inversion Hf as [b1 x1 r1 H1 H3 | b1 x1 r1 H1 H3 | b1 x1 r1 H1 | b1 a1 x1 r1 H1]; subst.
  - exact (p_att E _ H3 H1 _ _ _ _ R).
  - exact (p_rau E _ H3 H1 _ _ _ _ R).
  - refine (p_id E (b :: 0x15 :: x1 :: r1) _ H1 _ _ _ _ R). unfold zlen. cbn [length]. lia.
  - refine (p_auth E (b :: 0x12 :: a1 :: x1 :: r1) _ H1 _ _ _ _ _ R); [unfold zlen; cbn [length]; lia |]. intros X. apply Hp; [reflexivity |].
    intros Y. cbn [skipn] in Y. subst. unfold zlen in X. cbn [length] in X. lia.
Qed.

(** In a Detach Accept, an update reject and a P-TMSI reallocation command the element is in the lower half
    of its octet; the code looks at the upper one, so that forcing to standby has no effect. *)
Theorem C69_standby_refuted :
  let ready l := match run ctx0 (each demo (registered ++ l)) with Ok (c, _) => map t3314_on (gmmes c) | _ => [] end in
  ready [] = [true] /\
  ready [EUnitdata 0xea711b41 [0x08; 0x10; 0x05; 0xf4; 0xea; 0x71; 0x1b; 0x42; 0x32; 0xf4; 0x07; 0x00; 0x05; 0x00; 0x01]] = [true] /\
  ready [EDetach 0xea711b41 1 0; EUnitdata 0xea711b41 [0x08; 0x06; 0x01]] = [true] /\
  ready [EExpiry 0 T3314; EExpiry 0 T3312; ELlcTransmitted 0xea711b41; EUnitdata 0xea711b41 [0x08; 0x0b; 0x0a; 0x01]] = [true].
Proof. repeat split; vm_compute; reflexivity. Qed.

(** The radio priorities of an Attach Accept (9.4.2: SMS in the lower half, TOM8 in the upper) are taken the
    wrong way round, and T3302 is kept as the octet that codes it (0x22: two minutes). *)
Theorem C69_elements_refuted :
  exists c o, run ctx0 (each demo [EEnable true; EAttach q0 [];
     EUnitdata 0x80001234 ([0x08; 0x02; 0x01; 0x2a; 0x41; 0x32; 0xf4; 0x07; 0x00; 0x05; 0x00] ++ [0x2a; 0x01; 0x22])]) = Ok (c, o) /\
    map prio_sms (gmmes c) = [4] /\ map prio_tom8 (gmmes c) = [1] /\ map t3302 (gmmes c) = [34] /\ tmr_to_secs 0x22 = 120.
Proof. eexists. eexists. split; [vm_compute; reflexivity |]. repeat split. Qed.

Example C69_nonvacuous :
  (exists g, owns (after registered) 0xea711b41 [] g [] /\ t3314_on g = true) /\ forces [0x08; 0x15; 0x12] /\
  forces ([0x08; 0x12; 0x10; 0x21; 0x21] ++ rand0 ++ [0x80]).
Proof.
  split; [| split].
  - eexists. split; [split; [vm_compute; reflexivity |]; split; [intros x [] | left; reflexivity] | reflexivity].
  - apply f_identity. reflexivity.
  - apply f_auth. discriminate.
Qed.

(** ** C70: switching GPRS off *)

(** A mobile in the state NULL refuses to attach: nothing is sent, an error is returned. *)
Theorem C70_off_partial : forall E c pre g post q rnd,
  gmmes c = pre ++ g :: post -> q_ptmsi q <> 0xffffffff ->
  (forall x, In x pre -> ptmsi x <> q_ptmsi q /\ old_ptmsi x <> q_ptmsi q) -> ptmsi g = q_ptmsi q -> st g = Null ->
  exists g', step E c (EAttach q rnd) = Ok (mkCtx (enabled c) (pre ++ g' :: post), [], -1) /\ st g' = Null.
Proof.
  intros E c pre g post q rnd Hc Hq Hpre Hg Hs.
  assert (K : okm (attach_req E q) g (fun g' o rc => o = [] /\ rc = -1 /\ st g' = Null)).
  { unfold attach_req. eapply okm_quiet with (f := st).
    { unfold set_imeis. apply quiet_bind.
      - destruct (q_imei q); [apply quiet_ret | now apply quiet_upd].
      - intros _. destruct (q_imeisv q); [apply quiet_ret | now apply quiet_upd]. }
    intros g1 _ H1. eapply okm_quiet with (f := st); [now apply quiet_upd |]. intros g2 _ H2.
    eapply okm_quiet with (f := st); [now apply quiet_upd |]. intros g3 _ H3. unfold request_attach.
    eapply okm_quiet with (f := st); [now apply quiet_upd |]. intros g4 _ H4.
    eapply okm_quiet with (f := st); [now apply quiet_upd |]. intros g5 _ H5.
    assert (H6 : st g5 = Null) by congruence. unfold dispatch. apply okm_get. rewrite H6. cbn [in_ok]. apply okm_ret. auto. }
  apply okm_out in K as (g' & o & z & K & -> & -> & A). exists g'. split; [| exact A].
  cbn [step]. unfold find_or_create, RESERVED_TMSI. replace (q_ptmsi q =? 4294967295) with false by lia. rewrite Hc.
  rewrite (on_first_app (by_ptmsi (q_ptmsi q)) _ pre g post _ _ _) with (3 := K); [reflexivity | |].
  - apply not_true_iff_false. intros X. apply existsb_exists in X as (x & Hx & Hb). destruct (Hpre x Hx). unfold by_ptmsi in Hb. lia.
  - unfold by_ptmsi. lia.
Qed.
(** A registered mobile stays registered when GPRS is switched off, and a periodic update is sent; and after
    a detach with power-off a mobile is in DEREGISTERED although GPRS is off, and attaches. *)
Theorem C70_off_refuted :
  (exists c o m, run ctx0 (each demo (registered ++ [EEnable false; EExpiry 0 T3314; EExpiry 0 T3312])) = Ok (c, o ++ [OUnit 0xea711b41 ([8; 8] ++ m)]) /\
     enabled c = false /\ map st (gmmes c) = [RauInit]) /\
  (exists c o m, run ctx0 (each demo [EAttach q0 []; EDetach 0x1234 1 1; EAttach q0 []]) = Ok (c, o ++ [OUnit 0x80001234 ([8; 1] ++ m)]) /\
     enabled c = false /\ map st (gmmes c) = [RegInit]).
Proof.
  split;
  match goal with |- exists c o m, ?x = _ /\ _ => let y := eval vm_compute in x in
      match y with Ok (?c, ?l) => let k := eval vm_compute in (removelast l) in
        let u := eval vm_compute in (match last l (OSuspend 0) with OUnit _ d => skipn 2 d | _ => [] end) in exists c, k, u; vm_compute; repeat split end end.
Qed.
Example C70_nonvacuous : exists g, gmmes (after [EAttach q0 []]) = [] ++ g :: [] /\ ptmsi g = q_ptmsi q0 /\ st g = Null.
Proof. eexists. split; [vm_compute; reflexivity |]. split; reflexivity. Qed.

(** ** C71: session management *)

(** A session management message is passed up as it is, under the session identifier of the mobile, and one
    from above is sent as it is, under the mobile's TLLI; nothing else happens. *)
Theorem C71_up : forall E c t pre g post b x r, cb_ok E -> owns c t pre g post -> b mod 16 = 10 ->
  exists z, step E c (EUnitdata t (b :: x :: r)) = Ok (mkCtx (enabled c) (pre ++ g :: post), [OSmUnit (sess g) (b :: x :: r)], z) /\ 0 <= z.
Proof.
  intros E c t pre g post b x r HC Ho Hb.
  assert (K : okm (rx_pdu E (b :: x :: r)) g (fun g' o z => g' = g /\ o = [OSmUnit (sess g) (b :: x :: r)] /\ 0 <= z)).
  { unfold rx_pdu. replace (zlen (b :: x :: r) <? 2) with false by (unfold zlen; cbn [length]; lia).
    unfold rdM. eapply okm_liftr; [apply rd_ok; unfold zlen; cbn [length]; lia |]. change (nth (Z.to_nat 0) (b :: x :: r) 0) with b.
    cbv zeta. rewrite land15, Hb. change (10 =? PDISC_MM) with false. change (10 =? PDISC_SM) with true. cbv iota.
    apply okm_get. apply okm_call; [exact HC |]. intros rc Hrc. auto. }
  destruct (unit_step E c t pre g post _ _ Ho K) as (g' & o & z & Hst & -> & -> & Hz). eauto.
Qed.
Theorem C71_down : forall E c pre g post id pdu, cb_ok E -> gmmes c = pre ++ g :: post -> sess g = id -> (forall x, In x pre -> sess x <> id) ->
  exists z, step E c (ESmUnit id pdu) = Ok (mkCtx (enabled c) (pre ++ g :: post), [OUnit (tlli g) pdu], z) /\ 0 <= z.
Proof.
  intros E c pre g post id pdu HC Hc Hs Hpre.
  assert (K : okm (sm_unitdata_req E pdu) g (fun g' o z => g' = g /\ o = [OUnit (tlli g) pdu] /\ 0 <= z)).
  { unfold sm_unitdata_req. apply okm_get. apply okm_call; [exact HC |]. auto. }
  apply okm_out in K as (g' & o & z & K & -> & -> & Hz). exists z. split; [| exact Hz].
  cbn [step]. rewrite Hc, (on_first_app (by_sess id) _ pre g post _ _ _) with (3 := K); [reflexivity | |].
  - apply not_true_iff_false. intros X. apply existsb_exists in X as (x & Hx & Hb). specialize (Hpre x Hx). unfold by_sess in Hb. lia.
  - unfold by_sess. lia.
Qed.
Theorem C71_unknown : forall E c id pdu, (forall x, In x (gmmes c) -> sess x <> id) -> step E c (ESmUnit id pdu) = Ok (c, [], -2).
Proof.
  intros E c id pdu H. cbn [step].
  assert (K : forall l m, (forall x, In x l -> sess x <> id) -> on_first (by_sess id) m l = None).
  { clear H. induction l as [|g l IH]; intros m H; cbn [on_first]; [reflexivity |].
    replace (by_sess id g) with false by (unfold by_sess; specialize (H g (or_introl eq_refl)); lia).
    rewrite (IH m); [reflexivity |]. intros x Hx. apply H. now right. }
  now rewrite (K _ _ H).
Qed.
(** A request for a session of a registered mobile is granted at once. *)
Theorem C71_establish : forall E c pre g post id q rnd,
  cb_ok E -> gmmes c = pre ++ g :: post -> q_ptmsi q <> 0xffffffff ->
  (forall x, In x pre -> ptmsi x <> q_ptmsi q /\ old_ptmsi x <> q_ptmsi q) -> ptmsi g = q_ptmsi q -> st g = Reg ->
  exists g' z, step E c (EEstablish id q rnd) =
      Ok (mkCtx (enabled c) (pre ++ g' :: post), [OEstAcc id (ptmsi g) (q_sig q) (tlli g) (ra g)], z) /\ 0 <= z /\
    (st g', sess g', psig g', tlli g') = (Reg, id, q_sig q, tlli g).
Proof.
  intros E c pre g post id q rnd HC Hc Hq Hpre Hg Hs.
  assert (K : okm (establish_req E id q) g (fun g' o rc => o = [OEstAcc id (ptmsi g) (q_sig q) (tlli g) (ra g)] /\ 0 <= rc /\
     (st g', sess g', psig g', tlli g') = (Reg, id, q_sig q, tlli g))).
  { unfold establish_req. apply okm_bind with (R := fun g' o _ => o = [] /\ (st g', sess g', ptmsi g', tlli g', ra g') = (Reg, id, ptmsi g, tlli g, ra g)).
    { apply okm_upd. rewrite <- Hs. split; reflexivity. }
    intros g1 o1 _ (-> & A). cbn [app].
    apply okm_bind with (R := fun g' o _ => o = [] /\ (st g', sess g', psig g', ptmsi g', tlli g', ra g') = (Reg, id, q_sig q, ptmsi g, tlli g, ra g)).
    { apply okm_upd. split; [reflexivity |]. apply pair_equal_spec in A as [A A5]. apply pair_equal_spec in A as [A A4].
      apply pair_equal_spec in A as [A A3]. apply pair_equal_spec in A as [A1 A2]. rewrite <- A1, <- A2, <- A3, <- A4, <- A5. reflexivity. }
    clear g1 A. intros g1 o2 _ (-> & A). cbn [app]. apply okm_get.
    apply pair_equal_spec in A as [A A5]. apply pair_equal_spec in A as [A A4].
    apply pair_equal_spec in A as [A A3]. apply pair_equal_spec in A as [A A2]. apply pair_equal_spec in A as [A1 A0].
    rewrite A1. cbn [is_state]. unfold establish_cnf. apply okm_get. change (0 =? 0) with true. cbv iota.
    apply okm_call; [exact HC |]. intros rc Hrc. rewrite A0, A2, A3, A4, A5, A1. auto. }
  apply okm_out in K as (g' & o & z & K & -> & Hz & A). exists g', z. split; [| split; [exact Hz | exact A]].
  cbn [step]. unfold find_or_create, RESERVED_TMSI. replace (q_ptmsi q =? 4294967295) with false by lia. rewrite Hc.
  rewrite (on_first_app (by_ptmsi (q_ptmsi q)) _ pre g post _ _ _) with (3 := K); [reflexivity | |].
  - apply not_true_iff_false. intros X. apply existsb_exists in X as (x & Hx & Hb). destruct (Hpre x Hx). unfold by_ptmsi in Hb. lia.
  - unfold by_ptmsi. lia.
Qed.
(** After an update accept session management learns the identities now in use, the area, and the
    optional elements about its contexts; a release when the mobile has been detached. *)
Theorem C71_update : forall E c t pre g post b r tm area opt p,
  env_ok E -> cb_ok E -> owns c t pre g post -> st g = RauInit -> b mod 16 = 8 -> length area = 6%nat -> readable E opt -> opt <> [] ->
  tlv E opt = Some p -> sess g <> 0xffffffff ->
  exists g' o1 o2, step E c (EUnitdata t ([b; 9; r; tm] ++ area ++ opt)) =
      Ok (mkCtx (enabled c) (pre ++ g' :: post),
          o1 ++ [OModify (sess g) (ptmsi g') (psig g') (tlli g') area
            match p 0x32 with Some v => if 2 <=? zlen v then Some (firstn 2 v) else None | None => None end
            match p 0x26 with Some v => if 2 <=? zlen v then Some (firstn 17 v) else None | None => None end] ++ o2, 0).
Proof.
  intros E c t pre g post b r tm area opt p HE HC Ho Hs Hb Ha Hr Hn Hp Hss.
  destruct (rau_acc_step _ _ _ _ _ _ b r tm area opt HE HC Ho Hs Hb Ha Hr) as (g' & o & Hst & _ & _ & _ & _ & _ & ->).
  rewrite Hp in Hst. replace (sess g =? 0xffffffff) with false in Hst by lia.
  exists g'. eexists. eexists. destruct opt; [contradiction |]. exact Hst.
Qed.
Theorem C71_detached : forall E c t pre g post b o0, cb_ok E -> owns c t pre g post -> st g = DeregInit -> b mod 16 = 8 ->
  exists g', step E c (EUnitdata t [b; 6; o0]) = Ok (mkCtx (enabled c) (pre ++ g' :: post),
    [OAssign (tlli g) 0xffffffff (gea g) (kc g); ODetachCnf (d_type g)] ++ (if sess g =? 0xffffffff then [] else [ORelease (sess g)]), 0) /\ st g' = Dereg.
Proof.
  intros E c t pre g post b o0 HC Ho Hs Hb. pose proof (detach_acc_exec E HC g b o0 Hs) as K.
  apply (rx_mt E b 6 [o0]) in K. apply (rx_head E b 6 _ g _ Hb) in K.
  destruct (unit_step E c t pre g post _ _ Ho K) as (g' & o & z & Hst & -> & A & _ & _ & _ & ->). eauto.
Qed.

(** But the P-TMSI of a reallocation command is not passed on, and a second session of a mobile replaces the
    first, whose messages are then refused. *)
Definition q1 : attreq := mkAttreq 1 false 0xea711b41 0 [] [] [] [0;0;0;0;0;0].
Definition of_session (id : Z) (o : out) : bool := match o with OModify s _ _ _ _ _ _ => s =? id | _ => false end.
Theorem C71_sessions_refuted :
  (exists o, outs (registered ++ [EEstablish 7 q1 []; EUnitdata 0xea711b41 m_realloc]) = Some o /\ existsb (of_session 7) o = false /\
     existsb (sent_under 0xea711b42) o = true) /\
  (exists c o, run ctx0 (each demo (registered ++ [EEstablish 7 q1 []; EEstablish 8 q1 []])) = Ok (c, o) /\
     step demo c (ESmUnit 7 [0x0a; 0x41]) = Ok (c, [], -2)).
Proof.
  split.
  - eexists. split; [vm_compute; reflexivity |]. split; reflexivity.
  - eexists. eexists. split; vm_compute; reflexivity.
Qed.
Example C71_nonvacuous :
  (exists g, owns (after (registered ++ [EEstablish 7 q1 []])) 0xea711b41 [] g [] /\ sess g = 7 /\ st g = Reg) /\
  (exists g, owns (after (registered ++ [EEstablish 7 q1 []; EExpiry 0 T3314; EExpiry 0 T3312])) 0xea711b41 [] g [] /\ sess g = 7 /\ st g = RauInit) /\
  (exists g, owns (after (registered ++ [EEstablish 7 q1 []; EDetach 0xea711b41 1 0])) 0xea711b41 [] g [] /\ sess g = 7 /\ st g = DeregInit).
Proof.
  split; [| split]; (eexists; split; [split; [vm_compute; reflexivity |]; split; [intros x [] | left; reflexivity] | split; reflexivity]).
Qed.

(** ** More refutations for C65 to C67 *)

(** C65: a reallocation command with a signature (19 octets) is dropped. *)
Theorem C65_signed_refuted : forall E c t pre g post b v area o0 s, owns c t pre g post -> b mod 16 = 8 -> length v = 5%nat -> length area = 6%nat ->
  length s = 3%nat ->
  step E c (EUnitdata t ([b; 0x10; 5] ++ v ++ area ++ [o0] ++ [0x19] ++ s)) = Ok (mkCtx (enabled c) (pre ++ g :: post), [], -22).
Proof.
  intros E c t pre g post b v area o0 s Ho Hb Hv Ha Hs.
  assert (K : okm (rx_ptmsi_realloc_cmd E ([b; 0x10; 5] ++ v ++ area ++ [o0] ++ [0x19] ++ s)) g (fun g' o z => g' = g /\ o = [] /\ z = -22)).
  { unfold rx_ptmsi_realloc_cmd. replace (zlen ([b; 0x10; 5] ++ v ++ area ++ [o0] ++ [0x19] ++ s)) with 19
      by (unfold zlen; rewrite !app_length, Hv, Ha, Hs; reflexivity).
    change (negb (19 =? 15)) with true. apply okm_ret. auto. }
  apply (rx_mt E b 0x10 (5 :: v ++ area ++ [o0] ++ [0x19] ++ s)) in K. apply (rx_head E b 0x10 _ g _ Hb) in K.
  destruct (unit_step E c t pre g post _ _ Ho K) as (g' & o & z & Hst & -> & -> & ->). exact Hst.
Qed.
(** C66: the signature the network gave is lost when a session is established: the next update request
    carries the one of the primitive (C71_establish). *)
Theorem C66_replaced_refuted :
  exists o q, outs ([EEnable true; EAttach q0 []; EUnitdata 0x80001234 (m_att_acc ++ [0x19; 0x00; 0x00; 0x77]); ELlcTransmitted 0xea711b41;
                     EEstablish 7 (mkAttreq 1 false 0xea711b41 0x123456 [] [] [] [0;0;0;0;0;0]) []; EExpiry 0 T3314; EExpiry 0 T3312]) =
    Some (o ++ [OUnit 0xea711b41 ([0x08;0x08;0x03;0x32;0xf4;0x07;0x00;0x05;0x00;0x00] ++ [0x19; 0x12; 0x34; 0x56] ++ q)]).
Proof.
  match goal with |- exists o q, ?x = _ => let y := eval vm_compute in x in
    match y with Some ?l => let k := eval vm_compute in (removelast l) in
      let u := eval vm_compute in (match last l (OSuspend 0) with OUnit _ d => skipn 14 d | _ => [] end) in exists k, u; vm_compute; reflexivity end end.
Qed.
(** C67: an Authentication and Ciphering Reject does not deregister a registered mobile. *)
Theorem C67_reject_refuted : forall E c t pre g post b, owns c t pre g post -> b mod 16 = 8 -> st g = Reg \/ st g = RauInit ->
  step E c (EUnitdata t [b; 0x14]) = Ok (mkCtx (enabled c) (pre ++ g :: post), [], -1).
Proof.
  intros E c t pre g post b Ho Hb Hs.
  assert (K : okm (rx_auth_ciph_rej E) g (fun g' o z => g' = g /\ o = [] /\ z = -1)).
  { unfold rx_auth_ciph_rej, dispatch. apply okm_get. destruct Hs as [-> | ->]; cbn [in_ok]; apply okm_ret; auto. }
  apply (rx_mt E b 0x14 []) in K. apply (rx_head E b 0x14 _ g _ Hb) in K.
  destruct (unit_step E c t pre g post _ _ Ho K) as (g' & o & z & Hst & -> & -> & ->). exact Hst.
Qed.

Print Assumptions C68_attach_partial.
Print Assumptions C68_identity.
Print Assumptions C68_detach_refuted.
Print Assumptions C68_update_refuted.
Print Assumptions C69_standby_partial.
Print Assumptions C69_standby_refuted.
Print Assumptions C69_elements_refuted.
Print Assumptions C70_off_partial.
Print Assumptions C70_off_refuted.
Print Assumptions C71_up.
Print Assumptions C71_down.
Print Assumptions C71_unknown.
Print Assumptions C71_establish.
Print Assumptions C71_update.
Print Assumptions C71_detached.
Print Assumptions C71_sessions_refuted.
Print Assumptions C65_signed_refuted.
Print Assumptions C66_replaced_refuted.
Print Assumptions C67_reject_refuted.
