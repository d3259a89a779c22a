(** C49: the control messages that the mobile station sends have the bits the standard prescribes.  C50: decoding gives
    back what was encoded. *)
From Coq Require Import ZArith List Bool Lia.
From Verif Require Import Csn1.Csn1Check Csn1.Csn1Safe Csn1.Csn1Lax Csn1.Csn1Properties.
From Verif Require Import Lib.Base Lib.Outcome Rlcmac.DlRxModel Rlcmac.DlRxSpec Rlcmac.DlRxProperties.
From Verif Require Import Csn1.Csn1Model Csn1.Csn1EncModel Csn1.Csn1Tables Csn1.Csn1DlModel Csn1.Csn1UlModel Csn1.Csn1UlSpec.
From Verif Require Import Csn1.Csn1UlProofs Csn1.Csn1Round Csn1.Csn1RoundProofs Csn1.Csn1UlMsgs.
Import ListNotations.
Open Scope Z_scope.

(** *** C49 *)
Theorem C49_control_ack tlli : 0 <= tlli < 2 ^ 32 ->
  exists l, create (prep_ctrl_ack tlli) = Some l /\ carries l (control_ack_bits tlli).
Proof. intros H. destruct (enc_control_ack tlli H) as [E L]. eapply create_carries; eassumption. Qed.
Print Assumptions C49_control_ack.

Theorem C49_dummy tlli : 0 <= tlli < 2 ^ 32 ->
  exists l, create (prep_dummy tlli) = Some l /\ carries l (dummy_bits tlli).
Proof. intros H. destruct (enc_dummy tlli H) as [E L]. eapply create_carries; eassumption. Qed.
Print Assumptions C49_dummy.

(** As long as fewer than 2^16 octets are queued (missing: more than that). *)
Theorem C49_resource_request_partial tlli queued acc : 0 <= tlli < 2 ^ 32 -> 0 <= queued < 2 ^ 16 -> 0 <= acc < 4 ->
  exists l, create (prep_resource_req tlli queued acc) = Some l /\ carries l (resource_request_bits tlli queued acc).
Proof. intros H Q A. destruct (enc_resource_request tlli queued acc H Q A) as [E L]. eapply create_carries; eassumption. Qed.
Print Assumptions C49_resource_request_partial.
(** With more octets in the queue the count wraps: 65541 octets are announced as 5 (rlcmac_enc.c:326). *)
Theorem C49_resource_request_refuted : exists l, create (prep_resource_req 1 65541 0) = Some l /\ carries l (resource_request_bits 1 5 0).
Proof. exact (C49_resource_request_partial 1 5 0 ltac:(lia) ltac:(lia) ltac:(lia)). Qed.
Print Assumptions C49_resource_request_refuted.

Theorem C49_downlink_ack_nack tfi final ssn rbb req :
  0 <= tfi < 32 -> 0 <= ssn < 128 -> length rbb = 8%nat -> bytes rbb ->
  (forall prio octets, req = Some (prio, octets) -> 0 <= prio < 4 /\ 0 <= octets < 2 ^ 16) ->
  exists l, create (prep_dl_ack_nack tfi final ssn rbb req) = Some l /\ carries l (downlink_ack_nack_bits tfi final ssn rbb req).
Proof. intros T S L B Q. destruct (enc_downlink_ack_nack tfi final ssn rbb req T S L B Q) as [E Le]. eapply create_carries; eassumption. Qed.
Print Assumptions C49_downlink_ack_nack.

(** With C18: what the bits of the message that is sent say about the blocks that were received. *)
Lemma be_bit l : bytes l -> forall j, 0 <= j < 8 * zlen l ->
  Z.testbit (big_endian l) j = nth (8 * length l - 1 - Z.to_nat j) (concat (map (fun o => msb o 8) l)) false.
Proof.
  induction l as [|o l IH] using rev_ind; intros B j J; [cbn in J; lia|].
  apply Forall_app in B as [B O]. apply Forall_inv in O. unfold byte in O. rewrite zlen_app in J. change (zlen [o]) with 1 in J.
  unfold big_endian. rewrite fold_left_app. cbn [fold_left]. fold (big_endian l).
  change 256 with (2 ^ 8) at 1. rewrite map_app, concat_app, app_length. cbn [map concat length]. rewrite app_nil_r.
  assert (Lc : length (concat (map (fun o => msb o 8) l)) = (8 * length l)%nat).
  { clear. induction l as [|a l IH]; [reflexivity|]. cbn [map concat]. rewrite app_length, IH. unfold msb. rewrite map_length, seq_length. cbn [length]. lia. }
  rewrite <- (lor_add _ _ 8) by (try apply Z.mod_mul; lia). rewrite Z.lor_spec.
  destruct (Z.ltb_spec j 8).
  - rewrite Z.mul_pow2_bits_low by lia. cbn [orb]. rewrite app_nth2 by lia. rewrite Lc.
    replace (8 * (length l + 1) - 1 - Z.to_nat j - 8 * length l)%nat with (7 - Z.to_nat j)%nat by lia.
    assert (j = 0 \/ j = 1 \/ j = 2 \/ j = 3 \/ j = 4 \/ j = 5 \/ j = 6 \/ j = 7) as X by lia.
    repeat destruct X as [ -> |X]; try subst j; reflexivity.
  - rewrite Z.mul_pow2_bits by lia. rewrite IH by (try assumption; lia).
    replace (Z.testbit o j) with false.
    2:{ symmetry. destruct (Z.eq_dec o 0) as [->|]; [apply Z.bits_0|]. apply Z.bits_above_log2; [lia|].
        apply Z.log2_lt_pow2; [lia|]. apply Z.lt_le_trans with (2 ^ 8); [lia|]. apply Z.pow_le_mono_r; lia. }
    rewrite orb_false_r. rewrite app_nth1 by (unfold zlen in J; lia). f_equal. unfold zlen in J. lia.
Qed.
Lemma ack_nack_shape tfi final ssn rbb req : exists X,
  downlink_ack_nack_bits tfi final ssn rbb req =
  (head 2 ++ msb tfi 5 ++ [final] ++ msb ssn 7) ++ concat (map (fun o => msb o 8) rbb) ++ X.
Proof. eexists. unfold downlink_ack_nack_bits, padded. rewrite <- !app_assoc. reflexivity. Qed.
Lemma concat_length l : length (concat (map (fun o => msb o 8) l)) = (8 * length l)%nat.
Proof.
  induction l as [|a l IH]; [reflexivity|]. cbn [map concat]. rewrite app_length, IH. unfold msb.
  rewrite map_length, seq_length. cbn [length]. lia.
Qed.
Lemma rbb_position tfi final ssn rbb req j : length rbb = 8%nat -> bytes rbb -> 0 <= j < 64 ->
  nth (Z.to_nat (90 - j)) (downlink_ack_nack_bits tfi final ssn rbb req) false = Z.testbit (big_endian rbb) j.
Proof.
  intros L B J. rewrite be_bit by (try assumption; unfold zlen; lia). destruct (ack_nack_shape tfi final ssn rbb req) as [X ->].
  pose proof (concat_length rbb) as Lc. rewrite L in *.
  rewrite app_nth2; change (length (head 2 ++ msb tfi 5 ++ [final] ++ msb ssn 7)) with 27%nat; [|lia].
  rewrite app_nth1 by lia. f_equal. lia.
Qed.
Lemma carries_nth l b i : carries l b -> (i < 184)%nat -> bit_of l i = nth i b false.
Proof.
  intros (_ & _ & E) I. rewrite <- E. rewrite nth_indep with (d' := bit_of l 0) by (rewrite map_length, seq_length; lia).
  rewrite map_nth, seq_nth by lia. reflexivity.
Qed.
Lemma ssn_position l tfi final ssn rbb req : carries l (downlink_ack_nack_bits tfi final ssn rbb req) ->
  map (bit_of l) (seq 20 7) = msb ssn 7.
Proof.
  intros (_ & _ & E). destruct (ack_nack_shape tfi final ssn rbb req) as [X S]. rewrite S in E.
  change (seq 0 184) with (seq 0 20 ++ seq 20 7 ++ seq 27 157) in E. rewrite !map_app in E.
  rewrite <- !app_assoc in E.
  assert (E2 := f_equal (fun q => firstn 7 (skipn 20 q)) E). cbn beta in E2.
  exact E2.
Qed.

(** Starting sequence number in bits 20 to 26; bit 90 - j speaks of the block j + 1 before it. *)
Theorem C49_report_sent : forall (B : Type) (fbi : B -> bool) (blk : Z -> B) ns tfi final req,
  within fbi blk ns -> 0 <= tfi < 32 -> (forall prio octets, req = Some (prio, octets) -> 0 <= prio < 4 /\ 0 <= octets < 2 ^ 16) ->
  exists x o R l, rrun fbi rx_init (over_air blk ns) = Ok (x, o) /\
    create (let report := ack_desc (x_w x) in prep_dl_ack_nack tfi final (fst report) (snd report) req) = Some l /\
    length l = 23%nat /\ bytes l /\
    let d := zlen (delivered o) in
    d <= R <= d + 64 /\ map (bit_of l) (seq 20 7) = msb (R mod 128) 7 /\
    (forall j, 0 <= j < 64 -> let n := R - 1 - j in
      (bit_of l (Z.to_nat (90 - j)) = true -> 0 <= n /\ In n ns /\ x_store x (n mod 128) = Some (blk n)) /\
      (0 <= n < d -> bit_of l (Z.to_nat (90 - j)) = true)) /\
    (no_jump ns -> R = top ns /\ forall j, 0 <= j < 64 -> (bit_of l (Z.to_nat (90 - j)) = true <-> In (R - 1 - j) ns)).
Proof.
  intros B fbi blk ns tfi final req W T Q.
  destruct (C18_report_truthful_partial B fbi blk ns W) as (x & o & R & E & H1 & H2 & H3 & H4 & H5 & H6). cbv zeta in *.
  destruct (C49_downlink_ack_nack tfi final (fst (ack_desc (x_w x))) (snd (ack_desc (x_w x))) req T) as (l & C & K); try assumption.
  { rewrite H2. lia. }
  exists x, o, R, l. split; [exact E|]. split; [exact C|].
  assert (K2 := K). destruct K2 as (L & By & _). split; [exact L|]. split; [exact By|]. split; [exact H1|].
  split. { rewrite <- H2. eapply ssn_position. exact K. }
  assert (X : forall j, 0 <= j < 64 -> bit_of l (Z.to_nat (90 - j)) = Z.testbit (big_endian (snd (ack_desc (x_w x)))) j).
  { intros j J. rewrite (carries_nth _ _ _ K) by lia. apply rbb_position; assumption. }
  split.
  - intros j J. rewrite X by exact J. apply H5. exact J.
  - intros N. destruct (H6 N) as [H7 H8]. split; [exact H7|]. intros j J. rewrite X by exact J. apply H8. exact J.
Qed.
Print Assumptions C49_report_sent.

(** The octets that the library's own tests expect (tests/rlcmac/rlcmac_prim_test.ok). *)
Definition fill (l : list Z) : list Z := l ++ repeat 0x2b (23 - length l).
Example C49_test_control_ack : create (prep_ctrl_ack 0x2342) = Some (fill [0x40; 0x04; 0; 0; 0x8d; 0x08]).
Proof. reflexivity. Qed.
Example C49_test_resource_request :
  create (prep_resource_req 0x2342 14 0) =
  Some (fill [0x40; 0x16; 0x40; 0; 0x08; 0xd0; 0xa0; 0xbc; 0; 0; 0; 0; 0; 0; 0x70; 0; 0x38; 0; 0; 0x2b; 0x2b; 0x2b; 0x2b]).
Proof. reflexivity. Qed.
Example C49_test_ack_nack :
  create (prep_dl_ack_nack 0 true 1 [0; 0; 0; 0; 0; 0; 0; 1] None) =
  Some (fill [0x40; 0x08; 0x10; 0x20; 0; 0; 0; 0; 0; 0; 0; 0x20; 0; 0; 0x03]).
Proof. reflexivity. Qed.
Example C49_test_ack_nack_request :
  create (prep_dl_ack_nack 0 true 1 [0; 0; 0; 0; 0; 0; 0; 1] (Some (0, 15))) =
  Some (fill [0x40; 0x08; 0x10; 0x20; 0; 0; 0; 0; 0; 0; 0; 0x30; 0; 0; 0xf0; 0; 0; 0x03]).
Proof. reflexivity. Qed.
Example C49_nonvacuous : within (fun _ : Z => false) ex_blk [0; 2; 1; 3] /\ no_jump [0; 2; 1; 3].
Proof.
  split; [apply within_b_ok; vm_compute; reflexivity|].
  intros pre n post E. repeat (destruct pre as [|? pre]; [injection E; intros; subst; cbn; lia|injection E as <- E]).
  destruct pre; discriminate.
Qed.

(** *** C50 *)
(** Every structure whose values fit their fields ([carried]: the octets of the members that the message holds) comes back
    from the octets of the encoded message, whatever the storage held before; nothing else in the storage changes.
    Missing for the full claim: the members in entries where the two directions do not agree (see [live]), messages that
    the encoder makes longer than the block, and PACKET PAUSE. *)
Theorem C50_round_trip_partial m l R : (forall x, 0 <= m x < 256) -> m 0 <> 9 -> m 1 = 1 \/ m 1 = 2 ->
  create m = Some l -> carried m = Some R -> (forall b r, encode_uplink m = EOk b r -> zlen b <= 184) ->
  forall past m0, exists t, decode_uplink true past (msg_bits l) m0 = DOk t /\
    (forall x, In x R -> s_mem t x = m x) /\ (forall x, ~ In x R -> x <> 0 -> s_mem t x = m0 x).
Proof. apply round_trip. Qed.
Print Assumptions C50_round_trip_partial.

Theorem C50_control_ack tlli l : 0 <= tlli < 2 ^ 32 -> create (prep_ctrl_ack tlli) = Some l ->
  forall past m0, exists t, decode_uplink true past (msg_bits l) m0 = DOk t /\ s_mem t 0 = 1 /\ rdle (s_mem t) 4 4 = tlli.
Proof.
  intros H C past m0. destruct (enc_control_ack tlli H) as [E L]. destruct (carried_ctrl_ack tlli H) as (R & K & I).
  destruct (round_trip _ _ _ (ltac:(unfold prep_ctrl_ack; octs) : octets (prep_ctrl_ack tlli)) ltac:(discriminate) (or_introl eq_refl) C K) with (past := past) (m0 := m0)
    as (t & D & X & _).
  { intros b r E'. rewrite E in E'. apply eok_inj in E' as [<- _]. unfold zlen. lia. }
  exists t. split; [exact D|]. assert (Y : forall x, In x [0; 1; 4; 5; 6; 7; 8] -> s_mem t x = prep_ctrl_ack tlli x) by (intros; apply X, I; assumption).
  split; [rewrite Y by (cbn; tauto); reflexivity|]. cbn [rdle]. rewrite !Y by (cbn; tauto).
  exact (le4_tlli tlli H).
Qed.
Print Assumptions C50_control_ack.

Theorem C50_dummy tlli l : 0 <= tlli < 2 ^ 32 -> create (prep_dummy tlli) = Some l ->
  forall past m0, exists t, decode_uplink true past (msg_bits l) m0 = DOk t /\ s_mem t 0 = 3 /\ rdle (s_mem t) 4 4 = tlli.
Proof.
  intros H C past m0. destruct (enc_dummy tlli H) as [E L]. destruct (carried_dummy tlli H) as (R & K & I).
  destruct (round_trip _ _ _ (ltac:(unfold prep_dummy; octs) : octets (prep_dummy tlli)) ltac:(discriminate) (or_introl eq_refl) C K) with (past := past) (m0 := m0)
    as (t & D & X & _).
  { intros b r E'. rewrite E in E'. apply eok_inj in E' as [<- _]. unfold zlen. lia. }
  exists t. split; [exact D|]. assert (Y : forall x, In x [0; 1; 4; 5; 6; 7] -> s_mem t x = prep_dummy tlli x) by (intros; apply X, I; assumption).
  split; [rewrite Y by (cbn; tauto); reflexivity|]. cbn [rdle]. rewrite !Y by (cbn; tauto).
  exact (le4_tlli tlli H).
Qed.
Print Assumptions C50_dummy.

(** ACCESS_TYPE at 5, the TLLI at 12, RLC_OCTET_COUNT at 782. *)
Theorem C50_resource_request tlli queued acc l : 0 <= tlli < 2 ^ 32 -> 0 <= queued < 2 ^ 16 -> 0 <= acc < 4 ->
  create (prep_resource_req tlli queued acc) = Some l ->
  forall past m0, exists t, decode_uplink true past (msg_bits l) m0 = DOk t /\ s_mem t 0 = 5 /\ s_mem t 5 = acc /\
    rdle (s_mem t) 12 4 = tlli /\ rdle (s_mem t) 782 2 = queued.
Proof.
  intros H Q A C past m0. destruct (enc_resource_request tlli queued acc H Q A) as [E L].
  destruct (carried_prr tlli queued acc H Q A) as (R & K & I).
  assert (Hv : forall x, In x [0; 1; 5; 12; 13; 14; 15; 782; 783] -> prep_resource_req tlli queued acc x =
    if x =? 0 then 5 else if x =? 1 then 1 else if x =? 5 then acc else
    if x =? 12 then tlli mod 256 else if x =? 13 then (tlli / 256) mod 256 else if x =? 14 then (tlli / 256 / 256) mod 256 else
    if x =? 15 then (tlli / 256 / 256 / 256) mod 256 else if x =? 782 then queued mod 256 else (queued / 256) mod 256).
  { intros x X. assert (Y : acc = 0 \/ acc = 1 \/ acc = 2 \/ acc = 3) by lia.
    destruct Y as [ -> |[ -> |[ -> | -> ]]]; cbn [In] in X; repeat destruct X as [<-|X]; try reflexivity; contradiction. }
  destruct (round_trip _ l R (octets_prr tlli queued acc)) with (3 := C) (4 := K) (past := past) (m0 := m0) as (t & D & X & _).
  { rewrite Hv by (cbn; tauto). discriminate. }
  { left. rewrite Hv by (cbn; tauto). reflexivity. }
  { intros b r E'. rewrite E in E'. apply eok_inj in E' as [<- _]. unfold zlen. lia. }
  exists t. split; [exact D|].
  assert (Y : forall x, In x [0; 1; 5; 12; 13; 14; 15; 782; 783] -> s_mem t x = prep_resource_req tlli queued acc x).
  { intros x Y. apply X, I. cbn [In] in *. tauto. }
  split; [rewrite Y, Hv by (cbn; tauto); reflexivity|]. split; [rewrite Y, Hv by (cbn; tauto); reflexivity|].
  cbn [rdle]. rewrite !Y, !Hv by (cbn; tauto). split; [exact (le4_tlli tlli H)|exact (le2_count queued Q)].
Qed.
Print Assumptions C50_resource_request.

(** DOWNLINK_TFI at 4, FINAL_ACK_INDICATION at 5, the starting sequence number at 6, the bitmap at 7 to 14, the flag of the
    channel request at 15, its radio priority at 17 and its count of octets at 20. *)
Theorem C50_downlink_ack_nack tfi final ssn rbb req l :
  0 <= tfi < 32 -> 0 <= ssn < 128 -> length rbb = 8%nat -> bytes rbb ->
  (forall prio octets, req = Some (prio, octets) -> 0 <= prio < 4 /\ 0 <= octets < 2 ^ 16) ->
  create (prep_dl_ack_nack tfi final ssn rbb req) = Some l ->
  forall past m0, exists t, decode_uplink true past (msg_bits l) m0 = DOk t /\ s_mem t 0 = 2 /\
    s_mem t 4 = tfi /\ s_mem t 5 = b2z final /\ s_mem t 6 = ssn /\ map (s_mem t) [7; 8; 9; 10; 11; 12; 13; 14] = rbb /\
    match req with
    | None => s_mem t 15 = 0
    | Some (prio, octets) => s_mem t 15 = 1 /\ s_mem t 17 = prio /\ rdle (s_mem t) 20 2 = octets
    end.
Proof.
  intros T S L B Q C past m0. destruct (enc_downlink_ack_nack tfi final ssn rbb req T S L B Q) as [E Le].
  do 9 (destruct rbb as [|? rbb]; try discriminate L). clear L.
  destruct (carried_dan tfi final ssn z z0 z1 z2 z3 z4 z5 z6 req T S B Q) as (R & K & I).
  destruct (round_trip _ l R (octets_dan tfi final ssn _ req B)) with (3 := C) (4 := K) (past := past) (m0 := m0) as (t & D & X & _).
  { destruct req as [[prio o]|]; discriminate. }
  { left. destruct req as [[prio o]|]; reflexivity. }
  { intros b r E'. rewrite E in E'. apply eok_inj in E' as [<- _]. unfold zlen. lia. }
  exists t. split; [exact D|].
  assert (Y : forall x, In x ([0; 1; 4; 5; 6; 7; 8; 9; 10; 11; 12; 13; 14; 15] ++ match req with Some _ => [17; 20; 21] | None => [] end) ->
    s_mem t x = prep_dl_ack_nack tfi final ssn [z; z0; z1; z2; z3; z4; z5; z6] req x) by (intros; apply X, I; assumption).
  clear X I K E C D Le.
  destruct req as [[prio o]|]; cbn [map rdle]; rewrite !Y by (cbn; tauto).
  - destruct (Q prio o eq_refl) as [P O]. split; [reflexivity|]. split; [apply Z.mod_small; lia|]. split; [reflexivity|].
    split; [apply Z.mod_small; lia|]. split; [reflexivity|]. split; [reflexivity|]. split; [apply Z.mod_small; lia|].
    exact (le2_count o O).
  - split; [reflexivity|]. split; [apply Z.mod_small; lia|]. split; [reflexivity|].
    split; [apply Z.mod_small; lia|]. split; reflexivity.
Qed.
Print Assumptions C50_downlink_ack_nack.

(** A structure with values that fit, which the encoder accepts without leaving all of it in the block: the end of a list
    of additional access technologies is not counted (csn1_enc.c), so that 188 bits pass for 184.  The decoder refuses the
    block. *)
Definition at_zero (l : list (Z * Z)) : mem := fun x => match find (fun p => fst p =? x) l with Some (_, v) => v | None => 0 end.
Definition long_cap : mem := at_zero
  ([(0, 11); (1, 1); (4, 1); (8, 0x78); (9, 0x56); (10, 0x34); (11, 0x12); (12, 5)] ++
   [(82, 14); (151, 14); (220, 14); (289, 14); (290, 3)] ++
   [(291, 3); (292, 5); (293, 2); (294, 4); (295, 1); (296, 1); (297, 7); (298, 3); (299, 3)]).
Definition long_block : list Z := [64; 46; 36; 104; 172; 240; 11; 192; 0; 0; 0; 0; 0; 124; 11; 224; 95; 2; 249; 249; 218; 133; 187].
Theorem C50_round_trip_refuted : (exists R, carried long_cap = Some R) /\ create long_cap = Some long_block /\
  decode_uplink true (fun i n => (0, i)) (msg_bits long_block) zeros = DErr NEED_MORE /\
  decode_uplink true (fun i n => (0, i + n)) (msg_bits long_block) zeros = DErr NEED_MORE.
Proof.
  split; [eexists; lazy; reflexivity|]. split; [lazy; reflexivity|]. split; lazy; reflexivity.
Qed.
Print Assumptions C50_round_trip_refuted.

Example C50_nonvacuous : exists l R, create (prep_dl_ack_nack 3 true 70 [1; 2; 3; 4; 5; 6; 7; 255] (Some (2, 300))) = Some l /\
  carried (prep_dl_ack_nack 3 true 70 [1; 2; 3; 4; 5; 6; 7; 255] (Some (2, 300))) = Some R /\ In 14 R.
Proof. do 2 eexists. split; [lazy; reflexivity|]. split; [lazy; reflexivity|]. cbn. tauto. Qed.

(** *** C47 for uplink control blocks *)
(** Whatever 23 octets, osmo_gprs_rlcmac_decode_uplink writes nothing outside the message part of the structure (1376
    octets). *)
Definition ul_types : list Z := [0; 1; 2; 3; 4; 5; 6; 7; 8; 9; 10; 11; 12; 13].
Definition ul_union_ok (mt : Z) : bool :=
  match ul_table mt with Some (d, _) => safe_table 184 sz_ul_union (flat sz_ul_union d) | None => false end.
Lemma ul_union_ok_all : forallb ul_union_ok ul_types = true.
Proof. vm_compute. reflexivity. Qed.
Lemma ul_table_types mt d sz : ul_table mt = Some (d, sz) -> In mt ul_types.
Proof.
  intros H. unfold ul_table in H. destruct mt as [|p|p]; try discriminate; [left; reflexivity|].
  do 4 (destruct p as [p|p|]; try discriminate; [|..]; try (cbn; tauto)); discriminate.
Qed.
Theorem C47_uplink_contained past bits m :
  any_past past -> octet_mem m -> contained 1376 m (decode_uplink false past bits m).
Proof.
  intros Hp Hm. unfold decode_uplink. cbv zeta. destruct (_ || _); [exact Logic.I|].
  destruct (ul_table (field bits 8 6)) as [(d, sz)|] eqn:T; [|exact Logic.I].
  pose proof (ul_table_types _ _ _ T) as Hin.
  pose proof ul_union_ok_all as U. rewrite forallb_forall in U. specialize (U _ Hin). unfold ul_union_ok in U. rewrite T in U.
  assert (Hf : 0 <= field bits 8 6 < 256).
  { cbn [field]. unfold b2z. repeat (match goal with |- context [if ?b then _ else _] => destruct b end); lia. }
  assert (O : octet_mem (upd1 m 0 (field bits 8 6))).
  { intros x. unfold upd1. destruct (x =? 0); auto. }
  pose proof (decode_flat_safe bits 184 past Hp d sz_ul_union 184 184 0 0 _ U ltac:(lia) ltac:(lia) O) as G.
  cbv iota. destruct (decode _ _ _ _ _ _ _ _ _ _) as [t|c|]; cbn [contained]; auto.
  destruct G as (_ & _ & G). intros x Hx. unfold sz_ul_union in G. rewrite G by exact Hx.
  unfold upd1. destruct (Z.eqb_spec x 0); [lia|reflexivity].
Qed.
Print Assumptions C47_uplink_contained.
Example C47_uplink_nonvacuous : In (field (msg_bits (fill [0x40; 0x04; 0; 0; 0x8d; 0x08])) 8 6) ul_types.
Proof. right. left. reflexivity. Qed.
