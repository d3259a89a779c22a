(** C121: decoding a downlink control block gives back what was encoded. *)
From Coq Require Import ZArith List Bool Lia.
From Verif Require Import Lib.Base Csn1.Csn1Model Csn1.Csn1EncModel Csn1.Csn1Tables Csn1.Csn1DlModel Csn1.Csn1UlModel.
From Verif Require Import Csn1.Csn1DnModel Csn1.Csn1UlProofs Csn1.Csn1Round Csn1.Csn1RoundProofs Csn1.Csn1UlMsgs Csn1.Csn1Lax Csn1.Csn1DnSpec.
Import ListNotations.
Open Scope Z_scope.

Lemma bits_len h : zlen (dn_bits h) = 8 * header_octets h.
Proof.
  unfold dn_bits, header_octets. rewrite !zlen_app. unfold zlen at 1 2 3 4. rewrite !wr_length.
  destruct (n_pt h =? 2); [|reflexivity]. rewrite !zlen_app. unfold zlen at 1 2 3 4. rewrite !wr_length.
  destruct (n_ac h =? 1), ((n_rbsn h =? 1) && (n_fs h =? 0)); unfold zlen; rewrite ?app_length, ?wr_length; reflexivity.
Qed.
Lemma octets_range h : 1 <= header_octets h <= 4.
Proof. unfold header_octets. destruct (n_pt h =? 2), (n_ac h =? 1), ((n_rbsn h =? 1) && (n_fs h =? 0)); lia. Qed.

Section Bits.
Variable bits : Z -> bool.
Variable past : Z -> Z -> Z * Z.
Notation at_ := (at_ bits 184).
Lemma fieldz p n v : at_ p (wr v n) -> 0 <= v < 2 ^ Z.of_nat n -> field bits p n = v.
Proof. intros A V. rewrite (field_wr zeros (fun x => conj (Z.le_refl 0) eq_refl) bits 184 past n p v A). apply Z.mod_small. exact V. Qed.
Lemma peel p v n r : at_ p (wr v n ++ r) -> 0 <= v < 2 ^ Z.of_nat n -> field bits p n = v /\ at_ (p + Z.of_nat n) r.
Proof.
  intros A V. apply (at_app zeros (fun x => conj (Z.le_refl 0) eq_refl) bits 184 past) in A as [A B].
  unfold zlen in B. rewrite wr_length in B. split; [apply fieldz; assumption|exact B].
Qed.

Lemma header_read h r : header_fits h -> at_ 0 (dn_bits h ++ r) ->
  dl_header bits = (as_read h, 8 * header_octets h) /\ at_ (8 * header_octets h) r.
Proof.
  intros (Pt & F1 & F2 & F3 & F4 & F5 & F6 & F7 & F8 & F9 & F10 & F11 & F12 & F13) A.
  unfold dn_bits in A. rewrite <- !app_assoc in A.
  apply peel in A as [E0 A]; [|change (2 ^ Z.of_nat 2) with 4; lia].
  apply peel in A as [E1 A]; [|change (2 ^ Z.of_nat 2) with 4; lia].
  apply peel in A as [E2 A]; [|change (2 ^ Z.of_nat 1) with 2; lia].
  apply peel in A as [E3 A]; [|change (2 ^ Z.of_nat 3) with 8; lia].
  change (0 + Z.of_nat 2) with 2 in *. change (2 + Z.of_nat 2) with 4 in *. change (4 + Z.of_nat 1) with 5 in *. change (5 + Z.of_nat 3) with 8 in *.
  unfold dl_header, as_read, header_octets. cbv zeta. rewrite E0, E1, E2, E3.
  destruct (n_pt h =? 2) eqn:P2; [|split; [reflexivity|exact A]].
  rewrite <- !app_assoc in A.
  apply peel in A as [G0 A]; [|change (2 ^ Z.of_nat 1) with 2; lia].
  apply peel in A as [G1 A]; [|change (2 ^ Z.of_nat 5) with 32; lia].
  apply peel in A as [G2 A]; [|change (2 ^ Z.of_nat 1) with 2; lia].
  apply peel in A as [G3 A]; [|change (2 ^ Z.of_nat 1) with 2; lia].
  change (8 + Z.of_nat 1) with 9 in *. change (9 + Z.of_nat 5) with 14 in *. change (14 + Z.of_nat 1) with 15 in *. change (15 + Z.of_nat 1) with 16 in *.
  rewrite G0, G1, G2, G3. cbn [andb].
  destruct (n_ac h =? 1) eqn:AC.
  - rewrite <- !app_assoc in A.
    apply peel in A as [H0 A]; [|change (2 ^ Z.of_nat 2) with 4; lia].
    apply peel in A as [H1 A]; [|change (2 ^ Z.of_nat 5) with 32; lia].
    apply peel in A as [H2 A]; [|change (2 ^ Z.of_nat 1) with 2; lia].
    change (16 + Z.of_nat 2) with 18 in *. change (18 + Z.of_nat 5) with 23 in *. change (23 + Z.of_nat 1) with 24 in *.
    change (16 + 2) with 18. change (16 + 7) with 23. change (16 + 8) with 24.
    rewrite H0, H1, H2. destruct ((n_rbsn h =? 1) && (n_fs h =? 0)).
    + rewrite <- !app_assoc in A.
      apply peel in A as [I0 A]; [|change (2 ^ Z.of_nat 3) with 8; lia].
      apply peel in A as [I1 A]; [|change (2 ^ Z.of_nat 1) with 2; lia].
      apply peel in A as [I2 A]; [|change (2 ^ Z.of_nat 4) with 16; lia].
      change (24 + Z.of_nat 3) with 27 in *. change (27 + Z.of_nat 1) with 28 in *. change (28 + Z.of_nat 4) with 32 in *.
      change (24 + 3) with 27. change (24 + 4) with 28. rewrite I0, I1, I2. split; [reflexivity|exact A].
    + split; [reflexivity|exact A].
  - cbn [app] in A. destruct ((n_rbsn h =? 1) && (n_fs h =? 0)).
    + rewrite <- !app_assoc in A.
      apply peel in A as [I0 A]; [|change (2 ^ Z.of_nat 3) with 8; lia].
      apply peel in A as [I1 A]; [|change (2 ^ Z.of_nat 1) with 2; lia].
      apply peel in A as [I2 A]; [|change (2 ^ Z.of_nat 4) with 16; lia].
      change (16 + Z.of_nat 3) with 19 in *. change (19 + Z.of_nat 1) with 20 in *. change (20 + Z.of_nat 4) with 24 in *.
      change (16 + 3) with 19. change (16 + 4) with 20. rewrite I0, I1, I2. split; [reflexivity|exact A].
    + split; [reflexivity|exact A].
Qed.
End Bits.

(** The member of the message type: the second octet for PSI13 (csn1_defs.h:3210-3211), else the first. *)
Definition type_at (mt : Z) : Z := if mt =? 0x37 then 1 else 0.
Lemma dl_table_head mt d sz : dl_table mt = Some (d, sz) -> 0 <= mt < 64 /\ exists r, d = DUint 6 (type_at mt) 1 false r.
Proof.
  intros H. unfold dl_table in H. destruct mt as [|p|p]; try discriminate H.
  do 6 (try (destruct p as [p|p|]; try discriminate H)); (split; [lia|]);
    apply (f_equal (fun o => match o with Some (d, _) => d | None => DEnd end)) in H; subst d; eexists; reflexivity.
Qed.
Lemma dl_table_size mt d sz : dl_table mt = Some (d, sz) -> sz <= sz_dl_union.
Proof.
  intros H. unfold dl_table in H. destruct mt as [|p|p]; try discriminate H.
  do 6 (try (destruct p as [p|p|]; try discriminate H)); apply (f_equal (fun o => match o with Some (_, n) => n | None => 0 end)) in H;
    vm_compute in H; subst sz; unfold sz_dl_union; lia.
Qed.
Lemma type_bits m a r b rem rem0 : enc m 0 (DUint 6 a 1 false r) run_mode rem0 = EOk b rem -> exists t, b = wr (m a) 6 ++ t.
Proof.
  cbn [enc econtrol run_mode]. unfold enc_uint. destruct (6 <=? rem0) eqn:L; [|discriminate]. cbn [Z.ltb Z.compare Pos.compare Pos.compare_cont].
  unfold load. change ((0 <=? 0) && (0 + Z.of_nat (width 6) <=? 1)) with true. cbv iota. change (rdle m (0 + a + 0) (width 6)) with (m (0 + a + 0) + 256 * 0).
  rewrite Z.mul_0_r, !Z.add_0_r, Z.add_0_l. unfold eafter. destruct (_ <? 0); [discriminate|]. change (Z.to_nat 6) with 6%nat.
  destruct (enc m 0 r run_mode _) as [t rem'| |]; try discriminate. intros E. apply eok_inj in E as [<- _]. eauto.
Qed.

(** Every structure whose values fit their fields ([carried_dl]: the octets of the members that the message holds) comes back
    from the octets of the encoded block together with its header, whatever optional octets that has and whatever the storage
    held before, and with a decoder that keeps inside every structure (strict) as well as with the one there is; nothing else in
    the storage changes.  Missing for the full claim: the members in entries where the two
    directions do not agree (see [live]), messages that the encoder makes longer than the block, and PSI13 if the caller has not
    set the message type twice. *)
Theorem C121_round_trip_partial h m l R : header_fits h -> (forall x, 0 <= m x < 256) -> (m 0 = 0x37 -> m 1 = 0x37) ->
  create_dl h m = Some l -> carried_dl h m = Some R -> (forall b r, encode_downlink h m = EOk b r -> zlen b <= 184) ->
  forall strict past m0, exists t, decode_downlink strict past (msg_bits l) m0 = (as_read h, DOk t) /\
    (forall x, In x R -> s_mem t x = m x) /\ (forall x, ~ In x R -> x <> 0 -> s_mem t x = m0 x).
Proof.
  intros HF mo M13 C K ZL strict past m0. unfold create_dl in C. destruct (encode_downlink h m) as [b r| |] eqn:E; try discriminate.
  injection C as <-. specialize (ZL b r eq_refl). unfold encode_downlink in E. unfold carried_dl in K.
  assert (PT : n_pt h =? 0 = false /\ n_pt h =? 3 = false) by (destruct HF as [[->| ->] _]; split; reflexivity).
  destruct PT as [P0 P3]. rewrite P0, P3 in E. cbn [orb] in E.
  destruct (dl_table (m 0)) as [[d sz]|] eqn:T; [|discriminate]. rewrite bits_len in E.
  destruct (encode m d (184 - 8 * header_octets h)) as [b' r'| |] eqn:E1; try discriminate.
  destruct (0 <? r'); try discriminate. apply eok_inj in E as [<- <-].
  set (l := block zero_vec (dn_bits h ++ b')) in *.
  assert (AT : at_ (msg_bits l) 184 0 (dn_bits h ++ b')).
  { unfold at_. split; [lia|]. split; [lia|]. intros i Hi. rewrite Z.add_0_l.
    rewrite <- (Z2Nat.id i) at 1 by lia. apply block_bit; unfold zlen in *; try lia; apply repeat_length. }
  destruct (header_read (msg_bits l) past h b' HF AT) as [HD AB]. clearbody l.
  destruct (dl_table_head _ _ _ T) as [M0 (q & Eq)].
  unfold encode, ecall in E1. pose proof (octets_range h) as HO.
  replace (184 - 8 * header_octets h <? 0) with false in E1 by lia.
  assert (A2 : field (msg_bits l) (8 * header_octets h) 6 = m 0).
  { rewrite Eq in E1. destruct (type_bits _ _ _ _ _ _ E1) as (t & ->).
    replace (m (type_at (m 0))) with (m 0) in AB by (unfold type_at; destruct (Z.eqb_spec (m 0) 0x37); [rewrite M13 by assumption; assumption|reflexivity]). apply (peel (msg_bits l) past) in AB as [A _]; [exact A|].
    change (2 ^ Z.of_nat 6) with 64. lia. }
  unfold decode_downlink. rewrite HD. replace (h_pt (as_read h)) with (n_pt h) by reflexivity. rewrite P0, P3. cbn [orb].
  cbv zeta. rewrite A2, T. unfold decode.
  destruct (round m mo (upd1 m0 0 (m 0)) (msg_bits l) 184 past d) as [PD _].
  specialize (PD true sz 0 run_mode (184 - 8 * header_octets h) [] Logic.I).
  pose proof (OK_call m mo (upd1 m0 0 (m 0)) (msg_bits l) 184 past true (184 - 8 * header_octets h) [] (enc m 0 d run_mode) _ _ PD) as Q.
  assert (E2 : ecall (enc m 0 d run_mode) (184 - 8 * header_octets h) = EOk b' r').
  { unfold ecall. replace (184 - 8 * header_octets h <? 0) with false by lia. exact E1. }
  destruct (Q b' r' R (mkcst (184 - 8 * header_octets h) (8 * header_octets h) (8 * header_octets h) (upd1 m0 0 (m 0))) E2 K AB) as (_ & t & D & I & _).
  { cbn [s_rem]. rewrite zlen_app, bits_len in ZL. lia. }
  { intros x. reflexivity. }
  exists t. split.
  { f_equal. destruct strict; [exact D|]. pose proof (dl_table_size _ _ _ T) as SZ.
    destruct (leq_call (dec true (msg_bits l) 184 past sz 0 d run_mode) (dec false (msg_bits l) 184 past sz_dl_union 0 d run_mode)
      (mkcst (184 - 8 * header_octets h) (8 * header_octets h) (8 * header_octets h) (upd1 m0 0 (m 0)))) as [U|U].
    - apply dec_leq; [apply same_refl|exact SZ|constructor].
    - unfold call in U, D. rewrite D in U. discriminate U.
    - exact (eq_trans (eq_sym U) D). }
  split.
  - intros x X. rewrite I. replace (existsb (Z.eqb x) R) with true; [reflexivity|]. symmetry. apply existsb_exists.
    exists x. split; [exact X|apply Z.eqb_refl].
  - intros x X X0. rewrite I. destruct (existsb (Z.eqb x) R) eqn:Y.
    + apply existsb_exists in Y as (y & Y & Z1). apply Z.eqb_eq in Z1. subst y. contradiction.
    + unfold upd1. destruct (x =? 0) eqn:Z1; [lia|reflexivity].
Qed.
Print Assumptions C121_round_trip_partial.

(** Without the condition on PSI13 the claim is false.  PSI13_t begins with another member (csn1_defs.h:3210-3211), so its
    message type is not the octet that the encoder looks at: with [u.MESSAGE_TYPE] set to PSI13 and nothing else, a block is
    made whose message type is 0, and the decoder takes no such block. *)
Definition plain_header : dn_hdr := mkdn 1 0 0 0 0 0 0 0 0 0 0 0 0 0.
Definition only_type (mt : Z) : mem := upd1 zeros 0 mt.
Theorem C121_round_trip_refuted :
  ~ (forall h m l R, header_fits h -> (forall x, 0 <= m x < 256) -> create_dl h m = Some l -> carried_dl h m = Some R ->
       (forall b r, encode_downlink h m = EOk b r -> zlen b <= 184) ->
       forall past m0, exists t, decode_downlink false past (msg_bits l) m0 = (as_read h, DOk t)).
Proof.
  intros H. assert (C : exists l, create_dl plain_header (only_type 0x37) = Some l) by (eexists; vm_compute; reflexivity). destruct C as (l & C).
  assert (K : exists R, carried_dl plain_header (only_type 0x37) = Some R) by (eexists; vm_compute; reflexivity). destruct K as (R & K).
  specialize (H plain_header (only_type 0x37) l R). destruct (H ltac:(unfold header_fits; cbn; lia)) with (past := fun _ _ : Z => (0, 0)) (m0 := zeros) as (t & D); try assumption.
  - intros x. unfold only_type, upd1, zeros. destruct (x =? 0); lia.
  - intros b r E. vm_compute in E. injection E as <- _. vm_compute. discriminate.
  - vm_compute in C. injection C as <-. vm_compute in D. discriminate D.
Qed.
Print Assumptions C121_round_trip_refuted.

(** *** The hypotheses can be met *)
(** A block with all the optional octets in its header and a Packet Uplink Ack/Nack with a contention resolution TLLI. *)
Definition some_header : dn_hdr := mkdn 2 1 1 5 1 17 0 1 2 21 1 3 1 9.
Definition some_ack : mem :=
  upds (upd1 (upd1 (upd1 (upd1 (upd1 (upd1 (upd1 (upd1 zeros 0 9) 2 19) 4 2) 5 1) 6 100) 7 0xa5) 14 0x5a) 32 1) 36 4 0xc0ffee42.
Example C121_meets : exists l R, header_fits some_header /\ (forall x, 0 <= some_ack x < 256) /\ create_dl some_header some_ack = Some l /\
  carried_dl some_header some_ack = Some R /\ (forall b r, encode_downlink some_header some_ack = EOk b r -> zlen b <= 184) /\
  firstn 4 l = [0x9d; 0xc5; 0xab; 0x79] /\ forallb (fun x => existsb (Z.eqb x) R) [0; 1; 2; 4; 5; 6; 7; 14; 32; 36; 37; 38; 39] = true.
Proof.
  eexists _, _. split; [unfold header_fits; cbn; lia|]. split.
  { intros x. unfold some_ack, upds, upd1, zeros.
    repeat match goal with |- context [if ?c then _ else _] => destruct c eqn:?; try (Z.to_euclidean_division_equations; lia) end. }
  split; [vm_compute; reflexivity|]. split; [vm_compute; reflexivity|]. split.
  { intros b r E. vm_compute in E. injection E as <- _. vm_compute. discriminate. }
  split; vm_compute; reflexivity.
Qed.
(** Types for which a structure with nothing but the type is carried. *)
Definition meets (mt : Z) : bool :=
  let m := if mt =? 0x37 then upd1 (only_type mt) 1 mt else only_type mt in
  match create_dl plain_header m, carried_dl plain_header m, encode_downlink plain_header m with
  | Some _, Some _, EOk b _ => zlen b <=? 184
  | _, _, _ => false
  end.
Example C121_types : forallb meets [0x01; 0x0b; 0x02; 0x03; 0x0c; 0x0d; 0x23; 0x04; 0x05; 0x24; 0x06; 0x07; 0x08; 0x09; 0x16; 0x25; 0x31; 0x36; 0x37] = true.
Proof. vm_compute. reflexivity. Qed.
(** Types whose block is longer than 184 bits even then: the end of a list is not counted. *)
Example C121_too_long :
  map (fun mt => match encode_downlink plain_header (only_type mt) with EOk b rem => (zlen b, rem) | _ => (0, 0) end) [0x22; 0x33; 0x32] = [(185, 0); (185, 0); (187, 0)].
Proof. vm_compute. reflexivity. Qed.
