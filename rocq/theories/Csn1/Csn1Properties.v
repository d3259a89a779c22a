(** Properties of the decoding of downlink control blocks and of the rest octets of CCCH messages (C47, C48). *)
From Coq Require Import ZArith List Bool Lia.
From Verif Require Import Lib.Base Csn1.Csn1Model Csn1.Csn1Tables Csn1.Csn1Check Csn1.Csn1Safe Csn1.Csn1Lax Csn1.Csn1DlModel.
Import ListNotations.
Open Scope Z_scope.

(** What libosmocore returns for a field outside the message: any value of the width that was asked for. *)
Definition any_past (past : Z -> Z -> Z * Z) : Prop := forall ri n, 0 <= n -> 0 <= fst (past ri n) < 2 ^ n.
(** The memory holds octets. *)
Definition octet_mem (m : mem) : Prop := forall x, 0 <= m x < 256.
(** The outcome of a decoding is not an access outside the storage, and nothing outside the first [size] octets of the
    memory was written. *)
Definition contained (size : Z) (m : mem) (r : dres) : Prop :=
  match r with
  | DOk t => forall x, x < 0 \/ size <= x -> s_mem t x = m x
  | DErr _ => True
  | DUB => False
  end.

(** The message types that osmo_gprs_rlcmac_decode_downlink decodes (3GPP TS 44.060, table 11.2.0.1). *)
Definition dl_types : list Z :=
  [0x01; 0x02; 0x03; 0x04; 0x05; 0x06; 0x07; 0x08; 0x09; 0x0a; 0x0b; 0x0c; 0x0d; 0x15; 0x16;
   0x21; 0x22; 0x23; 0x24; 0x25; 0x31; 0x32; 0x33; 0x36; 0x37].
(** Those for which no block makes the decoder leave a member of the structure. *)
Definition member_safe : list Z :=
  [0x04; 0x05; 0x06; 0x08; 0x09; 0x0b; 0x0c; 0x0d; 0x16; 0x21; 0x23; 0x24; 0x25; 0x31; 0x36].
(** Those for which some block does. *)
Definition member_unsafe : list Z := [0x01; 0x02; 0x03; 0x07; 0x0a; 0x15; 0x22; 0x32; 0x33; 0x37].

Lemma dl_table_types mt d sz : dl_table mt = Some (d, sz) -> In mt dl_types.
Proof.
  intros H. assert (B : 0 <= mt < 64).
  { unfold dl_table in H. destruct mt as [|p|p]; try discriminate. 
    do 6 (destruct p; try discriminate; try lia). }
  assert (C : forallb (fun i => match dl_table i with Some _ => existsb (Z.eqb i) dl_types | None => true end)
                (map Z.of_nat (seq 0 64)) = true) by (vm_compute; reflexivity).
  rewrite forallb_forall in C. specialize (C mt).
  assert (I : In mt (map Z.of_nat (seq 0 64))).
  { apply in_map_iff. exists (Z.to_nat mt). split; [lia|]. apply in_seq. lia. }
  specialize (C I). rewrite H in C. apply existsb_exists in C as (y & Hy & E). apply Z.eqb_eq in E. subst y. auto.
Qed.

Definition union_ok (mt : Z) : bool :=
  match dl_table mt with Some (d, _) => safe_table 176 sz_dl_union (flat sz_dl_union d) | None => false end.
Definition member_ok (mt : Z) : bool :=
  match dl_table mt with Some (d, sz) => safe_table 176 sz d | None => false end.
Lemma union_ok_all : forallb union_ok dl_types = true.
Proof. vm_compute. reflexivity. Qed.
Lemma member_ok_all : forallb member_ok member_safe = true.
Proof. vm_compute. reflexivity. Qed.

(** *** C47: the decoder stays inside the structure it is given *)
(** Whatever 23 octets a downlink control block consists of, whatever the structure held before and whatever is read
    for fields that would lie behind the end of the block, osmo_gprs_rlcmac_decode_downlink writes nothing outside the
    message part of the structure (123684 octets). *)
Theorem C47_control_block_contained past bits m :
  any_past past -> octet_mem m -> contained 123684 m (snd (decode_downlink false past bits m)).
Proof.
  intros Hp Hm. unfold decode_downlink. destruct (dl_header bits) as (h, o) eqn:E.
  assert (Ho : 8 <= o).
  { revert E. unfold dl_header. destruct (_ =? 2); [|intros [= <- <-]; lia].
    intros [= <- <-]. destruct (_ && _); destruct (_ =? 1); lia. }
  destruct (_ || _); [exact I|]. cbn [snd].
  destruct (dl_table (field bits o 6)) as [(d, sz)|] eqn:T; [|exact I].
  pose proof (dl_table_types _ _ _ T) as Hin.
  pose proof union_ok_all as U. rewrite forallb_forall in U. specialize (U _ Hin). unfold union_ok in U. rewrite T in U.
  assert (Hf : 0 <= field bits o 6 < 256).
  { cbn [field]. unfold b2z. repeat (match goal with |- context [if ?b then _ else _] => destruct b end); lia. }
  assert (O : octets (upd1 m 0 (field bits o 6))).
  { intros x. unfold upd1. destruct (x =? 0); auto. }
  pose proof (decode_flat_safe bits 184 past Hp d sz_dl_union 176 (184 - o) o o _ U ltac:(lia) ltac:(lia) O) as G.
  cbv iota. destruct (decode _ _ _ _ _ _ _ _ _ _) as [t|c|]; cbn [contained]; auto.
  destruct G as (_ & _ & G). intros x Hx. unfold sz_dl_union in G. rewrite G by exact Hx.
  unfold upd1. destruct (Z.eqb_spec x 0); [lia|reflexivity].
Qed.

(** The same for the rest octets of an IMMEDIATE ASSIGNMENT (a structure of 80 octets), of SYSTEM INFORMATION type 13
    (84 octets) and of PAGING REQUEST type 2 (12 octets), for up to 23 octets of message. *)
Lemma ro_contained past bits d sz len m :
  any_past past -> octet_mem m -> 0 <= len <= 23 -> safe_table 184 sz (flat sz d) = true ->
  contained sz m (decode_ro false past bits d sz len m).
Proof.
  intros Hp Hm Hl U. unfold decode_ro.
  pose proof (decode_flat_safe bits (8 * len) past Hp d sz 184 (8 * len) 0 0 m U ltac:(lia) ltac:(lia) Hm) as G.
  destruct (decode _ _ _ _ _ _ _ _ _ _) as [t|c|]; cbn [contained]; auto. apply G.
Qed.
Theorem C47_imm_ass_contained past bits len m :
  any_past past -> octet_mem m -> 0 <= len <= 23 -> contained 80 m (decode_imm_ass_ro false past bits len m).
Proof. intros. apply ro_contained; auto. Qed.
Theorem C47_si13_contained past bits len m :
  any_past past -> octet_mem m -> 0 <= len <= 23 -> contained 84 m (decode_si13ro false past bits len m).
Proof. intros. apply ro_contained; auto. Qed.
Theorem C47_p2_contained past bits len m :
  any_past past -> octet_mem m -> 0 <= len <= 23 -> contained 12 m (decode_p2ro false past bits len m).
Proof. intros. apply ro_contained; auto. Qed.

(** PAGING REQUEST type 1 (44 octets). *)
Theorem C47_p1_contained past bits len m :
  any_past past -> octet_mem m -> 0 <= len <= 23 -> contained 44 m (decode_p1ro false past bits len m).
Proof. intros. apply ro_contained; auto. Qed.

(** *** C48: no member of the structure is overrun *)
Definition no_past (ri n : Z) : Z * Z := (0, ri).
Definition zeroes : mem := fun _ => 0.
(** A control block: 23 octets; the second one begins with the message type when the payload type is 1. *)
Definition block_of (mt : Z) (l : list Z) : Prop :=
  length l = 23%nat /\ Forall (fun b => 0 <= b < 256) l /\ nth 0 l 0 = 64 /\ nth 1 l 0 / 4 = mt.

(** Full statement: C48 without "_partial", for all of [dl_types].  It is false for the types in [member_unsafe]
    (below); for all the others it holds: every value is stored inside the member its entry names. *)
Theorem C48_members_contained_partial past bits m mt :
  any_past past -> octet_mem m -> In mt member_safe ->
  (let h := dl_header bits in field bits (snd h) 6 = mt) ->
  match snd (decode_downlink true past bits m) with DUB => False | _ => True end.
Proof.
  intros Hp Hm Hin E. cbv zeta in E. unfold decode_downlink. destruct (dl_header bits) as (h, o) eqn:E1.
  cbn [snd] in E. assert (Ho : 8 <= o).
  { revert E1. unfold dl_header. destruct (_ =? 2); [|intros [= <- <-]; lia].
    intros [= <- <-]. destruct (_ && _); destruct (_ =? 1); lia. }
  destruct (_ || _); [exact I|]. cbn [snd]. rewrite E.
  destruct (dl_table mt) as [(d, sz)|] eqn:T; [|exact I].
  pose proof member_ok_all as U. rewrite forallb_forall in U. specialize (U _ Hin). unfold member_ok in U. rewrite T in U.
  assert (Hf : 0 <= mt < 256).
  { rewrite <- E. cbn [field]. unfold b2z.
    repeat (match goal with |- context [if ?b then _ else _] => destruct b end); lia. }
  assert (O : octets (upd1 m 0 mt)).
  { intros x. unfold upd1. destruct (x =? 0); auto. }
  pose proof (decode_safe bits 184 past Hp d sz 176 (184 - o) o o _ U ltac:(lia) ltac:(lia) O) as G.
  cbv iota. destruct (decode _ _ _ _ _ _ _ _ _ _) as [t|c|]; auto.
Qed.

(** In these blocks a value or an array is stored beyond the member it belongs to. *)
Definition overruns : list (Z * list Z) :=
  [ (0x01, [64; 4; 0; 0; 0; 6; 24; 0; 0; 0; 0; 0; 0; 0; 0; 0; 0; 0; 0; 0; 0; 0; 0]);
    (0x02, [64; 8; 128; 0; 64; 0; 0; 0; 0; 0; 129; 1; 2; 32; 0; 132; 33; 8; 0; 0; 0; 0; 0]);
    (0x03, [64; 12; 128; 0; 0; 0; 0; 52; 64; 0; 0; 0; 0; 0; 0; 0; 0; 0; 0; 0; 0; 0; 0]);
    (0x07, [64; 28; 0; 32; 4; 16; 0; 68; 0; 16; 132; 33; 0; 0; 0; 0; 0; 0; 0; 0; 0; 0; 0]);
    (0x0a, [64; 40; 64; 0; 0; 0; 1; 2; 2; 32; 0; 132; 33; 8; 0; 0; 0; 0; 0; 0; 0; 0; 0]);
    (0x15, [64; 84; 0; 0; 0; 0; 0; 0; 0; 0; 0; 0; 0; 0; 0; 0; 0; 0; 0; 0; 0; 0; 0]);
    (0x22, [64; 136; 128; 0; 75; 128; 0; 0; 0; 0; 0; 0; 0; 0; 0; 0; 0; 0; 0; 0; 0; 0; 0]);
    (0x32, [64; 200; 0; 128; 0; 0; 0; 0; 0; 0; 0; 32; 0; 0; 0; 4; 0; 132; 33; 8; 0; 0; 0]);
    (0x33, [64; 204; 0; 0; 16; 0; 24; 134; 0; 0; 0; 0; 0; 0; 0; 0; 0; 0; 0; 0; 0; 0; 0]);
    (0x37, [64; 220; 1; 0; 132; 33; 8; 0; 0; 0; 0; 0; 0; 0; 0; 0; 0; 0; 0; 0; 0; 0; 0]) ].
Definition octet_ok (b : Z) : bool := (0 <=? b) && (b <? 256).
Definition overrun_ok (p : Z * list Z) : bool :=
  let '(mt, l) := p in
  (length l =? 23)%nat && forallb octet_ok l && (nth 0 l 0 =? 64) && (nth 1 l 0 / 4 =? mt) &&
  match snd (decode_downlink true no_past (msg_bits l) zeroes) with DUB => true | _ => false end.
Lemma overruns_ok : forallb overrun_ok overruns = true.
Proof. lazy. reflexivity. Qed.
Theorem C48_members_contained_refuted mt :
  In mt member_unsafe ->
  exists l, block_of mt l /\ snd (decode_downlink true no_past (msg_bits l) zeroes) = DUB.
Proof.
  intros H. assert (X : exists l, In (mt, l) overruns).
  { cbn in H. decompose [or] H; subst; try contradiction; unfold overruns; eexists; cbn; intuition reflexivity. }
  destruct X as (l & Hl). exists l. pose proof overruns_ok as O. rewrite forallb_forall in O. specialize (O _ Hl).
  unfold overrun_ok in O. rewrite !andb_true_iff in O. destruct O as ((((A & B) & C) & D) & E).
  split.
  - split; [apply Nat.eqb_eq; exact A|]. split.
    + apply Forall_forall. intros x Hx. rewrite forallb_forall in B. specialize (B _ Hx). unfold octet_ok in B. lia.
    + lia.
  - destruct (snd _); try discriminate. reflexivity.
Qed.
(** Every type decoded is in one of the two lists. *)
Theorem C48_types mt d sz : dl_table mt = Some (d, sz) -> In mt member_safe \/ In mt member_unsafe.
Proof.
  intros H. apply dl_table_types in H. cbn in H. decompose [or] H; subst; try contradiction; cbn; intuition reflexivity.
Qed.
(** Rest octets: PAGING REQUEST type 2 is safe, the other three are not. *)
Theorem C48_p2_members_contained past bits len m :
  any_past past -> octet_mem m -> 0 <= len <= 23 ->
  match decode_p2ro true past bits len m with DUB => False | _ => True end.
Proof.
  intros Hp Hm Hl. unfold decode_p2ro, decode_ro.
  pose proof (decode_safe bits (8 * len) past Hp P2_Rest_Octets_t 12 184 (8 * len) 0 0 m eq_refl ltac:(lia) ltac:(lia) Hm) as G.
  change sz_P2_Rest_Octets_t with 12. destruct (decode _ _ _ _ _ _ _ _ _ _) as [t|c|]; auto.
Qed.
Theorem C48_rest_octets_refuted :
  decode_imm_ass_ro true no_past (msg_bits [64; 66; 16; 132; 33; 8; 66; 16; 132; 0; 0]) 11 zeroes = DUB /\
  decode_si13ro true no_past (msg_bits [128; 128; 66; 16; 132; 0; 0; 0; 0; 0; 0; 0; 0; 0; 0; 0; 0; 0; 0; 0]) 20 zeroes = DUB /\
  decode_p1ro true no_past (msg_bits [0; 0; 0; 0; 0; 16; 0; 0; 12; 36; 0; 0; 0; 0; 0; 0; 0; 0; 0]) 19 zeroes = DUB.
Proof. repeat split; lazy; reflexivity. Qed.

(** *** Non-vacuity *)
(** The library as it is now returns 0 and leaves the index for a field outside the vector. *)
Example C47_nonvacuous_past : any_past no_past /\ octet_mem zeroes.
Proof.
  split; [intros ri n H|intros x]; cbn [no_past zeroes fst].
  - pose proof (Z.pow_pos_nonneg 2 n ltac:(lia) H). lia.
  - unfold zeroes. lia.
Qed.

(** A PACKET UPLINK ACK/NACK for TFI 5: CS-2, final, SSN 3, bitmap, contention resolution TLLI 0xc0ffee01.  It is decoded,
    and the members of the structure hold these values (offsets in Packet_Uplink_Ack_Nack_t). *)
Definition puan_block : list Z := [64; 36; 10; 96; 192; 64; 128; 193; 1; 65; 129; 254; 56; 31; 253; 192; 32; 0; 0; 0; 0; 0; 0].
Example C47_nonvacuous_puan :
  block_of 9 puan_block /\
  match snd (decode_downlink true no_past (msg_bits puan_block) zeroes), snd (decode_downlink false no_past (msg_bits puan_block) zeroes) with
  | DOk t, DOk t' =>
      map (s_mem t) [0; 2; 3; 4; 5; 6; 7; 8; 14; 32; 36; 37; 38; 39] = [9; 5; 0; 1; 1; 3; 1; 2; 248; 1; 0x01; 0xee; 0xff; 0xc0] /\
      map (s_mem t') [0; 2; 3; 4; 5; 6; 7; 8; 14; 32; 36; 37; 38; 39] = [9; 5; 0; 1; 1; 3; 1; 2; 248; 1; 0x01; 0xee; 0xff; 0xc0]
  | _, _ => False
  end.
Proof.
  split.
  - split; [reflexivity|]. split; [|split; reflexivity]. unfold puan_block. repeat (constructor; [lia|]). constructor.
  - lazy. split; reflexivity.
Qed.
(** A block that overruns a member is still contained in the structure. *)
Example C47_nonvacuous_overrun :
  match snd (decode_downlink false no_past (msg_bits (snd (nth 1 overruns (0, [])))) zeroes) with DUB => False | _ => True end.
Proof. lazy. exact I. Qed.
Example C48_nonvacuous : In 9 member_safe /\ field (msg_bits puan_block) (snd (dl_header (msg_bits puan_block))) 6 = 9.
Proof. split; [cbn; intuition reflexivity|]. lazy. reflexivity. Qed.

Print Assumptions C47_control_block_contained.
Print Assumptions C47_imm_ass_contained.
Print Assumptions C47_si13_contained.
Print Assumptions C47_p2_contained.
Print Assumptions C47_p1_contained.
Print Assumptions C48_members_contained_partial.
Print Assumptions C48_members_contained_refuted.
Print Assumptions C48_types.
Print Assumptions C48_p2_members_contained.
Print Assumptions C48_rest_octets_refuted.
