(** Common vocabulary: octets, octet strings, and arithmetic views of C's bit operators.
    Nothing here models repository code. *)
From Coq Require Export ZArith List Bool Lia Arith.
From Coq Require Export ZifyBool ZifyNat ZifyN.
Export ListNotations.
Ltac Zify.zify_post_hook ::= Z.div_mod_to_equations.

Open Scope Z_scope.

(** An octet, and a string of octets. *)
Definition byte (b : Z) : Prop := 0 <= b < 256.
Definition bytes (l : list Z) : Prop := Forall byte l.

(** Length of a list as an integer (sizes in the C code). *)
Definition zlen {A} (l : list A) : Z := Z.of_nat (length l).

(** Sub-list of [n] elements starting at [off]. *)
Definition slice {A} (off n : nat) (l : list A) : list A := firstn n (skipn off l).

(** C's conversion of a truth value to int. *)
Definition b2z (b : bool) : Z := if b then 1 else 0.

(** Test of a mask: C's [(x & m)] used as a condition. *)
Definition tst (x m : Z) : bool := negb (Z.land x m =? 0).

(** ** Lemmas on bit operators *)

Lemma land_ones_mod x k : 0 <= k -> Z.land x (2 ^ k - 1) = x mod 2 ^ k.
Proof.
  intros Hk. rewrite <- Z.land_ones by exact Hk.
  f_equal. rewrite Z.ones_equiv. lia.
Qed.

Lemma testbit_high x k n : 0 <= x < 2 ^ k -> k <= n -> Z.testbit x n = false.
Proof.
  intros Hx Hn.
  destruct (Z.eq_dec x 0) as [->|Hx0]; [apply Z.bits_0|].
  apply Z.bits_above_log2; [lia|].
  apply Z.lt_le_trans with k; [|exact Hn].
  apply Z.log2_lt_pow2; lia.
Qed.

Lemma lor_add_disjoint a b : Z.land a b = 0 -> Z.lor a b = a + b.
Proof. intros H. symmetry. apply Z.add_nocarry_lxor in H as H2. rewrite H2.
  rewrite Z.lxor_lor by exact H. reflexivity. Qed.

Lemma lor_add a b k : 0 <= k -> a mod 2 ^ k = 0 -> 0 <= b < 2 ^ k -> Z.lor a b = a + b.
Proof.
  intros Hk Ha Hb. apply lor_add_disjoint.
  apply Z.bits_inj'. intros n Hn. rewrite Z.land_spec, Z.bits_0.
  destruct (Z.lt_ge_cases n k) as [Hlt|Hge].
  - replace (Z.testbit a n) with false; [reflexivity|].
    symmetry. rewrite <- (Z.mod_pow2_bits_low a k n) by lia. rewrite Ha. apply Z.bits_0.
  - rewrite (testbit_high b k n) by lia. apply andb_false_r.
Qed.

Lemma shiftl_mul a k : 0 <= k -> Z.shiftl a k = a * 2 ^ k.
Proof. intros; apply Z.shiftl_mul_pow2; assumption. Qed.
Lemma shiftr_div a k : 0 <= k -> Z.shiftr a k = a / 2 ^ k.
Proof. intros; apply Z.shiftr_div_pow2; assumption. Qed.

Lemma land_single_bit x k : 0 <= k -> Z.land x (2 ^ k) = (x / 2 ^ k mod 2) * 2 ^ k.
Proof.
  intros Hk. rewrite <- Z.shiftr_div_pow2 by exact Hk.
  rewrite <- Z.shiftl_mul_pow2 by exact Hk.
  apply Z.bits_inj'. intros n Hn.
  rewrite Z.land_spec, Z.pow2_bits_eqb by exact Hk.
  destruct (Z.eqb_spec k n) as [->|Hne].
  - rewrite Z.shiftl_spec by exact Hn. rewrite Z.sub_diag.
    rewrite andb_true_r.
    change 2 with (2 ^ 1). rewrite Z.mod_pow2_bits_low by lia.
    rewrite Z.shiftr_spec by lia. f_equal; lia.
  - rewrite andb_false_r. rewrite Z.shiftl_spec by exact Hn. symmetry.
    destruct (Z.lt_ge_cases n k) as [Hlt|Hge].
    + apply Z.testbit_neg_r; lia.
    + change 2 with (2 ^ 1). apply Z.mod_pow2_bits_high; lia.
Qed.

Lemma tst_bit x k : 0 <= k -> tst x (2 ^ k) = negb (x / 2 ^ k mod 2 =? 0).
Proof.
  intros Hk. unfold tst. rewrite land_single_bit by exact Hk.
  assert (0 < 2 ^ k) by (apply Z.pow_pos_nonneg; lia).
  destruct (Z.eqb_spec (x / 2 ^ k mod 2) 0) as [->|Hne].
  - reflexivity.
  - destruct (Z.eqb_spec (x / 2 ^ k mod 2 * 2 ^ k) 0) as [H0|]; [|reflexivity].
    exfalso. apply Z.mul_eq_0 in H0. lia.
Qed.

(** ** Finite sweeps *)
Definition zrange (n : nat) : list Z := map Z.of_nat (seq 0 n).

Lemma zrange_In n x : 0 <= x < Z.of_nat n -> In x (zrange n).
Proof.
  intros H. unfold zrange. apply in_map_iff. exists (Z.to_nat x).
  split; [lia|]. apply in_seq. lia.
Qed.

Lemma sweep (P : Z -> bool) n :
  forallb P (zrange n) = true -> forall x, 0 <= x < Z.of_nat n -> P x = true.
Proof. intros H x Hx. rewrite forallb_forall in H. apply H, zrange_In, Hx. Qed.

Lemma byte_sweep (P : Z -> bool) :
  forallb P (zrange 256) = true -> forall x, byte x -> P x = true.
Proof. intros H x Hx. apply (sweep P 256 H). unfold byte in Hx. lia. Qed.

(** ** Lists *)
Lemma zlen_nonneg {A} (l : list A) : 0 <= zlen l.
Proof. unfold zlen; lia. Qed.
Lemma zlen_nil {A} : zlen (@nil A) = 0. Proof. reflexivity. Qed.
Lemma zlen_cons {A} (x : A) l : zlen (x :: l) = zlen l + 1.
Proof. unfold zlen; cbn [length]; lia. Qed.
Lemma zlen_app {A} (l1 l2 : list A) : zlen (l1 ++ l2) = zlen l1 + zlen l2.
Proof. unfold zlen; rewrite app_length; lia. Qed.

Lemma firstn_app_exact {A} (l1 l2 : list A) n : n = length l1 -> firstn n (l1 ++ l2) = l1.
Proof. intros ->. rewrite firstn_app, Nat.sub_diag, firstn_all. cbn [firstn]. apply app_nil_r. Qed.
Lemma skipn_app_exact {A} (l1 l2 : list A) n : n = length l1 -> skipn n (l1 ++ l2) = l2.
Proof. intros ->. rewrite skipn_app, Nat.sub_diag, skipn_all. reflexivity. Qed.

Lemma Forall_firstn {A} (P : A -> Prop) n l : Forall P l -> Forall P (firstn n l).
Proof. intros H; revert n; induction H; intros [|n]; cbn [firstn]; constructor; auto. Qed.
Lemma Forall_skipn {A} (P : A -> Prop) n l : Forall P l -> Forall P (skipn n l).
Proof. intros H; revert n; induction H; intros [|n]; cbn [skipn]; try constructor; auto. Qed.
Lemma bytes_slice a n l : bytes l -> bytes (slice a n l).
Proof. intros; apply Forall_firstn, Forall_skipn; assumption. Qed.
Lemma slice_length {A} a n (l : list A) : (a + n <= length l)%nat -> length (slice a n l) = n.
Proof. intros; unfold slice; rewrite firstn_length, skipn_length; lia. Qed.

(** Boolean check used for concrete examples. *)
Definition bytesb (l : list Z) : bool := forallb (fun b => (0 <=? b) && (b <? 256)) l.
Lemma bytesb_ok l : bytesb l = true -> bytes l.
Proof.
  unfold bytesb, bytes. rewrite forallb_forall, Forall_forall. intros H x Hx.
  specialize (H x Hx). unfold byte. lia.
Qed.

(** ** Masks as division/modulo *)
Lemma land_field x j k : 0 <= j -> 0 <= k ->
  Z.land x ((2 ^ j - 1) * 2 ^ k) = (x / 2 ^ k mod 2 ^ j) * 2 ^ k.
Proof.
  intros Hj Hk. rewrite <- land_ones_mod by exact Hj. rewrite <- shiftr_div by exact Hk.
  rewrite <- !shiftl_mul by exact Hk. rewrite Z.shiftl_land. 
  apply Z.bits_inj'. intros n Hn. rewrite !Z.land_spec.
  destruct (Z.lt_ge_cases n k) as [Hlt|Hge].
  - rewrite !Z.shiftl_spec_low by exact Hlt. now rewrite !andb_false_r.
  - f_equal. rewrite (Z.shiftl_spec (Z.shiftr x k)) by exact Hn. rewrite Z.shiftr_spec by lia.
    f_equal. lia.
Qed.

Lemma land_1 x : Z.land x 1 = x mod 2.
Proof. apply (land_ones_mod x 1); lia. Qed.
Lemma land_3 x : Z.land x 3 = x mod 4.
Proof. apply (land_ones_mod x 2); lia. Qed.
Lemma land_7 x : Z.land x 7 = x mod 8.
Proof. apply (land_ones_mod x 3); lia. Qed.
Lemma land_15 x : Z.land x 15 = x mod 16.
Proof. apply (land_ones_mod x 4); lia. Qed.
Lemma land_31 x : Z.land x 31 = x mod 32.
Proof. apply (land_ones_mod x 5); lia. Qed.
Lemma land_63 x : Z.land x 63 = x mod 64.
Proof. apply (land_ones_mod x 6); lia. Qed.
Lemma land_127 x : Z.land x 127 = x mod 128.
Proof. apply (land_ones_mod x 7); lia. Qed.
Lemma land_255 x : Z.land x 255 = x mod 256.
Proof. apply (land_ones_mod x 8); lia. Qed.
Lemma land_511 x : Z.land x 511 = x mod 512.
Proof. apply (land_ones_mod x 9); lia. Qed.
Lemma land_2 x : Z.land x 2 = (x / 2 mod 2) * 2.
Proof. apply (land_field x 1 1); lia. Qed.
Lemma land_16 x : Z.land x 16 = (x / 16 mod 2) * 16.
Proof. apply (land_field x 1 4); lia. Qed.
Lemma land_32 x : Z.land x 32 = (x / 32 mod 2) * 32.
Proof. apply (land_field x 1 5); lia. Qed.
Lemma land_64 x : Z.land x 64 = (x / 64 mod 2) * 64.
Proof. apply (land_field x 1 6); lia. Qed.
Lemma land_128 x : Z.land x 128 = (x / 128 mod 2) * 128.
Proof. apply (land_field x 1 7); lia. Qed.
Lemma land_192 x : Z.land x 192 = (x / 64 mod 4) * 64.
Proof. apply (land_field x 2 6); lia. Qed.
Lemma land_224 x : Z.land x 224 = (x / 32 mod 8) * 32.
Proof. apply (land_field x 3 5); lia. Qed.

(** Turn masks and shifts by constants into division and modulo. *)
Ltac bits2arith :=
  unfold tst in *;
  rewrite ?land_1, ?land_2, ?land_3, ?land_7, ?land_15, ?land_16, ?land_31, ?land_32, ?land_63,
    ?land_64, ?land_127, ?land_128, ?land_192, ?land_224, ?land_255, ?land_511 in *;
  repeat (rewrite shiftl_mul in * by lia); repeat (rewrite shiftr_div in * by lia);
  change (2 ^ 1) with 2 in *; change (2 ^ 2) with 4 in *; change (2 ^ 3) with 8 in *;
  change (2 ^ 4) with 16 in *; change (2 ^ 5) with 32 in *; change (2 ^ 6) with 64 in *;
  change (2 ^ 7) with 128 in *; change (2 ^ 8) with 256 in *; change (2 ^ 16) with 65536 in *.
