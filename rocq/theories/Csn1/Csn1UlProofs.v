(** Proofs about the control messages of the mobile station: the octets of a bit list, and the bits of each message. *)
From Coq Require Import ZArith List Bool Lia.
From Verif Require Import Lib.Base Csn1.Csn1Model Csn1.Csn1EncModel Csn1.Csn1Tables Csn1.Csn1DlModel Csn1.Csn1UlModel.
Import ListNotations.
Open Scope Z_scope.

Lemma value_range b : 0 <= value b < 2 ^ zlen b.
Proof.
  induction b as [|x b IH]; cbn [value].
  - cbn. lia.
  - rewrite zlen_cons. pose proof (zlen_nonneg b). rewrite Z.pow_add_r by lia. change (2 ^ 1) with 2.
    destruct x; cbn [b2z]; lia.
Qed.
Lemma value_bit b i : (i < length b)%nat -> Z.testbit (value b) (zlen b - 1 - Z.of_nat i) = nth i b false.
Proof.
  revert i; induction b as [|x b IH]; intros i H; cbn [length] in H; [lia|]. cbn [value].
  rewrite zlen_cons. pose proof (zlen_nonneg b). pose proof (value_range b) as V.
  rewrite <- (lor_add _ _ (zlen b)) by (try apply Z.mod_mul; lia).
  rewrite Z.lor_spec. destruct i as [|i]; cbn [nth].
  - replace (zlen b + 1 - 1 - Z.of_nat 0) with (zlen b) by lia.
    rewrite Z.mul_pow2_bits, Z.sub_diag by lia.
    replace (Z.testbit (value b) (zlen b)) with false.
    2:{ symmetry. destruct (Z.eq_dec (value b) 0) as [->|]; [apply Z.bits_0|].
        apply Z.bits_above_log2; [lia|]. apply Z.log2_lt_pow2; [lia|]. lia. }
    destruct x; reflexivity.
  - replace (zlen b + 1 - 1 - Z.of_nat (S i)) with (zlen b - 1 - Z.of_nat i) by lia.
    rewrite IH by lia. rewrite Z.mul_pow2_bits_low by (unfold zlen in *; lia). reflexivity.
Qed.

Lemma pack_length n b : length (pack n b) = n.
Proof. revert b; induction n; intros; cbn [pack length]; auto. Qed.
Lemma pack_bytes n b : bytes (pack n b).
Proof.
  revert b; induction n as [|n IH]; intros b; cbn [pack]; [constructor|]. constructor; [|apply IH].
  pose proof (value_range (firstn 8 b)) as V. unfold byte. split; [lia|].
  apply Z.lt_le_trans with (2 ^ zlen (firstn 8 b)); [lia|].
  change 256 with (2 ^ 8). apply Z.pow_le_mono_r; [lia|]. unfold zlen. pose proof (firstn_le_length 8 b). lia.
Qed.
Lemma pack_bit n : forall b i, (8 * n <= length b)%nat -> (i < 8 * n)%nat -> msg_bits (pack n b) (Z.of_nat i) = nth i b false.
Proof.
  induction n as [|n IH]; intros b i L H; [lia|]. unfold msg_bits. cbn [pack].
  destruct (Nat.ltb_spec i 8).
  - replace (Z.of_nat i / 8) with 0 by lia. replace (Z.of_nat i mod 8) with (Z.of_nat i) by lia. cbn [Z.to_nat nth].
    assert (L8 : length (firstn 8 b) = 8%nat) by (rewrite firstn_length; lia).
    replace (7 - Z.of_nat i) with (zlen (firstn 8 b) - 1 - Z.of_nat i) by (unfold zlen; lia).
    rewrite value_bit by lia. rewrite <- (firstn_skipn 8 b) at 2. rewrite app_nth1 by lia. reflexivity.
  - replace (Z.to_nat (Z.of_nat i / 8)) with (S (Z.to_nat (Z.of_nat (i - 8) / 8))) by lia. cbn [nth].
    replace (Z.of_nat i mod 8) with (Z.of_nat (i - 8) mod 8) by lia.
    specialize (IH (skipn 8 b) (i - 8)%nat). unfold msg_bits in IH. rewrite IH; [|rewrite skipn_length; lia|lia].
    rewrite <- (firstn_skipn 8 b) at 2. rewrite app_nth2; rewrite firstn_length; [|lia].
    f_equal. lia.
Qed.
Lemma pack_bits n b : length b = (8 * n)%nat -> map (fun i => msg_bits (pack n b) (Z.of_nat i)) (seq 0 (8 * n)) = b.
Proof.
  intros L. apply nth_ext with (d := false) (d' := false); [rewrite map_length, seq_length; lia|].
  rewrite map_length, seq_length. intros i H.
  rewrite nth_indep with (d' := msg_bits (pack n b) (Z.of_nat 0)) by (rewrite map_length, seq_length; lia).
  rewrite (map_nth (fun i => msg_bits (pack n b) (Z.of_nat i)) (seq 0 (8 * n)) 0%nat i).
  rewrite seq_nth by lia. apply pack_bit; lia.
Qed.

Lemma block_full pre b : length b = 184%nat -> length pre = 184%nat -> block pre b = pack 23 b.
Proof.
  intros L P. unfold block. rewrite L, skipn_all2 by lia. rewrite app_nil_r, firstn_all2 by lia. reflexivity.
Qed.
Lemma dummy_length : length dummy_vec = 184%nat.
Proof. reflexivity. Qed.
