(** Proofs about the CRC-24 model. *)
From Verif.Lib Require Import Base.
From Verif.Llc Require Import Crc24Model Crc24Spec.

(** ** One shift of the reflected register *)
Definition polyr : Z := 11371997. (* 0xad85dd *)
Definition lstep (r : Z) : Z := Z.lxor (Z.shiftr r 1) (if Z.odd r then polyr else 0).
Definition lsteps (n : nat) (r : Z) : Z := Nat.iter n lstep r.

Lemma lxor_lt_pow2 k a b : 0 <= k -> 0 <= a < 2 ^ k -> 0 <= b < 2 ^ k -> 0 <= Z.lxor a b < 2 ^ k.
Proof.
  intros Hk Ha Hb. split; [apply Z.lxor_nonneg; tauto|].
  destruct (Z.eq_dec (Z.lxor a b) 0) as [->|Hne]; [lia|].
  assert (0 <= Z.lxor a b) by (apply Z.lxor_nonneg; tauto).
  apply Z.log2_lt_pow2; [lia|].
  apply Z.nle_gt. intros Hge.
  assert (Ht : Z.testbit (Z.lxor a b) (Z.log2 (Z.lxor a b)) = true) by (apply Z.bit_log2; lia).
  rewrite Z.lxor_spec in Ht.
  rewrite (testbit_high a k), (testbit_high b k) in Ht by assumption. discriminate.
Qed.

Lemma lstep_lxor a b : lstep (Z.lxor a b) = Z.lxor (lstep a) (lstep b).
Proof.
  unfold lstep. rewrite Z.shiftr_lxor.
  rewrite <- !Z.bit0_odd, Z.lxor_spec.
  set (p := polyr). set (x := Z.shiftr a 1). set (y := Z.shiftr b 1).
  destruct (Z.testbit a 0), (Z.testbit b 0); cbn [xorb];
    apply Z.bits_inj'; intros n Hn; rewrite ?Z.lxor_spec, ?Z.bits_0;
    destruct (Z.testbit x n), (Z.testbit y n), (Z.testbit p n); reflexivity.
Qed.

Lemma lsteps_lxor n a b : lsteps n (Z.lxor a b) = Z.lxor (lsteps n a) (lsteps n b).
Proof.
  induction n as [|n IH]; [reflexivity|].
  unfold lsteps in *. cbn [Nat.iter nat_rect]. unfold Nat.iter in IH. rewrite IH. apply lstep_lxor.
Qed.

Lemma lsteps_add n m r : lsteps (n + m) r = lsteps n (lsteps m r).
Proof. unfold lsteps. unfold Nat.iter. induction n as [|n IH]; [reflexivity|].
  cbn [Nat.add nat_rect]. now rewrite IH. Qed.
Lemma lsteps_S n r : lsteps (S n) r = lsteps n (lstep r).
Proof. replace (S n) with (n + 1)%nat by lia. rewrite lsteps_add. reflexivity. Qed.

Lemma lstep_even r : lstep (2 * r) = r.
Proof.
  unfold lstep. rewrite Z.odd_mul. cbn [Z.odd andb]. rewrite Z.lxor_0_r.
  rewrite shiftr_div by lia. change (2 ^ 1) with 2. lia.
Qed.

Lemma lsteps_shift n r : lsteps n (r * 2 ^ Z.of_nat n) = r.
Proof.
  induction n as [|n IH].
  - cbn. lia.
  - rewrite lsteps_S. replace (r * 2 ^ Z.of_nat (S n)) with (2 * (r * 2 ^ Z.of_nat n)).
    + rewrite lstep_even. exact IH.
    + rewrite Nat2Z.inj_succ, Z.pow_succ_r by lia. lia.
Qed.

Lemma lstep_range r : 0 <= r < 2 ^ 24 -> 0 <= lstep r < 2 ^ 24.
Proof.
  intros Hr. unfold lstep. apply lxor_lt_pow2; [lia| |].
  - rewrite shiftr_div by lia. change (2 ^ 1) with 2. lia.
  - destruct (Z.odd r); unfold polyr; lia.
Qed.
Lemma lsteps_range n r : 0 <= r < 2 ^ 24 -> 0 <= lsteps n r < 2 ^ 24.
Proof.
  intros Hr. revert r Hr. induction n as [|n IH]; intros r Hr; [exact Hr|].
  rewrite lsteps_S. apply IH, lstep_range, Hr.
Qed.

Lemma lstep_nonzero r : 0 < r < 2 ^ 24 -> lstep r <> 0.
Proof.
  intros Hr. unfold lstep. intros H.
  apply Z.lxor_eq in H. rewrite shiftr_div in H by lia. change (2 ^ 1) with 2 in H.
  destruct (Z.odd r) eqn:Ho.
  - unfold polyr in H. lia.
  - rewrite Zodd_mod in Ho. unfold Zeq_bool in Ho.
    assert (r mod 2 = 0) by (destruct (Z.compare_spec (r mod 2) 1); lia). lia.
Qed.

Lemma lsteps_nonzero n r : 0 < r < 2 ^ 24 -> lsteps n r <> 0.
Proof.
  revert r. induction n as [|n IH]; intros r Hr.
  - cbn. lia.
  - rewrite lsteps_S. apply IH.
    pose proof (lstep_nonzero r Hr). pose proof (lstep_range r). lia.
Qed.

Lemma lsteps_0 n : lsteps n 0 = 0.
Proof. induction n as [|n IH]; [reflexivity|]. rewrite lsteps_S. exact IH. Qed.

Lemma lsteps_burst n k e : 0 <= k -> 0 < e < 2 ^ 24 -> k <= Z.of_nat n -> lsteps n (e * 2 ^ k) <> 0.
Proof.
  intros Hk He Hn. replace n with ((n - Z.to_nat k) + Z.to_nat k)%nat by lia.
  rewrite lsteps_add. replace (2 ^ k) with (2 ^ Z.of_nat (Z.to_nat k)) by (f_equal; lia).
  rewrite lsteps_shift. apply lsteps_nonzero, He.
Qed.

(** ** The table is eight shifts *)
Lemma tbl_lsteps i : byte i -> nth (Z.to_nat i) tbl_crc24 0 = lsteps 8 i.
Proof.
  intros Hi. apply Z.eqb_eq.
  apply (byte_sweep (fun i => nth (Z.to_nat i) tbl_crc24 0 =? lsteps 8 i)); [|exact Hi].
  vm_compute. reflexivity.
Qed.

Lemma land_255 x : Z.land x 255 = x mod 256.
Proof. apply (land_ones_mod x 8); lia. Qed.

Lemma crc24_byte_lsteps f b : 0 <= f -> byte b -> crc24_byte f b = lsteps 8 (Z.lxor f b).
Proof.
  intros Hf Hb. unfold byte in Hb. unfold crc24_byte.
  rewrite land_255. set (x := Z.lxor f b).
  assert (Hx : 0 <= x) by (unfold x; apply Z.lxor_nonneg; lia).
  rewrite tbl_lsteps by (unfold byte; lia).
  assert (Hhi : Z.shiftr f 8 = x / 2 ^ 8).
  { rewrite <- shiftr_div by lia. unfold x. rewrite Z.shiftr_lxor.
    rewrite (shiftr_div b) by lia.
    replace (b / 2 ^ 8) with 0 by lia. now rewrite Z.lxor_0_r. }
  rewrite Hhi.
  rewrite <- (lsteps_shift 8 (x / 2 ^ 8)).
  rewrite <- lsteps_lxor. f_equal.
  change (Z.of_nat 8) with 8. rewrite <- Z.add_nocarry_lxor.
  - lia.
  - apply Z.bits_inj'. intros n Hn. rewrite Z.land_spec, Z.bits_0.
    destruct (Z.lt_ge_cases n 8) as [Hlt|Hge].
    + rewrite Z.mul_pow2_bits_low by lia. reflexivity.
    + rewrite (testbit_high (x mod 256) 8 n) by lia. apply andb_false_r.
Qed.

Lemma le_word_nonneg l : bytes l -> 0 <= le_word l.
Proof. induction 1 as [|b l Hb _ IH]; cbn [le_word]; [lia|]. unfold byte in Hb. lia. Qed.
Lemma le_word_bound l : bytes l -> 0 <= le_word l < 2 ^ (8 * zlen l).
Proof.
  induction 1 as [|b l Hb _ IH]; cbn [le_word]; [cbn; lia|].
  rewrite zlen_cons. replace (8 * (zlen l + 1)) with (8 + 8 * zlen l) by lia.
  rewrite Z.pow_add_r by (pose proof (zlen_nonneg l); lia).
  change (2 ^ 8) with 256. unfold byte in Hb. nia.
Qed.

Lemma lxor_mul_pow2 a b k : 0 <= k -> Z.lxor (a * 2 ^ k) (b * 2 ^ k) = Z.lxor a b * 2 ^ k.
Proof. intros Hk. rewrite <- !Z.shiftl_mul_pow2 by exact Hk. symmetry. apply Z.shiftl_lxor. Qed.

Lemma lxor_split_low a b k : 0 <= k -> 0 <= b < 2 ^ k -> Z.lxor b (a * 2 ^ k) = b + a * 2 ^ k.
Proof.
  intros Hk Hb. rewrite <- Z.add_nocarry_lxor; [reflexivity|].
  apply Z.bits_inj'. intros n Hn. rewrite Z.land_spec, Z.bits_0.
  destruct (Z.lt_ge_cases n k) as [Hlt|Hge].
  - rewrite Z.mul_pow2_bits_low by lia. apply andb_false_r.
  - rewrite (testbit_high b k n) by lia. reflexivity.
Qed.

Lemma lsteps_nonneg n r : 0 <= r -> 0 <= lsteps n r.
Proof.
  revert r. induction n as [|n IH]; intros r Hr; [exact Hr|].
  rewrite lsteps_S. apply IH. unfold lstep. apply Z.lxor_nonneg.
  split; intros _.
  - destruct (Z.odd r); unfold polyr; lia.
  - apply Z.shiftr_nonneg. exact Hr.
Qed.

Lemma crc24_closed f m :
  0 <= f -> bytes m -> crc24_calc f m = lsteps (8 * length m) (Z.lxor f (le_word m)).
Proof.
  intros Hf Hm. revert f Hf. induction Hm as [|b m Hb Hm IH]; intros f Hf.
  - cbn [crc24_calc le_word length]. rewrite Z.lxor_0_r. reflexivity.
  - cbn [crc24_calc]. rewrite crc24_byte_lsteps by assumption.
    pose proof Hb as Hb'. unfold byte in Hb'.
    rewrite IH by (apply lsteps_nonneg, Z.lxor_nonneg; lia).
    cbn [le_word length].
    replace (8 * S (length m))%nat with (8 * length m + 8)%nat by lia.
    rewrite lsteps_add. f_equal.
    replace (b + 256 * le_word m) with (b + le_word m * 2 ^ 8) by lia.
    rewrite <- (lxor_split_low (le_word m) b 8) by lia.
    rewrite <- Z.lxor_assoc, (lsteps_lxor 8 (Z.lxor f b)).
    f_equal. symmetry. apply (lsteps_shift 8).
Qed.

Lemma crc24_range f m : 0 <= f < 2 ^ 24 -> bytes m -> 0 <= crc24_calc f m < 2 ^ 24.
Proof.
  intros Hf Hm. revert f Hf. induction Hm as [|b m Hb Hm IH]; intros f Hf; [exact Hf|].
  cbn [crc24_calc]. apply IH. rewrite crc24_byte_lsteps by (assumption || lia).
  apply lsteps_range, lxor_lt_pow2; [lia|exact Hf|]. unfold byte in Hb. lia.
Qed.

(** ** Burst detection *)
Lemma burst_shift_bound m1 m2 k e :
  bytes m1 -> bytes m2 -> length m1 = length m2 -> 0 <= k -> 0 < e ->
  Z.lxor (le_word m1) (le_word m2) = e * 2 ^ k -> k <= Z.of_nat (8 * length m1).
Proof.
  intros H1 H2 Hl Hk He Hx.
  pose proof (le_word_bound m1 H1) as B1. pose proof (le_word_bound m2 H2) as B2.
  unfold zlen in B1, B2. rewrite <- Hl in B2.
  pose proof (lxor_lt_pow2 (8 * Z.of_nat (length m1)) _ _ ltac:(lia) B1 B2) as B. rewrite Hx in B.
  destruct (Z.le_gt_cases k (Z.of_nat (8 * length m1))) as [|Hgt]; [assumption|exfalso].
  assert (2 ^ (8 * Z.of_nat (length m1)) <= 2 ^ k) by (apply Z.pow_le_mono_r; lia).
  nia.
Qed.

Lemma crc24_burst f m1 m2 :
  0 <= f -> bytes m1 -> bytes m2 -> length m1 = length m2 ->
  differ_by_burst 24 m1 m2 -> crc24_calc f m1 <> crc24_calc f m2.
Proof.
  intros Hf H1 H2 Hl (k & e & Hk & He & Hx) Heq.
  rewrite !crc24_closed in Heq by assumption. rewrite <- Hl in Heq.
  apply (lsteps_burst (8 * length m1) k e Hk He).
  - apply (burst_shift_bound m1 m2 k e); try assumption; apply He.
  - rewrite <- Hx.
    rewrite <- (Z.lxor_nilpotent (lsteps (8 * length m1) (Z.lxor f (le_word m1)))).
    rewrite Heq at 2. rewrite <- lsteps_lxor. f_equal.
    rewrite Z.lxor_assoc. rewrite (Z.lxor_comm (le_word m1) (Z.lxor f _)).
    rewrite Z.lxor_assoc, <- Z.lxor_assoc. rewrite Z.lxor_nilpotent, Z.lxor_0_l.
    apply Z.lxor_comm.
Qed.

(** ** Whole frame with its FCS field: residue characterisation *)
Lemma lnot_mask r : 0 <= r < 2 ^ 24 -> Z.land (Z.lnot r) 16777215 = Z.lxor r 16777215.
Proof.
  intros Hr. apply Z.bits_inj'. intros n Hn.
  rewrite Z.land_spec, Z.lxor_spec, Z.lnot_spec by exact Hn.
  change 16777215 with (Z.ones 24).
  destruct (Z.lt_ge_cases n 24) as [Hlt|Hge].
  - rewrite Z.ones_spec_low by lia. now rewrite andb_true_r, xorb_true_r.
  - rewrite Z.ones_spec_high by lia. rewrite (testbit_high r 24 n) by lia. reflexivity.
Qed.

Lemma le_word_app l1 l2 : le_word (l1 ++ l2) = le_word l1 + le_word l2 * 2 ^ (8 * zlen l1).
Proof.
  induction l1 as [|b l1 IH].
  - cbn [app le_word]. change (8 * zlen (@nil Z)) with 0. lia.
  - cbn [app le_word]. rewrite IH, zlen_cons.
    replace (8 * (zlen l1 + 1)) with (8 + 8 * zlen l1) by lia.
    rewrite Z.pow_add_r by (pose proof (zlen_nonneg l1); lia). change (2 ^ 8) with 256. lia.
Qed.

Definition fcs_bytes (f : Z) : list Z := [f mod 256; f / 256 mod 256; f / 65536 mod 256].

Lemma le_word_fcs_bytes f : 0 <= f < 2 ^ 24 -> le_word (fcs_bytes f) = f.
Proof. intros H. unfold fcs_bytes. cbn [le_word]. lia. Qed.

Lemma fcs_range m : bytes m -> 0 <= gprs_llc_fcs m < 2 ^ 24.
Proof.
  intros Hm. unfold gprs_llc_fcs.
  pose proof (crc24_range 16777215 m ltac:(lia) Hm) as Hr.
  rewrite lnot_mask by exact Hr. apply lxor_lt_pow2; lia.
Qed.

(** A string [m ++ f] passes the check iff its residue is all ones. *)
Lemma fcs_residue m f :
  bytes m -> 0 <= f < 2 ^ 24 ->
  (gprs_llc_fcs m = f <->
   lsteps (8 * length m) (Z.lxor 16777215 (le_word (m ++ fcs_bytes f))) = 16777215).
Proof.
  intros Hm Hf. unfold gprs_llc_fcs.
  pose proof (crc24_range 16777215 m ltac:(lia) Hm) as Hr.
  rewrite lnot_mask by exact Hr.
  rewrite le_word_app, le_word_fcs_bytes by exact Hf.
  rewrite <- (lxor_split_low f (le_word m)) by (try apply le_word_bound; auto; pose proof (zlen_nonneg m); lia).
  rewrite <- Z.lxor_assoc, lsteps_lxor.
  replace (8 * zlen m) with (Z.of_nat (8 * length m)) by (unfold zlen; lia).
  rewrite lsteps_shift. rewrite <- crc24_closed by (assumption || lia).
  set (c := crc24_calc _ _) in *.
  split.
  - intros <-. rewrite <- Z.lxor_assoc, Z.lxor_nilpotent. apply Z.lxor_0_l.
  - intros H. rewrite <- H. rewrite <- Z.lxor_assoc, Z.lxor_nilpotent. apply Z.lxor_0_l.
Qed.

Lemma fcs_bytes_bytes f : bytes (fcs_bytes f).
Proof. unfold fcs_bytes. repeat constructor; try lia. Qed.

Lemma frame_burst m1 m2 f2 :
  bytes m1 -> bytes m2 -> length m1 = length m2 -> 0 <= f2 < 2 ^ 24 ->
  differ_by_burst 24 (m1 ++ fcs_bytes (gprs_llc_fcs m1)) (m2 ++ fcs_bytes f2) ->
  gprs_llc_fcs m2 <> f2.
Proof.
  intros H1 H2 Hl Hf (k & e & Hk & He & Hx) Heq.
  pose proof (proj1 (fcs_residue m1 _ H1 (fcs_range m1 H1)) eq_refl) as R1.
  pose proof (proj1 (fcs_residue m2 f2 H2 Hf) Heq) as R2.
  rewrite <- Hl in R2.
  set (w1 := le_word (m1 ++ _)) in *. set (w2 := le_word (m2 ++ _)) in *.
  assert (Hz : lsteps (8 * length m1) (e * 2 ^ k) = 0).
  { rewrite <- Hx.
    replace (Z.lxor w1 w2) with (Z.lxor (Z.lxor 16777215 w1) (Z.lxor 16777215 w2)).
    - rewrite lsteps_lxor, R1, R2. reflexivity.
    - rewrite (Z.lxor_comm 16777215 w1), Z.lxor_assoc, <- (Z.lxor_assoc 16777215).
      rewrite Z.lxor_nilpotent, Z.lxor_0_l. reflexivity. }
  destruct (Z.le_gt_cases k (Z.of_nat (8 * length m1))) as [Hle|Hgt].
  - revert Hz. apply lsteps_burst; assumption.
  - replace (e * 2 ^ k) with (e * 2 ^ (k - Z.of_nat (8 * length m1)) * 2 ^ Z.of_nat (8 * length m1)) in Hz.
    + rewrite lsteps_shift in Hz.
      assert (0 < 2 ^ (k - Z.of_nat (8 * length m1))) by (apply Z.pow_pos_nonneg; lia). nia.
    + rewrite <- Z.mul_assoc, <- Z.pow_add_r by lia. f_equal. f_equal. lia.
Qed.

(** ** Remainder characterisation *)
Definition feed (r : Z) (b : bool) : Z := lstep (Z.lxor r (b2z b)).
Definition wbits (n : nat) (w : Z) : list bool := map (fun i => Z.testbit w (Z.of_nat i)) (seq 0 n).

Lemma b2z_Zb2z b : b2z b = Z.b2z b. Proof. destruct b; reflexivity. Qed.

Lemma wbits_S n w : wbits (S n) w = Z.testbit w 0 :: wbits n (Z.div2 w).
Proof.
  unfold wbits. cbn [seq map]. f_equal.
  rewrite <- seq_shift, map_map. apply map_ext. intros i.
  rewrite Nat2Z.inj_succ, Z.div2_spec, Z.shiftr_spec by lia. f_equal.
Qed.

Lemma lsteps_feed n : forall f w, 0 <= w < 2 ^ Z.of_nat n ->
  lsteps n (Z.lxor f w) = fold_left feed (wbits n w) f.
Proof.
  induction n as [|n IH]; intros f w Hw.
  - change (2 ^ Z.of_nat 0) with 1 in Hw. replace w with 0 by lia. rewrite Z.lxor_0_r. reflexivity.
  - rewrite wbits_S. cbn [fold_left]. rewrite lsteps_S.
    rewrite Nat2Z.inj_succ, Z.pow_succ_r in Hw by lia.
    rewrite <- IH by (rewrite Z.div2_div; lia). f_equal. unfold feed.
    rewrite <- (lstep_even (Z.div2 w)). rewrite <- lstep_lxor. f_equal.
    rewrite Z.lxor_assoc. f_equal.
    rewrite (Z.div2_odd w) at 1. rewrite <- Z.bit0_odd. change (b2z (Z.testbit w 0)) with (Z.b2z (Z.testbit w 0)).
    rewrite Z.lxor_comm. rewrite <- Z.add_nocarry_lxor; [reflexivity|].
    apply Z.bits_inj'. intros m Hm. rewrite Z.land_spec, Z.bits_0.
    destruct (Z.eq_dec m 0) as [->|Hne].
    + replace (Z.testbit (2 * Z.div2 w) 0) with false; [reflexivity|].
      symmetry. rewrite Z.bit0_odd, Z.odd_mul. reflexivity.
    + replace (Z.testbit (Z.b2z (Z.testbit w 0)) m) with false; [apply andb_false_r|].
      symmetry. apply (testbit_high _ 1); [|lia]. destruct (Z.testbit w 0); cbn; lia.
Qed.

Lemma crc24_feed f m : 0 <= f -> bytes m ->
  crc24_calc f m = fold_left feed (string_bits m) f.
Proof.
  intros Hf Hm. revert f Hf. induction Hm as [|b m Hb Hm IH]; intros f Hf; [reflexivity|].
  cbn [crc24_calc string_bits flat_map]. rewrite fold_left_app.
  unfold byte in Hb. rewrite crc24_byte_lsteps by (assumption || (unfold byte; lia)).
  rewrite IH by (apply lsteps_nonneg, Z.lxor_nonneg; lia).
  f_equal. apply (lsteps_feed 8). exact Hb.
Qed.

Lemma poly_snoc l b : poly_of_bits (l ++ [b]) = 2 * poly_of_bits l + b2z b.
Proof. unfold poly_of_bits. rewrite fold_left_app. reflexivity. Qed.

Lemma poly_testbit l i : (i < length l)%nat ->
  Z.testbit (poly_of_bits l) (Z.of_nat i) = nth (length l - 1 - i) l false.
Proof.
  revert i. induction l as [|b l IH] using rev_ind; intros i Hi; [cbn in Hi; lia|].
  rewrite app_length in *. cbn [length] in *. rewrite poly_snoc. change (b2z b) with (Z.b2z b).
  destruct i as [|i].
  - change (Z.of_nat 0) with 0. rewrite Z.testbit_0_r.
    rewrite app_nth2 by lia. replace (_ - _ - 0 - _)%nat with 0%nat by lia. reflexivity.
  - rewrite Nat2Z.inj_succ, Z.testbit_succ_r by lia. rewrite IH by lia.
    rewrite app_nth1 by lia. f_equal. lia.
Qed.

Lemma poly_bound l : 0 <= poly_of_bits l < 2 ^ zlen l.
Proof.
  induction l as [|b l IH] using rev_ind.
  - cbn. lia.
  - rewrite poly_snoc, zlen_app. change (zlen [b]) with 1.
    rewrite Z.pow_add_r by (pose proof (zlen_nonneg l); lia). destruct b; cbn [b2z]; lia.
Qed.

Lemma rev24_testbit r i : 0 <= i < 24 -> Z.testbit (rev24 r) i = Z.testbit r (23 - i).
Proof.
  intros Hi. unfold rev24. rewrite <- (Z2Nat.id i) by lia.
  rewrite poly_testbit by (rewrite map_length, seq_length; lia).
  rewrite map_length, seq_length.
  rewrite nth_indep with (d' := Z.testbit r (Z.of_nat 0))
    by (rewrite map_length, seq_length; lia).
  rewrite (map_nth (fun i => Z.testbit r (Z.of_nat i)) (seq 0 24) 0%nat).
  rewrite seq_nth by lia. f_equal. lia.
Qed.
Lemma rev24_bound r : 0 <= rev24 r < 2 ^ 24.
Proof. unfold rev24. apply (poly_bound (map _ (seq 0 24))). Qed.

Lemma rev24_feed r b : 0 <= r < 2 ^ 24 ->
  rev24 (feed r b) =
  Z.lxor (Z.lxor (2 * rev24 r) (b2z b * 2 ^ 24))
         (if xorb (Z.testbit (rev24 r) 23) b then G else 0).
Proof.
  intros Hr. pose proof (rev24_bound r) as Hb. pose proof (rev24_bound (feed r b)) as Hb2.
  apply Z.bits_inj'. intros n Hn.
  destruct (Z.lt_ge_cases n 25) as [Hlt|Hge].
  - rewrite !Z.lxor_spec.
    destruct (Z.eq_dec n 24) as [->|Hne].
    + rewrite (testbit_high _ 24 24) by lia.
      change (Z.testbit (2 * rev24 r) 24) with (Z.testbit (2 * rev24 r) (Z.succ 23)).
      rewrite Z.double_bits_succ. set (t := Z.testbit (rev24 r) 23).
      destruct t, b; reflexivity.
    + rewrite rev24_testbit by lia.
      rewrite rev24_testbit by lia. replace (23 - 23) with 0 by lia.
      unfold feed, lstep. rewrite Z.lxor_spec, Z.shiftr_spec by lia.
      rewrite <- Z.bit0_odd, !Z.lxor_spec.
      replace (Z.testbit (b2z b) (23 - n + 1)) with false
        by (symmetry; apply (testbit_high _ 1); [destruct b; cbn; lia|lia]).
      rewrite xorb_false_r.
      replace (Z.testbit (b2z b) 0) with b by (destruct b; reflexivity).
      replace (Z.testbit (b2z b * 2 ^ 24) n) with false
        by (symmetry; apply Z.mul_pow2_bits_low; lia).
      rewrite xorb_false_r.
      assert (Hd : Z.testbit (2 * rev24 r) n = Z.testbit r (23 - n + 1)).
      { destruct (Z.eq_dec n 0) as [->|H0].
        - rewrite Z.bit0_odd, Z.odd_mul. cbn [Z.odd andb]. symmetry. apply (testbit_high r 24); lia.
        - replace n with (Z.succ (n - 1)) at 1 by lia. rewrite Z.double_bits_succ.
          rewrite rev24_testbit by lia. f_equal. lia. }
      rewrite Hd. f_equal.
      destruct (xorb (Z.testbit r 0) b); [|now rewrite !Z.bits_0].
      apply eqb_prop.
      apply (sweep (fun n => eqb (Z.testbit polyr (23 - n)) (Z.testbit G n)) 24); [reflexivity|lia].
  - rewrite (testbit_high (rev24 _) 24 n) by lia. symmetry.
    apply (testbit_high _ 25); [|lia].
    apply lxor_lt_pow2; [lia| |].
    + apply lxor_lt_pow2; [lia|lia|]. destruct b; cbn [b2z]; lia.
    + destruct (xorb _ _); [unfold G; cbn; lia|lia].
Qed.

Lemma clmul_snoc q t g : clmul (q ++ [t]) g = Z.lxor (2 * clmul q g) (if t then g else 0).
Proof.
  unfold clmul. generalize 0 at 1 2 as acc. induction q as [|b q IH]; intros acc; [reflexivity|].
  cbn [app clmul_bits]. apply IH.
Qed.

Lemma double_lxor a b : 2 * Z.lxor a b = Z.lxor (2 * a) (2 * b).
Proof. pose proof (lxor_mul_pow2 a b 1 ltac:(lia)) as H. change (2 ^ 1) with 2 in H.
  rewrite !(Z.mul_comm 2). lia. Qed.

Lemma feed_range r b : 0 <= r < 2 ^ 24 -> 0 <= feed r b < 2 ^ 24.
Proof. intros Hr. apply lstep_range, lxor_lt_pow2; [lia|exact Hr|]. destruct b; cbn [b2z]; lia. Qed.
Lemma feeds_range l r : 0 <= r < 2 ^ 24 -> 0 <= fold_left feed l r < 2 ^ 24.
Proof. revert r. induction l as [|b l IH]; intros r Hr; [exact Hr|]. apply IH, feed_range, Hr. Qed.

Lemma feeds_remainder l f : 0 <= f < 2 ^ 24 ->
  exists q, Z.lxor (poly_of_bits l * 2 ^ 24) (rev24 f * 2 ^ zlen l) =
            Z.lxor (clmul q G) (rev24 (fold_left feed l f)).
Proof.
  intros Hf. induction l as [|b l [q IH]] using rev_ind.
  - exists []. cbn [fold_left]. change (zlen (@nil bool)) with 0. change (poly_of_bits []) with 0.
    change (clmul [] G) with 0. f_equal; lia.
  - set (r := fold_left feed l f) in *.
    assert (Hr : 0 <= r < 2 ^ 24) by apply feeds_range, Hf.
    exists (q ++ [xorb (Z.testbit (rev24 r) 23) b]).
    rewrite fold_left_app. cbn [fold_left]. fold r.
    rewrite clmul_snoc, rev24_feed by exact Hr.
    set (g := if xorb _ _ then G else 0).
    rewrite poly_snoc, zlen_app. change (zlen [b]) with 1.
    rewrite Z.pow_add_r by (pose proof (zlen_nonneg l); lia).
    replace (rev24 f * (2 ^ zlen l * 2 ^ 1)) with (2 * (rev24 f * 2 ^ zlen l)) by lia.
    replace ((2 * poly_of_bits l + b2z b) * 2 ^ 24)
      with (b2z b * 2 ^ 24 + (poly_of_bits l) * 2 ^ 25) by lia.
    rewrite <- (lxor_split_low (poly_of_bits l) (b2z b * 2 ^ 24) 25) by (destruct b; cbn [b2z]; lia).
    replace (poly_of_bits l * 2 ^ 25) with (2 * (poly_of_bits l * 2 ^ 24)) by lia.
    rewrite Z.lxor_assoc, <- double_lxor, IH, double_lxor.
    set (x := b2z b * 2 ^ 24). set (c := 2 * clmul q G). set (d := 2 * rev24 r).
    apply Z.bits_inj'. intros n Hn. rewrite !Z.lxor_spec.
    destruct (Z.testbit x n), (Z.testbit c n), (Z.testbit d n), (Z.testbit g n); reflexivity.
Qed.

Lemma string_bits_len m : zlen (string_bits m) = 8 * zlen m.
Proof.
  induction m as [|b m IH]; [reflexivity|].
  cbn [string_bits flat_map]. fold (string_bits m). rewrite zlen_app, IH, zlen_cons.
  change (zlen (octet_bits b)) with 8. lia.
Qed.

Lemma crc24_remainder f m : 0 <= f < 2 ^ 24 -> bytes m ->
  is_remainder (Z.lxor (poly_of_bits (string_bits m) * 2 ^ 24) (rev24 f * 2 ^ (8 * zlen m)))
               (rev24 (crc24_calc f m)).
Proof.
  intros Hf Hm. split; [apply rev24_bound|].
  rewrite crc24_feed by (assumption || lia).
  destruct (feeds_remainder (string_bits m) f Hf) as [q Hq].
  exists q. rewrite <- string_bits_len. exact Hq.
Qed.
