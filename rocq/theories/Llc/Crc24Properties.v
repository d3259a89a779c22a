(** C01: the LLC frame check sequence. *)
From Verif.Lib Require Import Base.
From Verif.Llc Require Import Crc24Model Crc24Spec Crc24Proofs.

(** For every register value and octet string, the table-driven loop computes the remainder of
    M(x) x^24 + I(x) x^(8n) modulo the generator polynomial of TS 44.064. *)
Theorem C01_crc24_is_polynomial_remainder : forall init m,
  0 <= init < 2 ^ 24 -> bytes m ->
  is_remainder
    (Z.lxor (poly_of_bits (string_bits m) * 2 ^ 24) (rev24 init * 2 ^ (8 * zlen m)))
    (rev24 (crc24_calc init m)).
Proof. exact crc24_remainder. Qed.
Print Assumptions C01_crc24_is_polynomial_remainder.

(** Two equal-length strings whose difference lies within 24 consecutive transmitted bits never share
    a checksum. *)
Theorem C01_crc24_detects_bursts : forall init m1 m2,
  0 <= init -> bytes m1 -> bytes m2 -> length m1 = length m2 ->
  differ_by_burst 24 m1 m2 -> crc24_calc init m1 <> crc24_calc init m2.
Proof. exact crc24_burst. Qed.
Print Assumptions C01_crc24_detects_bursts.

(** A frame followed by its FCS field, hit anywhere (payload, FCS, or across) by a burst of at most 24
    bits, no longer verifies.  [fcs_bytes] is the least-significant-first 3-octet encoding. *)
Theorem C01_frame_burst_detected : forall m1 m2 f2,
  bytes m1 -> bytes m2 -> length m1 = length m2 -> 0 <= f2 < 2 ^ 24 ->
  differ_by_burst 24 (m1 ++ fcs_bytes (gprs_llc_fcs m1)) (m2 ++ fcs_bytes f2) ->
  gprs_llc_fcs m2 <> f2.
Proof. exact frame_burst. Qed.
Print Assumptions C01_frame_burst_detected.

(** Hypotheses are met by a concrete frame: a UI frame header with four octets of data, and the same
    frame with a 20-bit burst crossing into the FCS field. *)
Example C01_burst_nonvacuous :
  let m1 := [65; 192; 1; 8; 1; 2; 3] in
  let m2 := [65; 192; 1; 8; 1; 2; 243] in
  let f2 := Z.lxor (gprs_llc_fcs m1) 65535 in
  bytes m1 /\ bytes m2 /\ 0 <= f2 < 2 ^ 24 /\
  differ_by_burst 24 (m1 ++ fcs_bytes (gprs_llc_fcs m1)) (m2 ++ fcs_bytes f2) /\
  gprs_llc_fcs m2 =? f2 = false.
Proof.
  cbv zeta.
  split; [apply bytesb_ok; reflexivity|].
  split; [apply bytesb_ok; reflexivity|].
  split; [vm_compute; split; congruence|].
  split; [|vm_compute; reflexivity].
  exists 52, 1048575.
  split; [lia|]. split; [lia|]. vm_compute. reflexivity.
Qed.

Example C01_remainder_nonvacuous :
  rev24 (crc24_calc 16777215 [65; 192; 1; 8; 1; 2; 3]) <> 0.
Proof. vm_compute. congruence. Qed.
