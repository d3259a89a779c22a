(** Property theorems C02 (frame round trip) and C03 (decoder safety). *)
From Verif.Lib Require Import Base Outcome.
From Verif.Llc Require Import Crc24Model PduModel PduSpec PduProofs.

(** *** C02.  Full statement: [forall h data, wf_frame h data -> round_trips h data].  It is false, see
    the [_refuted] theorems; it holds for every UI and U frame, every I frame that announces RR or ACK, and
    every S frame that announces RR or ACK with a clear A bit. *)
Theorem C02_frame_round_trip_partial : forall h data,
  wf_frame h data ->
  h_func h <> RNR -> h_func h <> SACK -> (h_fmt h = FMT_S -> f_ack h = false) ->
  round_trips h data.
Proof.
  intros h data [H|[H|[H|H]]] Hn Hs Ha.
  - exact (ui_round_trip h data H).
  - exact (u_round_trip h data H).
  - apply i_round_trip; [exact H|].
    destruct H as (_ & _ & Hf & _). cbn [In] in Hf. intuition congruence.
  - apply s_round_trip; [exact H| |].
    + destruct H as (_ & _ & _ & Hf & _). cbn [In] in Hf. intuition congruence.
    + apply Ha. apply H.
Qed.
Print Assumptions C02_frame_round_trip_partial.

(** UI frames alone, with no exception: the frames that carry user data. *)
Theorem C02_ui_frame_round_trip : forall h data, wf_ui h data -> round_trips h data.
Proof. exact ui_round_trip. Qed.
Print Assumptions C02_ui_frame_round_trip.

(** U frames (SABM, DISC, UA, DM, FRMR, XID, NULL), no exception. *)
Theorem C02_u_frame_round_trip : forall h data, wf_u h data -> round_trips h data.
Proof. exact u_round_trip. Qed.
Print Assumptions C02_u_frame_round_trip.

Definition ex_i (f : func) (sack : list Z) : hdr :=
  mkhdr 3 FMT_I f true false true false false true 77 300 0 0 sack.
Definition ex_s (f : func) (a : bool) (sack : list Z) : hdr :=
  mkhdr 3 FMT_S f true false a false false true 77 0 0 0 sack.
Definition ex_ui : hdr := mkhdr 3 FMT_UI UI true false false false true false 0 411 0 0 [].
Definition ex_xid (prot : bool) : hdr := mkhdr 1 FMT_U XID true true false false false prot 0 0 0 0 [].

(** An I frame that announces RNR decodes as a SACK frame. *)
Theorem C02_i_rnr_refuted : exists h data, wf_i h data /\ h_func h = RNR /\
  exists bs d, pdu_encode h data = Ok bs /\ pdu_decode bs = Ok d /\ h_func (d_hdr d) = SACK.
Proof.
  exists (ex_i RNR []), [0; 1; 2; 3; 4]. split; [|split; [reflexivity|]].
  - unfold wf_i, wf_common, assigned_sapi, wf_sack. cbn.
    repeat match goal with |- _ /\ _ => split end; try (apply bytesb_ok; reflexivity); try reflexivity; try lia; intuition.
  - eexists. eexists. repeat split; vm_compute; reflexivity.
Qed.
Print Assumptions C02_i_rnr_refuted.

(** An I frame that announces SACK decodes as RNR, and its bitmap becomes part of the payload. *)
Theorem C02_i_sack_refuted : exists h data, wf_i h data /\ h_func h = SACK /\
  exists bs d, pdu_encode h data = Ok bs /\ pdu_decode bs = Ok d /\ h_func (d_hdr d) = RNR /\ payload bs d <> data.
Proof.
  exists (ex_i SACK [170; 85]), [9; 9; 9]. split; [|split; [reflexivity|]].
  - unfold wf_i, wf_common, assigned_sapi, wf_sack. cbn.
    repeat match goal with |- _ /\ _ => split end; try (apply bytesb_ok; reflexivity); try reflexivity; try lia; intuition.
  - eexists. eexists. repeat split; try (vm_compute; reflexivity). vm_compute. discriminate.
Qed.
Print Assumptions C02_i_sack_refuted.

(** The A bit of an S frame is lost, and the number N(R) is altered by it. *)
Theorem C02_s_ack_request_refuted : exists h, wf_s h [] /\ f_ack h = true /\
  exists bs d, pdu_encode h [] = Ok bs /\ pdu_decode bs = Ok d /\ f_ack (d_hdr d) = false /\ h_nr (d_hdr d) <> h_nr h.
Proof.
  exists (mkhdr 3 FMT_S RR true false true false false true 0 0 0 0 []). split; [|split; [reflexivity|]].
  - unfold wf_s, wf_common, assigned_sapi, wf_sack. cbn.
    repeat match goal with |- _ /\ _ => split end; try (apply bytesb_ok; reflexivity); try reflexivity; try lia; intuition.
  - eexists. eexists. repeat split; try (vm_compute; reflexivity). vm_compute. discriminate.
Qed.
Print Assumptions C02_s_ack_request_refuted.

(** An XID frame encoded without the protected-mode flag (the way src/llc/llc.c:258-302 encodes it) is
    rejected by the receiver's frame check as soon as it is longer than seven octets. *)
Theorem C02_unprotected_xid_refuted : exists data, bytes data /\
  exists bs d, pdu_encode (ex_xid false) data = Ok bs /\ pdu_decode bs = Ok d /\ fcs_check bs (d_hdr d) = false.
Proof.
  exists [1; 2; 3; 4; 5; 6]. split; [apply bytesb_ok; reflexivity|].
  eexists. eexists. repeat split; vm_compute; reflexivity.
Qed.
Print Assumptions C02_unprotected_xid_refuted.

Example C02_ui_nonvacuous : wf_ui ex_ui [1; 2; 3; 4; 5; 6; 7; 8].
Proof.
  unfold wf_ui, wf_common, assigned_sapi. cbn.
  repeat match goal with |- _ /\ _ => split end; try (apply bytesb_ok; reflexivity); try reflexivity; try lia; intuition.
Qed.
Example C02_xid_nonvacuous : wf_u (ex_xid true) [22; 5; 220].
Proof.
  unfold wf_u, wf_common, assigned_sapi. cbn.
  repeat match goal with |- _ /\ _ => split end; try (apply bytesb_ok; reflexivity); try reflexivity; try lia; intuition.
Qed.
Example C02_i_nonvacuous : wf_i (ex_i ACK []) [1; 2] /\ wf_s (ex_s RR false []) [].
Proof.
  unfold wf_i, wf_s, wf_common, assigned_sapi, wf_sack. cbn.
  repeat match goal with |- _ /\ _ => split end; try (apply bytesb_ok; reflexivity); try reflexivity; try lia; intuition.
Qed.

(** *** C03.  Full statement: decoding any octet string never touches memory outside the string and the
    decoded structure, and any payload it reports lies inside the string before the FCS.  False for two
    kinds of frames, named in the theorem; the theorem says these are the only ones. *)
Theorem C03_decoder_safe_partial : forall bs, bytes bs ->
  match pdu_decode bs with
  | UB => s_sack_oversized bs
  | Err e => e = - EINVAL \/ e = - ENOTSUP
  | Ok d => fields_ok (d_hdr d) /\ (slice_inside bs d \/ i_sack_truncated bs)
  end.
Proof. exact decode_safe. Qed.
Print Assumptions C03_decoder_safe_partial.

(** A 40-octet S frame overflows the 32-octet SACK bitmap of the decoded structure. *)
Theorem C03_s_sack_overflow_refuted : exists bs, bytes bs /\ zlen bs = 40 /\ pdu_decode bs = UB.
Proof. exists (1 :: 128 :: 3 :: repeat 0 37). repeat split; try (apply bytesb_ok; reflexivity); vm_compute; reflexivity. Qed.
Print Assumptions C03_s_sack_overflow_refuted.

(** An eight-octet I frame makes the decoder report an information field of 2^64-1 octets. *)
Theorem C03_i_sack_underflow_refuted : exists bs d, bytes bs /\ zlen bs = 8 /\ pdu_decode bs = Ok d /\
  exists off, d_data d = Some (off, 2 ^ 64 - 1).
Proof.
  exists [1; 0; 0; 3; 0; 0; 0; 0]. eexists. split; [apply bytesb_ok; reflexivity|].
  split; [reflexivity|]. split; [vm_compute; reflexivity|]. exists 6. reflexivity.
Qed.
Print Assumptions C03_i_sack_underflow_refuted.

Example C03_nonvacuous : exists d, pdu_decode [65; 192; 1; 43; 43; 43; 1; 2; 3] = Ok d /\ d_data d = Some (3, 3).
Proof. eexists. split; [vm_compute; reflexivity|reflexivity]. Qed.
