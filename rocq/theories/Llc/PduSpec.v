(** What a user of the LLC frame codec relies on, stated over the frame contents only.
    Sources: 3GPP TS 44.064 section 6.3 (control field formats) and 6.4 (commands). *)
From Verif.Lib Require Import Base Outcome.
From Verif.Llc Require Import PduModel.

(** SAPIs 3GPP TS 44.064 table 4 assigns. *)
Definition assigned_sapi (s : Z) : Prop := In s [1; 2; 3; 5; 7; 8; 9; 11; 14].

(** A well-formed frame without MAC: every field in the range TS 44.064 gives it, and every field that the
    format does not carry at its null value. *)
Definition wf_common (h : hdr) (data : list Z) : Prop :=
  assigned_sapi (h_sapi h) /\ bytes data /\ zlen data <= 4000 /\
  f_mac h = false /\ h_mac h = 0 /\ h_fcs h = 0.

Definition wf_ui (h : hdr) (data : list Z) : Prop :=
  wf_common h data /\ h_fmt h = FMT_UI /\ h_func h = UI /\ f_pf h = false /\ f_ack h = false /\
  h_nr h = 0 /\ 0 <= h_ns h < 512 /\ h_sack h = [].

(** Unnumbered frames: the FCS covers the whole frame (TS 44.064 6.3.4, no unprotected mode);
    only XID carries an information field here. *)
Definition wf_u (h : hdr) (data : list Z) : Prop :=
  wf_common h data /\ h_fmt h = FMT_U /\ In (h_func h) [SABM; DISC; UA; DM; FRMR; XID; NUL] /\
  (h_func h <> XID -> data = []) /\
  f_ack h = false /\ f_enc h = false /\ f_prot h = true /\ h_nr h = 0 /\ h_ns h = 0 /\ h_sack h = [].

Definition wf_sack (h : hdr) : Prop :=
  bytes (h_sack h) /\
  match h_func h with SACK => 1 <= zlen (h_sack h) <= 32 | _ => h_sack h = [] end.

Definition wf_i (h : hdr) (data : list Z) : Prop :=
  wf_common h data /\ h_fmt h = FMT_I /\ In (h_func h) [RR; ACK; RNR; SACK] /\ wf_sack h /\
  f_pf h = false /\ f_enc h = false /\ f_prot h = true /\ 0 <= h_nr h < 512 /\ 0 <= h_ns h < 512.

Definition wf_s (h : hdr) (data : list Z) : Prop :=
  wf_common h data /\ data = [] /\ h_fmt h = FMT_S /\ In (h_func h) [RR; ACK; RNR; SACK] /\ wf_sack h /\
  f_pf h = false /\ f_enc h = false /\ f_prot h = true /\ 0 <= h_nr h < 512 /\ h_ns h = 0.

Definition wf_frame (h : hdr) (data : list Z) : Prop :=
  wf_ui h data \/ wf_u h data \/ wf_i h data \/ wf_s h data.

(** Same frame up to the FCS field, which the encoder ignores on input. *)
Definition same_frame (a b : hdr) : Prop :=
  h_sapi a = h_sapi b /\ h_fmt a = h_fmt b /\ h_func a = h_func b /\ f_cr a = f_cr b /\ f_pf a = f_pf b /\
  f_ack a = f_ack b /\ f_mac a = f_mac b /\ f_enc a = f_enc b /\ f_prot a = f_prot b /\
  h_nr a = h_nr b /\ h_ns a = h_ns b /\ h_mac a = h_mac b /\ h_sack a = h_sack b.

(** The full round-trip claim: what was encoded decodes, passes the receiver's frame check, and carries
    the same header and information field. *)
Definition round_trips (h : hdr) (data : list Z) : Prop :=
  exists bs d, pdu_encode h data = Ok bs /\ bytes bs /\ pdu_decode bs = Ok d /\
    same_frame h (d_hdr d) /\ payload bs d = data /\ fcs_check bs (d_hdr d) = true.

(** The information field the decoder reports lies between the control field and the FCS. *)
Definition slice_inside (bs : list Z) (d : decoded) : Prop :=
  match d_data d with
  | None => True
  | Some (off, len) => 2 <= off /\ 0 <= len /\ off + len <= zlen bs - 3
  end.

(** Header fields in the range of their C types and of the standard. *)
Definition fields_ok (h : hdr) : Prop :=
  assigned_sapi (h_sapi h) /\ 0 <= h_nr h < 512 /\ 0 <= h_ns h < 512 /\ 0 <= h_fcs h < 2 ^ 24 /\
  0 <= h_mac h < 2 ^ 32 /\ zlen (h_sack h) <= 32 /\ bytes (h_sack h).

(** S-format frame announcing SACK whose bitmap, truncated to the octet that stores its length, exceeds
    the 32 octets of the destination. *)
Definition s_sack_oversized (bs : list Z) : Prop :=
  exists c0 c1, rd bs 1 = Ok c0 /\ rd bs 2 = Ok c1 /\ c0 / 64 mod 4 = 2 /\ c1 mod 4 = 3 /\
    32 < (zlen bs - 6) mod 256.

(** I-format frame announcing SACK whose bitmap leaves no room for its own length octet. *)
Definition i_sack_truncated (bs : list Z) : Prop :=
  exists c0 c2 k, rd bs 1 = Ok c0 /\ rd bs 3 = Ok c2 /\ rd bs 4 = Ok k /\ c0 < 128 /\ c2 mod 4 = 3 /\
    k mod 32 + 1 = zlen bs - 7.
