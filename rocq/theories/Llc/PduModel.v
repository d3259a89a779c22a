(** Model of the LLC frame encoder and decoder, src/llc/llc_pdu.c. *)
From Verif.Lib Require Import Base Outcome.
From Verif.Llc Require Import Crc24Model.

(** include/osmocom/gprs/llc/llc_private.h:35-40 [enum gprs_llc_frame_fmt]. *)
Inductive fmt := FMT_I | FMT_S | FMT_UI | FMT_U.

(** llc_private.h:50-67 [enum gprs_llc_frame_func]. *)
Inductive func :=
| SABM | DISC | UA | DM | FRMR | XID | NUL
| UI | UI_DUMMY
| RR | ACK | SACK | RNR.

(** llc_private.h:50-67: numeric values of the enumeration (used by [func - OSMO_GPRS_LLC_FUNC_RR]). *)
Definition func_num (f : func) : Z :=
  match f with
  | SABM => 0 | DISC => 1 | UA => 2 | DM => 3 | FRMR => 4 | XID => 5 | NUL => 6
  | UI => 7 | UI_DUMMY => 8 | RR => 9 | ACK => 10 | SACK => 11 | RNR => 12
  end.

(** llc_private.h:161-176 [struct gprs_llc_pdu_decoded] without the data pointer.  The [flags] bit set
    (llc_private.h:154-159) is six booleans; the SACK bitmap is the list of its [sack.len] octets. *)
Record hdr := mkhdr {
  h_sapi : Z; h_fmt : fmt; h_func : func;
  f_cr : bool; f_pf : bool; f_ack : bool; f_mac : bool; f_enc : bool; f_prot : bool;
  h_nr : Z; h_ns : Z; h_fcs : Z; h_mac : Z; h_sack : list Z }.

(** llc_pdu.c:134-140 U-frame codes, and the switch of the encoder at 228-253. *)
Definition u_code (f : func) : option Z :=
  match f with
  | NUL => Some 0 | DM => Some 1 | DISC => Some 4 | UA => Some 6 | SABM => Some 7
  | FRMR => Some 8 | XID => Some 11 | _ => None
  end.

(** Conditional or of a bit, [if (c) x |= m]. *)
Definition or_if (c : bool) (x m : Z) : Z := if c then Z.lor x m else x.

(** llc_pdu.c:150-154: the address octet. *)
Definition enc_addr (h : hdr) : Z := or_if (f_cr h) (Z.land (h_sapi h) 15) 64.

(** llc_pdu.c:156-255: the control octets (and the SACK octets that follow them), or an error.
    uint8_t truncation of the SACK length octet [sack.len - 1] is kept. *)
Definition enc_ctrl (h : hdr) : res (list Z) :=
  match h_fmt h with
  | FMT_I => (* 157-181 *)
      let c0 := Z.lor (or_if (f_ack h) 0 64) (Z.land (Z.shiftr (h_ns h) 4) 31) in
      let c1 := Z.lor (Z.shiftl (Z.land (h_ns h) 15) 4) (Z.land (Z.shiftr (h_nr h) 6) 7) in
      let c2 := Z.lor (Z.shiftl (Z.land (h_nr h) 63) 2) (Z.land (func_num (h_func h) - 9) 3) in
      match h_func h with
      | SACK => if zlen (h_sack h) =? 0 then Err (- EINVAL)
                else Ok ([c0; c1; c2; (zlen (h_sack h) - 1) mod 256] ++ h_sack h)
      | _ => Ok [c0; c1; c2]
      end
  | FMT_S => (* 182-202 *)
      let c0 := Z.lor 128 (Z.land (Z.shiftr (h_nr h) 6) 7) in
      let c1 := Z.lor (Z.lor (or_if (f_ack h) 0 32) (Z.shiftl (Z.land (h_nr h) 63) 2))
                      (Z.land (func_num (h_func h) - 9) 3) in
      match h_func h with
      | SACK => if zlen (h_sack h) =? 0 then Err (- EINVAL) else Ok ([c0; c1] ++ h_sack h)
      | _ => Ok [c0; c1]
      end
  | FMT_UI => (* 203-219 *)
      let c0 := Z.lor (or_if (f_mac h) 192 16) (Z.land (Z.shiftr (h_ns h) 6) 7) in
      let c1 := or_if (f_prot h) (or_if (f_enc h) (Z.shiftl (Z.land (h_ns h) 63) 2) 2) 1 in
      Ok [c0; c1]
  | FMT_U => (* 220-254 *)
      match u_code (h_func h) with
      | Some u => Ok [Z.lor (or_if (f_pf h) 224 16) u]
      | None => Err (- EINVAL)
      end
  end.

(** llc_pdu.c:270-272: number of octets covered by the FCS, UI_HDR_LEN + N202 = 7 (llc_private.h:28-29)
    when the frame is not in protected mode. *)
Definition fcs_cover (prot : bool) (len : Z) : Z := if prot then len else Z.min len 7.

(** llc_pdu.c:273-277: FCS octets, least significant first. *)
Definition fcs_octets (fcs : Z) : list Z :=
  [Z.land fcs 255; Z.land (Z.shiftr fcs 8) 255; Z.land (Z.shiftr fcs 16) 255].

(** llc_pdu.c:142-280 [gprs_llc_pdu_encode].  The message buffer is assumed to have room
    (msgb_put aborts otherwise; callers allocate 4096 octets); the result is the octets appended. *)
Definition pdu_encode (h : hdr) (data : list Z) : res (list Z) :=
  do ctrl <- enc_ctrl h;
  let body := enc_addr h :: ctrl ++ data in
  if f_mac h then Err (- ENOTSUP)
  else
    let fcs := gprs_llc_fcs (firstn (Z.to_nat (fcs_cover (f_prot h) (zlen body))) body) in
    Ok (body ++ fcs_octets fcs).

(** llc_pdu.c:324-334: reserved SAPIs rejected by the decoder. *)
Definition reserved_sapi (s : Z) : bool :=
  (s =? 0) || (s =? 4) || (s =? 6) || (s =? 10) || (s =? 12) || (s =? 13) || (s =? 15).

(** Decoder result: header plus the payload slice (offset and size_t length inside the buffer), absent
    when [pdu->data] is NULL. *)
Record decoded := mkdec { d_hdr : hdr; d_data : option (Z * Z) }.

(** llc_pdu.c:359-379 / 397-414: supervisory function bits. *)
Definition dec_func (b : Z) : func :=
  if b =? 0 then RR else if b =? 1 then ACK else if b =? 2 then RNR else SACK.

(** llc_pdu.c:456-483: U-frame function bits. *)
Definition dec_ufunc (b : Z) : option func :=
  if b =? 0 then Some NUL else if b =? 1 then Some DM else if b =? 4 then Some DISC
  else if b =? 6 then Some UA else if b =? 7 then Some SABM else if b =? 8 then Some FRMR
  else if b =? 11 then Some XID else None.

(** memcpy(&pdu->sack.r[0], data + off, len) with r[32] (llc_pdu.c:375 and 412): writing more than 32
    octets or reading outside the buffer is undefined. *)
Definition dec_sack (data : list Z) (off len : Z) : res (list Z) :=
  if 32 <? len then UB else rdn data off len.

(** llc_pdu.c:282-489 [gprs_llc_pdu_decode]; [data] is exactly the buffer of [data_len] octets; the
    output structure is zero-initialised by the callers (llc_grr.c:86, llc_bssgp.c:84). *)
Definition pdu_decode (data : list Z) : res decoded :=
  let n := zlen data in
  if n <? 3 then Err (- EINVAL) else
  do f0 <- rd data (n - 3);
  do f1 <- rd data (n - 2);
  do f2 <- rd data (n - 1);
  let fcs := Z.lor (Z.lor f0 (Z.shiftl f1 8)) (Z.shiftl f2 16) in
  let dl := n - 3 in
  if dl <? 1 then Err (- EINVAL) else
  let dl := dl - 1 in
  do addr <- rd data 0;
  if tst addr 128 then Err (- EINVAL) else
  let cr := tst addr 64 in
  let sapi := Z.land addr 15 in
  if reserved_sapi sapi then Err (- EINVAL) else
  if dl <? 1 then Err (- EINVAL) else
  do c0 <- rd data 1;
  if Z.land c0 128 =? 0 then (* 340-380: I format *)
    if dl <? 3 then Err (- EINVAL) else
    let dl := dl - 3 in
    do c1 <- rd data 2;
    do c2 <- rd data 3;
    let ack := tst c0 64 in
    let ns := Z.lor (Z.shiftl (Z.land c0 31) 4) (Z.shiftr c1 4) in
    let nr := Z.lor (Z.shiftl (Z.land c1 7) 6) (Z.shiftr c2 2) in
    let fn := dec_func (Z.land c2 3) in
    match fn with
    | SACK =>
        if dl <? 1 then Err (- EINVAL) else
        do k <- rd data 4;
        let slen := Z.land k 31 + 1 in
        if dl <? slen then Err (- EINVAL) else
        do r <- dec_sack data 5 slen;
        Ok (mkdec (mkhdr sapi FMT_I SACK cr false ack false false true nr ns fcs 0 r)
                  (Some (5 + slen, usub64 dl (1 + slen))))
    | _ =>
        Ok (mkdec (mkhdr sapi FMT_I fn cr false ack false false true nr ns fcs 0 [])
                  (Some (4, dl)))
    end
  else if Z.land c0 192 =? 128 then (* 381-414: S format *)
    if dl <? 2 then Err (- EINVAL) else
    let dl := dl - 2 in
    do c1 <- rd data 2;
    let ack := tst c0 32 in
    let nr := Z.lor (Z.shiftl (Z.land c0 7) 6) (Z.shiftr c1 2) in
    let fn := dec_func (Z.land c1 3) in
    match fn with
    | SACK =>
        if dl <? 1 then Err (- EINVAL) else
        let slen := dl mod 256 in (* uint8_t sack.len *)
        do r <- dec_sack data 3 slen;
        Ok (mkdec (mkhdr sapi FMT_S SACK cr false ack false false true nr 0 fcs 0 r) None)
    | _ =>
        Ok (mkdec (mkhdr sapi FMT_S fn cr false ack false false true nr 0 fcs 0 []) None)
    end
  else if Z.land c0 224 =? 192 then (* 415-442: UI format *)
    if dl <? 2 then Err (- EINVAL) else
    let dl := dl - 2 in
    do c1 <- rd data 2;
    let ns := Z.lor (Z.shiftl (Z.land c0 7) 6) (Z.shiftr c1 2) in
    let enc := tst c1 2 in
    let prot := tst c1 1 in
    if tst c0 16 then
      if dl <? 4 then Err (- EINVAL) else
      let dl := dl - 4 in
      do m <- rdn data (3 + dl) 4; (* osmo_load32le(&pdu->data[data_len]) *)
      let mac := nth 0 m 0 + 256 * nth 1 m 0 + 65536 * nth 2 m 0 + 16777216 * nth 3 m 0 in
      Ok (mkdec (mkhdr sapi FMT_UI UI cr false false true enc prot 0 ns fcs mac []) (Some (3, dl)))
    else
      Ok (mkdec (mkhdr sapi FMT_UI UI cr false false false enc prot 0 ns fcs 0 []) (Some (3, dl)))
  else (* 443-484: U format *)
    let dl := dl - 1 in
    let pf := tst c0 16 in
    match dec_ufunc (Z.land c0 15) with
    | None => Err (- ENOTSUP)
    | Some XID =>
        Ok (mkdec (mkhdr sapi FMT_U XID cr pf false false false true 0 0 fcs 0 []) (Some (2, dl)))
    | Some f =>
        Ok (mkdec (mkhdr sapi FMT_U f cr pf false false false true 0 0 fcs 0 []) None)
    end.

(** llc.c:848-851: the receiver's frame check.  [crc_length] is a uint16_t. *)
Definition fcs_check (data : list Z) (h : hdr) : bool :=
  let crc_length := (zlen data - 3) mod 65536 in
  h_fcs h =? gprs_llc_fcs (firstn (Z.to_nat (fcs_cover (f_prot h) crc_length)) data).

(** The payload octets a decoded frame refers to. *)
Definition payload (data : list Z) (d : decoded) : list Z :=
  match d_data d with
  | None => []
  | Some (off, len) => slice (Z.to_nat off) (Z.to_nat len) data
  end.
