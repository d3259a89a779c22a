(** Model of the octets of RLC data blocks on the air: src/rlcmac/tbf_ul.c (create_ul_acked_block and what it uses), rlc.c (puncturing),
    rlcmac_enc.c, rlcmac_dec.c (headers, copying of data that do not start at an octet boundary), tbf_dl.c (storing a block).
    Octets are read from and written to lists; an access outside of them is [UB]. *)
From Verif.Lib Require Import Base Outcome.
From Verif.Rlcmac Require Import CsModel.
From Verif.Rlcmac Require RlcDataModel.

(** *** Headers *)
(** rlc.h:97-113 [struct gprs_rlcmac_rlc_data_info] and 86-94 [struct gprs_rlcmac_rlc_block_info], what the uplink header is made of. *)
Record ulh := mkulh { uh_r : Z; uh_si : Z; uh_cv : Z; uh_ti : Z; uh_tfi : Z; uh_e : Z; uh_bsn : Z }.
(** rlc.h:29-40 [struct gprs_rlcmac_rlc_ul_data_header]: bit-fields from the least significant bit; rlcmac_enc.c:36-49 sets all of them. *)
Definition ul_octets (h : ulh) : list Z :=
  [Z.land (uh_r h) 1 + Z.land (uh_si h) 1 * 2 + Z.land (uh_cv h) 15 * 4 + 0 * 64;
   Z.land (uh_ti h) 1 + Z.land (uh_tfi h) 31 * 2 + 0 * 64 + 0 * 128;
   Z.land (uh_e h) 1 + Z.land (uh_bsn h) 127 * 2].
(** rlcmac_enc.c:31-64 [gprs_rlcmac_rlc_write_ul_data_header]: nothing is written for EGPRS (the caller ignores the error). *)
Definition write_ul_header (cs : Z) (h : ulh) (msg : list Z) : res (list Z) :=
  do m <- info cs;
  if data_hdr m =? HT_GPRS then RlcDataModel.put msg 0 (ul_octets h) else Ok msg.
(** rlc.h:50-60 [struct gprs_rlcmac_rlc_dl_data_header] as read by rlcmac_dec.c:250-276: usf, s_p, rrbp, tfi, pr, fbi (as cv), bsn, e. *)
Record dlh := mkdlh { dh_usf : Z; dh_sp : Z; dh_rrbp : Z; dh_fbi : Z; dh_tfi : Z; dh_pr : Z; dh_e : Z; dh_bsn : Z }.
Definition parse_dl_gprs (msg : list Z) : res dlh :=
  do a <- rd msg 0; do b <- rd msg 1; do c <- rd msg 2;
  Ok (mkdlh (Z.land a 7) (Z.land (Z.shiftr a 3) 1) (Z.land (Z.shiftr a 4) 3) (Z.land b 1) (Z.land (Z.shiftr b 1) 31) (Z.land (Z.shiftr b 6) 3)
            (Z.land c 1) (Z.land (Z.shiftr c 1) 127)).
(** rlcmac_dec.c:278-299 [gprs_rlcmac_rlc_parse_dl_data_header] *)
Definition parse_dl (cs : Z) (msg : list Z) : res dlh :=
  do m <- info cs; if data_hdr m =? HT_GPRS then parse_dl_gprs msg else Err ENOTSUP.

(** *** Copying *)
(** rlcmac_enc.c:267-271, the loop: octet [i] of the message on, [last] is last_c. *)
Fixpoint from_loop (x : Z) (dst : list Z) (i : Z) (src : list Z) (last : Z) : res (list Z * Z) :=
  match src with
  | [] => Ok (dst, last)
  | c :: r =>
      do d <- RlcDataModel.put dst i [Z.lor (Z.shiftr last (8 - x)) (Z.land (Z.shiftl c x) 255)];
      from_loop x d (i + 1) r c
  end.
(** rlcmac_enc.c:240-278 [gprs_rlcmac_rlc_copy_from_aligned_buffer]: [offs] is data_offs_bits, [len] data_len. *)
Definition copy_from (offs len : Z) (dst buffer : list Z) : res (list Z) :=
  let hdr := offs / 8 in
  let x := offs mod 8 in
  do s <- rdn buffer 0 len;
  if x =? 0 then RlcDataModel.put dst hdr s else
  do d0 <- rd dst hdr;
  do r <- from_loop x dst hdr s (Z.land (Z.shiftl d0 (8 - x)) 255);
  let '(d, last) := r in
  do o <- rd d (hdr + len);
  RlcDataModel.put d (hdr + len) [Z.lor (Z.land o (Z.shiftl 255 x)) (Z.shiftr last (8 - x))].
(** rlcmac_dec.c:342-346, the loop. *)
Fixpoint to_loop (x : Z) (src : list Z) (last : Z) : list Z :=
  match src with
  | [] => []
  | c :: r => Z.lor (Z.shiftr last x) (Z.land (Z.shiftl c (8 - x)) 255) :: to_loop x r c
  end.
(** rlcmac_dec.c:314-349 [gprs_rlcmac_rlc_copy_to_aligned_buffer] *)
Definition copy_to (offs len : Z) (src : list Z) : res (list Z) :=
  let hdr := Z.shiftr offs 3 in
  let x := Z.land offs 7 in
  if x =? 0 then rdn src hdr len else
  do last <- rd src hdr; do s <- rdn src (hdr + 1) len;
  Ok (to_loop x s last).

(** *** Downlink *)
(** rlcmac.c:806-830 [gprs_rlcmac_handle_gprs_dl_data_block] and tbf_dl.c:281-343 up to the window: header, and the block as it is stored. *)
Definition dl_data (cs : Z) (msg : list Z) : res (dlh * RlcDataModel.rblk) :=
  do h <- parse_dl cs msg;
  do offs <- data_offs_bits cs false false 0; do len <- block_data_len cs false;
  do d <- copy_to offs len msg;
  Ok (h, RlcDataModel.mkrblk (dh_e h =? 1) (dh_fbi h =? 1) false d).

(** *** Puncturing schemes (0 = PS_1, 1 = PS_2, 2 = PS_3, 3 = invalid; rlc.h:202-207) *)
Definition PS_INVALID : Z := 3.
(** rlc.c:133-202 [gprs_rlcmac_rlc_mcs_cps]; -1 as an unsigned int is an error. *)
Definition mcs_cps (cs p1 p2 : Z) (pad : bool) : res Z :=
  if negb (is_edge cs) then Err 1 else
  if (11 <=? cs) && (p2 =? PS_INVALID) then Err 1 else
  if p1 =? PS_INVALID then Err 1 else
  Ok (if cs =? 5 then 11 + p1 mod 2
      else if cs =? 6 then 9 + p1 mod 2
      else if cs =? 7 then (if pad then 6 else 3) + p1 mod 3
      else if cs =? 8 then p1 mod 3
      else if cs =? 9 then 4 + p1 mod 2
      else if cs =? 10 then (if pad then 2 else 0) + p1 mod 2
      else if cs =? 11 then 20 + 3 * (p1 mod 3) + p2 mod 3
      else if cs =? 12 then 11 + 3 * (p1 mod 3) + p2 mod 3
      else 4 * (p1 mod 3) + p2 mod 3).
(** rlc.h:182-187 [enum gprs_rlcmac_rlc_egprs_ul_spb] *)
Definition SPB_NO : Z := 0.  Definition SPB_FIRST_10PAD : Z := 1.  Definition SPB_FIRST_6NOPAD : Z := 2.  Definition SPB_SEC : Z := 3.
(** rlc.c:204-248 [gprs_rlcmac_get_punct_scheme] *)
Definition get_punct (p last cur spb : Z) : Z :=
  if spb =? SPB_SEC then p
  else if (last =? 13) && (cur =? 10) then if (p =? 0) || (p =? 2) then 0 else if p =? 1 then 1 else PS_INVALID
  else if (last =? 10) && (cur =? 13) then if p =? 0 then 2 else if p =? 1 then 1 else PS_INVALID
  else if (last =? 11) && (cur =? 9) then 0
  else if (last =? 9) && (cur =? 11) then 1
  else if negb (last =? cur) then 0
  else p.
(** rlc.c:250-271 [gprs_rlcmac_update_punct_scheme] *)
Definition update_punct (p cs : Z) : Z :=
  if (cs =? 5) || (cs =? 6) || (cs =? 9) || (cs =? 10) then (p + 1) mod 2
  else if (cs =? 7) || (cs =? 8) || (cs =? 11) || (cs =? 12) || (cs =? 13) then (p + 1) mod 3
  else p.

(** *** Uplink *)
(** rlc.h:168-173 [enum gprs_rlcmac_rlc_egprs_ul_reseg_bsn_state] *)
Definition SEG_DEFAULT : Z := 0.  Definition SEG_FIRST : Z := 1.  Definition SEG_SECOND : Z := 2.
(** rlc.h:220-251 [struct gprs_rlcmac_rlc_block]: buf (74 octets), the parts of block_info that are used, cs_last, cs_current_trans,
    cs_init, next_ps, spb_status. *)
Record ablk := mkablk { a_buf : list Z; a_ti : Z; a_e : Z; a_cv : Z; a_last : Z; a_cur : Z; a_init : Z; a_ps : Z; a_seg : Z }.
Definition header_type (cs : Z) : res Z := do m <- info cs; Ok (data_hdr m).
(** tbf_ul.c:925-981 [egprs_ul_get_data]: where the data start, and the new status. *)
Definition get_data (b : ablk) : res (Z * Z) :=
  do ti <- header_type (a_init b); do tc <- header_type (a_cur b);
  Ok (if tc =? HT_T3 then
        if a_seg b =? SEG_FIRST then
          (if (a_init b =? 10) || (a_init b =? 13) then 37 else if (a_init b =? 11) || (a_init b =? 9) then 28
           else if a_init b =? 12 then 31 else if a_init b =? 8 then 22 else 0, SEG_SECOND)
        else if (ti =? HT_T1) || (ti =? HT_T2) then (0, SEG_FIRST)
        else if (a_init b =? 8) && (a_cur b =? 5) then (0, SEG_FIRST)
        else (0, SEG_DEFAULT)
      else (0, SEG_DEFAULT)).
(** tbf_ul.c:987-1016 [get_egprs_ul_spb] *)
Definition get_spb (b : ablk) : res Z :=
  do ti <- header_type (a_init b); do tc <- header_type (a_cur b);
  Ok (if tc =? HT_T3 then
        if a_seg b =? SEG_FIRST then SPB_SEC
        else if (ti =? HT_T1) || (ti =? HT_T2) then SPB_FIRST_6NOPAD
        else if (a_init b =? 8) && (a_cur b =? 5) then SPB_FIRST_10PAD
        else SPB_NO
      else SPB_NO).

(** The block store (rlc.c:128-131) by sequence number. *)
Definition store := Z -> ablk.
Definition sset (s : store) (i : Z) (b : ablk) : store := fun j => if j =? i then b else s j.
(** tbf_ul.c:1067-1083: coding scheme and padding for a block with status as in [b]; [two] is num_bsns = 2. *)
Definition choose_cs (b : ablk) (two : bool) : Z * bool :=
  if (a_init b =? 12) && ((a_cur b =? 10) || (a_cur b =? 7)) then (a_cur b, (a_seg b =? SEG_DEFAULT) || (a_seg b =? SEG_SECOND))
  else if negb two then if a_cur b =? 12 then (a_cur b, false) else dec_to_single_block (a_cur b)
  else (a_cur b, false).
(** tbf_ul.c:1112-1171, one data block: the store, the message, the puncturing scheme used, marked as nacked, CV. *)
Definition one_block (s : store) (cs spb bsn i : Z) (pad : bool) (msg : list Z) : res (store * list Z * Z * bool * ulh) :=
  let b := s bsn in
  let ps := get_punct (a_ps b) (a_last b) cs spb in
  if is_edge cs && negb ((0 <=? ps) && (ps <=? 2)) then UB else
  do g <- get_data b;
  let '(from, seg) := g in
  let first := (spb =? SPB_FIRST_10PAD) || (spb =? SPB_FIRST_6NOPAD) in
  let ps' := if first then ps else update_punct ps cs in
  do offs <- data_offs_bits cs pad true i; do len <- block_data_len cs pad;
  do m <- copy_from offs len msg (skipn (Z.to_nat from) (a_buf b));
  Ok (sset s bsn (mkablk (a_buf b) (a_ti b) (a_e b) (a_cv b) cs (a_cur b) (a_init b) ps' seg), m, ps, first, mkulh 0 0 (a_cv b) (a_ti b) 0 (a_e b) bsn).
(** tbf_ul.c:1018-1182 [create_ul_acked_block]: the store, the message, the sequence numbers marked as nacked, CPS (EGPRS) and whether
    it is the last block.  Counters and state machines, which follow, are in UlTbfModel.  The message buffer is zero at first. *)
Definition acked_block (s : store) (tfi bsn : Z) (bsn2 : option Z) : res (store * list Z * list Z * option Z * bool) :=
  let b := s bsn in
  let '(cs, pad) := choose_cs b (match bsn2 with Some _ => true | None => false end) in
  do spb <- get_spb b;
  do num <- num_data_blocks cs; do n <- size_ul cs;
  if negb ((0 <? num) && (num <=? 2)) then UB else
  let msg := repeat 0 (Z.to_nat n) in
  do x <- one_block s cs spb bsn 0 pad msg;
  let '(s1, m1, p1, f1, h1) := x in
  let second := match bsn2 with Some k => k | None => bsn end in
  do y <- (if num =? 2 then
             do z <- one_block s1 cs spb second 1 pad m1;
             let '(s2, m2, p2, f2, h2) := z in Ok (s2, m2, p2, (if f2 then [second] else []), uh_cv h2 =? 0)
           else Ok (s1, m1, PS_INVALID, [], false));
  let '(s2, m2, p2, nack2, fin2) := y in
  do m <- write_ul_header cs (mkulh 0 0 (uh_cv h1) (uh_ti h1) tfi (uh_e h1) (uh_bsn h1)) m2;
  Ok (s2, m, (if f1 then [bsn] else []) ++ nack2,
      (if is_edge cs then match mcs_cps cs p1 p2 pad with Ok v => Some v | _ => None end else None), (uh_cv h1 =? 0) || fin2).

(** *** EGPRS retransmissions *)
(** tbf_ul.c:673-707 in [create_new_bsn] and rlc.c:100-110 [gprs_rlcmac_rlc_block_prepare]: a new block of scheme [cs], as far as coding and segments are
    concerned; [buf] is what is left in the buffer after it was filled. *)
Definition new_ablk (cs ti e cv : Z) (buf : list Z) : ablk := mkablk buf ti e cv cs cs cs 0 SEG_DEFAULT.
(** tbf_ul.c:840-858 in [take_next_bsn]: scheme of a retransmission; [arq1]: egprs_arq_type is GPRS_RLCMAC_EGPRS_ARQ1. *)
Definition retx_cs (init cmd : Z) (arq1 : bool) : res Z :=
  do c <- get_retx_mcs init cmd arq1; Ok (if init =? 12 then 12 else c).
(** A block sent again alone (index2 < 0) when [cmd] is the scheme commanded. *)
Definition resend (s : store) (tfi bsn cmd : Z) (arq1 : bool) : res (store * list Z * list Z * option Z * bool) :=
  let b := s bsn in
  do c <- retx_cs (a_init b) cmd arq1;
  acked_block (sset s bsn (mkablk (a_buf b) (a_ti b) (a_e b) (a_cv b) (a_last b) c (a_init b) (a_ps b) (a_seg b))) tfi bsn None.
