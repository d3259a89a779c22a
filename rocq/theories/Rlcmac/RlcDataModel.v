(** Model of the RLC data block layout: building uplink data blocks out of LLC frames, parsing the length
    indicators of downlink data blocks, and reassembling LLC frames.
    Sources: src/rlcmac/rlcmac_enc.c, rlcmac_dec.c, tbf_ul.c (create_new_bsn), tbf_dl.c
    (assemble_forward_llc).

    Conventions: a buffer is the list of its octets; any access outside the block's [data_len] octets is
    [UB], although the C array (rlc.h:216, 74 octets) may be longer. *)
From Verif.Lib Require Import Base Outcome.

(** *** Buffers *)
(** memcpy of [src] to [buf + i]. *)
Definition put (buf : list Z) (i : Z) (src : list Z) : res (list Z) :=
  if (0 <=? i) && (i + zlen src <=? zlen buf)
  then Ok (firstn (Z.to_nat i) buf ++ src ++ skipn (Z.to_nat i + length src) buf) else UB.
(** [memmove (buf + i + 1, buf + i, n)]. *)
Definition shift1 (buf : list Z) (i n : Z) : res (list Z) :=
  do s <- rdn buf i n; put buf (i + 1) s.

(** *** Encoder *)
(** rlcmac_enc.h:20-24 [enum gpr_rlcmac_append_result]. *)
Inductive ares := NEED_MORE_BLOCKS | COMPLETED_SPACE_LEFT | COMPLETED_BLOCK_FILLED.

(** Local variables of create_new_bsn: the data block, write_offset, num_chunks and rdbi->e. *)
Record bst := mkbst { b_buf : list Z; b_off : Z; b_nc : Z; b_e : Z }.

(** rlc.h:15-26 [struct gprs_rlcmac_rlc_li_field]: bit-fields e:1, m:1, li:6 from the least significant bit. *)
Definition li_octet (li m e : Z) : Z := Z.land li 63 * 4 + m * 2 + e.

(** rlcmac_enc.c:81 [e_pointer = num_chunks ? delimiter - 1 : NULL] and the updates through it. *)
Definition prev_li (st : bst) (f : Z -> Z) (buf : list Z) : res (list Z) :=
  if b_nc st =? 0 then Ok buf else do o <- rd buf (b_nc st - 1); put buf (b_nc st - 1) [f o].

(** rlcmac_enc.c:66-193 [gprs_rlcmac_enc_append_ul_data].  [final] is [rdbi->cv == 0], [msg] the octets of
    llc_msg still to send.  Result: return value, new locals, octets left in llc_msg.  count_payload is not
    used by the caller and left out. *)
Definition append_ul (final : bool) (st : bst) (msg : list Z) : res (ares * bst * list Z) :=
  let dlen := zlen (b_buf st) in
  let off := b_off st in
  let nc := b_nc st in
  let chunk := zlen msg in
  let space := dlen - off in
  if space <? chunk then
    do b1 <- prev_li st (fun o => Z.lor o 2) (b_buf st);
    do b2 <- put b1 off (firstn (Z.to_nat space) msg);
    Ok (NEED_MORE_BLOCKS, mkbst b2 dlen (nc + 1) (b_e st), skipn (Z.to_nat space) msg)
  else if (chunk =? space) && final then
    do b1 <- prev_li st (fun o => Z.lor o 1) (b_buf st);
    do b2 <- put b1 off msg;
    Ok (COMPLETED_BLOCK_FILLED, mkbst b2 dlen (nc + 1) (b_e st), [])
  else
    do b1 <- shift1 (b_buf st) nc (off - nc);
    do b2 <- prev_li st (fun o => Z.lor (Z.land o 254) 2) b1;
    if chunk =? space then
      do b3 <- put b2 nc [li_octet 0 0 1];
      do b4 <- put b3 (off + 1) (firstn (Z.to_nat (space - 1)) msg);
      Ok (NEED_MORE_BLOCKS, mkbst b4 dlen (nc + 1) 0, skipn (Z.to_nat (space - 1)) msg)
    else
      do b3 <- put b2 nc [li_octet chunk 0 1];
      do b4 <- put b3 (off + 1) msg;
      let space' := space - 1 - chunk in
      Ok (if 0 <? space' then COMPLETED_SPACE_LEFT else COMPLETED_BLOCK_FILLED,
          mkbst b4 (off + 1 + chunk) (nc + 1) 0, []).

(** tbf_ul.c:733-775, the loop of create_new_bsn.  [pend] is llc_tx_msg (head; the octets still to send)
    followed by the LLC queue in the order in which it is emptied (CoDel drops: see CodelModel).  An empty
    llc_tx_msg is the end of the data only after a chunk was written (the assertion at line 741). *)
Fixpoint fill (final : bool) (st : bst) (pend : list (list Z)) : res (bst * list (list Z)) :=
  match pend with
  | [] => if 0 <? b_nc st then Ok (st, []) else UB
  | msg :: rest =>
      if zlen msg =? 0 then if 0 <? b_nc st then Ok (st, pend) else UB else
      do r <- append_ul final st msg;
      let '(ar, st', more) := r in
      match ar with
      | NEED_MORE_BLOCKS => Ok (st', more :: rest)
      | COMPLETED_SPACE_LEFT => fill final st' rest
      | COMPLETED_BLOCK_FILLED => Ok (st', rest)
      end
  end.

(** tbf_ul.c:673-785 [create_new_bsn] for a GPRS coding scheme with [dlen] data octets: rlc.c:100-110 fills
    the block with 0x2b; while in contention resolution ([ti]) the TLLI goes first.  Result: E bit, block,
    data left to send.  Block store, sequence number and countdown: UlTxModel and CountdownModel. *)
Definition tlli_octets (tlli : Z) : list Z :=
  [Z.land (Z.shiftr tlli 24) 255; Z.land (Z.shiftr tlli 16) 255; Z.land (Z.shiftr tlli 8) 255; Z.land tlli 255].
Definition create_block (dlen : Z) (ti : bool) (tlli : Z) (final : bool) (pend : list (list Z)) : res (Z * list Z * list (list Z)) :=
  let buf := repeat 43 (Z.to_nat dlen) in
  do b0 <- (if ti then put buf 0 (tlli_octets tlli) else Ok buf);
  do r <- fill final (mkbst b0 (if ti then 4 else 0) 0 1) pend;
  let '(st, more) := r in
  Ok (b_e st, b_buf st, more).

(** *** Decoder *)
Definition LENGTH_TO_END : Z := 255.

(** rlcmac_dec.c:111-178 [parse_extensions_gprs]: returns chunk lengths with their completeness and the
    offset behind the extension octets.  [acc] holds the chunks found so far, latest first.  The callers
    always pass a chunk array ([chunks] non-NULL). *)
Fixpoint parse_gprs (fuel : nat) (data : list Z) (dlen offs : Z) (last : bool) (size : Z) (acc : list (Z * bool)) : res (list (Z * bool) * Z) :=
  match fuel with
  | O => UB
  | S fuel' =>
      if dlen <? offs then Err EINVAL else
      do o <- rd data offs;
      let li := Z.shiftr o 2 in
      let e := if li =? 0 then true else Z.testbit o 0 in
      let m := if li =? 0 then false else Z.testbit o 1 in
      let offs' := offs + 1 in
      if negb m && negb e then Ok ([], offs') else
      if zlen acc =? size then Err ENOSPC else
      let acc1 := (if li =? 0 then LENGTH_TO_END else li, negb (li =? 0) || last) :: acc in
      if e then
        if m then
          if zlen acc1 =? size then Err ENOSPC else Ok (rev ((LENGTH_TO_END, last) :: acc1), offs')
        else Ok (rev acc1, offs')
      else parse_gprs fuel' data dlen offs' last size acc1
  end.

(** rlcmac_dec.c:42-109 [parse_extensions_egprs]. *)
Fixpoint parse_egprs (fuel : nat) (data : list Z) (dlen offs : Z) (last : bool) (size : Z) (acc : list (Z * bool)) : res (list (Z * bool) * Z) :=
  match fuel with
  | O => UB
  | S fuel' =>
      if dlen <? offs then Err EINVAL else
      do o <- rd data offs;
      let li := Z.shiftr o 1 in
      let e := Z.testbit o 0 in
      let offs' := offs + 1 in
      if zlen acc =? size then Err ENOSPC else
      if negb ((li =? 0) && (zlen acc =? 0)) && ((li =? 127) && e) then Ok (rev acc, offs') else
      if negb ((li =? 0) && (zlen acc =? 0)) && negb (0 <? li) then Err EINVAL else
      let acc1 := (li, true) :: acc in
      if e then
        if zlen acc1 =? size then Err ENOSPC else Ok (rev ((LENGTH_TO_END, last) :: acc1), offs')
      else parse_egprs fuel' data dlen offs' last size acc1
  end.

(** rlcmac_dec.h:20-24 [struct gprs_rlcmac_rlc_llc_chunk] (uint8_t offset and length). *)
Record chunk := mkchunk { c_off : Z; c_len : Z; c_done : bool }.

(** rlcmac_dec.c:227-248: offsets of the chunks.  The early [break] leaves num_chunks - 1 entries, of which
    the ones not yet placed would be garbage; that is [UB] unless the entry is the last one. *)
Fixpoint place (dlen offs : Z) (l : list (Z * bool)) : res (list chunk) :=
  match l with
  | [] => Ok []
  | (len, done) :: r =>
      if (len =? LENGTH_TO_END) && (offs =? dlen) then match r with [] => Ok [] | _ => UB end else
      let len' := if len =? LENGTH_TO_END then (dlen - offs) mod 256 else len in
      let offs' := offs + len' in
      if dlen <? offs' then Err EINVAL else
      do t <- place dlen offs' r;
      Ok (mkchunk (offs mod 256) len' done :: t)
  end.

(** rlcmac_dec.c:180-248 [gprs_rlcmac_rlc_data_from_dl_data]: [data] are the rdbi->data_len octets of the
    block, [last] is [rdbi->cv == 0]. *)
Definition data_from_dl (e last edge : bool) (data : list Z) (size : Z) : res (list chunk) :=
  let dlen := zlen data in
  if e then if 0 <? size then place dlen 0 [(LENGTH_TO_END, last)] else Err ENOSPC
  else
    do r <- (if edge then parse_egprs (S (S (length data))) data dlen 0 last size []
             else parse_gprs (S (S (length data))) data dlen 0 last size []);
    let '(l, offs) := r in
    if size =? 0 then Ok [] else place dlen offs l.

(** *** Reassembly *)
(** rlcmac_private.h:22. *)
Definition LLC_PDU_MAX_LEN : Z := 1543.

(** tbf_dl.c:240-276, the loop of assemble_forward_llc.  [rx] is dl_tbf->llc_rx_msg.  msgb_put beyond the
    LLC_PDU_MAX_LEN octets allocated aborts the process. *)
Fixpoint assemble (rx : option (list Z)) (data : list Z) (l : list chunk) : res (option (list Z) * list (list Z)) :=
  match l with
  | [] => Ok (rx, [])
  | c :: r =>
      let cur := match rx with Some m => m | None => [] end in
      do s <- (if c_len c =? 0 then Ok [] else rdn data (c_off c) (c_len c));
      if LLC_PDU_MAX_LEN <? zlen cur + zlen s then UB else
      let m := cur ++ s in
      if c_done c then do t <- assemble None data r; let '(rx', out) := t in Ok (rx', m :: out)
      else assemble (Some m) data r
  end.

(** A block as stored for reassembly (E bit, final block indicator, coding scheme kind, octets). *)
Record rblk := mkrblk { k_e : bool; k_last : bool; k_edge : bool; k_data : list Z }.

(** tbf_dl.c:224-279 [gprs_rlcmac_dl_tbf_assemble_forward_llc]: [frames[16]]; a negative number of frames
    skips the loop. *)
Definition assemble_forward (rx : option (list Z)) (b : rblk) : res (option (list Z) * list (list Z)) :=
  match data_from_dl (k_e b) (k_last b) (k_edge b) (k_data b) 16 with
  | Ok l => assemble rx (k_data b) l
  | Err _ => Ok (rx, [])
  | UB => UB
  end.
Fixpoint assemble_all (rx : option (list Z)) (l : list rblk) : res (option (list Z) * list (list Z)) :=
  match l with
  | [] => Ok (rx, [])
  | b :: r => do x <- assemble_forward rx b; let '(rx1, o1) := x in
              do y <- assemble_all rx1 r; let '(rx2, o2) := y in Ok (rx2, o1 ++ o2)
  end.
