(** Model of the LLC XID parameter codec, src/llc/llc_xid.c. *)
From Verif.Lib Require Import Base Outcome.

(** llc_private.h:103-112 [struct gprs_llc_xid_field]; the pair var.val/var.val_len is the list of its
    octets (a NULL pointer and a zero length are not distinguished). *)
Record xfield := mkx { x_type : Z; x_val : Z; x_var : list Z }.

(** llc_private.h:77-94: numeric XID types used by the callers. *)
Definition T_VERSION := 0.
Definition T_N201_U := 5.
Definition T_N201_I := 6.
Definition T_L3_PAR := 11.
Definition T_RESET := 12.

(** llc_xid.c:54-77 [gprs_llc_xid_desc]: (var_len, len, min, max, allow_zero). *)
Definition xid_desc (t : Z) : bool * Z * Z * Z * bool :=
  match Z.to_nat t with
  | 0%nat => (false, 1, 0, 15, false)
  | 1%nat => (false, 4, 0, 4294967295, false)
  | 2%nat => (false, 4, 0, 4294967295, false)
  | 3%nat => (false, 2, 0, 4095, false)
  | 4%nat => (false, 1, 1, 15, false)
  | 5%nat => (false, 2, 140, 1520, false)
  | 6%nat => (false, 2, 140, 1520, false)
  | 7%nat => (false, 2, 9, 24320, true)
  | 8%nat => (false, 2, 9, 24320, true)
  | 9%nat => (false, 1, 1, 255, false)
  | 10%nat => (false, 1, 1, 255, false)
  | 11%nat => (true, 0, 0, 0, false)
  | 12%nat => (false, 0, 0, 0, false)
  | 13%nat => (false, 4, 0, 4294967295, false)
  | 14%nat => (false, 1, 1, 255, false)
  | 15%nat => (false, 4, 0, 4294967295, false)
  | _ => (false, 0, 0, 0, false)
  end.

(** llc_xid.c:79-82. *)
Definition xid_is_var (t : Z) : bool := let '(v, _, _, _, _) := xid_desc t in v.
(** .len column of the table. *)
Definition xid_desc_len (t : Z) : Z := let '(_, l, _, _, _) := xid_desc t in l.

(** llc_xid.c:89-95 [gprs_llc_xid_field_get_len]; val_len is a uint8_t. *)
Definition xid_get_len (f : xfield) : Z :=
  if xid_is_var (x_type f) then zlen (x_var f) mod 256 else xid_desc_len (x_type f).

(** llc_xid.c:97-137 [gprs_llc_xid_field_is_valid]. *)
Definition xid_is_valid (f : xfield) : bool :=
  let '(v, _, mn, mx, az) := xid_desc (x_type f) in
  if 16 <=? x_type f then false
  else if v then true
  else if 0 <? zlen (x_var f) then false
  else if az && (x_val f =? 0) then true
  else if x_val f <? mn then false
  else negb (mx <? x_val f).

(** Big-endian stores of a uint32_t value (osmo_store16be / osmo_store32be, and the uint8_t store). *)
Definition store_be (len v : Z) : option (list Z) :=
  if len =? 1 then Some [v mod 256]
  else if len =? 2 then Some [v / 256 mod 256; v mod 256]
  else if len =? 4 then Some [v / 16777216 mod 256; v / 65536 mod 256; v / 256 mod 256; v mod 256]
  else None.

(** llc_xid.c:146-202: one iteration of the encoding loop; [out] is what has been written so far and
    [cap] is data_len. *)
Definition xid_enc_field (cap : Z) (out : list Z) (f : xfield) : res (list Z) :=
  if negb (xid_is_valid f) then Err (- EINVAL) else
  if cap <=? zlen out then Err (- EINVAL) else
  let h0 := Z.shiftl (Z.land (x_type f) 31) 2 in
  let len := xid_get_len f in
  if len =? 0 then Ok (out ++ [h0]) else
  do hd <- (if len <? 4 then Ok [Z.lor h0 len]
            else if cap <=? zlen out + 1 then Err (- EINVAL)
            else Ok [Z.lor (Z.lor h0 128) (Z.land (Z.shiftr len 6) 3); Z.land (Z.shiftl len 2) 255]);
  let out := out ++ hd in
  if cap <? zlen out + len then Err (- EINVAL) else
  if xid_is_var (x_type f) then Ok (out ++ firstn (Z.to_nat len) (x_var f))
  else match store_be len (x_val f) with
       | Some b => Ok (out ++ b)
       | None => UB (* OSMO_ASSERT(0) *)
       end.

(** llc_xid.c:139-205 [gprs_llc_xid_encode]; result = octets written (the return value is their number). *)
Fixpoint xid_enc_loop (cap : Z) (out : list Z) (fs : list xfield) : res (list Z) :=
  match fs with
  | [] => Ok out
  | f :: r => do out' <- xid_enc_field cap out f; xid_enc_loop cap out' r
  end.
Definition xid_encode (cap : Z) (fs : list xfield) : res (list Z) := xid_enc_loop cap [] fs.

(** Big-endian load. *)
Definition load_be (l : list Z) : Z := fold_left (fun a b => a * 256 + b) l 0.

(** llc_xid.c:208-299 [gprs_llc_xid_decode]: loop with read position [pos], remaining length [dl] and
    number [cnt] of fields already stored.  [fuel] bounds the number of iterations (each consumes at
    least one octet); running out of it is reported as UB and proved impossible. *)
Fixpoint xid_dec_loop (fuel : nat) (data : list Z) (pos dl cnt max : Z) : res (list xfield) :=
  if dl <=? 0 then Ok [] else
  match fuel with
  | O => UB
  | S fuel =>
    if max <? cnt + 1 then Err (- ENOMEM) else
    let dl := dl - 1 in
    do h0 <- rd data pos;
    let t := Z.land (Z.shiftr h0 2) 31 in
    if 16 <=? t then Err (- EINVAL) else
    do hl <- (if tst h0 128 then
                if dl <? 1 then Err (- EINVAL) else
                do h1 <- rd data (pos + 1);
                (* len is a uint8_t: the bit shifted out to position 8 is lost *)
                Ok (2, Z.lor (Z.shiftl (Z.land h0 7) 6 mod 256) (Z.shiftr h1 2) mod 256)
              else Ok (1, Z.land h0 3));
    let '(hlen, len) := hl in
    let pos := pos + hlen in
    let dl := dl - (hlen - 1) in
    if dl <? len then Err (- EINVAL) else
    let dl := dl - len in
    do f <- (if xid_is_var t then
               do v <- rdn data pos len; Ok (mkx t 0 v)
             else if (len =? 0) || (len =? 1) || (len =? 2) || (len =? 4) then
               do v <- rdn data pos len;
               let f := mkx t (load_be v) [] in
               if xid_is_valid f then Ok f else Err (- EINVAL)
             else Err (- EINVAL));
    do r <- xid_dec_loop fuel data (pos + len) dl (cnt + 1) max;
    Ok (f :: r)
  end.
Definition xid_decode (data : list Z) (max : Z) : res (list xfield) :=
  xid_dec_loop (length data) data 0 (zlen data) 0 max.
