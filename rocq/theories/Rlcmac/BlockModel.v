(** Model of the codec for RLC data blocks of CS-1 in src/rlcmac/csn1_ts_44_060.c.  All fields lie inside octets or are whole octets, so
    that bitvec_read_field and bitvec_write_field are modelled on octets.  [UB] is an access outside of an array of the structure, or a
    failing assertion; [Err] a read behind the end of the vector, of which the value depends on the version of libosmocore. *)
From Verif.Lib Require Import Base Outcome.

(** csn1_defs.h:43 MAX_NUMBER_LLC_PDU *)
Definition MAX_PDU : nat := 5.
(** csn1_defs.h:5155-5176 [RlcMacUplinkDataBlock_t]; an entry of [d_ext] is LENGTH_INDICATOR[i], M[i] and E[i]; [None] for what is not set. *)
Record udata := mkudata { d_pt : Z; d_cv : Z; d_si : Z; d_r : Z; d_spare : Z; d_pi : Z; d_tfi : Z; d_ti : Z; d_bsn : Z; d_e1 : Z;
  d_ext : list (Z * Z * Z); d_tlli : option Z; d_pfi : option (Z * Z); d_data : list Z }.
(** bitvec_read_field of [n] octets from octet [i] on. *)
Definition octs (v : list Z) (i n : Z) : res (list Z) :=
  if i + n <=? zlen v then Ok (slice (Z.to_nat i) (Z.to_nat n) v) else Err EINVAL.
(** The same for one octet, csn1_ts_44_060.c:5083-5085. *)
Definition oct (v : list Z) (i : Z) : res Z := do l <- octs v i 1; Ok (nth 0 l 0).
(** csn1_ts_44_060.c:5107-5122, the extension octets; [i] is the index of the arrays, [room] how many of their entries are left. *)
Fixpoint ext_in (room : nat) (v : list Z) (j : Z) : res (list (Z * Z * Z) * Z) :=
  match room with
  | O => UB
  | S room =>
      do o <- oct v j;
      let li := o / 4 mod 64 in let m := o / 2 mod 2 in let e := o mod 2 in
      if (m =? 1) && (e =? 0) then do r <- ext_in room v (j + 1); Ok ((li, m, e) :: fst r, snd r) else Ok ([(li, m, e)], j + 1)
  end.
(** csn1_ts_44_060.c:5071-5148 [osmo_gprs_rlcmac_decode_uplink_data]; [None]: not an RLC data block. *)
Definition decode_ul (v : list Z) : res (option udata) :=
  do a <- oct v 0;
  if negb (a / 64 mod 4 =? 0) then Ok None else
  do b <- oct v 1; do c <- oct v 2;
  let ti := b mod 2 in let pi := b / 64 mod 2 in let e1 := c mod 2 in
  do x <- (if e1 =? 0 then ext_in MAX_PDU v 3 else Ok ([], 3));
  let '(ext, j) := x in
  do y <- (if ti =? 1 then do t <- octs v j 4; Ok (Some (fold_left (fun acc o => acc * 256 + o) t 0), j + 4) else Ok (None, j));
  let '(tlli, j) := y in
  do z <- (if (ti =? 1) && (pi =? 1) then do o <- oct v j; Ok (Some (o / 2 mod 128, o mod 2), j + 1) else Ok (None, j));
  let '(pfi, j) := z in
  if (23 <? j) || (20 <? 23 - j) then UB else
  do d <- octs v j (23 - j);
  Ok (Some (mkudata (a / 64 mod 4) (a / 4 mod 16) (a / 2 mod 2) (a mod 2) (b / 128 mod 2) pi (b / 2 mod 32) ti (c / 2 mod 128) e1 ext tlli pfi d)).

(** csn1_defs.h:5180-5196 [RlcMacDownlinkDataBlock_t]; the three arrays of 5 octets as one list. *)
Record ddata := mkddata { w_pt : Z; w_rrbp : Z; w_sp : Z; w_usf : Z; w_pr : Z; w_tfi : Z; w_fbi : Z; w_bsn : Z; w_e1 : Z;
  w_ext : list (Z * Z * Z); w_data : list Z }.
(** csn1_ts_44_060.c:5180-5194, the extension octets. *)
Fixpoint ext_out (l : list (Z * Z * Z)) : res (list Z) :=
  match l with
  | [] => UB
  | (li, m, e) :: r =>
      let o := li mod 64 * 4 + m mod 2 * 2 + e mod 2 in
      if (m =? 1) && (e =? 0) then do x <- ext_out r; Ok (o :: x) else Ok [o]
  end.
(** csn1_ts_44_060.c:5150-5207 [osmo_gprs_rlcmac_encode_downlink_data]: what is written to the vector (of at least 23 octets). *)
Definition encode_dl (d : ddata) : res (list Z) :=
  if negb (w_pt d =? 0) then Ok [] else
  let h := [w_rrbp d mod 4 * 16 + w_sp d mod 2 * 8 + w_usf d mod 8; w_pr d mod 4 * 64 + w_tfi d mod 32 * 2 + w_fbi d mod 2; w_bsn d mod 128 * 2 + w_e1 d mod 2] in
  do x <- (if w_e1 d =? 0 then ext_out (w_ext d) else Ok []);
  let n := 23 - (3 + zlen x) in
  if (n <? 0) || (20 <? n) then UB else
  do y <- rdn (w_data d) 0 n;
  Ok (h ++ x ++ y).
