(** Model of src/sndcp/sndcp_xid.c: the SNDCP-XID block, its coding and decoding.

    Simplifications, valid for the whole file:
    - Of the five pointers to parameters in a compression field at most one is used ("Only one of the following struct pointers
      may be used", xid.h:74); here they are one optional record.  The parameters after the NSAPIs are a list of numbers in the
      order of the structure, -1 where the code has -1; the functions for the five kinds, which differ only in the
      parameters they go through, are one function and two tables.  Arrays with a length are lists.
    - The lists of fields have the same order as in memory ([llist_add] puts a field in front).
    - Allocation never fails, log output and the dump functions (the last 210 lines) are absent.
    - [UB] is an access outside a buffer or a failed assertion. *)
From Verif.Lib Require Import Base Outcome.
From Verif.Comp Require Import SlhcModel.

(** xid.h:36-47, with the class (xid.h:84-89): 1 is data, 2 is protocol. *)
Inductive alg := RFC1144 | RFC2507 | ROHC | V42BIS | V44.
Definition class_of (a : alg) : Z := match a with RFC1144 | RFC2507 | ROHC => 2 | V42BIS | V44 => 1 end.
Definition num_of (a : alg) : Z := match a with RFC1144 | V42BIS => 0 | RFC2507 | V44 => 1 | ROHC => 2 end.
Definition alg_of (cls n : Z) : option alg :=
  if cls =? 2 then if n =? 0 then Some RFC1144 else if n =? 1 then Some RFC2507 else if n =? 2 then Some ROHC else None
  else if cls =? 1 then if n =? 0 then Some V42BIS else if n =? 1 then Some V44 else None
  else None.
(** xid.h:92-195: the structures of parameters; [p_prof] are the profiles of ROHC. *)
Record params := mkPar { p_alg : alg; p_nsapi : list Z; p_vals : list Z; p_prof : list Z }.
(** xid.h:57-81. *)
Record field := mkF { f_p : bool; f_entity : Z; f_algo : Z; f_comp : list Z; f_par : option params }.
(** sndcp_xid.c:511-528 [gprs_sndcp_get_compression_class]; 3 is SNDCP_XID_INVALID_COMPRESSION. *)
Definition class (f : field) : Z := match f_par f with Some p => class_of (p_alg p) | None => 3 end.

(** OSMO_ASSERT, for instance sndcp_xid.c:62. *)
Definition asserts {A} (b : bool) (k : res A) : res A := if b then k else UB.

(** What the parameters have to do with each other, known after the last of [vs]: sndcp_xid.c:318,351,361 and
    962,996,1006. *)
Definition related (a : alg) (vs : list Z) : bool :=
  match a, vs with
  | V44, [c0] => (c0 =? 0x80) || (c0 =? 0xC0)
  | V44, [_; _; p1t; _; p3t] => 2 * p1t <=? p3t
  | V44, [_; _; _; p1r; _; p3r] => 2 * p1r <=? p3r
  | _, _ => true
  end.

(** ** Encoding *)

(** Octets, least and greatest value asserted by the encoders: sndcp_xid.c:107-108, 142-174, 216-226, 269-286, 318-361. *)
Definition etab (a : alg) : list (Z * Z * Z) :=
  match a with
  | RFC1144 => [(1, 0, 255)]
  | RFC2507 => [(2, 1, 65535); (1, 1, 255); (1, 60, 255); (1, 3, 255); (2, 3, 65535)]
  | ROHC => [(2, 0, 16383); (2, 60, 255)]
  | V42BIS => [(1, 0, 3); (2, 512, 65535); (1, 6, 250)]
  | V44 => [(1, 0, 255); (1, 0, 3); (2, 256, 65535); (2, 256, 65535); (2, 0, 65535); (2, 0, 65535)]
  end.
(** sndcp_xid.c:50-82 [encode_pcomp_applicable_sapis]. *)
Definition enc_sapis (ns : list Z) : res (list Z) :=
  asserts (zlen ns <=? 11)
    (asserts (forallb (fun n => (5 <=? n) && (n <=? 15)) ns)
      (Ok (be16 (fold_left (fun b n => Z.lor b (Z.shiftl 1 n)) ns 0)))).
(** The parameters of [etab] one after the other (sndcp_xid.c:107-113, 141-182, 215-236, 268-291, 317-368). *)
Fixpoint enc_vals (a : alg) (done : list Z) (tab : list (Z * Z * Z)) (vs : list Z) : res (list Z) :=
  match tab, vs with
  | (w, lo, hi) :: tab, v :: vs =>
    asserts ((lo <=? v) && (v <=? hi) && related a (done ++ [v]))
      (do r <- enc_vals a (done ++ [v]) tab vs;
       Ok ((if w =? 1 then [v mod 256] else be16 v) ++ r))
  | _, _ => Ok []
  end.
(** sndcp_xid.c:86-115 (RFC 1144), 121-184 (RFC 2507), 188-244 (ROHC), 248-293 (V.42bis), 297-370 (V.44). *)
Definition enc_params (p : params) : res (list Z) :=
  asserts (zlen (p_prof p) <=? 16)
    (do ns <- enc_sapis (p_nsapi p);
     do vs <- enc_vals (p_alg p) [] (etab (p_alg p)) (p_vals p);
     Ok (ns ++ vs ++ concat (map be16 (p_prof p)))).
(** sndcp_xid.c:479-499: two values in an octet. *)
Fixpoint enc_comps (cs : list Z) : list Z :=
  match cs with
  | a :: b :: r => (a * 16 + b) :: enc_comps r
  | [a] => [a * 16]
  | [] => []
  end.
(** sndcp_xid.c:375-507 [encode_comp_field]; a value above 15 gives -EINVAL, which is asserted not to happen in line 547. *)
Definition enc_field (maxlen : Z) (f : field) : res (list Z) :=
  match f_par f with
  | None => UB
  | Some p =>
    do pl <- enc_params p;
    asserts (zlen (f_comp f) <=? 16)
      (let len := zlen pl + (if f_p f then (zlen (f_comp f) + 1) / 2 else 0) in
       asserts (len + (if f_p f then 3 else 2) <=? maxlen)
         (asserts (f_entity f <=? 31)
           (asserts ((0 <=? f_algo f) && (f_algo f <=? 31))
             (if f_p f then
                asserts (forallb (fun c => c <=? 15) (f_comp f))
                  (Ok (128 + f_entity f mod 32 :: f_algo f mod 32 :: len mod 256 :: enc_comps (f_comp f) ++ pl))
              else Ok (f_entity f mod 32 :: len mod 256 :: pl)))))
  end.
(** sndcp_xid.c:531-555 [gprs_sndcp_pack_fields], on the list from its end. *)
Fixpoint pack (maxlen cls : Z) (fs : list field) : res (list Z) :=
  match fs with
  | [] => Ok []
  | f :: r =>
    if cls =? class f then
      do b <- enc_field maxlen f;
      do bs <- pack (maxlen - zlen b) cls r;
      Ok (b ++ bs)
    else pack maxlen cls r
  end.
(** libosmocore [tlv_put]: the length is an octet.  The buffer and where the next element goes. *)
Definition tlv_put (dst : list Z) (at_ tag len : Z) (val : list Z) : res (list Z * Z) :=
  do d <- wr dst at_ (tag :: len mod 256 :: firstn (Z.to_nat (len mod 256)) val);
  Ok (d, at_ + 2 + len mod 256).
(** sndcp_xid.c:558-608 [gprs_sndcp_compile_xid]; [dst] is the buffer (of [dst_maxlen] octets) as it was before.  The result is the
    buffer and the length. *)
Definition compile_xid (dst : list Z) (fs : list field) (version : Z) : res (list Z * Z) :=
  asserts (3 <=? zlen dst)
    (do a <- (if 0 <=? version then do x <- tlv_put dst 0 0 1 [version mod 256]; Ok (x, 3) else Ok ((dst, 0), 0));
     let '((dst, pos), n) := a in
     match fs with
     | [] => Ok (dst, n)
     | _ =>
       do db <- pack 512 1 (rev fs);
       do x <- (if 0 <? zlen db then tlv_put dst pos 1 (zlen db) db else Ok (dst, pos));
       let '(dst, pos) := x in
       let n := n + (if 0 <? zlen db then zlen db + 2 else 0) in
       do pb <- pack 512 2 (rev fs);
       do x <- (if 0 <? zlen pb then tlv_put dst pos 2 (zlen pb) pb else Ok (dst, pos));
       Ok (fst x, n + (if 0 <? zlen pb then zlen pb + 2 else 0))
     end).

(** ** Decoding *)

(** In this part [m] is the buffer, [i] a position in it and [n] the number of octets the code believes to be there. *)

(** Octets, least and greatest value accepted by the decoders: sndcp_xid.c:750, 787-819, 851-859, 907-923 and 959-1003. *)
Definition dtab (a : alg) : list (Z * Z * Z) :=
  match a with
  | RFC1144 => [(1, 0, 255)]
  | RFC2507 => [(2, 1, 65535); (1, 1, 255); (1, 60, 255); (1, 3, 255); (2, 3, 65535)]
  | ROHC => [(2, 0, 16383); (2, 60, 255)]
  | V42BIS => [(1, 0, 3); (2, 512, 65535); (1, 6, 250)]
  | V44 => [(1, 0, 255); (1, 0, 3); (2, 265, 65535); (2, 265, 65535); (2, 265, 65535); (2, 265, 65535)]
  end.
(** sndcp_xid.c:613-648 [decode_pcomp_applicable_sapis]; [None] is -EINVAL. *)
Definition dec_sapis (m : list Z) (i n : Z) : res (option (list Z)) :=
  if n <? 2 then Ok None else
  do a <- rd m i; do b <- rd m (i + 1);
  Ok (Some (filter (fun k => Z.testbit (a * 256 + b) k) [5; 6; 7; 8; 9; 10; 11; 12; 13; 14; 15])).
(** sndcp_xid.c:651-688 [decode_pcomp_16_bit_field], 691-725 [decode_pcomp_8_bit_field]. *)
Definition dec_num (w : Z) (m : list Z) (i n lo hi : Z) : res (option Z) :=
  if n <? w then Ok None else
  do v <- (if w =? 1 then rd m i else do a <- rd m i; do b <- rd m (i + 1); Ok (a * 256 + b));
  Ok (if (v <? lo) || (hi <? v) then None else Some v).
(** The parameters of [dtab] one after the other (sndcp_xid.c:748-756, 783-825, 849-864, 905-929, 955-1011): the values, how many octets, whether all were there; [None] is -EINVAL. *)
Fixpoint dec_vals (a : alg) (done : list Z) (tab : list (Z * Z * Z)) (m : list Z) (i n : Z) : res (option (list Z * Z * bool)) :=
  match tab with
  | [] => Ok (Some ([], 0, true))
  | (w, lo, hi) :: r =>
    do x <- dec_num w m i n lo hi;
    match x with
    | None => Ok (Some (repeat (-1) (length tab), 0, false))
    | Some v =>
      if negb (related a (done ++ [v])) then Ok None else
      do y <- dec_vals a (done ++ [v]) r m (i + w) (n - w);
      Ok (match y with Some (vs, c, e) => Some (v :: vs, w + c, e) | None => None end)
    end
  end.
(** sndcp_xid.c:866-876: up to 16 profiles. *)
Fixpoint dec_prof (k : nat) (m : list Z) (i n : Z) : res (list Z * Z) :=
  match k with
  | O => Ok ([], 0)
  | S k =>
    do x <- dec_num 2 m i n 0 65535;
    match x with
    | None => Ok ([], 0)
    | Some v => do y <- dec_prof k m (i + 2) (n - 2); Ok (v :: fst y, 2 + snd y)
    end
  end.
(** sndcp_xid.c:728-758 (RFC 1144), 762-827 (RFC 2507), 830-880 (ROHC), 884-931 (V.42bis), 934-1013 (V.44): the parameters and how many
    octets; [None] is -EINVAL.  The number of profiles is set to 0 before each of them is read (line 867). *)
Definition dec_params (a : alg) (m : list Z) (i n : Z) : res (option (params * Z)) :=
  do x <- dec_sapis m i n;
  match x with
  | None => Ok (Some (mkPar a [] (repeat (-1) (length (dtab a))) [], 0))
  | Some ns =>
    do y <- dec_vals a [] (dtab a) m (i + 2) (n - 2);
    match y with
    | None => Ok None
    | Some (vs, c, all) =>
      match a with
      | ROHC =>
        if all then
          do z <- dec_prof 16 m (i + 2 + c) (n - 2 - c);
          Ok (Some (mkPar a ns vs (if zlen (fst z) =? 16 then fst z else []), 2 + c + snd z))
        else Ok (Some (mkPar a ns vs [], 2 + c))
      | _ => Ok (Some (mkPar a ns vs [], 2 + c))
      end
    end
  end.

(** sndcp_xid.c:39-44: the table of entities: number, class, algorithm. *)
Definition table : Type := list (Z * Z * Z).
(** sndcp_xid.c:1016-1051 [lookup_algorithm_identifier_pcomp], [lookup_algorithm_identifier_dcomp]. *)
Fixpoint find_algo (e cls : Z) (lt : table) : Z :=
  match lt with
  | [] => 3
  | (e', c, a) :: r => if (e' =? e) && (c =? cls) then a else find_algo e cls r
  end.
Definition lookup_algo (e cls : Z) (lt : option table) : Z := match lt with None => -1 | Some lt => find_algo e cls lt end.

(** xid.h:100-104,119-126,140-144,179-182,198-202: how many PCOMP or DCOMP values. *)
Definition num_comps (a : alg) : Z := match a with RFC1144 | ROHC | V44 => 2 | RFC2507 => 5 | V42BIS => 1 end.
(** sndcp_xid.c:1102-1116: [k] values from position [i]. *)
Fixpoint dec_nibbles (k : nat) (odd : bool) (m : list Z) (i : Z) : res (list Z) :=
  match k with
  | O => Ok []
  | S k =>
    do o <- rd m i;
    do r <- dec_nibbles k (negb odd) m (if odd then i + 1 else i);
    Ok ((if odd then o mod 16 else o / 16) :: r)
  end.

(** A 32-bit unsigned number as an int. *)
Definition sint (n : Z) : Z := (n + 2 ^ 31) mod 2 ^ 32 - 2 ^ 31.
(** sndcp_xid.c:1211-1297 [decode_comp_field], with [decode_comp_values] (1055-1119), [decode_pcomp_params] (1123-1167) and
    [decode_dcomp_params] (1171-1206); the class is 1 or 2.  The field and how many octets; [None] is -EINVAL. *)
Definition dec_field (m : list Z) (i n : Z) (lt : option table) (cls : Z) : res (option (field * Z)) :=
  if n <? 1 then Ok None else
  do b0 <- rd m i;
  let p := 128 <=? b0 in let e := b0 mod 32 in
  do a <- (if p then do b1 <- rd m (i + 1); Ok (b1 mod 32) else Ok (lookup_algo e cls lt));
  let j := if p then i + 2 else i + 1 in
  do len <- rd m j;
  let j := j + 1 in
  match (if p then match alg_of cls a with Some k => Some (num_comps k) | None => None end else Some 0) with
  | None => Ok None
  | Some k =>
    do cs <- dec_nibbles (Z.to_nat k) false m j;
    let c := (k + 1) / 2 in
    let j := j + c in
    let len := (len - c) mod 2 ^ 32 in
    match alg_of cls a with
    | Some al =>
      do x <- dec_params al m j len;
      Ok (match x with Some (pr, c') => Some (mkF p e a cs (Some pr), j + c' - i) | None => None end)
    | None => if sint len <? 0 then Ok None else Ok (Some (mkF p e a cs None, j + sint len - i))
    end
  end.
(** sndcp_xid.c:1300-1336 [decode_xid_block]; [n] octets are left, [cnt] fields were found; the new fields, first found first. *)
Fixpoint dec_block (fuel : nat) (m : list Z) (i n : Z) (lt : option table) (cls cnt : Z) : res (option (list field)) :=
  if 64 <? cnt then Ok None else
  match fuel with
  | O => Ok None
  | S fuel =>
    do x <- dec_field m i n lt cls;
    match x with
    | None => Ok None
    | Some (f, c) =>
      if 0 <? n - c then
        do y <- dec_block fuel m (i + c) (n - c) lt cls (cnt + 1);
        Ok (match y with Some fs => Some (f :: fs) | None => None end)
      else Ok (Some [f])
    end
  end.
(** libosmocore [tlv_parse_one], for the three tags of sndcp_xid.c:1357-1363: tag and length, the value comes after two octets; [None] is
    an error. *)
Definition tlv_one (m : list Z) (i n : Z) : res (option (Z * Z)) :=
  if n <? 1 then Ok None else
  do t <- rd m i;
  if 2 <? t then Ok None else
  if n <? 2 then Ok None else
  do l <- rd m (i + 1);
  if n <? l + 2 then Ok None else Ok (Some (t, l)).
(** sndcp_xid.c:1339-1408 [gprs_sndcp_decode_xid]; [cnt] elements were found, [v] is the version ([None] if the caller does not want it)
    and [fs] the list so far. *)
Fixpoint dec_xid (fuel : nat) (m : list Z) (i n : Z) (lt : option table) (v : option Z) (fs : list field) : res (option (option Z * list field)) :=
  match fuel with
  | O => Ok None
  | S fuel =>
    do x <- tlv_one m i n;
    match x with
    | None => Ok None
    | Some (t, l) =>
      do v <- (match v with Some _ => if t =? 0 then do o <- rd m (i + 2); Ok (Some o) else Ok v | None => Ok v end);
      do y <- (if t =? 0 then Ok (Some []) else dec_block 65 m (i + 2) l lt t 0);
      match y with
      | None => Ok None
      | Some new =>
        let fs := rev new ++ fs in
        if n - (l + 2) <=? 2 then Ok (Some (v, fs)) else dec_xid fuel m (i + l + 2) (n - (l + 2)) lt v fs
      end
    end
  end.

(** sndcp_xid.c:1411-1447 [gprs_sndcp_fill_table]; the table of the caller has 64 places. *)
Definition fill_table (fs : list field) : res table :=
  let lt := map (fun f => (f_entity f, class f, f_algo f)) (filter (fun f => negb (class f =? 3)) fs) in
  asserts (zlen lt <=? 64) (Ok lt).
(** sndcp_xid.c:1451-1561 [complete_comp_field_params]; [None] is -EINVAL. *)
Definition alg_eqb (a b : alg) : bool := (class_of a =? class_of b) && (num_of a =? num_of b).
(** sndcp_xid.c:1462-1556: a parameter below 0 is taken from the request. *)
Fixpoint fill (ds ss : list Z) : list Z :=
  match ds, ss with d :: ds, s :: ss => (if d <? 0 then s else d) :: fill ds ss | _, _ => ds end.
Definition complete_params (d s : option params) : option params :=
  match d, s with
  | Some d, Some s =>
    if alg_eqb (p_alg d) (p_alg s) then
      Some (mkPar (p_alg d) (p_nsapi d) (fill (p_vals d) (p_vals s)) (match p_prof d with [] => [] | _ => p_prof s end))
    else None
  | _, _ => None
  end.
(** sndcp_xid.c:1564-1589 [gprs_sndcp_complete_comp_field]: the field, and whether the last call succeeded. *)
Fixpoint complete_field (f : field) (ok : bool) (req : list field) : field * bool :=
  match req with
  | [] => (f, ok)
  | s :: r =>
    if f_entity s =? f_entity f then
      let cs := match f_comp s with [] => f_comp f | _ => f_comp s end in
      match complete_params (f_par f) (f_par s) with
      | Some p => complete_field (mkF (f_p f) (f_entity f) (f_algo f) cs (Some p)) true r
      | None => complete_field (mkF (f_p f) (f_entity f) (f_algo f) cs (f_par f)) false r
      end
    else complete_field f ok r
  end.
(** sndcp_xid.c:1592-1610 [gprs_sndcp_complete_comp_fields]. *)
Fixpoint complete (fs req : list field) : option (list field) :=
  match fs with
  | [] => Some []
  | f :: r =>
    let '(f, ok) := complete_field f true req in
    if ok then match complete r req with Some r => Some (f :: r) | None => None end else None
  end.
(** sndcp_xid.c:1613-1672 [gprs_sndcp_parse_xid]; [m] is the buffer, [n] the length, [want] whether the version is asked for; [None] is
    NULL. *)
Definition parse_xid (want : bool) (m : list Z) (n : Z) (req : option (list field)) : res (option (option Z * list field)) :=
  if n =? 0 then Ok None else
  let v := if want then Some (-1) else None in
  match req with
  | None => dec_xid 3 m 0 n None v []
  | Some req =>
    do lt <- fill_table req;
    do x <- dec_xid 3 m 0 n (Some lt) v [];
    match x with
    | None => Ok None
    | Some (v, fs) => Ok (match complete fs req with Some fs => Some (v, fs) | None => None end)
    end
  end.
