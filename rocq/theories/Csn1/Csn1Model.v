(** Model of the CSN.1 decoder (src/csn1/csn1_dec.c and csn1.c). *)
From Coq Require Import ZArith List Bool Lia.
From Verif Require Import Lib.Base.
Import ListNotations.
Open Scope Z_scope.

(** *** Descriptors *)
(** csn1.h:177-198 [CSN_DESCR] and [CSN_ChoiceElement_t].  A descriptor is an array of entries; here it is a chain,
    every entry holding the rest of the array in its last argument.  [off] and [room] are the offset of the member an
    entry names and the octets from there to the end of that member's storage (offsetof and sizeof on LP64);
    [coff] is the offset of a count field.  csn1.h:239-598 define the macros that make the entries. *)
Inductive counter := CFix (n : Z) | CVar (coff : Z) | CVarOff (coff : Z).
(** csn1_ts_44_060.c: the functions called through M_CALLBACK. *)
Inductive callback :=
| CbFreqDiff (n stride doff : Z)        (* 1909-1922, 2029-2042, 2571-2584, 4119-4132 *)
| CbTddMap                              (* 2332-2347 *)
| CbTddInfo (boff : Z).                 (* 2349-2416 *)
Inductive descr :=
| DEnd                                                                            (* CSN_END *)
| DBit (off room : Z) (null : bool) (r : descr)                                   (* M_BIT *)
| DNull (n : Z) (r : descr)                                                       (* M_NULL *)
| DUint (bits off room : Z) (null : bool) (r : descr)                             (* M_UINT, M_UINT_OR_NULL *)
| DUintOff (bits off room add : Z) (r : descr)                                    (* M_UINT_OFFSET *)
| DUintLH (bits off room : Z) (r : descr)                                         (* M_UINT_LH *)
| DUintArr (bits n off room : Z) (r : descr)                                      (* M_UINT_ARRAY *)
| DTArr (c : counter) (off room stride : Z) (sub r : descr)                       (* M_TYPE_ARRAY, M_VAR_TARRAY(_OFFSET) *)
| DBitmap (bits off room : Z) (r : descr)                                         (* M_BITMAP *)
| DType (off room : Z) (null : bool) (sub r : descr)                              (* M_TYPE, M_TYPE_OR_NULL *)
| DChoice (off room : Z) (alts r : descr)                                         (* M_CHOICE *)
| DAlt (bits value : Z) (keep : bool) (one r : descr)                             (* one CSN_ChoiceElement_t *)
| DSer (lbits off room : Z) (sub r : descr)                                       (* M_SERIALIZE *)
| DUnion (lh : bool) (n : nat) (off room : Z) (r : descr)                         (* M_UNION, M_UNION_LH *)
| DExist (lh : bool) (off room : Z) (r : descr)                                   (* M_THIS_EXIST(_LH) *)
| DNext (lh : bool) (n : nat) (off room : Z) (null : bool) (r : descr)            (* M_NEXT_EXIST(_OR_NULL)(_LH) *)
| DVarBmp (la toend : bool) (add coff off room : Z) (r : descr)                 (* M_VAR_BITMAP(_1), M_LEFT_VAR_BMP(_1) *)
| DPad (r : descr)                                                                (* M_PADDING_BITS *)
| DVarArr (add coff off room : Z) (r : descr)                                     (* M_VAR_ARRAY *)
| DRecArr (bits coff off room : Z) (r : descr)                                    (* M_REC_ARRAY *)
| DRecTArr (first : bool) (coff off room stride cap : Z) (sub r : descr)          (* M_REC_TARRAY, M_REC_TARRAY_1 *)
| DFixed (bits value : Z) (r : descr)                                             (* M_FIXED *)
| DCallback (c : callback) (p1 p2 room : Z) (r : descr)                           (* M_CALLBACK *)
| DTrap (code : Z) (r : descr).                                                   (* CSN_ERROR *)

(** csn1.h:239-598, the [may_be_null] member of an entry. *)
Definition may_be_null (d : descr) : bool :=
  match d with
  | DBit _ _ b _ | DUint _ _ _ b _ | DType _ _ b _ _ | DNext _ _ _ _ b _ => b
  | DPad _ => true
  | _ => false
  end.
Definition rest (d : descr) : descr :=
  match d with
  | DEnd => DEnd
  | DBit _ _ _ r | DNull _ r | DUint _ _ _ _ r | DUintOff _ _ _ _ r | DUintLH _ _ _ r | DUintArr _ _ _ _ r
  | DTArr _ _ _ _ _ r | DBitmap _ _ _ r | DType _ _ _ _ r | DChoice _ _ _ r | DAlt _ _ _ _ r | DSer _ _ _ _ r
  | DUnion _ _ _ _ r | DExist _ _ _ r | DNext _ _ _ _ _ r | DVarBmp _ _ _ _ _ _ r | DPad r | DVarArr _ _ _ _ r
  | DRecArr _ _ _ _ r | DRecTArr _ _ _ _ _ _ _ r | DFixed _ _ r | DCallback _ _ _ _ r | DTrap _ r => r
  end.
(** csn1_dec.c:931-939 and 982-990: may the next [n] entries all be null? *)
Fixpoint all_null (n : nat) (d : descr) : bool :=
  match n with O => true | S n => may_be_null d && all_null n (rest d) end.

(** *** Storage *)
(** The octets of the decoded structure. *)
Definition mem := Z -> Z.
Definition upd1 (m : mem) (a v : Z) : mem := fun x => if x =? a then v else m x.
(** Little endian store of [n] octets. *)
Fixpoint upds (m : mem) (a : Z) (n : nat) (v : Z) : mem :=
  match n with O => m | S n => upds (upd1 m a (v mod 256)) (a + 1) n (v / 256) end.

(** Position in the message ([remaining_bits_len], [bit_offset], [readIndex]) and the structure. *)
Record cst := mkcst { s_rem : Z; s_off : Z; s_ri : Z; s_mem : mem }.
Definition set_pos (s : cst) (rem off ri : Z) : cst := mkcst rem off ri (s_mem s).
Definition set_mem (s : cst) (m : mem) : cst := mkcst (s_rem s) (s_off s) (s_ri s) m.
Definition adv (s : cst) (n ri : Z) : cst := mkcst (s_rem s - n) (s_off s + n) ri (s_mem s).

(** Outcome of decoding: success, a negative return value, or an access outside the storage of a member. *)
Inductive dres := DOk (s : cst) | DErr (code : Z) | DUB.
Definition NEED_MORE : Z := -5.      (* csn1.h:38 CSN_ERROR_NEED_MORE_BITS_TO_UNPACK *)
Definition bindd (r : dres) (k : cst -> dres) : dres := match r with DOk s => k s | x => x end.

Section Decoder.
(** What counts as an access outside the storage: leaving the member an entry names ([strict]), or leaving the whole
    structure that is decoded into. *)
Variable strict : bool.
(** A store of [n] octets at index [k] of the member at [off]; [lim]: where the storage ends. *)
Definition store (lim base off room k : Z) (n : nat) (v : Z) (s : cst) : dres :=
  if (0 <=? k) && (negb strict || (k + Z.of_nat n <=? room)) &&
     (0 <=? base + off + k) && (base + off + k + Z.of_nat n <=? lim)
  then DOk (set_mem s (upds (s_mem s) (base + off + k) n v)) else DUB.
(** Where the storage of a nested structure ends. *)
Definition inner (lim base off room : Z) : Z := if strict then Z.min lim (base + off + room) else lim.

(** The message: bit [i] counted from the first bit of the first octet, and the number of bits (8 * data_len). *)
Variable bits : Z -> bool.
Variable nbits : Z.
(** libosmocore's bitvec_read_field(vector, &readIndex, n) when the field does not lie inside the vector: value and
    new index (versions of the library differ in whether the index advances). *)
Variable past : Z -> Z -> Z * Z.

Fixpoint field (i : Z) (n : nat) : Z :=
  match n with O => 0 | S n' => b2z (bits i) * 2 ^ Z.of_nat n' + field (i + 1) n' end.
(** bitvec_read_field. *)
Definition read (ri n : Z) : Z * Z :=
  if n =? 0 then (0, ri)
  else if (0 <=? ri) && (ri + n <=? nbits) then (field ri (Z.to_nat n), ri + n) else past ri n.
(** csn1_dec.c:48-57 [existNextElement] for STANDARD_TAG (bitvec_get_bit_pos is negative outside the vector). *)
Definition tag (ri : Z) : bool := (0 <=? ri) && (ri <? nbits) && bits ri.

(** csn1.c:40-64 [get_masked_bits8], for at most 8 bits. *)
Definition masked (ri off n : Z) : Z * Z :=
  let rel := off mod 8 in
  let sh := 8 - rel - n in
  let ri := ri - rel in
  if 0 <=? sh then
    let '(v, ri) := read ri 8 in
    (Z.land (Z.shiftr (Z.lxor 43 (v mod 256)) sh) (2 ^ n - 1), ri - sh)
  else
    let '(v, ri) := read ri 8 in
    let hi := (Z.land (Z.lxor 43 (v mod 256)) (2 ^ (8 - rel) - 1) * 2 ^ (- sh)) mod 256 in
    let '(v2, ri) := read ri 8 in
    (Z.lor (Z.shiftr (Z.lxor 43 (v2 mod 256)) (8 + sh)) hi, ri - (8 + sh)).

(** The width in octets of an integer of so many bits (csn1_dec.c:120-141). *)
Definition width (b : Z) : nat := if b <=? 8 then 1%nat else if b <=? 16 then 2%nat else 4%nat.

(** Repetition, passing the index. *)
Fixpoint rep (n : nat) (i : Z) (f : Z -> cst -> dres) (s : cst) : dres :=
  match n with O => DOk s | S n => bindd (f i s) (rep n (i + 1) f) end.
(** The next [b] bits stored as one octet at index [i] of a member. *)
Definition octet (lim base off room b : Z) (i : Z) (s : cst) : dres :=
  let '(v, ri) := read (s_ri s) b in
  store lim base off room i 1 v (set_pos s (s_rem s) (s_off s) ri).

(** csn1_dec.c:114-174 and 586-626 CSN_UINT; [err]: the code for too few bits. *)
Definition dec_uint (lim base b off room : Z) (null : bool) (err : Z) (s : cst) : dres :=
  if b <=? s_rem s then
    if 32 <? b then DErr (-1)
    else let '(v, ri) := read (s_ri s) b in store lim base off room 0 (width b) v (adv s b ri)
  else if null then store lim base off room 0 (width b) 0 s
  else DErr err.
(** csn1_dec.c:176-217 and 628-669 CSN_UINT_OFFSET. *)
Definition dec_uintoff (lim base b off room add : Z) (s : cst) : dres :=
  if b <=? s_rem s then
    if 32 <? b then DErr (-1)
    else let '(v, ri) := read (s_ri s) b in store lim base off room 0 (width b) (v + add) (adv s b ri)
  else DErr NEED_MORE.
(** csn1_dec.c:219-246 and 671-698 CSN_UINT_LH. *)
Definition dec_uintlh (lim base b off room : Z) (s : cst) : dres :=
  if b <=? s_rem s then
    if 8 <? b then DErr (-1)
    else let '(v, ri) := masked (s_ri s) (s_off s) b in store lim base off room 0 1 v (adv s b ri)
  else DErr NEED_MORE.
(** csn1_dec.c:81-105 CSN_BIT. *)
Definition dec_bit (lim base off room : Z) (null : bool) (s : cst) : dres :=
  if 0 <? s_rem s then
    let '(v, ri) := read (s_ri s) 1 in store lim base off room 0 1 v (adv s 1 ri)
  else if null then store lim base off room 0 1 0 (adv s 1 (s_ri s)) else DErr NEED_MORE.
(** csn1_dec.c:248-291 CSN_UINT_ARRAY with a constant count (at least 1); 700-755 inside a union, where elements of
    9 to 16 bits are supported too. *)
Definition dec_uintarr (union : bool) (lim base b n off room : Z) (s : cst) : dres :=
  if b * n <=? s_rem s then
    let s := set_pos s (s_rem s - b * n) (s_off s) (s_ri s) in
    if b <=? 8 then
      rep (Z.to_nat n) 0 (fun i s => bindd (octet lim base off room b i s)
        (fun s => DOk (set_pos s (s_rem s) (s_off s + b) (s_ri s)))) s
    else if union && (b <=? 16) then
      rep (Z.to_nat n) 0 (fun i s => let '(v, ri) := read (s_ri s) b in
        store lim base off room (2 * i) 2 v (set_pos s (s_rem s) (s_off s + b) ri)) s
    else DErr (if b <=? 32 then 999 else -1)
  else DErr NEED_MORE.
(** csn1_dec.c:338-381 CSN_BITMAP: 4 or 8 octets, whatever the number of bits. *)
Definition dec_bitmap (lim base b off room : Z) (s : cst) : dres :=
  if 0 <? b then
    if s_rem s <? b then DErr NEED_MORE
    else if 64 <? b then DErr 999
    else bindd (rep (if b <=? 32 then 4%nat else 8%nat) 0 (octet lim base off room 8) s)
           (fun s => DOk (adv s b (s_ri s)))
  else DOk s.
(** csn1_dec.c:799-835 CSN_BITMAP inside a union. *)
Definition dec_bitmap_u (lim base b off room : Z) (s : cst) : dres :=
  if 0 <? b then
    if s_rem s <? b then DErr NEED_MORE
    else if 64 <? b then DErr 999
    else let '(v, ri) := read (s_ri s) b in
         store lim base off room 0 (if b <=? 32 then 4%nat else 8%nat) v (adv s b ri)
  else DOk s.
(** csn1_dec.c:1009-1062 CSN_VARIABLE_BITMAP(_1) and 1064-1116 CSN_LEFT_ALIGNED_VAR_BMP(_1).  [bit_offset] counts
    only the bits outside whole octets. *)
Definition dec_varbmp (la toend : bool) (lim base add coff off room : Z) (s : cst) : dres :=
  bindd (if toend then store lim base coff 1 0 1 (s_rem s) s else DOk s) (fun s =>
  let n := s_mem s (base + coff) + add in
  if 0 <? n then
    if s_rem s - n <? 0 then DErr NEED_MORE
    else
      let s := set_pos s (s_rem s - n) (s_off s) (s_ri s) in
      let q := n / 8 in let p := n mod 8 in
      let partial (i : Z) (s : cst) :=
        if 0 <? p then bindd (octet lim base off room p i s) (fun s => DOk (set_pos s (s_rem s) (s_off s + p) (s_ri s)))
        else DOk s in
      if la then bindd (rep (Z.to_nat q) 0 (octet lim base off room 8) s) (partial q)
      else bindd (partial 0 s) (rep (Z.to_nat q) (if 0 <? p then 1 else 0) (octet lim base off room 8))
  else DOk s).
(** csn1_dec.c:1118-1148 CSN_PADDING_BITS: the read index is not moved. *)
Definition dec_pad (s : cst) : dres :=
  if 0 <? s_rem s then DOk (set_pos s 0 (s_off s + s_rem s) (s_ri s)) else DOk s.
(** csn1_dec.c:1150-1184 CSN_VARIABLE_ARRAY. *)
Definition dec_vararr (lim base add coff off room : Z) (s : cst) : dres :=
  let n := s_mem s (base + coff) + add in
  if 0 <? n then
    if s_rem s - 8 * n <? 0 then DErr NEED_MORE
    else rep (Z.to_nat n) 0 (fun i s => bindd (octet lim base off room 8 i s)
           (fun s => DOk (set_pos s (s_rem s) (s_off s + 8) (s_ri s))))
           (set_pos s (s_rem s - 8 * n) (s_off s) (s_ri s))
  else DOk s.
(** csn1_dec.c:1186-1231 CSN_RECURSIVE_ARRAY.  [remaining_bits_len] falls with every element, so [fuel] above it is
    never used up. *)
Fixpoint dec_recarr (fuel : nat) (lim base b coff off room i : Z) (s : cst) : dres :=
  match fuel with
  | O => DUB
  | S fuel =>
      let ri := s_ri s + 1 in
      if tag (s_ri s) then
        bindd (octet lim base off room b i (set_pos s (s_rem s - 1) (s_off s + 1) ri)) (fun s =>
        if s_rem s - b <? 0 then DErr NEED_MORE
        else dec_recarr fuel lim base b coff off room (i + 1) (adv s b (s_ri s)))
      else store lim base coff 1 0 1 i (adv s 1 ri)
  end.
(** csn1_dec.c:1364-1387 CSN_FIXED. *)
Definition dec_fixed (b value : Z) (s : cst) : dres :=
  if 32 <? b then DErr (-1)
  else let '(v, ri) := read (s_ri s) b in if v =? value then DOk (adv s b ri) else DErr (-1).

(** csn1_ts_44_060.c:2331 [NR_OF_TDD_CELLS_map]. *)
Definition tdd_map : list Z :=
  [0; 9; 17; 25; 32; 39; 46; 53; 59; 65; 71; 77; 83; 89; 95; 101; 106; 111; 116; 121; 126; 0; 0; 0; 0; 0; 0; 0; 0; 0; 0; 0].
(** csn1_ts_44_060.c:2380-2400, the loop over the words; [idx] falls with every word.  The words themselves
    (an array of 64 on the stack, fewer than 64 of them) are not used afterwards. *)
Fixpoint tdd_words (fuel : nat) (idx wsize nwi jwi ri : Z) : Z :=
  match fuel with
  | O => ri
  | S fuel =>
      if 0 <? idx then
        let '(v, ri) := read ri wsize in
        if v mod 65536 =? 0 then ri
        else if jwi + 1 =? nwi then tdd_words fuel (idx - wsize) (wsize - 1) (nwi * 2) 0 ri
        else tdd_words fuel (idx - wsize) wsize nwi (jwi + 1) ri
      else ri + idx
  end.
(** csn1_dec.c:1389-1399 CSN_CALLBACK.  The number of bits the function reports is taken modulo 2^16. *)
Definition dec_callback (lim base : Z) (c : callback) (p1 p2 room : Z) (s : cst) : dres :=
  match c with
  | CbFreqDiff n stride doff =>
      let v := s_mem s (base + p1) in
      rep (Z.to_nat n) 0 (fun i s => store lim base p2 room (i * stride + doff) 1 v s) s
  | CbTddMap =>
      let v := s_mem s (base + p1) in
      store lim base p2 room 0 1 (if v <? 32 then nth (Z.to_nat v) tdd_map 0 else 0) s
  | CbTddInfo boff =>
      let idx := s_mem s (base + p1 + boff) in
      let ri := if 0 <? idx then tdd_words 128 idx 10 1 0 (s_ri s) else s_ri s in
      DOk (adv s ((ri - s_ri s) mod 65536) ri)
  end.

(** csn1.c:37 [ixBitsTab]. *)
Definition ix_bits : list Z := [0; 1; 1; 2; 2; 3; 3; 3; 4; 4; 4; 4; 4; 4; 4; 4; 5].
(** csn1_dec.c:536-552: the index of a union, one bit at a time. *)
Fixpoint union_index (n : nat) (lh : bool) (ix : Z) (s : cst) : Z * cst :=
  match n with
  | O => (ix, s)
  | S n =>
      let '(v, ri) := if lh then masked (s_ri s) (s_off s) 1 else read (s_ri s) 1 in
      union_index n lh (2 * ix + v mod 2) (adv s 1 ri)
  end.

(** How the entry at the head of the chain is treated: run (Skip 0) or passed over, as an alternative of a union
    (skip [k] entries, run one, skip the rest of the [n]), or as the list of a CSN_CHOICE. *)
Inductive mode := Skip (n : nat) | Sel (k n : nat) | Alts (i off room : Z).
Definition run_mode : mode := Skip 0.
Definition control (md : mode) (s : cst) (next : mode -> cst -> dres) (run : dres) (uni : nat -> dres) : dres :=
  match md with
  | Skip O => run
  | Skip (S n) => next (Skip n) s
  | Sel O n => uni (n - 1)%nat
  | Sel (S k) n => next (Sel k (n - 1)) s
  | Alts _ _ _ => DUB
  end.
(** csn1_dec.c:77-78 and 1421-1423: after an entry the loop goes on unless remaining_bits_len is negative. *)
Definition after (r : dres) (k : cst -> dres) : dres :=
  bindd r (fun s => if s_rem s <? 0 then DErr NEED_MORE else k s).
(** csn1_dec.c:72-75: a nested call starts by checking remaining_bits_len. *)
Definition call (f : cst -> dres) (s : cst) : dres := if s_rem s <? 0 then DErr NEED_MORE else f s.
(** csn1_dec.c:863-866: an entry that cannot be an alternative of a union. *)
Definition no_union (n : nat) : dres := DErr (-3).

(** csn1_dec.c:1251-1287 the elements of CSN_RECURSIVE_TARRAY; the count is checked against the capacity. *)
Fixpoint rec_elems (fuel : nat) (lim base coff cap i : Z) (elem : Z -> cst -> dres) (s : cst) : dres :=
  match fuel with
  | O => DUB
  | S fuel =>
      if tag (s_ri s) then
        let s := adv s 1 (s_ri s + 1) in
        if cap <? i + 1 then DErr (-8)
        else bindd (elem i s) (fun s =>
             if s_rem s <? 0 then DErr NEED_MORE else rec_elems fuel lim base coff cap (i + 1) elem s)
      else store lim base coff 1 0 1 (i mod 256) (adv s 1 (s_ri s + 1))
  end.
(** csn1_dec.c:1318-1355 the elements of CSN_RECURSIVE_TARRAY_1. *)
Fixpoint rec_elems1 (fuel : nat) (lim base coff cap i : Z) (elem : Z -> cst -> dres) (s : cst) : dres :=
  match fuel with
  | O => DUB
  | S fuel =>
      if cap <? i + 1 then DErr (-8)
      else bindd (elem i s) (fun s =>
           if s_rem s <? 0 then DErr NEED_MORE
           else let more := tag (s_ri s) in
                let s := adv s 1 (s_ri s + 1) in
                if more then rec_elems1 fuel lim base coff cap (i + 1) elem s
                else store lim base coff 1 0 1 ((i + 1) mod 256) s)
  end.

(** csn1_dec.c:60-1424 [osmo_csn1_stream_decode].  [lim]: where the storage of the structure ends; [base]: where the
    structure begins. *)
Fixpoint dec (lim base : Z) (d : descr) (md : mode) (s : cst) {struct d} : dres :=
  match d with
  | DEnd =>                                                                            (* 1406-1411 *)
      match md with Skip O => DOk s | Alts _ _ _ => DErr (-8) | _ => DUB end           (* 464-466 *)
  | DBit off room null r =>
      control md s (dec lim base r)
        (after (dec_bit lim base off room null s) (dec lim base r run_mode))
        (fun n => after (let '(v, ri) := read (s_ri s) 1 in                            (* 564-577 *)
                         store lim base off room 0 1 (if 0 <? v then 1 else 0) (adv s 1 ri))
                        (dec lim base r (Skip n)))
  | DNull i r =>                                                                       (* 107-112, 579-584 *)
      let e := DOk (set_pos s (s_rem s) (s_off s + i) (s_ri s)) in
      control md s (dec lim base r) (after e (dec lim base r run_mode)) (fun n => after e (dec lim base r (Skip n)))
  | DUint b off room null r =>
      control md s (dec lim base r)
        (after (dec_uint lim base b off room null NEED_MORE s) (dec lim base r run_mode))
        (fun n => after (dec_uint lim base b off room false (-1) s) (dec lim base r (Skip n)))
  | DUintOff b off room add r =>
      let e := dec_uintoff lim base b off room add s in
      control md s (dec lim base r) (after e (dec lim base r run_mode)) (fun n => after e (dec lim base r (Skip n)))
  | DUintLH b off room r =>
      let e := dec_uintlh lim base b off room s in
      control md s (dec lim base r) (after e (dec lim base r run_mode)) (fun n => after e (dec lim base r (Skip n)))
  | DUintArr b c off room r =>
      control md s (dec lim base r)
        (after (dec_uintarr false lim base b c off room s) (dec lim base r run_mode))
        (fun n => after (dec_uintarr true lim base b c off room s) (dec lim base r (Skip n)))
  | DTArr c off room stride sub r =>                                                   (* 293-336, 757-797 *)
      let elem (i : Z) (s : cst) :=
        call (dec (inner lim base off room) (base + off + i * stride) sub run_mode) s in
      let count (union : bool) :=
        match c with
        | CFix n => n
        | CVar coff => s_mem s (base + coff)
        | CVarOff coff => if union then (s_mem s (base + coff) - 1) mod 65536 else s_mem s (base + coff)
        end in
      control md s (dec lim base r)
        (after (rep (Z.to_nat (count false)) 0 elem s) (dec lim base r run_mode))
        (fun n => after (rep (Z.to_nat (count true)) 0 elem s) (dec lim base r (Skip n)))
  | DBitmap b off room r =>
      control md s (dec lim base r)
        (after (dec_bitmap lim base b off room s) (dec lim base r run_mode))
        (fun n => after (dec_bitmap_u lim base b off room s) (dec lim base r (Skip n)))
  | DType off room null sub r =>                                                       (* 383-408, 837-861 *)
      let e := if null && (s_rem s =? 0) then DOk s
               else call (dec (inner lim base off room) (base + off) sub run_mode) s in
      control md s (dec lim base r) (after e (dec lim base r run_mode)) (fun n => after e (dec lim base r (Skip n)))
  | DChoice off room alts r =>                                                         (* 410-470 *)
      control md s (dec lim base r)
        (after (dec lim base alts (Alts 0 off room) s) (dec lim base r run_mode)) no_union
  | DAlt b value keep one r =>                                                         (* 423-462 *)
      match md with
      | Alts i off room =>
          let '(v, ri) := read (s_ri s) b in
          if v mod 256 =? value then
            bindd (store lim base off room 0 1 i
                     (if keep then set_pos s (s_rem s) (s_off s) ri else adv s b ri))
                  (call (dec lim base one run_mode))
          else dec lim base r (Alts (i + 1) off room) (set_pos s (s_rem s) (s_off s) (ri - b))
      | _ => DUB
      end
  | DSer lb off room sub r =>                                                          (* 472-515 *)
      control md s (dec lim base r)
        (after
           (let '(v, ri) := read (s_ri s) lb in
            let len := v mod 256 in
            let s := adv s lb ri in
            bindd (call (dec (inner lim base off room) (base + off) sub run_mode)
                     (if 0 <? len then set_pos s len (s_off s) (s_ri s) else s))
              (fun t => DOk (if 0 <? len then mkcst (s_rem s - len) (s_off s + len) (s_ri t + s_rem t) (s_mem t)
                             else set_pos t (s_rem t) (s_off t) (s_ri t + s_rem t))))
           (dec lim base r run_mode)) no_union
  | DUnion lh n off room r =>                                                          (* 517-871 *)
      control md s (dec lim base r)
        (if (n <=? 0)%nat || (16 <? n)%nat then DErr (-4)
         else let '(ix, s) := union_index (Z.to_nat (nth n ix_bits 0)) lh 0 s in
              bindd (store lim base off room 0 1 ix s) (dec lim base r (Sel (Nat.min (Z.to_nat ix) (n - 1)) n)))
        no_union
  | DExist lh off room r =>                                                            (* 873-903 *)
      control md s (dec lim base r)
        (let '(v, ri) := if lh then masked (s_ri s) (s_off s) 1 else read (s_ri s) 1 in
         bindd (store lim base off room 0 1 v (adv s 1 ri)) (fun s =>
         if v mod 256 =? 0 then (if s_rem s <? 0 then DErr (s_rem s) else DOk s)
         else after (DOk s) (dec lim base r run_mode)))
        no_union
  | DNext lh n off room null r =>                                                      (* 905-957, 959-1007 *)
      control md s (dec lim base r)
        (if null && (s_rem s =? 0) then
           after (store lim base off room 0 1 0 s) (dec lim base r (Skip n))
         else
           let '(v, ri) := if lh then masked (s_ri s) (s_off s) 1 else read (s_ri s) 1 in
           let isnull := (v =? 0) || ((s_rem s =? 1) && all_null n r) in
           after (store lim base off room 0 1 (if isnull then 0 else 1) (adv s 1 ri))
                 (dec lim base r (Skip (if isnull then n else 0))))
        no_union
  | DVarBmp la toend add coff off room r =>
      control md s (dec lim base r)
        (after (dec_varbmp la toend lim base add coff off room s) (dec lim base r run_mode)) no_union
  | DPad r => control md s (dec lim base r) (after (dec_pad s) (dec lim base r run_mode)) no_union
  | DVarArr add coff off room r =>
      control md s (dec lim base r)
        (after (dec_vararr lim base add coff off room s) (dec lim base r run_mode)) no_union
  | DRecArr b coff off room r =>
      control md s (dec lim base r)
        (after (dec_recarr (S (Z.to_nat (s_rem s))) lim base b coff off room 0 s) (dec lim base r run_mode)) no_union
  | DRecTArr first coff off room stride cap sub r =>                                   (* 1233-1362 *)
      let elem (i : Z) (s : cst) :=
        call (dec (inner lim base off room) (base + off + i * stride) sub run_mode) s in
      control md s (dec lim base r)
        (after ((if first then rec_elems1 else rec_elems) (S (Z.to_nat cap)) lim base coff cap 0 elem s)
               (dec lim base r run_mode)) no_union
  | DFixed b value r =>
      control md s (dec lim base r) (after (dec_fixed b value s) (dec lim base r run_mode)) no_union
  | DCallback c p1 p2 room r =>
      control md s (dec lim base r) (after (dec_callback lim base c p1 p2 room s) (dec lim base r run_mode)) no_union
  | DTrap code r => control md s (dec lim base r) (DErr code) no_union                 (* 1401-1404 *)
  end.

(** osmo_csn1_stream_decode called on a structure of [size] octets at address 0. *)
Definition decode (size : Z) (d : descr) (rem off ri : Z) (m : mem) : dres :=
  call (dec size 0 d run_mode) (mkcst rem off ri m).
End Decoder.
