(** Model of the CSN.1 encoder (src/csn1/csn1_enc.c). *)
From Coq Require Import ZArith List Bool Lia.
From Verif Require Import Lib.Base Csn1.Csn1Model.
Import ListNotations.
Open Scope Z_scope.

(** Outcome of encoding: the bits written and [remaining_bits_len], an error, or undefined behaviour (a read outside the
    member an entry names, a use of [writeIndex] after it was decremented as a pointer; also the entries that are
    not modelled, see below). *)
Inductive eres := EOk (b : list bool) (rem : Z) | EErr (code : Z) | EUB.

(** bitvec_write_field(vector, &writeIndex, v, n): the [n] low bits of [v], the most significant one first.  Bits behind
    the end of the vector are dropped by the library; the list goes on. *)
Fixpoint wr (v : Z) (n : nat) : list bool :=
  match n with O => [] | S n' => Z.testbit v (Z.of_nat n') :: wr v n' end.
(** Little endian load of [n] octets. *)
Fixpoint rdle (m : mem) (a : Z) (n : nat) : Z :=
  match n with O => 0 | S n' => m a + 256 * rdle m (a + 1) n' end.

Definition eafter (r : eres) (k : Z -> eres) : eres :=
  match r with
  | EOk b rem => if rem <? 0 then EErr NEED_MORE
                 else match k rem with EOk b2 rem2 => EOk (b ++ b2) rem2 | x => x end
  | x => x
  end.
(** Without the check of remaining_bits_len (csn1_enc.c:1298). *)
Definition ebind (r : eres) (k : Z -> eres) : eres :=
  match r with
  | EOk b rem => match k rem with EOk b2 rem2 => EOk (b ++ b2) rem2 | x => x end
  | x => x
  end.
(** csn1_enc.c:58-61: a nested call starts by checking remaining_bits_len. *)
Definition ecall (f : Z -> eres) (rem : Z) : eres := if rem <? 0 then EErr NEED_MORE else f rem.
Fixpoint erep (n : nat) (i : Z) (f : Z -> Z -> eres) (rem : Z) : eres :=
  match n with O => EOk [] rem | S n => ebind (f i rem) (erep n (i + 1) f) end.

Section Encoder.
(** The structure that is encoded. *)
Variable m : mem.

(** The value of [n] octets at index [k] of the member at [off]. *)
Definition load (base off room k : Z) (n : nat) (f : Z -> eres) : eres :=
  if (0 <=? k) && (k + Z.of_nat n <=? room) then f (rdle m (base + off + k) n) else EUB.
(** [b] bits of the octet at index [i] of a member. *)
Definition eoctet (base off room : Z) (b : nat) (i rem : Z) : eres :=
  load base off room i 1 (fun v => EOk (wr v b) rem).

(** csn1_enc.c:97-140 and 530-567 CSN_UINT. *)
Definition enc_uint (base b off room : Z) (null : bool) (err : Z) (rem : Z) : eres :=
  if b <=? rem then
    if 32 <? b then EErr (-1)
    else load base off room 0 (width b) (fun v => EOk (wr v (Z.to_nat b)) (rem - b))
  else if null then EOk [] rem
  else EErr err.
(** csn1_enc.c:142-180 and 569-607 CSN_UINT_OFFSET. *)
Definition enc_uintoff (base b off room add rem : Z) : eres :=
  if b <=? rem then
    if 32 <? b then EErr (-1)
    else load base off room 0 (width b)
           (fun v => EOk (wr (v - add mod (if b <=? 8 then 256 else 65536)) (Z.to_nat b)) (rem - b))
  else EErr NEED_MORE.
(** csn1_enc.c:67-89 CSN_BIT. *)
Definition enc_bit (base off room : Z) (null : bool) (rem : Z) : eres :=
  if 0 <? rem then load base off room 0 1 (fun v => EOk (wr v 1) (rem - 1))
  else if null then EOk [] (rem - 1) else EErr NEED_MORE.
(** csn1_enc.c:216-259 and 644-687 CSN_UINT_ARRAY with a constant count (at least 1). *)
Definition enc_uintarr (base b n off room rem : Z) : eres :=
  if b * n <=? rem then
    if b <=? 8 then erep (Z.to_nat n) 0 (fun i rem => eoctet base off room (Z.to_nat b) i (rem - b)) rem
    else EErr (if b <=? 32 then 999 else -1)
  else EErr NEED_MORE.
(** csn1_enc.c:307-348 CSN_BITMAP: 4 or 8 octets, whatever the number of bits. *)
Definition enc_bitmap (base b off room rem : Z) : eres :=
  if 0 <? b then
    if rem <? b then EErr NEED_MORE
    else if 64 <? b then EErr 999
    else match erep (if b <=? 32 then 4%nat else 8%nat) 0 (eoctet base off room 8) rem with
         | EOk l rem => EOk l (rem - b)
         | x => x
         end
  else EOk [] rem.
(** csn1_enc.c:734-769 CSN_BITMAP inside a union. *)
Definition enc_bitmap_u (base b off room rem : Z) : eres :=
  if 0 <? b then
    if rem <? b then EErr NEED_MORE
    else if 64 <? b then EErr 999
    else load base off room 0 (if b <=? 32 then 4%nat else 8%nat) (fun v => EOk (wr v (Z.to_nat b)) (rem - b))
  else EOk [] rem.
(** csn1_enc.c:906-960 CSN_VARIABLE_BITMAP(_1): the first bits, then octets; 962-1017 CSN_LEFT_ALIGNED_VAR_BMP(_1): an
    octet is written for every begun octet, and then the bits outside whole octets from the one after. *)
Definition enc_varbmp (la : bool) (base add coff off room rem : Z) : eres :=
  let n := m (base + coff) + add in
  if 0 <? n then
    let p := n mod 8 in
    let q := if la then (n + 7) / 8 else n / 8 in
    let partial (i : Z) := if 0 <? p then eoctet base off room (Z.to_nat p) i else EOk [] in
    if la then
      if rem - n <? 0 then EErr NEED_MORE
      else ebind (erep (Z.to_nat q) 0 (eoctet base off room 8) (rem - n)) (partial q)
    else ebind (partial 0 (rem - n)) (erep (Z.to_nat q) (if 0 <? p then 1 else 0) (eoctet base off room 8))
  else EOk [] rem.
(** csn1_enc.c:1019-1058 CSN_PADDING_BITS: a zero and the low bits of 0x2b up to the next octet, then octets 0x2b. *)
Fixpoint filler (n : nat) : list bool := match n with O => [] | S n => wr 43 8 ++ filler n end.
Definition enc_pad (rem : Z) : eres :=
  if 0 <? rem then
    let p := rem mod 8 in
    EOk (wr (Z.land 43 (2 ^ (p - 1) - 1)) (Z.to_nat p) ++ filler (Z.to_nat (rem / 8))) 0
  else EOk [] rem.
(** csn1_enc.c:1060-1093 CSN_VARIABLE_ARRAY. *)
Definition enc_vararr (base add coff off room rem : Z) : eres :=
  erep (Z.to_nat (m (base + coff) + add)) 0 (fun i rem => eoctet base off room 8 i (rem - 8)) rem.
(** csn1_enc.c:1095-1137 CSN_RECURSIVE_ARRAY. *)
Definition enc_recarr (base b coff off room rem : Z) : eres :=
  ebind
    (erep (Z.to_nat (m (base + coff))) 0
       (fun i rem => ebind (EOk [true] (rem - 1)) (fun rem =>
          ebind (eoctet base off room (Z.to_nat b) i rem) (fun rem =>
          if rem <? 0 then EErr NEED_MORE else EOk [] (rem - b)))) rem)
    (fun rem => EOk [false] (rem - 1)).
(** csn1_enc.c:1139-1189 CSN_RECURSIVE_TARRAY: remaining_bits_len does not count the end tag (1183-1185). *)
Definition enc_rectarr (base coff : Z) (elem : Z -> Z -> eres) (rem : Z) : eres :=
  ebind
    (erep (Z.to_nat (m (base + coff))) 0
       (fun i rem => ebind (EOk [true] (rem - 1)) (fun rem =>
          eafter (elem i rem) (EOk []))) rem)
    (fun rem => EOk [false] rem).
(** csn1_enc.c:1201-1254 CSN_RECURSIVE_TARRAY_1. *)
Definition enc_rectarr1 (base coff : Z) (elem : Z -> Z -> eres) (rem : Z) : eres :=
  ebind
    (erep (Z.to_nat (m (base + coff))) 0
       (fun i rem => ebind (if 0 <? i then EOk [true] (rem - 1) else EOk [] rem) (fun rem =>
          eafter (elem i rem) (EOk []))) rem)
    (fun rem => EOk [false] (rem - 1)).

(** How the entry at the head of the chain is treated, as for the decoder; [Alts i _ _]: the alternative with index [i]
    of a CSN_CHOICE. *)
Definition econtrol (md : mode) (rem : Z) (next : mode -> Z -> eres) (run : unit -> eres) (uni : nat -> eres) : eres :=
  match md with
  | Skip O => run tt
  | Skip (S n) => next (Skip n) rem
  | Sel O n => uni (n - 1)%nat
  | Sel (S k) n => next (Sel k (n - 1)) rem
  | Alts _ _ _ => EUB
  end.
(** csn1_enc.c:794-797 *)
Definition no_union_e (n : nat) : eres := EErr (-3).

(** csn1_enc.c:46-1301 [osmo_csn1_stream_encode].  [bit_offset] is left out, since only the entries with L and H need
    it; these and CSN_CALLBACK, which reads the vector, are not modelled (EUB). *)
Fixpoint enc (base : Z) (d : descr) (md : mode) (rem : Z) {struct d} : eres :=
  match d with
  | DEnd => match md with Skip O => EOk [] rem | Alts _ _ _ => EErr (-4) | _ => EUB end  (* 1284-1289, 386-388 *)
  | DBit off room null r =>
      econtrol md rem (enc base r)
        (fun _ => eafter (enc_bit base off room null rem) (enc base r run_mode))
        (fun n => eafter (load base off room 0 1 (fun v => EOk (wr v 1) (rem - 1)))      (* 513-522 *)
                    (enc base r (Skip n)))
  | DNull i r =>                                                                       (* 91-95, 524-528 *)
      econtrol md rem (enc base r)
        (fun _ => eafter (EOk [] rem) (enc base r run_mode)) (fun n => eafter (EOk [] rem) (enc base r (Skip n)))
  | DUint b off room null r =>
      econtrol md rem (enc base r)
        (fun _ => eafter (enc_uint base b off room null NEED_MORE rem) (enc base r run_mode))
        (fun n => eafter (enc_uint base b off room false (-1) rem) (enc base r (Skip n)))
  | DUintOff b off room add r =>
      econtrol md rem (enc base r)
        (fun _ => eafter (enc_uintoff base b off room add rem) (enc base r run_mode))
        (fun n => eafter (enc_uintoff base b off room add rem) (enc base r (Skip n)))
  | DUintLH b off room r => econtrol md rem (enc base r) (fun _ => EUB) (fun _ => EUB)   (* not modelled *)
  | DUintArr b c off room r =>
      econtrol md rem (enc base r)
        (fun _ => eafter (enc_uintarr base b c off room rem) (enc base r run_mode))
        (fun n => eafter (enc_uintarr base b c off room rem) (enc base r (Skip n)))
  | DTArr c off room stride sub r =>                                                   (* 261-305, 689-732 *)
      let elem (i rem : Z) :=
        if (i + 1) * stride <=? room then ecall (enc (base + off + i * stride) sub run_mode) rem else EUB in
      let count := match c with CFix n => n | CVar coff | CVarOff coff => m (base + coff) end in
      econtrol md rem (enc base r)
        (fun _ => eafter (erep (Z.to_nat count) 0 elem rem) (enc base r run_mode))
        (fun n => eafter (erep (Z.to_nat count) 0 elem rem) (enc base r (Skip n)))
  | DBitmap b off room r =>
      econtrol md rem (enc base r)
        (fun _ => eafter (enc_bitmap base b off room rem) (enc base r run_mode))
        (fun n => eafter (enc_bitmap_u base b off room rem) (enc base r (Skip n)))
  | DType off room null sub r =>                                                       (* 350-372, 771-792 *)
      econtrol md rem (enc base r)
        (fun _ => eafter (ecall (enc (base + off) sub run_mode) rem) (enc base r run_mode))
        (fun n => eafter (ecall (enc (base + off) sub run_mode) rem) (enc base r (Skip n)))
  | DChoice off room alts r =>                                                         (* 374-421 *)
      econtrol md rem (enc base r)
        (fun _ => eafter (load base off room 0 1 (fun v => enc base alts (Alts v 0 0) rem)) (enc base r run_mode))
        no_union_e
  | DAlt b value keep one r =>                                                         (* 390-417 *)
      match md with
      | Alts i _ _ =>
          if i =? 0 then ebind (EOk (wr value (Z.to_nat b)) (rem - b)) (ecall (enc base one run_mode))
          else enc base r (Alts (i - 1) 0 0) rem
      | _ => EUB
      end
  | DSer lb off room sub r =>                                                          (* 423-456 *)
      econtrol md rem (enc base r)
        (fun _ => eafter
           (match ecall (enc (base + off) sub run_mode) (rem - lb) with
            | EOk b rem => EOk (wr (zlen b) (Z.to_nat lb) ++ b) rem
            | x => x
            end) (enc base r run_mode))
        no_union_e
  | DUnion lh n off room r =>                                                          (* 458-802 *)
      econtrol md rem (enc base r)
        (fun _ =>
           if (n <=? 0)%nat || (16 <? n)%nat then EErr (-4)
           else if lh then EUB                                                           (* not modelled *)
           else let bits := nth n ix_bits 0 in
                load base off room 0 1 (fun v =>
                  ebind (EOk (wr v (Z.to_nat bits)) (rem - bits))
                        (enc base r (Sel (Nat.min (Z.to_nat (v mod 2 ^ bits)) (n - 1)) n))))
        no_union_e
  | DExist lh off room r =>                                 (* 804-835: [writeIndex--] moves the pointer, 812 and 821 *)
      econtrol md rem (enc base r) (fun _ => EUB) no_union_e
  | DNext lh n off room null r =>                                                      (* 837-867 *)
      econtrol md rem (enc base r)
        (fun _ =>
           if null && (rem =? 0) then eafter (EOk [] rem) (enc base r (Skip n))
           else if lh then EUB                              (* 869-904: [writeIndex--] moves the pointer, 888 and 890 *)
           else load base off room 0 1 (fun v =>
                  eafter (EOk (wr v 1) (rem - 1)) (enc base r (Skip (if v =? 0 then n else 0)))))
        no_union_e
  | DVarBmp la toend add coff off room r =>
      econtrol md rem (enc base r)
        (fun _ => eafter (enc_varbmp la base add coff off room rem) (enc base r run_mode)) no_union_e
  | DPad r => econtrol md rem (enc base r) (fun _ => eafter (enc_pad rem) (enc base r run_mode)) no_union_e
  | DVarArr add coff off room r =>
      econtrol md rem (enc base r)
        (fun _ => eafter (enc_vararr base add coff off room rem) (enc base r run_mode)) no_union_e
  | DRecArr b coff off room r =>
      econtrol md rem (enc base r)
        (fun _ => eafter (enc_recarr base b coff off room rem) (enc base r run_mode)) no_union_e
  | DRecTArr first coff off room stride cap sub r =>
      let elem (i rem : Z) :=
        if (i + 1) * stride <=? room then ecall (enc (base + off + i * stride) sub run_mode) rem else EUB in
      econtrol md rem (enc base r)
        (fun _ => eafter ((if first then enc_rectarr1 else enc_rectarr) base coff elem rem) (enc base r run_mode))
        no_union_e
  | DFixed b value r =>                                                                (* 1256-1265 *)
      econtrol md rem (enc base r)
        (fun _ => eafter (EOk (wr value (Z.to_nat b)) (rem - b)) (enc base r run_mode)) no_union_e
  | DCallback c p1 p2 room r => econtrol md rem (enc base r) (fun _ => EUB) no_union_e   (* not modelled *)
  | DTrap code r => econtrol md rem (enc base r) (fun _ => EErr code) no_union_e         (* 1279-1282 *)
  end.

(** osmo_csn1_stream_encode called for the structure at address 0. *)
Definition encode (d : descr) (rem : Z) : eres := ecall (enc 0 d run_mode) rem.
End Encoder.
