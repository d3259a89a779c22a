(** What the decoder makes of the bits the encoder wrote. *)
From Coq Require Import ZArith List Bool Lia.
From Verif Require Import Lib.Base Csn1.Csn1Model Csn1.Csn1EncModel.
Import ListNotations.
Open Scope Z_scope.

(** The addresses of [n] octets from [a] on. *)
Fixpoint addrs (a : Z) (n : nat) : list Z := match n with O => [] | S n => a :: addrs (a + 1) n end.
Lemma in_addrs n : forall a x, In x (addrs a n) <-> a <= x < a + Z.of_nat n.
Proof.
  induction n as [|n IH]; intros a x; cbn [addrs In].
  - lia.
  - rewrite IH. lia.
Qed.
Lemma addrs_app n k : forall a, addrs a (n + k) = addrs a n ++ addrs (a + Z.of_nat n) k.
Proof.
  induction n as [|n IH]; intros a; cbn [addrs Nat.add app].
  - f_equal. lia.
  - rewrite IH. do 3 f_equal. lia.
Qed.

(** *** Which structures an encoded message can express *)
(** The octets of the members that are part of the message, on top of [R]; None when a value does not fit its field, or when
    the entry is one that the encoder and the decoder do not agree on. *)
Section Live.
Variable m : mem.
Definition fld (lim base off room : Z) (n : nat) (ok : Z -> bool) (R : list Z) : option (list Z) :=
  if (0 <=? base + off) && (base + off + Z.of_nat n <=? lim) && (Z.of_nat n <=? room) && ok (rdle m (base + off) n)
  then Some (addrs (base + off) n ++ R) else None.
Definition below (b : Z) (v : Z) : bool := v <? 2 ^ b.
(** After the encoder's [e], with the members [l]. *)
Definition lthen (e : eres) (l : option (list Z)) (k : Z -> list Z -> option (list Z)) : option (list Z) :=
  match e, l with EOk _ rem, Some R => k rem R | _, _ => None end.
Fixpoint lrep (n : nat) (i : Z) (fe : Z -> Z -> eres) (fl : Z -> Z -> list Z -> option (list Z))
  (rem : Z) (R : list Z) : option (list Z) :=
  match n with O => Some R | S n => lthen (fe i rem) (fl i rem R) (lrep n (i + 1) fe fl) end.
Definition known (R : list Z) (a : Z) : bool := existsb (Z.eqb a) R.

Definition lv_uint (lim base b off room : Z) (null : bool) (rem : Z) (R : list Z) : option (list Z) :=
  if (0 <=? b) && (b <=? 32) then
    if b <=? rem then fld lim base off room (width b) (below b) R
    else if null then fld lim base off room (width b) (Z.eqb 0) R else None
  else None.
Definition lv_uintoff (lim base b off room add rem : Z) (R : list Z) : option (list Z) :=
  if (0 <=? b) && (b <=? 32) && (0 <=? add) && (add <? 256) then
    fld lim base off room (width b) (fun v => (add <=? v) && below b (v - add)) R
  else None.
Definition lv_octets (lim base b off room : Z) (n : nat) (R : list Z) : option (list Z) :=
  if (0 <=? b) && (b <=? 8) && (0 <=? base + off) && (base + off + Z.of_nat n <=? lim) && (Z.of_nat n <=? room) &&
     forallb (fun a => below b (m a)) (addrs (base + off) n)
  then Some (addrs (base + off) n ++ R) else None.
(** The alternative with index [i]. *)
Fixpoint alt_at (d : descr) (i : nat) : option (Z * Z) :=
  match d with
  | DAlt b v _ _ r => match i with O => Some (b, v) | S i => alt_at r i end
  | _ => None
  end.
Definition lcontrol (md : mode) (rem : Z) (R : list Z) (next : mode -> Z -> list Z -> option (list Z))
  (run : unit -> option (list Z)) (uni : nat -> option (list Z)) : option (list Z) :=
  match md with
  | Skip O => run tt
  | Skip (S n) => next (Skip n) rem R
  | Sel O n => uni (n - 1)%nat
  | Sel (S k) n => next (Sel k (n - 1)) rem R
  | Alts _ _ _ => None
  end.

Fixpoint live (top : bool) (lim base : Z) (d : descr) (md : mode) (rem : Z) (R : list Z) {struct d} : option (list Z) :=
  let nx := live top lim base in
  match d with
  | DEnd => match md with Skip O => Some R | _ => None end
  | DBit off room null r =>
      lcontrol md rem R (nx r)
        (fun _ => if 0 <? rem then lthen (enc_bit m base off room null rem) (fld lim base off room 1 (below 1) R) (nx r run_mode) else None)
        (fun n => lthen (load m base off room 0 1 (fun v => EOk (wr v 1) (rem - 1))) (fld lim base off room 1 (below 1) R) (nx r (Skip n)))
  | DNull i r =>
      lcontrol md rem R (nx r) (fun _ => nx r run_mode rem R) (fun n => nx r (Skip n) rem R)
  | DUint b off room null r =>
      lcontrol md rem R (nx r)
        (fun _ => lthen (enc_uint m base b off room null NEED_MORE rem) (lv_uint lim base b off room null rem R) (nx r run_mode))
        (fun n => lthen (enc_uint m base b off room false (-1) rem) (lv_uint lim base b off room false rem R) (nx r (Skip n)))
  | DUintOff b off room add r =>
      lcontrol md rem R (nx r)
        (fun _ => lthen (enc_uintoff m base b off room add rem) (lv_uintoff lim base b off room add rem R) (nx r run_mode))
        (fun n => lthen (enc_uintoff m base b off room add rem) (lv_uintoff lim base b off room add rem R) (nx r (Skip n)))
  | DUintArr b c off room r =>
      lcontrol md rem R (nx r)
        (fun _ => if 0 <=? c then lthen (enc_uintarr m base b c off room rem) (lv_octets lim base b off room (Z.to_nat c) R) (nx r run_mode) else None)
        (fun n => if 0 <=? c then lthen (enc_uintarr m base b c off room rem) (lv_octets lim base b off room (Z.to_nat c) R) (nx r (Skip n)) else None)
  | DTArr c off room stride sub r =>
      let fe (i rem : Z) :=
        if (i + 1) * stride <=? room then ecall (enc m (base + off + i * stride) sub run_mode) rem else EUB in
      let fl (i : Z) := live false (Z.min lim (base + off + room)) (base + off + i * stride) sub run_mode in
      let go (k : mode -> Z -> list Z -> option (list Z)) (md : mode) (count : Z) :=
        lthen (erep (Z.to_nat count) 0 fe rem) (lrep (Z.to_nat count) 0 fe fl rem R) (k md) in
      lcontrol md rem R (nx r)
        (fun _ => match c with
                  | CFix n => go (nx r) run_mode n
                  | CVar coff | CVarOff coff =>
                      if known R (base + coff) then go (nx r) run_mode (m (base + coff)) else None
                  end)
        (fun k => match c with
                  | CFix n => go (nx r) (Skip k) n
                  | CVar coff => if known R (base + coff) then go (nx r) (Skip k) (m (base + coff)) else None
                  | CVarOff coff => None
                  end)
  | DBitmap b off room r =>
      lcontrol md rem R (nx r)
        (fun _ => if (b =? 32) || (b =? 64) then
                    lthen (enc_bitmap m base b off room rem) (lv_octets lim base 8 off room (Z.to_nat (b / 8)) R) (nx r run_mode)
                  else None)
        (fun n => None)
  | DType off room null sub r =>
      let e := ecall (enc m (base + off) sub run_mode) rem in
      let l := if null && match e with EOk (_ :: _) _ => false | _ => true end then None
               else live false (Z.min lim (base + off + room)) (base + off) sub run_mode rem R in
      lcontrol md rem R (nx r) (fun _ => lthen e l (nx r run_mode)) (fun n => lthen e l (nx r (Skip n)))
  | DChoice off room alts r =>
      lcontrol md rem R (nx r)
        (fun _ => lthen (load m base off room 0 1 (fun v => enc m base alts (Alts v 0 0) rem))
                    (match fld lim base off room 1 (fun _ => true) R with
                     | Some R => live false lim base alts (Alts (m (base + off)) 0 0) rem R
                     | None => None
                     end) (nx r run_mode))
        (fun _ => None)
  | DAlt b value keep one r =>
      match md with
      | Alts i _ _ =>
          if (0 <=? b) && (b <=? 8) && (0 <=? value) && (value <? 2 ^ b) then
            if i =? 0 then
              if keep then None else
              lthen (EOk [] (rem - b)) (Some R) (nx one run_mode)
            else match alt_at r (Z.to_nat (i - 1)) with
                 | Some (bt, vt) => if (b <=? bt) && (bt <=? 8) && (0 <=? vt) && (vt <? 2 ^ bt) && negb (vt / 2 ^ (bt - b) =? value)
                                    then nx r (Alts (i - 1) 0 0) rem R else None
                 | None => None
                 end
          else None
      | _ => None
      end
  | DSer lb off room sub r =>
      lcontrol md rem R (nx r)
        (fun _ =>
           let e := ecall (enc m (base + off) sub run_mode) (rem - lb) in
           lthen (match e with EOk b rem => EOk (wr (zlen b) (Z.to_nat lb) ++ b) rem | EErr c => EErr c | EUB => EUB end)
             (match e with
              | EOk b _ =>
                  if (0 <=? lb) && (lb <=? 8) && (0 <? zlen b) && (zlen b <? 2 ^ lb)
                  then live false (Z.min lim (base + off + room)) (base + off) sub run_mode (rem - lb) R else None
              | _ => None
              end) (nx r run_mode))
        (fun _ => None)
  | DUnion lh n off room r =>
      lcontrol md rem R (nx r)
        (fun _ => let bits := nth n ix_bits 0 in
                  let v := m (base + off) in
                  if lh || (n <=? 0)%nat || (16 <? n)%nat then None
                  else match fld lim base off room 1 (below bits) R with
                       | Some R => nx r (Sel (Nat.min (Z.to_nat (v mod 2 ^ bits)) (n - 1)) n) (rem - bits) R
                       | None => None
                       end)
        (fun _ => None)
  | DNext lh n off room null r =>
      lcontrol md rem R (nx r)
        (fun _ => if lh then None
                  else if null && (rem =? 0) then
                    match fld lim base off room 1 (Z.eqb 0) R with Some R => nx r (Skip n) rem R | None => None end
                  else if (m (base + off) =? 0) || negb (all_null n r) then
                    match fld lim base off room 1 (below 1) R with
                    | Some R => nx r (Skip (if m (base + off) =? 0 then n else 0)) (rem - 1) R
                    | None => None
                    end
                  else None)
        (fun _ => None)
  | DPad r =>
      lcontrol md rem R (nx r) (fun _ => match r with DEnd => if top then Some R else None | _ => None end) (fun _ => None)
  | DRecTArr first coff off room stride cap sub r =>
      let fe (i rem : Z) :=
        if (i + 1) * stride <=? room then ecall (enc m (base + off + i * stride) sub run_mode) rem else EUB in
      let fl (i : Z) := live false (Z.min lim (base + off + room)) (base + off + i * stride) sub run_mode in
      let count := m (base + coff) in
      lcontrol md rem R (nx r)
        (fun _ =>
           if (if first then 1 <=? count else true) && (count <=? cap) && (0 <=? base + coff) && (base + coff + 1 <=? lim) then
             lthen ((if first then enc_rectarr1 else enc_rectarr) m base coff fe rem)
               (match lrep (Z.to_nat count) 0
                        (fun i rem => eafter (fe i (if first && (i =? 0) then rem else rem - 1)) (EOk []))
                        (fun i rem => fl i (if first && (i =? 0) then rem else rem - 1)) rem R with
                | Some R => Some ((base + coff) :: R)
                | None => None
                end) (nx r run_mode)
           else None)
        (fun _ => None)
  | DFixed b value r =>
      lcontrol md rem R (nx r)
        (fun _ => if (0 <=? b) && (b <=? 32) && (0 <=? value) && (value <? 2 ^ b) then nx r run_mode (rem - b) R else None)
        (fun _ => None)
  | DUintLH _ _ _ r | DExist _ _ _ r | DVarBmp _ _ _ _ _ _ r | DVarArr _ _ _ _ r | DRecArr _ _ _ _ r
  | DCallback _ _ _ _ r | DTrap _ r => lcontrol md rem R (nx r) (fun _ => None) (fun _ => None)
  end.
End Live.
