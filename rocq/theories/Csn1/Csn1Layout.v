(** How 3GPP writes the contents of a message down (24.007, CSN.1): a sequence of fields.  Nothing here models repository
    code. *)
From Coq Require Import ZArith List Bool.
From Verif Require Import Lib.Base.
Import ListNotations.
Open Scope Z_scope.

(** A field: a number of [n] bits, most significant bit first; an L or H bit, whose value is the one the filler octet 0x2b has
    at its position (L) or the opposite one (H); bits that nothing is said about. *)
Inductive item := U (n : nat) (v : Z) | F (h : bool) | Any (l : list bool).
Definition width_of (i : item) : Z := match i with U n _ => Z.of_nat n | F _ => 1 | Any l => zlen l end.
Fixpoint size (l : list item) : Z := match l with [] => 0 | i :: r => width_of i + size r end.
Definition number (v : Z) (n : nat) : list bool := map (fun k => Z.testbit v (Z.of_nat (n - 1 - k))) (seq 0 n).
Definition filler_bit (p : Z) : bool := Z.testbit 0x2b (7 - p mod 8).
(** The bits of a sequence of fields that begins at bit [p] of the message. *)
Fixpoint lay (p : Z) (l : list item) : list bool :=
  match l with
  | [] => []
  | U n v :: r => number v n ++ lay (p + Z.of_nat n) r
  | F h :: r => xorb h (filler_bit p) :: lay (p + 1) r
  | Any b :: r => b ++ lay (p + zlen b) r
  end.
(** Spare padding: L bits. *)
Definition spare (n : nat) : list item := repeat (F false) n.
(** An optional field: a bit that tells whether it is there, and the field. *)
Definition opt {A} (f : A -> list item) (o : option A) : list item :=
  match o with None => [U 1 0] | Some a => U 1 1 :: f a end.
Definition opt_lh {A} (f : A -> list item) (o : option A) : list item :=
  match o with None => [F false] | Some a => F true :: f a end.

(** The octets of a message carry these fields from octet [o] on. *)
Definition bit_at (l : list Z) (i : nat) : bool := Z.testbit (nth (i / 8) l 0) (Z.of_nat (7 - i mod 8)).
Definition carried (msg : list Z) (o : nat) (l : list item) : Prop :=
  map (fun i => bit_at (skipn o msg) i) (seq 0 (8 * (length msg - o))) = lay 0 l.
