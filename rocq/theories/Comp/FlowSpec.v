(** N-PDUs over both compressions, in both directions. *)
From Verif.Lib Require Import Base Outcome.
From Verif.Comp Require Import SlhcModel XidModel NegModel V42Model DataModel.

(** The two tables of one end: header compression and data compression. *)
Definition tabs : Type := list ent * list ent.
(** An N-PDU of NSAPI [n] sent from [X] to [Y]: the tables, the octets of the SN-PDU and the N-PDU handed up. *)
Definition pass (X Y : tabs) (n : Z) (p : list Z) : res (tabs * tabs * (list Z * list Z)) :=
  do r <- squeeze (fst X) (snd X) p n;
  let '(P, o, pcomp, dcomp) := r in
  do r <- segment (fst Y) (snd Y) o pcomp dcomp;
  let (Q, q) := (r : list ent * list Z) in Ok ((P, snd X), (Q, snd Y), (o, q)).
(** N-PDUs in turns: with [true] from [A] to [B], with [false] from [B] to [A]. *)
Fixpoint talk (A B : tabs) (n : Z) (ps : list (bool * list Z)) : res (tabs * tabs * list (list Z * list Z)) :=
  match ps with
  | [] => Ok (A, B, [])
  | (true, p) :: r =>
    do x <- pass A B n p; let '(A, B, o) := x in
    do y <- talk A B n r; let '(A, B, os) := y in Ok (A, B, o :: os)
  | (false, p) :: r =>
    do x <- pass B A n p; let '(B, A, o) := x in
    do y <- talk A B n r; let '(A, B, os) := y in Ok (A, B, o :: os)
  end.
(** The N-PDUs of one direction. *)
Definition from (d : bool) (ps : list (bool * list Z)) : list (list Z) := map snd (filter (fun x => Bool.eqb (fst x) d) ps).
(** In such a conversation the octets sent are at least a tenth of the N-PDU, but for 64. *)
Fixpoint moderate (A B : tabs) (n : Z) (ps : list (bool * list Z)) : Prop :=
  match ps with
  | [] => True
  | (d, p) :: r =>
    let X := if d : bool then A else B in let Y := if d then B else A in
    (forall P o pcomp dcomp, squeeze (fst X) (snd X) p n = Ok (P, o, pcomp, dcomp) -> zlen p <= 10 * zlen o + 64) /\
    (forall X' Y' o, pass X Y n p = Ok (X', Y', o) -> moderate (if d then X' else Y') (if d then Y' else X') n r)
  end.
