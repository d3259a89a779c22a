(** The elements of an MS RA capability value part (TS 24.008, 10.5.5.12a; what C128 refers to).  Nothing here models repository code. *)
From Coq Require Import ZArith List.
Import ListNotations.
Open Scope Z_scope.

(** A number of [n] bits at bit [p], most significant bit first. *)
Fixpoint number (bits : Z -> bool) (p : Z) (n : nat) : Z :=
  match n with O => 0 | S n => (if bits p then 2 ^ Z.of_nat n else 0) + number bits (p + 1) n end.
(** The elements that begin at bit [p]: access technology type (4 bits), length (7 bits), so many bits of contents, and a bit that says
    whether another element follows.  The value part ends at bit [q]. *)
Inductive elements (bits : Z -> bool) : Z -> list (Z * Z) -> Z -> Prop :=
| el_last p n : n = number bits (p + 4) 7 -> bits (p + 11 + n) = false ->
    elements bits p [(number bits p 4, n)] (p + 12 + n)
| el_more p n l q : n = number bits (p + 4) 7 -> bits (p + 11 + n) = true -> elements bits (p + 12 + n) l q ->
    elements bits p ((number bits p 4, n) :: l) q.
(** The number by which the structure names an access technology type: 0 to 13, and 14 for type 1111. *)
Definition index_of (tech : Z) : Z := if tech =? 15 then 14 else tech.
