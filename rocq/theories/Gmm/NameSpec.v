(** Network names as TS 24.008, 10.5.3.5a, and TS 23.038 code them (what C129 refers to).  Nothing here models repository code. *)
From Coq Require Import ZArith List.
Import ListNotations.
Open Scope Z_scope.

(** Characters of seven bits in a row, the first in the lowest bits of the first octet. *)
Fixpoint seven (cs : list Z) : Z := match cs with [] => 0 | c :: r => c + 128 * seven r end.
Fixpoint octets_of (k : nat) (v : Z) : list Z := match k with O => [] | S k => v mod 256 :: octets_of k (v / 256) end.
(** The fewest octets that hold [n] characters, and the bits of the last one that are spare. *)
Definition octet_count (n : Z) : Z := (7 * n + 7) / 8.
Definition spare_bits (n : Z) : Z := 8 * octet_count n - 7 * n.
(** The value of the element: extension bit, coding scheme 000, whether the initials of the country are to be added, the spare bits, the text. *)
Definition name_value (ci : bool) (cs : list Z) : list Z :=
  (128 + (if ci then 8 else 0) + spare_bits (Z.of_nat (length cs))) ::
  octets_of (Z.to_nat (octet_count (Z.of_nat (length cs)))) (seven cs).
