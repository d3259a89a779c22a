(** What TS 44.060 says about the descriptions of UTRAN neighbour cells (11.2.9b). *)
From Coq Require Import ZArith List.
Import ListNotations.
Open Scope Z_scope.

(** Table 11.2.9b.2.a: the bits of the FDD cell information for a number of cells; none from 17 on. *)
Definition fdd_bits (n : Z) : Z :=
  nth (Z.to_nat n) [0; 10; 19; 28; 36; 44; 52; 60; 67; 74; 81; 88; 95; 102; 109; 116; 122] 0.
(** Table 11.2.9b.2.b: the bits of the TDD cell information; none from 21 on. *)
Definition tdd_bits (n : Z) : Z :=
  nth (Z.to_nat n) [0; 9; 17; 25; 32; 39; 46; 53; 59; 65; 71; 77; 83; 89; 95; 101; 106; 111; 116; 121; 126] 0.
(** Before the cell information: a bit 0, UARFCN (14), Indic0 (1), the number of cells (5). *)
Definition head_bits : Z := 21.
