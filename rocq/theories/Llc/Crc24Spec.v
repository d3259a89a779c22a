(** Specification of the TS 44.064 5.5 frame check sequence, independent of the table.

    Polynomials over GF(2) are non-negative integers: bit i is the coefficient of x^i. *)
From Verif.Lib Require Import Base.

(** G(x) = x^24 + x^23 + x^21 + x^20 + x^19 + x^17 + x^16 + x^15 + x^13 + x^8 + x^7 + x^5 + x^4 + x^2 + 1
    (TS 44.064 section 5.5). *)
Definition G_exponents : list Z := [24; 23; 21; 20; 19; 17; 16; 15; 13; 8; 7; 5; 4; 2; 0].
Definition G : Z := fold_right (fun e a => 2 ^ e + a) 0 G_exponents.

(** Product of polynomials over GF(2): [clmul q g] with [q] given by its bits, most significant first. *)
Fixpoint clmul_bits (q : list bool) (g acc : Z) : Z :=
  match q with
  | [] => acc
  | b :: q' => clmul_bits q' g (Z.lxor (2 * acc) (if b then g else 0))
  end.
Definition clmul (q : list bool) (g : Z) : Z := clmul_bits q g 0.

(** Bits of an octet in transmission order (least significant bit first, TS 44.064 5.4), and of a
    string; the first transmitted bit is the coefficient of the highest power. *)
Definition octet_bits (b : Z) : list bool := map (fun i => Z.testbit b (Z.of_nat i)) (seq 0 8).
Definition string_bits (l : list Z) : list bool := flat_map octet_bits l.
Definition poly_of_bits (l : list bool) : Z := fold_left (fun a b => 2 * a + b2z b) l 0.

(** A 24-bit register whose bit i stands for x^(23-i), read as a polynomial. *)
Definition rev24 (r : Z) : Z :=
  poly_of_bits (map (fun i => Z.testbit r (Z.of_nat i)) (seq 0 24)).

(** [r] is the remainder of  p  modulo G. *)
Definition is_remainder (p r : Z) : Prop :=
  0 <= r < 2 ^ 24 /\ exists q, p = Z.lxor (clmul q G) r.

(** An octet string as one number, first octet least significant: bit 8*i+j is bit j of octet i,
    i.e. the bits in transmission order. *)
Fixpoint le_word (l : list Z) : Z :=
  match l with [] => 0 | b :: r => b + 256 * le_word r end.

(** The two strings differ, and all differing bits lie within [w] consecutive transmitted bits. *)
Definition differ_by_burst (w : Z) (m1 m2 : list Z) : Prop :=
  exists k e, 0 <= k /\ 0 < e < 2 ^ w /\ Z.lxor (le_word m1) (le_word m2) = e * 2 ^ k.
