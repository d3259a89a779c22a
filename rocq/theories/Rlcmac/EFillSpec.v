(** Uplink data blocks in EGPRS as 3GPP TS 44.060 10.3a.2, 10.4.14a and table 10.4.14a.1 have them. *)
From Verif.Lib Require Import Base.

(** The octets of length indicators at the start of a block: seven bits of length and the bit E, which is 1 in the last. *)
Fixpoint indicators (d : list Z) : list Z * list Z :=
  match d with
  | [] => ([], [])
  | o :: r => if Z.odd o then ([o / 2], r) else let '(l, x) := indicators r in (o / 2 :: l, x)
  end.
(** Cutting what follows: each length gives one unit, 127 at the end says that the rest is filling, else the rest is a unit. *)
Fixpoint cut (l : list Z) (d : list Z) : list (list Z) :=
  match l with
  | [] => match d with [] => [] | _ => [d] end
  | [127] => []
  | n :: r => firstn (Z.to_nat n) d :: cut r (skipn (Z.to_nat n) d)
  end.
(** What the network makes of the octets [d] of a block whose header has the bit E. *)
Definition units (e : Z) (d : list Z) : list (list Z) := if e =? 1 then [d] else let '(l, x) := indicators d in cut l x.
(** The TLLI in EGPRS: least significant octet first (figure 10.3a.2.1, note 2). *)
Definition tlli_le (t : Z) : list Z := [t mod 256; t / 2 ^ 8 mod 256; t / 2 ^ 16 mod 256; t / 2 ^ 24 mod 256].
