(** TS 44.064 Table 6: which value each XID parameter may take. *)
From Verif.Lib Require Import Base.
From Verif.Llc Require Import XidModel.

(** Permitted values by parameter type number. *)
Inductive permitted : Z -> Z -> Prop :=
| P_version v : 0 <= v <= 15 -> permitted 0 v
| P_iov_ui v : 0 <= v < 2 ^ 32 -> permitted 1 v
| P_iov_i v : 0 <= v < 2 ^ 32 -> permitted 2 v
| P_t200 v : 0 <= v <= 4095 -> permitted 3 v
| P_n200 v : 1 <= v <= 15 -> permitted 4 v
| P_n201_u v : 140 <= v <= 1520 -> permitted 5 v
| P_n201_i v : 140 <= v <= 1520 -> permitted 6 v
| P_md v : v = 0 \/ 9 <= v <= 24320 -> permitted 7 v
| P_mu v : v = 0 \/ 9 <= v <= 24320 -> permitted 8 v
| P_kd v : 1 <= v <= 255 -> permitted 9 v
| P_ku v : 1 <= v <= 255 -> permitted 10 v
| P_reset : permitted 12 0
| P_iiov v : 0 <= v < 2 ^ 32 -> permitted 13 v
| P_iiov_cnt v : 1 <= v <= 255 -> permitted 14 v
| P_mac_iov v : 0 <= v < 2 ^ 32 -> permitted 15 v.

(** A valid field: either the layer-3 parameters (type 11) with at most 255 octets and no number, or a
    number in the permitted range. *)
Definition valid_field (f : xfield) : Prop :=
  (x_type f = 11 /\ x_val f = 0 /\ bytes (x_var f) /\ zlen (x_var f) <= 255) \/
  (permitted (x_type f) (x_val f) /\ x_var f = []).

(** Octets of the value of a parameter on the wire, TS 44.064 Table 6. *)
Definition value_octets (f : xfield) : Z :=
  if x_type f =? 11 then zlen (x_var f)
  else if x_type f =? 12 then 0
  else if existsb (Z.eqb (x_type f)) [1; 2; 13; 15] then 4
  else if existsb (Z.eqb (x_type f)) [3; 5; 6; 7; 8] then 2 else 1.

(** Octets of a whole parameter: one header octet, a second one when the value has four octets or more. *)
Definition wire_octets (f : xfield) : Z :=
  1 + (if 4 <=? value_octets f then 1 else 0) + value_octets f.
Definition wire_size (fs : list xfield) : Z := fold_right (fun f a => wire_octets f + a) 0 fs.
