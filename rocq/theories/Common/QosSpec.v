(** TS 24.008 10.5.6.5: what the octets of a quality of service profile mean.  Written from the
    specification, not from the code.  Offsets count from octet 3 of the information element. *)
From Verif.Lib Require Import Base.

(** Bit rates in kbit/s, tables of octets 8, 9, 12, 13 ([b]), 15 to 18 ([x], "extended") and 19 to 22 ([y],
    "extended-2").  [None]: no rate is given (0 asks for the subscribed rate; reserved values).  The
    value 11111110 points to the extended octet and, there, 11111010 to the extended-2 octet. *)
Definition rate_means (b : Z) (x y : option Z) : option Z :=
  if b =? 0 then None
  else if b <=? 63 then Some b
  else if b <=? 127 then Some (64 + (b - 64) * 8)
  else if b <=? 253 then Some (576 + (b - 128) * 64)
  else if b =? 255 then Some 0
  else match x with
  | None => Some 8640
  | Some x =>
    if x =? 0 then Some 8640
    else if x <=? 74 then Some (8600 + x * 100)
    else if x <=? 186 then Some ((16 + (x - 74)) * 1000)
    else if x <=? 249 then Some ((128 + (x - 186) * 2) * 1000)
    else if x =? 250 then
      match y with
      | None => Some (256 * 1000)
      | Some y =>
        if y =? 0 then Some (256 * 1000)
        else if y <=? 61 then Some ((256 + y * 4) * 1000)
        else if y <=? 161 then Some ((500 + (y - 61) * 10) * 1000)
        else if y <=? 246 then Some ((1500 + (y - 161) * 100) * 1000)
        else None
      end
    else None
  end.

(** Transfer delay in ms (6 bits, octet 11); 0 and 63 are reserved. *)
Definition delay_means (d : Z) : option Z :=
  if (d =? 0) || (d =? 63) then None
  else if d <=? 15 then Some (d * 10)
  else if d <=? 31 then Some (200 + (d - 16) * 50)
  else Some (1000 + (d - 32) * 100).

(** The largest rate the coding has that does not exceed [r]. *)
Definition best_rate (r v : Z) : Prop :=
  v <= r /\ (exists b x y, byte b /\ byte x /\ byte y /\ rate_means b (Some x) (Some y) = Some v) /\
  (forall b x y v', byte b -> byte x -> byte y -> rate_means b (Some x) (Some y) = Some v' -> v' <= r -> v' <= v).
Definition best_delay (r v : Z) : Prop :=
  v <= r /\ (exists d, 0 <= d < 64 /\ delay_means d = Some v) /\
  (forall d v', 0 <= d < 64 -> delay_means d = Some v' -> v' <= r -> v' <= v).

(** The four rates of a profile. *)
Inductive which := MaxDl | MaxUl | GuarDl | GuarUl.

(** Octet [o] of a profile, if the profile is long enough to have it. *)
Definition oct (l : list Z) (o : Z) : option Z := nth_error l (Z.to_nat o).

(** Figure 10.5.138: octets 8, 9, 12, 13; octet 15 maximum downlink (extended), 16 guaranteed downlink,
    17 maximum uplink, 18 guaranteed uplink, 19 to 22 the same for extended-2. *)
Definition ts_offsets (w : which) : Z * Z * Z :=
  match w with
  | MaxUl => (5, 14, 18) | MaxDl => (6, 12, 16) | GuarUl => (9, 15, 19) | GuarDl => (10, 13, 17) end.
(** The order of this library (sm_qos.h:13-18): uplink first in the extended octets. *)
Definition lib_offsets (w : which) : Z * Z * Z :=
  match w with
  | MaxUl => (5, 12, 16) | MaxDl => (6, 14, 18) | GuarUl => (9, 13, 17) | GuarDl => (10, 15, 19) end.

Definition rate_at (offs : which -> Z * Z * Z) (w : which) (l : list Z) : option Z :=
  let '(o, o1, o2) := offs w in
  match oct l o with Some b => rate_means b (oct l o1) (oct l o2) | None => None end.
Definition delay_at (l : list Z) : option Z :=
  match oct l 8 with Some b => delay_means (b / 4) | None => None end.
