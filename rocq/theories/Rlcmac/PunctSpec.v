(** Which puncturing scheme a repeated EGPRS data block is sent with: 3GPP TS 44.060 9.3.2.1 and table 9.3.2.1.1. *)
From Verif.Lib Require Import Base.
From Verif.Rlcmac Require Import AirEdgeSpec.

(** The scheme (1 = P1, ...) of a transmission in MCS-[to] right after one in MCS-[from] with scheme [p]: the next one in turn when the MCS is
    the same; else the table "PS of last transmission before MCS switch / PS of first transmission after MCS switch". *)
Definition after (from to p : Z) : Z :=
  if from =? to then p mod schemes from + 1
  else if (from =? 9) && (to =? 6) then (if p =? 2 then 2 else 1)
  else if (from =? 6) && (to =? 9) then (if p =? 2 then 2 else 3)
  else if (from =? 5) && (to =? 7) then 2
  else 1.
(** What the network makes of a message [m] with CPS [c]: the length tells the MCS, CPS the rest. *)
Definition told (m : list Z) (c : Z) (r : cps_row) : Prop := In r cps_table /\ r_cps r = c /\ zlen m = message (r_mcs r) (r_pad r).
