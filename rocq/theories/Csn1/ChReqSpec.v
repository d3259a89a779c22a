(** The EGPRS Packet Channel Request of TS 44.060, table 11.2.5a.2 (what C126 refers to).  Nothing here models repository code. *)
From Coq Require Import ZArith List.
Import ListNotations.
Open Scope Z_scope.

Inductive request :=
| OnePhase (mclass prio rnd : Z)        (* 0 mmmmm pp rrr *)
| ShortAccess (blocks prio rnd : Z)     (* 100 bbb pp rrr *)
| OnePhaseRed (group prio rnd : Z)      (* 101 ggg pp rrr *)
| TwoPhase (prio rnd : Z)               (* 110000 pp rrr *)
| Signalling (rnd : Z)                  (* 110011 rrrrr *)
| OnePhaseUnack (rnd : Z)               (* 110101 rrrrr *)
| Dedicated (rnd : Z)                   (* 110110 rrrrr *)
| Emergency (rnd : Z)                   (* 110111 rrrrr *)
| TwoPhaseIpa (prio rnd : Z)            (* 111000 pp rrr *)
| SignallingIpa (rnd : Z).              (* 111001 rrrrr *)

(** The fields fit. *)
Definition fits (n v : Z) : Prop := 0 <= v < 2 ^ n.
Definition valid (r : request) : Prop :=
  match r with
  | OnePhase a p b => fits 5 a /\ fits 2 p /\ fits 3 b
  | ShortAccess a p b | OnePhaseRed a p b => fits 3 a /\ fits 2 p /\ fits 3 b
  | TwoPhase p b | TwoPhaseIpa p b => fits 2 p /\ fits 3 b
  | Signalling b | OnePhaseUnack b | Dedicated b | Emergency b | SignallingIpa b => fits 5 b
  end.
(** The eleven bits as a number. *)
Definition code (r : request) : Z :=
  match r with
  | OnePhase a p b => 32 * a + 8 * p + b
  | ShortAccess a p b => 4 * 256 + 32 * a + 8 * p + b
  | OnePhaseRed a p b => 5 * 256 + 32 * a + 8 * p + b
  | TwoPhase p b => 0x30 * 32 + 8 * p + b
  | Signalling b => 0x33 * 32 + b
  | OnePhaseUnack b => 0x35 * 32 + b
  | Dedicated b => 0x36 * 32 + b
  | Emergency b => 0x37 * 32 + b
  | TwoPhaseIpa p b => 0x38 * 32 + 8 * p + b
  | SignallingIpa b => 0x39 * 32 + b
  end.
(** What the caller finds: octet 0 the kind; 1 the multislot class group, 2 the multislot class, 3 the number of blocks, 4 the
    priority, 5 the random bits, as far as the kind has them. *)
Definition written (r : request) : list (Z * Z) :=
  match r with
  | OnePhase a p b => [(0, 0); (2, a); (4, p); (5, b)]
  | ShortAccess a p b => [(0, 1); (3, a); (4, p); (5, b)]
  | OnePhaseRed a p b => [(0, 2); (1, a); (4, p); (5, b)]
  | TwoPhase p b => [(0, 3); (4, p); (5, b)]
  | Signalling b => [(0, 4); (5, b)]
  | OnePhaseUnack b => [(0, 5); (5, b)]
  | Dedicated b => [(0, 6); (5, b)]
  | Emergency b => [(0, 7); (5, b)]
  | TwoPhaseIpa p b => [(0, 8); (4, p); (5, b)]
  | SignallingIpa b => [(0, 9); (5, b)]
  end.
Definition holds (m m' : Z -> Z) (w : list (Z * Z)) : Prop :=
  (forall a v, In (a, v) w -> m' a = v) /\ (forall a, ~ In a (map fst w) -> m' a = m a).
