(** What C46 says about polls: what a message asks for, and when a reservation may go. *)
From Verif.Lib Require Import Base Outcome.
From Verif.Rlcmac Require Import FnModel UlcModel UlTbfModel UlTbfSpec SchedModel SchedSpec SchedDlSpec.

(** TBF number [j] is there. *)
Definition tbf_there (s : sys) (j : Z) : Prop := (exists b, hasU s j b) \/ exists d, hasD s d /\ d_id d = j.

(** The message [e] polls: the block that [poll_of e] names is to be reserved for reason [r] (pdch_ul_controller.h:34-40)
    and for TBF or entity [w].  A TFI names one TBF. *)
Inductive asks (s : sys) : sevent -> Z -> Z -> Prop :=
  | asks_ul_ass i j b tn fn pf m : uplink s i j b -> a b = WAIT_PKT_UL_ASS \/ a b = STARTING_TIME2 -> asks s (UlPktAss i tn fn (Some pf) m) 0 j
  | asks_dl_ass i t w tn fn pf tfi st sl ack : entity s i t w -> asks s (DlPktAss i tn fn (Some pf) tfi st sl ack) 1 i
  | asks_ul_ack i j b tn tfi pf final est cc : uplink s i j b -> ul_tfi (cur b) = tfi -> u b = FLOW \/ u b = FINISHED ->
      (forall i' j' b', uplink s i' j' b' -> ul_tfi (cur b') = tfi -> j' = j) -> asks s (UlAckNack tn tfi (Some pf) final est cc) 2 j
  | asks_dl_ack i d w tn tfi last pf : entity s i (Some d) w -> d_tfi d = tfi ->
      (forall i' d' w', entity s i' (Some d') w' -> d_tfi d' = tfi -> d_id d' = d_id d) -> asks s (DlData tn tfi last (Some pf)) 3 (d_id d).

(** The frame of the reservation is over: a ready-to-send indication for it or for a later frame. *)
Definition passed (e : sevent) (ts : Z) (n : node) : Prop :=
  exists fn usf enc data, e = Rts ts fn usf enc data /\ fncmp (n_fn n) fn <= 0.
(** Timeslot numbers of indications. *)
Definition slot_ok (e : sevent) : Prop := match e with Rts ts _ _ _ _ => 0 <= ts < 8 | _ => True end.
