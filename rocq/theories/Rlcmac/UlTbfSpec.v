(** What C27 says about an uplink TBF, in terms of the events, the outputs and the visible state of the TBF. *)
From Verif.Lib Require Import Base Outcome.
From Verif.Rlcmac Require Import UlTbfModel.

(** Counting what a TBF did. *)
Fixpoint count (f : out -> bool) (o : list out) : Z :=
  match o with [] => 0 | x :: r => (if f x then 1 else 0) + count f r end.
Definition is_rach (x : out) : bool := match x with Rach _ => true | _ => false end.
Definition is_resreq (x : out) : bool := match x with ResReq => true | _ => false end.
Definition is_n3104 (x : out) : bool := match x with N3104Max => true | _ => false end.
Definition is_access_timeout (x : out) : bool := match x with Expired t => (t =? 3164) || (t =? 3166) | _ => false end.
Definition is_t3168 (x : out) : bool := match x with Expired t => t =? 3168 | _ => false end.
Definition is_freed (x : out) : bool := match x with Freed => true | _ => false end.

(** Events that end the process. *)
Definition abort_cause (bs_cv_max : Z) (s : tbf) (e : event) : Prop :=
  match e with
  (* an acknowledgement before the first data block of a one-phase access, or one that changes the coding scheme
     during the countdown when no timeslot is assigned *)
  | UlAck tn tfi poll final est cc => tfi = ul_tfi (cur s) /\
      ((u s = FLOW /\ two s = false /\ n3104 s = 0) \/ (countdown s = true /\ num_ts (cur s) <= 0 /\ tx_cs s <> cc + 1))
  (* the starting time of an assignment without timeslots is awaited *)
  | Tick tn fn => a s = STARTING_TIME2 /\ num_ts (p2 s) <= 0
  (* the lower layer refuses the channel request that follows the N3104 limit *)
  | DataRts tn usf final cd rach => rach = false /\ slot (cur s) tn = Some usf /\ (u s = FLOW \/ u s = FINISHED) /\
      two s = false /\ (n3104 s = 0 \/ (pend s = true /\ T s = 3166)) /\ n3104_max bs_cv_max s <= n3104 s + 1
  | _ => False
  end.

(** Possible changes of state. *)
Definition u_next (x y : ust) : Prop :=
  match x, y with
  | WAIT_ASSIGN, (WAIT_ASSIGN | FLOW) | FLOW, (FLOW | FINISHED | WAIT_ASSIGN)
  | FINISHED, (FINISHED | RELEASING | WAIT_ASSIGN) | RELEASING, RELEASING => True
  | _, _ => False
  end.
Definition a_next (x y : ast) : Prop :=
  match x, y with
  | IDLE, (IDLE | WAIT_CCCH_IMM_ASS) | WAIT_CCCH_IMM_ASS, (WAIT_CCCH_IMM_ASS | STARTING_TIME1 | SCHED_PKT_RES_REQ | IDLE)
  | STARTING_TIME1, (STARTING_TIME1 | SCHED_PKT_RES_REQ | IDLE) | SCHED_PKT_RES_REQ, (SCHED_PKT_RES_REQ | WAIT_PKT_UL_ASS)
  | WAIT_PKT_UL_ASS, (WAIT_PKT_UL_ASS | SCHED_PKT_RES_REQ | STARTING_TIME2 | IDLE)
  | STARTING_TIME2, (STARTING_TIME2 | IDLE) => True
  | _, _ => False
  end.

(** Messages from the network; everything else is time passing, polls of the scheduler and timers. *)
Definition from_network (e : event) : bool :=
  match e with ImmAss _ _ _ | PktUlAss _ _ _ _ | UlAck _ _ _ _ _ _ => true | _ => false end.
(** A timer of the TBF runs. *)
Definition supervised (s : tbf) : Prop := pend s = true \/ t3168 s = true \/ t3180 s = true.
