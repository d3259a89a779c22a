(** Model of the control part of an uplink TBF: src/rlcmac/tbf_ul_fsm.c, src/rlcmac/tbf_ul_ass_fsm.c and the parts
    of src/rlcmac/tbf_ul.c that drive them.  One TBF from the start of its assignment until it is freed.  The RLC
    blocks themselves are modelled elsewhere (UlTxModel, RlcDataModel, CountdownModel); here a data block is the event
    that one was built, with the two facts about it that the state machines see.  The state machine engine is osmo_fsm
    of libosmocore (outside the repository): an event that is not in the mask of the state is refused and changes
    nothing, a state change stops the timer of the machine unless the timeout table says keep_timer, and the timer of
    the table is started on entry.  [UB] is a failed OSMO_ASSERT (the process aborts) or a use of freed memory. *)
From Verif.Lib Require Import Base Outcome.
From Verif.Rlcmac Require Import FnModel UlcModel.

(** tbf_ul_fsm.h:12-18, tbf_ul_ass_fsm.h:20-28 (COMPL is left before the transition into it ends). *)
Inductive ust := NEW | WAIT_ASSIGN | FLOW | FINISHED | RELEASING.
Inductive ast := IDLE | WAIT_CCCH_IMM_ASS | STARTING_TIME1 | SCHED_PKT_RES_REQ | WAIT_PKT_UL_ASS | STARTING_TIME2.

(** rlcmac_private.h:24-33 gprs_rlcmac_ul_tbf_allocation: the USF of each allocated timeslot. *)
Record alloc := mkAlloc { ul_tfi : Z; num_ts : Z; slots : list (option Z) }.
Definition no_slots : list (option Z) := [None; None; None; None; None; None; None; None].
Definition alloc0 : alloc := mkAlloc 0 0 no_slots.
Definition slot (al : alloc) (tn : Z) : option Z := nth (Z.to_nat tn) (slots al) None.
Definition one_slot (tn usf : Z) : list (option Z) :=
  firstn (Z.to_nat tn) no_slots ++ Some usf :: skipn (S (Z.to_nat tn)) no_slots.
Fixpoint count_slots (l : list (option Z)) : Z :=
  match l with [] => 0 | None :: r => count_slots r | Some _ :: r => 1 + count_slots r end.

(** tbf_ul.h:18-53, tbf_ul_fsm.h:20-41, tbf_ul_ass_fsm.h:30-46.  [T], [pend]: timer number and whether the timer of
    the main machine runs; [t3168]: the timer of the assignment machine runs; [t3180]: T3180 runs.  [two]: assignment
    type 2PHASE.  [from_dl]: dl_tbf is set.  Simplification: the counters are integers. *)
Record tbf := mkTbf {
  u : ust; T : Z; pend : bool; acc_att : Z; retrans : Z; tbf_est : bool; ack_fn : Z; ack_tn : Z;
  n3104 : Z; cur : alloc; t3180 : bool; countdown : bool; tx_cs : Z;
  a : ast; two : bool; from_dl : bool; p1 : alloc; p2 : alloc; start_ex : bool; start_fn : Z; sba : bool; t3168 : bool; res_att : Z }.

(** What the TBF does to the outside.  [Rach ra]: L1CTL-RACH.req; [Configure]: L1CTL-CFG_UL_TBF.req; [PdchRel]:
    L1CTL-PDCH_REL.req; [Reserve]: reservation of an uplink block for a poll answer (reasons of
    pdch_ul_controller.h:24-30); [ResReq], [CtrlAck], [Data], [Dummy]: a block handed to the scheduler; [N3104Max]: the
    N3104 limit was reached (logged); [Expired]: a timer ran out (logged); [Freed]: the entity is told that the TBF is gone. *)
Inductive out :=
  | Rach (ra : Z) | Configure (al : alloc) (start : option Z) | PdchRel | Reserve (tn fn reason : Z)
  | ResReq | CtrlAck | Data (final : bool) | Dummy | N3104Max
  | Expired (t : Z) | Freed.
Definition POLL_UL_ASS : Z := 0.
Definition POLL_UL_ACK : Z := 2.

(** The changes of the record, one per group of fields. *)
Definition set_u (s : tbf) (v : ust) (t : Z) (p : bool) : tbf :=
  mkTbf v t p (acc_att s) (retrans s) (tbf_est s) (ack_fn s) (ack_tn s) (n3104 s) (cur s) (t3180 s) (countdown s) (tx_cs s)
        (a s) (two s) (from_dl s) (p1 s) (p2 s) (start_ex s) (start_fn s) (sba s) (t3168 s) (res_att s).
Definition set_final (s : tbf) (est : bool) (fn tn : Z) : tbf :=
  mkTbf (u s) (T s) (pend s) (acc_att s) (retrans s) est fn tn (n3104 s) (cur s) (t3180 s) (countdown s) (tx_cs s)
        (a s) (two s) (from_dl s) (p1 s) (p2 s) (start_ex s) (start_fn s) (sba s) (t3168 s) (res_att s).
Definition set_counts (s : tbf) (att re n att2 : Z) : tbf :=
  mkTbf (u s) (T s) (pend s) att re (tbf_est s) (ack_fn s) (ack_tn s) n (cur s) (t3180 s) (countdown s) (tx_cs s)
        (a s) (two s) (from_dl s) (p1 s) (p2 s) (start_ex s) (start_fn s) (sba s) (t3168 s) att2.
Definition set_cur (s : tbf) (al : alloc) : tbf :=
  mkTbf (u s) (T s) (pend s) (acc_att s) (retrans s) (tbf_est s) (ack_fn s) (ack_tn s) (n3104 s) al (t3180 s) (countdown s) (tx_cs s)
        (a s) (two s) (from_dl s) (p1 s) (p2 s) (start_ex s) (start_fn s) (sba s) (t3168 s) (res_att s).
Definition set_tx (s : tbf) (t : bool) (cd : bool) (cs : Z) : tbf :=
  mkTbf (u s) (T s) (pend s) (acc_att s) (retrans s) (tbf_est s) (ack_fn s) (ack_tn s) (n3104 s) (cur s) t cd cs
        (a s) (two s) (from_dl s) (p1 s) (p2 s) (start_ex s) (start_fn s) (sba s) (t3168 s) (res_att s).
Definition set_a (s : tbf) (v : ast) (t : bool) : tbf :=
  mkTbf (u s) (T s) (pend s) (acc_att s) (retrans s) (tbf_est s) (ack_fn s) (ack_tn s) (n3104 s) (cur s) (t3180 s) (countdown s) (tx_cs s)
        v (two s) (from_dl s) (p1 s) (p2 s) (start_ex s) (start_fn s) (sba s) t (res_att s).
Definition set_ass (s : tbf) (tw dl : bool) (q1 q2 : alloc) (ex : bool) (fn : Z) (sb : bool) : tbf :=
  mkTbf (u s) (T s) (pend s) (acc_att s) (retrans s) (tbf_est s) (ack_fn s) (ack_tn s) (n3104 s) (cur s) (t3180 s) (countdown s) (tx_cs s)
        (a s) tw dl q1 q2 ex fn sb (t3168 s) (res_att s).

(** tbf_ul_fsm.c:48-63: osmo_tdef_fsm_inst_state_chg with the table of the main machine. *)
Definition u_chg (s : tbf) (v : ust) : tbf :=
  match v with FLOW => set_u s v 3164 true | FINISHED => set_u s v (T s) (pend s) | _ => set_u s v 0 false end.
(** tbf_ul_ass_fsm.c:54-71: the same for the assignment machine. *)
Definition a_chg (s : tbf) (v : ast) : tbf := set_a s v (match v with WAIT_PKT_UL_ASS => true | _ => false end).

(** Results: the TBF is there or has been freed, and what was done. *)
Definition result := res (option tbf * list out).
Definition alive (s : tbf) (o : list out) : result := Ok (Some s, o).
(** tbf_ul.c:74-109 [gprs_rlcmac_ul_tbf_free]. *)
Definition freed (o : list out) : result := Ok (None, o ++ [Freed]).

(** tbf_ul.c:158-181 [gprs_rlcmac_ul_tbf_in_contention_resolution]. *)
Definition in_contention (s : tbf) : bool :=
  match u s with
  | NEW | WAIT_ASSIGN => true
  | FLOW | FINISHED => if two s then false else (n3104 s =? 0) || (pend s && ((T s =? 3164) || (T s =? 3166)))
  | RELEASING => false
  end.

(** tbf_ul.c:665-671 [countdown_proc_update_cv] as far as it can fail: 484 asserts that a timeslot is assigned.
    The value itself is modelled in CountdownModel. *)
Definition update_cv (s : tbf) : res unit := if countdown s && negb (0 <? num_ts (cur s)) then UB else Ok tt.
(** tbf_ul.c:289-305 [update_tx_cs]. *)
Definition update_tx_cs (s : tbf) (cs : Z) : res tbf :=
  if tx_cs s =? cs then Ok s else
  let s := set_tx s (t3180 s) (countdown s) cs in do _ <- update_cv s; Ok s.

(** tbf_ul_ass_fsm.c:672-679 [ass_start], 284-294 (state IDLE), 106-127 [submit_packet_access_req] and, in the main
    machine, tbf_ul_fsm.c:155-165, 176-178.  [rach]: the lower layer accepted the request.  Refused by the machine
    (rc < 0) when an assignment runs already: None. *)
Definition ass_start (s : tbf) (tw : bool) (rach : bool) (o : list out) : option result :=
  match a s with
  | IDLE =>
      let s := match u s with NEW => u_chg s WAIT_ASSIGN | _ => s end in
      let s := set_ass s tw (from_dl s) (p1 s) (p2 s) (start_ex s) (start_fn s) (sba s) in
      let o := o ++ [Rach (if tw then 0x70 else 0x78)] in
      Some (if rach then alive (a_chg s WAIT_CCCH_IMM_ASS) o
            else match u s with WAIT_ASSIGN => freed o | _ => alive s o end)
  | _ => None
  end.

(** tbf_ul_fsm.c:84-94 [reinit_pkt_acces_procedure] with 140-153 [st_new_on_enter]. *)
Definition reinit (s : tbf) (rach : bool) (o : list out) : result :=
  let s := u_chg s NEW in
  let s := set_counts (set_cur s alloc0) (acc_att s) (retrans s) 0 (res_att s) in
  let o := o ++ [Configure alloc0 None; PdchRel] in
  match ass_start s false rach o with Some r => r | None => freed o end.

(** tbf_ul_ass_fsm.c:505-518 [st_compl_on_enter], 265-276 [st_idle_on_enter]; tbf_ul_fsm.c:171-175. *)
Definition complete (s : tbf) (o : list out) : result :=
  let s := set_cur s (if two s then p2 s else p1 s) in
  let (s, o) := match u s with WAIT_ASSIGN => (u_chg s FLOW, o ++ [Configure (cur s) None]) | _ => (s, o) end in
  let s := a_chg s IDLE in
  alive (set_ass s (two s) false alloc0 alloc0 false 0 false) o.

(** Immediate Assignments that reach the uplink machine (rlcmac.c:207-231, 300-345), by tbf_ul_ass_fsm.c:138-190.
    The starting time is the absolute frame computed by TBF_StartingTime_to_fn (C22). *)
Inductive imm_ass :=
  | IaSingleBlock (start : Z)
  | IaDynamic (tfi usf cc : Z) (start : option Z)
  | IaFixed (tfi cc : Z) (start : option Z)
  | IaEgprs.
(** tbf_ul_ass_fsm.c:129-194 [handle_imm_ass]; the bool: it succeeded. *)
Definition opt_ex (o : option Z) : bool := match o with Some _ => true | None => false end.
Definition opt_fn (o : option Z) : Z := match o with Some v => v | None => 0 end.
Definition handle_imm_ass (s : tbf) (tn : Z) (ia : imm_ass) : tbf * bool :=
  match ia with
  | IaSingleBlock start =>
      (set_ass s true (from_dl s) (mkAlloc 0 1 (one_slot tn 0)) (p2 s) true start true, true)
  | IaDynamic tfi usf cc start =>
      (set_tx (set_ass s (two s) (from_dl s) (mkAlloc tfi 1 (one_slot tn usf)) (p2 s) (opt_ex start) (opt_fn start) false)
              (t3180 s) (countdown s) (cc + 1), true)
  | IaFixed tfi cc start =>
      (set_tx (set_ass s (two s) (from_dl s) (mkAlloc tfi 0 no_slots) (p2 s) (opt_ex start) (opt_fn start) false)
              (t3180 s) (countdown s) (cc + 1), false)
  | IaEgprs => (set_ass s (two s) (from_dl s) alloc0 (p2 s) false 0 false, false)
  end.
(** tbf_ul_ass_fsm.c:310-333 [st_wait_ccch_imm_ass] with 335-343.  The message is only handed to a TBF in that state
    (rlcmac.c:223), so 351-364 is unreachable. *)
Definition rx_imm_ass (s : tbf) (tn fn : Z) (ia : imm_ass) : result :=
  match a s with
  | WAIT_CCCH_IMM_ASS =>
      let (s, ok) := handle_imm_ass s tn ia in
      if negb ok then alive s [] else
      if start_ex s && (0 <? fncmp (start_fn s) fn) then
        alive (a_chg s STARTING_TIME1) [Configure (p1 s) (Some (start_fn s))]
      else if two s then alive (a_chg s SCHED_PKT_RES_REQ) [] else complete s []
  | _ => alive s []
  end.

(** Packet Uplink Assignments by tbf_ul_ass_fsm.c:210-259; [slots8] is the presence and USF of the eight timeslots. *)
Inductive pkt_ul_ass :=
  | PuaDynamic (tfi : option Z) (cc : Z) (start : option Z) (slots8 : list (option Z))
  | PuaUnsupported (cc : option Z).
(** tbf_ul_ass_fsm.c:196-263 [handle_pkt_ul_ass]; the result is only logged. *)
Definition handle_pkt_ul_ass (s : tbf) (m : pkt_ul_ass) : tbf :=
  match m with
  | PuaDynamic tfi cc start sl =>
      set_tx (set_ass s (two s) (from_dl s) (p1 s) (mkAlloc (opt_fn tfi) (count_slots sl) sl) (opt_ex start) (opt_fn start) false)
             (t3180 s) (countdown s) (cc + 1)
  | PuaUnsupported cc =>
      let s := set_ass s (two s) (from_dl s) (p1 s) alloc0 false 0 false in
      match cc with Some c => set_tx s (t3180 s) (countdown s) (c + 1) | None => s end
  end.
(** tbf_ul_ass_fsm.c:393-432 [st_wait_pkt_ul_ass], 444-489 [st_wait_tbf_starting_time2], 434-442.  [poll]: the frame
    of the answer, rrbp2fn (C22), when SP is set. *)
Definition rx_pkt_ul_ass (s : tbf) (tn fn : Z) (poll : option Z) (m : pkt_ul_ass) : result :=
  match a s with
  | WAIT_PKT_UL_ASS | STARTING_TIME2 =>
      let s := handle_pkt_ul_ass s m in
      let (s, o) := match poll with
                    | None => (s, [])
                    | Some pf =>
                        let next_blk := fn_next_block (fn_next_block pf) in
                        (if negb (start_ex s) || (fncmp (start_fn s) next_blk <? 0)
                         then set_ass s (two s) (from_dl s) (p1 s) (p2 s) true next_blk (sba s) else s,
                         [Reserve tn pf POLL_UL_ASS])
                    end in
      if start_ex s && (0 <? fncmp (start_fn s) fn) then
        alive (a_chg s STARTING_TIME2) (o ++ [Configure (p2 s) (Some (start_fn s))])
      else complete s o
  | _ => alive s []
  end.

(** tbf_ul_ass_fsm.c:730-761 [fn_tick], 723-727, 365-370, 490-492; called when the machine waits for the starting time
    by sched.c:274-284 [rts_tick]. *)
Definition rts_tick (s : tbf) (tn fn : Z) : result :=
  match a s with
  | STARTING_TIME1 =>
      if negb (start_ex s) || negb (0 <? num_ts (p1 s)) then UB else
      if negb (opt_ex (slot (p1 s) tn)) || (fncmp fn (start_fn s) <? 0) then alive s [] else
      if two s then alive (a_chg s SCHED_PKT_RES_REQ) [] else complete s []
  | STARTING_TIME2 =>
      if negb (start_ex s) || negb (0 <? num_ts (p2 s)) then UB else
      if negb (opt_ex (slot (p2 s) tn)) || (fncmp fn (start_fn s) <? 0) then alive s [] else complete s []
  | _ => alive s []
  end.

(** tbf_ul_ass_fsm.c:769-784 [ass_rts]. *)
Definition ass_rts (s : tbf) (tn fn usf : Z) : bool :=
  match a s with
  | SCHED_PKT_RES_REQ =>
      match slot (p1 s) tn with
      | None => false
      | Some us => if sba s then negb (start_ex s) || (start_fn s =? fn) else us =? usf
      end
  | _ => false
  end.
(** tbf_ul_ass_fsm.c:786-802 [create_rlcmac_msg]: 381-387 and 493-499.  [enc]: the message could be encoded. *)
Definition create_rlcmac_msg (s : tbf) (enc : bool) : result :=
  match a s with
  | SCHED_PKT_RES_REQ => if enc then alive (a_chg s WAIT_PKT_UL_ASS) [ResReq] else alive s []
  | STARTING_TIME2 => alive s (if enc then [CtrlAck] else [])
  | _ => alive s []
  end.

(** tbf_ul.c:183-198 [n3104_max]; [bs_cv_max]: from SI13, 15 when not received. *)
Definition n3104_max (bs_cv_max : Z) (s : tbf) : Z := 3 * ((if bs_cv_max =? 0 then 1 else bs_cv_max) + 3) * num_ts (cur s).

(** tbf_ul_fsm.c:103-122 [arm_T3182_if_needed]. *)
Definition arm_T3182 (s : tbf) : res tbf :=
  if in_contention s then (if (T s =? 3166) && pend s then Ok s else UB)
  else if pend s && negb (T s =? 3182) then UB
  else if pend s then Ok s else Ok (set_u s (u s) 3182 true).
(** tbf_ul_fsm.c:190-200: FIRST_UL_DATA_SENT. *)
Definition first_data_sent (s : tbf) : res tbf :=
  match u s with
  | FLOW => if negb (T s =? 3164) then UB else Ok (if two s then set_u s FLOW 3164 false else set_u s FLOW 3166 true)
  | _ => Ok s
  end.
(** tbf_ul_fsm.c:229-232, 282-299: LAST_UL_DATA_SENT. *)
Definition last_data_sent (s : tbf) : res tbf :=
  match u s with
  | FLOW => do s <- arm_T3182 s; Ok (u_chg s FINISHED)
  | FINISHED => arm_T3182 (set_counts s (acc_att s) (retrans s + 1) (n3104 s) (res_att s))
  | _ => Ok s
  end.

(** tbf_ul.c:243-253 [data_rts]. *)
Definition dummy_rts (s : tbf) (tn usf : Z) : bool := match slot (cur s) tn with Some us => us =? usf | None => false end.
Definition data_rts (s : tbf) (tn usf : Z) : bool :=
  dummy_rts s tn usf && (match u s with FLOW | FINISHED => true | _ => false end).
(** tbf_ul.c:1205-1224 [data_create], 1184-1203 of [create_ul_acked_block]: a block was built and sent.  [final]: it
    has CV 0; [cd]: the TBF is in the countdown procedure now (633-659; never left again).  When the lower layer
    refuses the new access request after N3104_MAX the TBF is freed and T3180 of the freed TBF is started (1222). *)
Definition data_create (bs_cv_max : Z) (s : tbf) (final cd rach : bool) : result :=
  let s := set_tx s (t3180 s) (countdown s || cd) (tx_cs s) in
  do s <- (if n3104 s =? 0 then first_data_sent s else Ok s);
  do s <- (if final then last_data_sent s else Ok s);
  let s := set_counts s (acc_att s) (retrans s) (n3104 s + 1) (res_att s) in
  if in_contention s && (n3104_max bs_cv_max s <=? n3104 s) then
    do r <- reinit s rach [Data final; N3104Max];
    match fst r with
    | Some s => alive (set_tx s true (countdown s) (tx_cs s)) (snd r)
    | None => UB
    end
  else alive (set_tx s true (countdown s) (tx_cs s)) [Data final].

(** tbf_ul_fsm.c:124-136 [_contention_resolution_succeeded]. *)
Definition contention_succeeded (s : tbf) : res tbf :=
  if two s || negb (T s =? 3166) then UB else
  let s := set_u s (u s) 0 false in do _ <- update_cv s; Ok s.
(** tbf_ul_fsm.c:204-228 and 245-281: RX_UL_ACK_NACK; elsewhere the event is refused. *)
Definition fsm_ul_ack (s : tbf) (tn : Z) (poll : option Z) (final est : bool) : res (tbf * list out) :=
  let o := match poll with Some pf => [Reserve tn pf POLL_UL_ACK] | None => [] end in
  match u s with
  | FLOW => do s <- (if in_contention s then contention_succeeded s else Ok s); Ok (s, o)
  | FINISHED =>
      do s <- (if in_contention s then contention_succeeded s
               else Ok (if (T s =? 3182) && pend s then set_u s FINISHED 0 false else s));
      Ok (if final then u_chg (set_final s est (match poll with Some pf => pf | None => 0xffffffff end) tn) RELEASING else s, o)
  | _ => Ok (s, [])
  end.
(** rlcmac.c:701-715 (the TFI selects the TBF) and tbf_ul.c:307-351 [handle_pkt_ul_ack_nack], without the window
    (UlTxModel). *)
Definition rx_ul_ack (s : tbf) (tn tfi : Z) (poll : option Z) (final est : bool) (cc : Z) : result :=
  if negb (ul_tfi (cur s) =? tfi) then alive s [] else
  do r <- fsm_ul_ack s tn poll final est;
  do s <- update_tx_cs (fst r) (cc + 1);
  alive s (snd r).

(** rlcmac_prim.c:649-677 with tbf_ul_fsm.c:310-312 and gprs_rlcmac_ul_tbf_waiting_pkt_ctrl_ack_tx_confirmation
    (tbf_ul_fsm.c:461-470). *)
Definition data_cnf (s : tbf) (tn fn : Z) : result :=
  match u s with
  | RELEASING => if (ack_fn s =? fn) && (ack_tn s =? tn) then freed [] else alive s []
  | _ => alive s []
  end.

(** tbf_ul_fsm.c:369-411 [tbf_ul_fsm_timer_cb]; only a running timer expires. *)
Definition timer_cb (s : tbf) (rach : bool) : result :=
  if negb (pend s) then alive s [] else
  let s := set_u s (u s) (T s) false in
  let retry s := let s := set_counts s (acc_att s + 1) (retrans s) (n3104 s) (res_att s) in
                 if acc_att s =? 4 then freed [Expired (T s)] else reinit s rach [Expired (T s)] in
  if T s =? 3164 then match u s with FLOW => retry s | _ => UB end
  else if T s =? 3166 then match u s with FLOW | FINISHED => retry s | _ => UB end
  else if T s =? 3182 then freed [Expired 3182]
  else UB.
(** tbf_ul_ass_fsm.c:597-633 [tbf_ul_ass_fsm_timer_cb]. *)
Definition t3168_cb (s : tbf) : result :=
  if negb (t3168 s) then alive s [] else
  if from_dl s then freed [Expired 3168] else
  let s := set_counts (set_a s (a s) false) (acc_att s) (retrans s) (n3104 s) (res_att s + 1) in
  match a s with
  | WAIT_PKT_UL_ASS => if res_att s =? 4 then freed [Expired 3168] else alive (a_chg s SCHED_PKT_RES_REQ) [Expired 3168]
  | _ => UB
  end.
(** tbf_ul.c:111-118. *)
Definition t3180_cb (s : tbf) : result := if t3180 s then freed [Expired 3180] else alive s [].

(** Everything that can happen to the TBF. *)
Inductive event :=
  | ImmAss (tn fn : Z) (ia : imm_ass)
  | PktUlAss (tn fn : Z) (poll : option Z) (m : pkt_ul_ass)
  | Tick (tn fn : Z)
  | AssRts (tn fn usf : Z) (enc : bool)           (* the scheduler asks for the Packet Resource Request *)
  | AssPoll (enc : bool)                          (* the scheduler answers the poll of the assignment *)
  | DataRts (tn usf : Z) (final cd rach : bool)
  | DummyRts (tn usf : Z)
  | UlAck (tn tfi : Z) (poll : option Z) (final est : bool) (cc : Z)
  | DataCnf (tn fn : Z)
  | Timer (rach : bool) | T3168 | T3180.

Definition step (bs_cv_max : Z) (s : tbf) (e : event) : result :=
  match e with
  | ImmAss tn fn ia => rx_imm_ass s tn fn ia
  | PktUlAss tn fn poll m => rx_pkt_ul_ass s tn fn poll m
  | Tick tn fn => rts_tick s tn fn
  | AssRts tn fn usf enc => if ass_rts s tn fn usf then create_rlcmac_msg s enc else alive s []
  | AssPoll enc => create_rlcmac_msg s enc
  | DataRts tn usf final cd rach => if data_rts s tn usf then data_create bs_cv_max s final cd rach else alive s []
  | DummyRts tn usf => if dummy_rts s tn usf then alive (set_tx s true (countdown s) (tx_cs s)) [Dummy] else alive s []
  | UlAck tn tfi poll final est cc => rx_ul_ack s tn tfi poll final est cc
  | DataCnf tn fn => data_cnf s tn fn
  | Timer rach => timer_cb s rach
  | T3168 => t3168_cb s
  | T3180 => t3180_cb s
  end.

(** tbf_ul.c:34-72 [gprs_rlcmac_ul_tbf_alloc] and the constructors: all zero; [cs] the initial coding scheme. *)
Definition tbf0 (cs : Z) : tbf :=
  mkTbf NEW 0 false 0 0 false 0 0 0 alloc0 false false cs IDLE false false alloc0 alloc0 false 0 false false 0.
(** The ways an assignment starts: by channel request (gre.c:216-239, always one phase), from a releasing TBF
    (tbf_ul_ass_fsm.c:683-692, 295-299), from a downlink TBF (696-711, 300-304). *)
Inductive how := ByRach (rach : bool) | FromReleasing (al : alloc) | FromDownlink (tn : Z).
Definition start (cs : Z) (h : how) : result :=
  let s := tbf0 cs in
  match h with
  | ByRach rach => match ass_start s false rach [] with Some r => r | None => alive s [] end
  | FromReleasing al =>
      alive (a_chg (u_chg (set_ass s true false al alloc0 false 0 false) WAIT_ASSIGN) SCHED_PKT_RES_REQ) []
  | FromDownlink tn =>
      alive (a_chg (u_chg (set_ass s true true (mkAlloc 0 1 (one_slot tn 0xff)) alloc0 false 0 false) WAIT_ASSIGN) WAIT_PKT_UL_ASS) []
  end.

(** A history; nothing happens to a TBF that has been freed. *)
Fixpoint run_from (bs_cv_max : Z) (st : option tbf) (o : list out) (l : list event) : result :=
  match l with
  | [] => Ok (st, o)
  | e :: r => match st with
              | None => Ok (None, o)
              | Some s => do x <- step bs_cv_max s e; run_from bs_cv_max (fst x) (o ++ snd x) r
              end
  end.
Definition run (bs_cv_max cs : Z) (h : how) (l : list event) : result :=
  do x <- start cs h; run_from bs_cv_max (fst x) (snd x) l.
