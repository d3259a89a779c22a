(** Model of the uplink scheduler, src/rlcmac/sched.c, and of what it works on: the RLC/MAC entities
    (src/rlcmac/gre.c, one per mobile identity), their uplink TBF (UlTbfModel) and downlink TBF (tbf_dl.c, tbf_dl_fsm.c,
    tbf_dl_ass_fsm.c) and the reservations of the eight timeslots (UlcModel).  [UB] is a failed OSMO_ASSERT or a use
    of freed memory.  Simplifications: objects are identified by numbers that are never used twice (addresses); memory
    does not run out; timeslot numbers are 0..7; the lower layer and the encoders are oracles in the events. *)
From Verif.Lib Require Import Base Outcome.
From Verif.Rlcmac Require Import FnModel UlcModel UlTbfModel.

(** include/osmocom/gprs/rlcmac/tbf_dl.h:18-39, tbf_dl_fsm.h: a downlink TBF.  State NEW is left before the
    assignment ends (tbf_dl_ass_fsm.c:209-222), so [d_fin] tells FLOW (false) from FINISHED (true).  [d_3190],
    [d_3192]: the timer runs.  The window and the blocks are modelled in DlRxModel. *)
Record dl_tbf := mkDl { d_id : Z; d_fin : bool; d_tfi : Z; d_slots : list bool; d_3190 : bool; d_3192 : bool }.
(** tbf_dl_ass_fsm.h:20-31 in state WAIT_TBF_STARTING_TIME; in state IDLE everything is zero (tbf_dl_ass_fsm.c:121-130). *)
Record dl_wait := mkWait { w_start : Z; w_tfi : Z; w_slots : list bool }.
(** gre.h:21-40.  [g_q]: the queue of LLC PDUs is not empty. *)
Record gre := mkGre { g_id : Z; g_ul : option (Z * tbf); g_dl : option dl_tbf; g_ass : option dl_wait; g_q : bool }.
(** The global context: the list of entities, the reservation trees of the eight timeslots, the next unused number. *)
Record sys := mkSys { gres : list gre; ulc : list tree; next : Z }.
Definition sys0 : sys := mkSys [] [Leaf; Leaf; Leaf; Leaf; Leaf; Leaf; Leaf; Leaf] 1.

(** pdch_ul_controller.h:34-40. *)
Definition POLL_DL_ASS : Z := 1.
Definition POLL_DL_ACK : Z := 3.

(** Blocks handed to the lower layer; [who]: the TBF or entity.  Packet Downlink Ack/Nack ([req]: with a channel
    request), Packet Resource Request, Packet Control Acknowledgement, RLC data, Packet Uplink Dummy Control Block. *)
Inductive blk :=
  | BDlAck (who : Z) (final req : bool) | BResReq (who : Z) | BCtrlAck (who : Z) | BData (who : Z) (final : bool) | BDummy (who : Z).
(** What the scheduler and the entities do to the outside: a block (L1CTL-PDCH_DATA.req), something an uplink TBF
    does (UlTbfModel), L1CTL-CFG_DL_TBF.req, T3190/T3192 expired, the entity returns to packet idle mode (timer armed). *)
Inductive sout :=
  | Pdch (ts fn : Z) (b : blk) | UlDid (who : Z) (o : out) | DlConfigure (who tfi : Z) (sl : list bool)
  | DlExpired (who t : Z) | GoIdle (g : Z).

(** *** Access to the context. *)
Definition set_gre (s : sys) (g : gre) : sys :=
  mkSys (map (fun x => if g_id x =? g_id g then g else x) (gres s)) (ulc s) (next s).
Definition find_gre (s : sys) (i : Z) : option gre := find (fun g => g_id g =? i) (gres s).
Definition has_ul (g : gre) (i : Z) : bool := match g_ul g with Some (j, _) => j =? i | None => false end.
Definition has_dl (g : gre) (i : Z) : bool := match g_dl g with Some d => d_id d =? i | None => false end.
Definition find_ul (s : sys) (i : Z) : option gre := find (fun g => has_ul g i) (gres s).
Definition find_dl (s : sys) (i : Z) : option gre := find (fun g => has_dl g i) (gres s).
Definition with_ul (g : gre) (v : option (Z * tbf)) : gre := mkGre (g_id g) v (g_dl g) (g_ass g) (g_q g).
Definition with_dl (g : gre) (v : option dl_tbf) : gre := mkGre (g_id g) (g_ul g) v (g_ass g) (g_q g).
Definition with_ass (g : gre) (v : option dl_wait) : gre := mkGre (g_id g) (g_ul g) (g_dl g) v (g_q g).
Definition with_q (g : gre) (v : bool) : gre := mkGre (g_id g) (g_ul g) (g_dl g) (g_ass g) v.
Definition tree_of (s : sys) (ts : Z) : tree := nth (Z.to_nat ts) (ulc s) Leaf.
Fixpoint upd {A} (l : list A) (n : nat) (v : A) : list A :=
  match l, n with [], _ => [] | _ :: r, O => v :: r | x :: r, S n' => x :: upd r n' v end.
Definition set_tree (s : sys) (ts : Z) (t : tree) : sys := mkSys (gres s) (upd (ulc s) (Z.to_nat ts) t) (next s).
(** The number of a new object. *)
Definition alloc_id (s : sys) : sys := mkSys (gres s) (ulc s) (next s + 1).

Section Sched.
  Variable rb : rb_ops.
  (** BS_CV_MAX of SI13 (UlTbfModel) and the initial coding scheme of uplink TBFs. *)
  Variable bs_cv_max cs0 : Z.

  (** tbf.c:36-41 [gprs_rlcmac_tbf_destructor]. *)
  Definition release_all (s : sys) (who : Z) : sys := mkSys (gres s) (map (fun t => release_tbf rb t who) (ulc s)) (next s).
  (** The result of gprs_rlcmac_pdch_ulc_reserve is ignored by all callers. *)
  Definition reserve_at (s : sys) (ts fn reason who : Z) : sys := set_tree s ts (snd (reserve rb (tree_of s ts) fn reason who)).
  Fixpoint reserve_outs (s : sys) (who : Z) (o : list out) : sys :=
    match o with
    | [] => s
    | UlTbfModel.Reserve tn fn reason :: r => reserve_outs (reserve_at s tn fn reason who) who r
    | _ :: r => reserve_outs s who r
    end.
  (** gre.c:99-163: told of a freed TBF, the entity arms the timer that releases the PDCH when no TBF is left. *)
  Definition idle_out (g : gre) : list sout := match g_ul g, g_dl g with None, None => [GoIdle (g_id g)] | _, _ => [] end.

  (** The uplink TBF [i] of entity [g] did [r]: its reservations are made; a freed TBF loses its reservations
      (tbf_ul.c:74-109) and the entity its pointer (gre.c:133-163). *)
  Definition ul_result (s : sys) (g : gre) (i : Z) (r : result) : res (sys * list sout) :=
    do x <- r;
    let s := reserve_outs s i (snd x) in
    let o := map (UlDid i) (snd x) in
    match fst x with
    | Some b => Ok (set_gre s (with_ul g (Some (i, b))), o)
    | None => let g := with_ul g None in Ok (set_gre (release_all s i) g, o ++ idle_out g)
    end.

  (** tbf_dl.c:68-97 [gprs_rlcmac_dl_tbf_free] of the current downlink TBF of [g]; gre.c:99-129. *)
  Definition dl_free (s : sys) (g : gre) : sys * list sout :=
    match g_dl g with
    | None => (s, [])
    | Some d => let g := with_dl g None in (set_gre (release_all s (d_id d)) g, idle_out g)
    end.
  (** tbf_dl_ass_fsm.c:203-225 [st_compl_on_enter], tbf_dl.c:33-66, tbf_dl_fsm.c:53-67 [st_new]: the new downlink TBF
      replaces the old one; L1CTL-CFG_DL_TBF.req, T3190. *)
  Definition dl_complete (s : sys) (g : gre) (tfi : Z) (sl : list bool) : sys * list sout :=
    let i := next s in
    let s := alloc_id s in
    let s := match g_dl g with Some d => release_all s (d_id d) | None => s end in
    (set_gre s (with_ass (with_dl g (Some (mkDl i false tfi sl true false))) None), [DlConfigure i tfi sl]).

  (** *** The ready-to-send indication. *)
  (** tbf_dl_ass_fsm.c:331-339 [fn_tick]: ctx->ts_nr is never set (it is 0), and the frame must be exactly the
      starting time. *)
  Definition dl_tick (s : sys) (g : gre) (ts fn : Z) : sys * list sout :=
    match g_ass g with
    | Some w => if negb (fn =? w_start w) || negb (ts =? 0) then (s, []) else dl_complete s g (w_tfi w) (w_slots w)
    | None => (s, [])
    end.
  (** sched.c:274-284 [rts_tick], one entity. *)
  Definition tick_gre (s : sys) (i ts fn : Z) : res (sys * list sout) :=
    match find_gre s i with
    | None => Ok (s, [])
    | Some g =>
        do x <- (match g_ul g with
                 | Some (j, b) => ul_result s g j (UlTbfModel.rts_tick b ts fn)
                 | None => Ok (s, [])
                 end);
        match find_gre (fst x) i with
        | None => Ok x
        | Some g => let y := dl_tick (fst x) g ts fn in Ok (fst y, snd x ++ snd y)
        end
    end.
  Fixpoint tick (s : sys) (ids : list Z) (ts fn : Z) : res (sys * list sout) :=
    match ids with
    | [] => Ok (s, [])
    | i :: r => do x <- tick_gre s i ts fn; do y <- tick (fst x) r ts fn; Ok (fst y, snd x ++ snd y)
    end.

  (** tbf_ul.c:201-228 [can_request_new_ul_tbf]. *)
  Definition can_request_new (g : gre) (b : tbf) : bool :=
    match u b with RELEASING => tbf_est b && g_q g && (match g_dl g with None => true | Some _ => false end) | _ => false end.

  (** sched.c:35-43: the candidates; at most one of the six that answer a poll is set. *)
  Inductive cand := DlAckFinal (d : Z) | UlAckNew (t : Z) | UlAckPoll (t : Z) | DlAssPoll (g : Z) | UlAssPoll (t : Z) | DlAckPoll (d : Z).
  (** sched.c:76-118.  The owner of the reservation is dereferenced for UL_ACK and DL_ACK. *)
  Definition candidate (s : sys) (n : node) : res (option cand) :=
    if n_reason n =? POLL_UL_ASS then Ok (Some (UlAssPoll (n_who n)))
    else if n_reason n =? POLL_DL_ASS then Ok (Some (DlAssPoll (n_who n)))
    else if n_reason n =? POLL_UL_ACK then
      match find_ul s (n_who n) with
      | Some g => match g_ul g with
                  | Some (i, b) => Ok (Some (if can_request_new g b then UlAckNew i else UlAckPoll i))
                  | None => UB
                  end
      | None => UB
      end
    else if n_reason n =? POLL_DL_ACK then
      match find_dl s (n_who n) with
      | Some g => match g_dl g with
                  | Some d => Ok (Some (if d_fin d then DlAckFinal (d_id d) else DlAckPoll (d_id d)))
                  | None => UB
                  end
      | None => UB
      end
    else Ok None.
  (** sched.c:66-132 [get_ctrl_msg_tbf_candidates]: the poll candidate, the last TBF in the list that may send a
      Packet Resource Request; the reservation is released. *)
  Definition wants_ass (ts fn usf : Z) (g : gre) : bool :=
    match g_ul g with Some (_, b) => ass_rts b ts fn usf | None => false end.
  Definition ul_id (g : gre) : Z := match g_ul g with Some (i, _) => i | None => 0 end.
  Definition last_ass (s : sys) (ts fn usf : Z) : option Z :=
    match rev (filter (wants_ass ts fn usf) (gres s)) with g :: _ => Some (ul_id g) | [] => None end.
  Definition candidates (s : sys) (ts fn usf : Z) : res (sys * option cand * option Z) :=
    do x <- (match get_node (tree_of s ts) fn with
             | None => Ok (s, None)
             | Some n => do c <- candidate s n; Ok (set_tree s ts (release_node rb (tree_of s ts) n), c)
             end);
    Ok (fst x, snd x, last_ass (fst x) ts fn usf).

  (** Which encodings succeed (each returns NULL on failure). *)
  Inductive encoding := EPoll | EResReq | EDlAck | EDummy.
  Variable enc : encoding -> bool.

  (** tbf_dl.c:163-218 [create_pkt_dl_ack_nack]. *)
  Definition create_dl_ack (s : sys) (i ts : Z) (ok : bool) : res (sys * list sout * option blk) :=
    match find_dl s i with
    | None => UB
    | Some g =>
        match g_dl g with
        | None => UB
        | Some d =>
            let req := match g_ul g with None => g_q g | Some _ => false end in
            do x <- (if req
                     then let j := next s in
                          match start cs0 (FromDownlink ts) with
                          | Ok (Some b, _) => Ok (alloc_id s, with_ul g (Some (j, b)))
                          | _ => UB
                          end
                     else Ok (s, g));
            let (s, g) := x in
            if ok then
              let d' := if d_fin d then mkDl (d_id d) (d_fin d) (d_tfi d) (d_slots d) false true else d in
              Ok (set_gre s (with_dl g (Some d')), [], Some (BDlAck i (d_fin d) req))
            else Ok (set_gre s g, [], None)
        end
    end.
  (** tbf_ul_ass_fsm.c:786-802 [create_rlcmac_msg] of uplink TBF [i]. *)
  Definition ass_blk (g : gre) (i : Z) (o : list out) : option blk :=
    match o with ResReq :: _ => Some (BResReq i) | CtrlAck :: _ => Some (BCtrlAck (g_id g)) | _ => None end.
  Definition create_ass (s : sys) (i : Z) (ok : bool) : res (sys * list sout * option blk) :=
    match find_ul s i with
    | None => UB
    | Some g => match g_ul g with
                | None => UB
                | Some (_, b) =>
                    do x <- create_rlcmac_msg b ok;
                    match fst x with
                    | Some b' => Ok (set_gre s (with_ul g (Some (i, b'))), [], ass_blk g i (snd x))
                    | None => UB
                    end
                end
    end.

  (** sched.c:163-245 [sched_select_ctrl_msg], part by part: 175-181. *)
  Definition try_dl_ack_final s (c : option cand) ts :=
    match c with Some (DlAckFinal d) => create_dl_ack s d ts (enc EPoll) | _ => Ok (s, [], None) end.
  (** sched.c:184-206. *)
  Definition try_ul_ack_new s (c : option cand) ts fn usf :=
    match c with
    | Some (UlAckNew i) =>
        match find_ul s i with
        | None => UB
        | Some g => match g_ul g with
                    | None => UB
                    | Some (_, old) =>
                        let j := next s in
                        match start cs0 (FromReleasing (cur old)) with
                        | Ok (Some b, _) =>
                            let s := set_gre (release_all (alloc_id s) i) (with_ul g (Some (j, b))) in
                            if negb (ass_rts b ts fn usf) then UB else create_ass s j (enc EPoll)
                        | _ => UB
                        end
                    end
        end
    | _ => Ok (s, [], None)
    end.
  (** sched.c:207-213, 214-220: gprs_rlcmac_gre_create_pkt_ctrl_ack (gre.c:286-319). *)
  Definition ctrl_ack (s : sys) (g : option gre) : res (sys * list sout * option blk) :=
    match g with None => UB | Some g => Ok (s, [], if enc EPoll then Some (BCtrlAck (g_id g)) else None) end.
  Definition try_ul_ass_poll s (c : option cand) :=
    match c with Some (UlAssPoll i) => create_ass s i (enc EPoll) | _ => Ok (s, [], None) end.
  Definition try_dl_ass_poll s (c : option cand) :=
    match c with Some (DlAssPoll g) => ctrl_ack s (find_gre s g) | _ => Ok (s, [], None) end.
  Definition try_ul_ass s (i : option Z) :=
    match i with Some i => create_ass s i (enc EResReq) | None => Ok (s, [], None) end.
  Definition try_dl_ack s (c : option cand) ts :=
    match c with Some (DlAckPoll d) => create_dl_ack s d ts (enc EDlAck) | _ => Ok (s, [], None) end.
  (** A message found ends the search. *)
  Definition orelse (x : res (sys * list sout * option blk)) (k : sys -> res (sys * list sout * option blk)) :=
    do r <- x;
    let '(s, o, b) := r in
    match b with
    | Some _ => Ok (s, o, b)
    | None => do r2 <- k s; let '(s2, o2, b2) := r2 in Ok (s2, o ++ o2, b2)
    end.
  Definition select_ctrl s (c : option cand) (ass : option Z) ts fn usf : res (sys * list sout * option blk) :=
    match c with
    | Some (UlAckPoll i) => ctrl_ack s (find_ul s i)      (* 207-213 returns even without a message *)
    | _ =>
        orelse (try_dl_ack_final s c ts) (fun s =>
        orelse (try_ul_ack_new s c ts fn usf) (fun s =>
        orelse (try_dl_ass_poll s c) (fun s =>
        orelse (try_ul_ass_poll s c) (fun s =>
        orelse (try_ul_ass s ass) (fun s => try_dl_ack s c ts)))))
    end.

  (** sched.c:134-144, 247-258 [sched_select_ul_data_msg].  [data]: what gprs_rlcmac_ul_tbf_data_create finds to send:
      None: nothing; else whether the block has CV 0, whether the countdown runs now, and whether the lower layer
      accepts the channel request that may follow (UlTbfModel). *)
  Definition wants_data (ts usf : Z) (g : gre) : bool := match g_ul g with Some (_, b) => data_rts b ts usf | None => false end.
  Definition select_data s ts usf (data : option (bool * bool * bool)) : res (sys * list sout * option blk) :=
    match find (wants_data ts usf) (gres s), data with
    | Some g, Some (final, cd, rach) =>
        match g_ul g with
        | None => UB
        | Some (i, b) =>
            do x <- ul_result s g i (data_create bs_cv_max b final cd rach);
            Ok (fst x, snd x, Some (BData i final))
        end
    | _, _ => Ok (s, [], None)
    end.
  (** sched.c:146-156, 260-272 [sched_select_ul_dummy_ctrl_blk], tbf_ul.c:367-400 [dummy_create]. *)
  Definition wants_dummy (ts usf : Z) (g : gre) : bool := match g_ul g with Some (_, b) => dummy_rts b ts usf | None => false end.
  Definition select_dummy s ts usf : res (sys * list sout * option blk) :=
    match find (wants_dummy ts usf) (gres s) with
    | Some g => match g_ul g with
                | None => UB
                | Some (i, b) =>
                    if enc EDummy then Ok (set_gre s (with_ul g (Some (i, set_tx b true (countdown b) (tx_cs b)))), [], Some (BDummy i))
                    else Ok (s, [], None)
                end
    | None => Ok (s, [], None)
    end.

  (** sched.c:286-323 [gprs_rlcmac_rcv_rts_block]. *)
  Definition select s ts fn usf (data : option (bool * bool * bool)) : res (sys * list sout * option blk) :=
    do x <- candidates s ts fn usf;
    let '(s, c, ass) := x in
    orelse (select_ctrl s c ass ts fn usf) (fun s => orelse (select_data s ts usf data) (fun s => select_dummy s ts usf)).
  Definition rcv_rts s ts fn usf data : res (sys * list sout) :=
    do x <- tick s (map g_id (gres s)) ts fn;
    do y <- select (fst x) ts fn usf data;
    let '(s, o, b) := y in
    Ok (set_tree s ts (expire_fn rb (tree_of s ts) fn),
        snd x ++ o ++ match b with Some b => [Pdch ts fn b] | None => [] end).
End Sched.

(** *** Everything else that happens to the entities. *)
Inductive sevent :=
  | NewGre                                                  (* an entity for a new TLLI *)
  | DelGre (g : Z)                                          (* GMMRR-ASSIGN.req that unassigns the TLLI *)
  | Enqueue (g : Z) (rach : bool)                           (* an LLC PDU arrives from above *)
  | Drained (g : Z)                                         (* the queue became empty *)
  | CcchReady (rach : bool)                                 (* L1CTL-CCCH_READY.ind *)
  | UlImmAss (tn fn : Z) (ia : imm_ass)
  | UlPktAss (g tn fn : Z) (poll : option Z) (m : pkt_ul_ass)
  | UlAckNack (tn tfi : Z) (poll : option Z) (final est : bool) (cc : Z)
  | PdchCnf (tn fn : Z)                                     (* L1CTL-PDCH_DATA.cnf *)
  | UlTimer (g : Z) (rach : bool) | UlT3168 (g : Z) | UlT3180 (g : Z)
  | DlImmAss (g tn fn tfi : Z) (st : option Z)
  | DlPktAss (g tn fn : Z) (poll : option Z) (tfi : option Z) (st : option Z) (sl : list bool) (ctrl_ack : bool)
  | DlData (tn tfi : Z) (last : bool) (poll : option Z)
  | DlT3190 (g : Z) | DlT3192 (g : Z)
  | Rts (ts fn usf : Z) (enc : encoding -> bool) (data : option (bool * bool * bool)).

Section Steps.
  Variable rb : rb_ops.
  Variable bs_cv_max cs0 : Z.

  (** gre.c:46-78 [gprs_rlcmac_entity_alloc]. *)
  Definition new_gre (s : sys) : sys := mkSys (gres s ++ [mkGre (next s) None None None false]) (ulc s) (next s + 1).
  (** gre.c:80-95 [gprs_rlcmac_entity_free]: the TBFs are freed with their reservations; reservations that point to
      the entity itself stay. *)
  Definition del_gre (s : sys) (g : gre) : sys :=
    let s := match g_dl g with Some d => release_all rb s (d_id d) | None => s end in
    let s := match g_ul g with Some (i, _) => release_all rb s i | None => s end in
    mkSys (filter (fun x => negb (g_id x =? g_id g)) (gres s)) (ulc s) (next s).
  (** gre.c:200-240 [start_ul_tbf_pkt_acc_proc_if_needed]; always one-phase access. *)
  Definition start_if_needed (s : sys) (g : gre) (rach : bool) : res (sys * list sout) :=
    match g_ul g, g_dl g with
    | None, None => if g_q g then
                      let i := next s in
                      ul_result rb (alloc_id s) g i (start cs0 (ByRach rach))
                    else Ok (s, [])
    | _, _ => Ok (s, [])
    end.
  Fixpoint start_all (s : sys) (ids : list Z) (rach : bool) : res (sys * list sout) :=
    match ids with
    | [] => Ok (s, [])
    | i :: r => match find_gre s i with
                | None => start_all s r rach
                | Some g => do x <- start_if_needed s g rach; do y <- start_all (fst x) r rach; Ok (fst y, snd x ++ snd y)
                end
    end.
  (** An event of UlTbfModel for the uplink TBF of [g]; without one nothing happens. *)
  Definition ul_event (s : sys) (g : option gre) (e : event) : res (sys * list sout) :=
    match g with
    | Some g => match g_ul g with
                | Some (i, b) => ul_result rb s g i (UlTbfModel.step bs_cv_max b e)
                | None => Ok (s, [])
                end
    | None => Ok (s, [])
    end.
  Definition ul_with (f : tbf -> bool) (s : sys) : option gre :=
    find (fun g => match g_ul g with Some (_, b) => f b | None => false end) (gres s).

  (** tbf_dl_ass_fsm.c:62-96 [handle_imm_ass] with 132-149, 166-183; rlcmac.c:233-261.  The timeslots of an assignment
      that is still waiting are not cleared. *)
  Definition no_dl_slots : list bool := repeat false 8.
  Definition dl_start (s : sys) (g : gre) (fn tfi : Z) (st : option Z) (sl : list bool) : sys * list sout :=
    match st with
    | Some f => if 0 <? fncmp f fn then (set_gre s (with_ass g (Some (mkWait f tfi sl))), []) else dl_complete rb s g tfi sl
    | None => dl_complete rb s g tfi sl
    end.
  Definition dl_imm_ass (s : sys) (g : gre) (tn fn tfi : Z) (st : option Z) : sys * list sout :=
    let old := match g_ass g with Some w => w_slots w | None => no_dl_slots end in
    dl_start s g fn tfi st (upd old (Z.to_nat tn) true).
  (** tbf_dl_ass_fsm.c:98-119 [handle_pkt_dl_ass] with 150-160, 184-194; rlcmac.c:645-699 [gprs_rlcmac_handle_pkt_dl_ass]. *)
  Definition dl_pkt_ass (s : sys) (g : gre) (tn fn : Z) (poll tfi st : option Z) (sl : list bool) (ack : bool) : sys * list sout :=
    let x := dl_start s g fn (match tfi with Some t => t | None => 0xff end) st sl in
    let s := fst x in
    let s := match poll with Some pf => reserve_at rb s tn pf POLL_DL_ASS (g_id g) | None => s end in
    match find_gre s (g_id g) with
    | Some g => match g_dl g with
                | Some d => if ack && d_3192 d then let y := dl_free rb s g in (fst y, snd x ++ snd y) else (s, snd x)
                | None => (s, snd x)
                end
    | None => (s, snd x)
    end.
  (** rlcmac.c:806-830, tbf_dl.c:281-383 [gprs_rlcmac_dl_tbf_rcv_data_block] as far as the state machine and the poll
      are concerned.  [last]: all blocks up to the one with the final block indicator are there (DlRxModel). *)
  Definition dl_data (s : sys) (tn tfi : Z) (last : bool) (poll : option Z) : sys :=
    match find (fun g => match g_dl g with Some d => d_tfi d =? tfi | None => false end) (gres s) with
    | Some g => match g_dl g with
                | Some d => let s := set_gre s (with_dl g (Some (mkDl (d_id d) (d_fin d || last) (d_tfi d) (d_slots d) true (d_3192 d)))) in
                            match poll with Some pf => reserve_at rb s tn pf POLL_DL_ACK (d_id d) | None => s end
                | None => s
                end
    | None => s
    end.
  (** tbf_dl.c:99-106 and 119-126: only a running timer expires. *)
  Definition dl_timer (s : sys) (i : Z) (t : Z) : sys * list sout :=
    match find_gre s i with
    | Some g => match g_dl g with
                | Some d => if (if t =? 3190 then d_3190 d else d_3192 d)
                            then let y := dl_free rb s g in (fst y, DlExpired (d_id d) t :: snd y) else (s, [])
                | None => (s, [])
                end
    | None => (s, [])
    end.

  Definition sstep (s : sys) (e : sevent) : res (sys * list sout) :=
    match e with
    | NewGre => Ok (new_gre s, [])
    | DelGre i => match find_gre s i with Some g => Ok (del_gre s g, []) | None => Ok (s, []) end
    | Enqueue i rach => match find_gre s i with
                        | Some g => let g := with_q g true in start_if_needed (set_gre s g) g rach
                        | None => Ok (s, [])
                        end
    | Drained i => match find_gre s i with Some g => Ok (set_gre s (with_q g false), []) | None => Ok (s, []) end
    | CcchReady rach => start_all s (map g_id (gres s)) rach
    | UlImmAss tn fn ia =>
        ul_event s (ul_with (fun b => match a b with WAIT_CCCH_IMM_ASS => true | _ => false end) s) (ImmAss tn fn ia)
    | UlPktAss i tn fn poll m => ul_event s (find_gre s i) (PktUlAss tn fn poll m)
    | UlAckNack tn tfi poll final est cc =>
        ul_event s (ul_with (fun b => ul_tfi (cur b) =? tfi) s) (UlAck tn tfi poll final est cc)
    | PdchCnf tn fn =>
        ul_event s (ul_with (fun b => match u b with RELEASING => (ack_fn b =? fn) && (ack_tn b =? tn) | _ => false end) s) (DataCnf tn fn)
    | UlTimer i rach => ul_event s (find_gre s i) (Timer rach)
    | UlT3168 i => ul_event s (find_gre s i) T3168
    | UlT3180 i => ul_event s (find_gre s i) T3180
    | DlImmAss i tn fn tfi st => match find_gre s i with Some g => Ok (dl_imm_ass s g tn fn tfi st) | None => Ok (s, []) end
    | DlPktAss i tn fn poll tfi st sl ack =>
        match find_gre s i with Some g => Ok (dl_pkt_ass s g tn fn poll tfi st sl ack) | None => Ok (s, []) end
    | DlData tn tfi last poll => Ok (dl_data s tn tfi last poll, [])
    | DlT3190 i => Ok (dl_timer s i 3190)
    | DlT3192 i => Ok (dl_timer s i 3192)
    | Rts ts fn usf enc data => rcv_rts rb bs_cv_max cs0 enc s ts fn usf data
    end.
  Fixpoint srun (s : sys) (l : list sevent) : res (sys * list sout) :=
    match l with
    | [] => Ok (s, [])
    | e :: r => do x <- sstep s e; do y <- srun (fst x) r; Ok (fst y, snd x ++ snd y)
    end.
End Steps.
