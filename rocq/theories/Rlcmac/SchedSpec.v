(** What C28 and C41 say about the uplink scheduler, in terms of the blocks handed to the lower layer, the reservations
    of the timeslots and the visible state of the TBFs. *)
From Verif.Lib Require Import Base Outcome.
From Verif.Rlcmac Require Import FnModel UlcModel UlTbfModel UlTbfSpec SchedModel.

(** Blocks among the outputs, with their timeslot and frame. *)
Fixpoint blocks (o : list sout) : list (Z * Z * blk) :=
  match o with [] => [] | Pdch ts fn b :: r => (ts, fn, b) :: blocks r | _ :: r => blocks r end.
(** Uplink TBF [i] is there, in state [b]; a downlink TBF. *)
Definition hasU (s : sys) (i : Z) (b : tbf) : Prop := exists g, In g (gres s) /\ g_ul g = Some (i, b).
Definition hasD (s : sys) (d : dl_tbf) : Prop := exists g, In g (gres s) /\ g_dl g = Some d.

(** [b] answers the poll for which [n] was reserved (pdch_ul_controller.h:34-40: 0 Packet Uplink Assignment, 1 Packet
    Downlink Assignment, 2 Packet Uplink Ack/Nack, 3 Packet Downlink Ack/Nack).  The final Packet Uplink Ack/Nack is
    answered by a Packet Resource Request of a new TBF (number [next s]) when the network allows it and there is
    something to send. *)
Inductive answers (s : sys) (n : node) : blk -> Prop :=
  | ans_ul_ass g b : n_reason n = 0 -> In g (gres s) -> g_ul g = Some (n_who n, b) -> a b = STARTING_TIME2 -> answers s n (BCtrlAck (g_id g))
  | ans_ul_ass_again b : n_reason n = 0 -> hasU s (n_who n) b -> a b = SCHED_PKT_RES_REQ -> answers s n (BResReq (n_who n))
  | ans_dl_ass g : n_reason n = 1 -> In g (gres s) -> g_id g = n_who n -> answers s n (BCtrlAck (n_who n))
  | ans_ul_ack g b : n_reason n = 2 -> In g (gres s) -> g_ul g = Some (n_who n, b) ->
      ~ (u b = RELEASING /\ tbf_est b = true /\ g_q g = true /\ g_dl g = None) -> answers s n (BCtrlAck (g_id g))
  | ans_ul_ack_new g b : n_reason n = 2 -> In g (gres s) -> g_ul g = Some (n_who n, b) ->
      u b = RELEASING -> tbf_est b = true -> g_q g = true -> g_dl g = None -> answers s n (BResReq (next s))
  | ans_dl_ack g d req : n_reason n = 3 -> In g (gres s) -> g_dl g = Some d -> d_id d = n_who n ->
      (req = true <-> g_ul g = None /\ g_q g = true) -> answers s n (BDlAck (n_who n) (d_fin d) req).

(** Uplink TBF [i] may send its Packet Resource Request in this block: on its USF, or in the single block it was
    assigned. *)
Definition res_req_due (s : sys) (ts fn usf i : Z) : Prop :=
  exists b us, hasU s i b /\ a b = SCHED_PKT_RES_REQ /\ slot (p1 b) ts = Some us /\
    (if sba b then start_ex b = true -> start_fn b = fn else us = usf).
(** Uplink TBF [i] has this block by its USF, and is in a state in which it sends data. *)
Definition owns_block (s : sys) (ts usf i : Z) : Prop := exists b, hasU s i b /\ slot (cur b) ts = Some usf.
Definition may_send_data (s : sys) (ts usf i : Z) : Prop :=
  exists b, hasU s i b /\ slot (cur b) ts = Some usf /\ (u b = FLOW \/ u b = FINISHED).

(** Everything that may be sent in a block: an answer to the poll that reserved it, or what a TBF sends in a block
    that was assigned to it. *)
Inductive granted (s : sys) (ts fn usf : Z) : blk -> Prop :=
  | gr_poll n b : In n (inorder (tree_of s ts)) -> n_fn n = fn -> answers s n b -> granted s ts fn usf b
  | gr_req i : res_req_due s ts fn usf i -> granted s ts fn usf (BResReq i)
  | gr_data i f : may_send_data s ts usf i -> granted s ts fn usf (BData i f)
  | gr_dummy i : owns_block s ts usf i -> granted s ts fn usf (BDummy i).

(** The poll [n] can be answered: the assignment that is to be acknowledged is the one awaited (or a new request is
    due), see C28_stale_refuted. *)
Definition answerable (s : sys) (n : node) : Prop := exists b, answers s n b.
(** ... and the answer precedes everything else; the acknowledgement of a downlink TBF that still receives comes after
    Packet Resource Requests. *)
Definition urgent (s : sys) (n : node) : Prop :=
  answerable s n /\ (n_reason n = 3 -> exists d, hasD s d /\ d_id d = n_who n /\ d_fin d = true).
(** The order of precedence.  [n]: the reservation for this block; [data]: some TBF has data to send. *)
Definition chosen (s : sys) (ts fn usf : Z) (n : option node) (data : bool) (b : option blk) : Prop :=
  (forall m, n = Some m -> urgent s m -> exists x, b = Some x /\ answers s m x) /\
  ((forall m, n = Some m -> ~ urgent s m) ->
     (forall i, res_req_due s ts fn usf i -> exists j, b = Some (BResReq j) /\ res_req_due s ts fn usf j) /\
     ((forall i, ~ res_req_due s ts fn usf i) ->
        (forall m, n = Some m -> answerable s m -> exists x, b = Some x /\ answers s m x) /\
        ((forall m, n = Some m -> ~ answerable s m) ->
           (forall i, may_send_data s ts usf i -> data = true -> exists j f, b = Some (BData j f) /\ may_send_data s ts usf j) /\
           ((forall i, ~ may_send_data s ts usf i) \/ data = false ->
              (forall i, owns_block s ts usf i -> exists j, b = Some (BDummy j) /\ owns_block s ts usf j) /\
              ((forall i, ~ owns_block s ts usf i) -> b = None))))).

(** The ways in which a ready-to-send indication ends the process: an awaited assignment without timeslots; the poll of
    an assignment whose entity is gone; a final Packet Uplink Ack/Nack that allows a new TBF, polled in a block with
    another USF than that of the old TBF; a data block that ends it (C27). *)
Definition rts_cause (s : sys) (bs : Z) (ts fn usf : Z) (data : option (bool * bool * bool)) : Prop :=
  (exists n, In n (inorder (tree_of s ts)) /\ n_fn n = fn /\ n_reason n = 1 /\ forall g, In g (gres s) -> g_id g <> n_who n) \/
  (exists n g b, In n (inorder (tree_of s ts)) /\ n_fn n = fn /\ n_reason n = 2 /\ In g (gres s) /\ g_ul g = Some (n_who n, b) /\
     u b = RELEASING /\ tbf_est b = true /\ g_q g = true /\ g_dl g = None /\ slot (cur b) ts <> Some usf) \/
  (exists i b final cd, data = Some (final, cd, false) /\ hasU s i b /\ abort_cause bs b (DataRts ts usf final cd false)).
Definition tick_cause (s : sys) : Prop := exists i b, hasU s i b /\ a b = STARTING_TIME2 /\ num_ts (p2 b) <= 0.

(** Which events end the process. *)
Definition event_cause (rb : UlcModel.rb_ops) (bs : Z) (s : sys) (e : sevent) : Prop :=
  match e with
  | UlAckNack tn tfi poll final est cc => exists i b, hasU s i b /\ abort_cause bs b (UlAck tn tfi poll final est cc)
  | Rts ts fn usf enc data =>
      tick_cause s \/ exists s1 o1, tick rb s (map g_id (gres s)) ts fn = Ok (s1, o1) /\ rts_cause s1 bs ts fn usf data
  | _ => False
  end.

(** *** Histories in time.  Frames are counted without wrapping.  [last ts]: the last ready-to-send indication of a
    timeslot.  A timeslot is not left alone for more than 600000 frames (46 minutes), a poll is for one of the next
    1000 frames, a ready-to-send indication is for the present frame. *)
Definition poll_of (e : sevent) : option (Z * Z) :=
  match e with
  | UlPktAss _ tn _ (Some pf) _ | UlAckNack tn _ (Some pf) _ _ _ | DlPktAss _ tn _ (Some pf) _ _ _ _ | DlData tn _ _ (Some pf) => Some (tn, pf)
  | _ => None
  end.
Definition in_time (last : Z -> Z) (n : Z) (e : sevent) : Prop :=
  match e with
  | Rts ts fn _ _ _ => 0 <= ts < 8 /\ fn = n mod 2715648 /\ n - last ts <= 600000
  | _ => match poll_of e with
         | Some (tn, pf) => 0 <= tn < 8 /\ n - last tn <= 600000 /\ exists m, pf = m mod 2715648 /\ n < m <= n + 1000
         | None => True
         end
  end.
Definition ticked (last : Z -> Z) (n : Z) (e : sevent) : Z -> Z :=
  match e with Rts ts _ _ _ _ => fun t => if t =? ts then n else last t | _ => last end.
Fixpoint on_time (last : Z -> Z) (now : Z) (l : list (Z * sevent)) : Prop :=
  match l with
  | [] => True
  | (n, e) :: r => now <= n /\ in_time last n e /\ on_time (ticked last n e) n r
  end.
