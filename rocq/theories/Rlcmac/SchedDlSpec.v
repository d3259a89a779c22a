(** What C42 says about downlink TBFs, and what C45 says about the addressing of messages to uplink TBFs. *)
From Verif.Lib Require Import Base Outcome.
From Verif.Rlcmac Require Import FnModel UlcModel UlTbfModel UlTbfSpec SchedModel SchedSpec.

(** Entity [i] is there with downlink TBF [t] and awaited downlink assignment [w]. *)
Definition entity (s : sys) (i : Z) (t : option dl_tbf) (w : option dl_wait) : Prop :=
  exists g, In g (gres s) /\ g_id g = i /\ g_dl g = t /\ g_ass g = w.

(** The assignment in a message: TFI, timeslots, starting time, frame of reception.  An immediate assignment names one
    timeslot; those of an assignment that is still awaited are kept. *)
Definition with_slot (l : list bool) (tn : Z) : list bool :=
  match Z.to_nat tn with
  | n => firstn n l ++ match skipn n l with [] => [] | _ :: r => true :: r end
  end.
Definition assigned (e : sevent) (i : Z) (w : option dl_wait) : option (Z * list bool * option Z * Z) :=
  match e with
  | DlImmAss j tn fn tfi st =>
      if j =? i then Some (tfi, with_slot (match w with Some x => w_slots x | None => [false; false; false; false; false; false; false; false] end) tn, st, fn) else None
  | DlPktAss j _ fn _ tfi st sl _ => if j =? i then Some (match tfi with Some t => t | None => 255 end, sl, st, fn) else None
  | _ => None
  end.
(** The starting time lies ahead of the frame. *)
Definition ahead (st : option Z) (fn : Z) : Prop := exists f, st = Some f /\ 0 < fncmp f fn.

(** Nothing in the event concerns the downlink side of entity [i]. *)
Definition quiet (s : sys) (e : sevent) (o : list sout) (i : Z) (t : option dl_tbf) (w : option dl_wait) : Prop :=
  match e with
  | DlImmAss j _ _ _ _ | DlPktAss j _ _ _ _ _ _ _ => j <> i
  | DlData _ tfi _ _ => forall d, t = Some d -> d_tfi d = tfi -> exists j d' w', j <> i /\ entity s j (Some d') w' /\ d_tfi d' = tfi
  | DlT3190 j => j = i -> forall d, t = Some d -> d_3190 d = false
  | DlT3192 j => j = i -> forall d, t = Some d -> d_3192 d = false
  | Rts ts fn _ _ _ =>
      (forall d r, t = Some d -> ~ In (ts, fn, BDlAck (d_id d) true r) (blocks o)) /\ (forall x, w = Some x -> ~ (ts = 0 /\ w_start x = fn))
  | _ => True
  end.

(** The life of the downlink TBF of entity [i]: what an event does to the TBF and to the awaited assignment.  [s], [o]:
    the state before the event and the outputs. *)
Inductive life (s : sys) (e : sevent) (o : list sout) (i : Z) : option dl_tbf -> option dl_wait -> option dl_tbf -> option dl_wait -> Prop :=
  | life_same t w : quiet s e o i t w -> life s e o i t w t w
  (* it begins with an assignment, with a number never used, and T3190 runs *)
  | life_begin t w j tfi sl st fn : assigned e i w = Some (tfi, sl, st, fn) -> ~ ahead st fn -> In (DlConfigure j tfi sl) o -> next s <= j ->
      life s e o i t w (Some (mkDl j false tfi sl true false)) None
  (* an assignment for later is remembered *)
  | life_wait t w f tfi sl fn : assigned e i w = Some (tfi, sl, Some f, fn) -> ahead (Some f) fn ->
      (forall tn poll tf sl' d, e = DlPktAss i tn fn poll tf (Some f) sl' true -> t = Some d -> d_3192 d = false) ->
      life s e o i t w t (Some (mkWait f tfi sl))
  (* ... and if the TBF was about to be released, it is released already *)
  | life_wait_gone d w f tfi sl fn tn poll tf sl' : assigned e i w = Some (tfi, sl, Some f, fn) -> ahead (Some f) fn ->
      e = DlPktAss i tn fn poll tf (Some f) sl' true -> d_3192 d = true ->
      life s e o i (Some d) w None (Some (mkWait f tfi sl))
  (* the awaited starting time, seen on timeslot 0 *)
  | life_start t x j usf enc data : e = Rts 0 (w_start x) usf enc data -> In (DlConfigure j (w_tfi x) (w_slots x)) o -> next s <= j ->
      life s e o i t (Some x) (Some (mkDl j false (w_tfi x) (w_slots x) true false)) None
  (* a data block with its TFI restarts T3190; the last one ends the reception *)
  | life_block d w tn last poll : e = DlData tn (d_tfi d) last poll ->
      life s e o i (Some d) w (Some (mkDl (d_id d) (d_fin d || last) (d_tfi d) (d_slots d) true (d_3192 d))) w
  (* the final acknowledgement stops T3190 and starts T3192 *)
  | life_final d w ts fn usf enc data r : e = Rts ts fn usf enc data -> d_fin d = true -> In (ts, fn, BDlAck (d_id d) true r) (blocks o) ->
      life s e o i (Some d) w (Some (mkDl (d_id d) true (d_tfi d) (d_slots d) false true)) w
  (* it ends when a running timer expires *)
  | life_t3190 d w : e = DlT3190 i -> d_3190 d = true -> In (DlExpired (d_id d) 3190) o -> life s e o i (Some d) w None w
  | life_t3192 d w : e = DlT3192 i -> d_3192 d = true -> In (DlExpired (d_id d) 3192) o -> life s e o i (Some d) w None w.

(** *** Uplink *)
(** Uplink TBF number [j] in state [b] belongs to entity [i]. *)
Definition uplink (s : sys) (i j : Z) (b : tbf) : Prop := exists g, In g (gres s) /\ g_id g = i /\ g_ul g = Some (j, b).
(** The message or timer is for the uplink TBF in state [b] of entity [i]; as an event of this TBF. *)
Definition for_ul (e : sevent) (i : Z) (b : tbf) : option event :=
  match e with
  | UlImmAss tn fn ia => match a b with WAIT_CCCH_IMM_ASS => Some (ImmAss tn fn ia) | _ => None end
  | UlPktAss k tn fn poll m => if k =? i then Some (PktUlAss tn fn poll m) else None
  | UlAckNack tn tfi poll final est cc => if ul_tfi (cur b) =? tfi then Some (UlAck tn tfi poll final est cc) else None
  | PdchCnf tn fn => match u b with RELEASING => if (ack_fn b =? fn) && (ack_tn b =? tn) then Some (DataCnf tn fn) else None | _ => None end
  | UlTimer k rach => if k =? i then Some (Timer rach) else None
  | UlT3168 k => if k =? i then Some T3168 else None
  | UlT3180 k => if k =? i then Some T3180 else None
  | _ => None
  end.
