(** What C125 says about the use of uplink resources, in terms of the events and outputs of an uplink TBF.  Nothing here
    models repository code. *)
From Verif.Lib Require Import Base Outcome.
From Verif.Rlcmac Require Import FnModel UlcModel UlTbfModel UlTbfSpec.

(** The message gives the mobile timeslot [tn] (0 to 7) with USF [usf] for its data. *)
Definition gives (e : event) (tn usf : Z) : Prop :=
  match e with
  | ImmAss tn0 _ (IaDynamic _ usf0 _ _) => (0 <= tn0 <= 7 -> tn = tn0) /\ usf = usf0
  | PktUlAss _ _ _ (PuaDynamic _ _ _ slots8) => nth (Z.to_nat tn) slots8 None = Some usf
  | _ => False
  end.
(** The frame before which it must not be used: the starting time, or two blocks after the answer to a poll if that is later. *)
Definition not_before (e : event) : option Z :=
  match e with
  | ImmAss _ _ (IaDynamic _ _ _ st) => st
  | PktUlAss _ _ poll m =>
      let st := match m with PuaDynamic _ _ st _ => st | _ => None end in
      match poll with
      | None => st
      | Some pf => let nb := fn_next_block (fn_next_block pf) in
                   match st with
                   | Some x => Some (if fncmp x nb <? 0 then nb else x)
                   | None => Some nb
                   end
      end
  | _ => None
  end.
Definition heard_at (e : event) : Z := match e with ImmAss _ fn _ => fn | PktUlAss _ fn _ _ => fn | _ => 0 end.
Definition is_pua (e : event) : bool := match e with PktUlAss _ _ _ _ => true | _ => false end.
(** Since the message [e], with [m] after it, its resources may be used: it had no starting time or one that had passed; or a frame
    at or after the starting time has come on one of its timeslots, and no other Packet Uplink Assignment came between (for
    an assignment of that kind). *)
Definition in_effect (e : event) (m : list event) : Prop :=
  match not_before e with
  | None => True
  | Some x => fncmp x (heard_at e) <= 0 \/
      exists m1 tn usf fn m2, m = m1 ++ Tick tn fn :: m2 /\ 0 <= fncmp fn x /\ gives e (Z.max 0 tn) usf /\
        (is_pua e = true -> Forall (fun y => is_pua y = false) m1)
  end.
(** After the history [l] with outputs [o]: the mobile may use timeslot [tn] with [usf]: a message gave it, the message is in effect,
    and since it no new access was requested. *)
Definition granted (bs cs : Z) (h : how) (l : list event) (o : list out) (tn usf : Z) : Prop :=
  exists l1 e m s1 o1 o2, l = l1 ++ e :: m /\ run bs cs h l1 = Ok (Some s1, o1) /\ o = o1 ++ o2 /\
    gives e tn usf /\ in_effect e m /\ count is_rach o2 = 0 /\ count is_resreq o2 = 0.
(** An output that uses the resources of the TBF. *)
Definition uses (x : out) : bool := match x with Data _ | Dummy => true | _ => false end.
(** The block for a Packet Resource Request in frame [fn] of timeslot [tn] was given: by an immediate assignment of that single
    block since which no access was requested anew, or it is a block with the USF of the TBF that was being released. *)
Definition request_granted (bs cs : Z) (h : how) (l : list event) (o : list out) (tn fn usf : Z) : Prop :=
  (exists l1 tn0 fn0 m s1 o1 o2, l = l1 ++ ImmAss tn0 fn0 (IaSingleBlock fn) :: m /\ run bs cs h l1 = Ok (Some s1, o1) /\ o = o1 ++ o2 /\
     (0 <= tn0 <= 7 -> tn = tn0) /\ count is_rach o2 = 0) \/
  (exists al, h = FromReleasing al /\ slot al tn = Some usf /\ count is_rach o = 0).
