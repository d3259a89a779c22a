(** * The uplink scheduler: one block per indication, chosen by precedence, sent only where granted (C28, C41) *)
From Verif.Lib Require Import Base Outcome.
From Verif.Rlcmac Require Import FnModel UlcModel UlcProperties UlTbfModel UlTbfSpec UlTbfProperties SchedModel SchedSpec SchedProofs SchedRuns.

Section Theorems.
  Variable rb : rb_ops.
  Hypothesis Hrb : tree_library rb.
  Variable bs cs0 : Z.

  (** In any history: a ready-to-send indication leads to at most one block, for the timeslot and the frame of the
      indication; nothing else leads to a block. *)
  Theorem C28_one_block l s o e s' o' : srun rb bs cs0 sys0 l = Ok (s, o) -> sstep rb bs cs0 s e = Ok (s', o') ->
    match e with
    | Rts ts fn _ _ _ => blocks o' = [] \/ exists b, blocks o' = [(ts, fn, b)]
    | _ => blocks o' = []
    end.
  Proof.
    intros R E. pose proof (srun_inv rb Hrb bs cs0 l sys0 s o inv0 R) as I.
    assert (H : is_rts e = false -> blocks o' = []) by (intros Er; pose proof (sstep_other rb Hrb bs cs0 s e I Er) as P; rewrite E in P; apply P).
    destruct e; try exact (H eq_refl). cbn [sstep] in E. pose proof (rcv_rts_spec rb Hrb bs cs0 s ts fn usf enc data I) as P. rewrite E in P.
    destruct P as (_ & s1 & o1 & s2 & b & _ & _ & _ & _ & _ & _ & B & _). destruct b as [b|]; eauto.
  Qed.

  (** In any history: whatever is sent is an answer to a poll for that very block, or comes from an uplink TBF whose
      USF is that of the block (or, for a Packet Resource Request, whose single block it is).  [s1]: the state in
      which the starting times of this frame have been acted upon. *)
  Theorem C41_granted l s o ts fn usf enc data s' o' : srun rb bs cs0 sys0 l = Ok (s, o) -> sstep rb bs cs0 s (Rts ts fn usf enc data) = Ok (s', o') ->
    exists s1 o1, tick rb s (map g_id (gres s)) ts fn = Ok (s1, o1) /\ forall t f b, In (t, f, b) (blocks o') -> t = ts /\ f = fn /\ granted s1 ts fn usf b.
  Proof.
    intros R E. pose proof (srun_inv rb Hrb bs cs0 l sys0 s o inv0 R) as I. cbn [sstep] in E. pose proof (rcv_rts_spec rb Hrb bs cs0 s ts fn usf enc data I) as P. rewrite E in P.
    destruct P as (_ & s1 & o1 & s2 & b & Et & _ & _ & _ & _ & _ & B & G & _). exists s1, o1. split; [exact Et|]. intros t f x. rewrite B. destruct b as [b|]; [|intros []].
    intros [[= <- <- <-]|[]]. auto.
  Qed.

  (** A history is undefined only by one of the listed causes. *)
  Theorem C28_no_abort_partial l : match srun rb bs cs0 sys0 l with
    | Ok _ => True
    | Err _ => False
    | UB => exists l1 e l2 s o, l = l1 ++ e :: l2 /\ srun rb bs cs0 sys0 l1 = Ok (s, o) /\ event_cause rb bs s e
    end.
  Proof. exact (srun_cause rb Hrb bs cs0 l sys0 inv0). Qed.

  (** A history in time, and a ready-to-send indication at its end. *)
  Definition at_rts (t0 : Z) (l : list (Z * sevent)) (n ts usf : Z) (enc : encoding -> bool) (data : option (bool * bool * bool)) (s s1 s' : sys) (o' : list sout) : Prop :=
    on_time (fun _ => t0) t0 (l ++ [(n, Rts ts (n mod 2715648) usf enc data)]) /\
    (exists o, srun rb bs cs0 sys0 (map snd l) = Ok (s, o)) /\
    (exists o1, tick rb s (map g_id (gres s)) ts (n mod 2715648) = Ok (s1, o1)) /\
    sstep rb bs cs0 s (Rts ts (n mod 2715648) usf enc data) = Ok (s', o').

  Lemma at_rts_placed t0 l n ts usf enc data s s1 s' o' : at_rts t0 l n ts usf enc data s s1 s' o' ->
    0 <= ts < 8 /\ Inv s /\ (forall lo hi, win (tree_of s ts) lo hi -> win (tree_of s1 ts) lo hi) /\ exists last now, last <= now <= n /\ n - last <= 600000 /\ win (tree_of s ts) last (now + 1000) .
  Proof.
    intros (T & [o R] & [o1 Et] & E). rewrite on_time_app in T. destruct T as [T1 T2]. cbn [on_time in_time] in T2. destruct T2 as (Hn & (Hts & _ & Hl) & _).
    pose proof (placed_run rb Hrb bs cs0 l _ _ _ _ _ inv0 (placed0 t0) T1 R ts Hts) as [P1 P2].
    split; [exact Hts|]. split; [exact (srun_inv rb Hrb bs cs0 _ sys0 s o inv0 R)|]. split; [intros lo hi; apply (tick_shr rb Hrb _ _ _ _ _ _ Et)|].
    eexists _, _. split; [|split; [|exact P2]]; [split; assumption|assumption].
  Qed.

  (** The order of precedence, when no message fails to be encoded.  [m] is the reservation for this block, if any.
      Partial: encoding failures; polls that cannot be answered, see C28_stale_refuted. *)
  Theorem C28_precedence_partial t0 l n ts usf enc data s s1 s' o' : at_rts t0 l n ts usf enc data s s1 s' o' -> (forall e, enc e = true) ->
    exists m b, (forall x, m = Some x <-> In x (inorder (tree_of s1 ts)) /\ n_fn x = n mod 2715648) /\
      blocks o' = match b with Some x => [(ts, n mod 2715648, x)] | None => [] end /\
      chosen s1 ts (n mod 2715648) usf m (match data with Some _ => true | None => false end) b.
  Proof.
    intros A He. pose proof (at_rts_placed _ _ _ _ _ _ _ _ _ _ _ A) as (Hts & I & W1 & last & now & Hn & Hl & W). destruct A as (_ & _ & [o1 Et] & E).
    cbn [sstep] in E. pose proof (rcv_rts_spec rb Hrb bs cs0 s ts (n mod 2715648) usf enc data I) as P. rewrite E in P.
    destruct P as (_ & s1' & o1' & s2 & b & Et' & _ & S1 & _ & _ & _ & B & _ & C). rewrite Et in Et'. injection Et' as <- <-.
    exists (get_node (tree_of s1 ts) (n mod 2715648)), b. split; [|split; [exact B|exact (C He)]].
    intros x. split; [exact (get_node_in _ _ _)|]. intros [Hx Hf]. apply sane_get; [|exact Hx|exact Hf]. apply (win_sane _ last (now + 1000)); [apply W1, W|lia].
  Qed.

  (** The same read from the block that is sent: data only if no poll for this block can be answered and no Packet
      Resource Request is due; a dummy block only if moreover no TBF can send data; nothing only if the block belongs
      to nobody. *)
  Theorem C28_last_partial t0 l n ts usf enc data s s1 s' o' : at_rts t0 l n ts usf enc data s s1 s' o' -> (forall e, enc e = true) ->
    let no_poll := forall x, In x (inorder (tree_of s1 ts)) -> n_fn x = n mod 2715648 -> ~ answerable s1 x in
    let no_request := forall i, ~ res_req_due s1 ts (n mod 2715648) usf i in
    let no_data := data = None \/ forall i, ~ may_send_data s1 ts usf i in
    (forall i f, In (ts, n mod 2715648, BData i f) (blocks o') -> no_poll /\ no_request) /\
    (forall i, In (ts, n mod 2715648, BDummy i) (blocks o') -> no_poll /\ no_request /\ no_data) /\
    (blocks o' = [] -> no_poll /\ no_request /\ no_data /\ forall i, ~ owns_block s1 ts usf i).
  Proof.
    intros A He. destruct (C28_precedence_partial _ _ _ _ _ _ _ _ _ _ _ A He) as (m & b & Hm & B & C1 & C2). cbv zeta.
    set (P := forall x, In x (inorder (tree_of s1 ts)) -> n_fn x = n mod 2715648 -> ~ answerable s1 x).
    set (Q := forall i, ~ res_req_due s1 ts (n mod 2715648) usf i).
    assert (X : (match b with Some (BData _ _) | Some (BDummy _) | None => True | _ => False end) -> P /\ Q /\
      ((match b with Some (BDummy _) | None => True | _ => False end) -> (data = None \/ forall i, ~ may_send_data s1 ts usf i) /\ (b = None -> forall i, ~ owns_block s1 ts usf i))).
    { intros Hb. assert (Hans : forall x y, b = Some y -> ~ answers s1 x y) by (intros x y -> Hy; destruct Hy; exact Hb).
      assert (U : forall x, m = Some x -> ~ urgent s1 x) by (intros x Hx Hu; destruct (C1 x Hx Hu) as (y & -> & Hy); exact (Hans x y eq_refl Hy)).
      destruct (C2 U) as [C3 C4]. assert (HQ : Q) by (intros i Hi; destruct (C3 i Hi) as (j & -> & _); exact Hb).
      destruct (C4 HQ) as [C5 C6]. assert (HP : forall x, m = Some x -> ~ answerable s1 x) by (intros x Hx Ha; destruct (C5 x Hx Ha) as (y & -> & Hy); exact (Hans x y eq_refl Hy)).
      split; [intros x Hx Hf; apply HP; apply Hm; auto|]. split; [exact HQ|]. intros Hd. destruct (C6 HP) as [C7 C8].
      assert (ND : data = None \/ forall i, ~ may_send_data s1 ts usf i) by (destruct data as [d|]; [right|now left]; intros i Hi; destruct (C7 i Hi eq_refl) as (j & f & -> & _); exact Hd).
      split; [exact ND|]. intros Hn. destruct C8 as [C9 _]; [destruct ND as [-> |ND]; [now right|now left]|]. intros i Hi. destruct (C9 i Hi) as (j & Hj & _). congruence. }
    rewrite B. split; [|split].
    - intros i f Hin. destruct b as [b|]; [|destruct Hin]. destruct Hin as [Hin|[]]. injection Hin as ->. destruct (X Logic.I) as (HP & HQ & _). auto.
    - intros i Hin. destruct b as [b|]; [|destruct Hin]. destruct Hin as [Hin|[]]. injection Hin as ->. destruct (X Logic.I) as (HP & HQ & R). specialize (R Logic.I). tauto.
    - intros Hn. destruct b as [b|]; [discriminate|]. destruct (X Logic.I) as (HP & HQ & R). specialize (R Logic.I). tauto.
  Qed.

  (** After the indication, every reservation of the timeslot is for a later frame. *)
  Theorem C28_expired t0 l n ts usf enc data s s1 s' o' : at_rts t0 l n ts usf enc data s s1 s' o' ->
    forall x, In x (inorder (tree_of s' ts)) -> exists k, n < k <= n + 1000 /\ n_fn x = k mod 2715648.
  Proof.
    intros A. pose proof (at_rts_placed _ _ _ _ _ _ _ _ _ _ _ A) as (Hts & I & _ & last & now & Hn & Hl & W). destruct A as (_ & _ & _ & E).
    cbn [sstep] in E. pose proof (rcv_rts_spec rb Hrb bs cs0 s ts (n mod 2715648) usf enc data I) as P. rewrite E in P.
    destruct P as (_ & s1' & o1' & s2 & b & _ & _ & S1 & S2 & -> & L & _). intros x. unfold tree_of, set_tree. cbn [ulc]. rewrite nth_upd_same by lia.
    fold (tree_of s2 ts). assert (W2 : win (tree_of s2 ts) last (now + 1000)) by (apply S2, S1, W). intros Hx.
    destruct (sane_expire rb Hrb (tree_of s2 ts) n x) as [Hin Hc]; [apply (win_sane _ last (now + 1000)); [exact W2|lia]|exact Hx|].
    destruct W2 as (L2 & (E2 & _) & H2). rewrite E2 in Hin. apply in_map_iff in Hin as (y & <- & Hy). unfold within in H2. rewrite Forall_forall in H2. specialize (H2 _ Hy). cbv beta in H2.
    rewrite conc_fn in Hc. rewrite fncmp_spec in Hc by lia. exists (fst y). rewrite conc_fn. split; [|reflexivity]. destruct (Z.ltb_spec (fst y) n); [lia|]. destruct (Z.eqb_spec (fst y) n); lia.
  Qed.
End Theorems.

(** ---------- what is not so ---------- *)
(** Checks a concrete history. *)
Ltac in_order := cbn [app on_time in_time poll_of ticked]; repeat match goal with
  | |- _ /\ _ => split | |- True => exact Logic.I | |- exists m, ?f = m mod _ /\ _ => exists f; split; [reflexivity|] | |- _ => first [lia | vm_compute; (reflexivity || discriminate || (split; discriminate))] end.
Definition all_ok (e : encoding) : bool := true.
Definition go := srun plain 15 1 sys0.
Definition timed (l : list (Z * sevent)) : list sevent := map snd l.
(** An entity (1) with an uplink TBF (2) in transfer on timeslot 3 with USF 1. *)
Definition transfer : list (Z * sevent) :=
  [(90, NewGre); (91, Enqueue 1 true); (100, UlImmAss 3 100 (IaDynamic 5 1 0 None)); (117, Rts 3 117 1 all_ok (Some (false, false, true)))].
(** ... and all of its data sent and acknowledged, but for the answer to the final Packet Uplink Ack/Nack, polled at
    frame 413; meanwhile another LLC PDU has come. *)
Definition finished : list (Z * sevent) :=
  transfer ++ [(200, Rts 3 200 1 all_ok (Some (true, true, true))); (300, Enqueue 1 true); (400, UlAckNack 3 5 (Some 413) true true 0)].
(** The poll of the final Packet Uplink Ack/Nack ends the process when the block has another USF than the TBF had:
    the assertion (sched.c:202) demands the USF although the block is reserved. *)
Theorem C28_final_poll_refuted :
  let l := finished ++ [(413, Rts 3 413 7 all_ok None)] in
  on_time (fun _ => 80) 80 l /\ go (timed l) = UB /\ exists s o, go (timed finished) = Ok (s, o) /\ In (mkNode 413 2 2) (inorder (tree_of s 3)).
Proof.
  cbv zeta. split; [|split; [vm_compute; reflexivity|]].
  - unfold finished, transfer. in_order.
  - destruct (go (timed finished)) as [[s o]|?|] eqn:E; [|vm_compute in E; discriminate..]. exists s, o. split; [reflexivity|]. vm_compute in E. injection E as <- _. vm_compute. tauto.
Qed.
(** An entity released while the answer to a Packet Downlink Assignment is outstanding is used after it was freed. *)
Theorem C28_dead_entity_refuted :
  let l := [(90, NewGre); (100, DlPktAss 1 2 100 (Some 113) (Some 7) None (upd no_dl_slots 2 true) false); (105, DelGre 1); (113, Rts 2 113 0 all_ok None)] in
  on_time (fun _ => 80) 80 l /\ go (timed l) = UB.
Proof.
  cbv zeta. split; [in_order|vm_compute; reflexivity].
Qed.
(** A second Packet Uplink Assignment without starting time, received before the poll of the first one is due, makes
    the TBF forget the poll: the block reserved for the answer carries data. *)
Definition stale : list (Z * sevent) :=
  [(90, NewGre); (91, Enqueue 1 true); (100, UlImmAss 3 100 (IaSingleBlock 200)); (200, Rts 3 200 0 all_ok None);
   (300, UlPktAss 1 3 300 (Some 313) (PuaDynamic (Some 9) 1 None [None; None; None; Some 5; None; None; None; None]));
   (304, UlPktAss 1 3 304 None (PuaDynamic (Some 9) 1 None [None; None; None; Some 5; None; None; None; None]))].
Theorem C28_stale_refuted : on_time (fun _ => 80) 80 stale /\ exists s o s' o',
  go (timed stale) = Ok (s, o) /\ In (mkNode 313 0 2) (inorder (tree_of s 3)) /\ (exists b, hasU s 2 b) /\
  sstep plain 15 1 s (Rts 3 313 5 all_ok (Some (false, false, true))) = Ok (s', o') /\ blocks o' = [(3, 313, BData 2 false)] /\ inorder (tree_of s' 3) = [].
Proof.
  split; [unfold stale; in_order|].
  destruct (go (timed stale)) as [[s o]|?|] eqn:E; [|vm_compute in E; discriminate..].
  destruct (sstep plain 15 1 s (Rts 3 313 5 all_ok (Some (false, false, true)))) as [[s' o']|?|] eqn:E2.
  - exists s, o, s', o'. vm_compute in E. injection E as <- _. split; [reflexivity|]. split; [vm_compute; tauto|]. split; [eexists; eexists; split; [left; reflexivity|reflexivity]|].
    split; [exact E2|]. vm_compute in E2. injection E2 as <- <-. split; reflexivity.
  - vm_compute in E. injection E as <- _. vm_compute in E2. discriminate.
  - vm_compute in E. injection E as <- _. vm_compute in E2. discriminate.
Qed.

(** ---------- the hypotheses are met ---------- *)
(** Precedence on one timeslot: the poll of a downlink TBF that has ended, before the data of the uplink TBF. *)
Definition both : list (Z * sevent) :=
  transfer ++ [(300, DlPktAss 1 3 300 None (Some 7) None (upd no_dl_slots 3 true) false); (304, DlData 3 7 true (Some 317))].
Example C28_nonvacuous : exists s s1 s' o',
  at_rts plain 15 1 80 both 317 3 1 all_ok (Some (false, false, true)) s s1 s' o' /\ In (mkNode 317 3 3) (inorder (tree_of s1 3)) /\
  may_send_data s1 3 1 2 /\ blocks o' = [(3, 317, BDlAck 3 true false)].
Proof.
  destruct (srun plain 15 1 sys0 (map snd both)) as [[s o]|?|] eqn:E; [|vm_compute in E; discriminate..].
  destruct (tick plain s (map g_id (gres s)) 3 (317 mod 2715648)) as [[s1 o1]|?|] eqn:E1.
  destruct (sstep plain 15 1 s (Rts 3 (317 mod 2715648) 1 all_ok (Some (false, false, true)))) as [[s' o']|?|] eqn:E2.
  - exists s, s1, s', o'. split.
    + split; [|split; [exists o; exact E|split; [exists o1; exact E1|exact E2]]].
      unfold both, transfer. in_order.
    + vm_compute in E. injection E as <- _. vm_compute in E1. injection E1 as <- _. vm_compute in E2. injection E2 as _ <-. split; [vm_compute; tauto|]. split; [|reflexivity].
      eexists. split; [eexists; split; [left; reflexivity|reflexivity]|]. split; [reflexivity|left; reflexivity].
  - vm_compute in E. injection E as <- _. vm_compute in E2. discriminate.
  - vm_compute in E. injection E as <- _. vm_compute in E2. discriminate.
  - vm_compute in E. injection E as <- _. vm_compute in E1. discriminate.
  - vm_compute in E. injection E as <- _. vm_compute in E1. discriminate.
Qed.
(** The blocks of a whole session: the request, the answer to the assignment, data, dummy, the answer to the final
    acknowledgement. *)
Example C28_nonvacuous_session :
  match go (timed (firstn 5 stale) ++ [Rts 3 313 5 all_ok None; Rts 3 330 5 all_ok (Some (false, false, true)); Rts 3 334 5 all_ok None;
                    Rts 3 338 4 all_ok (Some (false, false, true)); Rts 3 343 5 all_ok (Some (true, true, true)); Drained 1; UlAckNack 3 9 (Some 360) true false 1; Rts 3 360 0 all_ok None]) with
  | Ok (_, o) => blocks o = [(3, 200, BResReq 2); (3, 313, BCtrlAck 1); (3, 330, BData 2 false); (3, 334, BDummy 2); (3, 343, BData 2 true); (3, 360, BCtrlAck 1)]
  | _ => False
  end.
Proof. vm_compute. reflexivity. Qed.
(** A reservation for a later frame survives. *)
Example C28_nonvacuous_expired :
  match go (timed (transfer ++ [(300, UlAckNack 3 5 (Some 313) false false 0); (301, UlAckNack 3 5 (Some 317) false false 0); (313, Rts 3 313 1 all_ok None)])) with
  | Ok (s, _) => inorder (tree_of s 3) = [mkNode 317 2 2]
  | _ => False
  end.
Proof. vm_compute. reflexivity. Qed.

Print Assumptions C28_one_block.
Print Assumptions C41_granted.
Print Assumptions C28_no_abort_partial.
Print Assumptions C28_precedence_partial.
Print Assumptions C28_last_partial.
Print Assumptions C28_expired.
Print Assumptions C28_final_poll_refuted.
Print Assumptions C28_dead_entity_refuted.
Print Assumptions C28_stale_refuted.
