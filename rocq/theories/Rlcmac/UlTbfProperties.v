(** C27: an uplink TBF goes through its states in order, gives up after the fourth timeout of a kind, and a history ends
    the process only in the ways listed in [abort_cause].  The full property is false: see the refutations. *)
From Verif.Lib Require Import Base Outcome.
From Verif.Rlcmac Require Import FnModel UlcModel UlTbfModel UlTbfSpec UlTbfProofs.

Lemma run_from_app bs st o l1 l2 :
  run_from bs st o (l1 ++ l2) = do x <- run_from bs st o l1; run_from bs (fst x) (snd x) l2.
Proof.
  revert st o. induction l1 as [|e l1 IH]; intros st o; [reflexivity|]. cbn [app run_from].
  destruct st as [s|]; [|cbn [bind fst snd]; destruct l2; reflexivity].
  destruct (step bs s e) as [[st' o']|?|]; cbn [bind fst snd]; [apply IH|reflexivity..].
Qed.
Lemma run_app bs cs h l1 l2 : run bs cs h (l1 ++ l2) = do x <- run bs cs h l1; run_from bs (fst x) (snd x) l2.
Proof.
  unfold run. destruct (start cs h) as [[st o]|?|]; cbn [bind fst snd]; [apply run_from_app|reflexivity..].
Qed.
Lemma run_from_acc bs st o l : run_from bs st o l = do x <- run_from bs st [] l; Ok (fst x, o ++ snd x).
Proof.
  revert st o. induction l as [|e l IH]; intros st o; [cbn; rewrite app_nil_r; reflexivity|]. cbn [run_from].
  destruct st as [s|]; [|cbn; rewrite app_nil_r; reflexivity].
  destruct (step bs s e) as [[st' o']|?|]; cbn [bind fst snd]; [|reflexivity..].
  rewrite (IH st' (o ++ o')), (IH st' ([] ++ o')). destruct (run_from bs st' [] l) as [[s2 o2]|?|]; cbn [bind fst snd app]; [|reflexivity..].
  rewrite app_assoc. reflexivity.
Qed.

Definition by_rach (h : how) : Z := match h with ByRach _ => 1 | _ => 0 end.
Definition from_rel (h : how) : Z := match h with FromReleasing _ => 1 | _ => 0 end.
(** What holds after a history. *)
Definition good (h : how) (r : option tbf * list out) : Prop :=
  let o := snd r in
  match fst r with
  | Some s => inv s /\ count is_freed o = 0 /\ acc_att s = count is_access_timeout o /\
      count is_rach o = by_rach h + count is_access_timeout o + count is_n3104 o /\
      res_att s = count is_t3168 o /\ count is_resreq o + pot (a s) <= count is_rach o + count is_t3168 o + from_rel h
  | None => count is_freed o = 1 /\ count is_access_timeout o <= 4 /\ count is_rach o <= 4 + count is_n3104 o /\
      count is_t3168 o <= 4 /\ count is_resreq o <= count is_rach o + count is_t3168 o + from_rel h
  end.
Lemma start_good cs h : exists r, start cs h = Ok r /\ good h r.
Proof.
  destruct h as [[]|al|tn]; eexists; (split; [reflexivity|]); unfold good; cbn; try lia;
    (split; [unfold inv; cbn|]; repeat split; auto; try lia; try exact wf_alloc0).
Qed.
Lemma step_good bs h s o e : good h (Some s, o) ->
  match step bs s e with
  | Ok (st', o') => good h (st', o ++ o') /\ ~ abort_cause bs s e
  | Err _ => False
  | UB => abort_cause bs s e
  end.
Proof.
  intros (I & G1 & G2 & G3 & G4 & G5). cbn [fst snd] in *. pose proof (step_ok bs s e I) as P. unfold post in P.
  assert (J : 0 <= acc_att s <= 3 /\ 0 <= res_att s <= 3) by (unfold inv in I; tauto).
  assert (B : 0 <= by_rach h <= 1) by (destruct h; cbn; lia).
  assert (PP : 0 <= pot (a s)) by (destruct (a s); cbn; lia).
  destruct (step bs s e) as [[[s'|] o']|?|]; [| |exact P..].
  - destruct P as (P1 & P2 & P3 & P4 & P5 & P6 & P7 & P8 & P9 & P10). split; [|exact P1]. unfold good; cbn [fst snd]. rewrite !count_app. repeat split; try lia; apply P2.
  - destruct P as (P1 & P2 & P3 & P4 & P5 & P6 & P7 & _). split; [|exact P1]. unfold good; cbn [fst snd]. rewrite !count_app.
    pose proof (count_nonneg is_rach o'). pose proof (count_nonneg is_t3168 o'). repeat split; lia.
Qed.
Lemma run_from_good bs h l : forall st o, good h (st, o) ->
  match run_from bs st o l with
  | Ok r => good h r
  | Err _ => False
  | UB => exists l1 e l2 s o', l = l1 ++ e :: l2 /\ run_from bs st o l1 = Ok (Some s, o') /\ abort_cause bs s e
  end.
Proof.
  induction l as [|e l IH]; intros st o G; [exact G|]. cbn [run_from]. destruct st as [s|]; [|exact G].
  pose proof (step_good bs h s o e G) as P. destruct (step bs s e) as [[st' o']|?|] eqn:Es; cbn [bind fst snd]; [|exact P|].
  - destruct P as [P _]. specialize (IH _ _ P). destruct (run_from bs st' (o ++ o') l); [exact IH|exact IH|].
    destruct IH as (l1 & e' & l2 & s' & o2 & -> & R & A). exists (e :: l1), e', l2, s', o2. split; [reflexivity|]. split; [|exact A].
    cbn [run_from]. rewrite Es. exact R.
  - exists [], e, l, s, o. split; [reflexivity|]. split; [reflexivity|exact P].
Qed.
Lemma run_good bs cs h l :
  match run bs cs h l with
  | Ok r => good h r
  | Err _ => False
  | UB => exists l1 e l2 s o', l = l1 ++ e :: l2 /\ run bs cs h l1 = Ok (Some s, o') /\ abort_cause bs s e
  end.
Proof.
  unfold run. destruct (start_good cs h) as ([st o] & -> & G). cbn [bind fst snd]. exact (run_from_good bs h l st o G).
Qed.

(** A history of events ends the process exactly when one of its events is a cause of [abort_cause] in the state it
    meets.  Partial: the property says that no event does; the causes are realised below. *)
Theorem C27_no_abort_partial bs cs h l :
  run bs cs h l = UB <-> exists l1 e l2 s o, l = l1 ++ e :: l2 /\ run bs cs h l1 = Ok (Some s, o) /\ abort_cause bs s e.
Proof.
  split.
  - intros E. pose proof (run_good bs cs h l) as G. rewrite E in G. exact G.
  - intros (l1 & e & l2 & s & o & -> & R & A). rewrite run_app, R. cbn [bind fst snd run_from].
    pose proof (run_good bs cs h l1) as G. rewrite R in G. pose proof (step_good bs h s o e G) as P.
    destruct (step bs s e) as [[st' o']|?|]; [tauto|destruct P|reflexivity].
Qed.

(** The states are visited in order: waiting for an assignment, flow, finished, releasing; from flow and finished the
    access may start again; nothing else. *)
Theorem C27_states bs cs h l s o e s' o' : run bs cs h l = Ok (Some s, o) -> step bs s e = Ok (Some s', o') ->
  u s <> NEW /\ u_next (u s) (u s') /\ a_next (a s) (a s') /\ (a s = IDLE <-> u s <> WAIT_ASSIGN).
Proof.
  intros R S. pose proof (run_good bs cs h l) as G. rewrite R in G. destruct G as (I & _). pose proof (step_ok bs s e I) as P. rewrite S in P.
  cbn in P. destruct P as (_ & _ & P1 & P2 & _). unfold inv in I. destruct I as (_ & _ & _ & _ & _ & Ia & _).
  repeat split; try assumption; [|intros E|intros E]; destruct (a s); intuition congruence.
Qed.

(** Timeouts and retries, counted over the whole life of a TBF.  Partial: at most four attempts "per cause" holds for
    the timeouts of the access (T3164, T3166 together) and of the resource request (T3168), and the fourth one frees
    the TBF; channel requests that follow the N3104 limit are not limited (C27_retry_refuted). *)
Theorem C27_attempts_partial bs cs h l st o : run bs cs h l = Ok (st, o) ->
  count is_access_timeout o <= 4 /\ (count is_access_timeout o = 4 -> st = None) /\
  count is_t3168 o <= 4 /\ (count is_t3168 o = 4 -> st = None) /\
  count is_rach o <= 4 + count is_n3104 o /\
  count is_resreq o <= count is_rach o + count is_t3168 o + (match h with FromReleasing _ => 1 | _ => 0 end) /\
  count is_freed o = match st with None => 1 | Some _ => 0 end.
Proof.
  intros R. pose proof (run_good bs cs h l) as G. rewrite R in G. unfold good, by_rach, from_rel in G. cbn [fst snd] in G.
  destruct st as [s|].
  - destruct G as (I & G1 & G2 & G3 & G4 & G5).
    assert (J : 0 <= acc_att s <= 3 /\ 0 <= res_att s <= 3) by (unfold inv in I; tauto).
    assert (PP : 0 <= pot (a s)) by (destruct (a s); cbn; lia).
    repeat split; try lia. destruct h; lia.
  - intuition lia.
Qed.

(** A TBF is freed only by: the confirmation that the answer to the final acknowledgement was sent; T3182; T3180; the
    fourth access timeout; the fourth T3168, or the first when the assignment came from a downlink TBF; a channel
    request that the lower layer refuses. *)
Theorem C27_freed_only bs cs h l s o e o' : run bs cs h l = Ok (Some s, o) -> step bs s e = Ok (None, o') ->
  match e with
  | DataCnf tn fn => u s = RELEASING /\ fn = ack_fn s /\ tn = ack_tn s
  | T3180 => t3180 s = true
  | T3168 => a s = WAIT_PKT_UL_ASS /\ (from_dl s = true \/ count is_t3168 (o ++ o') = 4)
  | Timer rach => pend s = true /\
      (T s = 3182 \/ (T s = 3164 \/ T s = 3166) /\ (count is_access_timeout (o ++ o') = 4 \/ rach = false))
  | _ => False
  end.
Proof.
  intros R S. pose proof (run_good bs cs h l) as G. rewrite R in G. unfold good in G. cbn [fst snd] in G.
  destruct G as (I & G1 & G2 & G3 & G4 & G5). pose proof (step_ok bs s e I) as P. rewrite S in P. cbn in P.
  destruct P as (_ & P2 & P3 & P4 & P5 & P6 & P7 & P8). rewrite !count_app.
  destruct e; try exact P8.
  - destruct P8 as (Q1 & [Q2 | (Q2 & [Q3 | Q3])]); (split; [exact Q1|]); [left; exact Q2|right..]; (split; [exact Q2|]); [|right; exact Q3].
    left. cbn [step] in S. unfold timer_cb in S. rewrite Q1 in S. cbn [negb T set_u u acc_att set_counts] in S. rewrite Q3 in S. cbn [Z.eqb Z.add Pos.add Pos.succ Pos.eqb] in S.
    assert (X : o' = [Expired (T s); Freed]).
    { destruct (T s =? 3164) eqn:E1; [destruct (u s); inversion S; reflexivity|]. destruct (T s =? 3166) eqn:E2; [destruct (u s); inversion S; reflexivity|lia]. }
    rewrite X. cbn [count is_access_timeout]. replace ((T s =? 3164) || (T s =? 3166)) with true by lia. lia.
  - destruct P8 as (Q1 & [Q2 | Q2]); (split; [exact Q1|]); [left; exact Q2|]. right.
    cbn [step] in S. unfold t3168_cb in S. assert (Et : t3168 s = true) by (unfold inv in I; rewrite Q1 in I; tauto). rewrite Et in S. cbn [negb a set_a set_counts res_att] in S.
    rewrite Q1, Q2 in S. cbn [Z.eqb Z.add Pos.add Pos.succ Pos.eqb] in S. destruct (from_dl s); inversion S; subst; cbn [count is_t3168 app Z.eqb Pos.eqb]; lia.
Qed.

(** Outside the states in which it waits for the network to assign resources, or for its turn to ask for them, a TBF has
    a timer running, so it cannot stay for ever: a timeout frees it or starts the access again (C27_freed_only,
    C27_attempts_partial).  Partial: "never leaks" fails in the states left out (C27_leak_refuted, C27_sba_refuted). *)
Theorem C27_supervised_partial bs cs h l s o : run bs cs h l = Ok (Some s, o) ->
  u s <> WAIT_ASSIGN \/ a s = WAIT_PKT_UL_ASS -> supervised s.
Proof.
  intros R H. pose proof (run_good bs cs h l) as G. rewrite R in G. destruct G as (I & _). unfold inv in I. unfold supervised.
  destruct I as (_ & _ & _ & _ & I5 & Ia & _ & Iu). destruct H as [H | H].
  - destruct (u s) eqn:Eu; try tauto; destruct (a s); intuition congruence.
  - rewrite H in I5. tauto.
Qed.

(** ---------- refutations ---------- *)
Definition dyn (tn usf : Z) : event := ImmAss tn 100 (IaDynamic 5 usf 0 None).
(** An acknowledgement that arrives after the assignment and before the first data block ends the process. *)
Theorem C27_early_ack_refuted : exists l, run 15 1 (ByRach true) l = UB /\ length l = 2%nat.
Proof. exists [dyn 3 1; UlAck 3 5 None false false 0]. vm_compute. split; reflexivity. Qed.
(** A Packet Uplink Assignment of an unsupported kind that asks for an answer ends the process at the next block. *)
Theorem C27_bad_assignment_refuted : exists l, run 15 1 (ByRach true) l = UB.
Proof.
  exists [ImmAss 3 100 (IaSingleBlock 100); AssRts 3 100 0 true; PktUlAss 3 200 (Some 213) (PuaUnsupported None); Tick 3 204].
  vm_compute. reflexivity.
Qed.
(** An acknowledgement that arrives after the access was started again, for TFI 0 and with another coding scheme, ends
    the process when the countdown had begun. *)
Theorem C27_late_ack_refuted : exists l, run 15 1 (ByRach true) l = UB.
Proof.
  exists [ImmAss 3 100 (IaDynamic 0 1 0 None); DataRts 3 1 false true true; Timer true; UlAck 3 0 None false false 1].
  vm_compute. reflexivity.
Qed.
(** Without acknowledgements the access is repeated without limit. *)
Definition cycle : list event := ImmAss 3 100 (IaDynamic 5 1 0 None) :: repeat (DataRts 3 1 false false true) 54.
Definition s_cycle : tbf :=
  mkTbf WAIT_ASSIGN 0 false 0 0 false 0 0 0 alloc0 true false 1 WAIT_CCCH_IMM_ASS false false alloc0 alloc0 false 0 false false 0.
Theorem C27_retry_refuted : forall n : nat, exists l s o, run 15 1 (ByRach true) l = Ok (Some s, o) /\ Z.of_nat n < count is_rach o.
Proof.
  intros n. exists (concat (repeat cycle (S n))).
  assert (C1 : forall o, exists o', run_from 15 (Some s_cycle) o cycle = Ok (Some s_cycle, o ++ o') /\ count is_rach o' = 1).
  { intros o. rewrite run_from_acc. eexists. split; [vm_compute (run_from 15 (Some s_cycle) [] cycle); cbn [bind fst snd]; reflexivity|vm_compute; reflexivity]. }
  assert (C0 : exists o', run 15 1 (ByRach true) cycle = Ok (Some s_cycle, o') /\ count is_rach o' = 2).
  { eexists. split; [vm_compute; reflexivity|vm_compute; reflexivity]. }
  assert (K : forall m o, exists o', run_from 15 (Some s_cycle) o (concat (repeat cycle m)) = Ok (Some s_cycle, o') /\ count is_rach o' = count is_rach o + Z.of_nat m).
  { induction m as [|m IH]; intros o; [exists o; split; [reflexivity|lia]|]. cbn [repeat concat].
    rewrite run_from_app. destruct (C1 o) as (o1 & -> & E1). cbn [bind fst snd]. destruct (IH (o ++ o1)) as (o2 & -> & E2).
    exists o2. split; [reflexivity|]. rewrite E2, count_app, E1. lia. }
  cbn [repeat concat]. destruct C0 as (o0 & E0 & N0). rewrite run_app, E0. cbn [bind fst snd].
  destruct (K n o0) as (o2 & E2 & N2). exists s_cycle, o2. split; [exact E2|lia].
Qed.
(** A TBF whose channel request is not answered waits for ever, whatever time passes. *)
Theorem C27_leak_refuted : forall l, Forall (fun e => from_network e = false) l ->
  run 15 1 (ByRach true) l = run 15 1 (ByRach true) [].
Proof.
  unfold run. change (start 1 (ByRach true)) with (alive (set_a (set_u (tbf0 1) WAIT_ASSIGN 0 false) WAIT_CCCH_IMM_ASS false) [Rach 0x78]).
  unfold alive. cbn [bind fst snd]. generalize [Rach 0x78]. intros o l H. induction H as [|e l He H IH]; [reflexivity|]. cbn [run_from].
  assert (S : step 15 (set_a (set_u (tbf0 1) WAIT_ASSIGN 0 false) WAIT_CCCH_IMM_ASS false) e = alive (set_a (set_u (tbf0 1) WAIT_ASSIGN 0 false) WAIT_CCCH_IMM_ASS false) []).
  { assert (W : forall tn usf, dummy_rts (set_a (set_u (tbf0 1) WAIT_ASSIGN 0 false) WAIT_CCCH_IMM_ASS false) tn usf = false).
    { intros tn usf. unfold dummy_rts. destruct (slot (cur _) tn) eqn:E; [|reflexivity]. exfalso. pose proof (wf_alloc0 _ _ E). cbn in *. lia. }
    destruct e; try discriminate; try reflexivity; cbn [step]; unfold data_rts; rewrite W; reflexivity. }
  rewrite S. cbn [bind fst snd alive]. rewrite app_nil_r. exact IH.
Qed.
(** After a single block allocation whose Packet Resource Request got no answer the request is not repeated: whatever
    the frames and timeslots at which the scheduler asks before the hyperframe wraps, the TBF stays as it is. *)
Theorem C27_sba_refuted : forall l, Forall (fun e => from_network e = false /\ match e with AssRts _ fn _ _ => fn <> 200 | _ => True end) l ->
  (forall enc, ~ In (AssPoll enc) l) ->
  exists s o, run 15 1 (ByRach true) ([ImmAss 3 100 (IaSingleBlock 200); Tick 3 200; AssRts 3 200 0 true; T3168] ++ l) = Ok (Some s, o) /\
    count is_resreq o = 1 /\ ~ supervised s.
Proof.
  intros l H HP. rewrite run_app. vm_compute (run 15 1 (ByRach true) [_; _; _; _]). cbn [bind fst snd].
  match goal with |- context [run_from 15 (Some ?x) ?y l] => set (s := x); set (o := y) end.
  exists s, o. split; [|split; [vm_compute; reflexivity|unfold supervised; vm_compute; intuition discriminate]].
  clearbody o. induction H as [|e l [He Hf] H IH]; [reflexivity|]. cbn [run_from].
  assert (S : step 15 s e = alive s []).
  { assert (W : forall tn usf, dummy_rts s tn usf = false).
    { intros tn usf. unfold dummy_rts. destruct (slot (cur s) tn) eqn:E; [|reflexivity]. exfalso. pose proof (wf_alloc0 _ _ E). cbn in *. lia. }
    destruct e; try discriminate; try reflexivity; cbn [step]; try (unfold data_rts; rewrite W; reflexivity).
    - unfold ass_rts. cbn [a s]. destruct (slot (p1 s) tn); [|reflexivity]. cbn [sba start_ex start_fn s negb orb]. replace (200 =? fn) with false by lia. reflexivity.
    - exfalso. exact (HP _ (or_introl eq_refl)). }
  rewrite S. cbn [bind fst snd alive]. rewrite app_nil_r. apply IH. intros enc Q. exact (HP enc (or_intror Q)).
Qed.

(** ---------- the hypotheses are met ---------- *)
(** One phase: assignment, data, acknowledgement, last block, final acknowledgement with a poll, answer sent. *)
Example C27_nonvacuous_one_phase :
  match run 15 1 (ByRach true) [dyn 3 1; DataRts 3 1 false false true; UlAck 3 5 None false false 1; DataRts 3 1 true true true;
                                UlAck 3 5 (Some 413) true false 1; DummyRts 3 1] with
  | Ok (Some s, o) => u s = RELEASING /\ supervised s /\ step 15 s (DataCnf 3 413) = Ok (None, [Freed]) /\ count is_rach o = 1
  | _ => False
  end.
Proof. vm_compute. repeat split; auto. Qed.
(** Two phases with starting times; four timeouts. *)
Example C27_nonvacuous_two_phase :
  match run 15 1 (ByRach true) [ImmAss 3 100 (IaSingleBlock 200); Tick 3 200; AssRts 3 200 0 true;
      PktUlAss 3 300 (Some 313) (PuaDynamic (Some 9) 1 None [None; None; Some 4; Some 5; None; None; None; None]);
      AssPoll true; Tick 2 330; DataRts 2 4 false false true; DataRts 3 5 true true true] with
  | Ok (Some s, o) => u s = FINISHED /\ T s = 3182 /\ pend s = true /\ num_ts (cur s) = 2
  | _ => False
  end.
Proof. vm_compute. repeat split; auto. Qed.
Example C27_nonvacuous_give_up :
  match run 15 1 (ByRach true) [dyn 3 1; Timer true; dyn 3 1; DataRts 3 1 false false true; Timer true; dyn 3 1; Timer true; dyn 3 1] with
  | Ok (Some s, o) => u s = FLOW /\ count is_rach o = 4 /\ step 15 s (Timer true) = Ok (None, [Expired 3164; Freed])
  | _ => False
  end.
Proof. vm_compute. repeat split; auto. Qed.

Print Assumptions C27_no_abort_partial.
Print Assumptions C27_states.
Print Assumptions C27_attempts_partial.
Print Assumptions C27_freed_only.
Print Assumptions C27_supervised_partial.
Print Assumptions C27_early_ack_refuted.
Print Assumptions C27_bad_assignment_refuted.
Print Assumptions C27_late_ack_refuted.
Print Assumptions C27_retry_refuted.
Print Assumptions C27_leak_refuted.
Print Assumptions C27_sba_refuted.
