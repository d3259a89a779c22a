(** * Uplink TBF: what timers and the N3104 counter do exactly (C27) *)
From Verif.Lib Require Import Base Outcome.
From Verif.Rlcmac Require Import FnModel UlcModel UlTbfModel UlTbfSpec UlTbfProofs UlTbfProperties.

(** Data blocks sent since the channel was last released; [k] before the list. *)
Fixpoint since (k : Z) (o : list out) : Z :=
  match o with [] => k | Data _ :: r => since (k + 1) r | PdchRel :: r => since 0 r | _ :: r => since k r end.
Lemma since_app x : forall k y, since k (x ++ y) = since (since k x) y.
Proof. induction x as [|o x IH]; intros k y; cbn [app since]; [reflexivity|]. destruct o; apply IH. Qed.

(** What one event does to the counter, T3180 and the assignment. *)
Definition fact (s s' : tbf) (o : list out) : Prop :=
  since (n3104 s) o = n3104 s' /\ ((In Dummy o \/ exists f, In (Data f) o) -> t3180 s' = true) /\
  (0 < count is_rach o <-> a s = IDLE /\ a s' <> IDLE).
Lemma fact_quiet s s' o : n3104 s' = n3104 s -> (a s <> IDLE \/ a s' = IDLE) -> Forall (fun x => match x with Data _ | PdchRel | Dummy | Rach _ => False | _ => True end) o -> fact s s' o.
Proof.
  intros Hn Ha Hf. split; [|split].
  - rewrite Hn. clear - Hf. induction Hf as [|x o Hx _ IH]; [reflexivity|]. cbn [since]. destruct x; (exact IH || destruct Hx).
  - rewrite Forall_forall in Hf. intros [H|[f H]]; destruct (Hf _ H).
  - assert (Z : count is_rach o = 0) by (clear - Hf; induction Hf as [|x o Hx _ IH]; [reflexivity|]; cbn [count]; rewrite IH; destruct x; (reflexivity || destruct Hx)). rewrite Z. split; [lia|tauto].
Qed.
Lemma reinit_fact s s0 rach o0 s' o : reinit s0 rach o0 = Ok (Some s', o) -> a s0 = IDLE -> a s = IDLE -> count is_rach o0 = 0 -> (In Dummy o0 \/ (exists f, In (Data f) o0) -> False) -> fact s s' o.
Proof.
  intros R Ea0 Ea Hc Hd. destruct (reinit_ok s0 rach o0 Ea0) as [R1 R2]. destruct rach; [|rewrite (R2 eq_refl) in R; discriminate].
  destruct (R1 eq_refl) as (x & E & _ & Xa & _ & _ & Xn & _). rewrite E in R. injection R as <- <-. split; [|split].
  - rewrite since_app. cbn [since]. now rewrite Xn.
  - intros [H|[f H]]; apply in_app_iff in H as [H|H]; try (exfalso; eauto; fail); cbn [In] in H; intuition discriminate.
  - rewrite count_app, Hc, Ea, Xa. cbn. split; [intros _; split; [reflexivity|discriminate]|lia].
Qed.
Lemma complete_fact s s1 s' o0 o : n3104 s1 = n3104 s -> Forall (fun x => match x with Data _ | PdchRel | Dummy | Rach _ => False | _ => True end) o0 -> complete s1 o0 = Ok (Some s', o) -> fact s s' o.
Proof.
  intros Hn Hf. unfold complete. assert (Hn' : forall x al, n3104 (set_ass (a_chg (u_chg (set_cur x al) FLOW) IDLE) (two x) false alloc0 alloc0 false 0 false) = n3104 x) by (intros; reflexivity).
  destruct (u (set_cur s1 (if two s1 then p2 s1 else p1 s1))); cbn [u_chg]; intros [= <- <-]; (apply fact_quiet; [exact Hn|right; reflexivity|]);
    try exact Hf; apply Forall_app; split; [exact Hf|repeat constructor].
Qed.
Lemma step_fact bs s e s' o : inv s -> step bs s e = Ok (Some s', o) -> fact s s' o.
Proof.
  intros I. assert (Q : forall x, fact x x []) by (intros; apply fact_quiet; [reflexivity| |constructor]; destruct (a x); ((right; reflexivity) || (left; discriminate))).
  destruct e; cbn [step].
  - unfold rx_imm_ass. destruct (a s) eqn:Ea; try (intros [= <- <-]; apply Q).
    destruct (handle_imm_ass s tn ia) as [s1 ok] eqn:Eh. assert (H1 : n3104 s1 = n3104 s) by (destruct ia; cbn in Eh; injection Eh as <- _; reflexivity).
    destruct (negb ok); [intros [= <- <-]; apply fact_quiet; [exact H1|left; congruence|constructor]|].
    destruct (_ && _); [intros [= <- <-]; apply fact_quiet; [exact H1|left; congruence|repeat constructor]|].
    destruct (two s1); [intros [= <- <-]; apply fact_quiet; [exact H1|left; congruence|repeat constructor]|]. apply complete_fact; [exact H1|constructor].
  - unfold rx_pkt_ul_ass. assert (G : a s <> IDLE -> forall s1, n3104 s1 = n3104 s -> (let (s2, o2) := match poll with None => (s1, []) | Some pf => let nb := fn_next_block (fn_next_block pf) in
        (if negb (start_ex s1) || (fncmp (start_fn s1) nb <? 0) then set_ass s1 (two s1) (from_dl s1) (p1 s1) (p2 s1) true nb (sba s1) else s1, [UlTbfModel.Reserve tn pf POLL_UL_ASS]) end in
        if start_ex s2 && (0 <? fncmp (start_fn s2) fn) then alive (a_chg s2 STARTING_TIME2) (o2 ++ [Configure (p2 s2) (Some (start_fn s2))]) else complete s2 o2) = Ok (Some s', o) -> fact s s' o).
    { intros Ha s1 H1. destruct poll as [pf|].
      - cbv zeta. set (s2 := if negb (start_ex s1) || _ then _ else _). assert (H2 : n3104 s2 = n3104 s) by (unfold s2; destruct (negb _ || _); exact H1). clearbody s2. cbv beta iota.
        destruct (_ && _); [intros [= <- <-]; apply fact_quiet; [exact H2|left; exact Ha|repeat constructor]|]. apply complete_fact; [exact H2|repeat constructor].
      - cbv beta iota. destruct (_ && _); [intros [= <- <-]; apply fact_quiet; [exact H1|left; exact Ha|repeat constructor]|]. apply complete_fact; [exact H1|repeat constructor]. }
    assert (Hm : n3104 (handle_pkt_ul_ass s m) = n3104 s) by (destruct m as [? ? ? ?|[?|]]; reflexivity).
    destruct (a s) eqn:Ea; try (intros [= <- <-]; apply Q); apply G; (discriminate || exact Hm).
  - unfold rts_tick. destruct (a s) eqn:Ea; try (intros [= <- <-]; apply Q); destruct (_ || _); try discriminate; destruct (_ || _); try (intros [= <- <-]; apply Q).
    + destruct (two s); [intros [= <- <-]; apply fact_quiet; [reflexivity|left; congruence|constructor]|]. apply complete_fact; [reflexivity|constructor].
    + apply complete_fact; [reflexivity|constructor].
  - destruct (ass_rts s tn fn usf); [|intros [= <- <-]; apply Q]. unfold create_rlcmac_msg. destruct (a s) eqn:Ea; try (intros [= <- <-]; apply Q).
    + destruct enc; intros [= <- <-]; [apply fact_quiet; [reflexivity|left; congruence|repeat constructor]|apply Q].
    + intros [= <- <-]. apply fact_quiet; [reflexivity|left; congruence|destruct enc; repeat constructor].
  - unfold create_rlcmac_msg. destruct (a s) eqn:Ea; try (intros [= <- <-]; apply Q).
    + destruct enc; intros [= <- <-]; [apply fact_quiet; [reflexivity|left; congruence|repeat constructor]|apply Q].
    + intros [= <- <-]. apply fact_quiet; [reflexivity|left; congruence|destruct enc; repeat constructor].
  - destruct (data_rts s tn usf) eqn:Ed; [|intros [= <- <-]; apply Q].
    assert (Hu : u s = FLOW \/ u s = FINISHED) by (unfold data_rts in Ed; destruct (u s); rewrite ?andb_false_r in Ed; (discriminate || auto)).
    destruct (u_idle s I ltac:(tauto)) as (Ea & _). unfold data_create.
    assert (F1 : forall x y, first_data_sent x = Ok y -> n3104 y = n3104 x /\ a y = a x).
    { intros x y. unfold first_data_sent. destruct (u x); try (intros [= <-]; auto). destruct (negb _); [discriminate|]. destruct (two x); intros [= <-]; auto. }
    assert (F2 : forall x y, last_data_sent x = Ok y -> n3104 y = n3104 x /\ a y = a x).
    { assert (F3 : forall x y, arm_T3182 x = Ok y -> n3104 y = n3104 x /\ a y = a x) by (intros x y; unfold arm_T3182; repeat match goal with |- context [if ?b then _ else _] => destruct b end; intros [=]; subst; auto).
      intros x y. unfold last_data_sent. destruct (u x); try (intros [= <-]; auto); [destruct (arm_T3182 x) as [z|?|] eqn:Ez; cbn [bind]; [|discriminate..]; intros [= <-]; exact (F3 _ _ Ez)|].
      intros H. apply F3 in H. exact H. }
    set (s0 := set_tx s _ _ _). destruct (if n3104 s0 =? 0 then first_data_sent s0 else Ok s0) as [s1|?|] eqn:E1; cbn [bind]; [|discriminate..].
    assert (H1 : n3104 s1 = n3104 s /\ a s1 = a s) by (destruct (n3104 s0 =? 0); [exact (F1 _ _ E1)|injection E1 as <-; auto]).
    destruct (if final then last_data_sent s1 else Ok s1) as [s2|?|] eqn:E2; cbn [bind]; [|discriminate..].
    assert (H2 : n3104 s2 = n3104 s1 /\ a s2 = a s1) by (destruct final; [exact (F2 _ _ E2)|injection E2 as <-; auto]).
    set (s3 := set_counts s2 _ _ _ _). assert (H3 : n3104 s3 = n3104 s + 1 /\ a s3 = IDLE) by (unfold s3; cbn; destruct H1, H2; split; congruence). destruct H3 as [H3 H3a].
    destruct (_ && _).
    + destruct (reinit_ok s3 rach [Data final; N3104Max] H3a) as [R1 R2]. destruct rach; [|rewrite (R2 eq_refl); discriminate].
      destruct (R1 eq_refl) as (x & -> & _ & Xa & _ & _ & Xn & _). cbn [bind fst snd alive app]. intros [= <- <-]. split; [cbn [since]; exact (eq_sym Xn)|]. split; [reflexivity|].
      cbn [count is_rach]. rewrite Ea. cbn [a set_tx]. rewrite Xa. split; [split; [reflexivity|discriminate]|lia].
    + intros [= <- <-]. split; [cbn [since]; exact (eq_sym H3)|]. split; [reflexivity|]. cbn [count is_rach]. cbn [a set_tx]. rewrite H3a. split; [lia|tauto].
  - destruct (dummy_rts s tn usf); [|intros [= <- <-]; apply Q]. intros [= <- <-]. split; [reflexivity|]. split; [reflexivity|]. cbn. split; [lia|]. intros [H1 H2]. contradiction.
  - unfold rx_ul_ack. destruct (negb _); [intros [= <- <-]; apply Q|].
    assert (Up : forall x cs y, update_tx_cs x cs = Ok y -> n3104 y = n3104 x /\ a y = a x) by (intros x cs y; unfold update_tx_cs; destruct (_ =? _); [intros [= <-]; auto|]; destruct (update_cv _); cbn [bind]; [|discriminate..]; intros [= <-]; auto).
    assert (Cn : forall x y, contention_succeeded x = Ok y -> n3104 y = n3104 x /\ a y = a x) by (intros x y; unfold contention_succeeded; destruct (_ || _); [discriminate|]; destruct (update_cv _); cbn [bind]; [|discriminate..]; intros [= <-]; auto).
    destruct (fsm_ul_ack s tn poll final est) as [[s1 o1]|?|] eqn:E1; cbn [bind fst snd]; [|discriminate..].
    assert (H1 : n3104 s1 = n3104 s /\ a s1 = a s /\ Forall (fun x => match x with Data _ | PdchRel | Dummy | Rach _ => False | _ => True end) o1).
    { unfold fsm_ul_ack in E1. destruct (u s); try (injection E1 as <- <-; auto).
      - destruct (in_contention s); [destruct (contention_succeeded s) as [x|?|] eqn:Ec; cbn [bind] in E1; [|discriminate..]; apply Cn in Ec|cbn [bind] in E1; assert (Ec := conj (eq_refl (n3104 s)) (eq_refl (a s)))];
          injection E1 as <- <-; (split; [apply Ec|split; [apply Ec|destruct poll; repeat constructor]]).
      - destruct (in_contention s); [destruct (contention_succeeded s) as [x|?|] eqn:Ec; cbn [bind] in E1; [|discriminate..]; apply Cn in Ec|cbn [bind] in E1; assert (Ec := conj (eq_refl (n3104 s)) (eq_refl (a s)))];
          injection E1 as <- <-; (split; [|split; [|destruct poll; repeat constructor]]); destruct final; cbn [u_chg n3104 a set_u set_final]; try apply Ec; destruct (_ && _); reflexivity. }
    destruct (update_tx_cs s1 (cc + 1)) as [s2|?|] eqn:E2; cbn [bind]; [|discriminate..]. apply Up in E2. intros [= <- <-]. destruct H1 as (A1 & A2 & A3), E2 as [B1 B2].
    apply fact_quiet; [congruence| |exact A3]. rewrite B2, A2. destruct (a s); ((right; reflexivity) || (left; discriminate)).
  - unfold data_cnf. destruct (u s); try (intros [= <- <-]; apply Q). destruct (_ && _); [discriminate|]. intros [= <- <-]; apply Q.
  - unfold timer_cb. destruct (pend s) eqn:Ep; cbn [negb]; [|intros [= <- <-]; apply Q]. cbv zeta.
    assert (Hu : u s = FLOW \/ u s = FINISHED \/ u s = RELEASING) by (unfold inv in I; destruct I as (_ & _ & _ & _ & _ & Ia & _); destruct (a s); intuition congruence).
    destruct (u_idle s I Hu) as (Ea & _).
    assert (R : (if acc_att s + 1 =? 4 then freed [Expired (T s)] else reinit (set_counts (set_u s (u s) (T s) false) (acc_att s + 1) (retrans s) (n3104 s) (res_att s)) rach [Expired (T s)]) = Ok (Some s', o) -> fact s s' o).
    { destruct (_ =? 4); [discriminate|]. intros R. apply (reinit_fact _ _ _ _ _ _ R); [exact Ea|exact Ea|reflexivity|]. cbn [In]. intros [H|[f H]]; intuition discriminate. }
    cbn [T set_u u]. destruct (T s =? 3164); [destruct (u s); (discriminate || exact R)|]. destruct (T s =? 3166); [destruct (u s); (discriminate || exact R)|]. destruct (T s =? 3182); discriminate.
  - unfold t3168_cb. destruct (t3168 s); cbn [negb]; [|intros [= <- <-]; apply Q]. destruct (from_dl s); [discriminate|]. cbn [a set_counts set_a]. destruct (a s) eqn:Ea; try discriminate.
    destruct (_ =? 4); [discriminate|]. intros [= <- <-]. apply fact_quiet; [reflexivity|left; congruence|repeat constructor].
  - unfold t3180_cb. destruct (t3180 s); [discriminate|]. intros [= <- <-]; apply Q.
Qed.

(** After a history. *)
Definition is_dl (h : how) : bool := match h with FromDownlink _ => true | _ => false end.
Definition idle (x : ast) : bool := match x with IDLE => true | _ => false end.
Lemma run_fact bs cs h l s o : run bs cs h l = Ok (Some s, o) -> n3104 s = since 0 o /\ from_dl s = is_dl h && (count is_rach o =? 0) && negb (idle (a s)) /\ (count is_rach o = 0 -> idle (a s) = false -> match h with ByRach _ => False | _ => True end).
Proof.
  revert s o. induction l as [|e l IH] using rev_ind; intros s' o'.
  - unfold run. destruct h as [[]|al|tn]; cbn; intros [= <- <-]; cbn; repeat split; lia.
  - rewrite run_app. pose proof (run_good bs cs h l) as G. destruct (run bs cs h l) as [[[s|] o]|?|] eqn:R; cbn [bind fst snd run_from]; [|discriminate..].
    destruct G as (I & _). destruct (IH s o eq_refl) as (IH1 & IH2 & IH3). pose proof (step_ok bs s e I) as P. destruct (step bs s e) as [[[s2|] o2]|?|] eqn:E; cbn [bind fst snd run_from]; [|discriminate..].
    intros [= <- <-]. destruct (step_fact bs s e s2 o2 I E) as (F1 & _ & F3). unfold post in P. destruct P as (_ & _ & _ & _ & P & _). fold (idle (a s2)) in P.
    pose proof (count_nonneg is_rach o). pose proof (count_nonneg is_rach o2). rewrite since_app, count_app, <- IH1, F1. split; [reflexivity|].
    assert (X : idle (a s) = true <-> a s = IDLE) by (destruct (a s); cbn; intuition congruence). assert (Y : idle (a s2) = true <-> a s2 = IDLE) by (destruct (a s2); cbn; intuition congruence). split.
    + rewrite P, IH2. destruct (idle (a s2)) eqn:E2; cbn [negb]; rewrite ?andb_false_r; [reflexivity|]. rewrite !andb_true_r.
      destruct (Z.eqb_spec (count is_rach o2) 0) as [Z0|Z0].
      * rewrite Z0, Z.add_0_r. destruct (idle (a s)) eqn:E1; cbn [negb]; rewrite ?andb_true_r; [|reflexivity]. exfalso. assert (0 < count is_rach o2); [|lia]. apply F3. split; [tauto|]. intros Q. apply Y in Q. discriminate.
      * replace (count is_rach o + count is_rach o2 =? 0) with false by lia. assert (F : 0 < count is_rach o2) by lia. apply F3 in F as [F _]. apply X in F. rewrite F. cbn [negb]. now rewrite !andb_false_r.
    + intros Hc Hi. apply IH3; [lia|]. destruct (idle (a s)) eqn:E1; [|reflexivity]. exfalso. assert (0 < count is_rach o2); [|lia]. apply F3. split; [tauto|]. intros Q. apply Y in Q. congruence.
Qed.

(** T3180 (the wait for an uplink opportunity) runs from every block the TBF sends. *)
Theorem C27_t3180 bs cs h l s o e s' o' : run bs cs h l = Ok (Some s, o) -> step bs s e = Ok (Some s', o') ->
  In Dummy o' \/ (exists f, In (Data f) o') -> t3180 s' = true.
Proof. intros R E. pose proof (run_good bs cs h l) as G. rewrite R in G. destruct G as (I & _). apply (step_fact bs s e s' o' I E). Qed.

(** T3168 expires: a TBF whose assignment was requested in a Packet Downlink Ack/Nack, and which made no access of its
    own since, is freed; any other goes back to asking, or is freed the fourth time. *)
Theorem C27_t3168 bs cs h l s o : run bs cs h l = Ok (Some s, o) -> t3168 s = true ->
  if is_dl h && (count is_rach o =? 0) || (count is_t3168 o =? 3) then step bs s T3168 = Ok (None, [Expired 3168; Freed])
  else exists s', step bs s T3168 = Ok (Some s', [Expired 3168]) /\ a s' = SCHED_PKT_RES_REQ /\ u s' = WAIT_ASSIGN /\ p1 s' = p1 s /\ sba s' = sba s /\ start_fn s' = start_fn s.
Proof.
  intros R Ht. pose proof (run_good bs cs h l) as G. rewrite R in G. destruct G as (I & _ & _ & _ & G & _). cbn [snd] in G. destruct (run_fact _ _ _ _ _ _ R) as (_ & F & _).
  assert (Ea : a s = WAIT_PKT_UL_ASS) by (unfold inv in I; destruct (a s); intuition congruence). assert (Eu : u s = WAIT_ASSIGN) by (unfold inv in I; rewrite Ea in I; tauto).
  rewrite Ea in F. cbn [idle negb] in F. rewrite andb_true_r in F. cbn [step]. unfold t3168_cb. rewrite Ht. cbn [negb]. rewrite <- F, <- G. destruct (from_dl s); cbn [orb]; [reflexivity|].
  cbn [a set_counts set_a res_att]. rewrite Ea. replace (res_att s + 1 =? 4) with (res_att s =? 3) by lia. destruct (res_att s =? 3); [reflexivity|]. eexists. split; [reflexivity|]. cbn. auto.
Qed.

(** The N3104 limit: the access starts again exactly when the contention is not resolved after 3 (BS_CV_MAX + 3)
    blocks per timeslot of the allocation (BS_CV_MAX 0 counts as 1). *)
Theorem C27_n3104 bs cs h l s o tn usf final cd rach st o' : run bs cs h l = Ok (Some s, o) ->
  slot (cur s) tn = Some usf -> u s = FLOW \/ u s = FINISHED -> step bs s (DataRts tn usf final cd rach) = Ok (st, o') ->
  (In N3104Max o' <-> two s = false /\ (since 0 o = 0 \/ T s = 3166 /\ pend s = true) /\
     3 * ((if bs =? 0 then 1 else bs) + 3) * num_ts (cur s) <= since 0 o + 1).
Proof.
  intros R Hs Hu E. pose proof (run_good bs cs h l) as G. rewrite R in G. destruct G as (I & _). destruct (run_fact _ _ _ _ _ _ R) as (F & _). rewrite <- F.
  pose proof (step_ok bs s (DataRts tn usf final cd rach) I) as P. rewrite E in P.
  assert (Hd : data_rts s tn usf = true) by (unfold data_rts, dummy_rts; rewrite Hs, Z.eqb_refl; destruct Hu as [-> | ->]; reflexivity).
  assert (Hrach : rach = true \/ rach = false) by (destruct rach; auto).
  assert (Hab : (two s = false /\ (n3104 s = 0 \/ T s = 3166 /\ pend s = true) /\ n3104_max bs s <= n3104 s + 1) <-> abort_cause bs s (DataRts tn usf final cd false)) by (cbn [abort_cause]; tauto).
  fold (n3104_max bs s) in *. change (3 * ((if bs =? 0 then 1 else bs) + 3) * num_ts (cur s)) with (n3104_max bs s). rewrite Hab. clear Hab.
  (* the refusal of the access request distinguishes the two cases *)
  pose proof (step_ok bs s (DataRts tn usf final cd false) I) as PF. cbn [step] in *. rewrite Hd in *. unfold data_create in *.
  set (s0 := set_tx s _ _ _) in *. destruct (if n3104 s0 =? 0 then first_data_sent s0 else Ok s0) as [s1|?|]; cbn [bind] in *; [|discriminate..].
  destruct (if final then last_data_sent s1 else Ok s1) as [s2|?|]; cbn [bind] in *; [|discriminate..]. set (s3 := set_counts s2 _ _ _ _) in *.
  assert (Ha : forall r x, reinit s3 r [Data final; N3104Max] = x -> x <> UB /\ match x with Ok (Some _, o3) => In N3104Max o3 | _ => True end).
  { intros r x <-. unfold reinit. cbn [app]. unfold ass_start. cbn [a u_chg set_counts set_cur set_u]. destruct (a s3); cbn [u u_chg set_counts set_cur set_u]; try (split; [discriminate|]; cbn; tauto). destruct r; cbn; split; try discriminate; tauto. }
  destruct (in_contention s3 && (n3104_max bs s3 <=? n3104 s3)).
  - split.
    + intros _. destruct (reinit s3 false [Data final; N3104Max]) as [[[s4|] o4]|?|] eqn:Er; cbn [bind fst snd] in PF; try exact PF.
      * exfalso. unfold reinit, ass_start in Er. cbn [a u_chg set_counts set_cur set_u u] in Er. destruct (a s3); discriminate.
      * unfold reinit, ass_start in Er. cbn [a u_chg set_counts set_cur set_u u] in Er. destruct (a s3); discriminate.
    + intros _. destruct (reinit s3 rach [Data final; N3104Max]) as [[[s4|] o4]|?|] eqn:Er; cbn [bind fst snd] in E; try discriminate. injection E as <- <-. exact (proj2 (Ha _ _ Er)).
  - injection E as <- <-. cbn [In post alive] in *. split; [intros [Q|[]]; discriminate|]. intros Q. destruct PF as [PF _]. contradiction.
Qed.

(** ---------- the hypotheses are met ---------- *)
Example C27_nonvacuous_t3168 :
  match run 15 1 (FromDownlink 3) [] with
  | Ok (Some s, o) => t3168 s = true /\ step 15 s T3168 = Ok (None, [Expired 3168; Freed]) | _ => False end /\
  match run 15 1 (ByRach true) [ImmAss 3 100 (IaSingleBlock 200); Tick 3 200; AssRts 3 200 0 true] with
  | Ok (Some s, o) => t3168 s = true /\ match step 15 s T3168 with Ok (Some s', _) => a s' = SCHED_PKT_RES_REQ | _ => False end | _ => False end.
Proof. vm_compute. repeat split. Qed.
Example C27_nonvacuous_n3104 :
  match run 1 1 (ByRach true) (dyn 3 1 :: repeat (DataRts 3 1 false false true) 11) with
  | Ok (Some s, o) => since 0 o = 11 /\ match step 1 s (DataRts 3 1 false false true) with Ok (Some s', o') => In N3104Max o' /\ t3180 s' = true | _ => False end | _ => False end.
Proof. vm_compute. repeat split; auto. Qed.

Print Assumptions C27_t3180.
Print Assumptions C27_t3168.
Print Assumptions C27_n3104.
