(** C125: an uplink TBF transmits only on timeslots and USFs it was given, not before the starting time, and does start then. *)
From Verif.Lib Require Import Base Outcome.
From Verif.Rlcmac Require Import FnModel UlcModel UlTbfModel UlTbfSpec UlTbfProofs UlTbfProperties UlGrantSpec.

Section G.
Variables (bs cs : Z) (h : how).

(** An assignment that waits for its starting time. *)
Definition origin (k : bool) (l : list event) (o : list out) (al : alloc) (st : Z) : Prop :=
  exists l1 e m s1 o1 o2, l = l1 ++ e :: m /\ run bs cs h l1 = Ok (Some s1, o1) /\ o = o1 ++ o2 /\ is_pua e = k /\
    (forall tn usf, 0 <= tn -> slot al tn = Some usf -> gives e tn usf) /\ not_before e = Some st /\
    (k = true -> Forall (fun y => is_pua y = false) m) /\ count is_rach o2 = 0 /\ count is_resreq o2 = 0.
Definition ginv (l : list event) (o : list out) (s : tbf) : Prop :=
  (forall tn usf, 0 <= tn -> slot (cur s) tn = Some usf -> granted bs cs h l o tn usf) /\
  (a s = STARTING_TIME1 -> two s = false -> origin false l o (p1 s) (start_fn s)) /\
  (a s = STARTING_TIME2 -> origin true l o (p2 s) (start_fn s)).

Lemma slot_alloc0 : forall tn, slot alloc0 tn = None.
Proof. intros. unfold slot, alloc0, no_slots; cbn [slots]. destruct (Z.to_nat tn) as [|[|[|[|[|[|[|[|?]]]]]]]]; cbn [nth]; try reflexivity. destruct n; reflexivity. Qed.
Lemma slot_one : forall tfi n tn0 v tn usf, 0 <= tn -> slot (mkAlloc tfi n (one_slot tn0 v)) tn = Some usf -> (0 <= tn0 <= 7 -> tn = tn0) /\ usf = v.
Proof.
  intros tfi n tn0 v tn usf H E. unfold slot, one_slot in E. cbn [slots] in E.
  assert (D : usf = v).
  { assert (I : In (Some usf) (firstn (Z.to_nat tn0) no_slots ++ Some v :: skipn (S (Z.to_nat tn0)) no_slots)).
    { rewrite <- E. apply nth_In. destruct (Nat.lt_ge_cases (Z.to_nat tn) (length (firstn (Z.to_nat tn0) no_slots ++ Some v :: skipn (S (Z.to_nat tn0)) no_slots))); [assumption|].
      rewrite nth_overflow in E by assumption. discriminate. }
    apply in_app_or in I. destruct I as [I|[I|I]]; [|congruence|].
    - assert (J : In (Some usf) no_slots) by (rewrite <- (firstn_skipn (Z.to_nat tn0)); apply in_or_app; auto). cbn in J. intuition discriminate.
    - assert (J : In (Some usf) no_slots) by (rewrite <- (firstn_skipn (S (Z.to_nat tn0))); apply in_or_app; auto). cbn in J. intuition discriminate. }
  split; [|exact D]. intros R. assert (C : exists k, (k < 8)%nat /\ tn0 = Z.of_nat k) by (exists (Z.to_nat tn0); lia).
  destruct C as (k & K & ->). rewrite Nat2Z.id in E. enough (Z.to_nat tn = k) by lia. remember (Z.to_nat tn) as j. clear - E K.
  do 8 (destruct k as [|k]; [do 8 (destruct j as [|j]; [cbn in E; congruence|]); cbn in E; destruct j; discriminate|]). lia.
Qed.

(** Steps that leave the assignment alone. *)
Definition same (s s' : tbf) : Prop := cur s' = cur s /\ a s' = a s /\ p1 s' = p1 s /\ p2 s' = p2 s /\ start_fn s' = start_fn s /\ two s' = two s /\
  sba s' = sba s /\ start_ex s' = start_ex s /\ from_dl s' = from_dl s.
Lemma same_refl s : same s s. Proof. repeat split. Qed.
Lemma same_trans s1 s2 s3 : same s1 s2 -> same s2 s3 -> same s1 s3.
Proof. unfold same. intuition congruence. Qed.
Ltac fin H := injection H as <-; repeat split.
Lemma arm_same s s' : arm_T3182 s = Ok s' -> same s s'.
Proof. unfold arm_T3182. intros H. destruct (in_contention s); [destruct (_ && _); [fin H|discriminate]|]. destruct (_ && _); [discriminate|]. destruct (pend s); fin H. Qed.
Lemma first_same s s' : first_data_sent s = Ok s' -> same s s'.
Proof. unfold first_data_sent. intros H. destruct (u s); try (fin H). destruct (negb _); [discriminate|]. destruct (two s); fin H. Qed.
Lemma last_same s s' : last_data_sent s = Ok s' -> same s s'.
Proof.
  unfold last_data_sent. intros H. destruct (u s); try (fin H).
  - destruct (arm_T3182 s) as [x|?|] eqn:E; cbn [bind] in H; try discriminate. apply arm_same in E. eapply same_trans; [exact E|]. fin H.
  - apply arm_same in H. eapply same_trans; [|exact H]. repeat split.
Qed.
Lemma contention_same s s' : contention_succeeded s = Ok s' -> same s s'.
Proof. unfold contention_succeeded. intros H. destruct (_ || _); [discriminate|]. destruct (update_cv _); cbn [bind] in H; try discriminate. fin H. Qed.
Lemma tx_cs_same s cc s' : update_tx_cs s cc = Ok s' -> same s s'.
Proof. unfold update_tx_cs. intros H. destruct (_ =? _); [fin H|]. destruct (update_cv _); cbn [bind] in H; try discriminate. fin H. Qed.
Lemma reinit_gone s rach o s' o' : reinit s rach o = Ok (Some s', o') -> cur s' = alloc0 /\ a s' = WAIT_CCCH_IMM_ASS /\ two s' = false.
Proof.
  unfold reinit, ass_start. cbn [a set_counts set_cur u_chg set_u u]. destruct (a s); try (intros H; discriminate).
  destruct rach; intros H; [injection H as <- <-; repeat split; reflexivity|discriminate].
Qed.
Lemma fsm_same s tn poll final est s' o' : fsm_ul_ack s tn poll final est = Ok (s', o') -> same s s' /\ count is_rach o' = 0 /\ count is_resreq o' = 0.
Proof.
  unfold fsm_ul_ack. intros H.
  assert (P : forall o : list out, o = match poll with Some pf => [Reserve tn pf POLL_UL_ACK] | None => [] end -> count is_rach o = 0 /\ count is_resreq o = 0)
    by (intros o ->; destruct poll; split; reflexivity).
  destruct (u s); try (injection H as <- <-; repeat split).
  - destruct (in_contention s).
    + destruct (contention_succeeded s) as [x|?|] eqn:E; cbn [bind] in H; try discriminate. apply contention_same in E. injection H as <- <-. split; [exact E|]. now apply P.
    + cbn [bind] in H. injection H as <- <-. split; [apply same_refl|]. now apply P.
  - destruct (in_contention s).
    + destruct (contention_succeeded s) as [x|?|] eqn:E; cbn [bind] in H; try discriminate. apply contention_same in E. injection H as <- <-. split; [|now apply P].
      destruct final; [|exact E]. eapply same_trans; [exact E|]. repeat split.
    + cbn [bind] in H. injection H as <- <-. split; [|now apply P]. destruct final, (_ && _); repeat split.
Qed.

(** What an event other than an assignment or a frame does: access begins anew, or at most the state of the assignment changes. *)
Definition same_al (s s' : tbf) : Prop := cur s' = cur s /\ p1 s' = p1 s /\ p2 s' = p2 s /\ start_fn s' = start_fn s /\ two s' = two s /\
  sba s' = sba s /\ start_ex s' = start_ex s /\ from_dl s' = from_dl s.
Lemma same_same s s' o' : same s s' -> count is_rach o' = 0 -> count is_resreq o' = 0 ->
  same_al s s' /\ count is_rach o' = 0 /\ (a s' = a s /\ count is_resreq o' = 0 \/ a s = SCHED_PKT_RES_REQ /\ a s' = WAIT_PKT_UL_ASS \/
     a s = WAIT_PKT_UL_ASS /\ a s' = SCHED_PKT_RES_REQ /\ from_dl s = false).
Proof. unfold same, same_al. intuition. Qed.
Lemma other s e s' o' : match e with ImmAss _ _ _ | PktUlAss _ _ _ _ | Tick _ _ => False | _ => True end ->
  step bs s e = Ok (Some s', o') ->
  (cur s' = alloc0 /\ a s' = WAIT_CCCH_IMM_ASS /\ two s' = false) \/
  (same_al s s' /\ count is_rach o' = 0 /\ (a s' = a s /\ count is_resreq o' = 0 \/ a s = SCHED_PKT_RES_REQ /\ a s' = WAIT_PKT_UL_ASS \/
     a s = WAIT_PKT_UL_ASS /\ a s' = SCHED_PKT_RES_REQ /\ from_dl s = false)).
Proof.
  intros Ne S.
  assert (M : forall enc, create_rlcmac_msg s enc = Ok (Some s', o') -> same_al s s' /\ count is_rach o' = 0 /\ (a s' = a s /\ count is_resreq o' = 0 \/ a s = SCHED_PKT_RES_REQ /\ a s' = WAIT_PKT_UL_ASS \/
     a s = WAIT_PKT_UL_ASS /\ a s' = SCHED_PKT_RES_REQ /\ from_dl s = false)).
  { intros enc C. unfold create_rlcmac_msg in C. destruct (a s) eqn:Ea; try (injection C as <- <-; rewrite ?Ea; repeat split; auto; fail).
    - destruct enc; injection C as <- <-; [|rewrite Ea; repeat split; auto]. repeat split. right. left. auto.
    - destruct enc; injection C as <- <-; rewrite Ea; repeat split; auto. }
  destruct e; try contradiction; cbn [step] in S.
  - destruct (ass_rts _ _ _ _); [right; eapply M; exact S|injection S as <- <-; right; apply same_same; auto using same_refl].
  - right; eapply M; exact S.
  - destruct (data_rts s tn usf); [|injection S as <- <-; right; apply same_same; auto using same_refl].
    unfold data_create in S. set (s0 := set_tx s _ _ _) in S. assert (H0 : same s s0) by (repeat split).
    destruct (if n3104 s0 =? 0 then first_data_sent s0 else Ok s0) as [s1|?|] eqn:E1; cbn [bind] in S; try discriminate.
    destruct (if final then last_data_sent s1 else Ok s1) as [s2|?|] eqn:E2; cbn [bind] in S; try discriminate.
    assert (H1 : same s0 s1) by (destruct (n3104 s0 =? 0); [now apply first_same|injection E1 as <-; apply same_refl]).
    assert (H2 : same s1 s2) by (destruct final; [now apply last_same|injection E2 as <-; apply same_refl]).
    assert (H3 : same s s2) by eauto using same_trans.
    destruct (_ && _).
    + left. set (s3 := set_counts s2 _ _ _ _) in S. destruct (reinit s3 rach _) as [[[x|] y]|?|] eqn:E; cbn [bind fst snd] in S; try discriminate.
      apply reinit_gone in E. injection S as <- <-. exact E.
    + injection S as <- <-. right. apply same_same; auto.
  - destruct (dummy_rts _ _ _); injection S as <- <-; right; apply same_same; auto; repeat split.
  - unfold rx_ul_ack in S. destruct (negb _); [injection S as <- <-; right; apply same_same; auto using same_refl|].
    destruct (fsm_ul_ack s tn poll final est) as [[s1 o1]|?|] eqn:E; cbn [bind fst snd] in S; try discriminate.
    destruct (update_tx_cs s1 (cc + 1)) as [s2|?|] eqn:E2; cbn [bind] in S; try discriminate. injection S as <- <-.
    apply fsm_same in E. apply tx_cs_same in E2. right. destruct E as (E & P1 & P2). apply same_same; auto. exact (same_trans _ _ _ E E2).
  - unfold data_cnf in S. destruct (u s); try (injection S as <- <-; right; apply same_same; auto using same_refl; fail).
    destruct (_ && _); [discriminate|]. injection S as <- <-; right; apply same_same; auto using same_refl.
  - unfold timer_cb in S. destruct (negb (pend s)); [injection S as <- <-; right; apply same_same; auto using same_refl|]. cbv zeta in S. cbn [u T set_u set_counts acc_att] in S.
    assert (R : forall x r o, (if x =? 4 then freed o else reinit r rach o) = Ok (Some s', o') -> cur s' = alloc0 /\ a s' = WAIT_CCCH_IMM_ASS /\ two s' = false).
    { intros x r o Q. destruct (x =? 4); [discriminate|]. now apply reinit_gone in Q. }
    left. destruct (T s =? 3164); [destruct (u s); try discriminate; eapply R; exact S|].
    destruct (T s =? 3166); [destruct (u s); try discriminate; eapply R; exact S|]. destruct (T s =? 3182); discriminate.
  - unfold t3168_cb in S. destruct (negb (t3168 s)); [injection S as <- <-; right; apply same_same; auto using same_refl|]. destruct (from_dl s) eqn:Ed; [discriminate|].
    cbn [a set_counts set_a] in S. destruct (a s) eqn:Ea; try discriminate. destruct (_ =? 4); [discriminate|]. injection S as <- <-.
    right. repeat split; auto.
  - unfold t3180_cb in S. destruct (t3180 s); [discriminate|]. injection S as <- <-. right. apply same_same; auto using same_refl.
Qed.

Lemma granted_ext l o tn usf e o' : granted bs cs h l o tn usf -> count is_rach o' = 0 -> count is_resreq o' = 0 ->
  granted bs cs h (l ++ [e]) (o ++ o') tn usf.
Proof.
  intros (l1 & f & m & s1 & o1 & o2 & -> & R & -> & G & E & C1 & C2) D1 D2.
  exists l1, f, (m ++ [e]), s1, o1, (o2 ++ o'). rewrite <- !app_assoc, !count_app. cbn [app]. repeat split; auto; try lia.
  unfold in_effect in *. destruct (not_before f) as [x|]; [|exact E]. destruct E as [E|(m1 & t & v & fn & m2 & -> & F1 & F2 & F3)]; [auto|].
  right. exists m1, t, v, fn, (m2 ++ [e]). rewrite <- app_assoc. auto.
Qed.
Lemma origin_ext k l o al st e o' : origin k l o al st -> (k = true -> is_pua e = false) -> count is_rach o' = 0 -> count is_resreq o' = 0 ->
  origin k (l ++ [e]) (o ++ o') al st.
Proof.
  intros (l1 & f & m & s1 & o1 & o2 & -> & R & -> & K & G & E & Q & C1 & C2) P D1 D2.
  exists l1, f, (m ++ [e]), s1, o1, (o2 ++ o'). rewrite <- !app_assoc, !count_app. cbn [app]. repeat split; auto; try lia.
  intros T. apply Forall_app. auto.
Qed.
Lemma slot_max al tn : slot al (Z.max 0 tn) = slot al tn.
Proof. unfold slot. f_equal. lia. Qed.
Lemma origin_tick k l o al st tn0 v fn o' tn usf : origin k l o al st -> slot al tn0 = Some v -> 0 <= fncmp fn st ->
  count is_rach o' = 0 -> count is_resreq o' = 0 -> 0 <= tn -> slot al tn = Some usf ->
  granted bs cs h (l ++ [Tick tn0 fn]) (o ++ o') tn usf.
Proof.
  intros (l1 & f & m & s1 & o1 & o2 & -> & R & -> & K & G & E & Q & C1 & C2) V F D1 D2 TN S.
  exists l1, f, (m ++ [Tick tn0 fn]), s1, o1, (o2 ++ o'). rewrite <- !app_assoc, !count_app. cbn [app]. repeat split; auto; try lia.
  unfold in_effect. rewrite E. right. exists m, tn0, v, fn, []. repeat split; auto; [|rewrite K; exact Q].
  apply G; [lia|]. rewrite slot_max. exact V.
Qed.
Lemma complete_shape s o s' o' : complete s o = Ok (Some s', o') ->
  cur s' = (if two s then p2 s else p1 s) /\ a s' = IDLE /\ count is_rach o' = count is_rach o /\ count is_resreq o' = count is_resreq o.
Proof.
  unfold complete. cbn [u set_cur two cur a]. destruct (u s); intros H; injection H as <- <-; cbn; rewrite ?count_app; cbn; repeat split; lia.
Qed.
Lemma fresh_none l o s : cur s = alloc0 -> forall tn usf, 0 <= tn -> slot (cur s) tn = Some usf -> granted bs cs h l o tn usf.
Proof. intros E tn usf _ S. rewrite E, slot_alloc0 in S. discriminate. Qed.
(** A message that arrives now. *)
Lemma granted_now l s o e o' al tn usf : run bs cs h l = Ok (Some s, o) -> count is_rach o' = 0 -> count is_resreq o' = 0 ->
  (forall tn usf, 0 <= tn -> slot al tn = Some usf -> gives e tn usf) -> (forall x, not_before e = Some x -> fncmp x (heard_at e) <= 0) ->
  0 <= tn -> slot al tn = Some usf -> granted bs cs h (l ++ [e]) (o ++ o') tn usf.
Proof.
  intros R D1 D2 G N TN S. exists l, e, [], s, o, o'. repeat split; auto. unfold in_effect. destruct (not_before e); auto.
Qed.
Lemma origin_now k l s o e o' al st : run bs cs h l = Ok (Some s, o) -> count is_rach o' = 0 -> count is_resreq o' = 0 -> is_pua e = k ->
  (forall tn usf, 0 <= tn -> slot al tn = Some usf -> gives e tn usf) -> not_before e = Some st -> origin k (l ++ [e]) (o ++ o') al st.
Proof. intros R D1 D2 K G N. exists l, e, [], s, o, o'. repeat split; auto. Qed.

Lemma keep l o s e : ginv l o s -> match a s with STARTING_TIME2 => is_pua e = false | _ => True end -> ginv (l ++ [e]) (o ++ []) s.
Proof.
  intros (A & B & C) K. split; [|split].
  - intros. apply granted_ext; auto.
  - intros. apply origin_ext; auto. discriminate.
  - intros E. apply origin_ext; auto. rewrite E in K. auto.
Qed.
Lemma step_ginv l o s e s' o' : run bs cs h l = Ok (Some s, o) -> inv s -> ginv l o s -> step bs s e = Ok (Some s', o') -> ginv (l ++ [e]) (o ++ o') s'.
Proof.
  intros R I G S.
  assert (C0 : a s <> IDLE -> cur s = alloc0) by (unfold inv in I; destruct (a s); tauto).
  assert (Cases : match e with ImmAss _ _ _ | PktUlAss _ _ _ _ | Tick _ _ => False | _ => True end \/
     match e with ImmAss _ _ _ | PktUlAss _ _ _ _ | Tick _ _ => True | _ => False end) by (destruct e; auto).
  destruct Cases as [Ne|Ee].
  { destruct (other s e s' o' Ne S) as [(X1 & X2 & X3)|((X1 & X3 & X4 & X5 & X6 & _) & X7 & [(X2 & X8)|X2])].
    - split; [now apply fresh_none|split; rewrite X2; discriminate].
    - destruct G as (A & B & C). split; [|split]; rewrite ?X1, ?X2, ?X3, ?X4, ?X5, ?X6.
      + intros. apply granted_ext; auto.
      + intros. apply origin_ext; auto. discriminate.
      + intros. apply origin_ext; auto. intros _. destruct e; try contradiction; reflexivity.
    - split; [apply fresh_none; rewrite X1; apply C0; intuition congruence|split; intros; intuition congruence]. }
  destruct e as [tn fn ia|tn fn poll m|tn fn| | | | | | | | |]; try contradiction; cbn [step] in S.
  - unfold rx_imm_ass in S. destruct (a s) eqn:Ea; try (injection S as <- <-; apply keep; auto; rewrite Ea; auto; fail).
    specialize (C0 ltac:(discriminate)).
    destruct ia as [st|tfi v cc st|tfi cc st|]; cbn [handle_imm_ass negb] in S.
    + cbn [start_ex set_ass start_fn two andb] in S. destruct (0 <? _); injection S as <- <-;
        (split; [now apply fresh_none|split; cbn; intros; discriminate]).
    + cbn [start_ex set_tx set_ass start_fn two p1] in S.
      assert (GV : forall t x, 0 <= t -> slot (mkAlloc tfi 1 (one_slot tn v)) t = Some x -> gives (ImmAss tn fn (IaDynamic tfi v cc st)) t x)
        by (intros t x Ht Hx; exact (slot_one _ _ _ _ _ _ Ht Hx)).
      destruct (opt_ex st && (0 <? fncmp (opt_fn st) fn)) eqn:Es.
      * injection S as <- <-. split; [now apply fresh_none|split; cbn; [|discriminate]]. intros _ _.
        eapply origin_now; eauto. destruct st; [reflexivity|discriminate].
      * destruct (two s) eqn:Et; [injection S as <- <-; split; [now apply fresh_none|split; cbn; intros; discriminate]|].
        apply complete_shape in S. cbn in S. destruct S as (S1 & S2 & S3 & S4).
        split; [|split; rewrite S2; discriminate]. rewrite S1. intros t x Ht Hx. eapply granted_now; eauto.
        cbn [not_before heard_at]. intros y ->. cbn in Es. lia.
    + injection S as <- <-. split; [now apply fresh_none|split; cbn; rewrite Ea; discriminate].
    + injection S as <- <-. split; [now apply fresh_none|split; cbn; rewrite Ea; discriminate].
  - unfold rx_pkt_ul_ass in S. 
    assert (D : a s <> WAIT_PKT_UL_ASS /\ a s <> STARTING_TIME2 \/ (a s = WAIT_PKT_UL_ASS \/ a s = STARTING_TIME2)) by (destruct (a s); intuition discriminate).
    destruct D as [[D1 D2]|D]; [destruct (a s) eqn:Ea; try congruence; injection S as <- <-; apply keep; auto; rewrite Ea; auto|].
    assert (Two : two s = true) by (unfold inv in I; destruct D as [D|D]; rewrite D in I; tauto).
    specialize (C0 ltac:(destruct D as [-> | ->]; discriminate)).
    set (q := match poll with None => (handle_pkt_ul_ass s m, []) | Some pf => _ end) in *.
    set (e := PktUlAss tn fn poll m).
    assert (Q : cur (fst q) = alloc0 /\ two (fst q) = true /\ count is_rach (snd q) = 0 /\ count is_resreq (snd q) = 0 /\
       (forall t x, 0 <= t -> slot (p2 (fst q)) t = Some x -> gives e t x) /\
       not_before e = if start_ex (fst q) then Some (start_fn (fst q)) else None).
    { assert (P2 : forall t x, 0 <= t -> slot (p2 (handle_pkt_ul_ass s m)) t = Some x -> gives e t x).
      { intros t x Ht Hx. destruct m as [tfi cc st sl|[cc|]]; [exact Hx|change (slot alloc0 t = Some x) in Hx; rewrite slot_alloc0 in Hx; discriminate..]. }
      assert (ST : (if start_ex (handle_pkt_ul_ass s m) then Some (start_fn (handle_pkt_ul_ass s m)) else None) = match m with PuaDynamic _ _ st _ => st | _ => None end).
      { destruct m as [tfi cc st sl|[cc|]]; cbn; [destruct st; reflexivity|reflexivity..]. }
      assert (Cu : cur (handle_pkt_ul_ass s m) = alloc0 /\ two (handle_pkt_ul_ass s m) = true) by (destruct m as [tfi cc st sl|[cc|]]; cbn; auto).
      unfold q, e, not_before. rewrite <- ST. destruct poll as [pf|]; cbn [fst snd]; [|repeat split; auto; tauto].
      destruct (start_ex (handle_pkt_ul_ass s m)) eqn:Ex; cbn [negb orb].
      - destruct (_ <? 0); cbn; rewrite ?Ex; repeat split; auto; tauto.
      - cbn. repeat split; auto; tauto. }
    assert (S' : (let (s1, o1) := q in if start_ex s1 && (0 <? fncmp (start_fn s1) fn) then
        alive (a_chg s1 STARTING_TIME2) (o1 ++ [Configure (p2 s1) (Some (start_fn s1))]) else complete s1 o1) = Ok (Some s', o')).
    { destruct D as [D|D]; rewrite D in S; exact S. }
    clear S. clearbody q. destruct q as [s1 o1]. cbn [fst snd] in Q. destruct Q as (Q1 & Q2 & Q3 & Q4 & Q5 & Q6).
    destruct (start_ex s1 && (0 <? fncmp (start_fn s1) fn)) eqn:Es.
    + apply andb_prop in Es. destruct Es as [Es _]. rewrite Es in Q6. injection S' as <- <-. split; [now apply fresh_none|split; cbn; [discriminate|]]. intros _.
      eapply origin_now; eauto; rewrite count_app; cbn; lia.
    + apply complete_shape in S'. rewrite Q2 in S'. destruct S' as (S1 & S2 & S3 & S4). split; [|split; rewrite S2; discriminate].
      rewrite S1. intros t x Ht Hx. eapply granted_now; eauto; try lia. rewrite Q6. cbn [e heard_at]. intros y Hy.
      destruct (start_ex s1); [|discriminate]. injection Hy as <-. cbn in Es. lia.
  - unfold rts_tick in S. destruct (a s) eqn:Ea; try (injection S as <- <-; apply keep; auto; rewrite Ea; auto; fail).
    + destruct (negb (start_ex s) || _); [discriminate|].
      destruct (negb (opt_ex (slot (p1 s) tn)) || _) eqn:Ec; [injection S as <- <-; apply keep; auto; rewrite Ea; auto|].
      specialize (C0 ltac:(discriminate)).
      apply orb_false_elim in Ec. destruct Ec as [Ec1 Ec2]. destruct (slot (p1 s) tn) as [v|] eqn:Ev; [|discriminate].
      destruct (two s) eqn:Et; [injection S as <- <-; split; [now apply fresh_none|split; cbn; intros; discriminate]|].
      apply complete_shape in S. rewrite Et in S. cbn in S. destruct S as (S1 & S2 & S3 & S4). split; [|split; rewrite S2; discriminate].
      rewrite S1. intros t x Ht Hx. destruct G as (_ & B & _). eapply origin_tick; eauto. lia.
    + destruct (negb (start_ex s) || _); [discriminate|].
      destruct (negb (opt_ex (slot (p2 s) tn)) || _) eqn:Ec; [injection S as <- <-; apply keep; auto; rewrite Ea; auto|].
      apply orb_false_elim in Ec. destruct Ec as [Ec1 Ec2]. destruct (slot (p2 s) tn) as [v|] eqn:Ev; [|discriminate].
      assert (Two : two s = true) by (unfold inv in I; rewrite Ea in I; tauto).
      apply complete_shape in S. rewrite Two in S. cbn in S. destruct S as (S1 & S2 & S3 & S4). split; [|split; rewrite S2; discriminate].
      rewrite S1. intros t x Ht Hx. destruct G as (_ & _ & B). eapply origin_tick; eauto. lia.
Qed.
Lemma start_ginv s o : start cs h = Ok (Some s, o) -> ginv [] o s.
Proof.
  intros S. assert (X : cur s = alloc0 /\ a s <> STARTING_TIME1 /\ a s <> STARTING_TIME2).
  { destruct h as [[]|al|tn]; cbn in S; try discriminate; injection S as <- <-; cbn; repeat split; discriminate. }
  destruct X as (X1 & X2 & X3). split; [now apply fresh_none|split; contradiction].
Qed.
Lemma run_ginv l : forall s o, run bs cs h l = Ok (Some s, o) -> ginv l o s.
Proof.
  induction l as [|e l IH] using rev_ind; intros s o R.
  - unfold run in R. destruct (start cs h) as [[[s0|] o0]|?|] eqn:S; cbn [bind fst snd run_from] in R; try discriminate. injection R as <- <-. now apply start_ginv.
  - rewrite run_app in R. destruct (run bs cs h l) as [[[s0|] o0]|?|] eqn:R0; cbn [bind fst snd run_from] in R; try discriminate.
    destruct (step bs s0 e) as [[st' o']|?|] eqn:S; cbn [bind fst snd] in R; try discriminate.
    cbn [run_from] in R. injection R as -> <-. apply step_ginv with s0; auto. pose proof (run_good bs cs h l) as G. rewrite R0 in G. apply G.
Qed.

(** Where the block of a Packet Resource Request comes from. *)
Definition sba_orig (l : list event) (o : list out) (s : tbf) : Prop := sba s = true /\ start_ex s = true /\
  exists l1 tn0 fn0 m s1 o1 o2, l = l1 ++ ImmAss tn0 fn0 (IaSingleBlock (start_fn s)) :: m /\ run bs cs h l1 = Ok (Some s1, o1) /\ o = o1 ++ o2 /\
    p1 s = mkAlloc 0 1 (one_slot tn0 0) /\ count is_rach o2 = 0.
Definition rel_orig (o : list out) (s : tbf) : Prop := sba s = false /\ h = FromReleasing (p1 s) /\ count is_rach o = 0.
Definition kinv (l : list event) (o : list out) (s : tbf) : Prop :=
  match a s with
  | WAIT_CCCH_IMM_ASS => two s = false
  | STARTING_TIME1 => two s = true -> sba_orig l o s
  | SCHED_PKT_RES_REQ => sba_orig l o s \/ rel_orig o s
  | WAIT_PKT_UL_ASS => sba_orig l o s \/ rel_orig o s \/ from_dl s = true
  | _ => True
  end.
Lemma sba_ext l o s e o' s' : sba_orig l o s -> count is_rach o' = 0 -> p1 s' = p1 s -> start_fn s' = start_fn s -> sba s' = sba s -> start_ex s' = start_ex s ->
  sba_orig (l ++ [e]) (o ++ o') s'.
Proof.
  intros (A & B & l1 & tn0 & fn0 & m & s1 & o1 & o2 & -> & R & -> & P & C) D E1 E2 E3 E4. split; [congruence|split; [congruence|]].
  exists l1, tn0, fn0, (m ++ [e]), s1, o1, (o2 ++ o'). rewrite <- !app_assoc, count_app, E1, E2. cbn [app]. repeat split; auto. lia.
Qed.
Lemma rel_ext o s o' s' : rel_orig o s -> count is_rach o' = 0 -> p1 s' = p1 s -> sba s' = sba s -> rel_orig (o ++ o') s'.
Proof. intros (A & B & C) D E1 E2. unfold rel_orig. rewrite count_app, E1, E2. repeat split; auto. lia. Qed.
Lemma complete_idle s o s' o' : complete s o = Ok (Some s', o') -> a s' = IDLE.
Proof. intros E. now apply complete_shape in E. Qed.
Lemma step_kinv l o s e s' o' : run bs cs h l = Ok (Some s, o) -> kinv l o s -> step bs s e = Ok (Some s', o') -> kinv (l ++ [e]) (o ++ o') s'.
Proof.
  intros R K S.
  assert (Keep : o' = [] -> s' = s -> kinv (l ++ [e]) (o ++ o') s').
  { intros -> ->. unfold kinv in *. destruct (a s); auto.
    - intros T. apply sba_ext with s; auto.
    - destruct K as [K|K]; [left; now apply sba_ext with s|right; now apply rel_ext with s].
    - destruct K as [K|[K|K]]; [left; now apply sba_ext with s|right; left; now apply rel_ext with s|auto]. }
  assert (Cases : match e with ImmAss _ _ _ | PktUlAss _ _ _ _ | Tick _ _ => False | _ => True end \/
     match e with ImmAss _ _ _ | PktUlAss _ _ _ _ | Tick _ _ => True | _ => False end) by (destruct e; auto).
  destruct Cases as [Ne|Ee].
  { destruct (other s e s' o' Ne S) as [(X1 & X2 & X3)|((X1 & X3 & X4 & X5 & X6 & X9 & X10 & X11) & X7 & X2)].
    - unfold kinv. rewrite X2. exact X3.
    - assert (E1 : forall P, sba_orig l o s -> sba_orig (l ++ [e]) (o ++ o') s' \/ P) by (intros P Q; left; now apply sba_ext with s).
      assert (E2 : rel_orig o s -> rel_orig (o ++ o') s') by (intros Q; now apply rel_ext with s).
      unfold kinv in *. destruct X2 as [(X2 & _)|[(X2 & X2')|(X2 & X2' & X2'')]].
      + rewrite X2. destruct (a s); auto.
        * congruence.
        * intros T. rewrite X6 in T. apply sba_ext with s; auto.
        * destruct K as [K|K]; auto.
        * destruct K as [K|[K|K]]; auto. right. right. congruence.
      + rewrite X2'. rewrite X2 in K. destruct K as [K|K]; auto.
      + rewrite X2'. rewrite X2 in K. destruct K as [K|[K|K]]; auto. congruence. }
  destruct e as [tn fn ia|tn fn poll m|tn fn| | | | | | | | |]; try contradiction; cbn [step] in S.
  - unfold rx_imm_ass in S. destruct (a s) eqn:Ea; try (injection S as <- <-; now apply Keep).
    unfold kinv in K. rewrite Ea in K.
    destruct ia as [st|tfi v cc st|tfi cc st|]; cbn [handle_imm_ass negb] in S.
    + assert (Q : forall s2 o2, sba s2 = true -> start_ex s2 = true -> start_fn s2 = st -> p1 s2 = mkAlloc 0 1 (one_slot tn 0) -> count is_rach o2 = 0 ->
         sba_orig (l ++ [ImmAss tn fn (IaSingleBlock st)]) (o ++ o2) s2).
      { intros s2 o2 Q1 Q2 Q3 Q4 Q5. split; [exact Q1|split; [exact Q2|]]. exists l, tn, fn, [], s, o, o2. rewrite Q3. repeat split; auto. }
      cbn [start_ex set_ass start_fn two andb] in S. destruct (0 <? _); injection S as <- <-; unfold kinv; cbn [a a_chg set_a].
      * intros _. apply Q; reflexivity.
      * left. apply Q; reflexivity.
    + cbn [start_ex set_tx set_ass start_fn two p1] in S. rewrite K in S.
      destruct (_ && _); [injection S as <- <-; unfold kinv; cbn; congruence|]. apply complete_idle in S. unfold kinv. now rewrite S.
    + injection S as <- <-. unfold kinv. cbn. rewrite Ea. exact K.
    + injection S as <- <-. unfold kinv. cbn. rewrite Ea. exact K.
  - unfold rx_pkt_ul_ass in S. set (q := match poll with None => (handle_pkt_ul_ass s m, []) | Some pf => _ end) in *. clearbody q. destruct q as [s1 o1].
    destruct (a s) eqn:Ea; try (injection S as <- <-; now apply Keep);
      (destruct (_ && _); [injection S as <- <-; exact Coq.Init.Logic.I|apply complete_idle in S; unfold kinv; now rewrite S]).
  - unfold rts_tick in S. destruct (a s) eqn:Ea; try (injection S as <- <-; now apply Keep).
    + unfold kinv in K. rewrite Ea in K. destruct (_ || _); [discriminate|]. destruct (_ || _); [injection S as <- <-; now apply Keep|].
      destruct (two s) eqn:Et; [|apply complete_idle in S; unfold kinv; now rewrite S].
      injection S as <- <-. unfold kinv. cbn [a a_chg set_a]. left. apply sba_ext with s; auto.
    + destruct (_ || _); [discriminate|]. destruct (_ || _); [injection S as <- <-; now apply Keep|]. apply complete_idle in S. unfold kinv. now rewrite S.
Qed.
Lemma run_kinv l : forall s o, run bs cs h l = Ok (Some s, o) -> kinv l o s.
Proof.
  induction l as [|e l IH] using rev_ind; intros s o R.
  - unfold run in R. destruct (start cs h) as [[[s0|] o0]|?|] eqn:S; cbn [bind fst snd run_from] in R; try discriminate. injection R as <- <-.
    destruct h as [[]|al|tn] eqn:Eh; cbn in S; try discriminate; injection S as <- <-; unfold kinv; cbn; auto.
    right. repeat split. cbn. exact Eh.
  - rewrite run_app in R. destruct (run bs cs h l) as [[[s0|] o0]|?|] eqn:R0; cbn [bind fst snd run_from] in R; try discriminate.
    destruct (step bs s0 e) as [[st' o']|?|] eqn:S; cbn [bind fst snd] in R; try discriminate.
    cbn [run_from] in R. injection R as -> <-. apply step_kinv with s0; auto.
Qed.
End G.

(** C125: whatever happens to an uplink TBF, a data or dummy block is only sent on a timeslot and USF that a message of the network
    gave it, after its starting time and after the answer to a poll with it, and with no access requested anew since. *)
Theorem C125_only_granted : forall bs cs h l s o tn usf final cd rach st' o' x, 0 <= tn -> run bs cs h l = Ok (Some s, o) ->
  step bs s (DataRts tn usf final cd rach) = Ok (st', o') \/ step bs s (DummyRts tn usf) = Ok (st', o') ->
  In x o' -> uses x = true -> granted bs cs h l o tn usf.
Proof.
  intros bs cs h l s o tn usf final cd rach st' o' x TN R S IX UX.
  assert (N : slot (cur s) tn = Some usf).
  { assert (D : dummy_rts s tn usf = true).
    { destruct (dummy_rts s tn usf) eqn:D; [reflexivity|]. cbn [step] in S. unfold data_rts in S. rewrite D in S. cbn [andb] in S.
      destruct S as [S|S]; injection S as <- <-; destruct IX. }
    unfold dummy_rts in D. destruct (slot (cur s) tn); [|discriminate]. f_equal. lia. }
  destruct (run_ginv bs cs h l s o R) as (A & _). now apply A.
Qed.

Lemma complete_quiet s o st o' : existsb uses o = false -> complete s o = Ok (st, o') -> existsb uses o' = false.
Proof.
  intros Q. unfold complete. cbn [u set_cur]. destruct (u s); intros H; injection H as <- <-; rewrite ?existsb_app, ?Q; reflexivity.
Qed.
Lemma reinit_quiet s rach o st o' : existsb uses o = false -> reinit s rach o = Ok (st, o') -> existsb uses o' = false.
Proof.
  intros Q. unfold reinit, ass_start. cbn [a set_counts set_cur u_chg set_u u].
  destruct (a s); [|unfold freed; intros H; injection H as <- <-; rewrite !existsb_app, Q; reflexivity..].
  destruct rach; unfold alive, freed; intros H; injection H as <- <-; rewrite !existsb_app, Q; reflexivity.
Qed.
(** Nothing else makes the TBF send such a block. *)
Theorem C125_only_asked : forall bs s e st' o' x, step bs s e = Ok (st', o') ->
  In x o' -> uses x = true -> match e with DataRts _ _ _ _ _ | DummyRts _ _ => True | _ => False end.
Proof.
  intros bs s e st' o' x S IX UX.
  assert (Q : existsb uses o' = false -> False).
  { intros Q. rewrite <- not_true_iff_false in Q. apply Q. apply existsb_exists. eauto. }
  destruct e; try exact Coq.Init.Logic.I; apply Q; cbn [step] in S; clear Q IX UX.
  - unfold rx_imm_ass in S. destruct (a s); try (injection S as <- <-; reflexivity).
    destruct (handle_imm_ass s tn ia) as [s1 ok]. destruct (negb ok); [injection S as <- <-; reflexivity|].
    destruct (_ && _); [injection S as <- <-; reflexivity|]. destruct (two s1); [injection S as <- <-; reflexivity|]. now apply complete_quiet in S.
  - unfold rx_pkt_ul_ass in S. set (q := match poll with None => (handle_pkt_ul_ass s m, []) | Some pf => _ end) in *.
    assert (O : existsb uses (snd q) = false) by (unfold q; destruct poll; reflexivity). clearbody q. destruct q as [s1 o1]. cbn [snd] in O.
    destruct (a s); try (injection S as <- <-; reflexivity);
      (destruct (_ && _); [injection S as <- <-; rewrite existsb_app, O; reflexivity|now apply complete_quiet in S]).
  - unfold rts_tick in S. destruct (a s); try (injection S as <- <-; reflexivity).
    + destruct (_ || _); [discriminate|]. destruct (_ || _); [injection S as <- <-; reflexivity|].
      destruct (two s); [injection S as <- <-; reflexivity|]. now apply complete_quiet in S.
    + destruct (_ || _); [discriminate|]. destruct (_ || _); [injection S as <- <-; reflexivity|]. now apply complete_quiet in S.
  - destruct (ass_rts _ _ _ _); [|injection S as <- <-; reflexivity].
    unfold create_rlcmac_msg in S. destruct (a s); try (injection S as <- <-; reflexivity); destruct enc; injection S as <- <-; reflexivity.
  - unfold create_rlcmac_msg in S. destruct (a s); try (injection S as <- <-; reflexivity); destruct enc; injection S as <- <-; reflexivity.
  - unfold rx_ul_ack in S. destruct (negb _); [injection S as <- <-; reflexivity|].
    destruct (fsm_ul_ack s tn poll final est) as [[s1 o1]|?|] eqn:F; cbn [bind fst snd] in S; try discriminate.
    destruct (update_tx_cs s1 (cc + 1)); cbn [bind] in S; try discriminate. injection S as <- <-.
    assert (P : existsb uses (match poll with Some pf => [Reserve tn pf POLL_UL_ACK] | None => [] end) = false) by (destruct poll; reflexivity).
    unfold fsm_ul_ack in F. destruct (u s); try (injection F as <- <-; reflexivity).
    + destruct (if in_contention s then _ else _); cbn [bind] in F; try discriminate. injection F as <- <-. exact P.
    + destruct (if in_contention s then _ else _); cbn [bind] in F; try discriminate. injection F as <- <-. exact P.
  - unfold data_cnf in S. destruct (u s); try (injection S as <- <-; reflexivity). destruct (_ && _); injection S as <- <-; reflexivity.
  - unfold timer_cb in S. destruct (negb (pend s)); [injection S as <- <-; reflexivity|]. cbv zeta in S. cbn [u T set_u set_counts acc_att] in S.
    assert (R : forall y r z, (if y =? 4 then freed [Expired z] else reinit r rach [Expired z]) = Ok (st', o') -> existsb uses o' = false).
    { intros y r z E. destruct (y =? 4); [injection E as <- <-; reflexivity|]. now apply reinit_quiet in E. }
    destruct (T s =? 3164); [destruct (u s); try discriminate; eapply R; exact S|].
    destruct (T s =? 3166); [destruct (u s); try discriminate; eapply R; exact S|]. destruct (T s =? 3182); [injection S as <- <-; reflexivity|discriminate].
  - unfold t3168_cb in S. destruct (negb (t3168 s)); [injection S as <- <-; reflexivity|]. destruct (from_dl s); [injection S as <- <-; reflexivity|].
    cbn [a set_counts set_a] in S. destruct (a s); try discriminate. destruct (_ =? 4); injection S as <- <-; reflexivity.
  - unfold t3180_cb in S. destruct (t3180 s); injection S as <- <-; reflexivity.
Qed.

(** C125: an assignment heard in time is taken up at its starting time: the physical layer is told it with the starting time at once,
    frames before that (or on other timeslots) change nothing, and with the first frame at or after it on one of its
    timeslots the TBF transmits whenever asked on a timeslot and USF of the assignment. *)
Theorem C125_starts : forall bs cs h l s o tn fn tfi cc st sl ticks t v tfn,
  run bs cs h l = Ok (Some s, o) -> a s = WAIT_PKT_UL_ASS -> 0 < fncmp st fn ->
  Forall (fun e => exists t f, e = Tick t f /\ (nth (Z.to_nat t) sl None = None \/ fncmp f st < 0)) ticks ->
  nth (Z.to_nat t) sl None = Some v -> 0 <= fncmp tfn st ->
  let al := mkAlloc (match tfi with Some x => x | None => 0 end) (count_slots sl) sl in
  exists s', run bs cs h (l ++ PktUlAss tn fn None (PuaDynamic tfi cc (Some st) sl) :: ticks ++ [Tick t tfn]) =
      Ok (Some s', o ++ [Configure al (Some st); Configure al None]) /\ u s' = FLOW /\
    forall t2 v2 final, nth (Z.to_nat t2) sl None = Some v2 ->
      exists st2, step bs s' (DataRts t2 v2 final false true) = Ok (st2, [Data final]).
Proof.
  intros bs cs h l s o tn fn tfi cc st sl ticks t v tfn R W F1 FT V F2 al.
  pose proof (run_good bs cs h l) as GI. rewrite R in GI. destruct GI as (I & _). cbn [fst] in I.
  assert (J : two s = true /\ u s = WAIT_ASSIGN /\ n3104 s = 0) by (unfold inv in I; rewrite W in I; tauto). destruct J as (J1 & J2 & J3).
  rewrite run_app, R. cbn [bind fst snd run_from]. cbn [step]. unfold rx_pkt_ul_ass. rewrite W.
  cbn [handle_pkt_ul_ass]. set (s1 := set_tx _ _ _ _).
  assert (E1 : start_ex s1 = true /\ start_fn s1 = st /\ p2 s1 = al /\ two s1 = true /\ u s1 = WAIT_ASSIGN /\ n3104 s1 = 0) by (unfold s1, al; cbn; repeat split; auto).
  destruct E1 as (E1 & E2 & E3 & E4 & E5 & E6). clearbody s1. rewrite E1, E2, E3. replace (0 <? fncmp st fn) with true by lia.
  unfold alive. cbn [andb bind fst snd app].
  set (s2 := a_chg s1 STARTING_TIME2).
  assert (P : 0 < num_ts al) by (unfold al; cbn; exact (count_slots_pos _ _ _ V)).
  assert (TS : forall ticks, Forall (fun e => exists t f, e = Tick t f /\ (nth (Z.to_nat t) sl None = None \/ fncmp f st < 0)) ticks ->
     forall oo r, run_from bs (Some s2) oo (ticks ++ r) = run_from bs (Some s2) oo r).
  { clear ticks FT. induction ticks as [|e ticks IH]; intros FT oo r; [reflexivity|]. pose proof (Forall_inv FT) as (t' & f' & -> & Q). pose proof (Forall_inv_tail FT) as FT'.
    cbn [app run_from]. cbn [step]. unfold rts_tick. cbn [s2 a_chg set_a a]. fold s2.
    assert (X : start_ex s2 = true /\ p2 s2 = al /\ start_fn s2 = st) by (unfold s2; cbn; auto). destruct X as (X1 & X2 & X3). rewrite X1, X2, X3.
    replace (0 <? num_ts al) with true by lia. cbn [negb orb].
    replace (negb (opt_ex (slot al t')) || (fncmp f' st <? 0)) with true.
    - unfold alive. cbn [bind fst snd]. rewrite app_nil_r. apply IH. exact FT'.
    - symmetry. unfold slot, al. cbn [slots]. destruct Q as [-> | Q]; [reflexivity|]. replace (fncmp f' st <? 0) with true by lia. apply orb_true_r. }
  rewrite (TS _ FT). cbn [run_from step]. unfold rts_tick. cbn [s2 a_chg set_a a start_ex p2 start_fn]. rewrite E1, E2, E3.
  replace (0 <? num_ts al) with true by lia. unfold slot. cbn [al slots]. fold al. rewrite V. cbn [negb orb opt_ex].
  replace (fncmp tfn st <? 0) with false by lia. unfold complete, s2, a_chg. cbn [two set_a set_cur u p2]. rewrite E4, E5, E3.
  eexists. split; [unfold alive; cbn [bind fst snd app]; rewrite <- app_assoc; cbn [app]; reflexivity|]. split; [reflexivity|].
  intros t2 v2 final V2. cbn [step]. unfold data_rts, dummy_rts, slot. cbn [cur set_ass set_a a_chg u_chg set_u set_cur u slots al]. rewrite V2, Z.eqb_refl. cbn [andb].
  unfold data_create. cbn [n3104 set_tx set_ass a_chg set_a u_chg set_u set_cur]. rewrite E6.
  cbn [Z.eqb]. unfold first_data_sent. cbn [u T two set_tx set_ass a_chg set_a u_chg set_u set_cur Z.eqb Pos.eqb negb]. rewrite E4. cbn [bind].
  destruct final.
  - unfold last_data_sent, arm_T3182, in_contention. cbn [u T pend two set_tx set_ass a_chg set_a u_chg set_u set_cur Z.eqb Pos.eqb negb andb]. rewrite ?E4.
    cbn [bind]. unfold in_contention. cbn [u T pend two set_counts set_tx set_ass a_chg set_a u_chg set_u set_cur]. rewrite ?E4. cbn [andb]. eexists. reflexivity.
  - cbn [bind]. unfold in_contention. cbn [u T pend two set_counts set_tx set_ass a_chg set_a u_chg set_u set_cur]. rewrite ?E4. cbn [andb]. eexists. reflexivity.
Qed.

(** C125: a Packet Resource Request is only sent in the single block given for it, or in a block of the TBF that was released. *)
Theorem C125_request_granted : forall bs cs h l s o tn fn usf enc st' o', 0 <= tn -> run bs cs h l = Ok (Some s, o) ->
  step bs s (AssRts tn fn usf enc) = Ok (st', o') -> In ResReq o' -> request_granted bs cs h l o tn fn usf.
Proof.
  intros bs cs h l s o tn fn usf enc st' o' TN R S IX. pose proof (run_kinv bs cs h l s o R) as K. cbn [step] in S.
  destruct (ass_rts s tn fn usf) eqn:A; [|injection S as <- <-; destruct IX]. unfold ass_rts in A. destruct (a s) eqn:Ea; try discriminate.
  unfold kinv in K. rewrite Ea in K. destruct (slot (p1 s) tn) as [v|] eqn:Ev; [|discriminate].
  destruct K as [(K1 & K2 & l1 & tn0 & fn0 & m & s1 & o1 & o2 & -> & R1 & -> & P & C)|(K1 & K2 & K3)]; rewrite K1 in A.
  - left. rewrite K2 in A. cbn [negb orb] in A. apply Z.eqb_eq in A. subst fn. exists l1, tn0, fn0, m, s1, o1, o2.
    rewrite P in Ev. apply slot_one in Ev; [|exact TN]. repeat split; auto. apply Ev.
  - right. apply Z.eqb_eq in A. subst v. exists (p1 s). auto.
Qed.

(** Non-vacuity: two-phase access with a starting time for both assignments; the second is repeated while it waits. *)
Definition heard : list event :=
  [ImmAss 3 100 (IaSingleBlock 200); Tick 3 160; Tick 3 200; AssRts 3 200 7 true;
   PktUlAss 3 208 None (PuaDynamic (Some 5) 1 (Some 260) [None; Some 2; None; None; None; None; None; None]);
   PktUlAss 3 212 (Some 221) (PuaDynamic (Some 5) 1 (Some 260) [None; None; Some 1; None; Some 6; None; None; None]);
   AssPoll true; Tick 2 230; Tick 3 260; Tick 4 264].
Example C125_case : exists s o, run 15 1 (ByRach true) heard = Ok (Some s, o) /\
  o = [Rach 0x78; Configure (mkAlloc 0 1 (one_slot 3 0)) (Some 200); ResReq;
       Configure (mkAlloc 5 1 [None; Some 2; None; None; None; None; None; None]) (Some 260); Reserve 3 221 POLL_UL_ASS;
       Configure (mkAlloc 5 2 [None; None; Some 1; None; Some 6; None; None; None]) (Some 260); CtrlAck;
       Configure (mkAlloc 5 2 [None; None; Some 1; None; Some 6; None; None; None]) None] /\
  (exists s', step 15 s (DataRts 4 6 false false true) = Ok (Some s', [Data false])) /\
  step 15 s (DataRts 1 2 false false true) = Ok (Some s, []) /\ step 15 s (DataRts 4 5 false false true) = Ok (Some s, []) /\
  granted 15 1 (ByRach true) heard o 4 6.
Proof.
  eexists. eexists. split; [vm_compute; reflexivity|]. split; [reflexivity|]. split; [eexists; vm_compute; reflexivity|].
  split; [vm_compute; reflexivity|]. split; [vm_compute; reflexivity|].
  eapply C125_only_granted with (x := Data false) (final := false) (cd := false) (rach := true); [lia|vm_compute; reflexivity|left; vm_compute; reflexivity|left; reflexivity|reflexivity].
Qed.
Example C125_waiting : exists s o, run 15 1 (ByRach true) (firstn 4 heard) = Ok (Some s, o) /\ a s = WAIT_PKT_UL_ASS /\ 0 < fncmp 260 208 /\
  0 <= fncmp 264 260 /\ fncmp 230 260 < 0.
Proof. eexists. eexists. split; [vm_compute; reflexivity|]. repeat split; vm_compute; congruence. Qed.

Print Assumptions C125_only_granted.
Print Assumptions C125_only_asked.
Print Assumptions C125_starts.
Print Assumptions C125_request_granted.
