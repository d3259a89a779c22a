(** Invariant of an uplink TBF and what one event does, for UlTbfProperties. *)
From Verif.Lib Require Import Base Outcome.
From Verif.Rlcmac Require Import FnModel UlcModel UlTbfModel UlTbfSpec.

Lemma count_app f x y : count f (x ++ y) = count f x + count f y.
Proof. induction x; cbn [count app]; lia. Qed.
Lemma count_nonneg f x : 0 <= count f x.
Proof. induction x as [|y x IH]; cbn [count]; [lia|]. destruct (f y); lia. Qed.

Definition wf_al (al : alloc) : Prop := forall tn x, slot al tn = Some x -> 0 < num_ts al.
Definition inv (s : tbf) : Prop :=
  0 <= acc_att s <= 3 /\ 0 <= res_att s <= 3 /\ 0 <= n3104 s /\ wf_al (cur s) /\
  t3168 s = match a s with WAIT_PKT_UL_ASS => true | _ => false end /\
  match a s with
  | IDLE => u s = FLOW \/ u s = FINISHED \/ u s = RELEASING
  | _ => u s = WAIT_ASSIGN /\ T s = 0 /\ pend s = false /\ n3104 s = 0 /\ cur s = alloc0
  end /\
  match a s with
  | STARTING_TIME1 => start_ex s = true /\ 0 < num_ts (p1 s)
  | SCHED_PKT_RES_REQ | WAIT_PKT_UL_ASS => two s = true
  | STARTING_TIME2 => two s = true /\ start_ex s = true /\ wf_al (p2 s)
  | IDLE => from_dl s = false
  | _ => True
  end /\
  match u s with
  | FLOW => (n3104 s = 0 /\ T s = 3164 /\ pend s = true) \/
            (0 < n3104 s /\ t3180 s = true /\ 0 < num_ts (cur s) /\
             (if two s then T s = 3164 /\ pend s = false
              else (T s = 3166 /\ pend s = true) \/ (T s = 0 /\ pend s = false)))
  | FINISHED => 0 < n3104 s /\ t3180 s = true /\ 0 < num_ts (cur s) /\
             ((two s = false /\ T s = 3166 /\ pend s = true) \/ (T s = 3182 /\ pend s = true) \/ (T s = 0 /\ pend s = false))
  | RELEASING => t3180 s = true /\ 0 < num_ts (cur s) /\ pend s = false
  | _ => True
  end.

(** A Packet Resource Request is still to be expected. *)
Definition pot (x : ast) : Z := match x with WAIT_CCCH_IMM_ASS | STARTING_TIME1 | SCHED_PKT_RES_REQ => 1 | _ => 0 end.

Definition post (bs : Z) (s : tbf) (e : event) (r : result) : Prop :=
  match r with
  | UB => abort_cause bs s e
  | Err _ => False
  | Ok (Some s', o) =>
      ~ abort_cause bs s e /\ inv s' /\ u_next (u s) (u s') /\ a_next (a s) (a s') /\ from_dl s' = from_dl s && negb (match a s' with IDLE => true | _ => false end) /\
      count is_freed o = 0 /\
      acc_att s' - acc_att s = count is_access_timeout o /\
      count is_rach o = count is_access_timeout o + count is_n3104 o /\
      res_att s' - res_att s = count is_t3168 o /\
      count is_resreq o + pot (a s') <= count is_rach o + count is_t3168 o + pot (a s)
  | Ok (None, o) =>
      ~ abort_cause bs s e /\ count is_freed o = 1 /\ count is_n3104 o = 0 /\
      acc_att s + count is_access_timeout o <= 4 /\ acc_att s + count is_rach o <= 3 + count is_n3104 o /\
      res_att s + count is_t3168 o <= 4 /\ count is_resreq o = 0 /\
      (* why it was freed *)
      match e with
      | DataCnf tn fn => u s = RELEASING /\ fn = ack_fn s /\ tn = ack_tn s
      | T3180 => t3180 s = true
      | T3168 => a s = WAIT_PKT_UL_ASS /\ (from_dl s = true \/ res_att s = 3)
      | Timer rach => pend s = true /\ (T s = 3182 \/ (T s = 3164 \/ T s = 3166) /\ (acc_att s = 3 \/ rach = false))
      | _ => False
      end
  end.

Lemma wf_alloc0 : wf_al alloc0.
Proof. intros tn x H. unfold slot, alloc0, no_slots in H. cbn [slots] in H.
  destruct (Z.to_nat tn) as [|[|[|[|[|[|[|[|?]]]]]]]]; cbn [nth] in H; try discriminate. destruct n; discriminate. Qed.
Lemma count_slots_pos l n x : nth n l None = Some x -> 0 < count_slots l.
Proof.
  revert n. induction l as [|y l IH]; intros [|n] H; cbn [nth] in H; try discriminate.
  - subst y. cbn [count_slots]. assert (0 <= count_slots l); [|lia]. clear. induction l as [|[]]; cbn [count_slots]; lia.
  - specialize (IH _ H). destruct y; cbn [count_slots]; lia.
Qed.
Lemma wf_dyn tfi l : wf_al (mkAlloc tfi (count_slots l) l).
Proof. intros tn x H. exact (count_slots_pos _ _ _ H). Qed.
Lemma wf_pos al : 0 < num_ts al -> wf_al al.
Proof. intros H tn x _. exact H. Qed.
#[local] Hint Resolve wf_alloc0 wf_dyn wf_pos : core.



Ltac rec s := destruct s as [u0 T0 pend0 acc_att0 retrans0 tbf_est0 ack_fn0 ack_tn0 n31040 cur0 t31800 countdown0 tx_cs0 a0 two0 from_dl0 p10 p20 start_ex0 start_fn0 sba0 t31680 res_att0]; cbn in *.
Lemma post_same bs s e : inv s -> ~ abort_cause bs s e -> post bs s e (alive s []).
Proof.
  intros I N. unfold post, alive. split; [exact N|]. split; [exact I|].
  unfold inv in I. rec s. destruct I as (_ & _ & _ & _ & _ & Ia & Id & _).
  destruct a0; [destruct Ia as [-> | [-> | ->]]; rewrite Id | destruct Ia as (-> & _) ..]; cbn; rewrite ?andb_true_r; repeat split; try reflexivity; try lia.
Qed.

(** Finishing an assignment. *)
Lemma complete_ok bs s o e : inv s -> a s <> IDLE -> ~ abort_cause bs s e ->
  (two s = false -> wf_al (p1 s)) -> (two s = true -> wf_al (p2 s)) -> pot IDLE <= pot (a s) -> a s <> SCHED_PKT_RES_REQ ->
  count is_freed o = 0 -> count is_access_timeout o = 0 -> count is_rach o = 0 -> count is_n3104 o = 0 -> count is_t3168 o = 0 -> count is_resreq o = 0 ->
  post bs s e (complete s o).
Proof.
  intros I Na N W1 W2 P NS O1 O2 O3 O4 O5 O6. unfold inv in I. unfold complete.
  destruct s as [u0 T0 pend0 acc_att0 retrans0 tbf_est0 ack_fn0 ack_tn0 n31040 cur0 t31800 countdown0 tx_cs0 a0 two0 from_dl0 p10 p20 start_ex0 start_fn0 sba0 t31680 res_att0].
  cbn [u T pend acc_att retrans tbf_est ack_fn ack_tn n3104 cur t3180 countdown tx_cs a two from_dl p1 p2 start_ex start_fn sba t3168 res_att] in *.
  destruct I as (I1 & I2 & I3 & I4 & I5 & Ia & Iaa & Iu).
  assert (E : u0 = WAIT_ASSIGN /\ T0 = 0 /\ pend0 = false /\ n31040 = 0 /\ cur0 = alloc0) by (destruct a0; tauto).
  destruct E as (-> & -> & -> & -> & ->).
  cbn. split; [exact N|]. unfold inv. cbn. rewrite !count_app. cbn [count is_freed is_access_timeout is_rach is_n3104 is_t3168 is_resreq].
  split; [|split; [exact Coq.Init.Logic.I|split; [destruct a0; try exact Coq.Init.Logic.I; congruence|split; [symmetry; apply andb_false_r|]]]].
  - repeat split; try lia; [destruct two0; auto| left; reflexivity].
  - cbn in P. repeat split; try lia.
Qed.

Lemma step_ImmAss bs s tn fn ia : inv s -> post bs s (ImmAss tn fn ia) (step bs s (ImmAss tn fn ia)).
Proof.
  intros I. cbn [step]. unfold rx_imm_ass. destruct (a s) eqn:Ea; try (apply post_same; [exact I|intros []]).
  assert (K : forall s', s' = fst (handle_imm_ass s tn ia) -> inv s' /\ a s' = a s /\ u s' = u s /\ from_dl s' = from_dl s /\
            acc_att s' = acc_att s /\ res_att s' = res_att s /\
            (snd (handle_imm_ass s tn ia) = true -> 0 < num_ts (p1 s'))).
  { intros s' ->. unfold inv in *. rec s. subst a0. destruct ia; cbn in *; repeat split; try tauto; intros; try discriminate; try lia.
    replace u0 with WAIT_ASSIGN by (symmetry; tauto). exact Coq.Init.Logic.I. }
  destruct (handle_imm_ass s tn ia) as [s' ok]. cbn [fst snd] in K. specialize (K s' eq_refl). destruct K as (I' & Ea' & Eu & Ed & E1 & E2 & Ep).
  assert (PP : forall r, post bs s' (ImmAss tn fn ia) r -> post bs s (ImmAss tn fn ia) r).
  { intros r. unfold post. rewrite Ea', Eu, Ed, E1, E2. cbn [abort_cause]. tauto. }
  destruct ok; cbn [negb].
  2:{ apply PP, post_same; [exact I'|intros []]. }
  specialize (Ep eq_refl). apply PP. rewrite Ea in Ea'. clear PP I Ea Eu Ed E1 E2 s.
  destruct (start_ex s' && (0 <? fncmp (start_fn s') fn)) eqn:Es.
  - apply andb_prop in Es. destruct Es as [Es _]. unfold inv in I'. rec s'. subst a0. destruct I' as (I1 & I2 & I3 & I4 & I5 & (-> & Ia) & Iaa & Iu).
    split; [intros []|]. unfold inv; cbn. rewrite andb_true_r. repeat split; try tauto; try lia.
  - destruct (two s') eqn:Et.
    + unfold inv in I'. rec s'. subst a0. destruct I' as (I1 & I2 & I3 & I4 & I5 & (-> & Ia) & Iaa & Iu).
      split; [intros []|]. unfold inv; cbn. rewrite andb_true_r. repeat split; try tauto; try lia.
    + apply complete_ok; try reflexivity; try assumption; try congruence; try (rewrite Ea'; cbn; lia). intros [].
Qed.

Lemma step_PktUlAss bs s tn fn poll m : inv s -> post bs s (PktUlAss tn fn poll m) (step bs s (PktUlAss tn fn poll m)).
Proof.
  intros I. cbn [step]. unfold rx_pkt_ul_ass.
  assert (G : a s = WAIT_PKT_UL_ASS \/ a s = STARTING_TIME2 \/ ~ (a s = WAIT_PKT_UL_ASS \/ a s = STARTING_TIME2)) by (destruct (a s); tauto || (right; right; intros [H | H]; discriminate)).
  assert (R : (a s = WAIT_PKT_UL_ASS \/ a s = STARTING_TIME2) -> post bs s (PktUlAss tn fn poll m)
    (let s0 := handle_pkt_ul_ass s m in
      let (s1, o) := match poll with
                    | None => (s0, [])
                    | Some pf =>
                        let next_blk := fn_next_block (fn_next_block pf) in
                        (if negb (start_ex s0) || (fncmp (start_fn s0) next_blk <? 0)
                         then set_ass s0 (two s0) (from_dl s0) (p1 s0) (p2 s0) true next_blk (sba s0) else s0,
                         [Reserve tn pf POLL_UL_ASS])
                    end in
      if start_ex s1 && (0 <? fncmp (start_fn s1) fn) then
        alive (a_chg s1 STARTING_TIME2) (o ++ [Configure (p2 s1) (Some (start_fn s1))])
      else complete s1 o)).
  2:{ destruct (a s); try (apply R; tauto); apply post_same; try exact I; intros []. }
  clear G. intros Ha. cbv zeta. set (s0 := handle_pkt_ul_ass s m).
  set (q := match poll with None => _ | Some _ => _ end).
  assert (K : a (fst q) = a s /\ u (fst q) = u s /\ from_dl (fst q) = from_dl s /\ acc_att (fst q) = acc_att s /\ res_att (fst q) = res_att s /\
     n3104 (fst q) = n3104 s /\ cur (fst q) = cur s /\ t3168 (fst q) = t3168 s /\ T (fst q) = T s /\ pend (fst q) = pend s /\ two (fst q) = two s /\ wf_al (p2 (fst q)) /\
     (snd q = [] \/ exists x y z, snd q = [Reserve x y z])).
  { assert (W : wf_al (p2 s0)) by (unfold s0; destruct m as [? ? ? ?|[?|]]; cbn; auto).
    assert (K0 : a s0 = a s /\ u s0 = u s /\ from_dl s0 = from_dl s /\ acc_att s0 = acc_att s /\ res_att s0 = res_att s /\
       n3104 s0 = n3104 s /\ cur s0 = cur s /\ t3168 s0 = t3168 s /\ T s0 = T s /\ pend s0 = pend s /\ two s0 = two s).
    { unfold s0; destruct m as [? ? ? ?|[?|]]; destruct s; cbn; tauto. }
    clearbody s0. unfold q. destruct poll as [pf|]; cbn [fst snd]; [|tauto].
    destruct (negb (start_ex s0) || _); cbn; intuition eauto. }
  clearbody q. clear s0. destruct q as [s1 o]. cbn [fst snd] in K. destruct K as (Ka & Ku & Kd & K1 & K2 & K3 & K4 & K5 & K6 & K7 & K8 & W & Ho).
  assert (H2 : two s = true) by (unfold inv in I; destruct Ha as [E | E]; rewrite E in I; tauto).
  assert (I0 : inv s -> 0 <= acc_att s <= 3 /\ 0 <= res_att s <= 3 /\ u s = WAIT_ASSIGN /\ T s = 0 /\ pend s = false /\ n3104 s = 0 /\ cur s = alloc0 /\ t3168 s = match a s with WAIT_PKT_UL_ASS => true | _ => false end).
  { unfold inv. destruct Ha as [-> | ->]; tauto. }
  destruct (I0 I) as (J1 & J2 & J3 & J4 & J5 & J6 & J7 & J8). clear I0.
  assert (Q : forall r, post bs s1 (PktUlAss tn fn poll m) r -> post bs s (PktUlAss tn fn poll m) r).
  { intros r. unfold post. rewrite Ka, Ku, Kd, K1, K2. cbn [abort_cause]. tauto. }
  apply Q. clear Q. rewrite <- Ka, <- Ku, <- K1, <- K2, <- K3, <- K4, <- K5, <- K6, <- K7, <- K8 in *.
  clear I Ka Ku Kd K1 K2 K3 K4 K5 K6 K7 K8 s.
  destruct (start_ex s1 && (0 <? fncmp (start_fn s1) fn)) eqn:Es.
  - apply andb_prop in Es. destruct Es as [Es _]. rec s1. subst.
    split; [intros []|]. unfold inv; cbn. rewrite andb_true_r, !count_app.
    destruct Ho as [-> | (x & y & z & ->)]; destruct Ha as [-> | ->]; cbn; repeat split; auto; try lia.
  - assert (I1 : a s1 = STARTING_TIME2 -> start_ex s1 = true -> True) by auto.
    (* the invariant may fail on start_ex here, so complete is handled directly *)
    unfold complete. rec s1. subst. cbn. split; [intros []|]. unfold inv; cbn. rewrite andb_false_r, !count_app.
    destruct Ho as [-> | (x & y & z & ->)]; destruct Ha as [-> | ->]; cbn; repeat split; auto; try lia.
Qed.

Lemma step_Tick bs s tn fn : inv s -> post bs s (Tick tn fn) (step bs s (Tick tn fn)).
Proof.
  intros I. cbn [step]. unfold rts_tick. destruct (a s) eqn:Ea; try (apply post_same; [exact I|intros [E _]; congruence]).
  - assert (J : start_ex s = true /\ 0 < num_ts (p1 s)) by (unfold inv in I; rewrite Ea in I; tauto). destruct J as [J1 J2]. rewrite J1.
    replace (0 <? num_ts (p1 s)) with true by lia. cbn [negb orb].
    destruct (negb _ || _); [apply post_same; [exact I|intros [E _]; congruence]|].
    destruct (two s) eqn:Et.
    + unfold inv in I. rec s. subst. destruct I as (I1 & I2 & I3 & I4 & I5 & (-> & Ia) & Iaa & Iu).
      split; [intros [E _]; discriminate|]. unfold inv; cbn. rewrite andb_true_r. repeat split; try tauto; try lia.
    + apply complete_ok; try reflexivity; try assumption; try congruence; try (rewrite Ea; cbn; lia); intros [E _]; congruence.
  - assert (J : two s = true /\ start_ex s = true /\ wf_al (p2 s)) by (unfold inv in I; rewrite Ea in I; tauto). destruct J as (Jt & J1 & J2). rewrite J1.
    cbn [negb orb]. destruct (0 <? num_ts (p2 s)) eqn:En; cbn [negb]; [|cbn; split; [assumption|lia]].
    assert (N : ~ abort_cause bs s (Tick tn fn)) by (intros [_ L]; lia).
    destruct (negb _ || _); [apply post_same; assumption|].
    apply complete_ok; try reflexivity; try assumption; try congruence; try (rewrite Ea; cbn; lia).
    intros _. exact J2.
Qed.

Lemma step_msg bs s e enc : inv s -> ~ abort_cause bs s e -> post bs s e (create_rlcmac_msg s enc).
Proof.
  intros I N. unfold create_rlcmac_msg. destruct (a s) eqn:Ea; try (apply post_same; assumption).
  - destruct enc; [|apply post_same; assumption]. unfold inv in I. split; [exact N|]. clear N. rec s. subst. destruct I as (I1 & I2 & I3 & I4 & I5 & (-> & Ia) & Iaa & Iu).
    unfold inv; cbn. rewrite andb_true_r. repeat split; try tauto; try lia.
  - destruct enc; [|apply post_same; assumption].
    pose proof (post_same bs s e I N) as P. unfold alive, post in *. cbn. cbn in P. tauto.
Qed.

(** Starting the access again. *)
Lemma reinit_ok s rach o : a s = IDLE ->
  (rach = true -> exists s', reinit s rach o = Ok (Some s', o ++ [Configure alloc0 None; PdchRel; Rach 0x78]) /\
     u s' = WAIT_ASSIGN /\ a s' = WAIT_CCCH_IMM_ASS /\ T s' = 0 /\ pend s' = false /\ n3104 s' = 0 /\ cur s' = alloc0 /\
     acc_att s' = acc_att s /\ res_att s' = res_att s /\ t3168 s' = false /\ from_dl s' = from_dl s /\ t3180 s' = t3180 s /\ two s' = false) /\
  (rach = false -> reinit s rach o = Ok (None, o ++ [Configure alloc0 None; PdchRel; Rach 0x78; Freed])).
Proof.
  intros Ea. rec s. subst a0. split; intros ->; unfold reinit; cbn.
  - eexists. split; [unfold alive; rewrite <- app_assoc; reflexivity|]. cbn. tauto.
  - unfold freed. rewrite <- !app_assoc. reflexivity.
Qed.

Lemma u_idle s : inv s -> (u s = FLOW \/ u s = FINISHED \/ u s = RELEASING) -> a s = IDLE /\ t3168 s = false /\ from_dl s = false.
Proof. intros I H. unfold inv in I. destruct (a s); intuition congruence. Qed.

Lemma step_Timer bs s rach : inv s -> post bs s (Timer rach) (step bs s (Timer rach)).
Proof.
  intros I. cbn [step]. unfold timer_cb. destruct (pend s) eqn:Ep; cbn [negb]; [|apply post_same; [exact I|intros []]].
  assert (Hu : (u s = FLOW \/ u s = FINISHED) /\ (T s = 3164 /\ u s = FLOW \/ T s = 3166 \/ T s = 3182)).
  { unfold inv in I. destruct I as (_ & _ & _ & _ & _ & Ia & _ & Iu).
    assert (E : u s = FLOW \/ u s = FINISHED \/ u s = RELEASING) by (destruct (a s); intuition congruence).
    destruct E as [E | [E | E]]; rewrite E in *; [|intuition congruence..].
    split; [tauto|]. destruct (two s); intuition congruence. }
  destruct Hu as [Hu HT]. destruct (u_idle s I ltac:(tauto)) as (Ea & E3 & Ed).
  cbn [T set_u u acc_att retrans n3104 res_att set_counts].
  assert (J : 0 <= acc_att s <= 3 /\ 0 <= res_att s <= 3) by (unfold inv in I; tauto). destruct J as [J1 J2].
  assert (R : T s = 3164 \/ T s = 3166 -> post bs s (Timer rach)
     (if acc_att s + 1 =? 4 then freed [Expired (T s)] else reinit (set_counts (set_u s (u s) (T s) false) (acc_att s + 1) (retrans s) (n3104 s) (res_att s)) rach [Expired (T s)])).
  { intros HT'. assert (HE : is_access_timeout (Expired (T s)) = true /\ is_t3168 (Expired (T s)) = false) by (cbn; lia). destruct HE as [HE HE'].
    destruct (acc_att s + 1 =? 4) eqn:E4.
    - unfold post, freed. cbn [app count]. rewrite HE, HE'. cbn. intuition lia.
    - set (s1 := set_counts _ _ _ _ _). destruct (reinit_ok s1 rach [Expired (T s)]) as [R1 R2]; [destruct s; exact Ea|].
      assert (K : a s1 = a s /\ acc_att s1 = acc_att s + 1 /\ res_att s1 = res_att s /\ from_dl s1 = from_dl s) by (destruct s; cbn; tauto).
      destruct K as (Ka & Kb & Kc & Kd). clearbody s1. destruct rach.
      + destruct (R1 eq_refl) as (s' & -> & Q). unfold post. cbn [app count]. rewrite HE, HE'. cbn.
        destruct Q as (Q1 & Q2 & Q3 & Q4 & Q5 & Q6 & Q7 & Q8 & Q9 & Q10 & Q11 & Q12).
        split; [intros []|]. rewrite Q1, Q2, Ea. split; [unfold inv; rewrite Q1, Q2; rewrite Q3, Q4, Q5, Q6, Q7, Q8, Q9; repeat split; auto; lia|].
        rewrite Q10, Kd, Ed. destruct Hu as [-> | ->]; cbn; repeat split; try lia.
      + rewrite (R2 eq_refl). unfold post. cbn [app count]. rewrite HE, HE'. cbn. intuition lia. }
  destruct (T s =? 3164) eqn:E1.
  - destruct HT as [[HT HF] | HT]; [|lia]. rewrite HF in *. apply R. lia.
  - destruct (T s =? 3166) eqn:E2.
    + destruct Hu as [HF | HF]; rewrite HF in *; apply R; lia.
    + replace (T s =? 3182) with true by (destruct HT as [[HT _] | HT]; lia). unfold post, freed. cbn. intuition lia.
Qed.

Lemma step_T3168 bs s : inv s -> post bs s T3168 (step bs s T3168).
Proof.
  intros I. cbn [step]. unfold t3168_cb. destruct (t3168 s) eqn:Et; cbn [negb]; [|apply post_same; [exact I|intros []]].
  assert (Ea : a s = WAIT_PKT_UL_ASS) by (unfold inv in I; destruct (a s); intuition congruence).
  assert (J : 0 <= acc_att s <= 3 /\ 0 <= res_att s <= 3) by (unfold inv in I; tauto).
  destruct (from_dl s) eqn:Ed; [unfold post, freed; cbn; intuition lia|].
  cbn [a set_a set_counts res_att]. rewrite Ea. destruct (res_att s + 1 =? 4) eqn:E4; [unfold post, freed; cbn; intuition lia|].
  unfold inv in I. rec s. subst. destruct I as (I1 & I2 & I3 & I4 & I5 & (-> & Ia) & Iaa & Iu).
  split; [intros []|]. unfold inv; cbn. repeat split; try tauto; try lia.
Qed.

Lemma step_T3180 bs s : inv s -> post bs s T3180 (step bs s T3180).
Proof.
  intros I. cbn [step]. unfold t3180_cb. destruct (t3180 s) eqn:Et; [|apply post_same; [exact I|intros []]].
  assert (J : 0 <= acc_att s <= 3 /\ 0 <= res_att s <= 3) by (unfold inv in I; tauto). unfold post, freed; cbn; intuition lia.
Qed.

Lemma step_DataCnf bs s tn fn : inv s -> post bs s (DataCnf tn fn) (step bs s (DataCnf tn fn)).
Proof.
  intros I. cbn [step]. unfold data_cnf. destruct (u s) eqn:Eu; try (apply post_same; [exact I|intros []]).
  destruct ((ack_fn s =? fn) && (ack_tn s =? tn)) eqn:E; [|apply post_same; [exact I|intros []]].
  assert (J : 0 <= acc_att s <= 3 /\ 0 <= res_att s <= 3) by (unfold inv in I; tauto). unfold post, freed; cbn; intuition lia.
Qed.

Lemma step_DummyRts bs s tn usf : inv s -> post bs s (DummyRts tn usf) (step bs s (DummyRts tn usf)).
Proof.
  intros I. cbn [step]. destruct (dummy_rts s tn usf); [|apply post_same; [exact I|intros []]].
  pose proof (post_same bs s (DummyRts tn usf) I ltac:(intros [])) as P. unfold alive, post in *. cbn [count is_freed is_access_timeout is_rach is_n3104 is_t3168 is_resreq] in *.
  destruct P as (P1 & P2 & P3). split; [exact P1|]. split; [|destruct s; exact P3]. clear P1 P3 I. unfold inv in *. rec s.
  destruct u0; destruct two0; tauto.
Qed.

Lemma step_UlAck bs s tn tfi poll final est cc : inv s -> post bs s (UlAck tn tfi poll final est cc) (step bs s (UlAck tn tfi poll final est cc)).
Proof.
  intros I. cbn [step]. unfold rx_ul_ack. destruct (ul_tfi (cur s) =? tfi) eqn:Et; cbn [negb]; [|apply post_same; [exact I|intros [E _]; lia]].
  assert (O : forall (o : list out), o = match poll with Some pf => [Reserve tn pf POLL_UL_ACK] | None => [] end \/ o = [] ->
     count is_freed o = 0 /\ count is_access_timeout o = 0 /\ count is_rach o = 0 /\ count is_n3104 o = 0 /\ count is_t3168 o = 0 /\ count is_resreq o = 0).
  { intros o [-> | ->]; [destruct poll|]; cbn; tauto. }
  set (e := UlAck tn tfi poll final est cc).
  (* what the machine does *)
  assert (F : match fsm_ul_ack s tn poll final est with
              | UB => abort_cause bs s e
              | Err _ => False
              | Ok (s1, o) => inv s1 /\ u_next (u s) (u s1) /\ a s1 = a s /\ from_dl s1 = from_dl s /\ acc_att s1 = acc_att s /\ res_att s1 = res_att s /\
                  cur s1 = cur s /\ tx_cs s1 = tx_cs s /\ countdown s1 = countdown s /\ ~ (u s = FLOW /\ two s = false /\ n3104 s = 0) /\
                  (o = match poll with Some pf => [Reserve tn pf POLL_UL_ACK] | None => [] end \/ o = [])
              end).
  { unfold fsm_ul_ack. assert (NN : u s <> NEW) by (unfold inv in I; destruct (a s); intuition congruence).
    destruct (u s) eqn:Eu; [congruence| | | |].
    - rewrite Eu. cbn. intuition congruence.
    - unfold in_contention. rewrite Eu. destruct (u_idle s I ltac:(tauto)) as (Ea & E3 & Ed).
      unfold inv in I. rewrite Ea, Eu in I. destruct (two s) eqn:E2.
      + cbn [bind]. rewrite Eu. split; [unfold inv; rewrite Ea, Eu, E2; tauto|]. repeat split; auto. intros (_ & Q & _). discriminate.
      + destruct I as (I1 & I2 & I3 & I4 & I5 & Ia & Iaa & [(U1 & U2 & U3) | (U1 & U2 & U3 & U4)]).
        * rewrite U1. cbn [Z.eqb orb]. unfold contention_succeeded. rewrite E2, U2. cbn. split; [lia|]. left. tauto.
        * replace (n3104 s =? 0) with false by lia. cbn [orb].
          destruct U4 as [(U4 & U5) | (U4 & U5)]; rewrite U4, U5; cbn [andb orb Z.eqb Pos.eqb].
          -- unfold contention_succeeded. rewrite E2, U4. cbn [negb orb Z.eqb Pos.eqb]. unfold update_cv.
             replace (0 <? num_ts (cur (set_u s (u s) 0 false))) with true by (destruct s; cbn in *; lia). rewrite andb_false_r. cbn [bind].
             rec s. subst. split; [unfold inv; cbn; repeat split; auto; lia|]. repeat split; auto; try lia.
          -- cbn [bind]. rewrite Eu. split; [unfold inv; rewrite Ea, Eu, E2; tauto|]. repeat split; auto. lia.
    - unfold in_contention. rewrite Eu. destruct (u_idle s I ltac:(tauto)) as (Ea & E3 & Ed).
      unfold inv in I. rewrite Ea, Eu in I. destruct I as (I1 & I2 & I3 & I4 & I5 & Ia & Iaa & U1 & U2 & U3 & U4).
      replace (n3104 s =? 0) with false by lia. cbn [orb].
      (* the timer stops in every case *)
      assert (X : exists s1, inv s1 /\ u s1 = FINISHED /\ a s1 = a s /\ from_dl s1 = from_dl s /\ acc_att s1 = acc_att s /\ res_att s1 = res_att s /\ cur s1 = cur s /\ tx_cs s1 = tx_cs s /\ countdown s1 = countdown s /\ t3180 s1 = true /\ 
        (if (if two s then false else pend s && ((T s =? 3164) || (T s =? 3166))) then contention_succeeded s else Ok (if (T s =? 3182) && pend s then set_u s FINISHED 0 false else s)) = Ok s1).
      { destruct U4 as [(V1 & V2 & V3) | [(V2 & V3) | (V2 & V3)]].
        - rewrite V1, V2, V3. cbn [andb orb Z.eqb Pos.eqb]. unfold contention_succeeded. rewrite V1, V2. cbn [negb orb Z.eqb Pos.eqb]. unfold update_cv.
          replace (0 <? num_ts (cur (set_u s (u s) 0 false))) with true by (destruct s; cbn in *; lia). rewrite andb_false_r. cbn [bind].
          rec s. subst. eexists. split; [|repeat split]; auto. unfold inv; cbn. repeat split; auto; lia.
        - rewrite V2, V3. cbn [andb orb Z.eqb Pos.eqb]. rec s. subst. destruct two0; (eexists; split; [|repeat split]); auto; unfold inv; cbn; repeat split; auto; lia.
        - rewrite V2, V3. cbn [andb orb Z.eqb Pos.eqb]. rec s. subst. destruct two0; (eexists; split; [|repeat split]); auto; unfold inv; cbn; repeat split; auto; lia. }
      destruct X as (s1 & X1 & X2 & X3 & X4 & X5 & X6 & X7 & X8 & X9 & X10 & ->). cbn [bind].
      destruct final.
      + assert (0 < num_ts (cur s1)) by (rewrite X7; exact U3).
        unfold inv in X1. rec s1. subst. split; [|repeat split; auto; intros (Q & _); discriminate]. unfold inv; cbn. rewrite Ea in *. repeat split; auto; try lia; try tauto.
      + split; [exact X1|]. rewrite X2. repeat split; auto. intros (Q & _); discriminate.
    - rewrite Eu. cbn. split; [exact I|]. repeat split; auto. intros (Q & _); discriminate. }
  destruct (fsm_ul_ack s tn poll final est) as [[s1 o]|?|]; [|destruct F|exact F].
  destruct F as (F1 & F2 & F3 & F4 & F5 & F6 & F7 & F8 & F9 & F10 & F11).
  cbn [bind fst snd]. unfold update_tx_cs.
  destruct (O o F11) as (O1 & O2 & O3 & O4 & O5 & O6). clear O F11.
  assert (FD : from_dl s = from_dl s && negb (match a s with IDLE => true | _ => false end)).
  { unfold inv in I. destruct (a s); rewrite ?andb_true_r; try reflexivity. destruct I as (_ & _ & _ & _ & _ & _ & -> & _). reflexivity. }
  assert (AN : a_next (a s) (a s)) by (destruct (a s); exact Coq.Init.Logic.I).
  destruct (tx_cs s1 =? cc + 1) eqn:Ec.
  - cbn. split; [|split; [exact F1|split; [exact F2|]]; rewrite F3, F4, F5, F6; split; [exact AN|split; [exact FD|]]; repeat split; lia].
    intros (_ & [Q | (_ & _ & Q)]); [tauto|]. apply Q. rewrite <- F8. lia.
  - unfold update_cv. cbn [countdown set_tx cur]. destruct (countdown s1 && negb (0 <? num_ts (cur s1))) eqn:Eq; cbn [bind].
    + cbn. split; [lia|]. right. apply andb_prop in Eq. destruct Eq as [Eq1 Eq2]. rewrite <- F9, <- F7, <- F8. split; [exact Eq1|]. split; lia.
    + cbn. split.
      { intros (_ & [Q | (Q1 & Q2 & _)]); [tauto|]. rewrite <- F9 in Q1. rewrite <- F7 in Q2. rewrite Q1 in Eq. cbn [andb] in Eq. lia. }
      split; [|split; [exact F2|]; rewrite F3, F4, F5, F6; split; [exact AN|split; [exact FD|]]; repeat split; lia].
      clear - F1. unfold inv in *. rec s1. destruct u0; tauto.
Qed.

Lemma step_DataRts bs s tn usf final cd rach : inv s -> post bs s (DataRts tn usf final cd rach) (step bs s (DataRts tn usf final cd rach)).
Proof.
  intros I. cbn [step]. set (e := DataRts tn usf final cd rach). unfold data_rts.
  destruct (dummy_rts s tn usf) eqn:Ed; cbn [andb].
  2:{ apply post_same; [exact I|]. intros (_ & Q & _). unfold dummy_rts in Ed. rewrite Q in Ed. lia. }
  assert (Hs : slot (cur s) tn = Some usf).
  { unfold dummy_rts in Ed. destruct (slot (cur s) tn); [|discriminate]. f_equal. lia. }
  assert (Hn : 0 < num_ts (cur s)).
  { unfold inv in I. destruct I as (_ & _ & _ & W & _). exact (W _ _ Hs). }
  assert (Hu : (u s = FLOW \/ u s = FINISHED) \/ ~ (u s = FLOW \/ u s = FINISHED)) by (destruct (u s); tauto || (right; intros [Q | Q]; discriminate)).
  destruct Hu as [Hu | Hu].
  2:{ destruct (u s) eqn:Eu; try tauto; (apply post_same; [exact I|]; intros (_ & _ & [Q | Q] & _); congruence). }
  replace (match u s with FLOW | FINISHED => true | _ => false end) with true by (destruct Hu as [-> | ->]; reflexivity).
  destruct (u_idle s I ltac:(tauto)) as (Ea & E3 & Edl).
  unfold data_create. set (s0 := set_tx s _ _ _).
  (* after the first and last block events *)
  set (contend := negb (two s) && ((n3104 s =? 0) || (pend s && (T s =? 3166)))).
  assert (X : exists s1, (do s1 <- (if n3104 s0 =? 0 then first_data_sent s0 else Ok s0); (if final then last_data_sent s1 else Ok s1)) = Ok s1 /\
      (u s1 = FLOW /\ u s = FLOW \/ u s1 = FINISHED) /\ a s1 = IDLE /\ from_dl s1 = false /\ t3168 s1 = false /\ acc_att s1 = acc_att s /\ res_att s1 = res_att s /\ cur s1 = cur s /\
      n3104 s1 = n3104 s /\ two s1 = two s /\
      (contend = true /\ T s1 = 3166 /\ pend s1 = true \/
       contend = false /\ (T s1 = 3182 /\ pend s1 = true /\ u s1 = FINISHED \/ T s1 = 0 /\ pend s1 = false /\ (u s1 = FLOW -> two s = false) \/ T s1 = 3164 /\ pend s1 = false /\ two s = true /\ u s1 = FLOW))).
  { unfold inv in I. rewrite Ea in I. subst s0 contend e. rec s. subst. unfold first_data_sent, last_data_sent, arm_T3182, in_contention. cbn.
    destruct I as (I1 & I2 & I3 & I4 & I5 & Ia & Iaa & Iu).
    destruct Hu as [-> | ->].
    - destruct Iu as [(U1 & U2 & U3) | (U1 & U2 & U3 & U4)].
      + subst. cbn. destruct two0; cbn; destruct final; cbn; eexists; (split; [reflexivity|]); cbn; repeat split; auto; tauto.
      + replace (n31040 =? 0) with false by lia. cbn [bind]. destruct two0; cbn [negb andb orb].
        * destruct U4 as [-> ->]. destruct final; cbn; replace (n31040 =? 0) with false by lia; cbn; eexists; (split; [reflexivity|]); cbn; repeat split; auto; tauto.
        * destruct U4 as [(-> & ->) | (-> & ->)]; destruct final; cbn; replace (n31040 =? 0) with false by lia; cbn; eexists; (split; [reflexivity|]); cbn; repeat split; auto; tauto.
    - destruct Iu as (U1 & U2 & U3 & U4). replace (n31040 =? 0) with false by lia. cbn [bind].
      destruct U4 as [(-> & -> & ->) | [(-> & ->) | (-> & ->)]]; cbn; destruct final; cbn; try replace (n31040 =? 0) with false by lia; cbn;
       try (destruct two0; cbn); eexists; (split; [reflexivity|]); cbn; repeat split; auto; try (intuition congruence). }
  destruct X as (s1 & X & XU & Xa & Xd & X3 & X4 & X5 & X6 & X7 & X8 & X9).
  assert (XX : forall (k : tbf -> result), (do s1 <- (if n3104 s0 =? 0 then first_data_sent s0 else Ok s0); do s2 <- (if final then last_data_sent s1 else Ok s1); k s2) = k s1).
  { intros k. destruct (if n3104 s0 =? 0 then first_data_sent s0 else Ok s0) as [y|?|]; cbn [bind] in *; try discriminate. rewrite X. reflexivity. }
  rewrite XX. clear XX X s0.
  set (s2 := set_counts s1 _ _ _ _).
  assert (Y : (u s2 = FLOW /\ u s = FLOW \/ u s2 = FINISHED) /\ a s2 = IDLE /\ from_dl s2 = false /\ t3168 s2 = false /\ acc_att s2 = acc_att s /\ res_att s2 = res_att s /\ cur s2 = cur s /\
      n3104 s2 = n3104 s + 1 /\ two s2 = two s /\ T s2 = T s1 /\ pend s2 = pend s1 /\ u s2 = u s1 /\ n3104_max bs s2 = n3104_max bs s).
  { unfold s2, n3104_max. clear s2. destruct s1; cbn in *. subst. tauto. }
  clearbody s2. destruct Y as (YU & Ya & Yd & Y3 & Y4 & Y5 & Y6 & Y7 & Y8 & YT & Yp & Yu & Ym). rewrite <- YT, <- Yp, <- Yu in X9.
  clear XU Xa Xd X3 X4 X5 X6 X7 X8 YT Yp Yu s1.
  assert (J : 0 <= acc_att s <= 3 /\ 0 <= res_att s <= 3 /\ 0 <= n3104 s /\ wf_al (cur s)) by (unfold inv in I; tauto). destruct J as (J1 & J2 & J3 & J4).
  assert (IC : in_contention s2 = contend).
  { unfold in_contention. replace (match u s2 with FLOW | FINISHED => _ | _ => _ end) with (if two s2 then false else (n3104 s2 =? 0) || (pend s2 && ((T s2 =? 3164) || (T s2 =? 3166)))) by (destruct YU as [[-> _] | ->]; reflexivity).
    rewrite Y7, Y8. replace (n3104 s + 1 =? 0) with false by lia. cbn [orb].
    destruct X9 as [(Q1 & Q2 & Q3) | (Q1 & [(Q2 & Q3 & _) | [(Q2 & Q3 & _) | (Q2 & Q3 & Q4 & _)]])]; rewrite Q2, Q3, Q1; cbn; try (destruct (two s); reflexivity).
    unfold contend in Q1. apply andb_prop in Q1. destruct Q1 as [Q1 _]. destruct (two s); [discriminate|reflexivity]. }
  assert (AC : abort_cause bs s e <-> rach = false /\ contend = true /\ n3104_max bs s <= n3104 s + 1).
  { cbn [abort_cause e]. unfold contend. destruct (two s); cbn; [intuition congruence|]. rewrite Bool.orb_true_iff, andb_true_iff, !Z.eqb_eq. tauto. }
  rewrite IC. destruct (contend && (n3104_max bs s2 <=? n3104 s2)) eqn:EL.
  - apply andb_prop in EL. destruct EL as [EC EL].
    destruct (reinit_ok s2 rach [Data final; N3104Max] Ya) as [R1 R2]. destruct rach.
    + destruct (R1 eq_refl) as (s' & -> & Q). cbn [bind fst snd app]. unfold post, alive. cbn.
      destruct Q as (Q1 & Q2 & Q3 & Q4 & Q5 & Q6 & Q7 & Q8 & Q9 & Q10 & Q11 & Q12).
      split; [intros AA; apply AC in AA; destruct AA; discriminate|]. rewrite Q1, Q2, Ea. unfold inv; cbn. rewrite Q1, Q2, Q3, Q4, Q5, Q6, Q7, Q8, Q9, Q10, Yd, Edl. cbn.
      destruct Hu as [-> | ->]; cbn; repeat split; auto; lia.
    + rewrite (R2 eq_refl). cbn. apply AC. repeat split; auto. lia.
  - unfold post, alive. cbn. split; [intros AA; apply AC in AA; destruct AA as (_ & EC & AA); rewrite EC in EL; cbn [andb] in EL; lia|].
    rewrite Ya, Ea, Yd, Edl, Y4, Y5. split.
    + unfold inv; cbn. rewrite Ya, Yd, Y3, Y4, Y5, Y6, Y7, Y8.
      assert (Q : contend = true -> two s = false) by (unfold contend; destruct (two s); [discriminate|reflexivity]).
      repeat split; auto; try lia; [tauto|].
      destruct YU as [[YU _] | YU]; rewrite YU in *.
      * right. repeat split; auto; try lia. destruct X9 as [(Q1 & Q2 & Q3) | (Q1 & [(Q2 & Q3 & Q4) | [(Q2 & Q3 & Q4) | (Q2 & Q3 & Q4 & _)]])]; [rewrite (Q Q1); auto|discriminate|rewrite (Q4 eq_refl); auto|rewrite Q4; auto].
      * repeat split; auto; try lia. destruct X9 as [(Q1 & Q2 & Q3) | (Q1 & [(Q2 & Q3 & Q4) | [(Q2 & Q3 & Q4) | (Q2 & Q3 & Q4 & Q5)]])]; auto. discriminate.
    + destruct Hu as [Hu | Hu]; rewrite Hu in *; destruct YU as [[-> YU] | ->]; cbn; repeat split; auto; try lia; discriminate.
Qed.

Lemma step_ok bs s e : inv s -> post bs s e (step bs s e).
Proof.
  intros I. destruct e.
  - apply step_ImmAss; exact I.
  - apply step_PktUlAss; exact I.
  - apply step_Tick; exact I.
  - cbn [step]. destruct (ass_rts _ _ _ _); [apply step_msg|apply post_same]; try exact I; intros [].
  - apply step_msg; [exact I|intros []].
  - apply step_DataRts; exact I.
  - apply step_DummyRts; exact I.
  - apply step_UlAck; exact I.
  - apply step_DataCnf; exact I.
  - apply step_Timer; exact I.
  - apply step_T3168; exact I.
  - apply step_T3180; exact I.
Qed.
