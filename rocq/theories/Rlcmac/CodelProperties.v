(** C25: the queue manager drops only when the queue has been both old and long for a whole interval, and while it keeps
    dropping it does so on a schedule whose gaps never grow. *)
From Verif.Lib Require Import Base Outcome.
From Verif.Rlcmac Require Import CodelModel.

(** One question to the queue manager: when the frame came in, what time it is, how many octets are still queued. *)
Record ask := mkAsk { recv : Z; now : Z; bytes : Z }.

(** A history of questions, put to a manager set up with an interval of [ms] milliseconds. *)
Fixpoint answers (st : codel) (l : list ask) : list bool * codel :=
  match l with
  | [] => ([], st)
  | a :: r => let '(d, st1) := codel_control st (recv a) (now a) (bytes a) in
              let '(ds, st2) := answers st1 r in (d :: ds, st2)
  end.
Definition start (ms : Z) : codel := set_interval codel_init ms.

(** The specification: 13/256 (about 5%) of the interval in whole milliseconds, and one maximum packet. *)
Definition target_ns (ms : Z) : Z := ms * 13 / 256 * 1000000.
Definition interval_ns (ms : Z) : Z := ms * 1000000.
Definition one_packet : Z := 512.
(** The frame is old and more than one maximum packet remains behind it (a negative size means "unknown"). *)
Definition bad (ms : Z) (a : ask) : Prop := target_ns ms <= now a - recv a /\ (bytes a < 0 \/ one_packet < bytes a).
(** The clock runs and never goes backwards. *)
Fixpoint clock (t : Z) (l : list ask) : Prop :=
  match l with [] => True | a :: r => t <= now a /\ clock (now a) r end.

(** ---------- invariants ---------- *)
Lemma answers_app l1 l2 st :
  answers st (l1 ++ l2) =
  (fst (answers st l1) ++ fst (answers (snd (answers st l1)) l2), snd (answers (snd (answers st l1)) l2)).
Proof.
  revert st; induction l1 as [|a r IH]; intros st; cbn [app answers].
  - cbn [fst snd]. rewrite app_nil_l. destruct (answers st l2); reflexivity.
  - destruct (codel_control st (recv a) (now a) (bytes a)) as [d st1]. rewrite (IH st1).
    destruct (answers st1 r) as [ds st2]. cbn [fst snd].
    destruct (answers st2 l2) as [e st3]. reflexivity.
Qed.
Lemma answers_length l st : length (fst (answers st l)) = length l.
Proof.
  revert st; induction l as [|a r IH]; intros st; cbn [answers]; [reflexivity|].
  destruct (codel_control st (recv a) (now a) (bytes a)) as [d st1]. specialize (IH st1).
  destruct (answers st1 r) as [ds st2]. cbn [fst] in *. cbn [length]. congruence.
Qed.

Definition params (ms : Z) (st : codel) : Prop :=
  target st = target_ns ms /\ interval st = interval_ns ms /\ maxpacket st = one_packet.

(** What the state remembers of the history: if the "first above" time is set, the history ends in a run of bad questions
    that began an interval before that time. *)
Definition Inv (ms : Z) (h : list ask) (st : codel) : Prop :=
  params ms st /\
  (first_above st = 0 \/
   exists pre a run, h = pre ++ a :: run /\ now a + interval_ns ms = first_above st /\ Forall (bad ms) (a :: run)) /\
  0 <= count st <= zlen h /\ (dropping st = true -> 1 <= count st).

Lemma zlen_snoc {T} (l : list T) x : zlen (l ++ [x]) = zlen l + 1.
Proof. rewrite zlen_app. reflexivity. Qed.

Lemma bad_dec ms st a : params ms st ->
  (bad ms a <-> ((now a - recv a <? target st) || ((0 <=? bytes a) && (bytes a <=? maxpacket st))) = false).
Proof.
  intros (Ht & Hi & Hm). unfold bad. rewrite Ht, Hm. rewrite orb_false_iff, andb_false_iff.
  rewrite !Z.ltb_ge, !Z.leb_gt. tauto.
Qed.

Lemma Inv_step ms h st a : 0 < ms -> 0 < now a -> zlen h < 2 ^ 32 - 1 -> Inv ms h st ->
  Inv ms (h ++ [a]) (snd (codel_control st (recv a) (now a) (bytes a))).
Proof.
  intros Hms Hn Hlen (Hp & Hfa & Hc & Hd).
  pose proof (bad_dec ms st a Hp) as Hb.
  destruct Hp as (Ht & Hi & Hm).
  unfold codel_control.
  assert (Hzl : zlen (h ++ [a]) = zlen h + 1) by apply zlen_snoc.
  assert (Hz0 : 0 <= zlen h) by apply zlen_nonneg.
  destruct ((now a - recv a <? target st) || ((0 <=? bytes a) && (bytes a <=? maxpacket st))) eqn:Hbad.
  { cbn [snd]. unfold Inv, params; cbn [target interval maxpacket first_above dropping count].
    split; [auto|]. split; [left; reflexivity|]. split; [lia|discriminate]. }
  assert (Hbd : bad ms a) by (apply Hb; reflexivity). clear Hb.
  assert (Hext : forall fa, fa <> 0 -> first_above st = fa ->
     exists pre a0 run, h ++ [a] = pre ++ a0 :: run /\ now a0 + interval_ns ms = fa /\ Forall (bad ms) (a0 :: run)).
  { intros fa Hne <-. destruct Hfa as [Hfa|(pre & a0 & run & -> & Hfa & Hall)]; [congruence|].
    exists pre, a0, (run ++ [a]). split; [rewrite <- app_assoc; reflexivity|]. split; [exact Hfa|].
    inversion Hall; subst. constructor; [assumption|]. apply Forall_app; split; [assumption|].
    constructor; [assumption|constructor]. }
  destruct (first_above st =? 0) eqn:Hf0.
  { cbn [snd]. unfold Inv, params; cbn [target interval maxpacket first_above dropping count].
    split; [auto|]. split; [right|split; [lia|discriminate]].
    exists h, a, []. split; [reflexivity|]. rewrite Hi. split; [reflexivity|]. constructor; [exact Hbd|constructor]. }
  apply Z.eqb_neq in Hf0. specialize (Hext _ Hf0 eq_refl).
  destruct (now a <? first_above st) eqn:Hnf.
  { cbn [snd]. unfold Inv, params; cbn [target interval maxpacket first_above dropping count].
    split; [auto|]. split; [right; exact Hext|split; [lia|discriminate]]. }
  destruct (dropping st) eqn:Hdr.
  - specialize (Hd eq_refl). destruct (now a <? drop_next st) eqn:Hdn.
    + cbn [snd]. unfold Inv, params. split; [auto|]. split; [right; exact Hext|split; [lia|intros _; lia]].
    + cbn [snd]. unfold Inv, params; cbn [target interval maxpacket first_above dropping count].
      split; [auto|]. split; [right; exact Hext|]. rewrite Z.mod_small by lia. split; [lia|intros _; lia].
  - match goal with |- context [if negb ?b then _ else _] => destruct b eqn:Hrec end; cbn [negb].
    + cbn [snd]. unfold Inv, params; cbn [target interval maxpacket first_above dropping count].
      split; [auto|]. split; [right; exact Hext|].
      match goal with |- context [if ?b && (2 <? count st) then _ else _] => destruct b; destruct (2 <? count st) eqn:E2 end; cbn [andb]; split; intros; lia.
    + cbn [snd]. unfold Inv, params. split; [auto|]. split; [right; exact Hext|]. split; [lia|rewrite Hdr; discriminate].
Qed.

Lemma start_Inv ms : 0 < ms -> Inv ms [] (start ms).
Proof.
  intros H. unfold start, set_interval, codel_init, set_maxpacket, Inv, params.
  cbn [dropping count first_above drop_next target interval maxpacket].
  destruct (ms <=? 0) eqn:E; [lia|]. cbn [dropping count first_above drop_next target interval maxpacket].
  split; [repeat split; reflexivity|]. split; [left; reflexivity|]. split; [cbn; lia|discriminate].
Qed.

Lemma Inv_run ms l : 0 < ms -> forall t h st, 0 < t -> clock t l -> zlen h + zlen l < 2 ^ 32 -> Inv ms h st ->
  Inv ms (h ++ l) (snd (answers st l)).
Proof.
  intros Hms; induction l as [|a r IH]; intros t h st Ht Hc Hl HI.
  - rewrite app_nil_r. exact HI.
  - cbn [clock] in Hc. destruct Hc as [Hta Hc]. rewrite (zlen_cons a r) in Hl. pose proof (zlen_nonneg r).
    assert (HI1 := Inv_step ms h st a Hms ltac:(lia) ltac:(lia) HI).
    cbn [answers]. destruct (codel_control st (recv a) (now a) (bytes a)) as [d st1] eqn:E. cbn [snd] in HI1.
    replace (h ++ a :: r) with ((h ++ [a]) ++ r) by (rewrite <- app_assoc; reflexivity).
    assert (HH := IH (now a) (h ++ [a]) st1 ltac:(lia) Hc ltac:(rewrite zlen_snoc; lia) HI1).
    destruct (answers st1 r); exact HH.
Qed.

Lemma clock_app t l1 l2 : clock t (l1 ++ l2) -> clock t l1.
Proof. revert t; induction l1; intros t H; cbn [app clock] in *; [exact I|]. destruct H; split; auto. Qed.

Lemma last_answer st h a d :
  last (fst (answers st (h ++ [a]))) d = fst (codel_control (snd (answers st h)) (recv a) (now a) (bytes a)).
Proof.
  rewrite answers_app. cbn [fst]. cbn [answers].
  destruct (codel_control (snd (answers st h)) (recv a) (now a) (bytes a)) as [x y]. cbn [fst].
  rewrite last_last. reflexivity.
Qed.

(** C25, first half.  If the last question of a history is answered with "drop", then this frame is old with more than one
    packet behind it, and every question of the last interval (at least) was so: there is an earlier question a full
    interval ago since when all questions were bad. *)
Theorem C25_drop_only_from_a_bad_queue : forall ms h a,
  0 < ms -> clock 1 (h ++ [a]) -> zlen (h ++ [a]) < 2 ^ 32 ->
  last (fst (answers (start ms) (h ++ [a]))) false = true ->
  exists pre a0 run, h = pre ++ a0 :: run /\ now a0 + interval_ns ms <= now a /\ Forall (bad ms) (a0 :: run ++ [a]).
Proof.
  intros ms h a Hms Hc Hl H. rewrite last_answer in H.
  assert (HI := Inv_run ms h Hms 1 [] (start ms) ltac:(lia) (clock_app _ _ _ Hc)
                  ltac:(rewrite zlen_snoc in Hl; change (zlen (@nil ask)) with 0; lia) (start_Inv ms Hms)).
  rewrite app_nil_l in HI. set (st := snd (answers (start ms) h)) in *. clearbody st.
  destruct HI as (Hp & Hfa & _ & _). pose proof (bad_dec ms st a Hp) as Hb. revert H. unfold codel_control.
  destruct ((now a - recv a <? target st) || ((0 <=? bytes a) && (bytes a <=? maxpacket st))) eqn:Hbad; [discriminate|].
  assert (Hbd : bad ms a) by (apply Hb; reflexivity).
  destruct (first_above st =? 0) eqn:Hf0; [discriminate|].
  destruct (now a <? first_above st) eqn:Hnf; [discriminate|]. intros _.
  destruct Hfa as [Hfa|(pre & a0 & run & -> & Hfa & Hall)]; [lia|].
  exists pre, a0, run. split; [reflexivity|]. split; [lia|].
  inversion Hall; subst. constructor; [assumption|]. apply Forall_app; split; [assumption|]. constructor; [assumption|constructor].
Qed.
Print Assumptions C25_drop_only_from_a_bad_queue.

(** ---------- the schedule ---------- *)
(** Answers on a schedule: the next frame is dropped when its time is due, and then the next due time is one gap later. *)
Fixpoint on_schedule (gap : nat -> Z) (k : nat) (due : Z) (l : list ask) : list bool :=
  match l with
  | [] => []
  | a :: r => if due <=? now a then true :: on_schedule gap (S k) (due + gap k) r else false :: on_schedule gap k due r
  end.

Definition inv_sqrt (c : Z) : Z := if zlen inv_sqrt_tab <=? c then 16 else nth (Z.to_nat c) inv_sqrt_tab 0.
Fixpoint descending (l : list Z) : bool :=
  match l with x :: ((y :: _) as r) => (y <=? x) && descending r | _ => true end.
Lemma descending_nth l : descending l = true -> forall k, (S k < length l)%nat -> nth (S k) l 0 <= nth k l 0.
Proof.
  induction l as [|x [|y r] IH]; intros H k Hk.
  - cbn in Hk; lia.
  - cbn in Hk; lia.
  - cbn [descending] in H. apply andb_prop in H. destruct H as [H1 H2].
    destruct k as [|k]; [cbn [nth]; lia|]. exact (IH H2 k ltac:(cbn in Hk |- *; lia)).
Qed.
Lemma inv_sqrt_desc c : 0 <= c -> inv_sqrt (c + 1) <= inv_sqrt c.
Proof.
  intros H. unfold inv_sqrt. assert (HL : zlen inv_sqrt_tab = 227) by reflexivity. rewrite HL.
  destruct (227 <=? c + 1) eqn:E1; destruct (227 <=? c) eqn:E2; try lia.
  - replace c with 226 by lia. vm_compute. discriminate.
  - replace (Z.to_nat (c + 1)) with (S (Z.to_nat c)) by lia.
    apply descending_nth; [vm_compute; reflexivity|]. change (length inv_sqrt_tab) with 227%nat. lia.
Qed.
Lemma inv_sqrt_range c : 0 <= c -> 16 <= inv_sqrt c <= 255.
Proof.
  intros H. unfold inv_sqrt. assert (HL : zlen inv_sqrt_tab = 227) by reflexivity. rewrite HL.
  destruct (227 <=? c) eqn:E; [lia|].
  assert (HF : Forall (fun x => 16 <= x <= 255) inv_sqrt_tab).
  { apply Forall_forall. intros x Hx.
    assert (Hb : forallb (fun x => (16 <=? x) && (x <=? 255)) inv_sqrt_tab = true) by (vm_compute; reflexivity).
    rewrite forallb_forall in Hb. specialize (Hb x Hx). apply andb_prop in Hb. lia. }
  rewrite Forall_forall in HF. apply HF. apply nth_In. change (length inv_sqrt_tab) with 227%nat. lia.
Qed.
Lemma law_eq c i : control_law c i = i / 1000 * inv_sqrt c / 256 * 1000.
Proof. reflexivity. Qed.
Lemma law_desc c ms : 0 <= c -> 0 < ms -> control_law (c + 1) (interval_ns ms) <= control_law c (interval_ns ms).
Proof.
  intros Hc Hms. rewrite !law_eq. unfold interval_ns.
  replace (ms * 1000000 / 1000) with (ms * 1000) by (replace (ms * 1000000) with (ms * 1000 * 1000) by lia; rewrite Z.div_mul by lia; reflexivity).
  pose proof (inv_sqrt_desc c Hc).
  apply Z.mul_le_mono_nonneg_r; [lia|]. apply Z.div_le_mono; [lia|]. apply Z.mul_le_mono_nonneg_l; lia.
Qed.
Lemma law_range c ms : 0 <= c -> 0 < ms -> 0 < control_law c (interval_ns ms) <= interval_ns ms.
Proof.
  intros Hc Hms. rewrite law_eq. unfold interval_ns.
  replace (ms * 1000000 / 1000) with (ms * 1000) by (replace (ms * 1000000) with (ms * 1000 * 1000) by lia; rewrite Z.div_mul by lia; reflexivity).
  pose proof (inv_sqrt_range c Hc) as Hr.
  assert (H1 : ms * 1000 * 16 <= ms * 1000 * inv_sqrt c) by (apply Z.mul_le_mono_nonneg_l; lia).
  assert (H2 : ms * 1000 * inv_sqrt c <= ms * 1000 * 255) by (apply Z.mul_le_mono_nonneg_l; lia).
  lia.
Qed.

Lemma schedule_run ms l : 0 < ms -> forall t st k c,
  params ms st -> dropping st = true -> first_above st <> 0 -> first_above st <= t -> clock t l -> Forall (bad ms) l ->
  count st = c + Z.of_nat k -> 0 <= c -> c + Z.of_nat k + zlen l < 2 ^ 32 ->
  fst (answers st l) = on_schedule (fun j => control_law (c + Z.of_nat j + 1) (interval_ns ms)) k (drop_next st) l.
Proof.
  intros Hms; induction l as [|a r IH]; intros t st k c Hp Hd Hf Hft Hcl Hb Hcnt Hc0 Hlim; [reflexivity|].
  cbn [clock] in Hcl. destruct Hcl as [Hta Hcl]. inversion Hb as [|? ? Hba Hbr]; subst.
  rewrite (zlen_cons a r) in Hlim. pose proof (zlen_nonneg r) as Hr0.
  cbn [answers on_schedule]. unfold codel_control.
  rewrite (proj1 (bad_dec ms st a Hp) Hba).
  destruct (first_above st =? 0) eqn:E0; [lia|]. destruct (now a <? first_above st) eqn:E1; [lia|].
  rewrite Hd. destruct (drop_next st <=? now a) eqn:E2.
  - destruct (now a <? drop_next st) eqn:E3; [lia|]. rewrite Z.mod_small by lia.
    set (st1 := mkCodel true _ _ _ _ _ _).
    assert (Hp1 : params ms st1) by (destruct Hp as (? & ? & ?); repeat split; assumption).
    assert (HH := IH (now a) st1 (S k) c Hp1 eq_refl Hf ltac:(cbn [first_above st1]; lia) Hcl Hbr
      ltac:(cbn [count st1]; lia) Hc0 ltac:(lia)).
    destruct (answers st1 r) as [ds st2]. cbn [fst] in *. rewrite HH. f_equal. cbn [drop_next st1].
    destruct Hp as (_ & Hi & _). rewrite Hi. replace (count st + 1) with (c + Z.of_nat k + 1) by lia. reflexivity.
  - destruct (now a <? drop_next st) eqn:E3; [|lia].
    assert (HH := IH (now a) st k c Hp Hd Hf ltac:(lia) Hcl Hbr Hcnt Hc0 ltac:(lia)).
    destruct (answers st r) as [ds st2]. cbn [fst] in *. rewrite HH. reflexivity.
Qed.

(** C25, second half.  When a history ends in a drop that opens an episode or continues one, and only bad questions
    follow, then these are answered on a schedule that starts no later than an interval after the drop was due, whose gaps
    are positive, at most the interval, and never grow. *)
Theorem C25_episode_schedule : forall ms h a l,
  0 < ms -> clock 1 (h ++ a :: l) -> zlen (h ++ a :: l) < 2 ^ 32 ->
  last (fst (answers (start ms) (h ++ [a]))) false = true -> Forall (bad ms) l ->
  exists due gap,
    due <= now a + interval_ns ms /\
    (forall k, 0 < gap k <= interval_ns ms) /\ (forall k, gap (S k) <= gap k) /\
    fst (answers (start ms) (h ++ a :: l)) = fst (answers (start ms) (h ++ [a])) ++ on_schedule gap 0 due l.
Proof.
  intros ms h a l Hms Hc Hl H Hb.
  replace (h ++ a :: l) with ((h ++ [a]) ++ l) in * by (rewrite <- app_assoc; reflexivity).
  rewrite zlen_app, zlen_snoc in Hl. pose proof (zlen_nonneg l) as Hl0. pose proof (zlen_nonneg h) as Hh0.
  rewrite last_answer in H.
  assert (HI := Inv_run ms h Hms 1 [] (start ms) ltac:(lia) (clock_app _ _ _ (clock_app _ _ _ Hc))
                  ltac:(change (zlen (@nil ask)) with 0; lia) (start_Inv ms Hms)).
  rewrite app_nil_l in HI.
  rewrite answers_app. cbn [fst].
  assert (Hst : snd (answers (start ms) (h ++ [a])) = snd (codel_control (snd (answers (start ms) h)) (recv a) (now a) (bytes a))).
  { rewrite answers_app. cbn [snd answers].
    destruct (codel_control (snd (answers (start ms) h)) (recv a) (now a) (bytes a)). reflexivity. }
  assert (Hcl : clock (now a) l /\ 1 <= now a).
  { revert Hc. clear. intros Hc.
    assert (G : forall t l1, clock t ((l1 ++ [a]) ++ l) -> clock (now a) l /\ t <= now a).
    { intros t l1; revert t; induction l1 as [|x r IH]; intros t Hx; cbn [app clock] in Hx.
      - tauto.
      - destruct Hx as [H1 H2]. specialize (IH _ H2). split; [tauto|lia]. }
    exact (G 1 h Hc). }
  rewrite Hst. set (st := snd (answers (start ms) h)) in *. clearbody st.
  destruct HI as (Hp & _ & Hcnt & Hd). revert H. unfold codel_control.
  destruct ((now a - recv a <? target st) || ((0 <=? bytes a) && (bytes a <=? maxpacket st))) eqn:Hbad; [discriminate|].
  destruct (first_above st =? 0) eqn:Hf0; [discriminate|].
  destruct (now a <? first_above st) eqn:Hnf; [discriminate|].
  pose proof Hp as (Ht & Hi & Hm).
  destruct (dropping st) eqn:Hdr.
  - destruct (now a <? drop_next st) eqn:Hdn; [discriminate|]. intros _. cbn [snd]. rewrite Z.mod_small by lia.
    set (st1 := mkCodel _ _ _ _ _ _ _).
    exists (drop_next st1), (fun j => control_law (count st1 + Z.of_nat j + 1) (interval_ns ms)).
    assert (Hr := law_range (count st + 1) ms ltac:(lia) Hms).
    split; [cbn [drop_next st1]; rewrite Hi; lia|].
    split; [intros k; apply law_range; [cbn [count st1]; lia|lia]|].
    split; [intros k; replace (count st1 + Z.of_nat (S k) + 1) with (count st1 + Z.of_nat k + 1 + 1) by lia;
            apply law_desc; [cbn [count st1]; lia|lia]|].
    f_equal. apply (schedule_run ms l Hms (now a) st1 0%nat (count st1)); cbn [first_above count dropping st1]; try lia; try tauto.

  - match goal with |- context [if negb ?b then _ else _] => destruct b eqn:Hrec end; cbn [negb]; [|discriminate].
    intros _. cbn [snd].
    match goal with |- context [if ?b && (2 <? count st) then ?x else ?y] => set (c := if b && (2 <? count st) then x else y) end.
    assert (Hc1 : 1 <= c <= zlen h + 1).
    { subst c. match goal with |- context [if ?b && (2 <? count st) then _ else _] => destruct b; destruct (2 <? count st) eqn:E2 end; cbn [andb]; lia. }
    clearbody c. assert (Hr := law_range c ms ltac:(lia) Hms). rewrite <- Hi in Hr.
    exists (now a + control_law c (interval st)), (fun j => control_law (c + Z.of_nat j + 1) (interval_ns ms)).
    split; [lia|].
    split; [intros k; apply law_range; lia|].
    split; [intros k; replace (c + Z.of_nat (S k) + 1) with (c + Z.of_nat k + 1 + 1) by lia;
            apply law_desc; lia|].
    f_equal.
    match goal with |- fst (answers ?s l) = _ => apply (schedule_run ms l Hms (now a) s 0%nat c) end;
      cbn [first_above count dropping]; try lia; try tauto.
Qed.
Print Assumptions C25_episode_schedule.

(** A frame that is young, or has at most one packet behind it, ends the episode: nothing is dropped until the queue has
    again been bad for a whole interval (this is the first theorem); in particular the manager does not drop it. *)
Theorem C25_good_frame_kept : forall ms h a,
  0 < ms -> clock 1 (h ++ [a]) -> zlen (h ++ [a]) < 2 ^ 32 ->
  (now a - recv a < target_ns ms \/ 0 <= bytes a <= one_packet) ->
  last (fst (answers (start ms) (h ++ [a]))) true = false.
Proof.
  intros ms h a Hms Hc Hl Hg. destruct (last (fst (answers (start ms) (h ++ [a]))) true) eqn:E; [|reflexivity].
  exfalso. rewrite last_answer, <- (last_answer _ _ _ false) in E.
  destruct (C25_drop_only_from_a_bad_queue ms h a Hms Hc Hl E) as (pre & a0 & run & _ & _ & Hall).
  inversion Hall as [|? ? _ Hall2]; subst. apply Forall_app in Hall2. destruct Hall2 as [_ Hall2].
  inversion Hall2 as [|? ? [Hb1 Hb2] _]; subst. lia.
Qed.
Print Assumptions C25_good_frame_kept.

(** Examples.  Interval 4000 ms (the default): a question every second about frames two seconds old with 1000 octets
    behind them; the first drop comes at second 9 (two intervals after the first question), the next four seconds later. *)
Definition every_second (n : nat) : list ask :=
  map (fun k => let t := Z.of_nat k * 1000000000 in mkAsk (t - 2000000000) t 1000) (seq 1 n).
Example C25_drops_occur : fst (answers (start 4000) (every_second 20)) =
  [false; false; false; false; false; false; false; false; true; false; false; false; true; false; false; true; false; false; true; false].
Proof. vm_compute. reflexivity. Qed.
Example C25_hypotheses_met : clock 1 (every_second 20) /\ Forall (bad 4000) (every_second 20) /\
  last (fst (answers (start 4000) (every_second 9))) false = true.
Proof.
  split; [|split].
  - vm_compute. repeat split; discriminate.
  - unfold every_second. apply Forall_forall. intros a H. apply in_map_iff in H. destruct H as (k & <- & _).
    unfold bad, target_ns, one_packet; cbn [now recv bytes]. lia.
  - vm_compute. reflexivity.
Qed.
(** One good frame resets the wait. *)
Example C25_reset : fst (answers (start 4000) (every_second 8 ++ mkAsk 9000000000 9000000000 1000 ::
    map (fun a => mkAsk (recv a + 9000000000) (now a + 9000000000) (bytes a)) (every_second 9))) =
  repeat false 17 ++ [true].
Proof. vm_compute. reflexivity. Qed.
