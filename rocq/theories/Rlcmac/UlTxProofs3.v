(** Consequences of the refinement, in the form the property theorems need. *)
From Verif.Lib Require Import Base Outcome.
From Verif.Rlcmac Require Import UlTxModel UlTxSpec UlTxProofs UlTxProofs2.

Lemma num_key p a n : valid_par p -> n mod sns p = (a + (n - a mod sns p) mod sns p) mod sns p.
Proof. intros Hp. cases_par Hp. Qed.
Lemma num_bit p a n ssn : valid_par p -> (n - a) mod sns p < (ssn - a) mod sns p ->
  (ssn - 1 - n) mod sns p = (ssn - a) mod sns p - 1 - (n - a) mod sns p.
Proof.
  intros Hp. assert (Hs : sns p <> 0) by (pose proof (sns_ws p Hp); lia).
  pose proof (num_range p (ssn - a) Hp). pose proof (num_range p (n - a) Hp).
  pose proof (Z.div_mod (ssn - a) (sns p) Hs). pose proof (Z.div_mod (n - a) (sns p) Hs). intros Hlt.
  symmetry. apply (Z.mod_unique_pos _ _ ((ssn - a) / sns p - (n - a) / sns p)).
  - clear Hs. set (x := (ssn - a) mod sns p) in *. set (y := (n - a) mod sns p) in *. clearbody x y. lia.
  - set (x := (ssn - a) mod sns p) in *. set (y := (n - a) mod sns p) in *.
    set (qx := (ssn - a) / sns p) in *. set (qy := (n - a) / sns p) in *. clearbody x y qx qy. lia.
Qed.
Local Ltac Zify.zify_post_hook ::= idtac.

Section Conseq.
Context {B : Type}.
Implicit Types (t : tx B) (s : queue B).

Lemma inv_looks p t s : valid_par p -> inv p t s -> looks_like p t s.
Proof.
  intros Hp (l & Hb & Hrel & Hst & Hh & Hs).
  assert (Hlen : zlen (q_items s) = zlen l) by (unfold zlen; now rewrite (states_len _ _ Hst)).
  split; [exact Hb|]. split; [rewrite Hlen; exact (rel_len _ _ _ _ Hrel)|]. split; [exact (rel_a _ _ _ _ Hrel)|].
  split; [rewrite Hlen; exact (rel_s _ _ _ _ Hrel)|]. intros i it Hi.
  destruct (states_nth_q _ _ _ _ Hst Hi) as (b & Hn & Hsb). cbv zeta.
  split; [|exact (proj1 Hs i it Hi)]. pose proof (rel_b _ _ _ _ Hrel i b Hn) as Hk. unfold key in Hk. rewrite Hk. exact Hsb.
Qed.

Lemma run_inv p es t o : valid_par p -> Forall wf_tev es -> trun p tx_init es = Ok (t, o) -> inv p t (fst (q_run p q_init es)).
Proof.
  intros Hp Hes E. destruct (run_sim p es Hp Hes tx_init q_init (inv_init p Hp)) as (t' & o' & E' & Hi).
  rewrite E in E'. injection E' as <- <-. exact Hi.
Qed.

Lemma run_refines p (es : list (tev B)) e : valid_par p -> Forall wf_tev es -> wf_tev e ->
  exists t o, trun p tx_init es = Ok (t, o) /\
    let s := fst (q_run p q_init es) in
    looks_like p t s /\
    exists t' o', tstep p t e = Ok (t', o') /\ same_out p o' (snd (q_step p s e)) /\ looks_like p t' (fst (q_step p s e)).
Proof.
  intros Hp Hes He. destruct (run_sim p es Hp Hes tx_init q_init (inv_init p Hp)) as (t & o & E & Hi).
  exists t, o. split; [exact E|]. split; [apply inv_looks; assumption|].
  destruct (step_sim p t _ e Hp Hi He) as (t' & o' & E2 & Ho & Hi2). exists t', o'.
  split; [exact E2|]. split; [exact Ho|]. apply inv_looks; assumption.
Qed.

(** Counting. *)
Definition cnt (n : Z) (x : tout B) : Z := match x with Sent New _ _ => n + 1 | Sent _ _ _ => n | Moved m => n - m | Cleared => 0 end.
Lemma retire_len (q : list (item B)) : forall n, zlen (fst (retire n q)) + zlen (retired (snd (retire n q))) = zlen q.
Proof.
  induction q as [|it q IH]; intros n; [reflexivity|]. cbn [retire]. destruct (last_positive it).
  - specialize (IH (n + 1)). destruct (retire (n + 1) q) as [q' o]. cbn [fst snd] in *.
    change (retired (SRetired n it :: o)) with ((n, it) :: retired o). rewrite !zlen_cons. lia.
  - cbn [fst snd]. change (retired []) with (@nil (Z * item B)). change (zlen (@nil (Z * item B))) with 0. lia.
Qed.
Lemma send_again_len s q r : send_again s q = Some r -> zlen (q_items (fst r)) = zlen q /\ exists n b, snd r = [SSent Again n b].
Proof.
  unfold send_again. destruct (first_due q) as [i|]; [|discriminate]. destruct (nth_error q i); [|discriminate].
  intros H. injection H as <-. cbn [fst snd q_items]. rewrite set_at_zlen. eauto.
Qed.
Lemma q_rts_len p s fin data pre : exists k n b, snd (q_rts p s fin data pre) = [SSent k n b] /\
  zlen (q_items (fst (q_rts p s fin data pre))) = zlen (q_items s) + (match k with New => 1 | _ => 0 end) /\
  (k = New -> fin = false /\ zlen (q_items s) <> ws p /\ b = data /\ data <> None /\ first_due (q_items s) = None).
Proof.
  unfold q_rts. destruct (send_again s (q_items s)) as [r|] eqn:E1.
  { apply send_again_len in E1 as (H1 & n & b & H2). exists Again, n, b. rewrite H1, H2. split; [reflexivity|]. split; [lia|discriminate]. }
  set (last := (s, [SSent Last _ _])).
  assert (Hl : exists k n b, snd last = [SSent k n b] /\ zlen (q_items (fst last)) = zlen (q_items s) + (match k with New => 1 | _ => 0 end) /\
     (k = New -> fin = false /\ zlen (q_items s) <> ws p /\ b = data /\ data <> None /\ first_due (q_items s) = None)).
  { exists Last. eexists. eexists. split; [reflexivity|]. cbn [fst last]. split; [lia|discriminate]. }
  assert (Ho : let r := match send_again s (all_due (q_items s)) with Some r => r | None => last end in
     exists k n b, snd r = [SSent k n b] /\ zlen (q_items (fst r)) = zlen (q_items s) + (match k with New => 1 | _ => 0 end) /\
     (k = New -> fin = false /\ zlen (q_items s) <> ws p /\ b = data /\ data <> None /\ first_due (q_items s) = None)).
  { cbv zeta. destruct (send_again s (all_due (q_items s))) as [r|] eqn:E2; [|exact Hl].
    apply send_again_len in E2 as (H1 & n & b & H2). exists Again, n, b. rewrite H1, H2, all_due_zlen. split; [reflexivity|]. split; [lia|discriminate]. }
  destruct fin; [exact Ho|]. cbn [orb]. destruct (Z.eqb_spec (zlen (q_items s)) (ws p)) as [Ef|Ef]; [exact Ho|].
  destruct data as [b|].
  - exists New. eexists. eexists. split; [reflexivity|]. cbn [fst q_items]. rewrite zlen_snoc. split; [reflexivity|].
    intros _. repeat split; try congruence.
    unfold send_again in E1. destruct (first_due (q_items s)) as [i|] eqn:Ei; [|reflexivity].
    exfalso. clear -E1 Ei. revert E1. destruct (nth_error (q_items s) i) eqn:En; [discriminate|]. intros _.
    revert i Ei En. induction (q_items s) as [|x q IH]; intros i Ei En; [discriminate|]. cbn in Ei.
    destruct (i_due x); [injection Ei as <-; discriminate|]. destruct (first_due q) as [k|]; [|discriminate].
    injection Ei as <-. exact (IH k eq_refl En).
  - destruct pre; [exact Ho|exact Hl].
Qed.


Definition shape (e : tev B) (o : list (tout B)) : Prop :=
  match e with
  | Rts _ _ _ => exists k n b, o = [Sent k n b]
  | Ack false _ _ => exists m, o = [Moved m]
  | Ack true _ _ => exists m, o = [Moved m; Cleared]
  | Restart => o = []
  end.
Lemma step_shape p t e t' o : tstep p t e = Ok (t', o) -> shape e o.
Proof.
  destruct e as [fin data pre|final ssn bm|]; cbn [tstep shape].
  - destruct (take_next 2 p t fin data pre) as [[[t1 bsn] k]| |]; cbn [bind]; intros H; try discriminate. injection H as <- <-. eauto.
  - unfold handle_ack. destruct (move_window p _) as [[w2 n]| |]; cbn [bind]; try discriminate.
    destruct final; intros H; injection H as <- <-; eauto.
  - destruct (mark_for_resend p (t_w t)) as [r| |]; cbn [bind]; intros H; try discriminate. injection H as <- <-. reflexivity.
Qed.

Lemma step_count p t s e t' o : tstep p t e = Ok (t', o) -> same_out p o (snd (q_step p s e)) ->
  fold_left cnt o (zlen (q_items s)) = zlen (q_items (fst (q_step p s e))).
Proof.
  intros E%step_shape. destruct e as [fin data pre|final ssn bm|]; cbn [q_step shape] in *.
  - destruct (q_rts_len p s fin data pre) as (k & n & b & H1 & H2 & _). rewrite H1, H2.
    destruct E as (k' & n' & b' & ->). cbn [same_out]. intros (n1 & sb & H & _). injection H as <- <- <-. cbn. destruct k; lia.
  - unfold q_ack. set (q := apply_reports _ _). pose proof (retire_len q (q_base s)) as Hl.
    assert (Hz : zlen q = zlen (q_items s)) by apply apply_reports_zlen.
    destruct (retire (q_base s) q) as [q' so]. cbn [fst snd] in *.
    destruct final; destruct E as (m & ->); cbn [fst snd q_items same_out fold_left cnt]; [reflexivity|]. intros [_ ->]. lia.
  - subst o. cbn [fst snd q_items fold_left]. now rewrite all_due_zlen.
Qed.

Lemma run_count p es : valid_par p -> Forall wf_tev es -> forall t s t' o, inv p t s -> trun p t es = Ok (t', o) ->
  fold_left cnt o (zlen (q_items s)) = zlen (q_items (fst (q_run p s es))).
Proof.
  intros Hp. induction 1 as [|e es He Hes IH]; intros t s t' o Hi E; cbn [trun q_run] in *.
  - injection E as <- <-. reflexivity.
  - destruct (step_sim p t s e Hp Hi He) as (t1 & o1 & E1 & Ho & Hi1). rewrite E1 in E. cbn [bind] in E.
    destruct (trun p t1 es) as [[t2 o2]| |] eqn:E2; cbn [bind] in E; try discriminate. injection E as <- <-.
    rewrite fold_left_app, (step_count p t s e t1 o1 E1 Ho).
    rewrite (IH t1 _ t2 o2 Hi1 E2). destruct (q_step p s e) as [s1 so1]. cbn [fst]. now destruct (q_run p s1 es).
Qed.

Lemma c13 p es t o : valid_par p -> Forall wf_tev es -> trun p (tx_init (B := B)) es = Ok (t, o) ->
  let d := outstanding o in
  (v_s (t_w t) - v_a (t_w t)) mod sns p = d /\ 0 <= d <= ws p /\ (stalled p (t_w t) = true <-> d = ws p) /\
  forall fin data pre t' bsn b, tstep p t (Rts fin data pre) = Ok (t', [Sent New bsn b]) -> d < ws p.
Proof.
  intros Hp Hes E d. pose proof (run_inv p es t o Hp Hes E) as Hi.
  pose proof (run_count p es Hp Hes _ _ t o (inv_init p Hp) E) as Hc. change (fold_left cnt o (zlen (q_items q_init))) with d in Hc.
  set (s := fst (q_run p q_init es)) in *. pose proof Hi as (l & Hb & Hrel & Hst & Hh & Hs).
  assert (Hlen : zlen (q_items s) = zlen l) by (unfold zlen; now rewrite (states_len _ _ Hst)).
  pose proof (rel_len _ _ _ _ Hrel) as Hle. pose proof (zlen_nonneg l) as H0.
  assert (Hd : (v_s (t_w t) - v_a (t_w t)) mod sns p = d).
  { rewrite <- modsns_mod by exact Hp. change (distance p (t_w t) = d). rewrite (distance_spec p _ _ _ Hp Hrel). lia. }
  split; [exact Hd|]. split; [lia|]. split.
  - rewrite (stalled_spec p _ _ _ Hp Hrel). lia.
  - intros fin data pre t' bsn b E2. destruct (rts_sim p t s fin data pre Hp Hi) as (t2 & o2 & E3 & Ho & _).
    rewrite E2 in E3. injection E3 as <- <-. destruct (q_rts_len p s fin data pre) as (k & n & b2 & H1 & _ & H3).
    rewrite H1 in Ho. destruct Ho as (n1 & sb & Ho & _). injection Ho as -> _ _. destruct (H3 eq_refl) as (_ & H4 & _). lia.
Qed.

(** C14. *)
Lemma apply_reports_base f (q : list (item B)) : length (apply_reports f q) = length q.
Proof. revert f. induction q; intros f; cbn; auto. Qed.
Lemma lead_firstn q l : all_states (B := B) q l -> Forall (fun it => last_positive it = true) (firstn (lead l) q).
Proof.
  induction 1 as [|it b q l H _ IH]; cbn; [constructor|]. rewrite <- (state_pos _ _ H).
  destruct (last_positive it) eqn:E; cbn; constructor; auto.
Qed.
Lemma lead_skipn q l it r : all_states (B := B) q l -> skipn (lead l) q = it :: r -> last_positive it = false.
Proof.
  induction 1 as [|it' b q l H _ IH]; cbn; [discriminate|]. destruct (is_acked b) eqn:E; [exact IH|].
  cbn. intros E2. injection E2 as <- <-. now rewrite (state_pos _ _ H).
Qed.

Lemma c14 p es t o ssn bm : valid_par p -> Forall wf_tev es -> trun p (tx_init (B := B)) es = Ok (t, o) ->
  length bm = 8%nat -> bytes bm ->
  let s := fst (q_run p q_init es) in
  let q := apply_reports (spoken p (q_base s) false ssn bm) (q_items s) in
  exists t' m, tstep p t (Ack false ssn bm) = Ok (t', [Moved (Z.of_nat m)]) /\
    (m <= length q)%nat /\ v_a (t_w t') = (v_a (t_w t) + Z.of_nat m) mod sns p /\ v_s (t_w t') = v_s (t_w t) /\
    Forall (fun it => last_positive it = true) (firstn m q) /\
    (forall it r, skipn m q = it :: r -> last_positive it = false) /\
    forall i it, nth_error q i = Some it -> (m <= i)%nat ->
      t_store t' ((v_a (t_w t) + Z.of_nat i) mod sns p mod 1024) = Some (i_data it).
Proof.
  intros Hp Hes E Hl8 Hbm s q. pose proof (run_inv p es t o Hp Hes E) as Hi. fold s in Hi.
  pose proof Hi as (l & Hb & Hrel & Hst & Hh & Hs).
  cbn [tstep]. unfold handle_ack.
  set (bits := ack_bits p (t_w t) false ssn bm). set (w1 := w_update p (t_w t) (v_a (t_w t)) bits).
  assert (Hrel1 : rel p w1 (q_base s) (over bits l)) by (apply w_update_spec; assumption).
  assert (Hst1 : all_states q (over bits l)).
  { apply over_states; [exact Hst|]. intros i Hlt. rewrite (states_len _ _ Hst) in Hlt.
    exact (ack_bits_spec p t s l false ssn bm i Hp Hrel Hl8 Hbm Hlt). }
  destruct (move_window_spec p w1 _ _ Hp Hrel1) as (w2 & -> & Hrel2). cbn [bind].
  eexists. exists (lead (over bits l)). split; [reflexivity|].
  pose proof (lead_le (over bits l)) as Hle. rewrite <- (states_len _ _ Hst1) in Hle.
  split; [exact Hle|]. cbn [set_w t_w t_store].
  assert (Ha : (v_a (t_w t) + Z.of_nat (lead (over bits l))) mod sns p = (q_base s + Z.of_nat (lead (over bits l))) mod sns p).
  { rewrite (rel_a _ _ _ _ Hrel). rewrite <- modsns_mod by exact Hp. apply num_mod, Hp. }
  split; [rewrite Ha; exact (rel_a _ _ _ _ Hrel2)|].
  split.
  { rewrite (rel_s _ _ _ _ Hrel2), (rel_s _ _ _ _ Hrel). f_equal.
    assert (length (over bits l) = length l) by (rewrite <- (states_len _ _ Hst1), <- (states_len _ _ Hst); apply apply_reports_base).
    rewrite (states_len _ _ Hst1) in Hle. unfold zlen. rewrite skipn_length. lia. }
  split; [apply lead_firstn, Hst1|]. split; [intros it r; apply lead_skipn, Hst1|].
  intros i it Hn _. apply apply_reports_nth in Hn as (it' & Hn & ->). rewrite <- (proj1 Hs _ _ Hn). f_equal. unfold key. f_equal.
  rewrite (rel_a _ _ _ _ Hrel). rewrite <- modsns_mod by exact Hp. apply num_mod, Hp.
Qed.

(** C15. *)
Definition due_state (b : bst) : Prop := b = NACKED \/ b = RESEND.
Lemma is_due_state b : is_due b = true <-> due_state b.
Proof. unfold due_state. destruct b; cbn; split; intros; intuition discriminate. Qed.
Lemma find_due_least l j : find_due l = Some j -> forall i b, (i < j)%nat -> nth_error l i = Some b -> is_due b = false.
Proof.
  revert j. induction l as [|c l IH]; intros j H i b Hi Hn; [discriminate|]. cbn in H. destruct (is_due c) eqn:E.
  - injection H as <-. lia.
  - destruct (find_due l) as [k|] eqn:Ek; [|discriminate]. injection H as <-. destruct i as [|i]; cbn in Hn.
    + congruence.
    + exact (IH k eq_refl i b ltac:(lia) Hn).
Qed.
Lemma find_due_none l : find_due l = None -> forall i b, nth_error l i = Some b -> is_due b = false.
Proof.
  induction l as [|c l IH]; intros H i b Hn; [destruct i; discriminate|]. cbn in H. destruct (is_due c) eqn:E; [discriminate|].
  destruct (find_due l); [discriminate|]. destruct i as [|i]; cbn in Hn; [congruence|eauto].
Qed.
Lemma rel_at p (w : ulw) a l i b : valid_par p -> rel p w a l -> nth_error l i = Some b ->
  v_b w ((v_a w + Z.of_nat i) mod sns p mod 1024) = b.
Proof.
  intros Hp H Hn. rewrite <- (rel_b _ _ _ _ H i b Hn). unfold key. f_equal. f_equal. rewrite (rel_a _ _ _ _ H).
  rewrite <- modsns_mod by exact Hp. apply num_mod, Hp.
Qed.
Lemma nth_error_Z {A} (l : list A) i : 0 <= i < zlen l -> exists x, nth_error l (Z.to_nat i) = Some x.
Proof. intros H. destruct (nth_error l (Z.to_nat i)) eqn:E; [eauto|]. apply nth_error_None in E. unfold zlen in H. lia. Qed.

Lemma c15 p es t o fin data pre : valid_par p -> Forall wf_tev es -> trun p (tx_init (B := B)) es = Ok (t, o) ->
  let w := t_w t in
  let d := (v_s w - v_a w) mod sns p in
  let due i := due_state (v_b w ((v_a w + i) mod sns p mod 1024)) in
  let s := fst (q_run p q_init es) in
  exists t' k bsn b, tstep p t (Rts fin data pre) = Ok (t', [Sent k bsn b]) /\
    ((exists i, 0 <= i < d /\ due i) ->
       k = Again /\ exists i it, Z.of_nat i < d /\ due (Z.of_nat i) /\ (forall j, 0 <= j < Z.of_nat i -> ~ due j) /\
         bsn = (v_a w + Z.of_nat i) mod sns p /\ nth_error (q_items s) i = Some it /\ b = Some (i_data it)) /\
    ((forall i, 0 <= i < d -> ~ due i) ->
       (k = New /\ fin = false /\ d < ws p /\ data <> None /\ b = data /\ bsn = v_s w) \/
       (k = Again /\ (fin = true \/ d = ws p \/ (data = None /\ pre = true)) /\ bsn = v_a w /\
         exists it, nth_error (q_items s) 0 = Some it /\ b = Some (i_data it)) \/
       (k = Last /\ (d = 0 \/ (data = None /\ fin = false)))).
Proof.
  intros Hp Hes E w d due s. pose proof (run_inv p es t o Hp Hes E) as Hi. fold s in Hi.
  pose proof Hi as (l & Hb & Hrel & Hst & Hh & Hs). fold w in Hrel.
  assert (Hd : d = zlen l). { unfold d. rewrite <- modsns_mod by exact Hp. exact (distance_spec p _ _ _ Hp Hrel). }
  assert (Hlen : zlen (q_items s) = zlen l) by (unfold zlen; now rewrite (states_len _ _ Hst)).
  pose proof (rel_len _ _ _ _ Hrel) as Hle. pose proof (zlen_nonneg l) as H0.
  assert (Hbase : forall i, (q_base s + i) mod sns p = (v_a w + i) mod sns p).
  { intros i. rewrite (rel_a _ _ _ _ Hrel). symmetry. rewrite <- modsns_mod by exact Hp. apply num_mod, Hp. }
  destruct (rts_sim p t s fin data pre Hp Hi) as (t' & o' & E2 & Ho & _).
  pose proof (step_shape _ _ _ _ _ E2) as (k & bsn & b & ->). exists t', k, bsn, b. split; [exact E2|].
  destruct Ho as (n & sb & Ho & Hn & Hsb).
  split.
  - intros (i & Hir & Hdi). destruct (find_due l) as [j|] eqn:Ej.
    + destruct (find_due_nth l j Ej) as (c & Hc & Hcd). destruct (states_nth _ _ _ _ Hst Hc) as (it & Hit & Hsc).
      unfold q_rts, send_again in Ho. rewrite (first_due_spec _ _ Hst), Ej, Hit in Ho. cbn [snd] in Ho. injection Ho as <- <- <-.
      split; [reflexivity|]. exists j, it. pose proof (nth_error_zlen _ _ _ Hc).
      split; [lia|]. split. { unfold due. rewrite (rel_at p w _ l j c Hp Hrel Hc). now apply is_due_state. }
      split.
      { intros m Hm Hdue. destruct (nth_error_Z l m ltac:(lia)) as (c' & Hc').
        pose proof (find_due_least l j Ej (Z.to_nat m) c' ltac:(lia) Hc') as Hf. unfold due in Hdue.
        rewrite <- (Z2Nat.id m (proj1 Hm)) in Hdue. rewrite (rel_at p w _ l _ _ Hp Hrel Hc') in Hdue.
        apply is_due_state in Hdue. congruence. }
      split; [rewrite Hn; apply Hbase|]. split; [exact Hit|]. destruct Hsb as [Hsb|Hsb]; [discriminate|exact Hsb].
    + exfalso. destruct (nth_error_Z l i ltac:(lia)) as (c' & Hc'). pose proof (find_due_none l Ej _ _ Hc') as Hf. unfold due in Hdi.
      rewrite <- (Z2Nat.id i (proj1 Hir)) in Hdi. rewrite (rel_at p w _ l _ _ Hp Hrel Hc') in Hdi. apply is_due_state in Hdi. congruence.
  - intros Hnone. destruct (find_due l) as [j|] eqn:Ej.
    { exfalso. destruct (find_due_nth l j Ej) as (c & Hc & Hcd). pose proof (nth_error_zlen _ _ _ Hc).
      apply (Hnone (Z.of_nat j)); [lia|]. unfold due. rewrite (rel_at p w _ l j c Hp Hrel Hc). now apply is_due_state. }
    unfold q_rts in Ho. replace (send_again s (q_items s)) with (@None (queue B * list (sout B))) in Ho
      by (unfold send_again; now rewrite (first_due_spec _ _ Hst), Ej).
    assert (Hov : forall P : Prop, (P <-> (fin = true \/ d = ws p \/ (data = None /\ pre = true))) -> P ->
      snd (match send_again s (all_due (q_items s)) with Some r => r | None => (s, [SSent Last (q_base s + zlen (q_items s) - 1) (q_recent s)]) end) = [SSent k n sb] ->
       (k = Again /\ (fin = true \/ d = ws p \/ (data = None /\ pre = true)) /\ bsn = v_a w /\
         exists it, nth_error (q_items s) 0 = Some it /\ b = Some (i_data it)) \/
       (k = Last /\ (d = 0 \/ (data = None /\ fin = false)))).
    { intros P HP HPt Hx. destruct l as [|b0 l0] eqn:El.
      - right. inversion Hst as [Hq|]. rewrite <- Hq in Hx. cbn in Hx. injection Hx as <- _ _. split; [reflexivity|left]. rewrite Hd. reflexivity.
      - rewrite <- El in *. left. unfold send_again in Hx. rewrite (first_due_spec _ _ (all_due_states _ _ Hst)) in Hx.
        rewrite (find_mark1 l (q_items s) Hst Hh Ej) in Hx by (rewrite El; discriminate).
        destruct (nth_error (all_due (q_items s)) 0) as [it|] eqn:Eit.
        + cbn [snd] in Hx. injection Hx as <- <- <-. split; [reflexivity|]. split; [tauto|].
          split. { rewrite Hn. change (Z.of_nat 0) with 0. rewrite Hbase, Z.add_0_r, (rel_a _ _ _ _ Hrel). apply Zmod_mod. }
          apply all_due_nth in Eit as (it' & Hit' & Hdd). exists it'. split; [exact Hit'|]. rewrite <- Hdd. destruct Hsb as [Hsb|Hsb]; [discriminate|exact Hsb].
        + exfalso. apply nth_error_None in Eit. unfold all_due in Eit. rewrite map_length, (states_len _ _ Hst), El in Eit. cbn in Eit. lia. }
    destruct fin; [right; apply (Hov True); [tauto|exact I|exact Ho]|]. cbn [orb] in Ho.
    destruct (Z.eqb_spec (zlen (q_items s)) (ws p)) as [Ef|Ef].
    { right. apply (Hov True); [|exact I|exact Ho]. split; [intros _; right; left; lia|tauto]. }
    destruct data as [dat|].
    + left. cbn [snd] in Ho. injection Ho as <- <- <-. split; [reflexivity|]. split; [reflexivity|]. split; [lia|]. split; [discriminate|].
      split; [destruct Hsb as [Hsb|Hsb]; [discriminate|exact Hsb]|]. rewrite Hn, Hlen. symmetry. exact (rel_s _ _ _ _ Hrel).
    + right. destruct pre.
      * apply (Hov True); [tauto|exact I|exact Ho].
      * right. cbn [snd] in Ho. injection Ho as <- _ _. split; [reflexivity|]. right. auto.
Qed.

(** C16. *)
Lemma over_nth bits : forall l i b, nth_error l i = Some b ->
  nth_error (over bits l) i = Some (match nth_error bits i with Some true => ACKED | Some false => NACKED | None => b end).
Proof.
  induction bits as [|x bits IH]; intros l i b H.
  - cbn [over]. destruct l; destruct i; exact H.
  - destruct l as [|c l]; [destruct i; discriminate|]. destruct i as [|i]; cbn [over nth_error] in *.
    + destruct x; reflexivity.
    + apply IH, H.
Qed.
Definition outside p a d k := forall i, 0 <= i < d -> k <> key p a i.
Lemma update_frame p a d kk bits : valid_par p -> outside p a d kk -> forall w k j, k = a mod sns p + j -> 0 <= j -> j + zlen bits <= d ->
  v_b (update_loop p w k bits) kk = v_b w kk.
Proof.
  intros Hp Ho. induction bits as [|b bits IH]; intros w k j Hk Hj Hl; [reflexivity|]. cbn [update_loop].
  destruct (modsns p k =? _); [reflexivity|]. rewrite zlen_cons in Hl. pose proof (zlen_nonneg bits).
  rewrite (IH _ (k + 1) (j + 1)) by lia. cbn [mark_b v_b]. unfold fupd.
  destruct (Z.eqb_spec kk (slot (modsns p k))) as [->|]; [|reflexivity].
  exfalso. apply (Ho j); [lia|]. subst k. rewrite (num_mod p a j Hp), slot_mod. reflexivity.
Qed.
Lemma move_frame p a kk : valid_par p -> forall l2 l1 fuel n w w' m, rel p w a (l1 ++ l2) -> outside p a (zlen (l1 ++ l2)) kk ->
  move_loop p w fuel ((a + zlen l1) mod sns p) n = Ok (w', m) -> v_b w' kk = v_b w kk.
Proof.
  intros Hp. induction l2 as [|b l2 IH]; intros l1 fuel n w w' m H Ho E.
  - destruct fuel; cbn [move_loop] in E; rewrite (end_test p w a l1 [] Hp H) in E; now injection E as <- _.
  - destruct fuel as [|fuel]; cbn [move_loop] in E; rewrite (end_test p w a l1 (b :: l2) Hp H) in E; [discriminate|].
    rewrite (rel_get p w a l1 b l2 Hp H), num_next in E by exact Hp. destruct (is_acked b); [|now injection E as <- _].
    apply (rel_mark p w a l1 b l2 INVALID Hp) in H. rewrite app_snoc in H.
    replace (zlen l1 + 1) with (zlen (l1 ++ [INVALID])) in E by apply zlen_snoc.
    rewrite (IH _ _ _ _ _ _ H) with (2 := E).
    + cbn [mark_b v_b]. unfold fupd. destruct (Z.eqb_spec kk (slot ((a + zlen l1) mod sns p))) as [->|]; [|reflexivity].
      exfalso. apply (Ho (zlen l1)); [|now rewrite slot_mod]. rewrite zlen_app, zlen_cons. pose proof (zlen_nonneg l1). pose proof (zlen_nonneg l2). lia.
    + rewrite <- app_snoc. rewrite !zlen_app, !zlen_cons in *. exact Ho.
Qed.

Lemma c16 p es t o ssn bm : valid_par p -> Forall wf_tev es -> trun p (tx_init (B := B)) es = Ok (t, o) ->
  length bm = 8%nat -> bytes bm ->
  let w := t_w t in
  let d := (v_s w - v_a w) mod sns p in
  let reach := (ssn - v_a w) mod sns p in
  exists t' m, tstep p t (Ack false ssn bm) = Ok (t', [Moved m]) /\ 0 <= m <= d /\
    forall n, let i := (n - v_a w) mod sns p in
      let said := if (reach <=? 64) && (i <? reach)
                  then if Z.testbit (bitmap_value bm) ((ssn - 1 - n) mod sns p) then ACKED else NACKED
                  else v_b w (n mod sns p mod 1024) in
      (i < m -> said = ACKED) /\
      (m <= i < d -> v_b (t_w t') (n mod sns p mod 1024) = said) /\
      (i = m -> m < d -> said <> ACKED) /\
      ((forall i', 0 <= i' < d -> n mod sns p mod 1024 <> (v_a w + i') mod sns p mod 1024) ->
         v_b (t_w t') (n mod sns p mod 1024) = v_b w (n mod sns p mod 1024)).
Proof.
  intros Hp Hes E Hl8 Hbm w d reach. pose proof (run_inv p es t o Hp Hes E) as Hi.
  set (s := fst (q_run p q_init es)) in *. pose proof Hi as (l & Hb & Hrel & Hst & Hh & Hs). fold w in Hrel.
  assert (Hd : d = zlen l). { unfold d. rewrite <- modsns_mod by exact Hp. exact (distance_spec p _ _ _ Hp Hrel). }
  pose proof (zlen_nonneg l) as H0. pose proof (rel_len _ _ _ _ Hrel) as Hle. pose proof (sns_ws p Hp) as Hsns.
  cbn [tstep]. unfold handle_ack. fold w.
  set (bits := ack_bits p w false ssn bm). set (w1 := w_update p w (v_a w) bits).
  assert (Hrel1 : rel p w1 (q_base s) (over bits l)) by (apply w_update_spec; assumption).
  destruct (move_window_spec p w1 _ _ Hp Hrel1) as (w2 & Em & Hrel2). rewrite Em. cbn [bind].
  eexists. exists (Z.of_nat (lead (over bits l))). split; [reflexivity|].
  assert (Hreach : reach = (ssn - q_base s) mod sns p).
  { unfold reach. rewrite (rel_a _ _ _ _ Hrel). rewrite <- modsns_mod by exact Hp. apply num_mod_sub, Hp. }
  pose proof (lead_le (over bits l)) as Hll.
  assert (Hol : length (over bits l) = length l).
  { clear. revert l. induction bits; intros [|b l]; cbn; auto. }
  split; [unfold zlen in *; lia|]. intros n. cbn [set_w t_w].
  set (i := (n - v_a w) mod sns p). set (said := if (reach <=? 64) && (i <? reach) then _ else _).
  assert (Hir : 0 <= i < sns p) by apply num_range, Hp.
  assert (Hrr : 0 <= reach < sns p) by apply num_range, Hp.
  assert (Hkey : n mod sns p mod 1024 = key p (q_base s) i).
  { unfold key, i. rewrite (rel_a _ _ _ _ Hrel). f_equal. apply num_key, Hp. }
  assert (Hbit : i < reach -> (ssn - 1 - n) mod sns p = reach - 1 - i) by (apply num_bit, Hp).
  assert (Hsaid : i < d -> nth_error (over bits l) (Z.to_nat i) = Some said).
  { intros Hid. destruct (nth_error_Z l i) as (b & Hnb); [clear -Hid Hd Hir; clearbody d i; lia|].
    rewrite (over_nth bits l _ b Hnb). f_equal.
    pose proof (ack_bits_spec p t s l false ssn bm (Z.to_nat i) Hp Hrel Hl8 Hbm) as Hsp. fold w bits in Hsp.
    rewrite <- Hsp by (clear -Hid Hd Hir; clearbody d i; unfold zlen in *; lia).
    unfold spoken, said. rewrite <- Hreach. rewrite (Z2Nat.id i (proj1 Hir)).
    destruct ((reach <=? 64) && (i <? reach)) eqn:Ec.
    - rewrite Hbit by (clear -Ec; clearbody i reach; lia).
      destruct (Z.testbit (bitmap_value bm) (reach - 1 - i)); reflexivity.
    - rewrite Hkey. rewrite <- (rel_b _ _ _ _ Hrel _ _ Hnb). rewrite (Z2Nat.id i (proj1 Hir)). reflexivity. }
  clear Hbit. clearbody said.
  assert (Ho2 : (forall i', 0 <= i' < d -> n mod sns p mod 1024 <> (v_a w + i') mod sns p mod 1024) -> outside p (q_base s) d (n mod sns p mod 1024)).
  { intros Hout i' Hi' Hk. apply (Hout i' Hi'). rewrite Hk. unfold key. f_equal. rewrite (rel_a _ _ _ _ Hrel). symmetry.
    rewrite <- modsns_mod by exact Hp. apply num_mod, Hp. }
  clearbody d i reach. clear Hreach Hrr.
  split.
  { intros Him. assert (Hid : i < d) by (unfold zlen in Hd; lia). specialize (Hsaid Hid).
    clear -Hsaid Him Hir. assert (Hn : (Z.to_nat i < lead (over bits l))%nat) by lia. revert Hsaid Hn. generalize (Z.to_nat i) (over bits l).
    intros j l'. revert j. induction l' as [|c l' IH]; intros j; cbn [lead]; [lia|]. destruct (is_acked c) eqn:Ec; [|lia].
    destruct j as [|j]; cbn [nth_error]; [intros H _; injection H as <-; now destruct c|]. intros H Hj. apply (IH j H). lia. }
  split.
  { intros [Him Hid]. specialize (Hsaid Hid). rewrite Hkey. clear Hkey.
    replace (key p (q_base s) i) with (key p (q_base s + Z.of_nat (lead (over bits l))) (Z.of_nat (Z.to_nat i - lead (over bits l))))
      by (unfold key; f_equal; f_equal; clear -Him Hir; lia).
    apply (rel_b _ _ _ _ Hrel2). rewrite nth_error_skip.
    replace (lead (over bits l) + (Z.to_nat i - lead (over bits l)))%nat with (Z.to_nat i) by (clear -Him Hir; lia). exact Hsaid. }
  split.
  { intros Him Hmd. rewrite <- Him in Hmd. specialize (Hsaid Hmd). replace (Z.to_nat i) with (lead (over bits l)) in Hsaid by (clear -Him; lia).
    clear -Hsaid. revert Hsaid. generalize (over bits l). induction l0 as [|c l0 IH]; cbn [lead]; [discriminate|].
    destruct (is_acked c) eqn:Ec; cbn [nth_error]; [exact IH|]. intros H. injection H as <-. intros ->. discriminate. }
  intros Hout. specialize (Ho2 Hout). clear Hout Hkey. set (kk := n mod sns p mod 1024) in *. clearbody kk.
  change (v_b (w_raise p w2 (Z.of_nat (lead (over bits l)))) kk) with (v_b w2 kk).
  unfold move_window in Em. rewrite (rel_a _ _ _ _ Hrel1), <- (start p (q_base s)) in Em.
  assert (Hz : zlen (over bits l) = d) by (unfold zlen in *; lia).
  rewrite (move_frame p (q_base s) kk Hp (over bits l) [] _ _ _ _ _ Hrel1) with (2 := Em)
    by (cbn [app]; rewrite Hz; exact Ho2).
  unfold w1, w_update. rewrite (distance_spec p _ _ _ Hp Hrel). apply (update_frame p (q_base s) d _ _ Hp Ho2 w (v_a w) 0).
  - rewrite (rel_a _ _ _ _ Hrel). apply Zplus_0_r_reverse.
  - lia.
  - unfold zlen in *. rewrite firstn_length. lia.
Qed.
End Conseq.
