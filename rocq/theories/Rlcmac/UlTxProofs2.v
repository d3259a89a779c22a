(** The transmitter refines the queue of UlTxSpec. *)
From Verif.Lib Require Import Base Outcome.
From Verif.Rlcmac Require Import UlTxModel UlTxSpec UlTxProofs.

Section Refine.
Context {B : Type}.
Implicit Types (t : tx B) (s : queue B).

Lemma state_due (it : item B) b : state_of it b -> i_due it = is_due b.
Proof. destruct b; cbn; intuition. Qed.
Lemma state_pos (it : item B) b : state_of it b -> last_positive it = is_acked b.
Proof. destruct b; cbn; intuition. Qed.

Definition all_states (q : list (item B)) (l : list bst) := Forall2 state_of q l.

Lemma states_len q l : all_states q l -> length q = length l.
Proof. induction 1; cbn; congruence. Qed.
Lemma first_due_spec q l : all_states q l -> first_due q = find_due l.
Proof. induction 1 as [|it b q l H _ IH]; [reflexivity|]. cbn. rewrite (state_due _ _ H), IH. reflexivity. Qed.
Lemma find_due_nth l j : find_due l = Some j -> exists b, nth_error l j = Some b /\ is_due b = true.
Proof.
  revert j. induction l as [|b l IH]; intros j H; [discriminate|]. cbn in H. destruct (is_due b) eqn:E.
  - injection H as <-. exists b. auto.
  - destruct (find_due l) as [k|]; [|discriminate]. injection H as <-. cbn. auto.
Qed.
Lemma states_nth q l i b : all_states q l -> nth_error l i = Some b -> exists it, nth_error q i = Some it /\ state_of it b.
Proof. intros H. revert i. induction H as [|it c q l Hc _ IH]; intros [|i] Hi; try discriminate; cbn in *; [injection Hi as <-; eauto|auto]. Qed.
Lemma states_nth_q q l i it : all_states q l -> nth_error q i = Some it -> exists b, nth_error l i = Some b /\ state_of it b.
Proof. intros H. revert i. induction H as [|it' c q l Hc _ IH]; intros [|i] Hi; try discriminate; cbn in *; [injection Hi as <-; eauto|auto]. Qed.
Lemma states_set q l i f g : all_states q l -> (forall it b, nth_error q i = Some it -> nth_error l i = Some b -> state_of it b -> state_of (f it) (g b)) ->
  all_states (set_at q i f) (set_at l i g).
Proof.
  intros H. revert i. induction H as [|it b q l Hb Hr IH]; intros i Hf; [constructor|].
  destruct i as [|i]; cbn [set_at].
  - constructor; [apply Hf; auto|exact Hr].
  - constructor; [exact Hb|apply IH; intros; eapply Hf; eauto].
Qed.
Lemma set_at_app {A} (l1 : list A) x l2 f : set_at (l1 ++ x :: l2) (length l1) f = l1 ++ f x :: l2.
Proof. induction l1; cbn; [reflexivity|]. now rewrite IHl1. Qed.
Lemma rel_mark_nth p w a l j b x : valid_par p -> rel p w a l -> nth_error l j = Some b ->
  rel p (mark_b w ((a + Z.of_nat j) mod sns p) x) a (set_at l j (fun _ => x)).
Proof.
  intros Hp H Hj. apply nth_error_split in Hj as (l1 & l2 & -> & <-).
  rewrite set_at_app. exact (rel_mark p w a l1 b l2 x Hp H).
Qed.
Lemma set_at_zlen {A} (l : list A) i f : zlen (set_at l i f) = zlen l.
Proof. revert i; induction l; intros [|i]; cbn [set_at]; rewrite ?zlen_cons; try reflexivity. now rewrite IHl. Qed.
Lemma set_at_nth_data (q : list (item B)) i f j it : (forall x, i_data (f x) = i_data x) -> nth_error (set_at q i f) j = Some it ->
  exists it', nth_error q j = Some it' /\ i_data it = i_data it'.
Proof.
  intros Hf. revert i j. induction q as [|x q IH]; intros [|i] [|j] H; cbn in H; try discriminate.
  - injection H as <-. exists x. cbn. auto.
  - exists it. cbn. auto.
  - injection H as <-. exists x. cbn; auto.
  - cbn. eauto.
Qed.

Definition head_open (l : list bst) : Prop := match l with ACKED :: _ => False | _ => True end.

(** The invariant. *)
Definition stored p t s : Prop :=
  (forall i it, nth_error (q_items s) i = Some it -> t_store t (key p (q_base s) (Z.of_nat i)) = Some (i_data it)) /\
  (forall b, q_recent s = Some b -> t_store t (key p (q_base s) (zlen (q_items s) - 1)) = Some b).
Definition inv p t s : Prop := exists l,
  0 <= q_base s /\ rel p (t_w t) (q_base s) l /\ all_states (q_items s) l /\ head_open l /\ stored p t s.

Lemma inv_init p : valid_par p -> inv p (tx_init (B := B)) q_init.
Proof.
  intros Hp. exists []. split; [reflexivity|]. split.
  { pose proof (sns_ws p Hp). constructor; cbn [tx_init t_w ulw_reset v_a v_s q_init q_base].
    - change (zlen (@nil bst)) with 0. lia.
    - now rewrite Zmod_0_l.
    - change (0 + zlen (@nil bst)) with 0. now rewrite Zmod_0_l.
    - intros [|i] b Hn; discriminate. }
  split; [constructor|]. split; [exact I|]. split; [intros [|i] it H; discriminate|discriminate].
Qed.

Lemma store_data p t s w q : stored p t s -> (forall j it, nth_error q j = Some it -> exists it', nth_error (q_items s) j = Some it' /\ i_data it = i_data it') ->
  zlen q = zlen (q_items s) -> stored p (set_w t w) (mkq (q_base s) q (q_recent s)).
Proof.
  intros [H1 H2] Hq Hl. split; cbn [set_w t_store q_items q_base q_recent].
  - intros i it Hi. destruct (Hq i it Hi) as (it' & Hi' & ->). exact (H1 i it' Hi').
  - rewrite Hl. exact H2.
Qed.

(** Sending a due block again. *)
Lemma send_again_sim p t s q l : valid_par p -> 0 <= q_base s -> rel p (t_w t) (q_base s) l -> all_states q l -> head_open l ->
  (forall j it, nth_error q j = Some it -> exists it', nth_error (q_items s) j = Some it' /\ i_data it = i_data it') ->
  zlen q = zlen (q_items s) -> stored p t s ->
  match find_due l with
  | None => send_again s q = None
  | Some j => exists s' n b, send_again s q = Some (s', [SSent Again n (Some b)]) /\
      let bsn := (q_base s + Z.of_nat j) mod sns p in
      bsn = n mod sns p /\ t_store t (slot bsn) = Some b /\
      inv p (set_w t (mark_b (t_w t) bsn UNACKED)) s'
  end.
Proof.
  intros Hp Hb0 Hrel Hst Hh Hd Hl Hs. unfold send_again. rewrite (first_due_spec q l Hst).
  destruct (find_due l) as [j|] eqn:Ej; [|reflexivity].
  destruct (find_due_nth l j Ej) as (b & Hb & Hdue).
  destruct (states_nth q l j b Hst Hb) as (it & Hit & Hsb). rewrite Hit.
  eexists. eexists. eexists. split; [reflexivity|]. cbv zeta. split; [reflexivity|].
  split.
  { rewrite slot_mod. destruct (Hd j it Hit) as (it' & Hit' & ->). exact (proj1 Hs j it' Hit'). }
  exists (set_at l j (fun _ => UNACKED)). cbn [q_base q_items set_w t_w]. split; [exact Hb0|].
  split; [exact (rel_mark_nth p (t_w t) (q_base s) l j b UNACKED Hp Hrel Hb)|].
  split.
  { apply states_set; [exact Hst|]. intros it0 b0 H1 H2 H3. rewrite Hb in H2. injection H2 as <-. cbn.
    split; [reflexivity|]. unfold last_positive. cbn. fold (last_positive it0). rewrite (state_pos _ _ H3). destruct b; cbn in *; congruence. }
  split.
  { destruct l as [|c l]; [exact I|]. destruct j; cbn [set_at head_open]; [exact I|]. exact Hh. }
  apply store_data; [exact Hs| |].
  - intros k it0 Hk. apply set_at_nth_data in Hk as (it1 & Hk & ->); [|reflexivity].
    destruct (Hd k it1 Hk) as (it2 & H2 & ->). eauto.
  - rewrite set_at_zlen. exact Hl.
Qed.

Lemma all_due_states q l : all_states q l -> all_states (all_due q) (map mark1 l).
Proof.
  induction 1 as [|it b q l H _ IH]; [constructor|]. cbn. constructor; [|exact IH].
  destruct b; cbn in *; try contradiction; unfold last_positive in *; cbn; destruct H as [H1 H2]; rewrite ?H2; auto.
Qed.
Lemma all_due_nth (q : list (item B)) j it : nth_error (all_due q) j = Some it -> exists it', nth_error q j = Some it' /\ i_data it = i_data it'.
Proof.
  unfold all_due. rewrite nth_error_map. destruct (nth_error q j) as [x|]; [|discriminate]. cbn. intros H. injection H as <-.
  exists x. auto.
Qed.
Lemma all_due_zlen (q : list (item B)) : zlen (all_due q) = zlen q.
Proof. unfold all_due, zlen. now rewrite map_length. Qed.
Lemma head_mark1 l : head_open l -> head_open (map mark1 l).
Proof. destruct l as [|[] l]; cbn; auto. Qed.

(** Nothing due: a non-empty window always has its first block unacknowledged. *)
Lemma count_pos l q : all_states q l -> head_open l -> find_due l = None -> l <> [] -> count_unacked l =? 0 = false.
Proof.
  intros Hst Hh Hf Hne. destruct Hst as [|it b q l Hs _]; [congruence|].
  destruct b; cbn in Hf, Hh, Hs; try discriminate; try contradiction.
  change (count_unacked (UNACKED :: l)) with (zlen (UNACKED :: filter is_unacked l)).
  rewrite zlen_cons. pose proof (zlen_nonneg (filter is_unacked l)). lia.
Qed.
Lemma find_mark1 l q : all_states q l -> head_open l -> find_due l = None -> l <> [] -> find_due (map mark1 l) = Some 0%nat.
Proof.
  intros Hst Hh Hf Hne. destruct Hst as [|it b q l Hs _]; [congruence|]. cbn in Hf.
  destruct b; cbn in *; try discriminate; try contradiction. reflexivity.
Qed.

Lemma num_last p w a l : valid_par p -> rel p w a l -> modsns p (v_s w - 1) = (a + zlen l - 1) mod sns p.
Proof. intros Hp H. rewrite (rel_s _ _ _ _ H). exact (num_mod p (a + zlen l) (-1) Hp). Qed.

Lemma rts_sim p t s fin data pre : valid_par p -> inv p t s ->
  exists t' o, tstep p t (Rts fin data pre) = Ok (t', o) /\
    same_out p o (snd (q_rts p s fin data pre)) /\ inv p t' (fst (q_rts p s fin data pre)).
Proof.
  intros Hp Hi. pose proof Hi as (l & Hb & Hrel & Hst & Hh & Hs).
  assert (Hid : forall j it, nth_error (q_items s) j = Some it -> exists it', nth_error (q_items s) j = Some it' /\ i_data it = i_data it') by eauto.
  pose proof (send_again_sim p t s (q_items s) l Hp Hb Hrel Hst Hh Hid eq_refl Hs) as Hsend.
  assert (Hlen : zlen (q_items s) = zlen l) by (unfold zlen; now rewrite (states_len _ _ Hst)).
  cbn [tstep take_next]. rewrite (resend_needed_spec p _ _ _ Hp Hrel). unfold bind at 1 2.
  destruct (find_due l) as [j|] eqn:Ej.
  - destruct Hsend as (s' & n & b & E & Hn & Hst2 & Hinv).
    pose proof (num_range p (q_base s + Z.of_nat j) Hp) as Hr.
    replace (0 <=? (q_base s + Z.of_nat j) mod sns p) with true by lia. cbn [bind].
    eexists. eexists. split; [reflexivity|]. unfold q_rts. rewrite E. cbn [fst snd].
    split; [|exact Hinv]. cbn. exists n, (Some b). split; [reflexivity|]. split; [exact Hn|]. right. exact Hst2.
  - change (0 <=? -1) with false. cbv iota.
    set (last := Ok (t, modsns p (v_s (t_w t) - 1), Last)).
    set (again := do r <- restart p t; match r with Some t' => _ | None => last end).
    assert (Hlast : exists t' o, (do r <- last; let '(t', bsn, k) := r in Ok (t', [Sent k bsn (t_store t' (slot bsn))])) = Ok (t', o) /\
       same_out p o [SSent Last (q_base s + zlen (q_items s) - 1) (q_recent s)] /\ inv p t' s).
    { unfold last. cbn [bind]. eexists. eexists. split; [reflexivity|]. split; [|exact Hi]. cbn.
      eexists. eexists. split; [reflexivity|]. rewrite (num_last p _ _ _ Hp Hrel), Hlen. split; [reflexivity|].
      destruct (q_recent s) as [b|] eqn:Er; [right|left; reflexivity].
      rewrite slot_mod. pose proof (proj2 Hs b Er) as H2. unfold key in H2. rewrite Hlen in H2.
      replace (q_base s + zlen l - 1) with (q_base s + (zlen l - 1)) by lia. exact H2. }
    assert (Hagain : exists t' o, (do r <- again; let '(t', bsn, k) := r in Ok (t', [Sent k bsn (t_store t' (slot bsn))])) = Ok (t', o) /\
       let r := match send_again s (all_due (q_items s)) with Some r => r | None => (s, [SSent Last (q_base s + zlen (q_items s) - 1) (q_recent s)]) end in
       same_out p o (snd r) /\ inv p t' (fst r)).
    { unfold again, restart. rewrite (w_empty_spec p _ _ _ Hp Hrel).
      destruct (mark_for_resend_spec p (t_w t) (q_base s) l Hp Hrel) as (w' & Ew & Rw).
      destruct l as [|b0 l0] eqn:El.
      - cbn [bind]. inversion Hst as [Hq|]. cbn [all_due map send_again first_due]. rewrite <- Hq in Hlast. exact Hlast.
      - rewrite <- El in *. rewrite Ew. cbn [bind].
        rewrite (count_pos l (q_items s) Hst Hh Ej) by (rewrite El; discriminate).
        pose proof (send_again_sim p (set_w t w') s (all_due (q_items s)) (map mark1 l) Hp Hb Rw (all_due_states _ _ Hst) (head_mark1 l Hh)
           (all_due_nth _) (all_due_zlen _) Hs) as H2.
        rewrite (find_mark1 l (q_items s) Hst Hh Ej) in H2 by (rewrite El; discriminate).
        destruct H2 as (s' & n & b & E & Hn & Hst2 & Hinv).
        cbn [take_next]. change (t_w (set_w t w')) with w' in *. rewrite (resend_needed_spec p _ _ _ Hp Rw), (find_mark1 l (q_items s) Hst Hh Ej) by (rewrite El; discriminate).
        unfold bind at 2. pose proof (num_range p (q_base s + Z.of_nat 0) Hp) as Hr.
        replace (0 <=? (q_base s + Z.of_nat 0) mod sns p) with true by lia. cbn [bind].
        eexists. eexists. split; [reflexivity|]. rewrite E. cbn [fst snd].
        split; [|exact Hinv]. cbn. exists n, (Some b). split; [reflexivity|]. split; [exact Hn|]. right. exact Hst2. }
    unfold q_rts. rewrite Hsend. rewrite (stalled_spec p _ _ _ Hp Hrel), <- Hlen.
    destruct fin; [exact Hagain|]. cbn [orb].
    destruct (Z.eqb_spec (zlen (q_items s)) (ws p)) as [Ef|Ef]; [exact Hagain|].
    destruct data as [b|].
    + unfold create_new. cbn [bind]. eexists. eexists. split; [reflexivity|]. cbn [fst snd].
      pose proof (rel_len _ _ _ _ Hrel) as Hll.
      assert (Hk : slot (v_s (t_w t)) = key p (q_base s) (zlen (q_items s))).
      { rewrite slot_mod, (rel_s _ _ _ _ Hrel), Hlen. reflexivity. }
      split.
      * cbn. eexists. eexists. split; [reflexivity|]. split.
        { rewrite Hlen. exact (rel_s _ _ _ _ Hrel). }
        right. unfold fupd. now rewrite Z.eqb_refl.
      * exists (l ++ [UNACKED]). cbn [q_base q_items t_w]. split; [exact Hb|].
        split; [apply rel_create; [exact Hp|exact Hrel|lia]|].
        split. { apply Forall2_app; [exact Hst|]. constructor; [split; reflexivity|constructor]. }
        split. { destruct l as [|[] l]; cbn in *; auto. }
        split; cbn [t_store q_items q_recent q_base].
        { intros i it Hn. unfold fupd. rewrite Hk. pose proof (nth_error_zlen _ _ _ Hn) as Hi2. rewrite zlen_snoc in Hi2.
          pose proof (zlen_nonneg (q_items s)).
          destruct (Z.eqb_spec (key p (q_base s) (Z.of_nat i)) (key p (q_base s) (zlen (q_items s)))) as [E|E].
          - apply (key_inj p) in E; [|exact Hp|lia|lia]. replace i with (length (q_items s)) in Hn by (unfold zlen in E; lia).
            rewrite nth_error_app2, Nat.sub_diag in Hn by lia. cbn in Hn. injection Hn as <-. reflexivity.
          - apply (proj1 Hs). assert (i <> length (q_items s)) by (intros ->; apply E; reflexivity).
            rewrite nth_error_app1 in Hn by (unfold zlen in Hi2; lia). exact Hn. }
        { intros b' H'. injection H' as <-. unfold fupd. rewrite Hk, zlen_snoc.
          replace (zlen (q_items s) + 1 - 1) with (zlen (q_items s)) by lia. now rewrite Z.eqb_refl. }
    + rewrite (w_empty_spec p _ _ _ Hp Hrel). destruct pre; [|exact Hlast]. cbn [andb].
      destruct l as [|b0 l0] eqn:El; cbn [negb]; [|exact Hagain].
      inversion Hst as [Hq|]. cbn [all_due map send_again first_due]. rewrite <- Hq in Hlast. exact Hlast.
Qed.

(** Bits of the bitmap. *)
Lemma testbit_octet v b n : 0 <= b < 256 -> 0 <= n -> Z.testbit (v * 256 + b) n = if n <? 8 then Z.testbit b n else Z.testbit v (n - 8).
Proof.
  intros Hb Hn. destruct (n <? 8) eqn:E.
  - rewrite <- (Z.mod_pow2_bits_low (v * 256 + b) 8) by lia. f_equal. change (2 ^ 8) with 256. lia.
  - replace n with (n - 8 + 8) at 1 by lia. rewrite <- Z.div_pow2_bits by lia. f_equal. change (2 ^ 8) with 256. lia.
Qed.
Lemma bitmap_bit bm : bytes bm -> forall pos, 0 <= pos < 8 * zlen bm ->
  bit_at bm pos = Z.testbit (bitmap_value bm) (8 * zlen bm - 1 - pos).
Proof.
  induction bm as [|b bm IH] using rev_ind; intros Hb pos Hpos; [change (zlen (@nil Z)) with 0 in Hpos; lia|].
  apply Forall_app in Hb as [Hb1 Hb2]. inversion_clear Hb2 as [|? ? Hb0 _]. unfold byte in Hb0.
  unfold bitmap_value. rewrite fold_left_app. cbn [fold_left]. fold (bitmap_value bm).
  rewrite zlen_app, zlen_cons, zlen_nil in *. pose proof (zlen_nonneg bm).
  rewrite testbit_octet by lia. unfold bit_at.
  destruct (8 * (zlen bm + (0 + 1)) - 1 - pos <? 8) eqn:E.
  - rewrite app_nth2 by (unfold zlen in *; lia).
    replace (Z.to_nat (pos / 8) - length bm)%nat with 0%nat by (unfold zlen in *; lia). cbn [nth]. f_equal. lia.
  - rewrite app_nth1 by (unfold zlen in *; lia). fold (bit_at bm pos).
    rewrite IH by (try assumption; lia). f_equal. lia.
Qed.

Lemma nth_error_seq0 n i : nth_error (seq 0 n) i = if (i <? n)%nat then Some i else None.
Proof.
  destruct (Nat.ltb_spec i n) as [H|H].
  - rewrite nth_error_nth' with (d := 0%nat) by (rewrite seq_length; exact H). now rewrite seq_nth.
  - apply nth_error_None. rewrite seq_length. exact H.
Qed.
Lemma nth_error_repeat {A} (x : A) n i : nth_error (repeat x n) i = if (i <? n)%nat then Some x else None.
Proof. revert i. induction n; intros [|i]; cbn; try reflexivity. apply IHn. Qed.
Lemma nth_error_firstn {A} (l : list A) n i : nth_error (firstn n l) i = if (i <? n)%nat then nth_error l i else None.
Proof.
  revert l i. induction n as [|n IH]; intros [|x l] [|i]; cbn [firstn nth_error]; try reflexivity.
  - destruct (S i <? S n)%nat; reflexivity.
  - rewrite IH. reflexivity.
Qed.

Lemma over_states q : forall l bits f, all_states q l -> (forall i, (i < length q)%nat -> f i = nth_error bits i) ->
  all_states (apply_reports f q) (over bits l).
Proof.
  induction q as [|it q IH]; intros l bits f Hst Hf.
  - inversion Hst. subst l. destruct bits; constructor.
  - inversion Hst as [|? b ? l' Hb Hr]. subst. cbn [apply_reports]. pose proof (Hf 0%nat ltac:(cbn; lia)) as H0. rewrite H0.
    destruct bits as [|x bits].
    + cbn [over nth_error]. constructor; [exact Hb|].
      specialize (IH l' [] (fun i => f (S i)) Hr). destruct l'; apply IH; intros i Hi.
      all: rewrite Hf by (cbn; lia); destruct i; reflexivity.
    + cbn [over nth_error]. constructor.
      * destruct x; cbn; auto.
      * apply IH; [exact Hr|]. intros i Hi. rewrite Hf by (cbn; lia). reflexivity.
Qed.

Lemma apply_reports_nth f (q : list (item B)) j it : nth_error (apply_reports f q) j = Some it ->
  exists it', nth_error q j = Some it' /\ i_data it = i_data it'.
Proof.
  revert f j. induction q as [|x q IH]; intros f [|j] H; cbn in H; try discriminate.
  - injection H as <-. exists x. destruct (f 0%nat); auto.
  - cbn. eauto.
Qed.
Lemma apply_reports_zlen f (q : list (item B)) : zlen (apply_reports f q) = zlen q.
Proof. revert f. induction q; intros f; [reflexivity|]. cbn [apply_reports]. rewrite !zlen_cons. now rewrite IHq. Qed.

Lemma retire_spec q : forall l n, all_states q l ->
  fst (retire n q) = skipn (lead l) q /\
  snd (retire n q) = map (fun x => SRetired (fst x) (snd x)) (retired (snd (retire n q))) /\
  zlen (retired (snd (retire n q))) = Z.of_nat (lead l).
Proof.
  induction q as [|it q IH]; intros l n Hst; inversion Hst as [|? b ? l' Hb Hr]; subst; [auto|].
  cbn [retire lead]. rewrite (state_pos _ _ Hb). destruct (is_acked b); [|cbn; auto].
  destruct (IH l' (n + 1) Hr) as (H1 & H2 & H3). destruct (retire (n + 1) q) as [q' o]. cbn [fst snd] in *.
  split; [exact H1|]. change (retired (SRetired n it :: o)) with ((n, it) :: retired o). cbn [map fst snd].
  split; [congruence|]. rewrite zlen_cons, H3. lia.
Qed.
Lemma lead_le l : (lead l <= length l)%nat.
Proof. induction l as [|b l IH]; cbn; [lia|]. destruct (is_acked b); lia. Qed.
Lemma head_skip l : head_open (skipn (lead l) l).
Proof. induction l as [|b l IH]; cbn; [exact I|]. destruct b eqn:E; cbn; auto. Qed.
Lemma states_skip q l k : all_states q l -> all_states (skipn k q) (skipn k l).
Proof. intros H. revert k. induction H; intros [|k]; cbn; try constructor; auto. Qed.
Lemma nth_error_skip {A} (l : list A) k i : nth_error (skipn k l) i = nth_error l (k + i).
Proof. revert k; induction l; intros [|k]; cbn; auto. destruct i; reflexivity. Qed.

Lemma ack_bits_spec p t s l (final : bool) ssn bm i : valid_par p -> rel p (t_w t) (q_base s) l -> length bm = 8%nat -> bytes bm ->
  (i < length l)%nat ->
  spoken p (q_base s) final ssn bm i = nth_error (ack_bits p (t_w t) final ssn bm) i.
Proof.
  intros Hp Hrel Hl8 Hbm Hi. unfold ack_bits, spoken. change (modsns p (v_s (t_w t) - v_a (t_w t))) with (distance p (t_w t)).
  rewrite (distance_spec p _ _ _ Hp Hrel), (rel_a _ _ _ _ Hrel), (num_mod_sub p _ _ Hp).
  pose proof (num_range p (ssn - q_base s) Hp) as Hr. set (reach := (ssn - q_base s) mod sns p) in *. cbv zeta.
  destruct final.
  - rewrite nth_error_firstn, nth_error_repeat.
    destruct (Nat.ltb_spec i 64), (Nat.ltb_spec i (Z.to_nat (zlen l))), (Z.ltb_spec (Z.of_nat i) 64); try reflexivity; unfold zlen in *; lia.
  - replace (reach <? 0) with false by lia. cbn [orb].
    destruct (Z.ltb_spec 64 reach) as [H|H].
    + replace (reach <=? 64) with false by lia. cbn [andb]. destruct i; reflexivity.
    + replace (reach <=? 64) with true by lia. cbn [andb]. rewrite nth_error_map, nth_error_seq0.
      destruct (Z.ltb_spec (Z.of_nat i) reach), (Nat.ltb_spec i (Z.to_nat reach)); try lia; [|reflexivity].
      cbn [option_map]. f_equal. assert (Hz : zlen bm = 8) by (unfold zlen; lia).
      rewrite bitmap_bit by (try assumption; lia). f_equal. lia.
Qed.

Lemma ack_sim p t s final ssn bm : valid_par p -> inv p t s -> length bm = 8%nat -> bytes bm ->
  exists t' o, tstep p t (Ack final ssn bm) = Ok (t', o) /\
    same_out p o (snd (q_ack p s final ssn bm)) /\ inv p t' (fst (q_ack p s final ssn bm)).
Proof.
  intros Hp Hi Hl8 Hbm. pose proof Hi as (l & Hb & Hrel & Hst & Hh & Hs).
  cbn [tstep]. unfold handle_ack.
  set (bits := ack_bits p (t_w t) final ssn bm).
  set (w1 := w_update p (t_w t) (v_a (t_w t)) bits).
  assert (Hrel1 : rel p w1 (q_base s) (over bits l)) by (apply w_update_spec; assumption).
  unfold q_ack. cbv zeta.
  match goal with |- context [apply_reports ?f (q_items s)] => set (q := apply_reports f (q_items s));
    assert (Hst1 : all_states q (over bits l)) end.
  { apply over_states; [exact Hst|]. intros i Hlt. rewrite (states_len _ _ Hst) in Hlt.
    exact (ack_bits_spec p t s l final ssn bm i Hp Hrel Hl8 Hbm Hlt). }
  destruct (move_window_spec p w1 _ _ Hp Hrel1) as (w2 & -> & Hrel2). cbn [bind].
  destruct (retire_spec q (over bits l) (q_base s) Hst1) as (H1 & H2 & H3).
  destruct (retire (q_base s) q) as [q' o] eqn:Er. cbn [fst snd] in *. subst q'.
  assert (Hzq : zlen q = zlen (q_items s)) by apply apply_reports_zlen.
  pose proof (lead_le (over bits l)) as Hle. rewrite <- (states_len _ _ Hst1) in Hle.
  destruct final.
  - eexists. eexists. split; [reflexivity|]. cbn [fst snd]. split.
    + cbn. unfold retired in *. rewrite flat_map_app. cbn. rewrite app_nil_r. split; [congruence|symmetry; exact H3].
    + destruct (inv_init p Hp) as (l0 & A1 & A2 & A3 & A4 & A5). exists l0. cbn [set_w t_w q_base q_items].
      split; [reflexivity|]. split; [exact A2|]. split; [exact A3|]. split; [exact A4|]. 
      split; cbn [q_items q_recent]; [intros [|i] it Hn; discriminate|discriminate].
  - eexists. eexists. split; [reflexivity|]. cbn [fst snd]. split.
    + cbn. split; [exact H2|symmetry; exact H3].
    + assert (Hbase : q_base s + zlen q - zlen (skipn (lead (over bits l)) q) = q_base s + Z.of_nat (lead (over bits l))).
      { unfold zlen. rewrite skipn_length. lia. }
      rewrite Hbase. exists (skipn (lead (over bits l)) (over bits l)). cbn [set_w t_w q_base q_items].
      split; [lia|]. split; [exact Hrel2|]. split; [apply states_skip, Hst1|]. split; [apply head_skip|].
      split; cbn [t_store set_w q_items q_base q_recent].
      * intros i it Hn. rewrite nth_error_skip in Hn. apply apply_reports_nth in Hn as (it' & Hn & ->).
        pose proof (proj1 Hs _ _ Hn) as H4. rewrite <- H4. f_equal. unfold key. f_equal. f_equal. lia.
      * intros b Hr. rewrite <- (proj2 Hs b Hr). f_equal. unfold key. f_equal. f_equal.
        rewrite <- Hzq. unfold zlen. rewrite skipn_length. lia.
Qed.

Lemma restart_sim p t s : valid_par p -> inv p t s ->
  exists t' o, tstep p t Restart = Ok (t', o) /\ same_out p o (snd (q_step p s Restart)) /\ inv p t' (fst (q_step p s Restart)).
Proof.
  intros Hp (l & Hb & Hrel & Hst & Hh & Hs). cbn [tstep q_step fst snd].
  destruct (mark_for_resend_spec p (t_w t) (q_base s) l Hp Hrel) as (w' & -> & Rw). cbn [bind fst].
  eexists. eexists. split; [reflexivity|]. split; [reflexivity|].
  exists (map mark1 l). cbn [set_w t_w q_base q_items]. split; [exact Hb|]. split; [exact Rw|].
  split; [apply all_due_states, Hst|]. split; [apply head_mark1, Hh|].
  apply store_data; [exact Hs|apply all_due_nth|apply all_due_zlen].
Qed.

Lemma step_sim p t s e : valid_par p -> inv p t s -> wf_tev e ->
  exists t' o, tstep p t e = Ok (t', o) /\ same_out p o (snd (q_step p s e)) /\ inv p t' (fst (q_step p s e)).
Proof.
  intros Hp Hi Hw. destruct e as [fin data pre|final ssn bm|].
  - apply rts_sim; assumption.
  - destruct Hw. apply ack_sim; assumption.
  - apply restart_sim; assumption.
Qed.

Lemma run_sim p es : valid_par p -> Forall wf_tev es -> forall t s, inv p t s ->
  exists t' o, trun p t es = Ok (t', o) /\ inv p t' (fst (q_run p s es)).
Proof.
  intros Hp. induction 1 as [|e es He Hes IH]; intros t s Hi.
  - exists t, []. auto.
  - destruct (step_sim p t s e Hp Hi He) as (t1 & o1 & E1 & _ & Hi1).
    destruct (IH t1 _ Hi1) as (t2 & o2 & E2 & Hi2).
    cbn [trun q_run]. rewrite E1. cbn [bind]. rewrite E2. cbn [bind].
    eexists. eexists. split; [reflexivity|]. destruct (q_step p s e) as [s1 so1]. cbn [fst snd] in *.
    destruct (q_run p s1 es) as [s2 so2]. exact Hi2.
Qed.
End Refine.
