(** * Runs of the block scheduler: every event, whole executions, and reservations placed in time *)
From Coq Require Import Sorted Permutation.
From Verif.Lib Require Import Base Outcome.
From Verif.Rlcmac Require Import FnModel UlcModel UlcProperties UlTbfModel UlTbfSpec UlTbfProofs UlTbfProperties SchedModel SchedSpec.
From Verif.Rlcmac Require Import SchedProofs.

Section Events2.
  Variable rb : rb_ops.
  Hypothesis Hrb : tree_library rb.
  Variable bs cs0 : Z.
  Lemma owner_gre s g n : Inv s -> In g (gres s) -> n_reason n = 1 -> n_who n = g_id g -> owner s n.
  Proof.
    intros (I1 & I2 & _) Hg R W. right; right. split; [exact R|]. rewrite W. rewrite Forall_forall in I2. split.
    - apply I2, in_all_ids. exists g. split; [exact Hg|]. apply in_gre_ids. auto.
    - intros x Hx. exact (id_not_tbf _ _ _ I1 Hg Hx).
  Qed.
  Lemma dl_free_shr s g : shr s (fst (dl_free rb s g)).
  Proof. unfold dl_free. destruct (g_dl g) as [d|]; cbn [fst]; [|now apply shr_same]. eapply shr_trans; [apply (shr_release rb Hrb s (d_id d))|now apply shr_same]. Qed.
  Lemma dl_start_spec s g fn tfi st sl : Inv s -> In g (gres s) ->
    let x := dl_start rb s g fn tfi st sl in Inv (fst x) /\ blocks (snd x) = [] /\ shr s (fst x) /\ (exists g', In g' (gres (fst x)) /\ g_id g' = g_id g).
  Proof.
    intros I Hg x. destruct (gres_split s g I Hg) as (A & B & E & Es).
    assert (C : let y := dl_complete rb s g tfi sl in Inv (fst y) /\ blocks (snd y) = [] /\ shr s (fst y) /\ (exists g', In g' (gres (fst y)) /\ g_id g' = g_id g)).
    { destruct (dl_complete_spec rb Hrb s A g B tfi sl I E Es) as (I' & Bo & _ & G'). split; [exact I'|]. split; [exact Bo|]. split; [now apply dl_complete_shr|].
      eexists. split; [rewrite G'; apply in_app_iff; right; now left|reflexivity]. }
    unfold dl_start in x. destruct st as [f|]; [|exact C]. destruct (0 <? fncmp f fn); [|exact C]. subst x. cbn [fst snd].
    split; [apply (set_gre_inv 0 s g); auto|]. split; [reflexivity|]. split; [now apply shr_same|]. eexists. split; [rewrite (Es s (with_ass g (Some (mkWait f tfi sl))) eq_refl eq_refl); apply in_app_iff; right; now left|reflexivity].
  Qed.
  Lemma dl_pkt_ass_spec s g tn fn poll tfi st sl ack : Inv s -> In g (gres s) ->
    let x := dl_pkt_ass rb s g tn fn poll tfi st sl ack in
    Inv (fst x) /\ blocks (snd x) = [] /\ eff (match poll with Some pf => Some (tn, pf) | None => None end) s (fst x).
  Proof.
    intros I Hg. unfold dl_pkt_ass. destruct (dl_start_spec s g fn (match tfi with Some t => t | None => 0xff end) st sl I Hg) as (I1 & B1 & S1 & g1 & Hg1 & Hid1).
    destruct (dl_start rb s g fn _ st sl) as [s1 o1]. cbn [fst snd] in *. cbv zeta.
    set (s2 := match poll with Some pf => reserve_at rb s1 tn pf POLL_DL_ASS (g_id g) | None => s1 end).
    assert (I2 : Inv s2). { unfold s2. destruct poll as [pf|]; [|exact I1]. apply reserve_inv; [exact Hrb|exact I1|]. intros n R W. apply (owner_gre s1 g1 n I1 Hg1 R). congruence. }
    assert (E2 : eff (match poll with Some pf => Some (tn, pf) | None => None end) s s2).
    { unfold s2. destruct poll as [pf|]; [|now apply eff_shr]. eapply eff_trans; [apply eff_shr, S1|now apply eff_reserve]. }
    destruct (find_gre s2 (g_id g)) as [g2|] eqn:F; [|auto]. destruct (g_dl g2) as [d|] eqn:Ed; [|auto]. destruct (ack && d_3192 d); [|auto].
    apply find_gre_in in F as [Hg2 _]. destruct (gres_split s2 g2 I2 Hg2) as (A & B & E & Es). destruct (dl_free_spec rb Hrb s2 A g2 B I2 E Es) as (I3 & B3 & _).
    cbn [fst snd]. split; [exact I3|]. split; [now rewrite blocks_app, B1, B3|]. eapply eff_trans; [exact E2|]. apply eff_shr, dl_free_shr.
  Qed.
  Lemma dl_data_spec s tn tfi last poll : Inv s -> Inv (dl_data rb s tn tfi last poll) /\ eff (match poll with Some pf => Some (tn, pf) | None => None end) s (dl_data rb s tn tfi last poll).
  Proof.
    intros I. assert (R : forall p, Inv s /\ eff p s s) by (intros p; split; [exact I|now apply eff_shr, shr_same]). unfold dl_data.
    destruct (find _ (gres s)) as [g|] eqn:F; [|apply R]. apply find_some in F as [Hg _]. destruct (g_dl g) as [d|] eqn:Ed; [|apply R].
    set (g' := with_dl g (Some (mkDl (d_id d) (d_fin d || last) (d_tfi d) (d_slots d) true (d_3192 d)))).
    assert (I1 : Inv (set_gre s g')) by (apply (set_gre_inv 0 s g g' I Hg); try reflexivity; unfold dls; rewrite Ed; reflexivity).
    destruct poll as [pf|]; [|split; [exact I1|now apply eff_shr, shr_same]]. split.
    - apply reserve_inv; [exact Hrb|exact I1|]. intros n Rn Wn. right; left. split; [exact Rn|]. exists g'.
      destruct (gres_split s g I Hg) as (A & B & E & Es). rewrite (Es s g' eq_refl eq_refl), in_app_iff, Wn. split; [right; now left|now left].
    - eapply eff_trans; [apply eff_shr; apply (shr_same s (set_gre s g')); reflexivity|]. now apply eff_reserve.
  Qed.
  Lemma dl_timer_spec s i t : Inv s -> let x := dl_timer rb s i t in Inv (fst x) /\ blocks (snd x) = [] /\ shr s (fst x).
  Proof.
    intros I. assert (R : Inv s /\ blocks [] = [] /\ shr s s) by (split; [exact I|split; [reflexivity|now apply shr_same]]). unfold dl_timer.
    destruct (find_gre s i) as [g|] eqn:F; [|exact R]. destruct (g_dl g) as [d|] eqn:Ed; [|exact R]. destruct (if t =? 3190 then _ else _); [|exact R].
    apply find_gre_in in F as [Hg _]. destruct (gres_split s g I Hg) as (A & B & E & Es). destruct (dl_free_spec rb Hrb s A g B I E Es) as (I3 & B3 & _).
    cbn [fst snd blocks]. split; [exact I3|]. split; [exact B3|]. apply dl_free_shr.
  Qed.

  (** What a ready-to-send indication does. *)
  Definition rts_post (s : sys) (ts fn usf : Z) (enc : encoding -> bool) (data : option (bool * bool * bool)) (r : res (sys * list sout)) : Prop :=
    match r with
    | Ok (s', o) => Inv s' /\ exists s1 o1 s2 b, tick rb s (map g_id (gres s)) ts fn = Ok (s1, o1) /\ Inv s1 /\ shr s s1 /\ shr s1 s2 /\
        s' = set_tree s2 ts (expire_fn rb (tree_of s2 ts) fn) /\ length (ulc s2) = 8%nat /\
        blocks o = match b with Some x => [(ts, fn, x)] | None => [] end /\
        (forall x, b = Some x -> granted s1 ts fn usf x) /\
        (all_enc enc -> chosen s1 ts fn usf (get_node (tree_of s1 ts) fn) (some data) b)
    | Err _ => False
    | UB => event_cause rb bs s (Rts ts fn usf enc data)
    end.
  Lemma rcv_rts_spec s ts fn usf enc data : Inv s -> rts_post s ts fn usf enc data (rcv_rts rb bs cs0 enc s ts fn usf data).
  Proof.
    intros I. unfold rcv_rts. pose proof (tick_spec rb Hrb (map g_id (gres s)) ts fn s I) as P.
    destruct (tick rb s (map g_id (gres s)) ts fn) as [[s1 o1]|?|] eqn:Et; cbn [bind fst snd]; [|exact P|left; exact P]. destruct P as (I1 & B1 & _).
    pose proof (select_spec rb Hrb bs cs0 enc s1 ts fn usf data I1) as P. destruct (select rb bs cs0 enc s1 ts fn usf data) as [[[s2 o2] b]|?|]; cbn [bind]; [|exact P|right; exists s1, o1; auto].
    destruct P as (I2 & B2 & Sh & Gr & Ch). assert (L2 : length (ulc s2) = 8%nat) by apply I2.
    split.
    - apply (inv_ext s2 (set_tree s2 ts (expire_fn rb (tree_of s2 ts) fn)) I2 eq_refl eq_refl); [cbn [set_tree ulc]; rewrite upd_length; exact L2|]. intros t n H. apply tree_set in H as [H|[E H]]; [exact H|]. rewrite E. unfold expire_fn in H. exact (expire_loop_in rb Hrb _ _ _ _ H).
    - exists s1, o1, s2, b. split; [exact Et|]. split; [exact I1|]. split; [exact (tick_shr rb Hrb _ _ _ _ _ _ Et)|]. split; [exact Sh|]. split; [reflexivity|]. split; [exact L2|].
      split; [rewrite !blocks_app, B1, B2; destruct b; reflexivity|]. split; [exact Gr|exact Ch].
  Qed.

  Definition is_rts (e : sevent) : bool := match e with Rts _ _ _ _ _ => true | _ => false end.
  Lemma sstep_other s e : Inv s -> is_rts e = false -> ev_post s (poll_of e) (event_cause rb bs s e) (sstep rb bs cs0 s e).
  Proof.
    intros I Hn. assert (R : forall p c, ev_post s p c (Ok (s, []))) by (intros; split; [exact I|split; [reflexivity|now apply eff_shr, shr_same]]).
    assert (Fw : forall f g, ul_with f s = Some g -> In g (gres s)) by (intros f g H; now apply find_some in H).
    assert (Fg : forall i g, find_gre s i = Some g -> In g (gres s)) by (intros i g H; now apply find_gre_in in H).
    assert (W : forall og e' p (c : Prop), (forall g, og = Some g -> In g (gres s)) -> polled e' = p -> ((exists i b, hasU s i b /\ abort_cause bs b e') -> c) -> ev_post s p c (ul_event rb bs s og e')).
    { intros og e' p c H <- Hc. pose proof (ul_event_spec rb Hrb bs s og e' I H) as P. destruct (ul_event rb bs s og e') as [[s' o]|?|]; [exact P|exact P|exact (Hc P)]. }
    destruct e as [ |i|i rach|i|rach|tn fn ia|i tn fn poll m|tn tfi poll final est cc|tn fn|i rach|i|i|i tn fn tfi st|i tn fn poll tfi st sl ack|tn tfi last poll|i|i|ts fn usf enc data];
      cbn [sstep poll_of event_cause]; try discriminate Hn.
    - split; [now apply (new_gre_inv 0)|]. split; [reflexivity|]. now apply eff_shr, shr_same.
    - destruct (find_gre s i) as [g|] eqn:F; [|apply R]. destruct (del_gre_inv rb Hrb s g I (Fg _ _ F)) as [I' S']. split; [exact I'|]. split; [reflexivity|]. now apply eff_shr.
    - destruct (find_gre s i) as [g|] eqn:F; [|apply R]. cbv zeta. assert (Hg := Fg _ _ F). assert (I1 : Inv (set_gre s (with_q g true))) by (apply (set_gre_inv 0 s g); auto).
      destruct (gres_split s g I Hg) as (A & B & E & Es).
      pose proof (start_if_needed_spec rb Hrb cs0 (set_gre s (with_q g true)) (with_q g true) rach I1) as P. specialize (P ltac:(rewrite (Es s (with_q g true) eq_refl eq_refl); apply in_app_iff; right; now left)).
      destruct (start_if_needed _ _ _ _ _) as [[s' o]|?|]; exact P.
    - destruct (find_gre s i) as [g|] eqn:F; [|apply R]. split; [apply (set_gre_inv 0 s g); eauto|]. split; [reflexivity|]. now apply eff_shr, shr_same.
    - exact (start_all_spec rb Hrb cs0 rach (map g_id (gres s)) s I).
    - apply W; [apply Fw|reflexivity|intros (? & ? & _ & [])].
    - apply W; [apply Fg|destruct poll; reflexivity|intros (? & ? & _ & [])].
    - apply W; [apply Fw|destruct poll; reflexivity|auto].
    - apply W; [apply Fw|reflexivity|intros (? & ? & _ & [])].
    - apply W; [apply Fg|reflexivity|intros (? & ? & _ & [])].
    - apply W; [apply Fg|reflexivity|intros (? & ? & _ & [])].
    - apply W; [apply Fg|reflexivity|intros (? & ? & _ & [])].
    - destruct (find_gre s i) as [g|] eqn:F; [|apply R]. unfold dl_imm_ass. match goal with |- context [dl_start rb s g fn tfi st ?sl] => destruct (dl_start_spec s g fn tfi st sl I (Fg _ _ F)) as (I1 & B1 & S1 & _); destruct (dl_start rb s g fn tfi st sl) as [s1 o1] end.
      split; [exact I1|]. split; [exact B1|]. now apply eff_shr.
    - destruct (find_gre s i) as [g|] eqn:F; [|apply R]. pose proof (dl_pkt_ass_spec s g tn fn poll tfi st sl ack I (Fg _ _ F)) as P. destruct (dl_pkt_ass rb s g tn fn poll tfi st sl ack) as [s1 o1]. cbn [fst snd] in P.
      destruct poll; exact P.
    - destruct (dl_data_spec s tn tfi last poll I) as [I1 E1]. split; [exact I1|]. split; [reflexivity|]. destruct poll; exact E1.
    - destruct (dl_timer_spec s i 3190 I) as (I1 & B1 & S1). destruct (dl_timer rb s i 3190) as [s1 o1]. split; [exact I1|]. split; [exact B1|]. now apply eff_shr.
    - destruct (dl_timer_spec s i 3192 I) as (I1 & B1 & S1). destruct (dl_timer rb s i 3192) as [s1 o1]. split; [exact I1|]. split; [exact B1|]. now apply eff_shr.
  Qed.

  Lemma inv0 : Inv sys0.
  Proof.
    split; [constructor|]. split; [constructor|]. split; [constructor|]. split; [reflexivity|].
    intros ts n. unfold tree_of, sys0. cbn [ulc]. destruct (Z.to_nat ts) as [|[|[|[|[|[|[|[|k]]]]]]]]; try (intros []). cbn. destruct k; intros [].
  Qed.
  Lemma sstep_inv s e s' o : Inv s -> sstep rb bs cs0 s e = Ok (s', o) -> Inv s'.
  Proof.
    intros I E. destruct (is_rts e) eqn:Er; [destruct e; try discriminate; cbn [sstep] in E; pose proof (rcv_rts_spec s ts fn usf enc data I) as P; rewrite E in P; apply P|].
    pose proof (sstep_other s e I Er) as P. rewrite E in P. apply P.
  Qed.
  Lemma srun_app l1 : forall s l2, srun rb bs cs0 s (l1 ++ l2) = do x <- srun rb bs cs0 s l1; do y <- srun rb bs cs0 (fst x) l2; Ok (fst y, snd x ++ snd y).
  Proof.
    induction l1 as [|e l1 IH]; intros s l2; cbn [app srun bind fst snd].
    - destruct (srun rb bs cs0 s l2) as [[s' o]|?|]; reflexivity.
    - destruct (sstep rb bs cs0 s e) as [[s1 o1]|?|]; cbn [bind fst snd]; [|reflexivity..]. rewrite IH.
      destruct (srun rb bs cs0 s1 l1) as [[s2 o2]|?|]; cbn [bind fst snd]; [|reflexivity..]. destruct (srun rb bs cs0 s2 l2) as [[s3 o3]|?|]; cbn [bind fst snd]; [|reflexivity..]. now rewrite app_assoc.
  Qed.
  Lemma srun_inv l : forall s s' o, Inv s -> srun rb bs cs0 s l = Ok (s', o) -> Inv s'.
  Proof.
    induction l as [|e l IH]; intros s s' o I; cbn [srun]; [intros [= <- _]; exact I|].
    destruct (sstep rb bs cs0 s e) as [[s1 o1]|?|] eqn:E; cbn [bind fst snd]; [|discriminate..]. destruct (srun rb bs cs0 s1 l) as [[s2 o2]|?|] eqn:E2; cbn [bind fst snd]; [|discriminate..]. intros [= <- _].
    exact (IH s1 s2 o2 (sstep_inv s e s1 o1 I E) E2).
  Qed.
  Lemma srun_cause l : forall s, Inv s -> match srun rb bs cs0 s l with
    | Ok _ => True | Err _ => False
    | UB => exists l1 e l2 s1 o1, l = l1 ++ e :: l2 /\ srun rb bs cs0 s l1 = Ok (s1, o1) /\ event_cause rb bs s1 e end.
  Proof.
    induction l as [|e l IH]; intros s I; cbn [srun]; [exact Logic.I|].
    assert (P : match sstep rb bs cs0 s e with Ok (s1, _) => Inv s1 | Err _ => False | UB => event_cause rb bs s e end).
    { destruct (is_rts e) eqn:Er; [destruct e; try discriminate; cbn [sstep]; pose proof (rcv_rts_spec s ts fn usf enc data I) as P; destruct (rcv_rts _ _ _ _ _ _ _ _ _) as [[? ?]|?|]; [apply P|exact P..]|].
      pose proof (sstep_other s e I Er) as P. destruct (sstep rb bs cs0 s e) as [[? ?]|?|]; [apply P|exact P..]. }
    destruct (sstep rb bs cs0 s e) as [[s1 o1]|?|] eqn:E; cbn [bind fst snd]; [|exact P|exists [], e, l, s, []; auto].
    specialize (IH s1 P). destruct (srun rb bs cs0 s1 l) as [[s2 o2]|?|]; cbn [bind]; [exact Logic.I|exact IH|]. destruct IH as (l1 & e' & l2 & s3 & o3 & -> & R & C).
    exists (e :: l1), e', l2, s3, (o1 ++ o3). split; [reflexivity|]. split; [|exact C]. cbn [srun]. rewrite E. cbn [bind fst snd]. rewrite R. reflexivity.
  Qed.

  (** *** Time. *)
  Definition placed (last : Z -> Z) (now : Z) (s : sys) : Prop := forall ts, 0 <= ts < 8 -> last ts <= now /\ win (tree_of s ts) (last ts) (now + 1000).
  Lemma win_mono t lo hi lo' hi' : lo' <= lo -> hi <= hi' -> win t lo hi -> win t lo' hi'.
  Proof. intros H1 H2 (L & R & W). exists L. split; [exact R|]. unfold within in *. rewrite Forall_forall in *. intros x Hx. specialize (W x Hx). cbv beta in *. lia. Qed.
  Lemma placed_later last now n s : placed last now s -> now <= n -> placed last n s.
  Proof. intros P H ts Hts. destruct (P ts Hts) as [P1 P2]. split; [lia|]. eapply win_mono; [| |exact P2]; lia. Qed.
  Lemma placed_eff last now s s' e : placed last now s -> in_time last now e -> is_rts e = false -> eff (poll_of e) s s' -> placed last now s'.
  Proof.
    intros P T Hn E ts Hts. destruct (P ts Hts) as [P1 P2]. split; [exact P1|]. apply E; [exact P2|]. intros tn pf Hp Heq.
    assert (Hq : 0 <= tn < 8 /\ now - last tn <= 600000 /\ exists m, pf = m mod 2715648 /\ now < m <= now + 1000) by (destruct e; try discriminate; unfold in_time in T; rewrite Hp in T; exact T).
    destruct Hq as (Htn & Hl & m & -> & Hm). assert (ts = tn) as -> by lia. split; [lia|]. exists m. split; [reflexivity|]. lia.
  Qed.
  Lemma win_expire t n lo hi : win t lo hi -> hi - 1357824 < n < lo + 1357824 -> n <= hi -> win (expire_fn rb t (n mod 2715648)) n hi.
  Proof.
    intros (L & R & W) H Hh. eexists. split; [apply (expire_spec rb Hrb); [exact R|exact (in_window lo hi L n W H)|rewrite (proj1 R), map_length; lia]|].
    unfold within in *. rewrite Forall_forall in *. intros x Hx. apply filter_In in Hx as [Hx Hf]. specialize (W x Hx). cbv beta in *. lia.
  Qed.
  Lemma placed_step last now n s e s' o : Inv s -> placed last now s -> now <= n -> in_time last n e -> sstep rb bs cs0 s e = Ok (s', o) -> placed (ticked last n e) n s'.
  Proof.
    intros I P Hn T E. apply (placed_later last now n s) in P; [|exact Hn]. destruct (is_rts e) eqn:Er.
    2: { pose proof (sstep_other s e I Er) as Q. rewrite E in Q. destruct Q as (_ & _ & Q). replace (ticked last n e) with last by (destruct e; (discriminate || reflexivity)). eapply placed_eff; eassumption. }
    destruct e as [ | | | | | | | | | | | | | | | | |ts fn usf enc data]; try discriminate. cbn [sstep] in E. pose proof (rcv_rts_spec s ts fn usf enc data I) as Q. rewrite E in Q.
    destruct Q as (_ & s1 & o1 & s2 & b & _ & _ & S1 & S2 & -> & L2 & _). destruct T as (Hts & -> & Hl). intros t Ht. destruct (P t Ht) as [P1 P2]. cbn [ticked].
    assert (W2 : win (tree_of s2 t) (last t) (n + 1000)) by (apply S2, S1, P2).
    unfold tree_of, set_tree in *. cbn [ulc]. destruct (Z.eqb_spec t ts) as [->|Hne].
    - split; [lia|]. rewrite nth_upd_same by lia. apply (win_expire _ n (last ts)); [exact W2|lia|lia].
    - split; [lia|]. destruct (nth_upd (ulc s2) (Z.to_nat ts) (expire_fn rb (nth (Z.to_nat ts) (ulc s2) Leaf) (n mod 2715648)) (Z.to_nat t) Leaf) as [->|(Heq & _)]; [exact W2|lia].
  Qed.
  Fixpoint last_of (last : Z -> Z) (l : list (Z * sevent)) : Z -> Z := match l with [] => last | (n, e) :: r => last_of (ticked last n e) r end.
  Fixpoint now_of (now : Z) (l : list (Z * sevent)) : Z := match l with [] => now | (n, _) :: r => now_of n r end.
  Lemma on_time_app l1 : forall last now l2, on_time last now (l1 ++ l2) <-> on_time last now l1 /\ on_time (last_of last l1) (now_of now l1) l2.
  Proof.
    induction l1 as [|[n e] l1 IH]; intros last now l2; cbn [app on_time last_of now_of]; [tauto|]. rewrite IH. tauto.
  Qed.
  Lemma placed_run l : forall last now s s' o, Inv s -> placed last now s -> on_time last now l -> srun rb bs cs0 s (map snd l) = Ok (s', o) -> placed (last_of last l) (now_of now l) s'.
  Proof.
    induction l as [|[n e] l IH]; intros last now s s' o I P T; cbn [map srun last_of now_of snd]; [intros [= <- _]; exact P|]. destruct T as (T1 & T2 & T3).
    destruct (sstep rb bs cs0 s e) as [[s1 o1]|?|] eqn:E; cbn [bind fst snd]; [|discriminate..]. destruct (srun rb bs cs0 s1 (map snd l)) as [[s2 o2]|?|] eqn:E2; cbn [bind fst snd]; [|discriminate..]. intros [= <- _].
    exact (IH _ _ s1 s2 o2 (sstep_inv s e s1 o1 I E) (placed_step last now n s e s1 o1 I P T1 T2 E) T3 E2).
  Qed.
  Lemma placed0 now : placed (fun _ => now) now sys0.
  Proof.
    intros ts Hts. split; [lia|]. exists []. split; [|constructor]. split; [|split; [constructor|exists 0; constructor]].
    unfold tree_of, sys0. cbn [ulc]. destruct (Z.to_nat ts) as [|[|[|[|[|[|[|[|k]]]]]]]]; try reflexivity. cbn. destruct k; reflexivity.
  Qed.
End Events2.
