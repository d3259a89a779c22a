(** * Polls are made, kept until their frame, and answered (C46) *)
From Verif.Lib Require Import Base Outcome.
From Verif.Rlcmac Require Import FnModel UlcModel UlcProperties UlTbfModel UlTbfSpec UlTbfProofs UlTbfProperties SchedModel SchedSpec SchedProofs SchedRuns SchedProperties SchedDlSpec SchedDlProofs SchedDlProperties SchedPollSpec SchedPolls.

Lemma ack_asks bs b tn tfi pf final est cc x : ul_tfi (cur b) = tfi -> u b = FLOW \/ u b = FINISHED -> UlTbfModel.step bs b (UlAck tn tfi (Some pf) final est cc) = Ok x ->
  exists b', x = (Some b', [UlTbfModel.Reserve tn pf 2]).
Proof.
  intros Ht Hu. cbn [UlTbfModel.step]. unfold rx_ul_ack. rewrite Ht, Z.eqb_refl. cbn [negb]. destruct (fsm_ul_ack b tn (Some pf) final est) as [[b1 o1]|?|] eqn:E; cbn [bind fst snd]; try discriminate.
  assert (o1 = [UlTbfModel.Reserve tn pf 2]).
  { unfold fsm_ul_ack in E. cbv zeta in E. destruct Hu as [Hu|Hu]; rewrite Hu in E.
    - match type of E with bind ?x _ = _ => destruct x end; cbn [bind] in E; try discriminate. now injection E as _ <-.
    - match type of E with bind ?x _ = _ => destruct x end; cbn [bind] in E; try discriminate. now injection E as _ <-. }
  destruct (update_tx_cs b1 (cc + 1)) as [b2|?|]; cbn [bind]; try discriminate. intros [= <-]. subst. eauto.
Qed.
Lemma ass_asks bs b tn fn pf m x : a b = WAIT_PKT_UL_ASS \/ a b = STARTING_TIME2 -> UlTbfModel.step bs b (PktUlAss tn fn (Some pf) m) = Ok x ->
  exists b' o, x = (Some b', UlTbfModel.Reserve tn pf 0 :: o).
Proof.
  intros Ha. cbn [UlTbfModel.step]. unfold rx_pkt_ul_ass.
  set (k := match a b with WAIT_PKT_UL_ASS => _ | _ => _ end). match type of k with _ => idtac end.
  assert (E : k = let s := handle_pkt_ul_ass b m in
      let (s, o) := (if negb (start_ex s) || (fncmp (start_fn s) (fn_next_block (fn_next_block pf)) <? 0)
                         then set_ass s (two s) (from_dl s) (p1 s) (p2 s) true (fn_next_block (fn_next_block pf)) (sba s) else s,
                         [UlTbfModel.Reserve tn pf POLL_UL_ASS]) in
      if start_ex s && (0 <? fncmp (start_fn s) fn) then
        alive (a_chg s STARTING_TIME2) (o ++ [Configure (p2 s) (Some (start_fn s))])
      else complete s o) by (unfold k; destruct Ha as [-> | ->]; reflexivity).
  rewrite E. clear E k. cbv zeta. destruct (start_ex _ && _); [intros [= <-]; eexists _, _; reflexivity|].
  unfold complete. cbv zeta. destruct (u _); intros [= <-]; eexists _, _; reflexivity.
Qed.

Section Theorems.
  Variable rb : rb_ops.
  Hypothesis Hrb : tree_library rb.
  Variable bs cs0 : Z.

  (** In any history and for any event: a reservation stays, unless its frame is over, or its TBF ends with the event;
      the reservation of an answer to a Packet Downlink Assignment goes only with its frame. *)
  Theorem C46_kept l s o e s' o' ts n : srun rb bs cs0 sys0 l = Ok (s, o) -> sstep rb bs cs0 s e = Ok (s', o') -> 0 <= ts < 8 -> slot_ok e ->
    In n (inorder (tree_of s ts)) ->
    In n (inorder (tree_of s' ts)) \/ passed e ts n \/ (n_reason n <> 1 /\ tbf_there s (n_who n) /\ ~ tbf_there s' (n_who n)).
  Proof.
    intros R E Ht He Hn. pose proof (srun_inv rb Hrb bs cs0 l sys0 s o inv0 R) as I. destruct (step_kept rb Hrb bs cs0 s e s' o' I E) as (K & _ & _).
    destruct (K ts n Hn) as [H|[H|[H1 H2]]]; [now left| |].
    - right. left. destruct e; cbn [gone_by] in H; try destruct H as []. unfold here in *. cbn [slot_ok] in He. assert (ts0 = ts) by lia. subst. exists fn, usf, enc, data. auto.
    - right. right. rewrite <- !T_there. split; [|auto]. intros Hr. destruct I as (_ & _ & _ & _ & O). destruct (O ts n Hn) as [([?|?] & _)|[(? & _)|(_ & _ & H)]]; try lia.
      destruct H1 as (g & Hg & Hj). apply H in Hg. apply in_app_iff in Hj. tauto.
  Qed.
  Lemma srun_kept (X : Z -> node -> Prop) l2 : forall s s2 o2, Inv s -> srun rb bs cs0 s l2 = Ok (s2, o2) -> Forall (fun e => forall t m, gone_by e t m -> X t m) l2 -> kept X s s2.
  Proof.
    induction l2 as [|e l2 IH]; intros s s2 o2 I; cbn [srun]; [intros [= <- _] _; apply kept_refl|].
    destruct (sstep rb bs cs0 s e) as [[s1 o1]|?|] eqn:E1; cbn [bind fst snd]; try discriminate. destruct (srun rb bs cs0 s1 l2) as [[s3 o3]|?|] eqn:E2; cbn [bind fst snd]; try discriminate.
    intros [= <- _] H. apply Forall_cons_iff in H as [He H]. apply (kept_trans _ s s1); [now apply inv_small|exact (kept_weak _ X _ _ He (step_kept rb Hrb bs cs0 s e s1 o1 I E1))|].
    exact (IH s1 s3 o3 (sstep_inv rb Hrb bs cs0 s e s1 o1 I E1) E2 H).
  Qed.
  (** ... hence through any further history, as long as no indication for its frame or a later one comes, and its TBF
      is there at the end. *)
  Definition before (ts f : Z) (e : sevent) : Prop := match e with Rts t fn _ _ _ => 0 <= t < 8 /\ (t = ts -> 0 < fncmp f fn) | _ => True end.
  Lemma before_kept l2 s s2 o2 ts f : Inv s -> 0 <= ts < 8 -> srun rb bs cs0 s l2 = Ok (s2, o2) -> Forall (before ts f) l2 -> kept (fun t m => ~ (Z.to_nat t = Z.to_nat ts /\ n_fn m = f)) s s2.
  Proof.
    intros I Ht R H. apply (srun_kept _ l2 s s2 o2 I R). eapply Forall_impl; [|exact H]. intros e He t m G [E1 E2]. destruct e; cbn [gone_by before] in *; try destruct G as [].
    destruct He as [He1 He2]. assert (Hts : ts0 = ts) by lia. specialize (He2 Hts). rewrite E2 in H1. lia.
  Qed.
  Theorem C46_remembered l s o l2 s2 o2 ts n : srun rb bs cs0 sys0 l = Ok (s, o) -> srun rb bs cs0 s l2 = Ok (s2, o2) -> 0 <= ts < 8 ->
    In n (inorder (tree_of s ts)) -> Forall (before ts (n_fn n)) l2 -> n_reason n = 1 \/ tbf_there s2 (n_who n) ->
    In n (inorder (tree_of s2 ts)).
  Proof.
    intros R R2 Ht Hn H W. pose proof (srun_inv rb Hrb bs cs0 l sys0 s o inv0 R) as I. destruct (before_kept l2 s s2 o2 ts (n_fn n) I Ht R2 H) as (K & _ & _).
    destruct (K ts n Hn) as [K1|[K1|[K1 K2]]]; [exact K1|exfalso; apply K1; auto|]. exfalso. destruct W as [W|W]; [|apply K2, T_there, W].
    destruct I as (_ & _ & _ & _ & O). destruct (O ts n Hn) as [([?|?] & _)|[(? & _)|(_ & _ & G)]]; try lia. destruct K1 as (g & Hg & Hj). apply G in Hg. apply in_app_iff in Hj. tauto.
  Qed.

  (** In any history: a message that polls leaves the reservation, for the TBF or entity it is for, if the block was
      not reserved before. *)
  Theorem C46_made l s o e s' o' r w tn pf : srun rb bs cs0 sys0 l = Ok (s, o) -> sstep rb bs cs0 s e = Ok (s', o') ->
    asks s e r w -> poll_of e = Some (tn, pf) -> 0 <= tn < 8 -> (forall n, In n (inorder (tree_of s tn)) -> n_fn n <> pf) ->
    In (mkNode pf r w) (inorder (tree_of s' tn)).
  Proof.
    intros R E A P Ht Hf. pose proof (srun_inv rb Hrb bs cs0 l sys0 s o inv0 R) as I. pose proof I as (_ & _ & _ & L & _).
    assert (M : forall s1, length (ulc s1) = 8%nat -> (forall n, In n (inorder (tree_of s1 tn)) -> In n (inorder (tree_of s tn))) -> forall r w, In (mkNode pf r w) (inorder (tree_of (reserve_at rb s1 tn pf r w) tn))).
    { intros s1 L1 Sub r1 w1. destruct (reserve_at_made rb Hrb s1 tn pf r1 w1 L1 Ht) as (n & H1 & H2 & [H3| ->]); [|exact H1]. exfalso. exact (Hf n (Sub n H3) H2). }
    destruct A as [i j b tn' fn pf' m Hu Ha|i t w tn' fn pf' tfi st sl ack He|i j b tn' tfi pf' final est cc Hu Ht2 Hs Huq|i d w tn' tfi last pf' He Ht2 Huq]; cbn [poll_of] in P; injection P as -> ->; cbn [sstep] in E.
    - destruct Hu as (g & Hg & Hi & Eu). rewrite <- Hi, (find_gre_eq s g I Hg) in E. cbn [ul_event] in E. rewrite Eu in E.
      destruct (UlTbfModel.step bs b (PktUlAss tn fn (Some pf) m)) as [x|?|] eqn:Es; cbn [ul_result bind] in E; try discriminate. destruct (ass_asks _ _ _ _ _ _ _ Ha Es) as (b' & o1 & ->).
      cbn [fst snd reserve_outs] in E. injection E as <- _. apply (reserve_outs_more rb Hrb j o1 (reserve_at rb s tn pf 0 j) tn). apply M; auto.
    - destruct He as (g & Hg & Hi & _ & _). rewrite <- Hi, (find_gre_eq s g I Hg) in E. unfold dl_pkt_ass in E. cbv zeta in E. injection E as E.
      set (tf := match tfi with Some t => t | None => 255 end) in *.
      destruct (dl_start_spec rb Hrb s g fn tf st sl I Hg) as (I1 & _ & _ & g1 & Hg1 & Hid1).
      assert (Sub : forall n, In n (inorder (tree_of (fst (dl_start rb s g fn tf st sl)) tn)) -> In n (inorder (tree_of s tn))).
      { intros n. unfold dl_start. assert (C : In n (inorder (tree_of (fst (dl_complete rb s g tf sl)) tn)) -> In n (inorder (tree_of s tn))).
        { unfold dl_complete. cbv zeta. cbn [fst]. destruct (g_dl g) as [d|]; [|intros H; exact H]. intros H. now apply (tree_release rb Hrb (alloc_id s) (d_id d) tn n). }
        destruct st as [f|]; [|exact C]. destruct (0 <? fncmp f fn); [|exact C]. intros H; exact H. }
      destruct (dl_start rb s g fn tf st sl) as [s1 o1]. cbn [fst snd] in *. set (s2 := reserve_at rb s1 tn pf POLL_DL_ASS (g_id g)) in *.
      assert (H2 : In (mkNode pf 1 (g_id g)) (inorder (tree_of s2 tn))) by (apply M; [apply I1|exact Sub]). rewrite Hi in *.
      assert (G2 : In g1 (gres s2)) by exact Hg1.
      destruct (find_gre s2 i) as [g2|] eqn:F2; [|injection E as <- _; exact H2]. destruct (g_dl g2) as [d|] eqn:Ed; [|injection E as <- _; exact H2]. destruct (ack && d_3192 d); [|injection E as <- _; exact H2].
      apply find_gre_in in F2 as [Hg2 _]. unfold dl_free in E. rewrite Ed in E. cbn [fst snd] in E. injection E as <- _. apply (release_all_keep rb Hrb s2 (d_id d) tn _ H2). cbn [n_who].
      destruct (id_not_tbf (gres s1) g1 g2 (proj1 I1) Hg1 Hg2) as [_ Hd]. rewrite Hid1 in Hd. intros Hc. apply Hd. unfold dls. rewrite Ed. left. congruence.
    - destruct Hu as (g & Hg & Hi & Eu). unfold ul_event in E. destruct (ul_with (fun b => ul_tfi (cur b) =? tfi) s) as [g1|] eqn:F.
      2: { apply find_none with (x := g) in F; [|exact Hg]. rewrite Eu in F. lia. }
      apply find_some in F as [Hg1 F]. destruct (g_ul g1) as [[j1 b1]|] eqn:Eu1; [|discriminate]. assert (j1 = j) by (apply (Huq (g_id g1) j1 b1); [exists g1; auto|lia]). subst j1.
      assert (g1 = g) by (apply (in_ids_inj (gres s) g1 g j (proj1 I) Hg1 Hg); apply in_gre_ids; right; left; unfold uls; rewrite ?Eu, ?Eu1; now left). subst g1. rewrite Eu in Eu1. injection Eu1 as <-.
      destruct (UlTbfModel.step bs b _) as [x|?|] eqn:Es; cbn [ul_result bind] in E; try discriminate. destruct (ack_asks _ _ _ _ _ _ _ _ _ Ht2 Hs Es) as (b' & ->).
      cbn [fst snd reserve_outs] in E. injection E as <- _. apply (M s L); auto.
    - destruct He as (g & Hg & Hi & Ed & _). unfold dl_data in E. destruct (find _ (gres s)) as [g1|] eqn:F.
      2: { apply find_none with (x := g) in F; [|exact Hg]. rewrite Ed in F. lia. }
      apply find_some in F as [Hg1 F]. destruct (g_dl g1) as [d1|] eqn:Ed1; [|discriminate]. assert (Hd : d_id d1 = d_id d) by (apply (Huq (g_id g1) d1 (g_ass g1)); [exists g1; auto|lia]).
      cbv zeta in E. injection E as <- _. rewrite <- Hd. match goal with |- context [reserve_at rb ?x tn pf _ _] => apply (M x L) end. intros n H; exact H.
  Qed.

  (** A history in time that ends with an indication for frame [n]; in it, at [n0], a message polled for this frame, and
      no indication of the timeslot has come for the frame or a later one.  If the TBF is still there, the answer is
      sent (see [urgent] for when it can be given; no encoding fails). *)
  Theorem C46_answered t0 l1 n0 e l2 n ts usf enc data s0 o0 s s1 s' o' r w :
    at_rts rb bs cs0 t0 (l1 ++ (n0, e) :: l2) n ts usf enc data s s1 s' o' -> (forall x, enc x = true) ->
    srun rb bs cs0 sys0 (map snd l1) = Ok (s0, o0) -> asks s0 e r w -> poll_of e = Some (ts, n mod 2715648) -> n0 < n <= n0 + 1000 ->
    (forall x, In x (inorder (tree_of s0 ts)) -> n_fn x <> n mod 2715648) ->
    Forall (fun x => match snd x with Rts t _ _ _ _ => t = ts -> fst x < n | _ => True end) l2 ->
    r = 1 \/ tbf_there s1 w ->
    In (mkNode (n mod 2715648) r w) (inorder (tree_of s1 ts)) /\
    (urgent s1 (mkNode (n mod 2715648) r w) -> exists b, blocks o' = [(ts, n mod 2715648, b)] /\ answers s1 (mkNode (n mod 2715648) r w) b).
  Proof.
    intros A He R0 As P Hn Hf H2 W. set (f := n mod 2715648) in *. pose proof (at_rts_placed rb Hrb _ _ _ _ _ _ _ _ _ _ _ _ _ A) as (Hts & I & _).
    assert (Hin : In (mkNode f r w) (inorder (tree_of s1 ts))).
    { destruct A as (Tm & [o R] & [o1 Et] & _). rewrite map_app in R. cbn [map snd] in R. rewrite srun_app, R0 in R. cbn [bind fst snd srun] in R.
      destruct (sstep rb bs cs0 s0 e) as [[sa oa]|?|] eqn:Ea; cbn [bind fst snd] in R; try discriminate. destruct (srun rb bs cs0 sa (map snd l2)) as [[sb ob]|?|] eqn:Eb; cbn [bind fst snd] in R; try discriminate.
      injection R as -> _. pose proof (C46_made _ _ _ _ _ _ _ _ _ _ R0 Ea As P Hts Hf) as M. pose proof (srun_inv rb Hrb bs cs0 _ sys0 s0 o0 inv0 R0) as I0. pose proof (sstep_inv rb Hrb bs cs0 s0 e sa oa I0 Ea) as Ia.
      assert (B : Forall (before ts f) (map snd l2)).
      { rewrite <- app_assoc, on_time_app in Tm. destruct Tm as [_ Tm]. cbn [app on_time] in Tm. destruct Tm as (_ & _ & Tm). clear - Tm H2 Hn. revert Tm. generalize (ticked (last_of (fun _ => t0) l1) n0 e). assert (Hk : n0 <= n0) by lia. revert Hk. generalize n0 at 2 3.
        induction l2 as [|[k x] l IH]; intros k0 Hk last Tm; cbn [map snd]; [constructor|]. apply Forall_cons_iff in H2 as [Hx H2]. cbn [app on_time] in Tm. destruct Tm as (T1 & T2 & T3). constructor; [|apply (IH H2 k ltac:(lia) _ T3)].
        destruct x; try exact Logic.I. cbn [before in_time snd fst] in *. destruct T2 as (T2 & -> & _). split; [exact T2|]. intros ->. specialize (Hx eq_refl). unfold f. rewrite fncmp_spec by lia. destruct (Z.ltb_spec n k); [lia|]. destruct (Z.eqb_spec n k); lia. }
      pose proof (before_kept _ _ _ _ _ _ Ia Hts Eb B) as K1. pose proof (tick_kept rb Hrb (fun t m => ~ (Z.to_nat t = Z.to_nat ts /\ n_fn m = f)) _ _ _ _ _ _ I Et) as K2.
      destruct (kept_trans _ _ _ _ (inv_small _ Ia) K1 K2) as (K & _ & _). destruct (K ts _ M) as [K3|[K3|[K3 K4]]]; [exact K3|exfalso; apply K3; auto|]. exfalso. cbn [n_who] in *. destruct W as [W|W]; [|apply K4, T_there, W].
      destruct Ia as (_ & _ & _ & _ & O). destruct (O ts _ M) as [([?|?] & _)|[(? & _)|(_ & _ & G)]]; cbn [n_reason n_who] in *; try lia. destruct K3 as (g & Hg & Hj). apply G in Hg. apply in_app_iff in Hj. tauto. }
    split; [exact Hin|]. intros U. destruct (C28_precedence_partial rb Hrb bs cs0 _ _ _ _ _ _ _ _ _ _ _ A He) as (m & b & Hm & B & C & _).
    destruct (C _ (proj2 (Hm _) (conj Hin eq_refl)) U) as (x & -> & X). exists x. split; [exact B|exact X].
  Qed.
End Theorems.

(** ---------- the hypotheses can be met ---------- *)
(** A downlink transfer and an uplink transfer; both are polled, on one timeslot, for frames 317 and 321.  The TBFs are
    there, the answers go out in their frames. *)
Definition polled2 : list (Z * sevent) :=
  [(90, NewGre); (91, Enqueue 1 true); (100, UlImmAss 3 100 (IaDynamic 5 1 0 None)); (117, Rts 3 117 1 all_ok (Some (false, false, true)));
   (120, DlPktAss 1 3 120 None (Some 7) None (upd no_dl_slots 3 true) false);
   (300, DlData 3 7 true (Some 317)); (304, UlAckNack 3 5 (Some 321) false false 0); (308, Rts 3 308 7 all_ok None); (312, Rts 4 312 7 all_ok None)].
Example C46_nonvacuous :
  on_time (fun _ => 80) 80 (polled2 ++ [(317, Rts 3 317 1 all_ok None); (321, Rts 3 321 1 all_ok None)]) /\
  match go (timed polled2), go (timed (polled2 ++ [(317, Rts 3 317 1 all_ok None)])), go (timed (polled2 ++ [(317, Rts 3 317 1 all_ok None); (321, Rts 3 321 1 all_ok None)])) with
  | Ok (s, _), Ok (s2, _), Ok (s3, o) =>
      inorder (tree_of s 3) = [mkNode 317 3 3; mkNode 321 2 2] /\ inorder (tree_of s2 3) = [mkNode 321 2 2] /\ inorder (tree_of s3 3) = [] /\
      blocks o = [(3, 117, BData 2 false); (3, 317, BDlAck 3 true false); (3, 321, BCtrlAck 1)]
  | _, _, _ => False
  end.
Proof. split; [unfold polled2; in_order|vm_compute; repeat split]. Qed.
Example C46_nonvacuous_asks : exists s0 o0, go (timed (firstn 5 polled2)) = Ok (s0, o0) /\ asks s0 (DlData 3 7 true (Some 317)) 3 3 /\ asks s0 (UlAckNack 3 5 (Some 321) false false 0) 2 2 /\
  asks s0 (DlPktAss 1 3 301 (Some 317) None None [] false) 1 1.
Proof.
  destruct (go (timed (firstn 5 polled2))) as [[s0 o0]|?|] eqn:E; [|vm_compute in E; discriminate..]. exists s0, o0. split; [reflexivity|]. vm_compute in E. injection E as <- _.
  split; [|split].
  - eapply (asks_dl_ack _ 1 (mkDl 3 _ 7 _ _ _)); [eexists; split; [left; reflexivity|repeat split]|reflexivity|]. intros i' d' w' (g & [<-|[]] & _ & [= <-] & _) _. reflexivity.
  - eapply (asks_ul_ack _ 1 2); [eexists; split; [left; reflexivity|repeat split]|reflexivity|left; reflexivity|]. intros i' j' b' (g & [<-|[]] & _ & [= <- _]) _. reflexivity.
  - eapply asks_dl_ass. eexists. split; [left; reflexivity|repeat split].
Qed.
(** What the block is reserved for stays: a second poll for the same block, of another TBF, is not answered. *)
Definition twice : list sevent := timed (firstn 6 polled2) ++ [UlAckNack 3 5 (Some 317) false false 0; Rts 3 317 1 all_ok None].
Theorem C46_taken : exists s0 o0 s o, go (firstn 6 twice) = Ok (s0, o0) /\ asks s0 (UlAckNack 3 5 (Some 317) false false 0) 2 2 /\
  go twice = Ok (s, o) /\ tbf_there s 2 /\ blocks o = [(3, 117, BData 2 false); (3, 317, BDlAck 3 true false)] /\ forall ts, tree_of s ts = Leaf.
Proof.
  destruct (go (firstn 6 twice)) as [[s0 o0]|?|] eqn:E; [|vm_compute in E; discriminate..]. destruct (go twice) as [[s o]|?|] eqn:E2; [|vm_compute in E2; discriminate..].
  exists s0, o0, s, o. split; [reflexivity|]. vm_compute in E. injection E as <- _. vm_compute in E2. injection E2 as <- <-. split; [|split; [reflexivity|]].
  - eapply (asks_ul_ack _ 1 2); [eexists; split; [left; reflexivity|repeat split]|reflexivity|left; reflexivity|]. intros i' j' b' (g & [<-|[]] & _ & [= <- _]) _. reflexivity.
  - split; [left; eexists; eexists; split; [left; reflexivity|reflexivity]|]. split; [reflexivity|]. intros ts. unfold tree_of. cbn [ulc]. destruct (Z.to_nat ts) as [|[|[|[|[|[|[|[|k]]]]]]]]; try reflexivity. cbn. destruct k; reflexivity.
Qed.

Print Assumptions C46_kept.
Print Assumptions C46_remembered.
Print Assumptions C46_made.
Print Assumptions C46_answered.
Print Assumptions C46_taken.
