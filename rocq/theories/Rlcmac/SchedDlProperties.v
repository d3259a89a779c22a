(** * Downlink TBFs: how they begin, are supervised and end (C42); which uplink TBF a message reaches (C45) *)
From Verif.Lib Require Import Base Outcome.
From Verif.Rlcmac Require Import FnModel UlcModel UlcProperties UlTbfModel UlTbfSpec UlTbfProperties SchedModel SchedSpec SchedProofs SchedRuns SchedDlSpec SchedDlProofs.
From Verif.Rlcmac Require Import SchedProperties.

Lemma view_entity s i t w : Inv s -> entity s i t w <-> view s i = Some (t, w).
Proof.
  intros I. unfold view. split.
  - intros (g & Hg & <- & <- & <-). rewrite (uid_find s g (inv_uid s I) Hg). reflexivity.
  - destruct (find_gre s i) as [g|] eqn:F; [|discriminate]. intros [= <- <-]. apply find_gre_in in F as [Hg Hi]. exists g. auto.
Qed.
Lemma with_slot_upd l n : with_slot l n = upd l (Z.to_nat n) true.
Proof.
  unfold with_slot. generalize (Z.to_nat n). induction l as [|x l IH]; intros [|k]; cbn [firstn skipn app upd]; try reflexivity. f_equal. apply IH.
Qed.
Lemma view_none s i : view s i = None <-> ~ In i (ids s).
Proof.
  unfold view, find_gre, ids. split.
  - destruct (find _ _) eqn:F; [discriminate|]. intros _ H. apply in_map_iff in H as (g & <- & Hg). apply (find_none _ _ F) in Hg. cbv beta in Hg. lia.
  - destruct (find _ _) as [g|] eqn:F; [|reflexivity]. apply find_some in F as [H1 H2]. intros H. exfalso. apply H. apply in_map_iff. exists g. split; [lia|exact H1].
Qed.

Lemma find_app_some {A} (f : A -> bool) l1 l2 x : find f l1 = Some x -> find f (l1 ++ l2) = Some x.
Proof. induction l1 as [|y l1 IH]; cbn [find app]; [discriminate|]. destruct (f y); auto. Qed.

Section Life.
  Variable rb : rb_ops.
  Hypothesis Hrb : tree_library rb.
  Variable bs cs0 : Z.

  Lemma dl_start_view s g fn tfi st sl s' o : find_gre s (g_id g) = Some g -> dl_start rb s g fn tfi st sl = (s', o) ->
    ids s' = ids s /\ next s <= next s' /\ (forall k, k <> g_id g -> view s' k = view s k) /\
    ((~ ahead st fn /\ exists j, next s <= j /\ In (DlConfigure j tfi sl) o /\ view s' (g_id g) = Some (Some (mkDl j false tfi sl true false), None)) \/
     (ahead st fn /\ exists f, st = Some f /\ view s' (g_id g) = Some (g_dl g, Some (mkWait f tfi sl)))).
  Proof.
    intros H. unfold dl_start.
    assert (C : ~ ahead st fn -> dl_complete rb s g tfi sl = (s', o) ->
      ids s' = ids s /\ next s <= next s' /\ (forall k, k <> g_id g -> view s' k = view s k) /\
      ((~ ahead st fn /\ exists j, next s <= j /\ In (DlConfigure j tfi sl) o /\ view s' (g_id g) = Some (Some (mkDl j false tfi sl true false), None)) \/
       (ahead st fn /\ exists f, st = Some f /\ view s' (g_id g) = Some (g_dl g, Some (mkWait f tfi sl))))).
    { intros A E. destruct (dl_complete_view rb s g tfi sl s' o H E) as (I1 & N1 & O1 & V1). split; [exact I1|]. split; [lia|]. split.
      - intros k Hk. rewrite V1. destruct (Z.eqb_spec k (g_id g)); [contradiction|reflexivity].
      - left. split; [exact A|]. exists (next s). split; [lia|]. split; [rewrite O1; now left|]. rewrite V1, Z.eqb_refl. reflexivity. }
    destruct st as [f|]; [|apply C; intros (? & ? & _); discriminate].
    destruct (Z.ltb_spec 0 (fncmp f fn)) as [L|L]; [|apply C; intros (? & [= <-] & ?); lia].
    intros [= <- <-]. split; [apply ids_set|]. split; [cbn; lia|]. split.
    - intros k Hk. rewrite (view_set s _ g) by exact H. cbn [g_id with_ass]. destruct (Z.eqb_spec k (g_id g)); [contradiction|reflexivity].
    - right. split; [exists f; auto|]. exists f. split; [reflexivity|]. rewrite (view_set s _ g) by exact H. cbn [g_id with_ass]. rewrite Z.eqb_refl. reflexivity.
  Qed.

  Lemma start_if_needed_still s g rach s' o : find_gre s (g_id g) = Some g -> start_if_needed rb cs0 s g rach = Ok (s', o) -> still s s'.
  Proof.
    intros H. unfold start_if_needed. assert (R : Ok (s, []) = Ok (s', o) -> still s s') by (intros [= <- _]; apply still_refl; [reflexivity|lia]).
    destruct (g_ul g); [exact R|]. destruct (g_dl g); [exact R|]. destruct (g_q g); [|exact R]. intros E.
    refine (proj1 (ul_result_still rb s (alloc_id s) g _ _ s' o eq_refl _ H E)). cbn. lia.
  Qed.
  Lemma start_all_still rach l : forall s s' o, start_all rb cs0 s l rach = Ok (s', o) -> still s s'.
  Proof.
    induction l as [|i l IH]; intros s s' o; cbn [start_all]; [intros [= <- _]; apply still_refl; [reflexivity|lia]|].
    destruct (find_gre s i) as [g|] eqn:F; [|apply IH]. destruct (start_if_needed rb cs0 s g rach) as [[s1 o1]|?|] eqn:E1; cbn [bind fst snd]; try discriminate.
    destruct (start_all rb cs0 s1 l rach) as [[s2 o2]|?|] eqn:E2; cbn [bind fst snd]; try discriminate. intros [= <- _].
    rewrite <- (find_gre_id _ _ _ F) in F. eapply still_trans; [exact (start_if_needed_still _ _ _ _ _ F E1)|exact (IH _ _ _ E2)].
  Qed.
  Lemma ul_event_still s og e s' o : NoDup (ids s) -> (forall g, og = Some g -> In g (gres s)) -> ul_event rb bs s og e = Ok (s', o) -> still s s'.
  Proof.
    intros N H. assert (R : Ok (s, []) = Ok (s', o) -> still s s') by (intros [= <- _]; apply still_refl; [reflexivity|lia]). unfold ul_event.
    destruct og as [g|]; [|exact R]. destruct (g_ul g) as [[i b]|]; [|exact R]. intros E. refine (proj1 (ul_result_still rb s s g _ _ s' o eq_refl _ _ E)); [lia|]. apply uid_find; auto.
  Qed.

  (** One event. *)
  Lemma step_life s e s' o i t w : Inv s -> Inv s' -> sstep rb bs cs0 s e = Ok (s', o) -> view s i = Some (t, w) -> e <> DelGre i ->
    exists t' w', view s' i = Some (t', w') /\ life s e o i t w t' w'.
  Proof.
    intros I I' E V ND. pose proof (inv_uid s I) as N.
    assert (Q : still s s' -> quiet s e o i t w -> exists t' w', view s' i = Some (t', w') /\ life s e o i t w t' w').
    { intros (_ & _ & S) Hq. exists t, w. split; [rewrite S; exact V|]. now constructor. }
    assert (Q' : s' = s -> quiet s e o i t w -> exists t' w', view s' i = Some (t', w') /\ life s e o i t w t' w').
    { intros -> . apply Q. apply still_refl; [reflexivity|lia]. }
    assert (Fw : forall f g, ul_with f s = Some g -> In g (gres s)) by (intros f g H; now apply find_some in H).
    assert (Fg : forall i g, find_gre s i = Some g -> In g (gres s)) by (intros k g H; now apply find_gre_in in H).
    destruct e as [ |k|k rach|k|rach|tn fn ia|k tn fn poll m|tn tfi poll final est cc|tn fn|k rach|k|k|k tn fn tfi st|k tn fn poll tfi st sl ack|tn tfi last poll|k|k|ts fn usf enc data]; cbn [sstep] in E.
    - injection E as <- <-. exists t, w. split; [|now constructor]. unfold view, find_gre, new_gre in *. cbn [gres]. destruct (find _ (gres s)) as [g|] eqn:F; [|discriminate].
      rewrite (find_app_some _ _ _ _ F). exact V.
    - destruct (find_gre s k) as [g|] eqn:F; [|injection E as <- <-; apply Q'; [reflexivity|exact Logic.I]]. injection E as <- <-. exists t, w. split; [|now constructor].
      apply find_gre_in in F as [Hg Hk]. assert (Hn : i <> k) by congruence. rewrite <- V. unfold view. f_equal. unfold find_gre, del_gre.
      set (s1 := match g_ul g with Some (j, _) => _ | None => _ end). assert (E1 : gres s1 = gres s) by (unfold s1; destruct (g_ul g) as [[? ?]|], (g_dl g); reflexivity). cbn [gres]. rewrite E1.
      clear -Hn Hk. induction (gres s) as [|x l IH]; [reflexivity|]. cbn [filter find]. destruct (Z.eqb_spec (g_id x) (g_id g)); cbn [negb find]; rewrite IH; [|reflexivity].
      destruct (Z.eqb_spec (g_id x) i); [congruence|reflexivity].
    - apply Q; [|exact Logic.I]. destruct (find_gre s k) as [g|] eqn:F; [|injection E as <- _; apply still_refl; [reflexivity|lia]]. cbv zeta in E. rewrite <- (find_gre_id _ _ _ F) in F.
      eapply still_trans; [apply still_set with (g := with_q g true) (g0 := g); [exact F|reflexivity]|]. apply (start_if_needed_still _ (with_q g true) rach s' o); [|exact E].
      rewrite (find_set_is s (with_q g true) g) by exact F. now rewrite Z.eqb_refl.
    - apply Q; [|exact Logic.I]. destruct (find_gre s k) as [g|] eqn:F; injection E as <- _; [|apply still_refl; [reflexivity|lia]]. rewrite <- (find_gre_id _ _ _ F) in F. apply still_set with (g0 := g); [exact F|reflexivity].
    - apply Q; [|exact Logic.I]. exact (start_all_still _ _ _ _ _ E).
    - apply Q; [|exact Logic.I]. apply (ul_event_still _ _ _ _ _ N (Fw _) E).
    - apply Q; [|exact Logic.I]. apply (ul_event_still _ _ _ _ _ N (Fg _) E).
    - apply Q; [|exact Logic.I]. apply (ul_event_still _ _ _ _ _ N (Fw _) E).
    - apply Q; [|exact Logic.I]. apply (ul_event_still _ _ _ _ _ N (Fw _) E).
    - apply Q; [|exact Logic.I]. apply (ul_event_still _ _ _ _ _ N (Fg _) E).
    - apply Q; [|exact Logic.I]. apply (ul_event_still _ _ _ _ _ N (Fg _) E).
    - apply Q; [|exact Logic.I]. apply (ul_event_still _ _ _ _ _ N (Fg _) E).
    - (* immediate assignment *)
      destruct (find_gre s k) as [g|] eqn:F; [|injection E as <- <-; apply Q'; [reflexivity|]; intros ->; unfold view in V; rewrite F in V; discriminate].
      pose proof (find_gre_id _ _ _ F) as Hk. rewrite <- Hk in F. unfold dl_imm_ass in E. injection E as E.
      destruct (dl_start_view _ _ _ _ _ _ _ _ F E) as (I1 & N1 & V1 & C). destruct (Z.eq_dec i k) as [->|Hn].
      2: { exists t, w. rewrite V1 by congruence. split; [exact V|]. constructor. cbn. congruence. }
      rewrite <- Hk in V. unfold view in V. rewrite F in V. injection V as Vt Vw. rewrite Hk in C.
      set (sl := upd match g_ass g with Some w0 => w_slots w0 | None => no_dl_slots end (Z.to_nat tn) true) in *.
      assert (A : assigned (DlImmAss k tn fn tfi st) k w = Some (tfi, sl, st, fn)). { cbn [assigned]. rewrite Z.eqb_refl, with_slot_upd. unfold sl. rewrite Vw. reflexivity. }
      destruct C as [(Ah & j & Hj & Ho & Vn)|(Ah & f & -> & Vn)]; rewrite Vn; eexists _, _; (split; [reflexivity|]).
      + eapply life_begin; eassumption.
      + rewrite Vt. apply life_wait with (fn := fn); [exact A|exact Ah|]. intros; discriminate.
    - (* packet downlink assignment *)
      destruct (find_gre s k) as [g|] eqn:F; [|injection E as <- <-; apply Q'; [reflexivity|]; intros ->; unfold view in V; rewrite F in V; discriminate].
      pose proof (find_gre_id _ _ _ F) as Hk. rewrite <- Hk in F. unfold dl_pkt_ass in E. set (tf := match tfi with Some t0 => t0 | None => 255 end) in *.
      destruct (dl_start rb s g fn tf st sl) as [s1 o1] eqn:E1. cbn [fst snd] in E. destruct (dl_start_view _ _ _ _ _ _ _ _ F E1) as (I1 & N1 & V1 & C). cbv zeta in E.
      set (s2 := match poll with Some pf => _ | None => _ end) in *. assert (G2 : gres s2 = gres s1) by (unfold s2; destruct poll; reflexivity).
      assert (V2 : forall k, view s2 k = view s1 k) by (intros; now apply view_ext).
      assert (A : assigned (DlPktAss k tn fn poll tfi st sl ack) k w = Some (tf, sl, st, fn)) by (cbn [assigned]; rewrite Z.eqb_refl; reflexivity).
      destruct (find_gre s2 (g_id g)) as [g2|] eqn:F2.
      2: { exfalso. assert (X : view s2 (g_id g) = None) by (unfold view; now rewrite F2). rewrite V2 in X. destruct C as [(_ & ? & _ & _ & Y)|(_ & ? & _ & Y)]; rewrite Y in X; discriminate. }
      assert (W2 : view s1 (g_id g) = Some (side g2)) by (rewrite <- V2; unfold view; rewrite F2; reflexivity). pose proof (find_gre_id _ _ _ F2) as Hk2. rewrite <- Hk2 in F2.
      destruct (Z.eq_dec i k) as [->|Hn].
      + rewrite <- Hk in V. unfold view in V. rewrite F in V. injection V as Vt Vw. rewrite Hk in C, W2. destruct (g_dl g2) as [d|] eqn:Ed; [destruct (ack && d_3192 d) eqn:Ea|].
        * destruct (dl_free rb s2 g2) as [s3 o3] eqn:E3. cbn [fst snd] in E. injection E as <- <-. destruct (dl_free_view _ _ _ _ _ _ F2 Ed E3) as (_ & _ & V3).
          rewrite V3, Hk2, Hk, Z.eqb_refl. apply andb_prop in Ea as [-> Ea].
          destruct C as [(_ & j & _ & _ & Vn)|(Ah & f & -> & Vn)]; rewrite Vn in W2; unfold side in W2; injection W2 as W2 W3; [rewrite Ed in W2; injection W2 as <-; discriminate Ea|].
          rewrite <- W3. eexists _, _. split; [reflexivity|]. assert (T : t = Some d) by congruence. rewrite T. eapply life_wait_gone; [exact A|exact Ah|reflexivity|exact Ea].
        * injection E as <- <-. rewrite V2. destruct C as [(Ah & j & Hj & Ho & Vn)|(Ah & f & -> & Vn)]; rewrite Vn; eexists _, _; (split; [reflexivity|]).
          -- eapply life_begin; eassumption.
          -- rewrite Vt. apply life_wait with (fn := fn); [exact A|exact Ah|]. intros tn' poll' tf' sl' d' X T. injection X as _ _ _ _ ->. cbn [andb] in Ea.
             rewrite Vn in W2. unfold side in W2. injection W2 as W2 _. assert (d' = d) by congruence. congruence.
        * injection E as <- <-. rewrite V2. destruct C as [(Ah & j & Hj & Ho & Vn)|(Ah & f & -> & Vn)]; rewrite Vn; eexists _, _; (split; [reflexivity|]).
          -- eapply life_begin; eassumption.
          -- rewrite Vt. apply life_wait with (fn := fn); [exact A|exact Ah|]. intros tn' poll' tf' sl' d' X T.
             rewrite Vn in W2. unfold side in W2. injection W2 as W2 _. congruence.
      + exists t, w. split; [|constructor; cbn; congruence]. rewrite <- V, <- (V1 i) by congruence. destruct (g_dl g2) as [d|] eqn:Ed; [destruct (ack && d_3192 d) eqn:Ea|]; [|injection E as <- _; apply V2..].
        destruct (dl_free rb s2 g2) as [s3 o3] eqn:E3. cbn [fst snd] in E. injection E as <- _. destruct (dl_free_view _ _ _ _ _ _ F2 Ed E3) as (_ & _ & V3). rewrite V3.
        destruct (Z.eqb_spec i (g_id g2)); [congruence|apply V2].
    - (* data *)
      injection E as <- <-. unfold dl_data. destruct (find _ (gres s)) as [g|] eqn:F.
      2: { exists t, w. split; [exact V|]. constructor. cbn [quiet]. intros d -> Hd. apply view_entity in V; [|exact I]. destruct V as (g & Hg & _ & Ed & _). apply (find_none _ _ F) in Hg. rewrite Ed in Hg. lia. }
      apply find_some in F as [Hg Hf]. destruct (g_dl g) as [d|] eqn:Ed; [|discriminate]. pose proof (uid_find s g N Hg) as F.
      set (g' := with_dl g _). set (s1 := set_gre s g').
      assert (V1 : forall k, view s1 k = if k =? g_id g then Some (Some (mkDl (d_id d) (d_fin d || last) (d_tfi d) (d_slots d) true (d_3192 d)), g_ass g) else view s k).
      { intros k. unfold s1. rewrite (view_set s g' g) by exact F. reflexivity. }
      set (s2 := match poll with Some pf => _ | None => _ end). assert (V2 : forall k, view s2 k = view s1 k) by (intros; apply view_ext; unfold s2; destruct poll; reflexivity).
      rewrite V2, V1. destruct (Z.eqb_spec i (g_id g)) as [->|Hn].
      + eexists _, _. split; [reflexivity|]. unfold view in V. rewrite F in V. unfold side in V. cbn [option_map] in V. injection V as <- <-. rewrite Ed. apply life_block with (tn := tn) (poll := poll). f_equal. lia.
      + exists t, w. split; [exact V|]. constructor. cbn [quiet]. intros d' -> Hd. exists (g_id g), d, (g_ass g). split; [congruence|]. split; [|lia]. exists g. auto.
    - (* T3190 *)
      injection E as E. unfold dl_timer in E. change (3190 =? 3190) with true in E. cbv iota in E.
      destruct (find_gre s k) as [g|] eqn:F; [|injection E as <- <-; apply Q'; [reflexivity|]; cbn; intros -> d _; unfold view in V; rewrite F in V; discriminate].
      pose proof (find_gre_id _ _ _ F) as Hk. rewrite <- Hk in F. assert (Vk : view s (g_id g) = Some (side g)) by (unfold view; now rewrite F).
      destruct (g_dl g) as [d|] eqn:Ed; [destruct (d_3190 d) eqn:Et|].
      + destruct (dl_free rb s g) as [s1 o1] eqn:E1. cbn [fst snd] in E. injection E as <- <-. destruct (dl_free_view _ _ _ _ _ _ F Ed E1) as (_ & _ & V1). rewrite V1.
        destruct (Z.eqb_spec i (g_id g)) as [->|Hn]; [|exists t, w; split; [exact V|]; constructor; cbn; congruence].
        eexists _, _. split; [reflexivity|]. rewrite Vk in V. unfold side in V. injection V as <- <-. rewrite Ed. apply life_t3190; [congruence|exact Et|now left].
      + injection E as <- <-. apply Q'; [reflexivity|]. cbn. intros <- d' ->. rewrite <- Hk, Vk in V. unfold side in V. congruence.
      + injection E as <- <-. apply Q'; [reflexivity|]. cbn. intros <- d' ->. rewrite <- Hk, Vk in V. unfold side in V. congruence.
    - (* T3192 *)
      injection E as E. unfold dl_timer in E. change (3192 =? 3190) with false in E. cbv iota in E.
      destruct (find_gre s k) as [g|] eqn:F; [|injection E as <- <-; apply Q'; [reflexivity|]; cbn; intros -> d _; unfold view in V; rewrite F in V; discriminate].
      pose proof (find_gre_id _ _ _ F) as Hk. rewrite <- Hk in F. assert (Vk : view s (g_id g) = Some (side g)) by (unfold view; now rewrite F).
      destruct (g_dl g) as [d|] eqn:Ed; [destruct (d_3192 d) eqn:Et|].
      + destruct (dl_free rb s g) as [s1 o1] eqn:E1. cbn [fst snd] in E. injection E as <- <-. destruct (dl_free_view _ _ _ _ _ _ F Ed E1) as (_ & _ & V1). rewrite V1.
        destruct (Z.eqb_spec i (g_id g)) as [->|Hn]; [|exists t, w; split; [exact V|]; constructor; cbn; congruence].
        eexists _, _. split; [reflexivity|]. rewrite Vk in V. unfold side in V. injection V as <- <-. rewrite Ed. apply life_t3192; [congruence|exact Et|now left].
      + injection E as <- <-. apply Q'; [reflexivity|]. cbn. intros <- d' ->. rewrite <- Hk, Vk in V. unfold side in V. congruence.
      + injection E as <- <-. apply Q'; [reflexivity|]. cbn. intros <- d' ->. rewrite <- Hk, Vk in V. unfold side in V. congruence.
    - (* ready to send *)
      pose proof (rcv_rts_spec rb Hrb bs cs0 s ts fn usf enc data I) as P. rewrite E in P. destruct P as (_ & s1 & o1 & s2 & b & Et & I1 & _ & _ & Es & _ & B & _).
      unfold rcv_rts in E. rewrite Et in E. cbn [bind fst snd] in E. destruct (select rb bs cs0 enc s1 ts fn usf data) as [[[s2' o2] b']|?|] eqn:Ese; cbn [bind] in E; try discriminate. injection E as E0 Eo.
      assert (Vf : forall k, view s' k = view s2' k) by (intros; apply view_ext; rewrite <- E0; reflexivity).
      pose proof (tick_spec rb Hrb (map g_id (gres s)) ts fn s I) as P. rewrite Et in P. destruct P as (_ & B1 & _).
      pose proof (select_spec rb Hrb bs cs0 enc s1 ts fn usf data I1) as P. rewrite Ese in P. destruct P as (_ & B2 & _).
      assert (Bb : blocks o = match b' with Some x => [(ts, fn, x)] | None => [] end) by (rewrite <- Eo, !blocks_app, B1, B2; destruct b'; reflexivity).
      destruct (tick_view rb _ ts fn s s1 o1 N Et) as (J1 & N1 & T1 & T2).
      assert (Hin : In i (ids s)). { destruct (in_dec Z.eq_dec i (ids s)) as [H|H]; [exact H|]. apply view_none in H. congruence. }
      specialize (T1 i Hin). pose proof (select_acked rb bs cs0 enc s1 ts fn usf data s2' o2 b' (inv_uid s1 I1) Ese) as A. unfold ticked1 in T1. rewrite V in T1. unfold starts in T1.
      set (st := match w with Some w0 => if (fn =? w_start w0) && (ts =? 0) then Some w0 else None | None => None end) in T1.
      destruct st as [w0|] eqn:Est.
      + assert (Hw : w = Some w0 /\ fn = w_start w0 /\ ts = 0). { unfold st in Est. destruct w as [w1|]; [|discriminate]. destruct (Z.eqb_spec fn (w_start w1)), (Z.eqb_spec ts 0); try discriminate. injection Est as <-. auto. }
        destruct Hw as (-> & -> & ->). destruct T1 as (j & Hj & Ho & V1).
        assert (V2 : view s2' i = view s1 i).
        { unfold acked in A. destruct b' as [[j' [] r| | | |]|]; try apply A. destruct A as (_ & k & d & w1 & Vk & _ & Hf & Vall). rewrite Vall. destruct (Z.eqb_spec i k) as [->|_]; [|reflexivity].
          rewrite V1 in Vk. injection Vk as <- _. discriminate Hf. }
        rewrite Vf, V2, V1. eexists _, _. split; [reflexivity|]. eapply life_start; [reflexivity| |exact Hj]. rewrite <- Eo. apply in_app_iff. now left.
      + assert (Hns : forall x, w = Some x -> ~ (ts = 0 /\ w_start x = fn)).
        { intros x -> [-> <-]. unfold st in Est. rewrite !Z.eqb_refl in Est. discriminate. }
        assert (Sm : still s1 s2' -> (forall j r, b' <> Some (BDlAck j true r)) -> exists t' w', view s' i = Some (t', w') /\ life s (Rts ts fn usf enc data) o i t w t' w').
        { intros (_ & _ & S) Hb. exists t, w. split; [rewrite Vf, S, T1; reflexivity|]. constructor. split; [|exact Hns]. intros d r -> . rewrite Bb. destruct b' as [x|]; [|intros []]. intros [X|[]]. injection X as ->. now apply (Hb (d_id d) r). }
        unfold acked in A. destruct b' as [[j [] r| | | |]|]; try (apply Sm; [exact A|discriminate]).
        destruct A as (_ & k & d & w1 & Vk & Hd & Hf & Vall). destruct (Z.eq_dec i k) as [->|Hn].
        * rewrite T1 in Vk. injection Vk as -> ->. rewrite Vf, Vall, Z.eqb_refl. eexists _, _. split; [reflexivity|]. eapply life_final; [reflexivity|exact Hf|]. rewrite Bb, Hd. now left.
        * rewrite Vf, Vall. destruct (Z.eqb_spec i k); [contradiction|]. exists t, w. split; [exact T1|]. constructor. split; [|exact Hns].
          intros d' r' -> . rewrite Bb. intros [X|[]]. injection X as X _. apply Hn.
          apply view_entity in Vk; [|exact I1]. apply view_entity in T1; [|exact I1]. destruct Vk as (ga & Ha1 & <- & Ha3 & _), T1 as (gb & Hb1 & <- & Hb3 & _).
          destruct (uniqueD s1 ga gb d d' I1 Ha1 Ha3 Hb1 Hb3) as [-> _]; congruence.
  Qed.
End Life.

Section Uplink.
  Variable rb : rb_ops.
  Hypothesis Hrb : tree_library rb.
  Variable bs cs0 : Z.
  Definition uview (s : sys) (k : Z) : option (option (Z * tbf)) := option_map g_ul (find_gre s k).
  Lemma uview_set s g g0 k : find_gre s (g_id g) = Some g0 -> uview (set_gre s g) k = if k =? g_id g then Some (g_ul g) else uview s k.
  Proof. intros H. unfold uview. rewrite (find_set_is s g g0 k H). now destruct (k =? g_id g). Qed.
  Lemma uview_ext s s' k : gres s' = gres s -> uview s' k = uview s k.
  Proof. unfold uview, find_gre. now intros ->. Qed.
  Lemma uview_uplink s i j b : Inv s -> uplink s i j b <-> uview s i = Some (Some (j, b)).
  Proof.
    intros I. unfold uview. split.
    - intros (g & Hg & <- & E). rewrite (uid_find s g (inv_uid s I) Hg). cbn. now rewrite E.
    - destruct (find_gre s i) as [g|] eqn:F; [|discriminate]. cbn [option_map]. intros [= E]. apply find_gre_in in F as [Hg Hi]. exists g. auto.
  Qed.
  Lemma ul_result_uview s g i x s' o : find_gre s (g_id g) = Some g -> ul_result rb s g i x = Ok (s', o) ->
    exists r o1, x = Ok (r, o1) /\ (forall y, In y o1 -> In (UlDid i y) o) /\
      forall k, uview s' k = if k =? g_id g then Some (match r with Some b => Some (i, b) | None => None end) else uview s k.
  Proof.
    intros H. unfold ul_result. destruct x as [[st o1]|?|]; cbn [bind fst snd]; try discriminate. destruct (reserve_outs_gres rb i o1 s) as [R1 _].
    destruct st as [b|]; intros [= <- <-]; eexists _, _; (split; [reflexivity|]).
    - split; [intros y; apply in_map|]. intros k. rewrite (uview_set _ _ g) by (cbn; rewrite (find_same_gres s) by exact R1; exact H). cbn [g_id with_ul g_ul]. destruct (k =? g_id g); [reflexivity|]. now apply uview_ext.
    - split; [intros y Hy; apply in_app_iff; left; now apply in_map|]. intros k.
      rewrite (uview_set _ _ g) by (rewrite (find_same_gres s) by exact R1; exact H). cbn [g_id with_ul g_ul]. destruct (k =? g_id g); [reflexivity|]. now apply uview_ext.
  Qed.
  Lemma start_if_needed_uview s g rach s' o : find_gre s (g_id g) = Some g -> start_if_needed rb cs0 s g rach = Ok (s', o) ->
    forall k x, uview s k = Some (Some x) -> uview s' k = uview s k.
  Proof.
    intros H. unfold start_if_needed. assert (R : Ok (s, @nil sout) = Ok (s', o) -> forall k x, uview s k = Some (Some x) -> uview s' k = uview s k) by (intros [= <- _] k x _; reflexivity).
    destruct (g_ul g) as [?|] eqn:Eu; [exact R|]. destruct (g_dl g); [exact R|]. destruct (g_q g); [|exact R]. cbv zeta. intros E k x Hk.
    destruct (ul_result_uview (alloc_id s) g _ _ s' o H E) as (r & o1 & _ & _ & V). rewrite V. destruct (Z.eqb_spec k (g_id g)) as [->|_]; [|reflexivity].
    unfold uview in Hk. rewrite H in Hk. cbn in Hk. rewrite Eu in Hk. discriminate.
  Qed.
  Lemma start_all_uview rach l : forall s s' o, start_all rb cs0 s l rach = Ok (s', o) -> forall k x, uview s k = Some (Some x) -> uview s' k = uview s k.
  Proof.
    induction l as [|i l IH]; intros s s' o; cbn [start_all]; [intros [= <- _] k x _; reflexivity|].
    destruct (find_gre s i) as [g|] eqn:F; [|apply IH]. destruct (start_if_needed rb cs0 s g rach) as [[s1 o1]|?|] eqn:E1; cbn [bind fst snd]; try discriminate.
    destruct (start_all rb cs0 s1 l rach) as [[s2 o2]|?|] eqn:E2; cbn [bind fst snd]; try discriminate. intros [= <- _] k x Hk.
    rewrite <- (find_gre_id _ _ _ F) in F. pose proof (start_if_needed_uview _ _ _ _ _ F E1 k x Hk) as H1. rewrite (IH _ _ _ E2 k x); [exact H1|congruence].
  Qed.
  Lemma dl_complete_uview s g tfi sl s' o : find_gre s (g_id g) = Some g -> dl_complete rb s g tfi sl = (s', o) -> forall k, uview s' k = uview s k.
  Proof.
    intros H. unfold dl_complete. cbv zeta. set (s1 := match g_dl g with Some d => release_all rb (alloc_id s) (d_id d) | None => alloc_id s end).
    assert (E : gres s1 = gres s) by (unfold s1; destruct (g_dl g); reflexivity). intros [= <- _] k.
    rewrite (uview_set s1 _ g) by (cbn; rewrite (find_same_gres s); assumption). cbn [g_id with_ass with_dl g_ul]. destruct (Z.eqb_spec k (g_id g)) as [->|_]; [|now apply uview_ext].
    unfold uview. rewrite H. reflexivity.
  Qed.
  Lemma dl_start_uview s g fn tfi st sl s' o : find_gre s (g_id g) = Some g -> dl_start rb s g fn tfi st sl = (s', o) -> forall k, uview s' k = uview s k.
  Proof.
    intros H. unfold dl_start. destruct st as [f|]; [|now apply dl_complete_uview]. destruct (0 <? fncmp f fn); [|now apply dl_complete_uview]. intros [= <- _] k.
    rewrite (uview_set s _ g) by exact H. cbn [g_id with_ass g_ul]. destruct (Z.eqb_spec k (g_id g)) as [->|_]; [|reflexivity]. unfold uview. rewrite H. reflexivity.
  Qed.
  Lemma dl_free_uview s g : find_gre s (g_id g) = Some g -> forall k, uview (fst (dl_free rb s g)) k = uview s k.
  Proof.
    intros H k. unfold dl_free. destruct (g_dl g); cbn [fst]; [|reflexivity]. rewrite (uview_set _ _ g) by exact H. cbn [g_id with_dl g_ul]. destruct (Z.eqb_spec k (g_id g)) as [->|_]; [|now apply uview_ext].
    unfold uview. rewrite H. reflexivity.
  Qed.
  (** The uplink TBF that a message reaches. *)
  Definition reaches (s : sys) (e : sevent) (og : option gre) (e' : event) : Prop :=
    (forall g, og = Some g -> In g (gres s)) /\
    (forall g j b, og = Some g -> g_ul g = Some (j, b) -> for_ul e (g_id g) b = Some e') /\
    (forall g j b, In g (gres s) -> g_ul g = Some (j, b) -> for_ul e (g_id g) b <> None -> exists g0 x, og = Some g0 /\ g_ul g0 = Some x).
  Lemma find_reaches s e e' (f : tbf -> bool) : (forall i b, for_ul e i b = if f b then Some e' else None) -> reaches s e (ul_with f s) e'.
  Proof.
    intros H. split; [intros g F; now apply find_some in F|]. split.
    - intros g j b F E. apply find_some in F as [_ F]. rewrite E in F. now rewrite H, F.
    - intros g j b Hg E Hn. rewrite H in Hn. destruct (f b) eqn:Ef; [|congruence]. destruct (ul_with f s) as [g0|] eqn:F.
      + exists g0. apply find_some in F as [_ F]. destruct (g_ul g0) as [x|]; [|discriminate]. exists x. auto.
      + apply (find_none _ _ F) in Hg. rewrite E in Hg. congruence.
  Qed.
  Lemma gre_reaches s e e' k : NoDup (ids s) -> (forall i b, for_ul e i b = if k =? i then Some e' else None) -> reaches s e (find_gre s k) e'.
  Proof.
    intros N H. split; [intros g F; now apply find_gre_in in F|]. split.
    - intros g j b F E. apply find_gre_in in F as [_ <-]. now rewrite H, Z.eqb_refl.
    - intros g j b Hg E Hn. rewrite H in Hn. destruct (Z.eqb_spec k (g_id g)) as [->|]; [|congruence]. exists g, (j, b). split; [now apply uid_find|exact E].
  Qed.
  Lemma ul_event_uview s e og e' s' o i j b : NoDup (ids s) -> reaches s e og e' -> ul_event rb bs s og e' = Ok (s', o) -> uview s i = Some (Some (j, b)) ->
    (for_ul e i b = None -> uview s' i = uview s i) /\
    (for_ul e i b <> None -> (forall i2 j2 b2, uview s i2 = Some (Some (j2, b2)) -> for_ul e i2 b2 <> None -> i2 = i) ->
       exists r o1, UlTbfModel.step bs b e' = Ok (r, o1) /\ (forall y, In y o1 -> In (UlDid j y) o) /\ uview s' i = Some (match r with Some b' => Some (j, b') | None => None end)).
  Proof.
    intros N (R1 & R2 & R3) E V. unfold uview in V. destruct (find_gre s i) as [gi|] eqn:Fi; [|discriminate]. cbn in V. injection V as V. apply find_gre_in in Fi as [Hgi Hi].
    unfold ul_event in E. destruct og as [g|].
    - pose proof (uid_find s g N (R1 g eq_refl)) as F. destruct (g_ul g) as [[j0 b0]|] eqn:Eu.
      + destruct (ul_result_uview s g j0 _ s' o F E) as (r & o1 & Ex & Ho & Vn). pose proof (R2 g j0 b0 eq_refl Eu) as Hf. split.
        * intros Hno. rewrite Vn. destruct (Z.eqb_spec i (g_id g)) as [->|_]; [|reflexivity]. exfalso. assert (gi = g) by (rewrite <- Hi, (uid_find s gi N Hgi) in F; congruence). subst gi. rewrite V in Eu. injection Eu as <- <-. congruence.
        * intros Hyes Hall. assert (Hig : g_id g = i). { apply (Hall (g_id g) j0 b0); [unfold uview; rewrite F; cbn; now rewrite Eu|congruence]. }
          assert (gi = g). { rewrite Hig, <- Hi, (uid_find s gi N Hgi) in F. congruence. } subst gi. rewrite V in Eu. injection Eu as <- <-.
          exists r, o1. split; [exact Ex|]. split; [exact Ho|]. rewrite Vn, Hig, Z.eqb_refl. reflexivity.
      + injection E as <- <-. split; [reflexivity|]. intros Hyes _. exfalso. rewrite <- Hi in Hyes. destruct (R3 gi j b Hgi V Hyes) as (g0 & x & [= <-] & X). congruence.
    - injection E as <- <-. split; [reflexivity|]. intros Hyes _. exfalso. rewrite <- Hi in Hyes. destruct (R3 gi j b Hgi V Hyes) as (g0 & x & [=] & _).
  Qed.
  Lemma event_reaches s e : NoDup (ids s) -> (exists og e', reaches s e og e' /\ sstep rb bs cs0 s e = ul_event rb bs s og e' /\ forall i b x, for_ul e i b = Some x -> x = e') \/
    match e with UlImmAss _ _ _ | UlPktAss _ _ _ _ _ | UlAckNack _ _ _ _ _ _ | PdchCnf _ _ | UlTimer _ _ | UlT3168 _ | UlT3180 _ => False | _ => True end.
  Proof.
    intros N. destruct e as [ |k|k rach|k|rach|tn fn ia|k tn fn poll m|tn tfi poll final est cc|tn fn|k rach|k|k|k tn fn tfi st|k tn fn poll tfi st sl ack|tn tfi last poll|k|k|ts fn usf enc data]; try (right; exact Logic.I); left; cbn [sstep].
    - eexists _, _. split; [|split; [reflexivity|]]. apply find_reaches. intros i b. cbn [for_ul]. destruct (a b); reflexivity. intros i b x. cbn. destruct (a b); congruence.
    - eexists _, _. split; [|split; [reflexivity|]]. apply gre_reaches; [exact N|reflexivity]. intros i b x. cbn. destruct (k =? i); congruence.
    - eexists _, _. split; [|split; [reflexivity|]]. apply find_reaches. reflexivity. intros i b x. cbn. destruct (ul_tfi _ =? _); congruence.
    - eexists _, _. split; [|split; [reflexivity|]]. apply find_reaches. intros i b. cbn [for_ul]. destruct (u b); reflexivity. intros i b x. cbn. destruct (u b); try congruence. destruct (_ && _); congruence.
    - eexists _, _. split; [|split; [reflexivity|]]. apply gre_reaches; [exact N|reflexivity]. intros i b x. cbn. destruct (k =? i); congruence.
    - eexists _, _. split; [|split; [reflexivity|]]. apply gre_reaches; [exact N|reflexivity]. intros i b x. cbn. destruct (k =? i); congruence.
    - eexists _, _. split; [|split; [reflexivity|]]. apply gre_reaches; [exact N|reflexivity]. intros i b x. cbn. destruct (k =? i); congruence.
  Qed.
  Lemma step_other_ul s e s' o i x : Inv s -> sstep rb bs cs0 s e = Ok (s', o) ->
    match e with UlImmAss _ _ _ | UlPktAss _ _ _ _ _ | UlAckNack _ _ _ _ _ _ | PdchCnf _ _ | UlTimer _ _ | UlT3168 _ | UlT3180 _ | Rts _ _ _ _ _ => False | _ => True end ->
    e <> DelGre i -> uview s i = Some (Some x) -> uview s' i = uview s i.
  Proof.
    intros I E NR ND V. pose proof (inv_uid s I) as N.
    destruct e as [ |k|k rach|k|rach|tn fn ia|k tn fn poll m|tn tfi poll final est cc|tn fn|k rach|k|k|k tn fn tfi st|k tn fn poll tfi st sl ack|tn tfi last poll|k|k|ts fn usf enc data];
      try (exfalso; exact NR); cbn [sstep] in E.
    - injection E as <- _. unfold uview, find_gre, new_gre in *. cbn [gres]. destruct (find _ (gres s)) as [g|] eqn:F; [|discriminate]. rewrite (find_app_some _ _ _ _ F). reflexivity.
    - destruct (find_gre s k) as [g|] eqn:F; [|injection E as <- _; reflexivity]. injection E as <- _.
      apply find_gre_in in F as [Hg Hk]. assert (Hn : i <> k) by congruence. unfold uview. f_equal. unfold find_gre, del_gre.
      set (s1 := match g_ul g with Some (j, _) => _ | None => _ end). assert (E1 : gres s1 = gres s) by (unfold s1; destruct (g_ul g) as [[? ?]|], (g_dl g); reflexivity). cbn [gres]. rewrite E1.
      clear -Hn Hk. induction (gres s) as [|y l IH]; [reflexivity|]. cbn [filter find]. destruct (Z.eqb_spec (g_id y) (g_id g)); cbn [negb find]; rewrite IH; [|reflexivity].
      destruct (Z.eqb_spec (g_id y) i); [congruence|reflexivity].
    - destruct (find_gre s k) as [g|] eqn:F; [|injection E as <- _; reflexivity]. cbv zeta in E. rewrite <- (find_gre_id _ _ _ F) in F.
      assert (V1 : forall k, uview (set_gre s (with_q g true)) k = uview s k).
      { intros k'. rewrite (uview_set s _ g) by exact F. cbn [g_id with_q g_ul]. destruct (Z.eqb_spec k' (g_id g)) as [->|_]; [|reflexivity]. unfold uview. rewrite F. reflexivity. }
      rewrite <- V1. eapply (start_if_needed_uview _ (with_q g true) rach s' o _ E); rewrite V1; exact V.
      Unshelve. rewrite (find_set_is s (with_q g true) g) by exact F. now rewrite Z.eqb_refl.
    - destruct (find_gre s k) as [g|] eqn:F; injection E as <- _; [|reflexivity]. rewrite <- (find_gre_id _ _ _ F) in F. rewrite (uview_set s _ g) by exact F. cbn [g_id with_q g_ul].
      destruct (Z.eqb_spec i (g_id g)) as [->|_]; [|reflexivity]. unfold uview. rewrite F. reflexivity.
    - exact (start_all_uview _ _ _ _ _ E _ _ V).
    - destruct (find_gre s k) as [g|] eqn:F; [|injection E as <- _; reflexivity]. rewrite <- (find_gre_id _ _ _ F) in F. injection E as E. unfold dl_imm_ass in E. exact (dl_start_uview _ _ _ _ _ _ _ _ F E i).
    - destruct (find_gre s k) as [g|] eqn:F; [|injection E as <- _; reflexivity]. rewrite <- (find_gre_id _ _ _ F) in F. injection E as E. unfold dl_pkt_ass in E.
      destruct (dl_start rb s g fn _ st sl) as [s1 o1] eqn:E1. cbn [fst snd] in E. pose proof (dl_start_uview _ _ _ _ _ _ _ _ F E1) as V1. cbv zeta in E.
      set (s2 := match poll with Some pf => _ | None => _ end) in *. assert (V2 : forall k, uview s2 k = uview s1 k) by (intros; apply uview_ext; unfold s2; destruct poll; reflexivity).
      destruct (find_gre s2 (g_id g)) as [g2|] eqn:F2; [|injection E as <- _; now rewrite V2]. destruct (g_dl g2) as [d|]; [|injection E as <- _; now rewrite V2].
      destruct (ack && d_3192 d); injection E as <- _; [|now rewrite V2]. rewrite <- (find_gre_id _ _ _ F2) in F2. rewrite dl_free_uview by exact F2. now rewrite V2.
    - injection E as <- _. unfold dl_data. destruct (find _ (gres s)) as [g|] eqn:F; [|reflexivity]. apply find_some in F as [Hg _]. destruct (g_dl g) as [d|]; [|reflexivity]. pose proof (uid_find s g N Hg) as F.
      set (g' := with_dl g _). assert (V1 : forall k, uview (set_gre s g') k = uview s k).
      { intros k. rewrite (uview_set s g' g) by exact F. cbn [g' g_id with_dl g_ul]. destruct (Z.eqb_spec k (g_id g)) as [->|_]; [|reflexivity]. unfold uview. rewrite F. reflexivity. }
      rewrite <- V1. destruct poll; [apply uview_ext|]; reflexivity.
    - injection E as E. unfold dl_timer in E. destruct (find_gre s k) as [g|] eqn:F; [|injection E as <- _; reflexivity]. rewrite <- (find_gre_id _ _ _ F) in F. destruct (g_dl g) as [d|]; [|injection E as <- _; reflexivity].
      destruct (if _ =? 3190 then _ else _); injection E as <- _; [|reflexivity]. now apply dl_free_uview.
    - injection E as E. unfold dl_timer in E. destruct (find_gre s k) as [g|] eqn:F; [|injection E as <- _; reflexivity]. rewrite <- (find_gre_id _ _ _ F) in F. destruct (g_dl g) as [d|]; [|injection E as <- _; reflexivity].
      destruct (if _ =? 3190 then _ else _); injection E as <- _; [|reflexivity]. now apply dl_free_uview.
  Qed.
End Uplink.

Section Theorems.
  Variable rb : rb_ops.
  Hypothesis Hrb : tree_library rb.
  Variable bs cs0 : Z.

  (** In any history: what an event does to the downlink TBF of an entity that stays. *)
  Theorem C42_life l s o e s' o' i t w : srun rb bs cs0 sys0 l = Ok (s, o) -> sstep rb bs cs0 s e = Ok (s', o') -> entity s i t w -> e <> DelGre i ->
    exists t' w', entity s' i t' w' /\ life s e o' i t w t' w'.
  Proof.
    intros R E V ND. pose proof (srun_inv rb Hrb bs cs0 l sys0 s o inv0 R) as I. pose proof (sstep_inv rb Hrb bs cs0 s e s' o' I E) as I'.
    apply view_entity in V; [|exact I]. destruct (step_life rb Hrb bs cs0 s e s' o' i t w I I' E V ND) as (t' & w' & V' & L). exists t', w'. split; [now apply view_entity|exact L].
  Qed.

  Lemma ids_step s e s' o : Inv s -> sstep rb bs cs0 s e = Ok (s', o) -> match e with NewGre => True | DelGre i => ~ In i (ids s') /\ incl (ids s') (ids s) | _ => incl (ids s') (ids s) end.
  Proof.
    intros I E. pose proof (inv_uid s I) as N.
    assert (Q : still s s' -> incl (ids s') (ids s)) by (intros (-> & _); apply incl_refl).
    assert (Fw : forall f g, ul_with f s = Some g -> In g (gres s)) by (intros f g H; now apply find_some in H).
    assert (Fg : forall i g, find_gre s i = Some g -> In g (gres s)) by (intros k g H; now apply find_gre_in in H).
    assert (Fr : forall s g d, find_gre s (g_id g) = Some g -> g_dl g = Some d -> ids (fst (dl_free rb s g)) = ids s).
    { intros s0 g d H Ed. destruct (dl_free rb s0 g) as [s1 o1] eqn:E1. exact (proj1 (dl_free_view _ _ _ _ _ _ H Ed E1)). }
    destruct e as [ |k|k rach|k|rach|tn fn ia|k tn fn poll m|tn tfi poll final est cc|tn fn|k rach|k|k|k tn fn tfi st|k tn fn poll tfi st sl ack|tn tfi last poll|k|k|ts fn usf enc data]; cbn [sstep] in E.
    - exact Logic.I.
    - destruct (find_gre s k) as [g|] eqn:F; injection E as <- _.
      + pose proof (find_gre_id _ _ _ F) as Hk. unfold ids, del_gre. set (s1 := match g_ul g with Some (j, _) => _ | None => _ end).
        assert (E1 : gres s1 = gres s) by (unfold s1; destruct (g_ul g) as [[? ?]|], (g_dl g); reflexivity). cbn [gres]. rewrite E1. split.
        * intros H. apply in_map_iff in H as (x & Hx & Hf). apply filter_In in Hf as [_ Hf]. lia.
        * intros x Hx. apply in_map_iff in Hx as (y & <- & Hf). apply filter_In in Hf as [Hf _]. now apply in_map.
      + split; [|apply incl_refl]. intros H. unfold ids in H. apply in_map_iff in H as (g & Hg & Hin). apply (find_none _ _ F) in Hin. cbv beta in Hin. lia.
    - apply Q. destruct (find_gre s k) as [g|] eqn:F; [|injection E as <- _; apply still_refl; [reflexivity|lia]]. cbv zeta in E. rewrite <- (find_gre_id _ _ _ F) in F.
      eapply still_trans; [apply still_set with (g := with_q g true) (g0 := g); [exact F|reflexivity]|]. apply (start_if_needed_still rb cs0 _ (with_q g true) rach s' o); [|exact E].
      rewrite (find_set_is s (with_q g true) g) by exact F. now rewrite Z.eqb_refl.
    - destruct (find_gre s k) as [g|] eqn:F; injection E as <- _; [rewrite ids_set|]; apply incl_refl.
    - apply Q. exact (start_all_still rb cs0 _ _ _ _ _ E).
    - apply Q. apply (ul_event_still rb bs _ _ _ _ _ N (Fw _) E).
    - apply Q. apply (ul_event_still rb bs _ _ _ _ _ N (Fg _) E).
    - apply Q. apply (ul_event_still rb bs _ _ _ _ _ N (Fw _) E).
    - apply Q. apply (ul_event_still rb bs _ _ _ _ _ N (Fw _) E).
    - apply Q. apply (ul_event_still rb bs _ _ _ _ _ N (Fg _) E).
    - apply Q. apply (ul_event_still rb bs _ _ _ _ _ N (Fg _) E).
    - apply Q. apply (ul_event_still rb bs _ _ _ _ _ N (Fg _) E).
    - destruct (find_gre s k) as [g|] eqn:F; [|injection E as <- _; apply incl_refl]. rewrite <- (find_gre_id _ _ _ F) in F. injection E as E. unfold dl_imm_ass in E.
      rewrite (proj1 (dl_start_view rb _ _ _ _ _ _ _ _ F E)). apply incl_refl.
    - destruct (find_gre s k) as [g|] eqn:F; [|injection E as <- _; apply incl_refl]. rewrite <- (find_gre_id _ _ _ F) in F. injection E as E. unfold dl_pkt_ass in E.
      destruct (dl_start rb s g fn _ st sl) as [s1 o1] eqn:E1. cbn [fst snd] in E. pose proof (proj1 (dl_start_view rb _ _ _ _ _ _ _ _ F E1)) as V1. cbv zeta in E.
      set (s2 := match poll with Some pf => _ | None => _ end) in *. assert (V2 : ids s2 = ids s) by (rewrite <- V1; unfold s2; destruct poll; reflexivity).
      destruct (find_gre s2 (g_id g)) as [g2|] eqn:F2; [|injection E as <- _; rewrite V2; apply incl_refl]. destruct (g_dl g2) as [d|] eqn:Ed; [|injection E as <- _; rewrite V2; apply incl_refl].
      destruct (ack && d_3192 d); injection E as <- _; [|rewrite V2; apply incl_refl]. rewrite <- (find_gre_id _ _ _ F2) in F2. rewrite (Fr _ _ _ F2 Ed), V2. apply incl_refl.
    - injection E as <- _. unfold dl_data. destruct (find _ (gres s)) as [g|] eqn:F; [|apply incl_refl]. destruct (g_dl g) as [d|]; [|apply incl_refl].
      destruct poll; [change (ids (reserve_at rb ?x ?a ?b ?c ?d)) with (ids x)|]; rewrite ids_set; apply incl_refl.
    - injection E as E. unfold dl_timer in E. destruct (find_gre s k) as [g|] eqn:F; [|injection E as <- _; apply incl_refl]. rewrite <- (find_gre_id _ _ _ F) in F. destruct (g_dl g) as [d|] eqn:Ed; [|injection E as <- _; apply incl_refl].
      destruct (if _ =? 3190 then _ else _); injection E as <- _; [|apply incl_refl]. rewrite (Fr _ _ _ F Ed). apply incl_refl.
    - injection E as E. unfold dl_timer in E. destruct (find_gre s k) as [g|] eqn:F; [|injection E as <- _; apply incl_refl]. rewrite <- (find_gre_id _ _ _ F) in F. destruct (g_dl g) as [d|] eqn:Ed; [|injection E as <- _; apply incl_refl].
      destruct (if _ =? 3190 then _ else _); injection E as <- _; [|apply incl_refl]. rewrite (Fr _ _ _ F Ed). apply incl_refl.
    - pose proof (rcv_rts_spec rb Hrb bs cs0 s ts fn usf enc data I) as P. rewrite E in P. destruct P as (_ & s1 & o1 & _ & _ & Et & I1 & _).
      unfold rcv_rts in E. rewrite Et in E. cbn [bind fst snd] in E. destruct (select rb bs cs0 enc s1 ts fn usf data) as [[[s2 o2] b]|?|] eqn:Ese; cbn [bind] in E; try discriminate. injection E as <- _.
      destruct (tick_view rb _ ts fn s s1 o1 N Et) as (J1 & _). pose proof (select_acked rb bs cs0 enc s1 ts fn usf data s2 o2 b (inv_uid s1 I1) Ese) as A.
      assert (X : ids s2 = ids s1) by (unfold acked in A; destruct b as [[j [] r| | | |]|]; apply A).
      change (ids (set_tree s2 ts (expire_fn rb (tree_of s2 ts) fn))) with (ids s2). rewrite X, J1. apply incl_refl.
  Qed.

  (** An entity that is released is gone with its TBFs; entities come without TBFs. *)
  Theorem C42_entities l s o e s' o' : srun rb bs cs0 sys0 l = Ok (s, o) -> sstep rb bs cs0 s e = Ok (s', o') ->
    (forall i, e = DelGre i -> forall t w, ~ entity s' i t w) /\
    (forall i t' w', entity s' i t' w' -> (exists t w, entity s i t w) \/ (e = NewGre /\ i = next s /\ t' = None /\ w' = None)).
  Proof.
    intros R E. pose proof (srun_inv rb Hrb bs cs0 l sys0 s o inv0 R) as I. pose proof (ids_step s e s' o' I E) as P. split.
    - intros i -> t w (g & Hg & Hi & _). apply P. rewrite <- Hi. now apply in_map.
    - intros i t' w' V. assert (X : In i (ids s) -> exists t w, entity s i t w).
      { intros H. unfold ids in H. apply in_map_iff in H as (g & <- & Hg). exists (g_dl g), (g_ass g), g. auto. }
      assert (Y : In i (ids s')) by (destruct V as (g & Hg & <- & _); now apply in_map).
      destruct e; try (left; apply X, P; exact Y); try (left; apply X, (proj2 P); exact Y).
      cbn [sstep] in E. injection E as <- _. unfold entity, new_gre in V. cbn [gres] in V. destruct V as (g & Hg & Hi & Ht & Hw). rewrite in_app_iff in Hg. destruct Hg as [Hg|[<-|[]]].
      + left. exists t', w', g. auto.
      + right. cbn in *. auto.
  Qed.

  (** In any history: a downlink TBF is supervised by a timer; T3192 runs only when everything was received. *)
  Theorem C42_supervised l : forall s o i d w, srun rb bs cs0 sys0 l = Ok (s, o) -> entity s i (Some d) w ->
    (d_3190 d = true \/ d_3192 d = true) /\ (d_3192 d = true -> d_fin d = true).
  Proof.
    induction l as [|e l IH] using rev_ind; intros s o i d w R V.
    - cbn in R. injection R as <- _. destruct V as (g & [] & _).
    - rewrite srun_app in R. destruct (srun rb bs cs0 sys0 l) as [[s1 o1]|?|] eqn:R1; cbn [bind fst snd] in R; try discriminate. cbn [srun] in R.
      destruct (sstep rb bs cs0 s1 e) as [[s2 o2]|?|] eqn:E; cbn [bind fst snd] in R; try discriminate. injection R as <- _.
      destruct (C42_entities l s1 o1 e s2 o2 R1 E) as [G1 G2]. destruct (G2 _ _ _ V) as [(t & w0 & V0)|(_ & _ & [=] & _)].
      assert (ND : e <> DelGre i) by (intros ->; exact (G1 i eq_refl _ _ V)).
      destruct (C42_life l s1 o1 e s2 o2 i t w0 R1 E V0 ND) as (t' & w' & V' & L).
      assert (X : t' = Some d). { pose proof (sstep_inv rb Hrb bs cs0 s1 e s2 o2 (srun_inv rb Hrb bs cs0 l sys0 s1 o1 inv0 R1) E) as I'. apply view_entity in V; [|exact I']. apply view_entity in V'; [|exact I']. congruence. }
      rewrite X in L. clear X V V' t' G1 G2 ND. specialize (fun d w => IH s1 o1 i d w eq_refl). destruct t as [d0|]; [specialize (IH d0 w0 V0)|clear IH].
      + inversion L; subst; cbn [d_3190 d_3192 d_fin]; try exact IH; split; auto; try discriminate. intros H. apply orb_true_iff. left. now apply IH.
      + inversion L; subst; cbn [d_3190 d_3192 d_fin]; split; auto; discriminate.
  Qed.
  (** ... so it ends when the network is silent: the timer that runs expires, the TBF goes with all its reservations. *)
  Theorem C42_ends l s o i d w : srun rb bs cs0 sys0 l = Ok (s, o) -> entity s i (Some d) w ->
    exists e s' o', (e = DlT3190 i \/ e = DlT3192 i) /\ sstep rb bs cs0 s e = Ok (s', o') /\ entity s' i None w /\
      (forall ts n, In n (inorder (tree_of s' ts)) -> n_reason n = 3 -> n_who n <> d_id d) /\ (forall d', hasD s' d' -> d_id d' <> d_id d).
  Proof.
    intros R V. pose proof (srun_inv rb Hrb bs cs0 l sys0 s o inv0 R) as I.
    assert (X : forall e t, (e = DlT3190 i /\ t = 3190 \/ e = DlT3192 i /\ t = 3192) -> (if t =? 3190 then d_3190 d else d_3192 d) = true ->
      exists e s' o', (e = DlT3190 i \/ e = DlT3192 i) /\ sstep rb bs cs0 s e = Ok (s', o') /\ entity s' i None w /\
      (forall ts n, In n (inorder (tree_of s' ts)) -> n_reason n = 3 -> n_who n <> d_id d) /\ (forall d', hasD s' d' -> d_id d' <> d_id d)).
    { intros e t He Ht. exists e. assert (Es : exists s' o', sstep rb bs cs0 s e = Ok (s', o')) by (destruct He as [[-> _]|[-> _]]; cbn [sstep]; destruct (dl_timer rb s i _); eauto).
      destruct Es as (s' & o' & Es). exists s', o'. split; [tauto|]. split; [exact Es|].
      assert (ND : e <> DelGre i) by (destruct He as [[-> _]|[-> _]]; discriminate). destruct (C42_life l s o e s' o' i _ w R Es V ND) as (t' & w' & V' & L).
      assert (Hw : t' = None /\ w' = w).
      { destruct He as [[-> ->]|[-> ->]]; cbn in Ht; inversion L; subst; auto; try discriminate; match goal with H : quiet _ _ _ _ _ _ |- _ => cbn in H; rewrite (H eq_refl _ eq_refl) in Ht; discriminate Ht end. }
      destruct Hw as [-> ->]. split; [exact V'|]. pose proof (sstep_inv rb Hrb bs cs0 s e s' o' I Es) as I'.
      assert (G : forall d', hasD s' d' -> d_id d' <> d_id d).
      { intros d' (g' & Hg' & Ed') Hid. assert (V2 : entity s' (g_id g') (Some d') (g_ass g')) by (exists g'; auto).
        destruct (Z.eq_dec (g_id g') i) as [Hi|Hi].
        - rewrite Hi in V2. apply view_entity in V2; [|exact I']. apply view_entity in V'; [|exact I']. congruence.
        - destruct (C42_entities l s o e s' o' R Es) as [_ G2]. destruct (G2 _ _ _ V2) as [(t0 & w0 & V0)|(_ & _ & [=] & _)].
          assert (ND2 : e <> DelGre (g_id g')) by (destruct He as [[-> _]|[-> _]]; discriminate). destruct (C42_life l s o e s' o' _ _ _ R Es V0 ND2) as (t2 & w2 & V3 & L2).
          assert (t2 = Some d') by (apply view_entity in V2; [|exact I']; apply view_entity in V3; [|exact I']; congruence). subst t2.
          assert (t0 = Some d') by (destruct He as [[-> _]|[-> _]]; inversion L2; subst; try congruence; try discriminate). subst t0.
          destruct V as (ga & Ha & Hai & Hat & _), V0 as (gb & Hb & Hbi & Hbt & _). destruct (uniqueD s ga gb d d' I Ha Hat Hb Hbt Hid) as [-> _]. congruence. }
      split; [|exact G]. intros ts n Hn Hr Hwho. destruct I' as (_ & _ & _ & _ & O). destruct (O ts n Hn) as [([?|?] & _)|[(_ & g & Hg & Hd)|(? & _)]]; try lia.
      unfold dls in Hd. destruct (g_dl g) as [d'|] eqn:Ed; [|destruct Hd]. destruct Hd as [Hd|[]]. apply (G d'); [exists g; auto|congruence]. }
    destruct (C42_supervised l s o i d w R V) as [[H|H] _]; [apply (X (DlT3190 i) 3190)|apply (X (DlT3192 i) 3192)]; auto.
  Qed.
  (** In any history: the block of a Packet Downlink Ack/Nack is reserved for a downlink TBF that is there. *)
  Theorem C42_polls l s o ts n : srun rb bs cs0 sys0 l = Ok (s, o) -> In n (inorder (tree_of s ts)) -> n_reason n = 3 -> exists i d w, entity s i (Some d) w /\ d_id d = n_who n.
  Proof.
    intros R Hn Hr. destruct (srun_inv rb Hrb bs cs0 l sys0 s o inv0 R) as (_ & _ & _ & _ & O). destruct (O ts n Hn) as [([?|?] & _)|[(_ & g & Hg & Hd)|(? & _)]]; try lia.
    unfold dls in Hd. destruct (g_dl g) as [d|] eqn:Ed; [|destruct Hd]. destruct Hd as [Hd|[]]. exists (g_id g), d, (g_ass g). split; [exists g; auto|exact Hd].
  Qed.
  (** An awaited assignment starts only on timeslot 0 and only in the very frame of its starting time: whatever else
      happens (but another assignment), on whatever other timeslot and in whatever later frame, it does not start. *)
  Theorem C42_never_starts_refuted l s o i t x l2 s2 o2 : srun rb bs cs0 sys0 l = Ok (s, o) -> entity s i t (Some x) -> srun rb bs cs0 s l2 = Ok (s2, o2) ->
    Forall (fun e => match e with
                     | DelGre j | DlImmAss j _ _ _ _ | DlPktAss j _ _ _ _ _ _ _ => j <> i
                     | Rts ts fn _ _ _ => ts <> 0 \/ fn <> w_start x
                     | _ => True
                     end) l2 ->
    exists t2, entity s2 i t2 (Some x) /\ (t = None -> t2 = None).
  Proof.
    revert l s o t. revert s2 o2. induction l2 as [|e l2 IH]; intros s2 o2 l s o t R V R2 F.
    - cbn in R2. injection R2 as <- _. exists t. auto.
    - cbn [srun] in R2. destruct (sstep rb bs cs0 s e) as [[s1 o1]|?|] eqn:E; cbn [bind fst snd] in R2; try discriminate.
      destruct (srun rb bs cs0 s1 l2) as [[s3 o3]|?|] eqn:R3; cbn [bind fst snd] in R2; try discriminate. injection R2 as <- _. inversion F as [|? ? Fe Fl]; subst.
      assert (ND : e <> DelGre i) by (intros ->; now apply Fe). destruct (C42_life l s o e s1 o1 i t (Some x) R E V ND) as (t1 & w1 & V1 & L).
      assert (R' : srun rb bs cs0 sys0 (l ++ [e]) = Ok (s1, o ++ o1)). { rewrite srun_app, R. cbn [bind fst snd srun]. rewrite E. cbn [bind fst snd]. now rewrite app_nil_r. }
      assert (NA : forall y, assigned e i (Some x) <> Some y).
      { intros y. unfold assigned. destruct e; try discriminate; match goal with |- context [?k =? i] => destruct (Z.eqb_spec k i); [contradiction|discriminate] end. }
      assert (X : w1 = Some x /\ (t = None -> t1 = None)).
      { inversion L; subst; try (split; [reflexivity|]; auto; intros; discriminate); exfalso; try (eapply NA; eassumption). cbn in Fe. destruct Fe; congruence. }
      destruct X as [-> Ht]. destruct (IH s3 o3 (l ++ [e]) s1 (o ++ o1) t1 R' V1 R3 Fl) as (t2 & V2 & Ht2). exists t2. split; [exact V2|]. auto.
  Qed.

  (** Uplink: a message or timer that is not for an uplink TBF leaves it alone ... *)
  Theorem C45_isolation l s o e s' o' i j b : srun rb bs cs0 sys0 l = Ok (s, o) -> sstep rb bs cs0 s e = Ok (s', o') ->
    uplink s i j b -> (forall ts fn usf enc data, e <> Rts ts fn usf enc data) -> e <> DelGre i -> for_ul e i b = None -> uplink s' i j b.
  Proof.
    intros R E V NR ND Hf. pose proof (srun_inv rb Hrb bs cs0 l sys0 s o inv0 R) as I. pose proof (sstep_inv rb Hrb bs cs0 s e s' o' I E) as I'.
    apply uview_uplink in V; [|exact I]. apply uview_uplink; [exact I'|].
    destruct (event_reaches rb bs cs0 s e (inv_uid s I)) as [(og & e' & Re & Es & _)|Ho].
    - rewrite Es in E. rewrite <- V. apply (ul_event_uview rb bs s e og e' s' o' i j b (inv_uid s I) Re E V). exact Hf.
    - rewrite <- V. apply (step_other_ul rb bs cs0 s e s' o' i (j, b) I E); [|exact ND|exact V]. destruct e; try exact Ho. exact (NR _ _ _ _ _ eq_refl).
  Qed.
  (** ... and one that is for it, and for no other, is handled by it. *)
  Theorem C45_delivered l s o e s' o' i j b e' : srun rb bs cs0 sys0 l = Ok (s, o) -> sstep rb bs cs0 s e = Ok (s', o') ->
    uplink s i j b -> for_ul e i b = Some e' -> (forall i2 j2 b2, uplink s i2 j2 b2 -> for_ul e i2 b2 <> None -> i2 = i) ->
    exists r o1, UlTbfModel.step bs b e' = Ok (r, o1) /\ (forall y, In y o1 -> In (UlDid j y) o') /\
      match r with Some b' => uplink s' i j b' | None => forall j' b', ~ uplink s' i j' b' end.
  Proof.
    intros R E V Hf Hu. pose proof (srun_inv rb Hrb bs cs0 l sys0 s o inv0 R) as I. pose proof (sstep_inv rb Hrb bs cs0 s e s' o' I E) as I'.
    apply uview_uplink in V; [|exact I]. destruct (event_reaches rb bs cs0 s e (inv_uid s I)) as [(og & e2 & Re & Es & Hx)|Ho]; [|destruct e; try discriminate Hf; destruct Ho].
    rewrite Es in E. rewrite (Hx _ _ _ Hf). destruct (ul_event_uview rb bs s e og e2 s' o' i j b (inv_uid s I) Re E V) as [_ P].
    destruct P as (r & o1 & P1 & P2 & P3); [congruence|intros i2 j2 b2 V2; apply (Hu i2 j2 b2); now apply uview_uplink|].
    exists r, o1. split; [exact P1|]. split; [exact P2|]. destruct r as [b'|]; [now apply uview_uplink|]. intros j' b' V'. apply uview_uplink in V'; [|exact I']. congruence.
  Qed.
End Theorems.

(** ---------- what is not so ---------- *)
(** The TFI of a downlink TBF is unique only on its timeslots, but the timeslot is not looked at: a data block on
    timeslot 5 reaches the TBF with the same TFI on timeslot 2 and not the one that has timeslot 5. *)
Definition twins : list sevent :=
  [NewGre; NewGre; DlPktAss 1 2 100 None (Some 7) None (upd no_dl_slots 2 true) false; DlPktAss 2 5 104 None (Some 7) None (upd no_dl_slots 5 true) false].
Theorem C42_timeslot_refuted : exists s o s' o' d1 d2,
  go twins = Ok (s, o) /\ entity s 1 (Some d1) None /\ entity s 2 (Some d2) None /\ nth 5 (d_slots d1) true = false /\ nth 5 (d_slots d2) false = true /\
  sstep plain 15 1 s (DlData 5 7 true (Some 121)) = Ok (s', o') /\ entity s' 2 (Some d2) None /\ d_fin d2 = false /\
  (exists d1', entity s' 1 (Some d1') None /\ d_fin d1' = true) /\ In (mkNode 121 3 (d_id d1)) (inorder (tree_of s' 5)).
Proof.
  destruct (go twins) as [[s o]|?|] eqn:E; [|vm_compute in E; discriminate..].
  destruct (sstep plain 15 1 s (DlData 5 7 true (Some 121))) as [[s' o']|?|] eqn:E2; [|vm_compute in E; injection E as <- _; vm_compute in E2; discriminate..].
  vm_compute in E. injection E as <- _. vm_compute in E2. injection E2 as <- _.
  eexists _, _, _, _, _, _. split; [reflexivity|]. split; [eexists; split; [left; reflexivity|repeat split]|]. split; [eexists; split; [right; left; reflexivity|repeat split]|].
  split; [reflexivity|]. split; [reflexivity|]. split; [vm_compute; reflexivity|]. split; [eexists; split; [right; left; reflexivity|repeat split]|]. split; [reflexivity|].
  split; [eexists; split; [eexists; split; [left; reflexivity|repeat split]|reflexivity]|]. vm_compute. tauto.
Qed.

(** A TBF that still waits for its assignment has TFI 0 as far as the search is concerned: the Packet Uplink Ack/Nack,
    with a poll, for the TBF of another entity that was assigned TFI 0 is lost on it. *)
Definition waiting : list sevent :=
  [NewGre; NewGre; Enqueue 2 true; UlImmAss 3 100 (IaDynamic 0 1 0 None); Rts 3 117 1 all_ok (Some (false, false, true)); Enqueue 1 true].
Theorem C45_unassigned_refuted : exists s o s' o' b1 b2,
  go waiting = Ok (s, o) /\ uplink s 1 4 b1 /\ u b1 = WAIT_ASSIGN /\ uplink s 2 3 b2 /\ u b2 = FLOW /\ ul_tfi (cur b2) = 0 /\ slot (cur b2) 3 = Some 1 /\
  sstep plain 15 1 s (UlAckNack 3 0 (Some 413) false false 0) = Ok (s', o') /\ uplink s' 2 3 b2 /\ inorder (tree_of s' 3) = [].
Proof.
  destruct (go waiting) as [[s o]|?|] eqn:E; [|vm_compute in E; discriminate..].
  destruct (sstep plain 15 1 s (UlAckNack 3 0 (Some 413) false false 0)) as [[s' o']|?|] eqn:E2; [|vm_compute in E; injection E as <- _; vm_compute in E2; discriminate..].
  vm_compute in E. injection E as <- _. vm_compute in E2. injection E2 as <- _.
  eexists _, _, _, _, _, _. split; [reflexivity|]. split; [eexists; split; [left; reflexivity|split; reflexivity]|]. split; [reflexivity|]. split; [eexists; split; [right; left; reflexivity|split; reflexivity]|].
  split; [reflexivity|]. split; [reflexivity|]. split; [reflexivity|]. split; [vm_compute; reflexivity|]. split; [eexists; split; [right; left; reflexivity|split; reflexivity]|reflexivity].
Qed.

(** ---------- the hypotheses are met ---------- *)
(** A downlink TBF from its assignment for a later frame to its end: it starts (Rts 0 117), receives, sends the final
    acknowledgement (Rts 3 317), and T3192 expires. *)
Definition downlink : list sevent :=
  [NewGre; DlPktAss 1 3 100 None (Some 7) (Some 117) (upd no_dl_slots 3 true) false; Rts 0 117 0 all_ok None; DlData 3 7 false None; DlData 3 7 true (Some 317); Rts 3 317 0 all_ok None; DlT3192 1].
Example C42_nonvacuous :
  match go (firstn 2 downlink), go (firstn 3 downlink), go (firstn 5 downlink), go (firstn 6 downlink), go downlink with
  | Ok (s2, _), Ok (s3, _), Ok (s5, _), Ok (s6, o6), Ok (s7, _) =>
      entity s2 1 None (Some (mkWait 117 7 (upd no_dl_slots 3 true))) /\
      entity s3 1 (Some (mkDl 2 false 7 (upd no_dl_slots 3 true) true false)) None /\
      entity s5 1 (Some (mkDl 2 true 7 (upd no_dl_slots 3 true) true false)) None /\
      entity s6 1 (Some (mkDl 2 true 7 (upd no_dl_slots 3 true) false true)) None /\ In (3, 317, BDlAck 2 true false) (blocks o6) /\ entity s7 1 None None
  | _, _, _, _, _ => False
  end.
Proof. vm_compute. repeat split; try (eexists; split; [left; reflexivity|repeat split]). tauto. Qed.
(** An assignment for later, and the indications of its own timeslot, in and after the frame of its starting time. *)
Example C42_nonvacuous_waits :
  match go (firstn 2 downlink ++ [Rts 3 117 0 all_ok None; Rts 3 121 0 all_ok None; Rts 0 121 0 all_ok None; DlData 3 7 false None]) with
  | Ok (s, _) => entity s 1 None (Some (mkWait 117 7 (upd no_dl_slots 3 true)))
  | _ => False
  end.
Proof. vm_compute. eexists; split; [left; reflexivity|repeat split]. Qed.
(** Two uplink TBFs in transfer with TFIs 5 and 6: an acknowledgement for the second. *)
Definition two_uplinks : list sevent :=
  [NewGre; NewGre; Enqueue 1 true; UlImmAss 3 100 (IaDynamic 5 1 0 None); Enqueue 2 true; UlImmAss 4 104 (IaDynamic 6 2 0 None);
   Rts 3 117 1 all_ok (Some (false, false, true)); Rts 4 117 2 all_ok (Some (true, true, true))].
Example C45_nonvacuous :
  match go two_uplinks with
  | Ok (s, _) => match sstep plain 15 1 s (UlAckNack 4 6 (Some 413) true false 0) with
                 | Ok (s', _) => (exists b, uplink s 1 3 b /\ for_ul (UlAckNack 4 6 (Some 413) true false 0) 1 b = None /\ uplink s' 1 3 b) /\
                     (exists b b', uplink s 2 4 b /\ for_ul (UlAckNack 4 6 (Some 413) true false 0) 2 b <> None /\ uplink s' 2 4 b' /\ u b <> u b') /\
                     inorder (tree_of s' 4) = [mkNode 413 2 4]
                 | _ => False
                 end
  | _ => False
  end.
Proof.
  vm_compute. split; [|split; [|reflexivity]].
  - eexists. split; [eexists; split; [left; reflexivity|split; reflexivity]|]. split; [reflexivity|]. eexists; split; [left; reflexivity|split; reflexivity].
  - eexists _, _. split; [eexists; split; [right; left; reflexivity|split; reflexivity]|]. split; [discriminate|]. split; [eexists; split; [right; left; reflexivity|split; reflexivity]|]. discriminate.
Qed.

Print Assumptions C42_life.
Print Assumptions C42_entities.
Print Assumptions C42_supervised.
Print Assumptions C42_ends.
Print Assumptions C42_polls.
Print Assumptions C42_never_starts_refuted.
Print Assumptions C42_timeslot_refuted.
Print Assumptions C45_isolation.
Print Assumptions C45_delivered.
Print Assumptions C45_unassigned_refuted.
