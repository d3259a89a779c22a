(** * Proofs for C42 and C45: what every event does to the downlink TBFs, and which uplink TBF a message reaches *)
From Verif.Lib Require Import Base Outcome.
From Verif.Rlcmac Require Import FnModel UlcModel UlcProperties UlTbfModel UlTbfSpec UlTbfProperties SchedModel SchedSpec SchedProofs SchedRuns SchedDlSpec.

(** The downlink side of an entity. *)
Definition side (g : gre) : option dl_tbf * option dl_wait := (g_dl g, g_ass g).
Definition view (s : sys) (k : Z) : option (option dl_tbf * option dl_wait) := option_map side (find_gre s k).
Definition ids (s : sys) : list Z := map g_id (gres s).

Lemma ids_set s g : ids (set_gre s g) = ids s.
Proof.
  unfold ids, set_gre. cbn [gres]. rewrite map_map. apply map_ext. intros x. destruct (Z.eqb_spec (g_id x) (g_id g)) as [E|_]; [auto|reflexivity].
Qed.
Lemma find_set_gen l g k : find (fun x => g_id x =? k) (map (fun x => if g_id x =? g_id g then g else x) l) =
  option_map (fun x => if g_id x =? g_id g then g else x) (find (fun x => g_id x =? k) l).
Proof.
  induction l as [|x l IH]; [reflexivity|]. cbn [map find]. destruct (Z.eqb_spec (g_id x) (g_id g)) as [E|N].
  - destruct (Z.eqb_spec (g_id g) k), (Z.eqb_spec (g_id x) k); try (exfalso; lia); cbn [option_map]; [|exact IH]. now rewrite E, Z.eqb_refl.
  - destruct (g_id x =? k); cbn [option_map]; [|exact IH]. destruct (Z.eqb_spec (g_id x) (g_id g)); [contradiction|reflexivity].
Qed.
Lemma find_set s g k : find_gre (set_gre s g) k = option_map (fun x => if g_id x =? g_id g then g else x) (find_gre s k).
Proof. apply find_set_gen. Qed.
Lemma find_gre_id s k g : find_gre s k = Some g -> g_id g = k.
Proof. intros H. apply find_gre_in in H. tauto. Qed.
Lemma find_set_is s g g0 k : find_gre s (g_id g) = Some g0 -> find_gre (set_gre s g) k = if k =? g_id g then Some g else find_gre s k.
Proof.
  intros H. rewrite find_set. destruct (Z.eqb_spec k (g_id g)) as [->|N].
  - rewrite H. cbn [option_map]. apply find_gre_id in H. now rewrite H, Z.eqb_refl.
  - destruct (find_gre s k) as [x|] eqn:E; [|reflexivity]. cbn [option_map]. apply find_gre_id in E. destruct (Z.eqb_spec (g_id x) (g_id g)); [congruence|reflexivity].
Qed.
Lemma view_set s g g0 k : find_gre s (g_id g) = Some g0 -> view (set_gre s g) k = if k =? g_id g then Some (side g) else view s k.
Proof. intros H. unfold view. rewrite (find_set_is s g g0 k H). now destruct (k =? g_id g). Qed.
Lemma uid_find s g : NoDup (ids s) -> In g (gres s) -> find_gre s (g_id g) = Some g.
Proof.
  unfold ids, find_gre. induction (gres s) as [|x l IH]; intros N []; cbn [find map] in *.
  - subst. now rewrite Z.eqb_refl.
  - apply NoDup_cons_iff in N as [N1 N2]. destruct (Z.eqb_spec (g_id x) (g_id g)) as [E|_]; [|auto]. exfalso. apply N1. rewrite E. now apply in_map.
Qed.
Lemma inv_uid s : Inv s -> NoDup (ids s).
Proof.
  intros (N & _). unfold ids. induction (gres s) as [|x l IH]; [constructor|]. cbn [map]. unfold all_ids in N. cbn [flat_map] in N. fold (all_ids l) in N.
  apply nodup_app in N as (_ & N2 & N3). constructor; [|exact (IH N2)]. rewrite in_map_iff. intros (y & E & Hy).
  apply (N3 (g_id x)); [apply in_gre_ids; now left|]. apply in_all_ids. exists y. split; [exact Hy|]. apply in_gre_ids. left. congruence.
Qed.
Lemma view_ext s s' k : gres s' = gres s -> view s' k = view s k.
Proof. unfold view, find_gre. now intros ->. Qed.

(** The downlink sides are untouched. *)
Definition still (s s' : sys) : Prop := ids s' = ids s /\ next s <= next s' /\ forall k, view s' k = view s k.
Lemma still_refl s s' : gres s' = gres s -> next s <= next s' -> still s s'.
Proof. intros E N. split; [unfold ids; now rewrite E|]. split; [exact N|]. intros k. now apply view_ext. Qed.
Lemma still_trans s1 s2 s3 : still s1 s2 -> still s2 s3 -> still s1 s3.
Proof. intros (A & B & C) (A2 & B2 & C2). split; [congruence|]. split; [lia|]. intros k. now rewrite C2, C. Qed.
Lemma still_set s g g0 : find_gre s (g_id g) = Some g0 -> side g = side g0 -> still s (set_gre s g).
Proof.
  intros H E. split; [apply ids_set|]. split; [cbn; lia|]. intros k. rewrite (view_set s g g0 k H). destruct (Z.eqb_spec k (g_id g)) as [->|_]; [|reflexivity].
  unfold view. rewrite H. cbn [option_map]. now rewrite E.
Qed.
Lemma find_same_gres s s' k : gres s' = gres s -> find_gre s' k = find_gre s k.
Proof. unfold find_gre. now intros ->. Qed.

Section Dl.
  Variable rb : rb_ops.
  Variable bs cs0 : Z.
  Lemma reserve_outs_gres who o : forall s, gres (reserve_outs rb s who o) = gres s /\ next (reserve_outs rb s who o) = next s.
  Proof. induction o as [|x o IH]; intros s; [auto|]. destruct x; try exact (IH s). cbn [reserve_outs]. destruct (IH (reserve_at rb s tn fn reason who)) as [-> ->]. auto. Qed.
  Lemma ul_result_still s0 s g i x s' o : gres s = gres s0 -> next s0 <= next s -> find_gre s0 (g_id g) = Some g -> ul_result rb s g i x = Ok (s', o) ->
    still s0 s' /\ next s' = next s.
  Proof.
    intros Eg En Hg. unfold ul_result. destruct x as [[st o1]|?|]; cbn [bind fst snd]; try discriminate.
    destruct (reserve_outs_gres i o1 s) as [R1 R2]. destruct st as [b|]; intros [= <- _]; (split; [|cbn; congruence]).
    - eapply still_trans; [apply (still_refl s0 (reserve_outs rb s i o1)); [congruence|rewrite R2; exact En]|].
      apply still_set with (g0 := g); [|reflexivity]. rewrite (find_same_gres s0) by congruence. exact Hg.
    - eapply still_trans; [apply (still_refl s0 (release_all rb (reserve_outs rb s i o1) i)); [cbn; congruence|cbn; rewrite R2; exact En]|].
      apply still_set with (g0 := g); [|reflexivity]. rewrite (find_same_gres s0) by (cbn; congruence). exact Hg.
  Qed.
  Lemma dl_complete_view s g tfi sl s' o : find_gre s (g_id g) = Some g -> dl_complete rb s g tfi sl = (s', o) ->
    ids s' = ids s /\ next s' = next s + 1 /\ o = [DlConfigure (next s) tfi sl] /\
    forall k, view s' k = if k =? g_id g then Some (Some (mkDl (next s) false tfi sl true false), None) else view s k.
  Proof.
    intros H. unfold dl_complete. cbv zeta. set (s1 := match g_dl g with Some d => release_all rb (alloc_id s) (d_id d) | None => alloc_id s end).
    assert (E : gres s1 = gres s /\ next s1 = next s + 1) by (unfold s1; destruct (g_dl g); cbn; auto). destruct E as [E1 E2]. intros [= <- <-].
    split; [rewrite ids_set; unfold ids; now rewrite E1|]. split; [cbn; exact E2|]. split; [reflexivity|]. intros k.
    rewrite (view_set s1 _ g) by (cbn; rewrite (find_same_gres s); assumption). cbn [g_id with_ass with_dl]. destruct (k =? g_id g); [reflexivity|now apply view_ext].
  Qed.
  Lemma dl_free_view s g d s' o : find_gre s (g_id g) = Some g -> g_dl g = Some d -> dl_free rb s g = (s', o) ->
    ids s' = ids s /\ next s' = next s /\ forall k, view s' k = if k =? g_id g then Some (None, g_ass g) else view s k.
  Proof.
    intros H Ed. unfold dl_free. rewrite Ed. intros [= <- _]. split; [now rewrite ids_set|]. split; [reflexivity|]. intros k.
    rewrite (view_set _ _ g) by exact H. cbn [g_id with_dl]. destruct (k =? g_id g); [reflexivity|now apply view_ext].
  Qed.

  (** *** The ticks *)
  Definition starts (v : option (option dl_tbf * option dl_wait)) (ts fn : Z) : option dl_wait :=
    match v with Some (_, Some w) => if (fn =? w_start w) && (ts =? 0) then Some w else None | _ => None end.
  Definition ticked1 (s s' : sys) (o : list sout) (ts fn k : Z) : Prop :=
    match starts (view s k) ts fn with
    | Some w => exists j, next s <= j /\ In (DlConfigure j (w_tfi w) (w_slots w)) o /\ view s' k = Some (Some (mkDl j false (w_tfi w) (w_slots w) true false), None)
    | None => view s' k = view s k
    end.
  Lemma tick_gre_view s i ts fn s' o : tick_gre rb s i ts fn = Ok (s', o) ->
    ids s' = ids s /\ next s <= next s' /\ ticked1 s s' o ts fn i /\ forall k, k <> i -> view s' k = view s k.
  Proof.
    unfold tick_gre. destruct (find_gre s i) as [g|] eqn:F.
    2: { intros [= <- <-]. split; [reflexivity|]. split; [lia|]. split; [|reflexivity]. unfold ticked1, view. rewrite F. reflexivity. }
    pose proof (find_gre_id _ _ _ F) as Hid.
    set (m := match g_ul g with Some (j, b) => _ | None => _ end). destruct m as [[s1 o1]|?|] eqn:Em; cbn [bind fst snd]; try discriminate. subst m.
    assert (S1 : still s s1).
    { destruct (g_ul g) as [[j b]|]; [|injection Em as <- _; apply still_refl; [reflexivity|lia]]. rewrite <- Hid in F. exact (proj1 (ul_result_still s s g j _ s1 o1 eq_refl ltac:(lia) F Em)). }
    destruct S1 as (I1 & N1 & V1). destruct (find_gre s1 i) as [g1|] eqn:F1.
    2: { exfalso. specialize (V1 i). unfold view in V1. rewrite F, F1 in V1. discriminate. }
    pose proof (find_gre_id _ _ _ F1) as Hid1. destruct (dl_tick rb s1 g1 ts fn) as [s2 o2] eqn:Et. cbn [fst snd]. intros [= <- <-].
    assert (Vi : view s i = Some (side g1)) by (rewrite <- V1; unfold view; rewrite F1; reflexivity).
    unfold side in Vi. unfold ticked1. rewrite Vi. unfold starts. unfold dl_tick in Et. destruct (g_ass g1) as [w|].
    2: { injection Et as <- <-. split; [exact I1|]. split; [exact N1|]. split; [rewrite V1; exact Vi|]. intros k _. apply V1. }
    destruct (Z.eqb_spec fn (w_start w)); cbn [negb orb andb] in *.
    2: { injection Et as <- <-. split; [exact I1|]. split; [exact N1|]. split; [rewrite V1, Vi; reflexivity|]. intros k _. apply V1. }
    destruct (Z.eqb_spec ts 0); cbn [negb] in *.
    2: { injection Et as <- <-. split; [exact I1|]. split; [exact N1|]. split; [rewrite V1, Vi; reflexivity|]. intros k _. apply V1. }
    rewrite <- Hid1 in F1. destruct (dl_complete_view s1 g1 (w_tfi w) (w_slots w) s2 o2 F1 Et) as (I2 & N2 & O2 & V2).
    split; [congruence|]. split; [lia|]. split.
    - exists (next s1). split; [lia|]. split; [rewrite O2, in_app_iff; right; now left|]. rewrite V2, Hid1, Z.eqb_refl. reflexivity.
    - intros k Hk. rewrite V2, Hid1. destruct (Z.eqb_spec k i); [contradiction|apply V1].
  Qed.
  Lemma tick_view l ts fn : forall s s' o, NoDup l -> tick rb s l ts fn = Ok (s', o) ->
    ids s' = ids s /\ next s <= next s' /\ (forall k, In k l -> ticked1 s s' o ts fn k) /\ forall k, ~ In k l -> view s' k = view s k.
  Proof.
    induction l as [|i l IH]; intros s s' o N; cbn [tick].
    - intros [= <- <-]. split; [reflexivity|]. split; [lia|]. split; [intros k []|reflexivity].
    - apply NoDup_cons_iff in N as [Ni N]. destruct (tick_gre rb s i ts fn) as [[s1 o1]|?|] eqn:E1; cbn [bind fst snd]; try discriminate.
      destruct (tick rb s1 l ts fn) as [[s2 o2]|?|] eqn:E2; cbn [bind fst snd]; try discriminate. intros [= <- <-].
      destruct (tick_gre_view _ _ _ _ _ _ E1) as (A1 & A2 & A3 & A4). destruct (IH _ _ _ N E2) as (B1 & B2 & B3 & B4).
      split; [congruence|]. split; [lia|]. split.
      + intros k [<-|Hk].
        * unfold ticked1 in *. rewrite (B4 i Ni). destruct (starts (view s i) ts fn) as [w|]; [|exact A3]. destruct A3 as (j & H1 & H2 & H3). exists j. split; [exact H1|]. split; [apply in_app_iff; now left|exact H3].
        * specialize (B3 k Hk). unfold ticked1 in *. rewrite (A4 k) in B3 by (intros ->; contradiction). destruct (starts (view s k) ts fn) as [w|]; [|exact B3].
          destruct B3 as (j & H1 & H2 & H3). exists j. split; [lia|]. split; [apply in_app_iff; now right|exact H3].
      + intros k Hk. rewrite B4 by (intros H; apply Hk; now right). apply A4. intros ->. apply Hk. now left.
  Qed.

  (** *** The choice of a block *)
  Definition acked (s s' : sys) (b : option blk) : Prop :=
    match b with
    | Some (BDlAck j true _) => ids s' = ids s /\ exists k d w, view s k = Some (Some d, w) /\ d_id d = j /\ d_fin d = true /\
        forall k', view s' k' = if k' =? k then Some (Some (mkDl (d_id d) true (d_tfi d) (d_slots d) false true), w) else view s k'
    | _ => still s s'
    end.
  Lemma acked_still s s' b : (forall j r, b <> Some (BDlAck j true r)) -> still s s' -> acked s s' b.
  Proof. intros H S. unfold acked. destruct b as [[j [] r| | | |]|]; try exact S. now destruct (H j r). Qed.
  Lemma still_acked s1 s2 s3 b : still s1 s2 -> acked s2 s3 b -> acked s1 s3 b.
  Proof.
    intros S. assert (X : still s2 s3 -> still s1 s3) by (intros; eapply still_trans; eassumption). unfold acked.
    destruct b as [[j [] r| | | |]|]; try exact X. intros (I & k & d & w & V & H1 & H2 & H3). destruct S as (I1 & _ & V1).
    split; [congruence|]. exists k, d, w. rewrite <- V1. split; [exact V|]. split; [exact H1|]. split; [exact H2|]. intros k'. rewrite H3, V1. reflexivity.
  Qed.
  Lemma orelse_acked s x k s' o b : (forall s1 o1 b1, x = Ok (s1, o1, b1) -> acked s s1 b1) ->
    (forall s1 s2 o2 b2, still s s1 -> k s1 = Ok (s2, o2, b2) -> acked s1 s2 b2) -> orelse x k = Ok (s', o, b) -> acked s s' b.
  Proof.
    intros Hx Hk. unfold orelse. destruct x as [[[s1 o1] b1]|?|]; cbn [bind]; try discriminate. specialize (Hx _ _ _ eq_refl).
    destruct b1 as [b1|]; [intros [= <- _ <-]; exact Hx|]. cbn [acked] in Hx. destruct (k s1) as [[[s2 o2] b2]|?|] eqn:E; cbn [bind]; try discriminate. intros [= <- _ <-].
    apply (still_acked _ s1); [exact Hx|]. exact (Hk _ _ _ _ Hx E).
  Qed.
  Lemma still_uid s s' : NoDup (ids s) -> still s s' -> NoDup (ids s').
  Proof. intros N (-> & _). exact N. Qed.

  Variable enc : encoding -> bool.
  Lemma create_dl_ack_acked s i ts ok s' o b : NoDup (ids s) -> create_dl_ack cs0 s i ts ok = Ok (s', o, b) -> acked s s' b.
  Proof.
    intros N. unfold create_dl_ack. destruct (find_dl s i) as [g|] eqn:F; [|discriminate]. apply find_dl_in in F as (Hg & d & Ed & Hd). rewrite Ed. cbv zeta.
    set (req := match g_ul g with None => g_q g | Some _ => false end).
    destruct (if req then _ else _) as [[s1 g1]|?|] eqn:E; cbn [bind]; try discriminate.
    assert (S1 : gres s1 = gres s /\ next s <= next s1 /\ g_id g1 = g_id g /\ side g1 = side g).
    { destruct req.
      - destruct (start cs0 (FromDownlink ts)) as [[[b0|] o0]|?|]; try discriminate. injection E as <- <-. cbn. repeat split; lia.
      - injection E as <- <-. repeat split; lia. }
    destruct S1 as (Eg & En & Hid & Hs). assert (F1 : find_gre s1 (g_id g) = Some g) by (rewrite (find_same_gres s) by exact Eg; now apply uid_find).
    assert (S1 : still s s1) by (now apply still_refl). assert (D1 : g_dl g1 = Some d /\ g_ass g1 = g_ass g) by (unfold side in Hs; split; congruence). destruct D1 as [D1 D2].
    destruct ok; intros [= <- _ <-].
    - destruct (d_fin d) eqn:Ef.
      + split; [rewrite ids_set; apply S1|]. exists (g_id g), d, (g_ass g). split; [unfold view; rewrite uid_find by assumption; cbn; unfold side; now rewrite Ed|]. split; [exact Hd|]. split; [exact Ef|].
        intros k'. rewrite (view_set s1 _ g) by (cbn [g_id with_dl]; rewrite Hid; exact F1). cbn [g_id with_dl]. rewrite Hid. destruct (k' =? g_id g); [|now apply view_ext].
        unfold side. cbn [g_dl g_ass with_dl]. now rewrite D2.
      + eapply still_trans; [exact S1|]. apply still_set with (g0 := g); [cbn [g_id with_dl]; rewrite Hid; exact F1|]. unfold side. cbn [g_dl g_ass with_dl]. now rewrite Ed, D2.
    - eapply still_trans; [exact S1|]. apply still_set with (g0 := g); [rewrite Hid; exact F1|exact Hs].
  Qed.
  Lemma create_ass_still s i ok s' o b : NoDup (ids s) -> create_ass s i ok = Ok (s', o, b) -> still s s' /\ forall j f r, b <> Some (BDlAck j f r).
  Proof.
    intros N. unfold create_ass. destruct (find_ul s i) as [g|] eqn:F; [|discriminate]. apply find_ul_in in F as (Hg & t & Et). rewrite Et.
    destruct (create_rlcmac_msg t ok) as [[[t'|] o1]|?|]; cbn [bind fst snd]; try discriminate. intros [= <- _ <-]. split.
    - apply still_set with (g0 := g); [exact (uid_find _ g ltac:(eassumption) Hg)|reflexivity].
    - intros j f r. unfold ass_blk. destruct o1 as [|[] ?]; discriminate.
  Qed.
  Lemma select_acked s ts fn usf data s' o b : NoDup (ids s) -> select rb bs cs0 enc s ts fn usf data = Ok (s', o, b) -> acked s s' b.
  Proof.
    intros N. unfold select. destruct (candidates rb s ts fn usf) as [[[s1 c] ass]|?|] eqn:Ec; cbn [bind]; try discriminate.
    assert (S1 : still s s1).
    { unfold candidates in Ec. destruct (get_node (tree_of s ts) fn) as [n|]; cbn [bind] in Ec.
      - destruct (candidate s n) as [c0|?|]; cbn [bind fst snd] in Ec; try discriminate. injection Ec as <- _ _. apply still_refl; [reflexivity|cbn; lia].
      - injection Ec as <- _ _. apply still_refl; [reflexivity|lia]. }
    intros E. apply (still_acked s s1); [exact S1|]. assert (N1 := still_uid _ _ N S1). revert E. apply orelse_acked.
    - intros s2 o2 b2. unfold select_ctrl.
      assert (Nil : forall sa sb (ob : list sout) bb, Ok (sa, [], None) = Ok (sb, ob, bb) -> acked sa sb bb) by (intros sa sb ob bb [= <- _ <-]; apply still_refl; [reflexivity|lia]).
      assert (Ctl : forall sa og sb ob bb, ctrl_ack enc sa og = Ok (sb, ob, bb) -> acked sa sb bb).
      { intros sa og sb ob bb. unfold ctrl_ack. destruct og as [g|]; [|discriminate]. intros [= <- _ <-]. apply acked_still; [destruct (enc EPoll); discriminate|]. apply still_refl; [reflexivity|lia]. }
      assert (Ass : forall sa i ok sb ob bb, NoDup (ids sa) -> create_ass sa i ok = Ok (sb, ob, bb) -> acked sa sb bb).
      { intros sa i ok sb ob bb Na E. destruct (create_ass_still _ _ _ _ _ _ Na E) as [H1 H2]. apply acked_still; [intros; apply H2|exact H1]. }
      assert (New : forall sa c sb ob bb, NoDup (ids sa) -> try_ul_ack_new rb cs0 enc sa c ts fn usf = Ok (sb, ob, bb) -> acked sa sb bb).
      { intros sa c0 sb ob bb Na. unfold try_ul_ack_new. destruct c0 as [[| i| | | |]|]; try apply Nil. destruct (find_ul sa i) as [g|] eqn:F; [|discriminate]. apply find_ul_in in F as (Hg & t & Et). rewrite Et.
        destruct (start cs0 _) as [[[b0|] o0]|?|]; try discriminate. cbv zeta. destruct (negb _); [discriminate|]. intros E.
        assert (S : still sa (set_gre (release_all rb (alloc_id sa) i) (with_ul g (Some (next sa, b0))))).
        { eapply still_trans; [apply (still_refl sa (release_all rb (alloc_id sa) i)); [reflexivity|cbn; lia]|]. apply still_set with (g0 := g); [|reflexivity]. cbn [g_id with_ul]. rewrite (find_same_gres sa) by reflexivity. now apply uid_find. }
        apply (still_acked _ _ _ _ S). eapply Ass; [|exact E]. exact (still_uid _ _ Na S). }
      destruct c as [[d|i|i|g|i|d]|]; try apply Ctl;
        (apply orelse_acked; [intros sa oa ba E; first [exact (Nil _ _ _ _ E)|exact (create_dl_ack_acked _ _ _ _ _ _ _ N1 E)]|]; intros sa sb ob bb Sa; assert (Na := still_uid _ _ N1 Sa);
         apply orelse_acked; [intros ? ? ?; exact (New sa _ _ _ _ Na)|]; intros sc sd od bd Sc; assert (Nc := still_uid _ _ Na Sc);
         apply orelse_acked; [intros se oe be E; first [exact (Nil _ _ _ _ E)|exact (Ctl _ _ _ _ _ E)]|]; intros sf sg og bg Sf; assert (Nf := still_uid _ _ Nc Sf);
         apply orelse_acked; [intros sh oh bh E; first [exact (Nil _ _ _ _ E)|exact (Ass _ _ _ _ _ _ Nf E)]|]; intros si sj oj bj Si; assert (Ni := still_uid _ _ Nf Si);
         apply orelse_acked; [intros sk ok bk E; unfold try_ul_ass in E; destruct ass; first [exact (Nil _ _ _ _ E)|exact (Ass _ _ _ _ _ _ Ni E)]|]; intros sl sm om bm Sl; assert (Nl := still_uid _ _ Ni Sl);
         intros E; unfold try_dl_ack in E; first [exact (Nil _ _ _ _ E)|exact (create_dl_ack_acked _ _ _ _ _ _ _ Nl E)]).
    - intros s2 s3 o3 b3 S2. assert (N2 := still_uid _ _ N1 S2). apply orelse_acked.
      + intros s4 o4 b4. unfold select_data. destruct (find (wants_data ts usf) (gres s2)) as [g|] eqn:F; [|intros [= <- _ <-]; apply still_refl; [reflexivity|lia]].
        apply find_some in F as [Hg _]. destruct data as [[[final cd] rach]|]; [|intros [= <- _ <-]; apply still_refl; [reflexivity|lia]].
        destruct (g_ul g) as [[i t]|]; [|discriminate]. destruct (ul_result rb s2 g i _) as [[s5 o5]|?|] eqn:E; cbn [bind fst snd]; try discriminate. intros [= <- _ <-].
        apply acked_still; [discriminate|]. refine (proj1 (ul_result_still s2 s2 g i _ s5 o5 eq_refl _ _ E)); [lia|now apply uid_find].
      + intros s4 s5 o5 b5 S4. assert (N4 := still_uid _ _ N2 S4). unfold select_dummy. destruct (find _ (gres s4)) as [g|] eqn:F; [|intros [= <- _ <-]; apply still_refl; [reflexivity|lia]].
        apply find_some in F as [Hg _]. destruct (g_ul g) as [[i t]|]; [|discriminate]. destruct (enc EDummy); intros [= <- _ <-]; [|apply still_refl; [reflexivity|lia]].
        apply acked_still; [discriminate|]. apply still_set with (g0 := g); [exact (uid_find _ g ltac:(eassumption) Hg)|reflexivity].
  Qed.
End Dl.
