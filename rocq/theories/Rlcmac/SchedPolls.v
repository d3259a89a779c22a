(** * Polls are remembered until their frame (C46) *)
From Verif.Lib Require Import Base Outcome.
From Verif.Rlcmac Require Import FnModel UlcModel UlcProperties UlTbfModel UlTbfSpec UlTbfProofs UlTbfProperties SchedModel SchedSpec SchedProofs SchedRuns SchedProperties SchedDlSpec SchedDlProofs SchedDlProperties SchedPollSpec.

(** *** Trees: what stays *)
Lemma link_none t it : link t it = None -> exists n, In n (inorder t) /\ n_fn n = n_fn it.
Proof.
  induction t as [|l IHl x r IHr]; cbn [link inorder]; [discriminate|]. destruct (fncmp (n_fn it) (n_fn x) <? 0) eqn:E1.
  - destruct (link l it); [discriminate|]. intros _. destruct (IHl eq_refl) as (n & H & F). exists n. split; [apply in_app_iff; now left|exact F].
  - destruct (fncmp (n_fn it) (n_fn x) >? 0) eqn:E2.
    + destruct (link r it); [discriminate|]. intros _. destruct (IHr eq_refl) as (n & H & F). exists n. split; [apply in_app_iff; right; now right|exact F].
    + intros _. exists x. split; [apply in_app_iff; right; now left|]. symmetry. apply fncmp_eq. lia.
Qed.
Section Trees.
  Variable rb : rb_ops.
  Hypothesis Hrb : tree_library rb.
  Lemma erase_keep it t n : In it (inorder t) -> In n (inorder t) -> n <> it -> In n (inorder (rb_erase rb it t)).
  Proof.
    intros H Hn Ne. apply first_split in H as (l & r & E & H). rewrite (proj2 Hrb _ _ _ _ E H). rewrite E in Hn. rewrite in_app_iff in *. cbn [In] in Hn. destruct Hn as [?|[?|?]]; auto. congruence.
  Qed.
  Lemma release_keep t who n : In n (inorder t) -> n_who n <> who -> In n (inorder (release_tbf rb t who)).
  Proof.
    unfold release_tbf. generalize (S (length (inorder t))). intros fuel. revert t. induction fuel as [|fuel IH]; intros t H Hw; cbn [release_tbf_loop]; [exact H|].
    destruct (find _ (inorder t)) as [it|] eqn:Ef; [|exact H]. apply find_some in Ef as [Hin Hf]. apply IH; [|exact Hw]. unfold release_node. apply erase_keep; [exact Hin|exact H|]. intros ->. lia.
  Qed.
  Lemma expire_keep t fn n : In n (inorder t) -> 0 < fncmp (n_fn n) fn -> In n (inorder (expire_fn rb t fn)).
  Proof.
    unfold expire_fn. generalize (S (length (inorder t))). intros fuel. revert t. induction fuel as [|fuel IH]; intros t H Hw; cbn [expire_loop]; [exact H|].
    destruct (inorder t) as [|it l] eqn:E; [rewrite E; exact H|]. destruct (_ >? 0) eqn:Ef; [rewrite E; exact H|].
    apply IH; [|exact Hw]. apply erase_keep; [rewrite E; now left|rewrite E; exact H|]. intros ->. lia.
  Qed.
  Lemma reserve_keep t fn r w n : In n (inorder t) -> In n (inorder (snd (reserve rb t fn r w))).
  Proof.
    intros H. unfold reserve. destruct (link t _) as [t'|] eqn:E; cbn [snd]; [|exact H]. rewrite (proj1 Hrb). apply (link_in _ _ _ E). now left.
  Qed.
  Lemma reserve_made t fn r w : exists n, In n (inorder (snd (reserve rb t fn r w))) /\ n_fn n = fn /\ (In n (inorder t) \/ n = mkNode fn r w).
  Proof.
    unfold reserve. destruct (link t _) as [t'|] eqn:E; cbn [snd].
    - exists (mkNode fn r w). split; [rewrite (proj1 Hrb); apply (link_in _ _ _ E); now right|]. split; [reflexivity|now right].
    - apply link_none in E as (n & H & F). exists n. split; [exact H|]. split; [exact F|now left].
  Qed.

  (** *** The reservations of all timeslots *)
  Definition res_in (s : sys) (ts : Z) (n : node) : Prop := In n (inorder (tree_of s ts)).
  Definition more (s s' : sys) : Prop := forall ts n, res_in s ts n -> res_in s' ts n.
  Lemma set_tree_keep s ts t ts' n : res_in s ts' n -> (Z.to_nat ts' = Z.to_nat ts -> In n (inorder t)) -> res_in (set_tree s ts t) ts' n.
  Proof.
    unfold res_in, tree_of, set_tree. cbn [ulc]. intros H Ht. destruct (nth_upd (ulc s) (Z.to_nat ts) t (Z.to_nat ts') Leaf) as [->|(E & _ & ->)]; auto.
  Qed.
  Lemma reserve_at_more s ts fn r w : more s (reserve_at rb s ts fn r w).
  Proof. intros t n H. apply set_tree_keep; [exact H|]. intros E. apply reserve_keep. unfold res_in, tree_of in H. rewrite E in H. exact H. Qed.
  Lemma reserve_outs_more who o : forall s, more s (reserve_outs rb s who o).
  Proof. induction o as [|x o IH]; intros s; [intros t n H; exact H|]. destruct x; try exact (IH s). cbn [reserve_outs]. intros t n H. apply IH, reserve_at_more, H. Qed.
  Lemma release_all_keep s i ts n : res_in s ts n -> n_who n <> i -> res_in (release_all rb s i) ts n.
  Proof.
    unfold res_in, tree_of, release_all. cbn [ulc]. pose proof (map_nth (fun t => release_tbf rb t i) (ulc s) Leaf (Z.to_nat ts)) as M. cbv beta in M. change (release_tbf rb Leaf i) with Leaf in M.
    rewrite M. apply release_keep.
  Qed.
  Lemma reserve_at_made s ts fn r w : length (ulc s) = 8%nat -> 0 <= ts < 8 ->
    exists n, res_in (reserve_at rb s ts fn r w) ts n /\ n_fn n = fn /\ (res_in s ts n \/ n = mkNode fn r w).
  Proof.
    intros L Ht. destruct (reserve_made (tree_of s ts) fn r w) as (n & H1 & H2 & H3). exists n. split; [|split; [exact H2|exact H3]].
    unfold res_in, reserve_at, set_tree, tree_of at 1. cbn [ulc]. rewrite nth_upd_same by lia. exact H1.
  Qed.

  (** *** TBFs *)
  Definition T (s : sys) (j : Z) : Prop := exists g, In g (gres s) /\ In j (uls g ++ dls g).
  Lemma T_there s j : T s j <-> tbf_there s j.
  Proof.
    unfold T, tbf_there, hasU, hasD, uls, dls. split.
    - intros (g & Hg & Hj). apply in_app_iff in Hj as [Hj|Hj].
      + left. destruct (g_ul g) as [[i b]|] eqn:E; [|destruct Hj]. destruct Hj as [->|[]]. eauto.
      + right. destruct (g_dl g) as [d|] eqn:E; [|destruct Hj]. destruct Hj as [<-|[]]. eauto.
    - intros [(b & g & Hg & E)|(d & (g & Hg & E) & <-)]; exists g; (split; [exact Hg|]); rewrite E; apply in_app_iff; [left|right]; now left.
  Qed.
  Lemma T_ext s s' j : gres s' = gres s -> T s' j <-> T s j.
  Proof. unfold T. intros ->. reflexivity. Qed.
  Lemma T_set s s2 g j : gres s2 = gres s -> T (set_gre s2 g) j -> T s j \/ In j (uls g ++ dls g).
  Proof.
    intros E (x & Hx & Hj). unfold set_gre in Hx. cbn [gres] in Hx. apply in_map_iff in Hx as (y & Ey & Hy). rewrite E in Hy. destruct (g_id y =? g_id g); subst; [now right|left; exists x; auto].
  Qed.
  Lemma T_of s g j : In g (gres s) -> In j (uls g ++ dls g) -> T s j.
  Proof. exists g. auto. Qed.
  Definition small (s : sys) : Prop := forall ts n, res_in s ts n -> n_who n < next s.
  Lemma T_small s j : Inv s -> T s j -> j < next s.
  Proof.
    intros (_ & M & _) (g & Hg & Hj). rewrite Forall_forall in M. apply M, in_all_ids. exists g. split; [exact Hg|]. unfold gre_ids. now right.
  Qed.
  Lemma inv_small s : Inv s -> small s.
  Proof.
    intros I ts n H. pose proof I as (_ & _ & _ & _ & O). destruct (O ts n H) as [(_ & g & Hg & Hu)|[(_ & g & Hg & Hd)|(_ & L & _)]]; [| |exact L];
      apply (T_small s _ I); exists g; (split; [exact Hg|]); apply in_app_iff; auto.
  Qed.

  (** Reservations are lost only to [X], or with their TBF; TBFs that appear have new numbers. *)
  Definition kept (X : Z -> node -> Prop) (s s' : sys) : Prop :=
    (forall ts n, res_in s ts n -> res_in s' ts n \/ X ts n \/ (T s (n_who n) /\ ~ T s' (n_who n))) /\
    (forall j, T s' j -> T s j \/ next s <= j) /\ next s <= next s'.
  Lemma kept_trans X s1 s2 s3 : small s1 -> kept X s1 s2 -> kept X s2 s3 -> kept X s1 s3.
  Proof.
    intros S (A1 & A2 & A3) (B1 & B2 & B3). split; [|split; [|lia]].
    - intros ts n H. specialize (S ts n H). destruct (A1 ts n H) as [H1|[H1|[H1 H2]]]; [|auto|].
      + destruct (B1 ts n H1) as [H2|[H2|[H2 H3]]]; auto. right. right. split; [|exact H3]. destruct (A2 _ H2); [assumption|lia].
      + right. right. split; [exact H1|]. intros H3. destruct (B2 _ H3); [contradiction|lia].
    - intros j H. destruct (B2 j H) as [H1|H1]; [|right; lia]. exact (A2 j H1).
  Qed.
  Lemma kept_more X s s' : more s s' -> gres s' = gres s -> next s <= next s' -> kept X s s'.
  Proof. intros M G N. split; [auto|]. split; [|exact N]. intros j H. left. now apply (T_ext s s' j G). Qed.
  Lemma kept_refl X s : kept X s s.
  Proof. apply kept_more; [intros t n H; exact H|reflexivity|lia]. Qed.
  Lemma kept_weak (X Y : Z -> node -> Prop) s s' : (forall ts n, X ts n -> Y ts n) -> kept X s s' -> kept Y s s'.
  Proof. intros W (A & B & C). split; [|auto]. intros ts n H. destruct (A ts n H) as [?|[?|?]]; auto. Qed.
  Lemma kept_set X s s2 g : more s s2 -> gres s2 = gres s -> next s <= next s2 -> (forall j, In j (uls g ++ dls g) -> T s j \/ next s <= j) -> kept X s (set_gre s2 g).
  Proof.
    intros M G N Hj. split; [|split; [|exact N]].
    - intros ts n H. left. exact (M ts n H).
    - intros j H. apply (T_set s s2 g j G) in H as [H|H]; auto.
  Qed.
  Lemma T_gone s s2 g g' i : Inv s -> In g (gres s) -> gres s2 = gres s -> g_id g' = g_id g -> In i (uls g ++ dls g) -> ~ In i (uls g' ++ dls g') -> ~ T (set_gre s2 g') i.
  Proof.
    intros I Hg E Hid Hi Hn (x & Hx & Hj). unfold set_gre in Hx. cbn [gres] in Hx. apply in_map_iff in Hx as (y & Ey & Hy). rewrite E in Hy.
    destruct (Z.eqb_spec (g_id y) (g_id g')) as [E1|E1]; subst; [contradiction|]. apply E1. rewrite Hid. f_equal.
    apply (in_ids_inj (gres s) x g i (proj1 I) Hy Hg); right; assumption.
  Qed.
  Lemma kept_rel X s s2 g g' i : Inv s -> In g (gres s) -> more s s2 -> gres s2 = gres s -> next s <= next s2 -> g_id g' = g_id g ->
    (In i (uls g ++ dls g) \/ next s <= i) -> ~ In i (uls g' ++ dls g') -> (forall j, In j (uls g' ++ dls g') -> T s j \/ next s <= j) ->
    kept X s (set_gre (release_all rb s2 i) g').
  Proof.
    intros I Hg M G N Hid Hi Hn Hj. split; [|split; [|exact N]].
    - intros ts n H. destruct (Z.eq_dec (n_who n) i) as [E|E].
      + destruct Hi as [Hi|Hi]; [|pose proof (inv_small s I ts n H); lia]. right. right. rewrite E. split; [exact (T_of s g i Hg Hi)|]. apply (T_gone s (release_all rb s2 i) g g' i I Hg); auto.
      + left. apply (release_all_keep s2 i ts n (M ts n H) E).
    - intros j H. apply (T_set s (release_all rb s2 i) g' j G) in H as [H|H]; auto.
  Qed.

  (** *** The operations *)
  Lemma ul_result_kept X s s2 g i x s' o : Inv s -> In g (gres s) -> same_ctx s s2 -> (uls g = [i] \/ (uls g = [] /\ i = next s)) ->
    ul_result rb s2 g i x = Ok (s', o) -> kept X s s'.
  Proof.
    intros I Hg (Eg & Eu & En) Hi. unfold ul_result. destruct x as [[st o1]|?|]; cbn [bind fst snd]; try discriminate.
    destruct (reserve_outs_gres rb i o1 s2) as [R1 R2].
    assert (M : more s (reserve_outs rb s2 i o1)). { intros ts n H. apply reserve_outs_more. unfold res_in, tree_of in *. rewrite Eu. exact H. }
    assert (Hd : forall j, In j (dls g) -> T s j) by (intros j Hj; apply (T_of s g); [exact Hg|apply in_app_iff; auto]).
    destruct st as [b|]; intros [= <- _].
    - apply kept_set; [exact M|congruence|rewrite R2; exact En|]. intros j Hj. cbn [uls with_ul g_ul app] in Hj. destruct Hj as [<-|Hj]; [|left; auto].
      destruct Hi as [Hi|[_ ->]]; [|right; lia]. left. apply (T_of s g); [exact Hg|]. rewrite Hi. now left.
    - assert (Hdn : ~ In i (dls g)).
      { destruct Hi as [Hi|[_ ->]]; [|intros H; pose proof (T_small s _ I (Hd _ H)); lia]. apply in_split in Hg as (A & B & E).
        destruct (one_gre s A g B I E) as (_ & Hnd & _). apply nodup_app in Hnd as (_ & _ & Hnd). apply Hnd. rewrite Hi. now left. }
      apply (kept_rel X s _ g); try assumption; [congruence|rewrite R2; exact En|reflexivity| |intros j Hj; left; now apply Hd].
      destruct Hi as [Hi|[_ ->]]; [left; rewrite Hi; now left|right; lia].
  Qed.
  Lemma dl_complete_kept X s g tfi sl : Inv s -> In g (gres s) -> kept X s (fst (dl_complete rb s g tfi sl)).
  Proof.
    intros I Hg. unfold dl_complete. cbv zeta. cbn [fst]. set (g' := with_ass _ _). assert (Hu : forall j, In j (uls g' ++ dls g') -> T s j \/ next s <= j).
    { intros j Hj. apply in_app_iff in Hj as [Hj|[<-|[]]]; [left; apply (T_of s g); [exact Hg|apply in_app_iff; auto]|right; cbn; lia]. }
    destruct (g_dl g) as [d|] eqn:Ed.
    - apply (kept_rel X s _ g); try assumption; [intros ts n H; exact H|reflexivity|cbn; lia|reflexivity|left; apply in_app_iff; right; unfold dls; rewrite Ed; now left|].
      apply in_split in Hg as (A & B & E). destruct (one_gre s A g B I E) as (_ & Hnd & _ & _ & Hld). intros H. apply in_app_iff in H as [H|[H|[]]].
      + apply nodup_app in Hnd as (_ & _ & Hnd). apply (Hnd (d_id d) H). unfold dls. rewrite Ed. now left.
      + specialize (Hld (d_id d)). unfold dls in Hld. rewrite Ed in Hld. cbn in H. specialize (Hld (or_introl eq_refl)). lia.
    - apply kept_set; [intros ts n H; exact H|reflexivity|cbn; lia|exact Hu].
  Qed.
  Lemma dl_free_kept X s g : Inv s -> In g (gres s) -> kept X s (fst (dl_free rb s g)).
  Proof.
    intros I Hg. unfold dl_free. destruct (g_dl g) as [d|] eqn:Ed; [|apply kept_refl]. cbv zeta. cbn [fst].
    assert (Hd : In (d_id d) (dls g)) by (unfold dls; rewrite Ed; now left).
    apply (kept_rel X s s g); try assumption; [intros ts n H; exact H|reflexivity|lia|reflexivity|left; apply in_app_iff; now right| |].
    - unfold dls. cbn [with_dl g_dl]. rewrite app_nil_r. apply in_split in Hg as (A & B & E). destruct (one_gre s A g B I E) as (_ & Hnd & _). apply nodup_app in Hnd as (_ & _ & Hnd). intros H. exact (Hnd _ H Hd).
    - intros j Hj. left. apply (T_of s g); [exact Hg|]. unfold dls in Hj. cbn [with_dl g_dl] in Hj. rewrite app_nil_r in Hj. apply in_app_iff. now left.
  Qed.
  Lemma dl_start_kept X s g fn tfi st sl : Inv s -> In g (gres s) -> kept X s (fst (dl_start rb s g fn tfi st sl)).
  Proof.
    intros I Hg. unfold dl_start. destruct st as [f|]; [|now apply dl_complete_kept]. destruct (0 <? fncmp f fn); [|now apply dl_complete_kept]. cbn [fst].
    apply kept_set; [intros ts n H; exact H|reflexivity|lia|]. intros j Hj. left. exact (T_of s g j Hg Hj).
  Qed.

  (** *** The tick *)
  Lemma tick_gre_kept X s i ts fn s' o : Inv s -> tick_gre rb s i ts fn = Ok (s', o) -> kept X s s'.
  Proof.
    intros I. unfold tick_gre. destruct (find_gre s i) as [g|] eqn:F; [|intros [= <- _]; apply kept_refl]. apply find_gre_in in F as (Hg & Hi). destruct (gres_split s g I Hg) as (A & B & E & Es).
    destruct (match g_ul g with Some (j, b) => _ | None => _ end) as [[s1 o1]|?|] eqn:Em; cbn [bind fst snd]; try discriminate.
    assert (K : kept X s s1 /\ Inv s1).
    { destruct (g_ul g) as [[j b]|] eqn:Eu; [|injection Em as <- _; split; [apply kept_refl|exact I]].
      assert (Hj : uls g = [j]) by (unfold uls; now rewrite Eu). split; [apply (ul_result_kept X s s g j (UlTbfModel.rts_tick b ts fn) s1 o1 I Hg); [repeat split; auto; lia|now left|exact Em]|].
      destruct (UlTbfModel.rts_tick b ts fn) as [x|?|] eqn:Er; try discriminate.
      assert (Ib : inv b) by (apply (hasU_inv s j b I); exists g; auto).
      assert (Hx : tbf_inv x) by (apply (step_tbf_inv 0 b (Tick ts fn)); assumption).
      destruct (ul_result_spec rb Hrb s s A g B j x I) as (s2 & o2 & E2 & I2 & _); try assumption; [repeat split; auto; lia|now left|].
      rewrite E2 in Em. injection Em as <- _. exact I2. }
    destruct K as [K I1]. destruct (find_gre s1 i) as [g2|] eqn:F; [|intros [= <- _]; exact K].
    apply find_gre_in in F as (Hg2 & Hi2). intros [= <- _]. apply (kept_trans X s s1); [now apply inv_small|exact K|].
    unfold dl_tick. destruct (g_ass g2) as [w|]; [|apply kept_refl]. destruct (_ || _); [apply kept_refl|now apply dl_complete_kept].
  Qed.
  Lemma tick_kept X l ts fn : forall s s' o, Inv s -> tick rb s l ts fn = Ok (s', o) -> kept X s s'.
  Proof.
    induction l as [|i l IH]; intros s s' o I; cbn [tick]; [intros [= <- _]; apply kept_refl|].
    pose proof (tick_gre_spec rb Hrb s i ts fn I) as P. destruct (tick_gre rb s i ts fn) as [[s1 o1]|?|] eqn:E1; cbn [bind fst snd]; try discriminate. destruct P as (I1 & _).
    destruct (tick rb s1 l ts fn) as [[s2 o2]|?|] eqn:E2; cbn [bind fst snd]; try discriminate. intros [= <- _].
    apply (kept_trans X s s1); [now apply inv_small|exact (tick_gre_kept X _ _ _ _ _ _ I E1)|exact (IH _ _ _ I1 E2)].
  Qed.

  (** *** The selection *)
  Variable bs cs0 : Z.
  Variable enc : encoding -> bool.
  Definition keeps (X : Z -> node -> Prop) (s0 : sys) (r : res (sys * list sout * option blk)) : Prop := forall s o b, r = Ok (s, o, b) -> kept X s0 s.
  Lemma orelse_keeps X s0 x k : keeps X s0 x -> (forall s, kept X s0 s -> keeps X s0 (k s)) -> keeps X s0 (orelse x k).
  Proof.
    intros Hx Hk s o b. unfold orelse. destruct x as [[[s1 o1] b1]|?|]; cbn [bind]; try discriminate. specialize (Hx _ _ _ eq_refl).
    destruct b1 as [b1|]; [intros [= <- _ _]; exact Hx|]. destruct (k s1) as [[[s2 o2] b2]|?|] eqn:E; cbn [bind]; try discriminate. intros [= <- _ _]. exact (Hk s1 Hx _ _ _ E).
  Qed.
  Lemma create_ass_keeps X s i ok : keeps X s (create_ass s i ok).
  Proof.
    intros s' o b'. unfold create_ass. destruct (find_ul s i) as [g|] eqn:F; [|discriminate]. apply find_ul_in in F as (Hg & b & Eu). rewrite Eu.
    destruct (create_rlcmac_msg b ok) as [[[b1|] o1]|?|]; cbn [bind fst snd]; try discriminate. intros [= <- _ _].
    apply kept_set; [intros t n H; exact H|reflexivity|lia|]. intros j Hj. left. apply (T_of s g); [exact Hg|]. unfold uls. rewrite Eu. exact Hj.
  Qed.
  Lemma create_dl_ack_keeps X s i ts ok : keeps X s (create_dl_ack cs0 s i ts ok).
  Proof.
    intros s' o b'. unfold create_dl_ack. destruct (find_dl s i) as [g|] eqn:F; [|discriminate]. apply find_dl_in in F as (Hg & d & Ed & Hi). rewrite Ed. cbv zeta.
    assert (Hu : forall j, In j (uls g) -> T s j) by (intros j Hj; apply (T_of s g); [exact Hg|apply in_app_iff; auto]).
    assert (Hd : forall j, In j (dls g) -> T s j) by (intros j Hj; apply (T_of s g); [exact Hg|apply in_app_iff; auto]).
    match goal with |- context [bind ?x _] => destruct x as [[s1 g1]|?|] eqn:Er end; cbn [bind]; try discriminate.
    assert (H : more s s1 /\ gres s1 = gres s /\ next s <= next s1 /\ dls g1 = dls g /\ forall j, In j (uls g1) -> T s j \/ next s <= j).
    { destruct (match g_ul g with None => _ | Some _ => _ end).
      - destruct (start cs0 (FromDownlink ts)) as [[[b|] ?]|?|]; try discriminate. injection Er as <- <-. split; [intros t n H; exact H|]. split; [reflexivity|]. split; [cbn; lia|]. split; [reflexivity|].
        intros j [<-|[]]. right. lia.
      - injection Er as <- <-. split; [intros t n H; exact H|]. split; [reflexivity|]. split; [lia|]. split; [reflexivity|]. auto. }
    destruct H as (M & G & N & D & U). destruct ok; intros [= <- _ _]; apply kept_set; try assumption; intros j Hj; apply in_app_iff in Hj as [Hj|Hj]; auto.
    - left. apply Hd. unfold dls in *. cbn [with_dl g_dl] in Hj. rewrite Ed. destruct (d_fin d); exact Hj.
    - left. apply Hd. rewrite <- D. exact Hj.
  Qed.
  Lemma ul_ack_new_keeps X s c ts fn usf : Inv s -> keeps X s (try_ul_ack_new rb cs0 enc s c ts fn usf).
  Proof.
    intros I s' o b'. unfold try_ul_ack_new. destruct c as [[?|i|?|?|?|?]|]; try (intros [= <- _ _]; apply kept_refl). destruct (find_ul s i) as [g|] eqn:F; [|discriminate]. apply find_ul_in in F as (Hg & b & Eu).
    rewrite Eu. cbv zeta. destruct (start cs0 (FromReleasing (cur b))) as [[[b1|] ?]|?|]; try discriminate. destruct (negb _); [discriminate|]. intros E.
    refine (kept_trans X s _ s' (inv_small s I) _ (create_ass_keeps X _ _ _ _ _ _ E)).
    assert (Hi : In i (uls g)) by (unfold uls; rewrite Eu; now left). assert (Ti : i < next s) by (apply (T_small s i I), (T_of s g); [exact Hg|apply in_app_iff; auto]).
    apply (kept_rel X s _ g); try assumption; [intros t n H; exact H|reflexivity|cbn; lia|reflexivity|left; apply in_app_iff; auto| |].
    - intros H. apply in_app_iff in H as [[H|[]]|H]; [lia|]. apply in_split in Hg as (A & B & Eg). destruct (one_gre s A g B I Eg) as (_ & Hnd & _). apply nodup_app in Hnd as (_ & _ & Hnd). exact (Hnd _ Hi H).
    - intros j H. apply in_app_iff in H as [[<-|[]]|H]; [right; lia|]. left. apply (T_of s g); [exact Hg|apply in_app_iff; auto].
  Qed.
  Lemma ctrl_ack_keeps X s0 s g : kept X s0 s -> keeps X s0 (ctrl_ack enc s g).
  Proof. intros K s' o b. unfold ctrl_ack. destruct g as [g|]; [|discriminate]. intros [= <- _ _]. exact K. Qed.
  Lemma keeps_after X s0 s r : small s0 -> kept X s0 s -> keeps X s r -> keeps X s0 r.
  Proof. intros S K H s' o b E. exact (kept_trans X s0 s s' S K (H _ _ _ E)). Qed.
  Lemma none_keeps X s0 s : kept X s0 s -> keeps X s0 (Ok (s, [], None)).
  Proof. intros K s' o b [= <- _ _]. exact K. Qed.
  Lemma data_keeps X s0 s ts usf data : small s0 -> kept X s0 s -> keeps X s0 (select_data rb bs s ts usf data).
  Proof.
    intros S K. unfold select_data. destruct (find (wants_data ts usf) (gres s)) as [g|] eqn:F; [|now apply none_keeps]. destruct data as [[[f cd] rach]|]; [|now apply none_keeps].
    apply find_some in F as [Hg _]. intros s' o b. destruct (g_ul g) as [[i tb]|] eqn:Eu; [|discriminate].
    pose proof (data_create_none bs tb f cd rach) as Nx. destruct (data_create bs tb f cd rach) as [x|?|] eqn:Ed; cbn [ul_result bind]; try discriminate. destruct (data_create_alive bs tb f cd rach x Ed) as [b1 Eb].
    cbn [r_none] in Nx. rewrite Eb, (reserve_outs_none rb i _ s Nx). cbn [fst snd]. intros [= <- _ _]. apply (kept_trans X s0 s); [exact S|exact K|].
    apply kept_set; [intros t n H; exact H|reflexivity|lia|]. intros j Hj. left. apply (T_of s g); [exact Hg|]. unfold uls. rewrite Eu. exact Hj.
  Qed.
  Lemma dummy_keeps X s0 s ts usf : small s0 -> kept X s0 s -> keeps X s0 (select_dummy enc s ts usf).
  Proof.
    intros S K. unfold select_dummy. destruct (find (wants_dummy ts usf) (gres s)) as [g|] eqn:F; [|now apply none_keeps]. apply find_some in F as [Hg _].
    intros s' o b. destruct (g_ul g) as [[i tb]|] eqn:Eu; [|discriminate]. destruct (enc EDummy); [|now apply none_keeps]. intros [= <- _ _]. apply (kept_trans X s0 s); [exact S|exact K|].
    apply kept_set; [intros t n H; exact H|reflexivity|lia|]. intros j Hj. left. apply (T_of s g); [exact Hg|]. unfold uls. rewrite Eu. exact Hj.
  Qed.
  Definition here (ts fn : Z) : Z -> node -> Prop := fun t n => Z.to_nat t = Z.to_nat ts /\ fncmp (n_fn n) fn <= 0.
  Lemma select_keeps s ts fn usf data : Inv s -> keeps (here ts fn) s (select rb bs cs0 enc s ts fn usf data).
  Proof.
    intros I s' o b. unfold select. destruct (candidates rb s ts fn usf) as [[[s0 c] ass]|?|] eqn:Ec; cbn [bind]; try discriminate.
    assert (H0 : kept (here ts fn) s s0 /\ Inv s0).
    { unfold candidates in Ec. destruct (get_node (tree_of s ts) fn) as [n|] eqn:En; cbn [bind fst snd] in Ec; [|injection Ec as <- _ _; split; [apply kept_refl|exact I]].
      destruct (candidate s n) as [c1|?|]; cbn [bind fst snd] in Ec; try discriminate. injection Ec as <- _ _. destruct (get_node_in _ _ _ En) as [Hin Hfn]. split.
      - split; [|split; [|cbn; lia]].
        + intros t m Hm. destruct (node_dec m n) as [->|Ne].
          * destruct (Nat.eq_dec (Z.to_nat t) (Z.to_nat ts)) as [E|E].
            -- right. left. split; [exact E|]. rewrite Hfn, fncmp_refl. lia.
            -- left. apply set_tree_keep; [exact Hm|]. intros; contradiction.
          * left. apply set_tree_keep; [exact Hm|]. intros E. unfold release_node. apply erase_keep; [exact Hin| |exact Ne]. unfold res_in, tree_of in Hm. rewrite E in Hm. exact Hm.
        + intros j H. left. exact H.
      - apply (inv_ext s _ I); [reflexivity|reflexivity|cbn [set_tree ulc]; rewrite upd_length; apply I|]. intros t m Hm. apply tree_set in Hm as [Hm|[E Hm]]; [exact Hm|].
        rewrite E. now apply (erase_in rb Hrb n (tree_of s ts) Hin) in Hm. }
    destruct H0 as [K0 I0]. set (X := here ts fn) in *. intros E. apply (kept_trans X s s0); [now apply inv_small|exact K0|].
    pose proof (inv_small s0 I0) as S0.
    assert (C : keeps X s0 (select_ctrl rb cs0 enc s0 c ass ts fn usf)).
    { assert (A : forall s k, kept X s0 s -> keeps X s0 (create_ass s k (enc EPoll)) /\ keeps X s0 (create_ass s k (enc EResReq))) by (intros s1 k K; split; apply (keeps_after X s0 s1); try assumption; apply create_ass_keeps).
      assert (D : forall s k ok, kept X s0 s -> keeps X s0 (create_dl_ack cs0 s k ts ok)) by (intros s1 k ok K; apply (keeps_after X s0 s1); try assumption; apply create_dl_ack_keeps).
      assert (U : forall s, kept X s0 s -> keeps X s0 (try_ul_ass enc s ass)) by (intros s1 K; unfold try_ul_ass; destruct ass; [now apply A|now apply none_keeps]).
      pose proof (kept_refl X s0) as R.
      assert (Tl : forall s, kept X s0 s -> keeps X s0 (orelse (try_ul_ass enc s ass) (fun s => try_dl_ack cs0 enc s c ts))).
      { intros s1 K. apply orelse_keeps; [now apply U|]. intros s2 K2. unfold try_dl_ack. destruct c as [[]|]; try (now apply none_keeps). now apply D. }
      unfold select_ctrl. destruct c as [[d|i|i|g|i|d]|]; cbn [try_dl_ack_final try_dl_ass_poll try_ul_ass_poll].
      - apply orelse_keeps; [now apply D|]. intros s1 K1. cbn [try_ul_ack_new]. rewrite !orelse_nil. now apply Tl.
      - rewrite orelse_nil. apply orelse_keeps; [now apply ul_ack_new_keeps|]. intros s1 K1. rewrite !orelse_nil. now apply Tl.
      - now apply ctrl_ack_keeps.
      - cbn [try_ul_ack_new]. rewrite !orelse_nil. apply orelse_keeps; [now apply ctrl_ack_keeps|]. intros s1 K1. rewrite !orelse_nil. now apply Tl.
      - cbn [try_ul_ack_new]. rewrite !orelse_nil. apply orelse_keeps; [now apply A|]. intros s1 K1. now apply Tl.
      - cbn [try_ul_ack_new]. rewrite !orelse_nil. now apply Tl.
      - cbn [try_ul_ack_new]. rewrite !orelse_nil. now apply Tl. }
    revert E. apply (orelse_keeps X s0 _ _ C). intros s1 K1. apply orelse_keeps; [now apply data_keeps|]. intros s2 K2. now apply dummy_keeps.
  Qed.
  Lemma rcv_rts_kept s ts fn usf data s' o : Inv s -> rcv_rts rb bs cs0 enc s ts fn usf data = Ok (s', o) -> kept (here ts fn) s s'.
  Proof.
    intros I. unfold rcv_rts. pose proof (tick_spec rb Hrb (map g_id (gres s)) ts fn s I) as P. destruct (tick rb s (map g_id (gres s)) ts fn) as [[s1 o1]|?|] eqn:Et; cbn [bind fst snd]; try discriminate. destruct P as (I1 & _).
    destruct (select rb bs cs0 enc s1 ts fn usf data) as [[[s2 o2] b]|?|] eqn:Es; cbn [bind]; try discriminate. intros [= <- _].
    apply (kept_trans _ s s1); [now apply inv_small|exact (tick_kept _ _ _ _ _ _ _ I Et)|]. apply (kept_trans _ s1 s2); [now apply inv_small|exact (select_keeps _ _ _ _ _ I1 _ _ _ Es)|].
    split; [|split; [intros j H; left; exact H|cbn; lia]]. intros t n H. destruct (Z_le_gt_dec (fncmp (n_fn n) fn) 0) as [L|L].
    - destruct (Nat.eq_dec (Z.to_nat t) (Z.to_nat ts)) as [E|E]; [right; left; split; auto|]. left. apply set_tree_keep; [exact H|]. intros; contradiction.
    - left. apply set_tree_keep; [exact H|]. intros E. apply expire_keep; [|lia]. unfold res_in, tree_of in H. rewrite E in H. exact H.
  Qed.
End Trees.

(** *** Every event *)
Section Events.
  Variable rb : rb_ops.
  Hypothesis Hrb : tree_library rb.
  Variable bs cs0 : Z.
  Definition never : Z -> node -> Prop := fun _ _ => False.
  Lemma start_if_needed_kept X s g rach s' o : Inv s -> In g (gres s) -> start_if_needed rb cs0 s g rach = Ok (s', o) -> kept X s s'.
  Proof.
    intros I Hg. unfold start_if_needed. destruct (g_ul g) eqn:Eu; [intros [= <- _]; apply kept_refl|]. destruct (g_dl g) eqn:Ed; [intros [= <- _]; apply kept_refl|]. destruct (g_q g); [|intros [= <- _]; apply kept_refl].
    cbv zeta. apply (ul_result_kept rb Hrb X s (alloc_id s) g (next s) (start cs0 (ByRach rach)) s' o I Hg); [repeat split; cbn; lia|]. right. unfold uls. rewrite Eu. auto.
  Qed.
  Lemma start_all_kept X rach l : forall s s' o, Inv s -> start_all rb cs0 s l rach = Ok (s', o) -> kept X s s'.
  Proof.
    induction l as [|i l IH]; intros s s' o I; cbn [start_all]; [intros [= <- _]; apply kept_refl|].
    destruct (find_gre s i) as [g|] eqn:F; [|exact (IH s s' o I)]. apply find_gre_in in F as [Hg _]. pose proof (start_if_needed_spec rb Hrb cs0 s g rach I Hg) as P.
    destruct (start_if_needed rb cs0 s g rach) as [[s1 o1]|?|] eqn:E1; cbn [bind fst snd]; try discriminate. destruct P as (I1 & _).
    destruct (start_all rb cs0 s1 l rach) as [[s2 o2]|?|] eqn:E2; cbn [bind fst snd]; try discriminate. intros [= <- _].
    apply (kept_trans X s s1); [now apply inv_small|exact (start_if_needed_kept X _ _ _ _ _ I Hg E1)|exact (IH _ _ _ I1 E2)].
  Qed.
  Lemma ul_event_kept X s og e s' o : Inv s -> (forall g, og = Some g -> In g (gres s)) -> ul_event rb bs s og e = Ok (s', o) -> kept X s s'.
  Proof.
    intros I H. unfold ul_event. destruct og as [g|]; [|intros [= <- _]; apply kept_refl]. specialize (H g eq_refl). destruct (g_ul g) as [[i b]|] eqn:Eu; [|intros [= <- _]; apply kept_refl].
    apply (ul_result_kept rb Hrb X s s g i (UlTbfModel.step bs b e) s' o I H); [repeat split; auto; lia|]. left. unfold uls. now rewrite Eu.
  Qed.
  Lemma del_gre_kept X s g : Inv s -> In g (gres s) -> kept X s (del_gre rb s g).
  Proof.
    intros I Hg. unfold del_gre. set (s1 := match g_dl g with Some d => release_all rb s (d_id d) | None => s end). set (s2 := match g_ul g with Some (i, _) => release_all rb s1 i | None => s1 end).
    assert (G : gres s2 = gres s /\ next s2 = next s) by (unfold s2, s1; destruct (g_ul g) as [[]|], (g_dl g); auto). destruct G as [G1 G2]. cbv zeta.
    assert (Hf : forall j, T (mkSys (filter (fun x => negb (g_id x =? g_id g)) (gres s2)) (ulc s2) (next s2)) j -> T s j /\ ~ In j (uls g ++ dls g)).
    { intros j (x & Hx & Hj). cbn [gres] in Hx. rewrite G1 in Hx. apply filter_In in Hx as [Hx Hn]. split; [exists x; auto|]. intros Hi.
      assert (x = g) by (apply (in_ids_inj (gres s) x g j (proj1 I) Hx Hg); right; assumption). subst. rewrite Z.eqb_refl in Hn. discriminate. }
    split; [|split; [intros j H; left; now apply Hf|cbn [next]; lia]].
    intros ts n H. assert (L : In (n_who n) (uls g ++ dls g) \/ res_in s2 ts n).
    { unfold s2, s1, uls, dls. destruct (g_ul g) as [[i b]|], (g_dl g) as [d|]; cbn [app In].
      - destruct (Z.eq_dec i (n_who n)); [auto|]. destruct (Z.eq_dec (d_id d) (n_who n)); [auto|]. right. apply release_all_keep; [exact Hrb| |congruence]. apply release_all_keep; [exact Hrb|exact H|congruence].
      - destruct (Z.eq_dec i (n_who n)); [auto|]. right. apply release_all_keep; [exact Hrb|exact H|congruence].
      - destruct (Z.eq_dec (d_id d) (n_who n)); [auto|]. right. apply release_all_keep; [exact Hrb|exact H|congruence].
      - right. exact H. }
    destruct L as [L|L]; [|left; exact L]. right. right. split; [exact (T_of s g _ Hg L)|]. intros H2. apply Hf in H2. tauto.
  Qed.
  Definition gone_by (e : sevent) : Z -> node -> Prop := match e with Rts ts fn _ _ _ => here ts fn | _ => never end.
  Lemma step_kept s e s' o : Inv s -> sstep rb bs cs0 s e = Ok (s', o) -> kept (gone_by e) s s'.
  Proof.
    intros I. assert (R : forall X, kept X s s) by (intros; apply kept_refl).
    assert (Fw : forall f g, ul_with f s = Some g -> In g (gres s)) by (intros f g H; now apply find_some in H).
    assert (Fg : forall i g, find_gre s i = Some g -> In g (gres s)) by (intros i g H; now apply find_gre_in in H).
    destruct e as [ |i|i rach|i|rach|tn fn ia|i tn fn poll m|tn tfi poll final est cc|tn fn|i rach|i|i|i tn fn tfi st|i tn fn poll tfi st sl ack|tn tfi last poll|i|i|ts fn usf enc data]; cbn [sstep gone_by];
      try (apply ul_event_kept; [exact I|first [apply Fw|apply Fg]]).
    - intros [= <- _]. split; [auto|]. split; [|cbn; lia]. intros j (g & Hg & Hj). cbn [new_gre gres] in Hg. apply in_app_iff in Hg as [Hg|[<-|[]]]; [left; exists g; auto|destruct Hj].
    - destruct (find_gre s i) as [g|] eqn:F; [|intros [= <- _]; apply R]. intros [= <- _]. apply del_gre_kept; eauto.
    - destruct (find_gre s i) as [g|] eqn:F; [|intros [= <- _]; apply R]. cbv zeta. assert (Hg := Fg _ _ F). assert (I1 : Inv (set_gre s (with_q g true))) by (apply (set_gre_inv 0 s g); auto).
      destruct (gres_split s g I Hg) as (A & B & E & Es). intros H. apply (kept_trans _ s (set_gre s (with_q g true))); [now apply inv_small| |].
      + apply kept_set; [intros t n H1; exact H1|reflexivity|lia|]. intros j Hj. left. exact (T_of s g j Hg Hj).
      + apply (start_if_needed_kept never _ _ _ _ _ I1) in H; [exact H|]. rewrite (Es s (with_q g true) eq_refl eq_refl). apply in_app_iff. right. now left.
    - destruct (find_gre s i) as [g|] eqn:F; [|intros [= <- _]; apply R]. intros [= <- _]. apply kept_set; [intros t n H1; exact H1|reflexivity|lia|]. intros j Hj. left. exact (T_of s g j (Fg _ _ F) Hj).
    - apply start_all_kept. exact I.
    - destruct (find_gre s i) as [g|] eqn:F; [|intros [= <- _]; apply R]. unfold dl_imm_ass. cbv zeta. intros H. injection H as H. pose proof (dl_start_kept rb Hrb never s g fn tfi st (upd (match g_ass g with Some w => w_slots w | None => no_dl_slots end) (Z.to_nat tn) true) I (Fg _ _ F)) as K.
      rewrite H in K. exact K.
    - destruct (find_gre s i) as [g|] eqn:F; [|intros [= <- _]; apply R]. assert (Hg := Fg _ _ F). unfold dl_pkt_ass. set (tf := match tfi with Some t => t | None => 255 end).
      destruct (dl_start_spec rb Hrb s g fn tf st sl I Hg) as (I1 & _ & _ & g1 & Hg1 & Hid1). pose proof (dl_start_kept rb Hrb never s g fn tf st sl I Hg) as K1.
      destruct (dl_start rb s g fn tf st sl) as [s1 o1]. cbn [fst snd] in *. cbv zeta.
      set (s2 := match poll with Some pf => reserve_at rb s1 tn pf POLL_DL_ASS (g_id g) | None => s1 end).
      assert (I2 : Inv s2). { unfold s2. destruct poll as [pf|]; [|exact I1]. apply reserve_inv; [exact Hrb|exact I1|]. intros n Rn W. apply (owner_gre s1 g1 n I1 Hg1 Rn). congruence. }
      assert (K2 : kept never s s2). { unfold s2. destruct poll as [pf|]; [|exact K1]. apply (kept_trans _ s s1); [now apply inv_small|exact K1|]. apply kept_more; [now apply reserve_at_more|reflexivity|cbn; lia]. }
      destruct (find_gre s2 (g_id g)) as [g2|] eqn:F2; [|intros [= <- _]; exact K2]. destruct (g_dl g2) as [d|] eqn:Ed; [|intros [= <- _]; exact K2]. destruct (ack && d_3192 d); [|intros [= <- _]; exact K2].
      apply find_gre_in in F2 as [Hg2 _]. intros [= <- _]. apply (kept_trans _ s s2); [now apply inv_small|exact K2|]. now apply dl_free_kept.
    - intros [= <- _]. unfold dl_data. destruct (find _ (gres s)) as [g|] eqn:F; [|apply R]. apply find_some in F as [Hg _]. destruct (g_dl g) as [d|] eqn:Ed; [|apply R].
      set (g' := with_dl g _). assert (K1 : kept never s (set_gre s g')).
      { apply kept_set; [intros t n H1; exact H1|reflexivity|lia|]. intros j Hj. left. apply (T_of s g); [exact Hg|]. unfold dls, g' in *. cbn [with_dl g_dl] in Hj. rewrite Ed. exact Hj. }
      cbv zeta. destruct poll as [pf|]; [|exact K1]. apply (kept_trans _ s (set_gre s g')); [now apply inv_small|exact K1|]. apply kept_more; [now apply reserve_at_more|reflexivity|cbn; lia].
    - intros H. injection H as H. unfold dl_timer in H. destruct (find_gre s i) as [g|] eqn:F; [|injection H as <- _; apply R]. destruct (g_dl g) as [d|]; [|injection H as <- _; apply R]. destruct (if _ =? 3190 then _ else _); [|injection H as <- _; apply R].
      pose proof (dl_free_kept rb Hrb never s g I (Fg _ _ F)) as K. injection H as <- _. exact K.
    - intros H. injection H as H. unfold dl_timer in H. destruct (find_gre s i) as [g|] eqn:F; [|injection H as <- _; apply R]. destruct (g_dl g) as [d|]; [|injection H as <- _; apply R]. destruct (if _ =? 3190 then _ else _); [|injection H as <- _; apply R].
      pose proof (dl_free_kept rb Hrb never s g I (Fg _ _ F)) as K. injection H as <- _. exact K.
    - intros H. exact (rcv_rts_kept rb Hrb bs cs0 enc s ts fn usf data s' o I H).
  Qed.
End Events.
