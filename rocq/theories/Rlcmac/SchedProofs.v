(** Proofs about the scheduler model: its invariant, what each part of the selection does. *)
From Coq Require Import Sorted Permutation.
From Verif.Lib Require Import Base Outcome.
From Verif.Rlcmac Require Import FnModel UlcModel UlcProperties UlTbfModel UlTbfSpec UlTbfProofs UlTbfProperties SchedModel SchedSpec.

(** *** Trees. *)
Lemma fncmp_eq x y : fncmp x y = 0 -> x = y.
Proof.
  unfold fncmp. destruct (Z.eqb_spec x y); [auto|]. destruct (_ || _); lia.
Qed.
Lemma fncmp_refl x : fncmp x x = 0.
Proof. unfold fncmp. now rewrite Z.eqb_refl. Qed.
Lemma get_node_in t fn n : get_node t fn = Some n -> In n (inorder t) /\ n_fn n = fn.
Proof.
  induction t as [|l IHl it r IHr]; cbn [get_node inorder]; [discriminate|]. cbv zeta.
  rewrite in_app_iff. cbn [In].
  destruct (fncmp (n_fn it) fn >? 0) eqn:E1; [intros H; apply IHl in H; tauto|].
  destruct (fncmp (n_fn it) fn <? 0) eqn:E2; [intros H; apply IHr in H; tauto|].
  intros [= <-]. split; [auto|]. apply fncmp_eq. lia.
Qed.
Lemma node_dec (x y : node) : {x = y} + {x <> y}.
Proof. destruct x as [a b c], y as [d e f]. decide equality; apply Z.eq_dec. Qed.
Lemma first_split (it : node) l : In it l -> exists l1 l2, l = l1 ++ it :: l2 /\ ~ In it l1.
Proof.
  induction l as [|x l IH]; intros H; [contradiction|]. destruct (node_dec x it) as [->|D].
  - exists [], l. split; [reflexivity|]. intros [].
  - destruct H as [H|H]; [contradiction|]. destruct (IH H) as (l1 & l2 & -> & H2). exists (x :: l1), l2. split; [reflexivity|].
    intros [H3|H3]; [contradiction|contradiction].
Qed.
Lemma link_in t it t' : link t it = Some t' -> forall n, In n (inorder t') <-> In n (inorder t) \/ n = it.
Proof.
  revert t'. induction t as [|l IHl x r IHr]; intros t'; cbn [link].
  - intros [= <-] n. cbn [inorder app In]. intuition.
  - cbv zeta. destruct (_ <? 0).
    + destruct (link l it) as [l'|]; [|discriminate]. intros [= <-] n. cbn [inorder]. rewrite !in_app_iff, (IHl _ eq_refl). cbn [In]. tauto.
    + destruct (_ >? 0); [|discriminate]. destruct (link r it) as [r'|]; [|discriminate]. intros [= <-] n. cbn [inorder]. rewrite !in_app_iff. cbn [In]. rewrite (IHr _ eq_refl). tauto.
Qed.

Section Trees.
  Variable rb : rb_ops.
  Hypothesis Hrb : tree_library rb.
  Lemma erase_in it t : In it (inorder t) ->
    (forall n, In n (inorder (rb_erase rb it t)) -> In n (inorder t)) /\ length (inorder t) = S (length (inorder (rb_erase rb it t))).
  Proof.
    intros H. apply first_split in H as (l & r & E & H). rewrite (proj2 Hrb _ _ _ _ E H), E. split.
    - intros n. rewrite !in_app_iff. cbn [In]. tauto.
    - rewrite !app_length. cbn [length]. lia.
  Qed.
  Lemma release_loop_in fuel : forall t who, (length (inorder t) < fuel)%nat ->
    forall n, In n (inorder (release_tbf_loop rb fuel t who)) -> In n (inorder t) /\ n_who n <> who.
  Proof.
    induction fuel as [|fuel IH]; intros t who Hl n; [lia|]. cbn [release_tbf_loop].
    destruct (find _ (inorder t)) as [it|] eqn:Ef.
    - apply find_some in Ef as [Hin _]. destruct (erase_in it t Hin) as [H1 H2]. unfold release_node. intros H.
      destruct (IH (rb_erase rb it t) who ltac:(lia) n H) as [H3 H4]. auto.
    - intros H. split; [exact H|]. apply find_none with (x := n) in Ef; [|exact H]. cbv beta in Ef. lia.
  Qed.
  Lemma release_in t who n : In n (inorder (release_tbf rb t who)) -> In n (inorder t) /\ n_who n <> who.
  Proof. unfold release_tbf. apply release_loop_in. lia. Qed.
  Lemma expire_loop_in fuel : forall t fn n, In n (inorder (expire_loop rb fuel t fn)) -> In n (inorder t).
  Proof.
    induction fuel as [|fuel IH]; intros t fn n; cbn [expire_loop]; [auto|]. destruct (inorder t) as [|it l] eqn:E; [rewrite E; auto|].
    destruct (_ >? 0); [rewrite E; auto|]. intros H. apply IH in H. destruct (erase_in it t) as [H1 _]; [rewrite E; now left|]. rewrite <- E. auto.
  Qed.
  Lemma reserve_in t fn r w n : In n (inorder (snd (reserve rb t fn r w))) -> In n (inorder t) \/ n = mkNode fn r w.
  Proof.
    unfold reserve. destruct (link t _) as [t'|] eqn:E; cbn [snd]; [|auto]. rewrite (proj1 Hrb). intros H. apply (link_in _ _ _ E) in H. exact H.
  Qed.

  (** The reservations of a timeslot all lie near frame [n] (counted without wrapping). *)
  Definition sane (t : tree) (n : Z) : Prop := exists L, rep t L /\ close L n.
  Lemma sane_get t n x : sane t n -> In x (inorder t) -> n_fn x = n mod 2715648 -> get_node t (n mod 2715648) = Some x.
  Proof.
    intros (L & (E & Hs & Ht) & Hc) Hin Hx. rewrite (get_spec t L n E Hs Hc). rewrite E in Hin. apply in_map_iff in Hin as ([m [r w]] & <- & Hin).
    cbn [conc n_fn] in *. unfold close in Hc. rewrite Forall_forall in Hc. specialize (Hc _ Hin). cbn [fst] in Hc.
    assert (m = n) as -> by lia. unfold entry. rewrite (in_lookup _ _ _ Hs Hin). reflexivity.
  Qed.
  Lemma sane_expire t n x : sane t n -> In x (inorder (expire_fn rb t (n mod 2715648))) ->
    In x (inorder t) /\ 0 < fncmp (n_fn x) (n mod 2715648).
  Proof.
    intros (L & Hr & Hc). assert (Hl : (length L < S (length (inorder t)))%nat) by (rewrite (proj1 Hr), map_length; lia).
    pose proof (expire_spec rb Hrb _ t L n Hr Hc Hl) as He. fold (expire_fn rb t (n mod 2715648)) in He. rewrite (proj1 He). intros Hin. split.
    - rewrite (proj1 Hr). apply in_map_iff in Hin as (y & <- & Hin). apply filter_In in Hin as [Hin _]. now apply in_map.
    - apply in_map_iff in Hin as (y & <- & Hin). apply filter_In in Hin as [Hin Hf]. unfold close in Hc. rewrite Forall_forall in Hc. specialize (Hc _ Hin).
      rewrite conc_fn, fncmp_spec by exact Hc. destruct (Z.ltb_spec (fst y) n); [lia|]. destruct (Z.eqb_spec (fst y) n); lia.
  Qed.
End Trees.

(** *** Reservations made by an uplink TBF have one of two reasons. *)
Definition res_ok (o : list out) : Prop := Forall (fun x => match x with UlTbfModel.Reserve _ _ r => r = 0 \/ r = 2 | _ => True end) o.
Lemma res_ok_app o1 o2 : res_ok o1 -> res_ok o2 -> res_ok (o1 ++ o2).
Proof. intros H1 H2. apply Forall_app. split; assumption. Qed.
Definition r_ok (r : result) : Prop := match r with Ok x => res_ok (snd x) | _ => True end.
Lemma freed_ok o : res_ok o -> r_ok (freed o).
Proof. intros H. apply res_ok_app; [exact H|repeat constructor]. Qed.
Lemma ass_start_ok s tw rach o r : res_ok o -> ass_start s tw rach o = Some r -> r_ok r.
Proof.
  intros H. unfold ass_start. destruct (a s); try discriminate. destruct (u s) eqn:Eu, rach; cbn; rewrite ?Eu; intros [= <-]; cbn;
    repeat (apply res_ok_app); try exact H; repeat constructor.
Qed.
Lemma reinit_ok s rach o : res_ok o -> r_ok (reinit s rach o).
Proof.
  intros H. unfold reinit. cbv zeta. set (o' := o ++ _). assert (H' : res_ok o') by (apply res_ok_app; [exact H|repeat constructor]).
  destruct (ass_start _ _ _ o') as [r|] eqn:E; [exact (ass_start_ok _ _ _ _ _ H' E)|now apply freed_ok].
Qed.
Lemma complete_ok' s o : res_ok o -> r_ok (complete s o).
Proof.
  intros H. unfold complete. cbv zeta. destruct (u _); cbn; try exact H. apply res_ok_app; [exact H|repeat constructor].
Qed.
Lemma step_res_ok bs s e : r_ok (UlTbfModel.step bs s e).
Proof.
  destruct e; cbn [UlTbfModel.step].
  - unfold rx_imm_ass. destruct (a s); try (constructor). destruct (handle_imm_ass s tn ia) as [s' ok]. destruct (negb ok); [constructor|].
    destruct (_ && _); [repeat constructor|]. destruct (two s'); [constructor|]. apply complete_ok'. constructor.
  - unfold rx_pkt_ul_ass. assert (H : forall s0 : tbf, r_ok (let (s1, o) := match poll with
                    | None => (s0, [])
                    | Some pf =>
                        let next_blk := fn_next_block (fn_next_block pf) in
                        (if negb (start_ex s0) || (fncmp (start_fn s0) next_blk <? 0)
                         then set_ass s0 (two s0) (from_dl s0) (p1 s0) (p2 s0) true next_blk (sba s0) else s0,
                         [UlTbfModel.Reserve tn pf POLL_UL_ASS])
                    end in
      if start_ex s1 && (0 <? fncmp (start_fn s1) fn) then
        alive (a_chg s1 STARTING_TIME2) (o ++ [Configure (p2 s1) (Some (start_fn s1))])
      else complete s1 o)).
    { intros s0. destruct poll as [pf|].
      - cbv zeta. match goal with |- context [if ?b then set_ass _ _ _ _ _ _ _ _ else _] => destruct b end;
          (destruct (_ && _); [repeat constructor; auto|apply complete_ok'; repeat constructor; auto]).
      - destruct (_ && _); [repeat constructor|apply complete_ok'; constructor]. }
    destruct (a s); try constructor; apply H.
  - unfold rts_tick. destruct (a s); try constructor.
    + destruct (_ || _); [exact Logic.I|]. destruct (_ || _); [constructor|]. destruct (two s); [constructor|]. apply complete_ok'. constructor.
    + destruct (_ || _); [exact Logic.I|]. destruct (_ || _); [constructor|]. apply complete_ok'. constructor.
  - destruct (ass_rts s tn fn usf); [|constructor]. unfold create_rlcmac_msg. destruct (a s), enc; repeat constructor.
  - unfold create_rlcmac_msg. destruct (a s), enc; repeat constructor.
  - destruct (data_rts s tn usf); [|constructor]. unfold data_create. cbv zeta.
    match goal with |- r_ok (bind ?x _) => destruct x as [s1| |] end; cbn [bind r_ok]; try exact Logic.I.
    match goal with |- r_ok (bind ?x _) => destruct x as [s2| |] end; cbn [bind r_ok]; try exact Logic.I.
    destruct (_ && _); [|repeat constructor].
    match goal with |- r_ok (bind (reinit ?x ?y ?z) _) => pose proof (reinit_ok x y z ltac:(repeat constructor)) as H; destruct (reinit x y z) as [[[?|] o]| |] end;
      cbn [bind fst snd r_ok] in *; try exact Logic.I. exact H.
  - destruct (dummy_rts s tn usf); repeat constructor.
  - unfold rx_ul_ack. destruct (negb _); [constructor|].
    assert (H : match fsm_ul_ack s tn poll final est with Ok x => res_ok (snd x) | _ => True end).
    { unfold fsm_ul_ack. destruct (u s); try constructor;
        match goal with |- match bind ?x _ with _ => _ end => destruct x as [s1| |] end; cbn [bind snd]; try exact Logic.I; (destruct poll; [apply Forall_cons; [right; reflexivity|constructor]|constructor]). }
    destruct (fsm_ul_ack s tn poll final est) as [x| |]; cbn [bind]; try exact Logic.I.
    destruct (update_tx_cs (fst x) (cc + 1)); cbn [bind r_ok]; try exact Logic.I. exact H.
  - unfold data_cnf. destruct (u s); try constructor. destruct (_ && _); repeat constructor.
  - unfold timer_cb. destruct (negb (pend s)); [constructor|]. cbv zeta. destruct (_ =? 3164).
    + destruct (u _); try exact Logic.I. destruct (_ =? 4); [apply freed_ok; repeat constructor|apply reinit_ok; repeat constructor].
    + destruct (_ =? 3166); [|destruct (_ =? 3182); [apply freed_ok; repeat constructor|exact Logic.I]].
      destruct (u _); try exact Logic.I; (destruct (_ =? 4); [apply freed_ok; repeat constructor|apply reinit_ok; repeat constructor]).
  - unfold t3168_cb. destruct (negb _); [constructor|]. destruct (from_dl s); [repeat constructor|]. cbn. destruct (a s); try exact Logic.I.
    destruct (_ =? 4); repeat constructor.
  - unfold t3180_cb. destruct (t3180 s); repeat constructor.
Qed.
Lemma start_res_ok cs h : r_ok (start cs h).
Proof. destruct h as [[]| |]; cbn; repeat constructor. Qed.

(** *** The invariant of the context. *)
Definition uls (g : gre) : list Z := match g_ul g with Some (i, _) => [i] | None => [] end.
Definition dls (g : gre) : list Z := match g_dl g with Some d => [d_id d] | None => [] end.
Definition gre_ids (g : gre) : list Z := g_id g :: uls g ++ dls g.
Definition all_ids (l : list gre) : list Z := flat_map gre_ids l.
Definition gre_ok (g : gre) : Prop := match g_ul g with Some (_, b) => inv b | None => True end.
(** Who a reservation belongs to: a live uplink or downlink TBF, or an entity that may be gone. *)
Definition owner (s : sys) (n : node) : Prop :=
  ((n_reason n = 0 \/ n_reason n = 2) /\ exists g, In g (gres s) /\ In (n_who n) (uls g)) \/
  (n_reason n = 3 /\ exists g, In g (gres s) /\ In (n_who n) (dls g)) \/
  (n_reason n = 1 /\ n_who n < next s /\ forall g, In g (gres s) -> ~ In (n_who n) (uls g) /\ ~ In (n_who n) (dls g)).
Definition Inv (s : sys) : Prop :=
  NoDup (all_ids (gres s)) /\ Forall (fun i => i < next s) (all_ids (gres s)) /\ Forall gre_ok (gres s) /\ length (ulc s) = 8%nat /\
  forall ts n, In n (inorder (tree_of s ts)) -> owner s n.

Lemma nodup_app {A} (l1 l2 : list A) : NoDup (l1 ++ l2) <-> NoDup l1 /\ NoDup l2 /\ (forall x, In x l1 -> ~ In x l2).
Proof.
  induction l1 as [|x l1 IH]; cbn [app].
  - split; [intros H; repeat split; [constructor|exact H|intros x []]|tauto].
  - rewrite !NoDup_cons_iff, IH, in_app_iff. split.
    + intros (H1 & H2 & H3 & H4). repeat split; try tauto. intros y [<-|Hy]; [tauto|auto].
    + intros ((H1 & H2) & H3 & H4). repeat split; try tauto; [intros [H|H]; [tauto|exact (H4 x (or_introl eq_refl) H)]|]. intros y Hy. apply H4. now right.
Qed.
Lemma all_ids_mid A g B : all_ids (A ++ g :: B) = all_ids A ++ gre_ids g ++ all_ids B.
Proof. unfold all_ids. rewrite flat_map_app. reflexivity. Qed.
Lemma in_all_ids l i : In i (all_ids l) <-> exists g, In g l /\ In i (gre_ids g).
Proof. unfold all_ids. apply in_flat_map. Qed.
Lemma in_gre_ids g i : In i (gre_ids g) <-> i = g_id g \/ In i (uls g) \/ In i (dls g).
Proof. unfold gre_ids. cbn [In]. rewrite in_app_iff. intuition. Qed.
(** The number of an entity is not the number of a TBF. *)
Lemma id_not_tbf l g g2 : NoDup (all_ids l) -> In g l -> In g2 l -> ~ In (g_id g) (uls g2) /\ ~ In (g_id g) (dls g2).
Proof.
  intros N Hg H2. assert (X : ~ In (g_id g) (uls g2 ++ dls g2)); [|rewrite in_app_iff in X; tauto].
  apply in_split in Hg as (A & B & ->). rewrite all_ids_mid in N. rewrite !nodup_app in N. destruct N as (N1 & (N2 & N3 & N4) & N5).
  rewrite in_app_iff in H2. destruct H2 as [H2|[<-|H2]].
  - intros H. apply (N5 (g_id g)); [apply in_all_ids; exists g2; split; [exact H2|apply in_gre_ids; right; now apply in_app_iff]|].
    apply in_app_iff. left. apply in_gre_ids. now left.
  - unfold gre_ids in N2. apply NoDup_cons_iff in N2. tauto.
  - intros H. apply (N4 (g_id g)); [apply in_gre_ids; now left|]. apply in_all_ids. exists g2. split; [exact H2|apply in_gre_ids; right; now apply in_app_iff].
Qed.
Lemma upd_inv s s' A g B g' : Inv s -> gres s = A ++ g :: B -> gres s' = A ++ g' :: B -> g_id g' = g_id g -> gre_ok g' ->
  (forall i, In i (uls g') -> In i (uls g) \/ i = next s) -> (forall i, In i (dls g') -> In i (dls g) \/ i = next s) ->
  NoDup (uls g' ++ dls g') -> next s <= next s' -> (In (next s) (uls g' ++ dls g') -> next s < next s') -> length (ulc s') = 8%nat ->
  (forall ts n, In n (inorder (tree_of s' ts)) ->
     (In n (inorder (tree_of s ts)) /\ (In (n_who n) (uls g) -> In (n_who n) (uls g')) /\ (In (n_who n) (dls g) -> In (n_who n) (dls g'))) \/
     ((n_reason n = 0 \/ n_reason n = 2) /\ In (n_who n) (uls g')) \/ (n_reason n = 3 /\ In (n_who n) (dls g')) \/ (n_reason n = 1 /\ n_who n = g_id g)) ->
  Inv s'.
Proof.
  intros (I1 & I2 & I3 & I4 & I5) E E' Hid Hok Hu Hd Hn Hnx Hfr Hlen Ht.
  assert (Hgid : g_id g < next s). { rewrite Forall_forall in I2. apply I2. apply in_all_ids. exists g. rewrite E. split; [apply in_app_iff; right; now left|apply in_gre_ids; now left]. }
  assert (Hlt : forall x, In x (all_ids (gres s)) -> x < next s) by (now rewrite Forall_forall in I2).
  assert (NI : NoDup (gre_ids g')).
  { constructor; [|exact Hn]. rewrite in_app_iff, Hid. destruct (id_not_tbf (gres s) g g I1) as [X1 X2]; [rewrite E; apply in_app_iff; right; now left..|].
    intros [H|H]; [apply Hu in H as [H|H]|apply Hd in H as [H|H]]; try contradiction; lia. }
  assert (Hsub : forall i, In i (gre_ids g') -> In i (gre_ids g) \/ (i = next s /\ In i (uls g' ++ dls g'))).
  { intros i Hi. assert (Hi' := Hi). rewrite in_gre_ids in *. destruct Hi as [->|[Hi|Hi]]; [left; left; exact Hid| |].
    - destruct (Hu _ Hi) as [?|?]; [tauto|right; split; [assumption|apply in_app_iff; tauto]].
    - destruct (Hd _ Hi) as [?|?]; [tauto|right; split; [assumption|apply in_app_iff; tauto]]. }
  split; [|split; [|split; [|split]]].
  - rewrite E' in *. rewrite E in I1, Hlt. rewrite all_ids_mid in *. rewrite !nodup_app in *. destruct I1 as (N1 & (N2 & N3 & N4) & N5).
    repeat split; try assumption.
    + intros x Hx Hb. apply Hsub in Hx as [Hx|[-> _]]; [exact (N4 x Hx Hb)|]. apply (Z.lt_irrefl (next s)). apply Hlt. rewrite !in_app_iff. tauto.
    + intros x Hx Hb. apply in_app_iff in Hb as [Hb|Hb]; [|apply (N5 x Hx); apply in_app_iff; now right].
      apply Hsub in Hb as [Hb|[-> _]]; [apply (N5 x Hx); apply in_app_iff; now left|]. apply (Z.lt_irrefl (next s)). apply Hlt. rewrite !in_app_iff. tauto.
  - rewrite Forall_forall. intros x Hx. rewrite E', all_ids_mid, !in_app_iff in Hx. rewrite E, all_ids_mid in Hlt.
    destruct Hx as [Hx|[Hx|Hx]]; [apply Z.lt_le_trans with (next s); [apply Hlt; rewrite !in_app_iff; tauto|exact Hnx]| |apply Z.lt_le_trans with (next s); [apply Hlt; rewrite !in_app_iff; tauto|exact Hnx]].
    apply Hsub in Hx as [Hx|[-> Hx]]; [apply Z.lt_le_trans with (next s); [apply Hlt; rewrite !in_app_iff; tauto|exact Hnx]|auto].
  - rewrite E' , E in *. apply Forall_app in I3 as [J1 J2]. inversion J2; subst. apply Forall_app. split; [exact J1|]. constructor; assumption.
  - exact Hlen.
  - assert (HA : forall x, In x A -> In x (gres s) /\ In x (gres s')) by (intros x Hx; rewrite E, E', !in_app_iff; auto).
    assert (HB : forall x, In x B -> In x (gres s) /\ In x (gres s')) by (intros x Hx; rewrite E, E', !in_app_iff; cbn [In]; auto).
    assert (Hg' : In g' (gres s')) by (rewrite E', in_app_iff; cbn [In]; auto).
    assert (Hg : In g (gres s)) by (rewrite E, in_app_iff; cbn [In]; auto).
    assert (Hcase : forall x, In x (gres s) -> In x A \/ x = g \/ In x B) by (intros x Hx; rewrite E, in_app_iff in Hx; cbn [In] in Hx; intuition).
    assert (Hcase' : forall x, In x (gres s') -> In x A \/ x = g' \/ In x B) by (intros x Hx; rewrite E', in_app_iff in Hx; cbn [In] in Hx; intuition).
    intros ts n Hin. destruct (Ht ts n Hin) as [(H1 & H2 & H3)|[(H1 & H2)|[(H1 & H2)|(H1 & H2)]]].
    + destruct (I5 ts n H1) as [(R & x & Hx & Hw)|[(R & x & Hx & Hw)|(R & Hw & Hall)]].
      * left. split; [exact R|]. destruct (Hcase x Hx) as [Hc|[->|Hc]]; [exists x; split; [apply HA|]; assumption|exists g'; auto|exists x; split; [apply HB|]; assumption].
      * right; left. split; [exact R|]. destruct (Hcase x Hx) as [Hc|[->|Hc]]; [exists x; split; [apply HA|]; assumption|exists g'; auto|exists x; split; [apply HB|]; assumption].
      * right; right. split; [exact R|]. split; [lia|]. intros x Hx. destruct (Hcase' x Hx) as [Hc|[->|Hc]]; [apply Hall, HA, Hc| |apply Hall, HB, Hc].
        destruct (Hall g Hg) as [X1 X2]. split; intros Hc; [destruct (Hu _ Hc)|destruct (Hd _ Hc)]; try contradiction; lia.
    + left. split; [exact H1|]. exists g'. auto.
    + right; left. split; [exact H1|]. exists g'. auto.
    + right; right. split; [exact H1|]. rewrite H2. split; [lia|]. intros x Hx. destruct (Hcase' x Hx) as [Hc|[->|Hc]].
      * apply (id_not_tbf (gres s)); [exact I1|exact Hg|apply HA, Hc].
      * destruct (id_not_tbf (gres s) g g I1 Hg Hg) as [X1 X2]. split; intros Hc; [destruct (Hu _ Hc)|destruct (Hd _ Hc)]; try contradiction; lia.
      * apply (id_not_tbf (gres s)); [exact I1|exact Hg|apply HB, Hc].
Qed.

Lemma find_gre_in s i g : find_gre s i = Some g -> In g (gres s) /\ g_id g = i.
Proof. intros H. apply find_some in H as [H1 H2]. split; [exact H1|lia]. Qed.
Lemma find_ul_in s i g : find_ul s i = Some g -> In g (gres s) /\ exists b, g_ul g = Some (i, b).
Proof.
  intros H. apply find_some in H as [H1 H2]. split; [exact H1|]. unfold has_ul in H2. destruct (g_ul g) as [[j b]|]; [|discriminate]. exists b. f_equal. f_equal. lia.
Qed.
Lemma find_dl_in s i g : find_dl s i = Some g -> In g (gres s) /\ exists d, g_dl g = Some d /\ d_id d = i.
Proof.
  intros H. apply find_some in H as [H1 H2]. split; [exact H1|]. unfold has_dl in H2. destruct (g_dl g) as [d|]; [|discriminate]. exists d. split; [reflexivity|lia].
Qed.
Lemma find_ul_ex s i : (exists g, In g (gres s) /\ In i (uls g)) -> exists g, find_ul s i = Some g.
Proof.
  intros (g & Hg & Hi). destruct (find_ul s i) as [g'|] eqn:E; [eauto|]. apply find_none with (x := g) in E; [|exact Hg].
  unfold has_ul, uls in *. destruct (g_ul g) as [[j b]|]; [|destruct Hi]. destruct Hi as [->|[]]. rewrite Z.eqb_refl in E. discriminate.
Qed.
Lemma find_dl_ex s i : (exists g, In g (gres s) /\ In i (dls g)) -> exists g, find_dl s i = Some g.
Proof.
  intros (g & Hg & Hi). destruct (find_dl s i) as [g'|] eqn:E; [eauto|]. apply find_none with (x := g) in E; [|exact Hg].
  unfold has_dl, dls in *. destruct (g_dl g) as [d|]; [|destruct Hi]. destruct Hi as [<-|[]]. rewrite Z.eqb_refl in E. discriminate.
Qed.
Lemma gres_split s g : Inv s -> In g (gres s) -> exists A B, gres s = A ++ g :: B /\
  forall s2 g', gres s2 = gres s -> g_id g' = g_id g -> gres (set_gre s2 g') = A ++ g' :: B.
Proof.
  intros (N & _) H. apply in_split in H as (A & B & E). exists A, B. split; [exact E|]. intros s2 g' E2 Hid. unfold set_gre. cbn [gres]. rewrite E2, E, map_app. cbn [map].
  rewrite E, all_ids_mid, !nodup_app in N. destruct N as (N1 & (N2 & N3 & N4) & N5).
  assert (forall l, (forall x, In x l -> g_id x <> g_id g) -> map (fun x => if g_id x =? g_id g' then g' else x) l = l) as X.
  { intros l Hl. rewrite <- (map_id l) at 2. apply map_ext_in. intros x Hx. specialize (Hl x Hx). destruct (Z.eqb_spec (g_id x) (g_id g')); [congruence|reflexivity]. }
  rewrite Hid in *. rewrite Z.eqb_refl. rewrite !X; [reflexivity| |].
  - intros x Hx Hc. apply (N4 (g_id g)); [apply in_gre_ids; now left|]. apply in_all_ids. exists x. split; [exact Hx|]. apply in_gre_ids. left. auto.
  - intros x Hx Hc. apply (N5 (g_id g)); [apply in_all_ids; exists x; split; [exact Hx|apply in_gre_ids; left; auto]|]. apply in_app_iff. left. apply in_gre_ids. now left.
Qed.

(** *** What the operations on the trees do to the reservations. *)
Lemma nth_upd {A} (l : list A) m v k d : nth k (upd l m v) d = nth k l d \/ (k = m /\ (m < length l)%nat /\ nth k (upd l m v) d = v).
Proof.
  revert m k. induction l as [|x l IH]; intros [|m] [|k]; cbn [upd nth]; try (left; reflexivity).
  - right. repeat split; cbn; lia.
  - destruct (IH m k) as [H|(-> & H1 & H2)]; [left; exact H|right]. repeat split; [cbn; lia|exact H2].
Qed.
Lemma nth_upd_same {A} (l : list A) m v d : (m < length l)%nat -> nth m (upd l m v) d = v.
Proof. revert m. induction l as [|x l IH]; intros [|m] H; cbn in *; try lia; [reflexivity|]. apply IH. lia. Qed.
Lemma upd_length {A} (l : list A) m v : length (upd l m v) = length l.
Proof. revert m. induction l as [|x l IH]; intros [|m]; cbn; [reflexivity..|]. now rewrite IH. Qed.
Lemma tree_set s ts t ts' n : In n (inorder (tree_of (set_tree s ts t) ts')) -> In n (inorder (tree_of s ts')) \/ (tree_of s ts' = tree_of s ts /\ In n (inorder t)).
Proof.
  unfold tree_of, set_tree. cbn [ulc]. destruct (nth_upd (ulc s) (Z.to_nat ts) t (Z.to_nat ts') Leaf) as [->|(-> & _ & ->)]; auto.
Qed.
Section Ops.
  Variable rb : rb_ops.
  Hypothesis Hrb : tree_library rb.
  Lemma tree_release s i ts n : In n (inorder (tree_of (release_all rb s i) ts)) -> In n (inorder (tree_of s ts)) /\ n_who n <> i.
  Proof.
    unfold tree_of, release_all. cbn [ulc]. pose proof (map_nth (fun t => release_tbf rb t i) (ulc s) Leaf (Z.to_nat ts)) as M. cbv beta in M. change (release_tbf rb Leaf i) with Leaf in M.
    rewrite M. apply release_in. exact Hrb.
  Qed.
  Lemma tree_reserve s ts fn r w ts' n : In n (inorder (tree_of (reserve_at rb s ts fn r w) ts')) -> In n (inorder (tree_of s ts')) \/ n = mkNode fn r w.
  Proof.
    unfold reserve_at. intros H. apply tree_set in H as [H|[E H]]; [auto|]. apply reserve_in in H; [|exact Hrb]. rewrite E. exact H.
  Qed.
  Lemma reserve_outs_spec who o : forall s, res_ok o -> gres (reserve_outs rb s who o) = gres s /\ next (reserve_outs rb s who o) = next s /\
    length (ulc (reserve_outs rb s who o)) = length (ulc s) /\
    forall ts n, In n (inorder (tree_of (reserve_outs rb s who o) ts)) -> In n (inorder (tree_of s ts)) \/ ((n_reason n = 0 \/ n_reason n = 2) /\ n_who n = who).
  Proof.
    induction o as [|x o IH]; intros s H; cbn [reserve_outs]; [auto|]. inversion H as [|? ? Hx Ho]; subst.
    assert (D : forall s1, reserve_outs rb s1 who o = reserve_outs rb s1 who o) by reflexivity.
    destruct x; try (exact (IH s Ho)).
    destruct (IH (reserve_at rb s tn fn reason who) Ho) as (E1 & E2 & E3 & E4). rewrite E1, E2, E3. unfold reserve_at at 1 2 3, set_tree. cbn [gres next ulc].
    rewrite upd_length. repeat split; try reflexivity. intros ts n Hn. apply E4 in Hn as [Hn|Hn]; [|auto]. apply tree_reserve in Hn as [Hn| ->]; [auto|]. right. cbn. auto.
  Qed.

  Lemma blocks_app o1 o2 : blocks (o1 ++ o2) = blocks o1 ++ blocks o2.
  Proof. induction o1 as [|x o1 IH]; [reflexivity|]. destruct x; cbn [app blocks]; rewrite ?IH; reflexivity. Qed.
  Lemma blocks_ul i o : blocks (map (UlDid i) o) = [].
  Proof. induction o as [|x o IH]; [reflexivity|exact IH]. Qed.
  Lemma blocks_idle g : blocks (idle_out g) = [].
  Proof. unfold idle_out. destruct (g_ul g), (g_dl g); reflexivity. Qed.

  Definition same_ctx (s s2 : sys) : Prop := gres s2 = gres s /\ ulc s2 = ulc s /\ next s <= next s2.
  Definition tbf_inv (x : option tbf * list out) : Prop := res_ok (snd x) /\ match fst x with Some b => inv b | None => True end.

  Lemma ul_result_spec s s2 A g B i x : Inv s -> same_ctx s s2 -> gres s = A ++ g :: B ->
    (forall s3 g', gres s3 = gres s -> g_id g' = g_id g -> gres (set_gre s3 g') = A ++ g' :: B) ->
    (uls g = [i] \/ (uls g = [] /\ i = next s /\ next s < next s2)) -> tbf_inv x ->
    exists s' o, ul_result rb s2 g i (Ok x) = Ok (s', o) /\ Inv s' /\ blocks o = [] /\
      gres s' = A ++ with_ul g (match fst x with Some b => Some (i, b) | None => None end) :: B /\ next s' = next s2.
  Proof.
    intros I (Eg & Eu & En) E Es Hi (Hr & Hb). unfold ul_result. cbn [bind]. destruct x as [st o]. cbn [fst snd] in *.
    destruct (reserve_outs_spec i o s2 Hr) as (R1 & R2 & R3 & R4).
    assert (Hnd : NoDup (dls g)) by (unfold dls; destruct (g_dl g); repeat constructor; intros []).
    assert (Hdis : forall k, In k (uls g) -> ~ In k (dls g)).
    { destruct I as (N & _). rewrite E, all_ids_mid, !nodup_app in N. destruct N as (_ & (N2 & _) & _). unfold gre_ids in N2. apply NoDup_cons_iff in N2 as [_ N2]. apply nodup_app in N2. tauto. }
    assert (Hdn : forall k, In k (dls g) -> k < next s).
    { intros k Hk. destruct I as (_ & N & _). rewrite Forall_forall in N. apply N. apply in_all_ids. exists g. split; [rewrite E; apply in_app_iff; right; now left|apply in_gre_ids; auto]. }
    destruct st as [b|].
    - eexists _, _. split; [reflexivity|]. split; [|split; [apply blocks_ul|split; [apply Es; [congruence|reflexivity]|cbn; congruence]]].
      apply (upd_inv s _ A g B (with_ul g (Some (i, b)))); try assumption; try reflexivity.
      + apply Es; [congruence|reflexivity].
      + intros k [<-|[]]. destruct Hi as [->|(_ & -> & _)]; [left; now left|right; reflexivity].
      + intros k Hk. left. exact Hk.
      + cbn [uls with_ul g_ul]. change (dls (with_ul g (Some (i, b)))) with (dls g). cbn [app]. constructor; [|exact Hnd].
        destruct Hi as [Hi|(_ & -> & _)]; [apply Hdis; rewrite Hi; now left|]. intros Hk. specialize (Hdn _ Hk). lia.
      + cbn [next set_gre]. rewrite R2. exact En.
      + cbn [uls with_ul g_ul]. change (dls (with_ul g (Some (i, b)))) with (dls g). cbn [app next set_gre]. rewrite R2. intros [Hk|Hk].
        * destruct Hi as [Hi|(_ & _ & Hl)]; [|exact Hl]. exfalso. destruct I as (_ & N & _). rewrite Forall_forall in N. specialize (N i). apply Z.lt_irrefl with i. rewrite Hk at 2. apply N. apply in_all_ids.
          exists g. split; [rewrite E; apply in_app_iff; right; now left|apply in_gre_ids; right; left; rewrite Hi; now left].
        * specialize (Hdn _ Hk). lia.
      + cbn [ulc set_gre]. rewrite R3, Eu. apply I.
      + intros ts n Hn. apply R4 in Hn as [Hn|(Hn1 & Hn2)].
        * left. split; [unfold tree_of in *; now rewrite <- Eu|]. split; [|auto]. intros Hk. destruct Hi as [Hi|(Hi & _)]; rewrite Hi in Hk; [|destruct Hk]. destruct Hk as [<-|[]]. now left.
        * right; left. split; [exact Hn1|]. rewrite Hn2. now left.
    - eexists _, _. split; [reflexivity|]. split; [|split; [rewrite blocks_app, blocks_ul, blocks_idle; reflexivity|split; [apply Es; [cbn; congruence|reflexivity]|cbn; congruence]]].
      apply (upd_inv s _ A g B (with_ul g None)); try assumption; try reflexivity.
      + apply Es; [cbn; congruence|reflexivity].
      + intros k [].
      + intros k Hk. left. exact Hk.
      + cbn [next set_gre release_all]. rewrite R2. exact En.
      + intros Hk. specialize (Hdn _ Hk). lia.
      + cbn [ulc set_gre release_all]. rewrite map_length, R3, Eu. apply I.
      + intros ts n Hn. apply tree_release in Hn as [Hn Hne]. apply R4 in Hn as [Hn|(Hn1 & Hn2)]; [|contradiction].
        left. split; [unfold tree_of in *; now rewrite <- Eu|]. split; [|auto]. intros Hk. destruct Hi as [Hi|(Hi & _)]; rewrite Hi in Hk; [|destruct Hk]. destruct Hk as [Hk|[]]; congruence.
  Qed.
End Ops.

(** *** Looking up owners. *)
Lemma in_ids_inj l g1 g2 i : NoDup (all_ids l) -> In g1 l -> In g2 l -> In i (gre_ids g1) -> In i (gre_ids g2) -> g1 = g2.
Proof.
  induction l as [|g l IH]; intros N H1 H2 I1 I2; [destruct H1|]. cbn [all_ids flat_map] in N. apply nodup_app in N as (N1 & N2 & N3).
  destruct H1 as [->|H1], H2 as [->|H2]; [reflexivity| | |exact (IH N2 H1 H2 I1 I2)];
    exfalso; apply (N3 i); try assumption; apply in_all_ids; eauto.
Qed.
Lemma find_ul_eq s g i b : Inv s -> In g (gres s) -> g_ul g = Some (i, b) -> find_ul s i = Some g.
Proof.
  intros (N & _) H E. destruct (find_ul_ex s i) as [g' F]; [exists g; split; [exact H|unfold uls; rewrite E; now left]|].
  rewrite F. f_equal. apply find_ul_in in F as (H' & b' & E'). apply (in_ids_inj _ _ _ i N H' H); apply in_gre_ids; right; left; unfold uls; rewrite ?E, ?E'; now left.
Qed.
Lemma find_dl_eq s g d : Inv s -> In g (gres s) -> g_dl g = Some d -> find_dl s (d_id d) = Some g.
Proof.
  intros (N & _) H E. destruct (find_dl_ex s (d_id d)) as [g' F]; [exists g; split; [exact H|unfold dls; rewrite E; now left]|].
  rewrite F. f_equal. apply find_dl_in in F as (H' & d' & E' & Hd). apply (in_ids_inj _ _ _ (d_id d) N H' H); apply in_gre_ids; right; right; unfold dls; rewrite ?E, ?E'; now left.
Qed.
Lemma find_gre_eq s g : Inv s -> In g (gres s) -> find_gre s (g_id g) = Some g.
Proof.
  intros (N & _) H. destruct (find_gre s (g_id g)) as [g'|] eqn:F.
  - f_equal. apply find_gre_in in F as (H' & E'). apply (in_ids_inj _ _ _ (g_id g) N H' H); apply in_gre_ids; left; congruence.
  - apply find_none with (x := g) in F; [|exact H]. rewrite Z.eqb_refl in F. discriminate.
Qed.
(** Facts about the entity that changes. *)
Lemma one_gre s A g B : Inv s -> gres s = A ++ g :: B ->
  In g (gres s) /\ NoDup (uls g ++ dls g) /\ gre_ok g /\ (forall i, In i (uls g) -> i < next s) /\ (forall i, In i (dls g) -> i < next s).
Proof.
  intros (N & M & O & _) E. assert (H : In g (gres s)) by (rewrite E, in_app_iff; cbn; auto). split; [exact H|]. rewrite Forall_forall in M, O.
  split; [|split; [auto|split; intros i Hi; apply M, in_all_ids; exists g; split; try assumption; apply in_gre_ids; auto]].
  rewrite E, all_ids_mid, !nodup_app in N. destruct N as (_ & (N & _) & _). unfold gre_ids in N. now apply NoDup_cons_iff in N.
Qed.

Lemma hasU_mid s A g B i b : gres s = A ++ g :: B -> hasU s i b <-> g_ul g = Some (i, b) \/ exists x, (In x A \/ In x B) /\ g_ul x = Some (i, b).
Proof.
  intros E. unfold hasU. rewrite E. setoid_rewrite in_app_iff. cbn [In]. split.
  - intros (x & [H|[->|H]] & Hx); eauto 6.
  - intros [H|(x & [H|H] & Hx)]; eauto 6.
Qed.
Lemma hasU_inv s i b : Inv s -> hasU s i b -> inv b.
Proof. intros (_ & _ & O & _) (g & H & E). rewrite Forall_forall in O. specialize (O g H). unfold gre_ok in O. now rewrite E in O. Qed.

Section Ops2.
  Variable rb : rb_ops.
  Hypothesis Hrb : tree_library rb.

  (** *** Downlink TBFs. *)
  Lemma dl_complete_spec s A g B tfi sl : Inv s -> gres s = A ++ g :: B ->
    (forall s3 g', gres s3 = gres s -> g_id g' = g_id g -> gres (set_gre s3 g') = A ++ g' :: B) ->
    let x := dl_complete rb s g tfi sl in
    Inv (fst x) /\ blocks (snd x) = [] /\ next (fst x) = next s + 1 /\
    gres (fst x) = A ++ mkGre (g_id g) (g_ul g) (Some (mkDl (next s) false tfi sl true false)) None (g_q g) :: B.
  Proof.
    intros I E Es x. destruct (one_gre s A g B I E) as (Hg & Hnd & Hok & Hlu & Hld). unfold dl_complete in x. subst x. cbn [fst snd].
    set (s0 := match g_dl g with Some d => release_all rb (alloc_id s) (d_id d) | None => alloc_id s end).
    assert (G0 : gres s0 = gres s /\ next s0 = next s + 1 /\ length (ulc s0) = 8%nat).
    { destruct I as (_ & _ & _ & L & _). unfold s0. destruct (g_dl g); cbn; rewrite ?map_length; auto. }
    destruct G0 as (G0 & G1 & G2).
    assert (T0 : forall ts n, In n (inorder (tree_of s0 ts)) -> In n (inorder (tree_of s ts)) /\ ~ In (n_who n) (dls g)).
    { intros ts n. unfold s0, dls. destruct (g_dl g) as [d|]; [|intros H; split; [exact H|intros []]].
      intros H. apply tree_release in H as [H1 H2]; [|exact Hrb]. split; [exact H1|]. intros [H|[]]; congruence. }
    split; [|split; [reflexivity|split; [exact G1|apply Es; [exact G0|reflexivity]]]].
    apply (upd_inv s _ A g B (with_ass (with_dl g (Some (mkDl (next s) false tfi sl true false))) None)); try assumption; try reflexivity.
    - apply Es; [exact G0|reflexivity].
    - intros i Hi. left. exact Hi.
    - intros i [<-|[]]. right. reflexivity.
    - change (uls (with_ass (with_dl g (Some (mkDl (next s) false tfi sl true false))) None)) with (uls g).
      change (dls (with_ass (with_dl g (Some (mkDl (next s) false tfi sl true false))) None)) with [next s].
      apply nodup_app in Hnd as (H1 & _ & _). apply nodup_app. repeat split; [exact H1|repeat constructor; intros []|]. intros i Hi [<-|[]]. specialize (Hlu _ Hi). lia.
    - cbn [next set_gre]. lia.
    - intros _. cbn [next set_gre]. lia.
    - intros ts n Hn. apply T0 in Hn as [H1 H2]. left. split; [exact H1|]. split; [intros H; exact H|contradiction].
  Qed.
  Lemma dl_free_spec s A g B : Inv s -> gres s = A ++ g :: B ->
    (forall s3 g', gres s3 = gres s -> g_id g' = g_id g -> gres (set_gre s3 g') = A ++ g' :: B) ->
    let x := dl_free rb s g in Inv (fst x) /\ blocks (snd x) = [] /\ gres (fst x) = A ++ with_dl g None :: B /\ next (fst x) = next s.
  Proof.
    intros I E Es x. destruct (one_gre s A g B I E) as (Hg & Hnd & Hok & Hlu & Hld). unfold dl_free in x. subst x.
    destruct (g_dl g) as [d|] eqn:Ed; cbn [fst snd].
    2: { split; [exact I|]. split; [reflexivity|]. split; [|reflexivity]. rewrite E. f_equal. f_equal. unfold with_dl. rewrite <- Ed. destruct g; reflexivity. }
    split; [|split; [apply blocks_idle|split; [apply Es; reflexivity|reflexivity]]].
    apply (upd_inv s _ A g B (with_dl g None)); try assumption; try reflexivity.
    - apply Es; reflexivity.
    - intros i Hi. left. exact Hi.
    - intros i [].
    - change (uls (with_dl g None)) with (uls g). change (dls (with_dl g None)) with (@nil Z). rewrite app_nil_r. now apply nodup_app in Hnd.
    - change (uls (with_dl g None)) with (uls g). change (dls (with_dl g None)) with (@nil Z). rewrite app_nil_r. intros H. specialize (Hlu _ H). lia.
    - cbn [set_gre release_all ulc]. rewrite map_length. apply I.
    - intros ts n Hn. apply tree_release in Hn as [H1 H2]; [|exact Hrb]. left. split; [exact H1|]. split; [intros H; exact H|]. unfold dls. rewrite Ed. intros [H|[]]. congruence.
  Qed.

  (** *** The tick. *)
  Lemma step_tbf_inv bs b e x : inv b -> UlTbfModel.step bs b e = Ok x -> tbf_inv x.
  Proof.
    intros I E. pose proof (step_ok bs b e I) as P. pose proof (step_res_ok bs b e) as R. rewrite E in *. split; [exact R|].
    destruct x as [[b'|] o]; cbn in *; tauto.
  Qed.
  Lemma rts_tick_st2 b ts fn b' o : UlTbfModel.rts_tick b ts fn = Ok (Some b', o) -> a b' = STARTING_TIME2 -> b' = b.
  Proof.
    unfold UlTbfModel.rts_tick. destruct (a b) eqn:Ea; unfold alive; try (intros [= <- _] _; reflexivity).
    - destruct (_ || _); [discriminate|]. destruct (_ || _); [intros [= <- _]; auto|]. destruct (two b); [intros [= <- _]; cbn; discriminate|].
      unfold complete. cbv zeta. destruct (u _); cbn; intros [= <- _]; cbn; discriminate.
    - destruct (_ || _); [discriminate|]. destruct (_ || _); [intros [= <- _]; auto|].
      unfold complete. cbv zeta. destruct (u _); cbn; intros [= <- _]; cbn; discriminate.
  Qed.
  Lemma rts_tick_alive b ts fn x : UlTbfModel.rts_tick b ts fn = Ok x -> exists b', fst x = Some b'.
  Proof.
    unfold UlTbfModel.rts_tick, alive. destruct (a b); try (intros [= <-]; eexists; reflexivity);
      (destruct (_ || _); [discriminate|]; destruct (_ || _); [intros [= <-]; eexists; reflexivity|]).
    - destruct (two b); [intros [= <-]; eexists; reflexivity|]. unfold complete. cbv zeta. destruct (u _); cbn; intros [= <-]; eexists; reflexivity.
    - unfold complete. cbv zeta. destruct (u _); cbn; intros [= <-]; eexists; reflexivity.
  Qed.
  Lemma tick_gre_spec s i ts fn : Inv s ->
    match tick_gre rb s i ts fn with
    | Ok (s', o) => Inv s' /\ blocks o = [] /\ (forall j b, hasU s' j b -> a b = STARTING_TIME2 -> hasU s j b)
    | Err _ => False
    | UB => tick_cause s
    end.
  Proof.
    intros I. unfold tick_gre. destruct (find_gre s i) as [g|] eqn:F; [|repeat split; auto; apply I].
    apply find_gre_in in F as (Hg & Hi). destruct (gres_split s g I Hg) as (A & B & E & Es).
    assert (X : match (match g_ul g with Some (j, b) => ul_result rb s g j (UlTbfModel.rts_tick b ts fn) | None => Ok (s, []) end) with
                | Ok (s', o) => Inv s' /\ blocks o = [] /\ (exists g', gres s' = A ++ g' :: B /\ g_id g' = g_id g) /\ (forall j b, hasU s' j b -> a b = STARTING_TIME2 -> hasU s j b)
                | Err _ => False | UB => tick_cause s end).
    { destruct (g_ul g) as [[j b]|] eqn:Eu; [|split; [exact I|split; [reflexivity|split; [eauto|auto]]]].
      assert (Ib : inv b) by (apply (hasU_inv s j b I); exists g; auto).
      pose proof (step_Tick 0 b ts fn Ib) as P. cbn [UlTbfModel.step] in P.
      destruct (UlTbfModel.rts_tick b ts fn) as [x|?|] eqn:Er; [|exact P|exists j, b; repeat split; [exists g; auto|apply P..]].
      assert (Hx : tbf_inv x) by (apply (step_tbf_inv 0 b (Tick ts fn)); assumption).
      destruct (ul_result_spec rb Hrb s s A g B j x I) as (s' & o & -> & I' & Bo & G' & _); try assumption; [repeat split; auto; lia|left; unfold uls; now rewrite Eu|].
      split; [exact I'|split; [exact Bo|split; [eauto|]]]. intros k c Hk Hc. apply (hasU_mid _ _ _ _ _ _ G') in Hk. apply (hasU_mid s A g B _ _ E).
      destruct Hk as [Hk|Hk]; [|auto]. cbn [with_ul g_ul] in Hk. destruct x as [[b'|] o']; cbn [fst] in Hk; [|discriminate]. injection Hk as -> ->.
      left. rewrite Eu. f_equal. f_equal. symmetry. exact (rts_tick_st2 b ts fn c o' Er Hc). }
    destruct (match g_ul g with Some (j, b) => _ | None => _ end) as [[s1 o1]|?|]; cbn [bind fst snd]; [|exact X..].
    destruct X as (I1 & B1 & (g1 & G1 & H1) & U1). destruct (find_gre s1 i) as [g2|] eqn:F; [|auto].
    apply find_gre_in in F as (Hg2 & Hi2). destruct (gres_split s1 g2 I1 Hg2) as (A2 & B2 & E2 & Es2).
    unfold dl_tick. destruct (g_ass g2) as [w|]; [|cbn [fst snd]; rewrite blocks_app, B1; auto].
    destruct (_ || _); [cbn [fst snd]; rewrite blocks_app, B1; auto|].
    destruct (dl_complete_spec s1 A2 g2 B2 (w_tfi w) (w_slots w) I1 E2 Es2) as (I3 & B3 & _ & G3). rewrite blocks_app, B1, B3. split; [exact I3|]. split; [reflexivity|].
    intros k c Hk Hc. apply U1; [|exact Hc]. apply (hasU_mid _ _ _ _ _ _ G3) in Hk. apply (hasU_mid s1 A2 g2 B2 _ _ E2). exact Hk.
  Qed.
  Lemma tick_spec ids ts fn : forall s, Inv s ->
    match tick rb s ids ts fn with
    | Ok (s', o) => Inv s' /\ blocks o = [] /\ (forall j b, hasU s' j b -> a b = STARTING_TIME2 -> hasU s j b)
    | Err _ => False
    | UB => tick_cause s
    end.
  Proof.
    induction ids as [|i ids IH]; intros s I; cbn [tick]; [repeat split; auto; apply I|].
    pose proof (tick_gre_spec s i ts fn I) as P. destruct (tick_gre rb s i ts fn) as [[s1 o1]|?|]; cbn [bind fst snd]; [|exact P..].
    destruct P as (I1 & B1 & U1). specialize (IH s1 I1). destruct (tick rb s1 ids ts fn) as [[s2 o2]|?|]; cbn [bind fst snd]; [|exact IH|].
    - destruct IH as (I2 & B2 & U2). rewrite blocks_app, B1, B2. split; [exact I2|]. split; [reflexivity|]. intros j b H1 H2. apply U1; [apply U2|]; assumption.
    - destruct IH as (j & b & H1 & H2 & H3). exists j, b. repeat split; try assumption. apply U1; assumption.
  Qed.
End Ops2.

(** *** The selection. *)
(** What failed attempts leave: TBFs under assignment stay, new ones have no timeslots yet. *)
Definition keep (s s' : sys) : Prop := forall i b, hasU s i b -> a b <> IDLE -> hasU s' i b.
Definition older (s s' : sys) : Prop := forall i b, hasU s' i b -> hasU s i b \/ cur b = alloc0.
Lemma keep_refl s s' : gres s' = gres s -> keep s s' /\ older s s'.
Proof. intros E. unfold keep, older, hasU. rewrite E. split; auto. Qed.
Lemma keep_trans s1 s2 s3 : keep s1 s2 /\ older s1 s2 -> keep s2 s3 /\ older s2 s3 -> keep s1 s3 /\ older s1 s3.
Proof.
  intros (K1 & O1) (K2 & O2). split; [intros i b H Ha; apply K2; [apply K1|]; assumption|].
  intros i b H. apply O2 in H as [H|H]; [|auto]. apply O1 in H as [H|H]; auto.
Qed.
Lemma keep_mid s s' A g B g' : gres s = A ++ g :: B -> gres s' = A ++ g' :: B ->
  (forall i b, g_ul g = Some (i, b) -> a b <> IDLE -> g_ul g' = Some (i, b)) ->
  (forall i b, g_ul g' = Some (i, b) -> g_ul g = Some (i, b) \/ cur b = alloc0) -> keep s s' /\ older s s'.
Proof.
  intros E E' K O. split; intros i b H.
  - intros Ha. apply (hasU_mid _ _ _ _ _ _ E) in H. apply (hasU_mid _ _ _ _ _ _ E'). destruct H as [H|H]; auto.
  - apply (hasU_mid _ _ _ _ _ _ E') in H. destruct H as [H|H]; [|left; apply (hasU_mid _ _ _ _ _ _ E); auto].
    apply O in H as [H|H]; [left; apply (hasU_mid _ _ _ _ _ _ E); auto|auto].
Qed.
Lemma set_gre_same s g : Inv s -> In g (gres s) -> gres (set_gre s g) = gres s.
Proof. intros I H. destruct (gres_split s g I H) as (A & B & E & Es). rewrite (Es s g eq_refl eq_refl), E. reflexivity. Qed.
(** The invariant does not depend on the order of things other than those it names. *)
Lemma inv_ext s s' : Inv s -> gres s' = gres s -> next s' = next s -> length (ulc s') = 8%nat ->
  (forall ts n, In n (inorder (tree_of s' ts)) -> In n (inorder (tree_of s ts))) -> Inv s'.
Proof.
  intros (I1 & I2 & I3 & I4 & I5) E N L T. unfold Inv, owner. rewrite E, N. repeat split; try assumption. intros ts n H. exact (I5 ts n (T ts n H)).
Qed.

Section Select.
  Variable rb : rb_ops.
  Hypothesis Hrb : tree_library rb.
  Variable bs cs0 : Z.
  Variable enc : encoding -> bool.
  Definition all_enc : Prop := forall e, enc e = true.

  Lemma candidate_spec s n : (exists ts, In n (inorder (tree_of s ts))) -> Inv s ->
    (n_reason n = 0 /\ candidate s n = Ok (Some (UlAssPoll (n_who n))) /\ exists g b, In g (gres s) /\ g_ul g = Some (n_who n, b)) \/
    (n_reason n = 1 /\ candidate s n = Ok (Some (DlAssPoll (n_who n)))) \/
    (n_reason n = 2 /\ exists g b, In g (gres s) /\ g_ul g = Some (n_who n, b) /\
       candidate s n = Ok (Some (if can_request_new g b then UlAckNew (n_who n) else UlAckPoll (n_who n)))) \/
    (n_reason n = 3 /\ exists g d, In g (gres s) /\ g_dl g = Some d /\ d_id d = n_who n /\
       candidate s n = Ok (Some (if d_fin d then DlAckFinal (n_who n) else DlAckPoll (n_who n)))).
  Proof.
    intros (ts & H) I. assert (O := proj2 (proj2 (proj2 (proj2 I))) ts n H). unfold candidate.
    destruct O as [(R & O)|[(R & O)|(R & _)]].
    - destruct (find_ul_ex s _ O) as (g & F). destruct (find_ul_in _ _ _ F) as (Hg & b & Hb). destruct R as [R|R]; rewrite R.
      + left. repeat split. eauto.
      + right; right; left. split; [reflexivity|]. exists g, b. repeat split; auto. rewrite F, Hb. cbn. destruct (can_request_new g b); reflexivity.
    - destruct (find_dl_ex s _ O) as (g & F). destruct (find_dl_in _ _ _ F) as (Hg & d & Hd & E). rewrite R. right; right; right. split; [reflexivity|].
      exists g, d. repeat split; auto. rewrite F, Hd. cbn. rewrite E. destruct (d_fin d); reflexivity.
    - right; left. rewrite R. split; reflexivity.
  Qed.

  Lemma create_ass_spec s g i b ok : Inv s -> In g (gres s) -> g_ul g = Some (i, b) ->
    exists s' x, create_ass s i ok = Ok (s', [], x) /\ Inv s' /\ ulc s' = ulc s /\
      x = (match a b with
           | SCHED_PKT_RES_REQ => if ok then Some (BResReq i) else None
           | STARTING_TIME2 => if ok then Some (BCtrlAck (g_id g)) else None
           | _ => None
           end) /\ (x = None -> gres s' = gres s).
  Proof.
    intros I Hg Eu. unfold create_ass. rewrite (find_ul_eq s g i b I Hg Eu), Eu. assert (Ib : inv b) by (apply (hasU_inv s i b I); exists g; auto).
    pose proof (step_msg 0 b (AssPoll ok) ok Ib (fun H => H)) as P.
    assert (X : exists b' o, create_rlcmac_msg b ok = Ok (Some b', o) /\ ass_blk g i o = match a b with SCHED_PKT_RES_REQ => if ok then Some (BResReq i) else None
           | STARTING_TIME2 => if ok then Some (BCtrlAck (g_id g)) else None | _ => None end /\ (ass_blk g i o = None -> b' = b)).
    { unfold create_rlcmac_msg, alive. destruct (a b); try (exists b, []; repeat split; reflexivity); destruct ok; eexists _, _; (split; [reflexivity|]); split; try reflexivity; intros; try reflexivity; discriminate. }
    destruct X as (b' & o & E & Ex & Eb). rewrite E in P |- *. cbn [bind fst snd]. eexists _, _. split; [reflexivity|].
    destruct (gres_split s g I Hg) as (A & B & Es & Es'). destruct (one_gre s A g B I Es) as (_ & Hnd & _ & Hlu & Hld).
    assert (Hu : uls (with_ul g (Some (i, b'))) = uls g) by (unfold uls; cbn; rewrite Eu; reflexivity).
    split; [|split; [reflexivity|split; [exact Ex|]]].
    - apply (upd_inv s _ A g B (with_ul g (Some (i, b')))); try assumption; try reflexivity.
      + apply Es'; reflexivity.
      + cbn in P. apply P.
      + intros k Hk. rewrite Hu in Hk. auto.
      + intros k Hk. auto.
      + rewrite Hu. exact Hnd.
      + rewrite Hu. change (dls (with_ul g (Some (i, b')))) with (dls g). intros H. apply in_app_iff in H as [H|H]; [specialize (Hlu _ H)|specialize (Hld _ H)]; lia.
      + apply I.
      + intros ts n H. left. rewrite Hu. auto.
    - intros Hx. rewrite (Eb Hx). replace (with_ul g (Some (i, b))) with g; [apply set_gre_same; assumption|]. unfold with_ul. rewrite <- Eu. destruct g; reflexivity.
  Qed.

  Lemma create_dl_ack_spec s g d ts ok : Inv s -> In g (gres s) -> g_dl g = Some d ->
    exists s' x, create_dl_ack cs0 s (d_id d) ts ok = Ok (s', [], x) /\ Inv s' /\ ulc s' = ulc s /\ keep s s' /\ older s s' /\
      x = (if ok then Some (BDlAck (d_id d) (d_fin d) (match g_ul g with None => g_q g | Some _ => false end)) else None).
  Proof.
    intros I Hg Ed. unfold create_dl_ack. rewrite (find_dl_eq s g d I Hg Ed), Ed. cbv zeta.
    destruct (gres_split s g I Hg) as (A & B & Es & Es'). destruct (one_gre s A g B I Es) as (_ & Hnd & Hok & Hlu & Hld).
    set (req := match g_ul g with None => g_q g | Some _ => false end).
    assert (H0 : uls g = [] \/ req = false) by (unfold req, uls; destruct (g_ul g) as [[]|]; auto).
    destruct (UlTbfProperties.start_good cs0 (FromDownlink ts)) as (r & Er & Gr).
    assert (X : exists s1 g1, (if req then match start cs0 (FromDownlink ts) with Ok (Some b, _) => Ok (alloc_id s, with_ul g (Some (next s, b))) | _ => UB end
               else Ok (s, g)) = Ok (s1, g1) /\ gres s1 = gres s /\ ulc s1 = ulc s /\ next s <= next s1 /\ g_id g1 = g_id g /\ g_dl g1 = g_dl g /\ gre_ok g1 /\
               (forall i, In i (uls g1) -> In i (uls g) \/ i = next s /\ next s < next s1) /\ NoDup (uls g1) /\ (forall i, In i (uls g) -> In i (uls g1)) /\
               (forall i b, g_ul g = Some (i, b) -> g_ul g1 = Some (i, b)) /\ (forall i b, g_ul g1 = Some (i, b) -> g_ul g = Some (i, b) \/ cur b = alloc0)).
    { destruct req; [|exists s, g; repeat split; auto; try lia; now apply nodup_app in Hnd]. destruct H0 as [H0|H0]; [|discriminate]. rewrite Er. unfold start, alive in Er. injection Er as <-. cbv zeta. eexists _, _. split; [reflexivity|]. cbn [gres ulc next alloc_id].
      repeat split; try reflexivity; try lia; try apply Gr.
      - intros i [<-|[]]. right. lia.
      - repeat constructor. intros [].
      - intros i Hi. rewrite H0 in Hi. destruct Hi.
      - intros i b E. unfold uls in H0. rewrite E in H0. discriminate.
      - intros i b [= <- <-]. right. reflexivity. }
    destruct X as (s1 & g1 & -> & G1 & G2 & G3 & G4 & G5 & G6 & G7 & G8 & G9 & G10 & G11). cbn [bind].
    assert (K : forall g2, g_id g2 = g_id g -> g_ul g2 = g_ul g1 -> dls g2 = dls g -> gre_ok g2 ->
      Inv (set_gre s1 g2) /\ keep s (set_gre s1 g2) /\ older s (set_gre s1 g2)).
    { intros g2 K1 K2 K3 K4. assert (Ku : uls g2 = uls g1) by (unfold uls; now rewrite K2). assert (E2 : gres (set_gre s1 g2) = A ++ g2 :: B) by (apply Es'; assumption).
      split.
      - apply (upd_inv s _ A g B g2); try assumption; rewrite ?Ku, ?K3.
        + intros i Hi. destruct (G7 i Hi) as [?|[? ?]]; auto.
        + intros i Hi. auto.
        + apply nodup_app in Hnd as (N1 & N2 & N3). apply nodup_app. repeat split; try assumption. intros i Hi Hd. destruct (G7 i Hi) as [?|[-> ?]]; [now apply (N3 i)|]. specialize (Hld _ Hd). lia.
        + intros Hi. cbn [next set_gre]. apply in_app_iff in Hi as [Hi|Hi]; [destruct (G7 _ Hi) as [Hj|[? ?]]; [specialize (Hlu _ Hj); lia|assumption]|specialize (Hld _ Hi); lia].
        + cbn [ulc set_gre]. rewrite G2. apply I.
        + intros t n Hn. left. split; [unfold tree_of in *; cbn [ulc set_gre] in Hn; now rewrite <- G2|]. auto.
      - apply (keep_mid s _ A g B g2 Es E2); rewrite K2; auto. }
    destruct ok.
    - eexists _, _. split; [reflexivity|]. assert (Hid : forall b, dls (with_dl g1 (Some (if d_fin d then mkDl (d_id d) (d_fin d) (d_tfi d) (d_slots d) false true else d))) = b -> b = dls g).
      { intros b <-. unfold dls. cbn [with_dl g_dl]. rewrite Ed. destruct (d_fin d); reflexivity. }
      destruct (K (with_dl g1 (Some (if d_fin d then mkDl (d_id d) (d_fin d) (d_tfi d) (d_slots d) false true else d)))) as (K1 & K2 & K3); [exact G4|reflexivity|exact (Hid _ eq_refl)|exact G6|].
      split; [exact K1|]. split; [exact G2|]. split; [exact K2|]. split; [exact K3|reflexivity].
    - eexists _, _. split; [reflexivity|]. destruct (K g1) as (K1 & K2 & K3); [exact G4|reflexivity|unfold dls; now rewrite G5|exact G6|].
      split; [exact K1|]. split; [exact G2|]. split; [exact K2|]. split; [exact K3|reflexivity].
  Qed.

  Lemma ul_ack_new_spec s g b i ts fn usf : Inv s -> In g (gres s) -> g_ul g = Some (i, b) -> u b = RELEASING ->
    (slot (cur b) ts <> Some usf /\ try_ul_ack_new rb cs0 enc s (Some (UlAckNew i)) ts fn usf = UB) \/
    exists s' x, try_ul_ack_new rb cs0 enc s (Some (UlAckNew i)) ts fn usf = Ok (s', [], x) /\ slot (cur b) ts = Some usf /\ Inv s' /\
      (forall t n, In n (inorder (tree_of s' t)) -> In n (inorder (tree_of s t))) /\ ulc s' = ulc (release_all rb s i) /\
      x = (if enc EPoll then Some (BResReq (next s)) else None) /\ (x = None -> keep s s' /\ older s s').
  Proof.
    intros I Hg Eu Hr. cbn [try_ul_ack_new]. rewrite (find_ul_eq s g i b I Hg Eu), Eu. cbv zeta.
    destruct (UlTbfProperties.start_good cs0 (FromReleasing (cur b))) as (r & Er & Gr). rewrite Er. unfold start, alive in Er. injection Er as <-.
    set (nb := a_chg _ _) in *. assert (Hn : ass_rts nb ts fn usf = match slot (cur b) ts with Some us => us =? usf | None => false end) by reflexivity.
    rewrite Hn. destruct (slot (cur b) ts) as [us|] eqn:Esl; [|left; split; [discriminate|reflexivity]].
    destruct (Z.eqb_spec us usf) as [->|Hne]; [|left; split; [congruence|reflexivity]]. right. cbn [negb].
    destruct (gres_split s g I Hg) as (A & B & Es & Es'). destruct (one_gre s A g B I Es) as (_ & Hnd & Hok & Hlu & Hld).
    set (s1 := set_gre (release_all rb (alloc_id s) i) (with_ul g (Some (next s, nb)))).
    assert (E1 : gres s1 = A ++ with_ul g (Some (next s, nb)) :: B) by (apply Es'; reflexivity).
    assert (T1 : forall t n, In n (inorder (tree_of s1 t)) -> In n (inorder (tree_of s t)) /\ n_who n <> i) by (intros t n H; exact (tree_release rb Hrb (alloc_id s) i t n H)).
    assert (I1 : Inv s1).
    { apply (upd_inv s _ A g B (with_ul g (Some (next s, nb)))); try assumption; try reflexivity.
      - apply Gr.
      - intros k [<-|[]]. auto.
      - intros k Hk. auto.
      - change (uls (with_ul g (Some (next s, nb)))) with [next s]. change (dls (with_ul g (Some (next s, nb)))) with (dls g). cbn [app]. constructor; [|now apply nodup_app in Hnd].
        intros H. specialize (Hld _ H). lia.
      - cbn. lia.
      - intros _. cbn. lia.
      - cbn [s1 set_gre release_all alloc_id ulc]. rewrite map_length. apply I.
      - intros t n H. apply T1 in H as [H1 H2]. left. split; [exact H1|]. split; [|auto]. unfold uls. rewrite Eu. intros [H|[]]. congruence. }
    destruct (create_ass_spec s1 (with_ul g (Some (next s, nb))) (next s) nb (enc EPoll)) as (s' & x & E & I' & U' & Hx & Hxx);
      [exact I1|rewrite E1; apply in_app_iff; right; now left|reflexivity|].
    rewrite E. exists s', x. split; [reflexivity|]. split; [reflexivity|]. split; [exact I'|]. split; [|split; [rewrite U'; reflexivity|split; [exact Hx|]]].
    - intros t n H. unfold tree_of in H. rewrite U' in H. apply (T1 t n H).
    - intros H. specialize (Hxx H). rewrite E1 in Hxx. apply (keep_mid s s' A g B _ Es Hxx); cbn [with_ul g_ul].
      + intros k c. rewrite Eu. intros [= <- <-] Ha. exfalso. assert (Ib : inv b) by (apply (hasU_inv s i b I); exists g; auto).
        destruct (u_idle b Ib) as (? & _); auto.
      + intros k c [= <- <-]. right. reflexivity.
  Qed.
End Select.

(** *** Reservations that are only taken away. *)
Definition win (t : tree) (lo hi : Z) : Prop := exists L, rep t L /\ within lo hi L.
Definition shr (s s' : sys) : Prop := forall ts lo hi, win (tree_of s ts) lo hi -> win (tree_of s' ts) lo hi.
Lemma shr_same s s' : ulc s' = ulc s -> shr s s'.
Proof. intros E ts lo hi. unfold tree_of. now rewrite E. Qed.
Lemma shr_trans s1 s2 s3 : shr s1 s2 -> shr s2 s3 -> shr s1 s3.
Proof. unfold shr. auto. Qed.
Lemma win_sane t lo hi n : win t lo hi -> hi - 1357824 < n < lo + 1357824 -> sane t n.
Proof. intros (L & H1 & H2) H. exists L. split; [exact H1|]. exact (in_window lo hi L n H2 H). Qed.
Definition noRes (o : list out) : Prop := Forall (fun x => match x with UlTbfModel.Reserve _ _ _ => False | _ => True end) o.
Lemma noRes_app o1 o2 : noRes o1 -> noRes o2 -> noRes (o1 ++ o2).
Proof. intros. now apply Forall_app. Qed.
Lemma reserve_outs_none rb who o : forall s, noRes o -> reserve_outs rb s who o = s.
Proof. induction o as [|x o IH]; intros s H; [reflexivity|]. inversion H; subst. destruct x; cbn [reserve_outs]; auto; contradiction. Qed.
Definition r_none (r : result) : Prop := match r with Ok x => noRes (snd x) | _ => True end.
Lemma complete_none s o : noRes o -> r_none (complete s o).
Proof. intros H. unfold complete. cbv zeta. destruct (u _); cbn; try exact H. apply noRes_app; [exact H|repeat constructor]. Qed.
Lemma rts_tick_none b ts fn : r_none (UlTbfModel.rts_tick b ts fn).
Proof.
  unfold UlTbfModel.rts_tick, alive. destruct (a b); try (cbn; constructor); (destruct (_ || _); [exact Logic.I|]; destruct (_ || _); [constructor|]).
  - destruct (two b); [constructor|]. apply complete_none. constructor.
  - apply complete_none. constructor.
Qed.
Lemma reinit_none s rach o : noRes o -> r_none (reinit s rach o).
Proof.
  intros H. unfold reinit. cbv zeta. set (o' := o ++ _). assert (H' : noRes o') by (apply noRes_app; [exact H|repeat constructor]).
  unfold ass_start. destruct (a _), rach; cbn; repeat apply noRes_app; try exact H'; try exact H; repeat constructor.
Qed.
Lemma data_create_none bs b f cd r : r_none (data_create bs b f cd r).
Proof.
  unfold data_create. cbv zeta. match goal with |- context [bind ?x _] => destruct x as [s1|?|] end; cbn [bind]; [|exact Logic.I..]. match goal with |- context [bind ?x _] => destruct x as [s2|?|] end; cbn [bind]; [|exact Logic.I..].
  destruct (_ && _); [|repeat constructor]. set (s3 := set_counts _ _ _ _ _). pose proof (reinit_none s3 r [Data f; N3104Max] ltac:(repeat constructor)) as H.
  destruct (reinit s3 r _) as [[[s4|] o]|?|]; cbn [bind fst snd]; try exact Logic.I. exact H.
Qed.
Lemma data_create_alive bs b f cd r x : data_create bs b f cd r = Ok x -> exists b', fst x = Some b'.
Proof.
  unfold data_create, alive. cbv zeta. match goal with |- context [bind ?x _] => destruct x as [s1|?|] end; cbn [bind]; [|discriminate..]. match goal with |- context [bind ?x _] => destruct x as [s2|?|] end; cbn [bind]; [|discriminate..].
  destruct (_ && _); [|intros [= <-]; eexists; reflexivity]. destruct (reinit _ r _) as [[[s4|] o]|?|]; cbn [bind fst snd]; intros [= <-]; eexists; reflexivity.
Qed.
Lemma ul_result_same rb s g i x s' o : noRes (snd x) -> (exists b', fst x = Some b') -> ul_result rb s g i (Ok x) = Ok (s', o) -> ulc s' = ulc s.
Proof.
  intros H (b' & E). unfold ul_result. cbn [bind]. rewrite E, (reserve_outs_none rb i _ s H). intros [= <- _]. reflexivity.
Qed.
Section Shrink.
  Variable rb : rb_ops.
  Hypothesis Hrb : tree_library rb.
  Lemma win_release t who lo hi : win t lo hi -> win (release_tbf rb t who) lo hi.
  Proof.
    intros (L & Hr & Hw). eexists. split; [apply (release_tbf_spec rb Hrb); [exact Hr|rewrite (proj1 Hr), map_length; lia]|]. now apply within_filter.
  Qed.
  Lemma shr_release s who : shr s (release_all rb s who).
  Proof.
    intros ts lo hi H. unfold tree_of, release_all. cbn [ulc]. pose proof (map_nth (fun t => release_tbf rb t who) (ulc s) Leaf (Z.to_nat ts)) as M. cbv beta in M. change (release_tbf rb Leaf who) with Leaf in M.
    rewrite M. now apply win_release.
  Qed.
  Lemma win_erase t n lo hi : In n (inorder t) -> win t lo hi -> win (release_node rb t n) lo hi.
  Proof.
    intros H (L & Hr & Hw). rewrite (proj1 Hr) in H. apply in_map_iff in H as (y & <- & Hy). exists (drop (fst y) L). split; [now apply rep_erase|now apply within_filter].
  Qed.
  Lemma shr_node s ts n : In n (inorder (tree_of s ts)) -> shr s (set_tree s ts (release_node rb (tree_of s ts) n)).
  Proof.
    intros H ts' lo hi W. unfold tree_of, set_tree in *. cbn [ulc] in *. destruct (nth_upd (ulc s) (Z.to_nat ts) (release_node rb (nth (Z.to_nat ts) (ulc s) Leaf) n) (Z.to_nat ts') Leaf) as [->|(E & _ & ->)]; [exact W|].
    apply win_erase; [exact H|]. now rewrite <- E.
  Qed.
  Lemma dl_complete_shr s g tfi sl : shr s (fst (dl_complete rb s g tfi sl)).
  Proof.
    unfold dl_complete. cbn [fst]. destruct (g_dl g) as [d|]; [|now apply shr_same]. eapply shr_trans; [apply (shr_release (alloc_id s) (d_id d))|now apply shr_same].
  Qed.
  Lemma tick_gre_shr s i ts fn s' o : tick_gre rb s i ts fn = Ok (s', o) -> shr s s'.
  Proof.
    unfold tick_gre. destruct (find_gre s i) as [g|]; [|intros [= <- _]; now apply shr_same].
    assert (X : forall s1 o1, match g_ul g with Some (j, b) => ul_result rb s g j (UlTbfModel.rts_tick b ts fn) | None => Ok (s, []) end = Ok (s1, o1) -> ulc s1 = ulc s).
    { intros s1 o1. destruct (g_ul g) as [[j b]|]; [|now intros [= <- _]]. pose proof (rts_tick_none b ts fn) as N. destruct (UlTbfModel.rts_tick b ts fn) as [x|?|] eqn:E; [|discriminate..].
      apply ul_result_same; [exact N|exact (rts_tick_alive b ts fn x E)]. }
    destruct (match g_ul g with Some (j, b) => _ | None => _ end) as [[s1 o1]|?|]; cbn [bind fst snd]; [|discriminate..].
    specialize (X s1 o1 eq_refl). destruct (find_gre s1 i) as [g1|]; [|intros [= <- _]; now apply shr_same].
    unfold dl_tick. destruct (g_ass g1) as [w|]; [|intros [= <- _]; now apply shr_same]. destruct (_ || _); intros [= <- _]; [now apply shr_same|].
    eapply shr_trans; [apply (shr_same s s1 X)|apply dl_complete_shr].
  Qed.
  Lemma tick_shr ids ts fn : forall s s' o, tick rb s ids ts fn = Ok (s', o) -> shr s s'.
  Proof.
    induction ids as [|i ids IH]; intros s s' o; cbn [tick]; [intros [= <- _]; now apply shr_same|].
    destruct (tick_gre rb s i ts fn) as [[s1 o1]|?|] eqn:E; cbn [bind fst snd]; [|discriminate..].
    destruct (tick rb s1 ids ts fn) as [[s2 o2]|?|] eqn:E2; cbn [bind fst snd]; [|discriminate..]. intros [= <- _].
    eapply shr_trans; [exact (tick_gre_shr _ _ _ _ _ _ E)|exact (IH _ _ _ E2)].
  Qed.
End Shrink.

Lemma orelse_nil s k : orelse (Ok (s, [], None)) k = k s.
Proof. unfold orelse. cbn [bind]. destruct (k s) as [[[? ?] ?]|?|]; reflexivity. Qed.
Lemma orelse_some s o b k : orelse (Ok (s, o, Some b)) k = Ok (s, o, Some b).
Proof. reflexivity. Qed.
Lemma ass_rts_due b ts fn usf : ass_rts b ts fn usf = true <->
  a b = SCHED_PKT_RES_REQ /\ exists us, slot (p1 b) ts = Some us /\ (if sba b then start_ex b = true -> start_fn b = fn else us = usf).
Proof.
  unfold ass_rts. destruct (a b); try (split; [discriminate|intros [H _]; discriminate]).
  destruct (slot (p1 b) ts) as [us|]; [|split; [discriminate|intros (_ & us & H & _); discriminate]].
  destruct (sba b).
  - destruct (start_ex b); cbn [negb orb].
    + split; [intros H; split; [reflexivity|]; exists us; split; [reflexivity|intros _; lia]|intros (_ & u' & _ & H); specialize (H eq_refl); lia].
    + split; [intros _; split; [reflexivity|]; exists us; split; [reflexivity|discriminate]|auto].
  - split; [intros H; split; [reflexivity|]; exists us; split; [reflexivity|lia]|intros (_ & u' & [= <-] & H); lia].
Qed.
Lemma last_ass_some s ts fn usf i : last_ass s ts fn usf = Some i -> exists b, hasU s i b /\ ass_rts b ts fn usf = true.
Proof.
  unfold last_ass. destruct (rev _) as [|g l] eqn:E; [discriminate|]. intros [= <-].
  assert (H : In g (filter (wants_ass ts fn usf) (gres s))) by (apply in_rev; rewrite E; now left). apply filter_In in H as [H W].
  unfold wants_ass, ul_id in *. destruct (g_ul g) as [[i b]|] eqn:Eu; [|discriminate]. exists b. split; [exists g; auto|exact W].
Qed.
Lemma last_ass_none s ts fn usf i : last_ass s ts fn usf = None -> ~ res_req_due s ts fn usf i.
Proof.
  unfold last_ass. destruct (rev _) as [|g l] eqn:E; [|discriminate]. intros _ (b & us & (g & Hg & Eu) & H).
  assert (F : In g (filter (wants_ass ts fn usf) (gres s))).
  { apply filter_In. split; [exact Hg|]. unfold wants_ass. rewrite Eu. apply ass_rts_due. intuition eauto. }
  apply in_rev in F. rewrite E in F. destruct F.
Qed.
Lemma last_ass_due s ts fn usf i : last_ass s ts fn usf = Some i -> res_req_due s ts fn usf i.
Proof.
  intros H. apply last_ass_some in H as (b & Hb & R). apply ass_rts_due in R as (Ha & us & Hs & R). exists b, us. auto.
Qed.
Section Select2.
  Variable rb : rb_ops.
  Hypothesis Hrb : tree_library rb.
  Variable bs cs0 : Z.
  Variable enc : encoding -> bool.

  Lemma try_ul_ass_spec s ass : Inv s -> (forall i, ass = Some i -> exists b, hasU s i b /\ a b = SCHED_PKT_RES_REQ) ->
    exists s' x, try_ul_ass enc s ass = Ok (s', [], x) /\ Inv s' /\ ulc s' = ulc s /\
      x = (match ass with Some i => if enc EResReq then Some (BResReq i) else None | None => None end) /\ (x = None -> gres s' = gres s).
  Proof.
    intros I H. destruct ass as [i|]; cbn [try_ul_ass]; [|exists s, None; auto].
    destruct (H i eq_refl) as (b & (g & Hg & Eu) & Ha). destruct (create_ass_spec s g i b (enc EResReq) I Hg Eu) as (s' & x & E & I' & U & Hx & Hn).
    rewrite Ha in Hx. exists s', x. auto.
  Qed.

  Definition ctrl_prio (s s' : sys) (ts fn usf : Z) (b : option blk) : Prop :=
    let n := get_node (tree_of s ts) fn in
    (b = None -> gres s' = gres s) /\
    (forall m, n = Some m -> urgent s m -> exists x, b = Some x /\ answers s m x) /\
    ((forall m, n = Some m -> ~ urgent s m) ->
       (forall i, res_req_due s ts fn usf i -> exists j, b = Some (BResReq j) /\ res_req_due s ts fn usf j) /\
       ((forall i, ~ res_req_due s ts fn usf i) ->
          (forall m, n = Some m -> answerable s m -> exists x, b = Some x /\ answers s m x) /\
          ((forall m, n = Some m -> ~ answerable s m) -> b = None))).
  Definition ctrl_post (s : sys) (ts fn usf : Z) (data : option (bool * bool * bool)) (r : res (sys * list sout * option blk)) : Prop :=
    match r with
    | Ok (s', o, b) => Inv s' /\ o = [] /\ shr s s' /\ (b = None -> older s s') /\
        (forall x, b = Some x -> granted s ts fn usf x) /\
        (forall i f, b <> Some (BData i f)) /\ (forall i, b <> Some (BDummy i)) /\
        (all_enc enc -> ctrl_prio s s' ts fn usf b)
    | Err _ => False
    | UB => rts_cause s bs ts fn usf data
    end.

  Definition ctrl s ts fn usf := do x <- candidates rb s ts fn usf; let '(s, c, ass) := x in select_ctrl rb cs0 enc s c ass ts fn usf.

  (** An answered poll. *)
  Lemma ctrl_answered s s' ts fn usf data n x : Inv s' -> shr s s' -> get_node (tree_of s ts) fn = Some n -> answers s n x ->
    (n_reason n <> 3 \/ (exists g d, In g (gres s) /\ g_dl g = Some d /\ d_id d = n_who n /\ (d_fin d = true \/ (all_enc enc -> forall i, ~ res_req_due s ts fn usf i)))) ->
    ctrl_post s ts fn usf data (Ok (s', [], Some x)).
  Proof.
    intros I' Sh En An U. destruct (get_node_in _ _ _ En) as [Hin Hfn].
    split; [exact I'|]. split; [reflexivity|]. split; [exact Sh|]. split; [discriminate|]. split; [intros y [= <-]; exact (gr_poll _ _ _ _ n x Hin Hfn An)|].
    split; [intros i f [= ->]; inversion An|]. split; [intros i [= ->]; inversion An|]. intros A.
    split; [discriminate|]. split; [intros m; rewrite En; intros [= <-] _; eauto|]. intros NU. specialize (NU n En). split.
    - intros i Hi. exfalso. apply NU. split; [exists x; exact An|]. intros R. destruct U as [U|(g & d & Hg & Hd & Hw & [U|U])]; [contradiction| |exfalso; exact (U A i Hi)].
      exists d. repeat split; auto. exists g; auto.
    - intros _. split; [intros m; rewrite En; intros [= <-] _; eauto|]. intros NA. exfalso. apply (NA n En). exists x. exact An.
  Qed.
  (** No urgent poll, or one that could not be answered: the Packet Resource Request. *)
  Lemma ctrl_request s s1 ts fn usf data k :
    Inv s1 -> shr s s1 -> keep s s1 -> older s s1 -> (all_enc enc -> gres s1 = gres s) -> (all_enc enc -> forall m, get_node (tree_of s ts) fn = Some m -> ~ urgent s m) ->
    (forall s2, Inv s2 -> gres s2 = gres s1 -> ulc s2 = ulc s1 -> (all_enc enc -> forall i, ~ res_req_due s ts fn usf i) -> ctrl_post s ts fn usf data (k s2)) ->
    ctrl_post s ts fn usf data (orelse (try_ul_ass enc s1 (last_ass s ts fn usf)) k).
  Proof.
    intros I1 Sh K O G NU Hk. assert (W : forall i, last_ass s ts fn usf = Some i -> exists b, hasU s1 i b /\ a b = SCHED_PKT_RES_REQ).
    { intros i Hi. apply last_ass_some in Hi as (b & Hb & R). apply ass_rts_due in R as [Ha _]. exists b. split; [apply K; [exact Hb|congruence]|exact Ha]. }
    destruct (last_ass s ts fn usf) as [i|] eqn:El.
    2: { cbn [try_ul_ass]. rewrite orelse_nil. apply Hk; auto. intros _ j. exact (last_ass_none _ _ _ _ j El). }
    destruct (try_ul_ass_spec s1 (Some i) I1 W) as (s2 & x & -> & I2 & U2 & Hx & Hn). destruct x as [x|].
    - rewrite orelse_some. destruct (enc EResReq); [|discriminate]. injection Hx as ->. pose proof (last_ass_due _ _ _ _ _ El) as D.
      split; [exact I2|]. split; [reflexivity|]. split; [eapply shr_trans; [exact Sh|now apply shr_same]|]. split; [discriminate|]. split; [intros y [= <-]; now apply gr_req|].
      split; [discriminate|]. split; [discriminate|]. intros A. split; [discriminate|]. split; [intros m Em Hu; exfalso; exact (NU A m Em Hu)|]. intros _.
      split; [eauto|]. intros ND. exfalso. exact (ND i D).
    - rewrite orelse_nil. apply Hk; auto. intros A. rewrite (A EResReq) in Hx. discriminate.
  Qed.
  (** Nothing to answer. *)
  Lemma ctrl_nothing s s1 ts fn usf data : Inv s1 -> shr s s1 -> older s s1 -> (all_enc enc -> gres s1 = gres s) ->
    (all_enc enc -> forall m, get_node (tree_of s ts) fn = Some m -> ~ answerable s m) -> (all_enc enc -> forall i, ~ res_req_due s ts fn usf i) ->
    ctrl_post s ts fn usf data (Ok (s1, [], None)).
  Proof.
    intros I1 Sh O G NA ND. split; [exact I1|]. split; [reflexivity|]. split; [exact Sh|]. split; [auto|]. split; [discriminate|]. split; [discriminate|]. split; [discriminate|].
    intros A. split; [auto|]. split; [intros m Em (Hu & _); exfalso; exact (NA A m Em Hu)|]. intros _. split; [intros i Hi; exfalso; exact (ND A i Hi)|]. intros _. split; [intros m Em Ha; exfalso; exact (NA A m Em Ha)|reflexivity].
  Qed.
  Lemma answers_ext s s' n x : gres s' = gres s -> next s' = next s -> answers s n x -> answers s' n x.
  Proof.
    intros E N H. destruct H; [eapply ans_ul_ass|eapply ans_ul_ass_again|eapply ans_dl_ass|eapply ans_ul_ack|rewrite <- N; eapply ans_ul_ack_new|eapply ans_dl_ack];
      unfold hasU in *; rewrite ?E; eassumption.
  Qed.
  Lemma last_ass_ext s s' ts fn usf : gres s' = gres s -> last_ass s' ts fn usf = last_ass s ts fn usf.
  Proof. intros E. unfold last_ass. now rewrite E. Qed.
  Lemma uniqueU s g g' i b b' : Inv s -> In g (gres s) -> g_ul g = Some (i, b) -> In g' (gres s) -> g_ul g' = Some (i, b') -> g' = g /\ b' = b.
  Proof.
    intros I H E H' E'. pose proof (find_ul_eq s g i b I H E) as F. rewrite (find_ul_eq s g' i b' I H' E') in F. injection F as ->. split; [reflexivity|congruence].
  Qed.
  Lemma uniqueD s g g' d d' : Inv s -> In g (gres s) -> g_dl g = Some d -> In g' (gres s) -> g_dl g' = Some d' -> d_id d' = d_id d -> g' = g /\ d' = d.
  Proof.
    intros I H E H' E' Hd. pose proof (find_dl_eq s g d I H E) as F. rewrite <- Hd, (find_dl_eq s g' d' I H' E') in F. injection F as ->. split; [reflexivity|congruence].
  Qed.

  Lemma ctrl_spec s ts fn usf data : Inv s -> ctrl_post s ts fn usf data (ctrl s ts fn usf).
  Proof.
    intros I. unfold ctrl, candidates. destruct (get_node (tree_of s ts) fn) as [n|] eqn:En; cbn [bind fst snd].
    2: { unfold select_ctrl. cbn [try_dl_ack_final try_ul_ack_new try_dl_ass_poll try_ul_ass_poll]. rewrite !orelse_nil.
         apply ctrl_request; auto; try (apply keep_refl; reflexivity); [now apply shr_same|rewrite En; discriminate|].
         intros s2 I2 G2 U2 ND. apply ctrl_nothing; auto; [now apply shr_same|now apply keep_refl|rewrite En; discriminate]. }
    destruct (get_node_in _ _ _ En) as [Hin Hfn].
    set (s0 := set_tree s ts (release_node rb (tree_of s ts) n)).
    assert (G0 : gres s0 = gres s) by reflexivity. assert (N0 : next s0 = next s) by reflexivity.
    assert (S0 : shr s s0) by (now apply shr_node).
    assert (I0 : Inv s0).
    { apply (inv_ext s s0 I G0 N0); [unfold s0, set_tree; cbn [ulc]; rewrite upd_length; apply I|]. intros t m Hm. apply tree_set in Hm as [Hm|[E Hm]]; [exact Hm|].
      rewrite E. now apply (erase_in rb Hrb n (tree_of s ts) Hin) in Hm. }
    assert (K0 : keep s s0 /\ older s s0) by (now apply keep_refl).
    assert (Hpost : forall s1, Inv s1 -> shr s0 s1 -> keep s0 s1 -> older s0 s1 -> (all_enc enc -> gres s1 = gres s0) -> (all_enc enc -> ~ answerable s n) ->
      ctrl_post s ts fn usf data (orelse (try_ul_ass enc s1 (last_ass s0 ts fn usf)) (fun s => Ok (s, [], None)))).
    { intros s1 I1 S1 K1 O1 G1 NA. rewrite (last_ass_ext s s0 _ _ _ G0). pose proof (keep_trans _ _ _ K0 (conj K1 O1)) as [K O].
      apply ctrl_request; auto; [eapply shr_trans; eassumption|intros A; rewrite En; intros m [= <-] [Hu _]; exact (NA A Hu)|].
      intros s2 I2 G2 U2 ND. apply ctrl_nothing; auto.
      - eapply shr_trans; [eapply shr_trans; eassumption|now apply shr_same].
      - apply (keep_trans s s1 s2); [auto|now apply keep_refl].
      - intros A. rewrite G2. exact (G1 A).
      - intros A m. rewrite En. intros [= <-]. exact (NA A). }
    destruct (candidate_spec s n (ex_intro _ ts Hin) I) as [(R & -> & g & b & Hg & Eu)|[(R & ->)|[(R & g & b & Hg & Eu & ->)|(R & g & d & Hg & Ed & Hd & ->)]]]; cbn [bind fst snd]; fold s0.
    - (* poll of an uplink assignment *)
      unfold select_ctrl. cbn [try_dl_ack_final try_ul_ack_new try_dl_ass_poll try_ul_ass_poll try_dl_ack]. rewrite !orelse_nil.
      destruct (create_ass_spec s0 g (n_who n) b (enc EPoll) I0) as (s1 & x & -> & I1 & U1 & Hx & Hn); [rewrite G0; exact Hg|exact Eu|].
      assert (S1 : shr s s1) by (eapply shr_trans; [exact S0|now apply shr_same]).
      destruct x as [x|]; [rewrite orelse_some; apply (ctrl_answered _ _ _ _ _ _ n); auto; [|left; lia]|].
      + destruct (a b) eqn:Ea; try discriminate; destruct (enc EPoll); try discriminate; injection Hx as ->;
          [eapply ans_ul_ass_again; [exact R|exists g; split; eassumption|exact Ea]|eapply ans_ul_ass; eassumption].
      + rewrite orelse_nil. destruct (keep_refl s0 s1 (Hn eq_refl)) as [K1 O1]. apply Hpost; auto; [now apply shr_same|]. intros A (y & Hy). rewrite (A EPoll) in Hx.
        inversion Hy as [g' b' R' Hg' Eu' Ea|b' R' (g' & Hg' & Eu') Ea|g' R' Hg' Ei|g' b' R'|g' b' R'|g' d' r' R']; subst; try (rewrite R in R'; discriminate R');
          destruct (uniqueU s g g' _ _ _ I Hg Eu Hg' Eu') as [-> ->]; rewrite Ea in Hx; discriminate.
    - (* poll of a downlink assignment *)
      unfold select_ctrl. cbn [try_dl_ack_final try_ul_ack_new try_dl_ass_poll try_ul_ass_poll try_dl_ack]. rewrite !orelse_nil. unfold ctrl_ack.
      destruct (find_gre s0 (n_who n)) as [g|] eqn:F.
      2: { left. exists n. repeat split; auto. intros g Hg Hid. rewrite <- G0 in Hg. pose proof (find_gre_eq s0 g I0 Hg) as F'. congruence. }
      apply find_gre_in in F as (Hg & Hid). rewrite G0 in Hg. destruct (enc EPoll) eqn:Ee.
      + rewrite orelse_some. apply (ctrl_answered _ _ _ _ _ _ n); auto; [rewrite Hid; exact (ans_dl_ass s n g R Hg Hid)|left; lia].
      + rewrite !orelse_nil. apply Hpost; auto; [now apply shr_same|now apply keep_refl|now apply keep_refl|]. intros A. rewrite (A EPoll) in Ee. discriminate.
    - (* poll of an uplink acknowledgement *)
      destruct (can_request_new g b) eqn:Ec.
      + assert (Hc : u b = RELEASING /\ tbf_est b = true /\ g_q g = true /\ g_dl g = None).
        { unfold can_request_new in Ec. destruct (u b); try discriminate. destruct (tbf_est b), (g_q g), (g_dl g); try discriminate. auto. }
        destruct Hc as (C1 & C2 & C3 & C4).
        unfold select_ctrl. cbn [try_dl_ack_final try_dl_ass_poll try_ul_ass_poll try_dl_ack]. rewrite orelse_nil.
        destruct (ul_ack_new_spec rb Hrb cs0 enc s0 g b (n_who n) ts fn usf I0) as [(Hs & ->)|(s1 & x & -> & Hs & I1 & T1 & U1 & Hx & Hn)]; try assumption.
        { right; left. exists n, g, b. repeat split; auto. }
        assert (S1 : shr s0 s1) by (intros t lo hi W; unfold tree_of; rewrite U1; exact (shr_release rb Hrb s0 (n_who n) t lo hi W)).
        destruct x as [x|].
        * rewrite orelse_some. destruct (enc EPoll); [|discriminate]. injection Hx as ->. apply (ctrl_answered _ _ _ _ _ _ n); auto; [eapply shr_trans; eassumption|eapply ans_ul_ack_new; eassumption|left; lia].
        * rewrite !orelse_nil. destruct (Hn eq_refl) as [K1 O1]. apply Hpost; auto; intros A; rewrite (A EPoll) in Hx; discriminate.
      + unfold select_ctrl, ctrl_ack. rewrite (find_ul_eq s0 g (n_who n) b I0); [|rewrite G0; exact Hg|exact Eu].
        assert (An : answers s n (BCtrlAck (g_id g))).
        { eapply ans_ul_ack; try eassumption. intros (C1 & C2 & C3 & C4). unfold can_request_new in Ec. rewrite C1, C2, C3, C4 in Ec. discriminate. }
        destruct (enc EPoll) eqn:Ee; [apply (ctrl_answered _ _ _ _ _ _ n); auto; left; lia|].
        split; [exact I0|]. split; [reflexivity|]. split; [exact S0|]. split; [intros _; apply K0|]. split; [discriminate|]. split; [discriminate|]. split; [discriminate|]. intros A. rewrite (A EPoll) in Ee. discriminate.
    - (* poll of a downlink acknowledgement *)
      assert (An : forall b, b = match g_ul g with None => g_q g | Some _ => false end -> answers s n (BDlAck (n_who n) (d_fin d) b)).
      { intros b ->. eapply ans_dl_ack; try eassumption. destruct (g_ul g) as [?|]; [split; [discriminate|intros [H _]; discriminate]|]. tauto. }
      destruct (d_fin d) eqn:Ef.
      + unfold select_ctrl. cbn [try_dl_ack_final try_ul_ack_new try_dl_ass_poll try_ul_ass_poll try_dl_ack].
        destruct (create_dl_ack_spec cs0 s0 g d ts (enc EPoll) I0) as (s1 & x & E & I1 & U1 & K1 & O1 & Hx); [rewrite G0; exact Hg|exact Ed|]. rewrite Hd in E, Hx. rewrite E.
        rewrite Ef in Hx. destruct (enc EPoll) eqn:Ee; subst x.
        * rewrite orelse_some. apply (ctrl_answered _ _ _ _ _ _ n); auto; [eapply shr_trans; [exact S0|now apply shr_same]|]. right. exists g, d. auto.
        * rewrite !orelse_nil. apply Hpost; auto; [now apply shr_same|intros A; rewrite (A EPoll) in Ee; discriminate..].
      + unfold select_ctrl. cbn [try_dl_ack_final try_ul_ack_new try_dl_ass_poll try_ul_ass_poll]. rewrite !orelse_nil. rewrite (last_ass_ext s s0 _ _ _ G0).
        apply ctrl_request; auto; try apply K0.
        { intros _ m. rewrite En. intros [= <-] (_ & Hu). destruct (Hu R) as (d' & (g' & Hg' & Ed') & Hw & Hf).
          destruct (uniqueD s g g' d d' I Hg Ed Hg' Ed') as [-> ->]; [congruence|]. congruence. }
        intros s2 I2 G2 U2 ND. unfold try_dl_ack. destruct (create_dl_ack_spec cs0 s2 g d ts (enc EDlAck) I2) as (s1 & x & E & I1 & U1 & K1 & O1 & Hx); [rewrite G2; exact Hg|exact Ed|]. rewrite Hd in E, Hx. rewrite E.
        rewrite Ef in Hx. assert (Sh : shr s s1) by (eapply shr_trans; [exact S0|]; eapply shr_trans; apply shr_same; eassumption).
        destruct (enc EDlAck) eqn:Ee; subst x.
        * apply (ctrl_answered _ _ _ _ _ _ n); auto. right. exists g, d. auto.
        * apply ctrl_nothing; auto; [|intros A; rewrite (A EDlAck) in Ee; discriminate..]. apply (keep_trans s s2 s1); [|auto]. apply keep_refl. now rewrite G2.
  Qed.
End Select2.

Lemma slot_alloc0 ts : slot alloc0 ts = None.
Proof. unfold slot, alloc0, no_slots. cbn [slots]. destruct (Z.to_nat ts) as [|[|[|[|[|[|[|[|n]]]]]]]]; try reflexivity. cbn. destruct n; reflexivity. Qed.
Lemma dummy_rts_eq b ts usf : dummy_rts b ts usf = true <-> slot (cur b) ts = Some usf.
Proof. unfold dummy_rts. destruct (slot (cur b) ts) as [x|]; [|split; discriminate]. split; [intros H; f_equal; lia|intros [= ->]; lia]. Qed.
Lemma data_rts_eq b ts usf : data_rts b ts usf = true <-> slot (cur b) ts = Some usf /\ (u b = FLOW \/ u b = FINISHED).
Proof.
  unfold data_rts. rewrite andb_true_iff, dummy_rts_eq. split; intros [H1 H2]; (split; [exact H1|]); destruct (u b); intuition congruence.
Qed.
Lemma older_slot s s' i b ts x : older s s' -> hasU s' i b -> slot (cur b) ts = Some x -> hasU s i b.
Proof. intros O H E. destruct (O i b H) as [?|E0]; [assumption|]. rewrite E0, slot_alloc0 in E. discriminate. Qed.
Section Select3.
  Variable rb : rb_ops.
  Hypothesis Hrb : tree_library rb.
  Variable bs cs0 : Z.
  Variable enc : encoding -> bool.
  Definition some {A} (o : option A) : bool := match o with Some _ => true | None => false end.

  Definition select_post (s : sys) (ts fn usf : Z) (data : option (bool * bool * bool)) (r : res (sys * list sout * option blk)) : Prop :=
    match r with
    | Ok (s', o, b) => Inv s' /\ blocks o = [] /\ shr s s' /\
        (forall x, b = Some x -> granted s ts fn usf x) /\
        (all_enc enc -> chosen s ts fn usf (get_node (tree_of s ts) fn) (some data) b)
    | Err _ => False
    | UB => rts_cause s bs ts fn usf data
    end.
  Lemma data_spec s s1 ts fn usf data k : Inv s1 -> shr s s1 -> older s s1 -> (all_enc enc -> ctrl_prio s s1 ts fn usf None) ->
    (((forall i, ~ may_send_data s1 ts usf i) \/ data = None) -> select_post s ts fn usf data (k s1)) ->
    select_post s ts fn usf data (orelse (select_data rb bs s1 ts usf data) k).
  Proof.
    intros I1 Sh O P Hk. unfold select_data. destruct (find (wants_data ts usf) (gres s1)) as [g|] eqn:F.
    2: { rewrite orelse_nil. apply Hk. left. intros i (b & (g & Hg & Eu) & Hs). apply find_none with (x := g) in F; [|exact Hg]. unfold wants_data in F. rewrite Eu in F.
         apply data_rts_eq in Hs. congruence. }
    destruct data as [[[final cd] rach]|]; [|rewrite orelse_nil; apply Hk; auto].
    apply find_some in F as [Hg W]. unfold wants_data in W. destruct (g_ul g) as [[i b]|] eqn:Eu; [|discriminate].
    assert (Hs := proj1 (data_rts_eq _ _ _) W). assert (H1 : hasU s1 i b) by (exists g; auto). assert (H0 : hasU s i b) by (eapply older_slot; [exact O|exact H1|apply Hs]).
    assert (M0 : may_send_data s ts usf i) by (exists b; auto).
    assert (Ib : inv b) by exact (hasU_inv s1 i b I1 H1). pose proof (step_DataRts bs b ts usf final cd rach Ib) as Ps. cbn [UlTbfModel.step] in Ps. rewrite W in Ps.
    destruct (gres_split s1 g I1 Hg) as (A & B & E & Es).
    destruct (data_create bs b final cd rach) as [x|?|] eqn:Ed; [|destruct Ps|].
    - assert (Hx : tbf_inv x) by (apply (step_tbf_inv bs b (DataRts ts usf final cd rach)); [exact Ib|cbn [UlTbfModel.step]; now rewrite W]).
      destruct (ul_result_spec rb Hrb s1 s1 A g B i x I1) as (s' & o & Er & I' & Bo & G' & _); try assumption; [repeat split; auto; lia|left; unfold uls; now rewrite Eu|].
      rewrite Er. cbn [bind fst snd]. rewrite orelse_some. pose proof (data_create_none bs b final cd rach) as Nr. rewrite Ed in Nr.
      pose proof (ul_result_same rb s1 g i x s' o Nr (data_create_alive _ _ _ _ _ _ Ed) Er) as U.
      split; [exact I'|]. split; [exact Bo|]. split; [eapply shr_trans; [exact Sh|now apply shr_same]|]. split; [intros y [= <-]; now apply gr_data|].
      intros Ae. destruct (P Ae) as (P0 & P1 & P2). split; [intros m Em Hu; destruct (P1 m Em Hu) as (? & ? & _); discriminate|]. intros NU. destruct (P2 NU) as (P3 & P4).
      split; [intros j Hj; destruct (P3 j Hj) as (? & ? & _); discriminate|]. intros ND. destruct (P4 ND) as (P5 & P6).
      split; [intros m Em Ha; destruct (P5 m Em Ha) as (? & ? & _); discriminate|]. intros NA. split; [eauto|]. intros [H|H]; [exfalso; exact (H i M0)|discriminate].
    - right; right. assert (rach = false) as -> by (cbn in Ps; tauto). exists i, b, final, cd. split; [reflexivity|]. split; [exact H0|exact Ps].
  Qed.
  Lemma dummy_spec s s1 ts fn usf data : Inv s1 -> shr s s1 -> older s s1 -> (all_enc enc -> ctrl_prio s s1 ts fn usf None) ->
    ((forall i, ~ may_send_data s1 ts usf i) \/ data = None) -> select_post s ts fn usf data (select_dummy enc s1 ts usf).
  Proof.
    intros I1 Sh O P Nd.
    assert (Hch : forall b, (all_enc enc -> (forall i, owns_block s ts usf i -> exists j, b = Some (BDummy j) /\ owns_block s ts usf j) /\ ((forall i, ~ owns_block s ts usf i) -> b = None)) ->
      all_enc enc -> chosen s ts fn usf (get_node (tree_of s ts) fn) (some data) b).
    { intros b Hb Ae. destruct (P Ae) as (P0 & P1 & P2). split; [intros m Em Hu; destruct (P1 m Em Hu) as (? & ? & _); discriminate|]. intros NU. destruct (P2 NU) as (P3 & P4).
      split; [intros j Hj; destruct (P3 j Hj) as (? & ? & _); discriminate|]. intros ND. destruct (P4 ND) as (P5 & P6).
      split; [intros m Em Ha; destruct (P5 m Em Ha) as (? & ? & _); discriminate|]. intros NA. split; [|intros _; exact (Hb Ae)].
      intros i (c & (g & Hg & Eu) & Hs) Hd. exfalso. destruct Nd as [Nd| ->]; [|discriminate]. apply (Nd i). exists c. split; [exists g; rewrite (P0 eq_refl); auto|exact Hs]. }
    unfold select_dummy. destruct (find (wants_dummy ts usf) (gres s1)) as [g|] eqn:F.
    2: { split; [exact I1|]. split; [reflexivity|]. split; [exact Sh|]. split; [discriminate|]. apply Hch. intros Ae. split; [|reflexivity].
         intros i (b & (g & Hg & Eu) & Hs). exfalso. destruct (P Ae) as (P0 & _). rewrite <- (P0 eq_refl) in Hg. apply find_none with (x := g) in F; [|exact Hg]. unfold wants_dummy in F. rewrite Eu in F.
         apply dummy_rts_eq in Hs. congruence. }
    apply find_some in F as [Hg W]. unfold wants_dummy in W. destruct (g_ul g) as [[i b]|] eqn:Eu; [|discriminate]. apply dummy_rts_eq in W.
    assert (H1 : hasU s1 i b) by (exists g; auto). assert (H0 : hasU s i b) by (eapply older_slot; eassumption).
    assert (M0 : owns_block s ts usf i) by (exists b; auto).
    destruct (enc EDummy) eqn:Ee.
    - assert (Ib : inv b) by exact (hasU_inv s1 i b I1 H1). pose proof (step_DummyRts bs b ts usf Ib) as Ps. cbn [UlTbfModel.step] in Ps. rewrite (proj2 (dummy_rts_eq b ts usf) W) in Ps. cbn in Ps.
      destruct (gres_split s1 g I1 Hg) as (A & B & E & Es). destruct (one_gre s1 A g B I1 E) as (_ & Hnd & _ & Hlu & Hld).
      set (b' := set_tx b true (countdown b) (tx_cs b)) in *.
      assert (Hu : uls (with_ul g (Some (i, b'))) = uls g) by (unfold uls; cbn; rewrite Eu; reflexivity).
      split; [|split; [reflexivity|split; [eapply shr_trans; [exact Sh|now apply shr_same]|split; [intros y [= <-]; now apply gr_dummy|]]]].
      + apply (upd_inv s1 _ A g B (with_ul g (Some (i, b')))); try assumption; try reflexivity.
        * apply Es; reflexivity.
        * apply Ps.
        * intros k Hk. rewrite Hu in Hk. auto.
        * intros k Hk. auto.
        * rewrite Hu. exact Hnd.
        * rewrite Hu. change (dls (with_ul g (Some (i, b')))) with (dls g). intros H. apply in_app_iff in H as [H|H]; [specialize (Hlu _ H)|specialize (Hld _ H)]; lia.
        * apply I1.
        * intros t n H. left. rewrite Hu. auto.
      + apply Hch. intros Ae. split; [eauto|]. intros H. exfalso. exact (H i M0).
    - split; [exact I1|]. split; [reflexivity|]. split; [exact Sh|]. split; [discriminate|]. apply Hch. intros Ae. rewrite (Ae EDummy) in Ee. discriminate.
  Qed.
  Lemma select_spec s ts fn usf data : Inv s -> select_post s ts fn usf data (select rb bs cs0 enc s ts fn usf data).
  Proof.
    intros I. pose proof (ctrl_spec rb Hrb bs cs0 enc s ts fn usf data I) as P. unfold ctrl in P. unfold select.
    destruct (candidates rb s ts fn usf) as [[[s0 c] ass]|?|]; cbn [bind] in *; [|exact P..].
    destruct (select_ctrl rb cs0 enc s0 c ass ts fn usf) as [[[s1 o] b]|?|]; [|exact P..].
    destruct P as (I1 & -> & Sh & O & Gr & N1 & N2 & Pr). destruct b as [b|].
    - rewrite orelse_some. split; [exact I1|]. split; [reflexivity|]. split; [exact Sh|]. split; [exact Gr|]. intros Ae. destruct (Pr Ae) as (P0 & P1 & P2).
      split; [exact P1|]. intros NU. destruct (P2 NU) as (P3 & P4). split; [exact P3|]. intros ND. destruct (P4 ND) as (P5 & P6). split; [exact P5|]. intros NA. discriminate (P6 NA).
    - rewrite orelse_nil. apply data_spec; auto. intros Nd. apply dummy_spec; auto.
  Qed.
End Select3.

(** *** All events. *)
(** Trees change by removal and by the reservation of one poll. *)
Definition eff (poll : option (Z * Z)) (s s' : sys) : Prop :=
  forall ts lo hi, win (tree_of s ts) lo hi ->
    (forall tn pf, poll = Some (tn, pf) -> Z.to_nat ts = Z.to_nat tn -> hi - lo <= 1200000 /\ exists m, pf = m mod 2715648 /\ lo <= m <= hi) ->
    win (tree_of s' ts) lo hi.
Lemma eff_shr p s s' : shr s s' -> eff p s s'.
Proof. intros H ts lo hi W _. now apply H. Qed.
Lemma eff_trans p s1 s2 s3 : eff p s1 s2 -> eff p s2 s3 -> eff p s1 s3.
Proof. unfold eff. intros H1 H2 ts lo hi W P. apply H2; [apply H1|]; assumption. Qed.
(** The only reservations an uplink TBF makes are those of the poll in the event. *)
Definition polled (e : event) : option (Z * Z) :=
  match e with PktUlAss tn _ (Some pf) _ | UlAck tn _ (Some pf) _ _ _ => Some (tn, pf) | _ => None end.
Definition res_at (e : event) (o : list out) : Prop := Forall (fun x => match x with UlTbfModel.Reserve tn fn _ => polled e = Some (tn, fn) | _ => True end) o.
Lemma noRes_at e o : noRes o -> res_at e o.
Proof. apply Forall_impl. intros []; tauto. Qed.
Lemma res_at_app e o1 o2 : res_at e o1 -> res_at e o2 -> res_at e (o1 ++ o2).
Proof. intros. now apply Forall_app. Qed.
Lemma complete_at e s o : res_at e o -> match complete s o with Ok x => res_at e (snd x) | _ => True end.
Proof. intros H. unfold complete. cbv zeta. destruct (u _); cbn; try exact H. apply res_at_app; [exact H|repeat constructor]. Qed.
Lemma step_res_at bs b e x : UlTbfModel.step bs b e = Ok x -> res_at e (snd x).
Proof.
  assert (F : forall o x, noRes o -> freed o = Ok x -> noRes (snd x)) by (intros o y H [= <-]; apply noRes_app; [exact H|repeat constructor]).
  destruct e as [tn fn ia|tn fn poll m|tn fn|tn fn usf enc|enc|tn usf final cd rach|tn usf|tn tfi poll final est cc|tn fn|rach| |]; cbn [UlTbfModel.step]; unfold alive.
  - unfold rx_imm_ass, alive. destruct (a b); try (intros [= <-]; constructor). destruct (handle_imm_ass b tn ia) as [s ok]. destruct ok; cbn [negb]; [|intros [= <-]; constructor].
    destruct (_ && _); [intros [= <-]; repeat constructor|]. destruct (two s); [intros [= <-]; constructor|]. intros E. pose proof (complete_at (ImmAss tn fn ia) s [] ltac:(constructor)) as C. now rewrite E in C.
  - unfold rx_pkt_ul_ass, alive. set (e := PktUlAss tn fn poll m).
    assert (X : forall s y, (let (s, o) := match poll with None => (s, []) | Some pf => (if negb (start_ex s) || (fncmp (start_fn s) (fn_next_block (fn_next_block pf)) <? 0)
        then set_ass s (two s) (from_dl s) (p1 s) (p2 s) true (fn_next_block (fn_next_block pf)) (sba s) else s, [UlTbfModel.Reserve tn pf POLL_UL_ASS]) end in
        if start_ex s && (0 <? fncmp (start_fn s) fn) then Ok (Some (a_chg s STARTING_TIME2), o ++ [Configure (p2 s) (Some (start_fn s))]) else complete s o) = Ok y -> res_at e (snd y)).
    { intros s y. destruct poll as [pf|].
      - set (s1 := if _ || _ then _ else _). destruct (_ && _); [intros [= <-]; repeat constructor|]. intros E. pose proof (complete_at e s1 [UlTbfModel.Reserve tn pf POLL_UL_ASS] ltac:(repeat constructor)) as C. now rewrite E in C.
      - destruct (_ && _); [intros [= <-]; repeat constructor|]. intros E. pose proof (complete_at e s [] ltac:(constructor)) as C. now rewrite E in C. }
    destruct (a b); cbv zeta; first [exact (X _ _) | intros [= <-]; constructor].
  - intros E. apply noRes_at. pose proof (rts_tick_none b tn fn) as N. now rewrite E in N.
  - destruct (ass_rts b tn fn usf); [|intros [= <-]; constructor]. unfold create_rlcmac_msg, alive. destruct (a b), enc; intros [= <-]; repeat constructor.
  - unfold create_rlcmac_msg, alive. destruct (a b), enc; intros [= <-]; repeat constructor.
  - destruct (data_rts b tn usf); [|intros [= <-]; constructor]. intros E. apply noRes_at. pose proof (data_create_none bs b final cd rach) as N. now rewrite E in N.
  - destruct (dummy_rts b tn usf); intros [= <-]; repeat constructor.
  - unfold rx_ul_ack, alive. destruct (negb _); [intros [= <-]; constructor|]. unfold fsm_ul_ack.
    set (o0 := match poll with Some pf => _ | None => _ end). assert (H0 : res_at (UlAck tn tfi poll final est cc) o0) by (destruct poll; repeat constructor).
    destruct (u b); cbn [bind fst snd].
    + destruct (update_tx_cs _ _); cbn [bind]; intros [= <-]; constructor.
    + destruct (update_tx_cs _ _); cbn [bind]; intros [= <-]; constructor.
    + match goal with |- context [bind (bind ?x _) _] => destruct x as [s1|?|] end; cbn [bind fst snd]; try discriminate. destruct (update_tx_cs _ _); cbn [bind]; intros [= <-]. exact H0.
    + match goal with |- context [bind (bind ?x _) _] => destruct x as [s1|?|] end; cbn [bind fst snd]; try discriminate. destruct (update_tx_cs _ _); cbn [bind]; intros [= <-]. exact H0.
    + destruct (update_tx_cs _ _); cbn [bind]; intros [= <-]; constructor.
  - unfold data_cnf, alive. destruct (u b); try (intros [= <-]; constructor). destruct (_ && _); [|intros [= <-]; constructor]. intros E. apply noRes_at. eapply F; [|exact E]. constructor.
  - unfold timer_cb, alive. destruct (negb (pend b)); [intros [= <-]; constructor|]. cbv zeta.
    assert (R : forall s y, (if acc_att s =? 4 then freed [Expired (T s)] else reinit s rach [Expired (T s)]) = Ok y -> noRes (snd y)).
    { intros s y. destruct (acc_att s =? 4); [apply F; repeat constructor|]. intros E. pose proof (reinit_none s rach [Expired (T s)] ltac:(repeat constructor)) as N. now rewrite E in N. }
    destruct (_ =? 3164); [destruct (u _); try discriminate; intros E; apply noRes_at; exact (R _ _ E)|].
    destruct (_ =? 3166); [destruct (u _); try discriminate; intros E; apply noRes_at; exact (R _ _ E)|].
    destruct (_ =? 3182); [|discriminate]. intros E. apply noRes_at. eapply F; [|exact E]. repeat constructor.
  - unfold t3168_cb, alive. destruct (negb _); [intros [= <-]; constructor|]. destruct (from_dl b); [intros E; apply noRes_at; eapply F; [|exact E]; repeat constructor|]. cbv zeta.
    destruct (a _); try discriminate. destruct (_ =? 4); [intros E; apply noRes_at; eapply F; [|exact E]; repeat constructor|intros [= <-]; repeat constructor].
  - unfold t3180_cb, alive. destruct (t3180 b); [|intros [= <-]; constructor]. intros E. apply noRes_at. eapply F; [|exact E]. repeat constructor.
Qed.
Section Events.
  Variable rb : rb_ops.
  Hypothesis Hrb : tree_library rb.
  Variable bs cs0 : Z.
  Lemma win_reserve t m r w lo hi : win t lo hi -> hi - lo <= 1200000 -> lo <= m <= hi -> win (snd (reserve rb t (m mod 2715648) r w)) lo hi.
  Proof.
    intros (L & (E & Hs & Ht) & Hw) Hhl Hm. unfold reserve. change (mkNode (m mod 2715648) r w) with (conc (m, (r, w))).
    pose proof (link_spec t L (m, (r, w)) E Hs (in_window lo hi L m Hw ltac:(lia))) as Hl. destruct (link t _) as [t'|]; cbn [snd]; [|exists L; repeat split; assumption].
    destruct Hl as (_ & L1 & L2 & -> & E' & Hs'). exists (L1 ++ (m, (r, w)) :: L2).
    assert (Hw' : within lo hi (L1 ++ (m, (r, w)) :: L2)) by (apply Forall_app in Hw as [Hw1 Hw2]; apply Forall_app; split; [exact Hw1|constructor; [cbn; lia|exact Hw2]]).
    split; [|exact Hw']. split; [now rewrite (proj1 Hrb)|]. split; [exact Hs'|]. exists lo. apply Forall_forall. intros x Hx. unfold within in Hw'. rewrite Forall_forall in Hw'. specialize (Hw' x Hx). cbv beta in *. lia.
  Qed.
  Lemma eff_reserve s tn pf r w : eff (Some (tn, pf)) s (reserve_at rb s tn pf r w).
  Proof.
    intros ts lo hi W P. unfold reserve_at, set_tree, tree_of in *. cbn [ulc].
    destruct (nth_upd (ulc s) (Z.to_nat tn) (snd (reserve rb (nth (Z.to_nat tn) (ulc s) Leaf) pf r w)) (Z.to_nat ts) Leaf) as [->|(E & _ & ->)]; [exact W|].
    destruct (P tn pf eq_refl E) as (Hhl & m & -> & Hm). apply win_reserve; [now rewrite <- E|exact Hhl|exact Hm].
  Qed.
  Lemma reserve_outs_eff e who o : forall s, res_at e o -> eff (polled e) s (reserve_outs rb s who o).
  Proof.
    induction o as [|x o IH]; intros s H; cbn [reserve_outs]; [apply eff_shr, shr_same; reflexivity|]. inversion H as [|? ? Hx Ho]; subst.
    destruct x; try (exact (IH s Ho)). eapply eff_trans; [|exact (IH _ Ho)]. rewrite Hx. apply eff_reserve.
  Qed.
  Lemma ul_result_eff s g i e x s' o : res_at e (snd x) -> ul_result rb s g i (Ok x) = Ok (s', o) -> eff (polled e) s s'.
  Proof.
    intros H. unfold ul_result. cbn [bind]. pose proof (reserve_outs_eff e i (snd x) s H) as R. destruct (fst x) as [b|]; intros [= <- _].
    - eapply eff_trans; [exact R|]. apply eff_shr. now apply shr_same.
    - eapply eff_trans; [exact R|]. apply eff_shr. eapply shr_trans; [apply (shr_release rb Hrb _ i)|now apply shr_same].
  Qed.

  Definition ev_post (s : sys) (poll : option (Z * Z)) (cause : Prop) (r : res (sys * list sout)) : Prop :=
    match r with Ok (s', o) => Inv s' /\ blocks o = [] /\ eff poll s s' | Err _ => False | UB => cause end.
  Lemma ul_event_spec s og e : Inv s -> (forall g, og = Some g -> In g (gres s)) ->
    ev_post s (polled e) (exists i b, hasU s i b /\ abort_cause bs b e) (ul_event rb bs s og e).
  Proof.
    intros I H. assert (R : eff (polled e) s s) by (now apply eff_shr, shr_same). unfold ul_event. destruct og as [g|]; [|split; [exact I|split; [reflexivity|exact R]]].
    specialize (H g eq_refl). destruct (g_ul g) as [[i b]|] eqn:Eu; [|split; [exact I|split; [reflexivity|exact R]]].
    assert (Hb : hasU s i b) by (exists g; auto). pose proof (hasU_inv s i b I Hb) as Ib. pose proof (step_ok bs b e Ib) as P.
    destruct (UlTbfModel.step bs b e) as [x|?|] eqn:Es; [|exact P|exists i, b; auto].
    destruct (gres_split s g I H) as (A & B & E & Eq).
    destruct (ul_result_spec rb Hrb s s A g B i x I) as (s' & o & Er & I' & Bo & _); try assumption; [repeat split; auto; lia|left; unfold uls; now rewrite Eu|exact (step_tbf_inv bs b e x Ib Es)|].
    rewrite Er. split; [exact I'|]. split; [exact Bo|]. exact (ul_result_eff s g i e x s' o (step_res_at bs b e x Es) Er).
  Qed.
  Lemma start_if_needed_spec s g rach : Inv s -> In g (gres s) -> ev_post s None False (start_if_needed rb cs0 s g rach).
  Proof.
    intros I H. assert (R : ev_post s None False (Ok (s, []))) by (split; [exact I|split; [reflexivity|now apply eff_shr, shr_same]]).
    unfold start_if_needed. destruct (g_ul g) as [?|] eqn:Eu; [exact R|]. destruct (g_dl g); [exact R|]. destruct (g_q g); [|exact R]. cbv zeta.
    destruct (start_good cs0 (ByRach rach)) as (x & Ex & Gx). rewrite Ex. destruct (gres_split s g I H) as (A & B & E & Eq).
    assert (Nx : noRes (snd x)) by (destruct rach; injection Ex as <-; repeat constructor).
    assert (Hx : tbf_inv x). { split; [apply (Forall_impl _ (P := fun x => match x with UlTbfModel.Reserve _ _ _ => False | _ => True end)); [intros []; tauto|exact Nx]|]. destruct x as [[b|] ?]; cbn in *; tauto. }
    destruct (ul_result_spec rb Hrb s (alloc_id s) A g B (next s) x I) as (s' & o & Er & I' & Bo & _); try assumption; [repeat split; cbn; lia|right; unfold uls; rewrite Eu; cbn; repeat split; lia|].
    rewrite Er. split; [exact I'|]. split; [exact Bo|]. exact (ul_result_eff (alloc_id s) g (next s) T3168 x s' o (noRes_at _ _ Nx) Er).
  Qed.
  Lemma start_all_spec rach ids : forall s, Inv s -> ev_post s None False (start_all rb cs0 s ids rach).
  Proof.
    induction ids as [|i ids IH]; intros s I; cbn [start_all]; [split; [exact I|split; [reflexivity|now apply eff_shr, shr_same]]|].
    destruct (find_gre s i) as [g|] eqn:F; [|exact (IH s I)]. apply find_gre_in in F as [Hg _]. pose proof (start_if_needed_spec s g rach I Hg) as P.
    destruct (start_if_needed rb cs0 s g rach) as [[s1 o1]|?|]; cbn [bind fst snd]; [|exact P..]. destruct P as (I1 & B1 & E1). specialize (IH s1 I1).
    destruct (start_all rb cs0 s1 ids rach) as [[s2 o2]|?|]; cbn [bind fst snd]; [|exact IH..]. destruct IH as (I2 & B2 & E2).
    split; [exact I2|]. split; [now rewrite blocks_app, B1, B2|]. eapply eff_trans; eassumption.
  Qed.
  (** A change of an entity that concerns neither its TBFs' numbers nor the trees. *)
  Lemma set_gre_inv s g g' : Inv s -> In g (gres s) -> g_id g' = g_id g -> g_ul g' = g_ul g -> dls g' = dls g -> Inv (set_gre s g').
  Proof.
    intros I Hg Hid Hul Hdl. destruct (gres_split s g I Hg) as (A & B & E & Es). destruct (one_gre s A g B I E) as (_ & Hnd & Hok & Hlu & Hld).
    assert (Hu : uls g' = uls g) by (unfold uls; now rewrite Hul).
    apply (upd_inv s _ A g B g'); try assumption; try reflexivity; rewrite ?Hu, ?Hdl; auto.
    - unfold gre_ok. now rewrite Hul.
    - intros H. apply in_app_iff in H as [H|H]; [specialize (Hlu _ H)|specialize (Hld _ H)]; lia.
    - apply I.
  Qed.
  Lemma reserve_inv s tn pf r w : Inv s -> (forall n, n_reason n = r -> n_who n = w -> owner s n) -> Inv (reserve_at rb s tn pf r w).
  Proof.
    intros (I1 & I2 & I3 & I4 & I5) O. split; [exact I1|]. split; [exact I2|]. split; [exact I3|]. split; [cbn [reserve_at set_tree ulc]; rewrite upd_length; exact I4|].
    intros ts n H. apply tree_reserve in H as [H| ->]; [exact (I5 ts n H)| |exact Hrb]. apply (O (mkNode pf r w)); reflexivity.
  Qed.
  Lemma new_gre_inv s : Inv s -> Inv (new_gre s).
  Proof.
    intros (I1 & I2 & I3 & I4 & I5). rewrite Forall_forall in I2. unfold new_gre, Inv, owner. cbn [gres ulc next].
    set (g := mkGre (next s) None None None false). assert (Ea : all_ids (gres s ++ [g]) = all_ids (gres s) ++ [next s]) by (unfold all_ids; now rewrite flat_map_app).
    rewrite Ea. split; [|split; [|split; [|split]]].
    - apply nodup_app. split; [exact I1|]. split; [repeat constructor; intros []|]. intros x Hx [<-|[]]. specialize (I2 _ Hx). lia.
    - apply Forall_app. split; [apply Forall_forall; intros x Hx; specialize (I2 x Hx); lia|constructor; [lia|constructor]].
    - apply Forall_app. split; [exact I3|]. constructor; [exact Logic.I|constructor].
    - exact I4.
    - intros ts n H. destruct (I5 ts n H) as [(R & x & Hx & Hw)|[(R & x & Hx & Hw)|(R & Hw & Ha)]].
      + left. split; [exact R|]. exists x. rewrite in_app_iff. auto.
      + right; left. split; [exact R|]. exists x. rewrite in_app_iff. auto.
      + right; right. split; [exact R|]. split; [lia|]. intros x Hx. apply in_app_iff in Hx as [Hx|[<-|[]]]; [auto|]. split; intros [].
  Qed.
  Lemma del_gre_inv s g : Inv s -> In g (gres s) -> Inv (del_gre rb s g) /\ shr s (del_gre rb s g).
  Proof.
    intros I Hg. unfold del_gre. set (s1 := match g_dl g with Some d => release_all rb s (d_id d) | None => s end). set (s2 := match g_ul g with Some (i, _) => release_all rb s1 i | None => s1 end).
    assert (S1 : shr s s1) by (unfold s1; destruct (g_dl g); [now apply shr_release|now apply shr_same]).
    assert (S2 : shr s1 s2) by (unfold s2; destruct (g_ul g) as [[]|]; [now apply shr_release|now apply shr_same]).
    assert (G : gres s2 = gres s /\ next s2 = next s /\ length (ulc s2) = length (ulc s)).
    { unfold s2, s1. destruct (g_ul g) as [[]|], (g_dl g); cbn; rewrite ?map_length; auto. }
    destruct G as (G1 & G2 & G3).
    assert (T1 : forall t n, In n (inorder (tree_of s1 t)) -> In n (inorder (tree_of s t)) /\ ~ In (n_who n) (dls g)).
    { intros t n. unfold s1, dls. destruct (g_dl g) as [d|]; [|intros H; split; [exact H|intros []]]. intros H. apply tree_release in H as [H1 H2]; [|exact Hrb]. split; [exact H1|]. intros [H|[]]; congruence. }
    assert (T2 : forall t n, In n (inorder (tree_of s2 t)) -> In n (inorder (tree_of s t)) /\ ~ In (n_who n) (dls g) /\ ~ In (n_who n) (uls g)).
    { intros t n. unfold s2, uls. destruct (g_ul g) as [[i b]|]; [|intros H; destruct (T1 t n H); repeat split; auto]. intros H. apply tree_release in H as [H1 H2]; [|exact Hrb].
      destruct (T1 t n H1). repeat split; auto. intros [H3|[]]; congruence. }
    split; [|eapply shr_trans; [exact S1|]; eapply shr_trans; [exact S2|now apply shr_same]].
    pose proof I as (I1 & I2 & I3 & I4 & I5).
    assert (Hf : forall x, In x (filter (fun x => negb (g_id x =? g_id g)) (gres s)) <-> In x (gres s) /\ x <> g).
    { intros x. rewrite filter_In. split; intros [H1 H2]; (split; [exact H1|]).
      - intros ->. rewrite Z.eqb_refl in H2. discriminate.
      - destruct (Z.eqb_spec (g_id x) (g_id g)) as [E|]; [|reflexivity]. exfalso. apply H2. apply (in_ids_inj _ _ _ (g_id g) I1 H1 Hg); apply in_gre_ids; auto. }
    unfold Inv, owner. cbn [gres ulc next]. rewrite G1, G2. split; [|split; [|split; [|split]]].
    - clear - I1. induction (gres s) as [|x l IH]; [constructor|]. cbn [all_ids flat_map] in I1. apply nodup_app in I1 as (N1 & N2 & N3). cbn [filter]. destruct (negb _); [|apply IH, N2].
      cbn [all_ids flat_map]. apply nodup_app. split; [exact N1|]. split; [apply IH, N2|]. intros y Hy Hin. apply (N3 y Hy). apply in_flat_map in Hin as (z & Hz & Hin). apply filter_In in Hz as [Hz _]. apply in_flat_map. eauto.
    - rewrite Forall_forall in *. intros i Hi. apply in_all_ids in Hi as (x & Hx & Hi). apply Hf in Hx as [Hx _]. apply I2, in_all_ids. eauto.
    - rewrite Forall_forall in *. intros x Hx. apply Hf in Hx as [Hx _]. auto.
    - rewrite G3. exact I4.
    - intros ts n Hn. change (tree_of _ ts) with (tree_of s2 ts) in Hn. apply T2 in Hn as (Hn & D & U). destruct (I5 ts n Hn) as [(R & x & Hx & Hw)|[(R & x & Hx & Hw)|(R & Hw & Ha)]].
      + left. split; [exact R|]. exists x. split; [apply Hf; split; [exact Hx|intros ->; contradiction]|exact Hw].
      + right; left. split; [exact R|]. exists x. split; [apply Hf; split; [exact Hx|intros ->; contradiction]|exact Hw].
      + right; right. split; [exact R|]. split; [exact Hw|]. intros x Hx. apply Hf in Hx as [Hx _]. auto.
  Qed.
End Events.

