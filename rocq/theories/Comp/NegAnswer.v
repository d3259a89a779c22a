From Verif.Lib Require Import Base Outcome.
From Verif.Comp Require Import SlhcModel XidModel XidSpec XidProofs XidRead XidCode NegModel NegSpec NegProofs.

(** ** Coding of an answer *)
Definition alike (f g : field) : Prop := class f = class g /\ forall n, enc_field n f = enc_field n g.
Lemma pack_alike cls fs gs : Forall2 alike fs gs -> forall n, pack n cls fs = pack n cls gs.
Proof.
  induction 1 as [|f g fs gs [H1 H2] _ IH]; intros n; [reflexivity|]. cbn [pack]. rewrite H1, H2. destruct (cls =? class g); [|apply IH].
  destruct (enc_field n g) as [b| |]; cbn [bind]; [rewrite IH; reflexivity|reflexivity|reflexivity].
Qed.
Lemma Forall2_rev {A B} (P : A -> B -> Prop) l k : Forall2 P l k -> Forall2 P (rev l) (rev k).
Proof. induction 1; [constructor|]. cbn [rev]. apply Forall2_app; [assumption|constructor; [assumption|constructor]]. Qed.
Lemma compile_alike dst fs gs v : Forall2 alike fs gs -> compile_xid dst fs v = compile_xid dst gs v.
Proof.
  intros F. unfold compile_xid. destruct (3 <=? zlen dst); [|reflexivity]. cbn [asserts].
  destruct (if 0 <=? v then _ else _) as [[[d pos] n]| |]; cbn [bind]; [|reflexivity|reflexivity].
  inversion F as [|f g fs' gs' Hf Ff]; subst; [reflexivity|]. pose proof (Forall2_rev _ _ _ F) as Fr.
  rewrite (pack_alike 1 _ _ Fr), (pack_alike 2 _ _ Fr). reflexivity.
Qed.
Lemma answered_alike c x : whole x -> alike (answered c x) (x_field (echo c x)).
Proof.
  intros ((_ & _ & _ & Hc & _) & HP & cs & E). rewrite E in Hc. destruct Hc as [Hc _]. split.
  - unfold class, answered, x_field, echo. cbn [f_par p_alg x_alg]. reflexivity.
  - intros n. unfold answered, x_field, echo, enc_field, comps_of. cbn [f_par f_comp f_p f_entity f_algo x_prop x_entity x_alg x_nsapi x_vals x_prof].
    destruct (fits_e _ _ HP) as (_ & _ & L). rewrite L, Nat.sub_diag, app_nil_r, E.
    replace (zlen cs <=? 16) with true by (symmetry; unfold zlen; rewrite Hc; destruct (x_alg x); reflexivity). reflexivity.
Qed.
Lemma answered_all c xs : Forall whole xs -> Forall2 alike (map (answered c) xs) (map x_field (map (echo c) xs)).
Proof. induction 1 as [|x xs W _ IH]; [constructor|]. cbn [map]. constructor; [apply answered_alike; exact W|exact IH]. Qed.
Lemma echo_full c x : whole x -> full (echo c x).
Proof.
  intros (K & HP & cs & E). split; [|exact HP]. destruct K as (H1 & H2 & H3 & H4 & H5 & H6 & H7). split; [exact H1|]. split; [|split; [exact H3|split; [exact I|split; [exact H5|split; [exact H6|exact H7]]]]].
  cbn [echo x_nsapi]. destruct (accepts c x); [exact H2|]. split; [constructor|constructor].
Qed.

(** ** The other end *)
Lemma nsapi_inj l (a b : sne) : StronglySorted Z.lt (map e_nsapi l) -> In a l -> In b l -> e_nsapi a = e_nsapi b -> a = b.
Proof.
  induction l as [|x l IH]; intros S Ha Hb E; [destruct Ha|]. cbn [map] in S. inversion S as [|? ? S1 S2]; subst. rewrite Forall_forall in S2.
  destruct Ha as [->|Ha], Hb as [->|Hb]; [reflexivity| | |apply IH; assumption].
  - specialize (S2 (e_nsapi b) (in_map _ _ _ Hb)). lia.
  - specialize (S2 (e_nsapi a) (in_map _ _ _ Ha)). lia.
Qed.
Lemma find_nsapi l (e : sne) : StronglySorted Z.lt (map e_nsapi l) -> In e l -> find (fun x => e_nsapi x =? e_nsapi e) l = Some e.
Proof.
  intros S Hin. destruct (find (fun x => e_nsapi x =? e_nsapi e) l) as [x|] eqn:E.
  - f_equal. apply find_some in E as [H1 H2]. eapply nsapi_inj; [exact S|assumption|assumption|lia].
  - exfalso. pose proof (find_none _ _ E e Hin) as H. cbn beta in H. lia.
Qed.
Lemma put_nsapis m e : map e_nsapi (m_sne (put_sne m e)) = map e_nsapi (m_sne m).
Proof. cbn [put_sne m_sne]. rewrite map_map. apply map_ext. intros x. destruct (e_nsapi x =? e_nsapi e) eqn:E; [lia|reflexivity]. Qed.
Lemma put_in m e e0 : In e0 (m_sne m) -> e_nsapi e0 = e_nsapi e -> In e (m_sne (put_sne m e)).
Proof. intros H E. cbn [put_sne m_sne]. apply in_map_iff. exists e0. rewrite E, Z.eqb_refl. auto. Qed.
Lemma put_range m e : e_nsapi e < 16 -> Forall (fun x => e_nsapi x < 16) (m_sne m) -> Forall (fun x => e_nsapi x < 16) (m_sne (put_sne m e)).
Proof. intros H F. cbn [put_sne m_sne]. rewrite Forall_map. revert F. apply Forall_impl. intros x Hx. destruct (e_nsapi x =? e_nsapi e); lia. Qed.
Lemma by_sapi_in m s e : by_sapi m s = Some e -> In e (m_sne m) /\ e_sapi e = s.
Proof. intros H. apply find_some in H as [H1 H2]. split; [exact H1|lia]. Qed.
Lemma by_sapi_put m s e0 e : by_sapi m s = Some e0 -> StronglySorted Z.lt (map e_nsapi (m_sne m)) -> e_nsapi e = e_nsapi e0 -> e_sapi e = s -> by_sapi (put_sne m e) s = Some e.
Proof.
  unfold by_sapi. cbn [put_sne m_sne]. induction (m_sne m) as [|x l IH]; intros H S En Es; [discriminate|]. cbn [find map] in *. inversion S as [|? ? S1 S2]; subst. destruct (e_sapi x =? e_sapi e) eqn:Ex.
  - injection H as ->. rewrite En, Z.eqb_refl. cbn [find]. rewrite Z.eqb_refl. reflexivity.
  - assert (e_nsapi x <> e_nsapi e). { apply find_some in H as [H _]. rewrite Forall_forall in S2. specialize (S2 _ (in_map _ _ _ H)). lia. }
    destruct (e_nsapi x =? e_nsapi e) eqn:?; [lia|]. cbn [find]. rewrite Ex. apply IH; assumption || reflexivity.
Qed.
Lemma by_dlci_in m e : StronglySorted Z.lt (map e_nsapi (m_sne m)) -> Forall (fun e => e_nsapi e < 16) (m_sne m) -> In e (m_sne m) -> by_dlci m (e_sapi e) (e_nsapi e) = Ok (Some e).
Proof.
  intros S F Hin. unfold by_dlci. rewrite Forall_forall in F. specialize (F _ Hin). replace (e_nsapi e <? 16) with true by lia. cbn [asserts]. unfold by_nsapi. rewrite (find_nsapi _ _ S Hin), Z.eqb_refl. reflexivity.
Qed.

Lemma answer_block c xs : block_of 0 (map (echo c) (rev xs)) = answer c xs.
Proof. unfold block_of, answer. rewrite <- map_rev, rev_involutive. reflexivity. Qed.

Lemma firstn_msg (a b : list Z) n : n = zlen a -> firstn (Z.to_nat n) (a ++ b) = a.
Proof. intros ->. unfold zlen. rewrite Nat2Z.id, firstn_app, Nat.sub_diag, firstn_all, firstn_O, app_nil_r. reflexivity. Qed.
Lemma zrepeat (x : Z) n : zlen (repeat x n) = Z.of_nat n. Proof. unfold zlen. rewrite repeat_length. reflexivity. Qed.
Lemma perm_rev_look {A} (P : A -> bool) : forall l, (forall a b, In a l -> In b l -> P a = true -> P b = true -> a = b) -> find P (rev l) = find P l.
Proof.
  intros l H. destruct (find P l) as [a|] eqn:E; destruct (find P (rev l)) as [b|] eqn:E2.
  - apply find_some in E as [H1 H2]. apply find_some in E2 as [H3 H4]. rewrite <- in_rev in H3. f_equal. apply H; assumption.
  - apply find_some in E as [H1 H2]. pose proof (find_none _ _ E2 a) as H3. rewrite <- in_rev in H3. rewrite (H3 H1) in H2. discriminate.
  - apply find_some in E2 as [H1 H2]. rewrite <- in_rev in H1. rewrite (find_none _ _ E b H1) in H2. discriminate.
  - reflexivity.
Qed.
Lemma entity_inj xs a b : NoDup (map x_entity xs) -> In a xs -> In b xs -> x_entity a = x_entity b -> a = b.
Proof.
  induction xs as [|x xs IH]; intros N Ha Hb E; [destruct Ha|]. cbn [map] in N. inversion N as [|? ? N1 N2]; subst.
  destruct Ha as [->|Ha], Hb as [->|Hb]; [reflexivity| | |apply IH; assumption]; exfalso; apply N1; [rewrite E|rewrite <- E]; apply in_map; assumption.
Qed.
Lemma settled_rev c k xs n old : NoDup (map x_entity xs) -> settled c k (rev xs) n old = settled c k xs n old.
Proof.
  intros N. unfold settled. rewrite perm_rev_look; [reflexivity|]. intros a b Ha Hb E1 E2. apply (entity_inj xs); try assumption. lia.
Qed.

Theorem respond c m s e es room : mobile_ok m -> by_sapi m s = Some e -> (1 <= length es <= 3)%nat -> Forall (elem_read None) es ->
  let xs := concat (map e_fields es) in
  Forall whole xs -> NoDup (map x_entity xs) ->
  zlen (concat (map x_oct (of_class 1 (map (echo c) xs)))) <= 255 -> zlen (concat (map x_oct (of_class 2 (map (echo c) xs)))) <= 255 ->
  zlen (msg (answer c xs)) <= 256 ->
  exists m', ll_xid_ind c m s (msg es ++ room) (zlen (msg es)) = Ok (mkR m' [SnXidInd s (e_nsapi e)] true) /\
    sn_xid_rsp m' s (e_nsapi e) = Ok (mkR m' [LlXidRsp s (msg (answer c xs))] true) /\
    (m_proto m', m_data m') = fold_left (upd2 c) (rev xs) (m_proto m, m_data m) /\ mobile_ok m' /\ map e_nsapi (m_sne m') = map e_nsapi (m_sne m).
Proof.
  intros (S & R & T2 & T1) Hs Hl Hr xs W N L1 L2 L. destruct (by_sapi_in _ _ _ Hs) as [Hin Es].
  unfold ll_xid_ind. rewrite Hs.
  assert (3 <= zlen (msg es)). { destruct es as [|e0 es]; [cbn in Hl; lia|]. inversion Hr as [|? ? F1 _]; subst. pose proof (elem_len e0 None F1). cbn [msg map concat]. rewrite zlen_app. pose proof (zlen_nonneg (concat (map elem_oct es))). lia. }
  destruct (zlen (msg es) =? 0) eqn:?; [lia|]. rewrite (parse_elems es room Hl Hr). cbn [bind].
  assert (fields_of es = map (given true) (rev xs)) as EF.
  { unfold fields_of. fold xs. rewrite <- map_rev. apply map_ext_in. intros x Hx. rewrite <- in_rev in Hx. rewrite given_field; [reflexivity|]. rewrite Forall_forall in W. apply W. exact Hx. }
  rewrite EF. destruct (handle_all_ok c true (rev xs) (m_proto m) (m_data m) (Forall_rev W) T2 T1) as (EH & T2' & T1'). cbv zeta in EH. rewrite EH. cbn [bind].
  destruct (fold_left (upd2 c) (rev xs) (m_proto m, m_data m)) as [pt dt] eqn:EFold. cbn [fst snd] in *.
  set (e' := mkSne (e_nsapi e) (e_sapi e) (e_req e) (e_act e) (e_xid e) (Some (map (answered c) (rev xs)))).
  set (m' := put_sne (mkM (m_sne m) pt dt) e').
  assert (StronglySorted Z.lt (map e_nsapi (m_sne m'))) as S'. { unfold m'. rewrite put_nsapis. exact S. }
  assert (Forall (fun x => e_nsapi x < 16) (m_sne m')) as R'. { unfold m'. apply put_range; [|exact R]. rewrite Forall_forall in R. apply (R e Hin). }
  assert (In e' (m_sne m')) as Hin'. { unfold m'. eapply put_in; [exact Hin|reflexivity]. }
  exists m'. split; [replace (e_sapi e') with s; reflexivity|]. split.
  - unfold sn_xid_rsp. pose proof (by_dlci_in m' e' S' R' Hin') as BD. change (e_nsapi e') with (e_nsapi e) in BD. change (e_sapi e') with (e_sapi e) in BD. rewrite Es in BD. rewrite BD. cbn [bind]. cbn [e' e_peer e_sapi].
    rewrite (compile_alike _ _ _ 0 (answered_all c (rev xs) (Forall_rev W))).
    rewrite compile_ok; [| | | | | |].
    + cbn [bind fst snd]. rewrite firstn_msg by reflexivity. rewrite answer_block, Es. reflexivity.
    + rewrite Forall_map. apply Forall_rev. revert W. apply Forall_impl. apply echo_full.
    + lia.
    + rewrite zrepeat. lia.
    + rewrite answer_block, zrepeat. lia.
    + rewrite <- map_rev, rev_involutive. exact L1.
    + rewrite <- map_rev, rev_involutive. exact L2.
  - split; [reflexivity|]. split; [|unfold m'; rewrite put_nsapis; reflexivity]. split; [exact S'|]. split; [exact R'|]. split; assumption.
Qed.
