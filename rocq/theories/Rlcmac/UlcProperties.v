(** Theorems about the uplink reservations (C23). *)
From Coq Require Import Sorted Permutation.
From Verif.Lib Require Import Base Outcome.
From Verif.Rlcmac Require Import UlcModel.

(** *** Specification.  Time is counted in frames without wrapping; the interface only sees it modulo the hyperframe.
    A calendar says for each frame who reserved it and why. *)
Definition calendar := Z -> option (Z * Z).
Definition vacant : calendar := fun _ => None.
Definition put (c : calendar) (n : Z) (v : option (Z * Z)) : calendar := fun m => if m =? n then v else c m.

Inductive call := CReserve (n reason who : Z) | CGet (n : Z) | CPop (n : Z) | CReleaseFn (n : Z) | CReleaseTbf (who : Z) | CExpire (n : Z).
Definition wire (c : call) : op :=
  match c with
  | CReserve n r w => Reserve (n mod 2715648) r w | CGet n => Get (n mod 2715648) | CPop n => Pop (n mod 2715648)
  | CReleaseFn n => ReleaseFn (n mod 2715648) | CReleaseTbf w => ReleaseTbf w | CExpire n => Expire (n mod 2715648)
  end.
Definition entry (c : calendar) (n : Z) : option node :=
  match c n with Some (r, w) => Some (mkNode (n mod 2715648) r w) | None => None end.
Definition spec_step (c : calendar) (o : call) : calendar * answer :=
  match o with
  | CReserve n r w => match c n with Some _ => (c, Rc (-17)) | None => (put c n (Some (r, w)), Rc 0) end
  | CGet n => (c, Found (entry c n))
  | CPop n => (put c n None, Found (entry c n))
  | CReleaseFn n => match c n with Some _ => (put c n None, Rc 0) | None => (c, Rc (-126)) end
  | CReleaseTbf w => ((fun m => match c m with Some (r, w') => if w' =? w then None else Some (r, w') | None => None end), Void)
  | CExpire n => ((fun m => if m <=? n then None else c m), Void)
  end.
Fixpoint spec_run (c : calendar) (os : list call) : calendar * list answer :=
  match os with
  | [] => (c, [])
  | o :: os' => let '(c1, a) := spec_step c o in let '(c2, l) := spec_run c1 os' in (c2, a :: l)
  end.
(** Calls speak about frames near the last expiry (600000 frames, 46 minutes); expiry moves forward. *)
Definition near (now n : Z) : Prop := now - 600000 <= n <= now + 600000.
Fixpoint timely (now : Z) (os : list call) : Prop :=
  match os with
  | [] => True
  | CExpire n :: os' => now <= n <= now + 600000 /\ timely n os'
  | CReleaseTbf _ :: os' => timely now os'
  | (CReserve n _ _ | CGet n | CPop n | CReleaseFn n) :: os' => near now n /\ timely now os'
  end.
(** What is needed of the tree library: balancing keeps the nodes in order, erasing takes out the one node. *)
Definition tree_library (rb : rb_ops) : Prop :=
  (forall t, inorder (rb_insert_color rb t) = inorder t) /\
  (forall it t l r, inorder t = l ++ it :: r -> ~ In it l -> inorder (rb_erase rb it t) = l ++ r).

(** *** Proofs. *)
Notation item := (Z * (Z * Z))%type (only parsing).
Definition conc (x : item) : node := let '(n, (r, w)) := x in mkNode (n mod 2715648) r w.
Definition lookup (L : list item) (n : Z) : option (Z * Z) :=
  match find (fun x => fst x =? n) L with Some x => Some (snd x) | None => None end.
Definition sorted (L : list item) : Prop := StronglySorted (fun a b => fst a < fst b) L.
Definition within (lo hi : Z) (L : list item) : Prop := Forall (fun x => lo <= fst x <= hi) L.

Lemma fncmp_spec a b : - 1357824 < a - b < 1357824 ->
  fncmp (a mod 2715648) (b mod 2715648) = if a <? b then -1 else if a =? b then 0 else 1.
Proof.
  intros H. unfold fncmp, HYPERFRAME. change (2715648 / 2) with 1357824.
  assert (Ha := Z.mod_pos_bound a 2715648 eq_refl). assert (Hb := Z.mod_pos_bound b 2715648 eq_refl).
  assert (Ea := Z.div_mod a 2715648 ltac:(lia)). assert (Eb := Z.div_mod b 2715648 ltac:(lia)).
  set (x := a mod 2715648) in *. set (y := b mod 2715648) in *. set (p := a / 2715648) in *. set (q := b / 2715648) in *. clearbody x y p q.
  assert (Hq : p = q \/ p = q + 1 \/ p = q - 1) by lia.
  destruct (Z.ltb_spec a b); destruct (Z.eqb_spec a b); destruct (Z.eqb_spec x y); destruct (Z.ltb_spec x y); destruct (Z.ltb_spec y x);
    cbn [andb orb]; try (exfalso; lia); try reflexivity.
  all: repeat match goal with |- context [?u <? ?v] => destruct (Z.ltb_spec u v) end; cbn [andb orb]; try (exfalso; lia); reflexivity.
Qed.

Lemma sorted_app L1 L2 : sorted (L1 ++ L2) <-> sorted L1 /\ sorted L2 /\ (forall a b, In a L1 -> In b L2 -> fst a < fst b).
Proof.
  unfold sorted. induction L1 as [|x L1 IH]; cbn [app].
  - split; [intros H; repeat split; [constructor|exact H|intros a b []]|intros (_ & H & _); exact H].
  - split.
    + intros H. apply StronglySorted_inv in H as [H1 H2]. apply IH in H1 as (H1 & H3 & H4). apply Forall_app in H2 as [H2 H5].
      repeat split; [constructor; assumption|assumption|]. intros a b [<-|Ha] Hb; [rewrite Forall_forall in H5; auto|auto].
    + intros (H1 & H2 & H3). apply StronglySorted_inv in H1 as [H1 H4]. constructor.
      * apply IH. repeat split; [assumption|assumption|]. intros a b Ha Hb. apply H3; [now right|exact Hb].
      * apply Forall_app. split; [exact H4|]. apply Forall_forall. intros b Hb. apply H3; [now left|exact Hb].
Qed.
Lemma lookup_app L1 L2 n : lookup (L1 ++ L2) n = match lookup L1 n with Some v => Some v | None => lookup L2 n end.
Proof. unfold lookup. induction L1 as [|x L1 IH]; cbn [app find]; [reflexivity|]. destruct (fst x =? n); [reflexivity|exact IH]. Qed.
Lemma lookup_cons x L n : lookup (x :: L) n = if fst x =? n then Some (snd x) else lookup L n.
Proof. unfold lookup. cbn [find]. now destruct (fst x =? n). Qed.
Lemma lookup_none L n : (forall x, In x L -> fst x <> n) -> lookup L n = None.
Proof.
  induction L as [|x L IH]; intros H; [reflexivity|]. rewrite lookup_cons. rewrite (proj2 (Z.eqb_neq _ _)) by (apply H; now left).
  apply IH. intros y Hy. apply H. now right.
Qed.
Lemma lookup_in L n v : lookup L n = Some v -> In (n, v) L.
Proof.
  induction L as [|[m u] L IH]; [discriminate|]. rewrite lookup_cons. cbn [fst snd]. destruct (Z.eqb_spec m n) as [->|]; [intros [= ->]; now left|]. intros H. right. auto.
Qed.
Lemma in_lookup L n v : sorted L -> In (n, v) L -> lookup L n = Some v.
Proof.
  intros Hs Hin. apply in_split in Hin as (L1 & L2 & ->). apply sorted_app in Hs as (_ & Hs & Hl).
  rewrite lookup_app, lookup_none, lookup_cons; cbn [fst snd]; [now rewrite Z.eqb_refl|].
  intros x Hx. specialize (Hl x (n, v) Hx ltac:(now left)). cbn [fst] in Hl. lia.
Qed.
Lemma map_split_inv L A x B : map conc L = A ++ x :: B -> exists L1 y L2, L = L1 ++ y :: L2 /\ A = map conc L1 /\ x = conc y /\ B = map conc L2.
Proof.
  revert A. induction L as [|y L IH]; intros A H; [destruct A; discriminate|]. destruct A as [|a A]; cbn [map app] in H.
  - injection H as H1 H2. exists [], y, L. auto.
  - injection H as H1 H2. destruct (IH A H2) as (L1 & z & L2 & -> & -> & -> & ->). exists (y :: L1), z, L2. subst a. auto.
Qed.
Lemma conc_fn y : n_fn (conc y) = fst y mod 2715648.
Proof. destruct y as [n [r w]]. reflexivity. Qed.
Lemma conc_entry y : Some (conc y) = match Some (snd y) with Some (r, w) => Some (mkNode (fst y mod 2715648) r w) | None => None end.
Proof. now destruct y as [n [r w]]. Qed.

Definition close (L : list item) (n : Z) : Prop := Forall (fun x => - 1357824 < fst x - n < 1357824) L.
Lemma get_spec t L n : inorder t = map conc L -> sorted L -> close L n -> get_node t (n mod 2715648) = entry (lookup L) n.
Proof.
  revert L. induction t as [|l IHl it r IHr]; intros L E Hs Hc; cbn [inorder get_node] in *.
  - destruct L; [reflexivity|discriminate].
  - symmetry in E. apply map_split_inv in E as (L1 & y & L2 & -> & E1 & -> & E2). apply Forall_app in Hc as [Hc1 Hc2]. inversion Hc2 as [|? ? Hy Hc3]; subst.
    apply sorted_app in Hs as (Hs1 & Hs2 & Hs3). apply StronglySorted_inv in Hs2 as [Hs2 Hs4]. rewrite Forall_forall in Hs4.
    rewrite conc_fn, fncmp_spec by lia. unfold entry. rewrite lookup_app, lookup_cons.
    assert (HL : forall x, In x L1 -> fst x < fst y) by (intros x Hx; apply Hs3; [exact Hx|now left]).
    destruct (Z.ltb_spec (fst y) n) as [H|H]; cbn [Z.gtb Z.ltb Z.compare].
    + rewrite (IHr L2 E2 Hs2 Hc3). rewrite lookup_none by (intros x Hx; specialize (HL x Hx); lia). rewrite (proj2 (Z.eqb_neq _ _)) by lia. reflexivity.
    + destruct (Z.eqb_spec (fst y) n) as [<-|Hne]; cbn [Z.gtb Z.ltb Z.compare].
      * rewrite lookup_none by (intros x Hx; specialize (HL x Hx); lia). apply conc_entry.
      * rewrite (IHl L1 E1 Hs1 Hc1). unfold entry. rewrite (lookup_none L2) by (intros x Hx; specialize (Hs4 x Hx); lia). now destruct (lookup L1 n).
Qed.
Lemma link_spec t L y : inorder t = map conc L -> sorted L -> close L (fst y) ->
  match link t (conc y) with
  | None => exists v, lookup L (fst y) = Some v
  | Some t' => lookup L (fst y) = None /\ exists L1 L2, L = L1 ++ L2 /\ inorder t' = map conc (L1 ++ y :: L2) /\ sorted (L1 ++ y :: L2)
  end.
Proof.
  revert L. induction t as [|l IHl it r IHr]; intros L E Hs Hc; cbn [inorder link] in *.
  - destruct L; [|discriminate]. split; [reflexivity|]. exists [], []. split; [reflexivity|]. split; [reflexivity|]. constructor; constructor.
  - symmetry in E. apply map_split_inv in E as (L1 & z & L2 & -> & E1 & -> & E2). apply Forall_app in Hc as [Hc1 Hc2]. inversion Hc2 as [|? ? Hz Hc3]; subst.
    apply sorted_app in Hs as (Hs1 & Hs2 & Hs3). assert (Hs2' := Hs2). apply StronglySorted_inv in Hs2 as [Hs2 Hs4]. rewrite Forall_forall in Hs4.
    rewrite !conc_fn, fncmp_spec by lia. rewrite lookup_app, lookup_cons.
    assert (HL : forall x, In x L1 -> fst x < fst z) by (intros x Hx; apply Hs3; [exact Hx|now left]).
    destruct (Z.ltb_spec (fst y) (fst z)) as [H|H]; cbn [Z.gtb Z.ltb Z.compare].
    + specialize (IHl L1 E1 Hs1 Hc1). destruct (link l (conc y)) as [l'|].
      * destruct IHl as (Hn & A & B & -> & E' & Hs'). rewrite Hn. rewrite (proj2 (Z.eqb_neq _ _)) by lia. split; [apply lookup_none; intros x Hx; specialize (Hs4 x Hx); lia|].
        exists A, (B ++ z :: L2). split; [now rewrite <- app_assoc|]. split.
        -- cbn [inorder]. rewrite E', E2, !map_app. cbn [map]. rewrite !map_app, <- app_assoc. reflexivity.
        -- replace (A ++ y :: B ++ z :: L2) with ((A ++ y :: B) ++ z :: L2) by (now rewrite <- app_assoc). apply sorted_app. split; [exact Hs'|]. split; [exact Hs2'|].
           intros a b Ha Hb. apply in_app_or in Ha as [Ha|[<-|Ha]]; [apply Hs3; [apply in_or_app; now left|exact Hb]| |apply Hs3; [apply in_or_app; now right|exact Hb]].
           destruct Hb as [<-|Hb]; [exact H|]. specialize (Hs4 b Hb). lia.
      * destruct IHl as (v & ->). now exists v.
    + destruct (Z.eqb_spec (fst y) (fst z)) as [He|Hne]; cbn [Z.gtb Z.ltb Z.compare].
      * rewrite lookup_none by (intros x Hx; specialize (HL x Hx); lia). rewrite He, Z.eqb_refl. eauto.
      * specialize (IHr L2 E2 Hs2 Hc3). rewrite lookup_none by (intros x Hx; specialize (HL x Hx); lia). rewrite (proj2 (Z.eqb_neq _ _)) by lia.
        destruct (link r (conc y)) as [r'|]; [|exact IHr]. destruct IHr as (Hn & A & B & -> & E' & Hs'). split; [exact Hn|].
        exists (L1 ++ z :: A), B. split; [now rewrite <- app_assoc|]. split.
        -- cbn [inorder]. rewrite E', E1, <- app_assoc, (map_app conc L1). reflexivity.
        -- rewrite <- app_assoc. cbn [app]. apply sorted_app. split; [exact Hs1|]. assert (Hz' : forall b, In b (A ++ y :: B) -> fst z < fst b).
           { intros b Hb. apply in_app_or in Hb as [Hb|[<-|Hb]]; [apply Hs4, in_or_app; now left|lia|apply Hs4, in_or_app; now right]. }
           split; [constructor; [exact Hs'|now apply Forall_forall]|]. intros a b Ha [<-|Hb]; [now apply HL|]. specialize (HL a Ha). specialize (Hz' b Hb). lia.
Qed.

Section WithLibrary.
  Variable rb : rb_ops.
  Hypothesis Hrb : tree_library rb.

  Definition drop (n : Z) (L : list item) : list item := filter (fun x => negb (fst x =? n)) L.
  Lemma filter_all {A} (f : A -> bool) l : (forall x, In x l -> f x = true) -> filter f l = l.
  Proof. induction l as [|x l IH]; intros H; [reflexivity|]. cbn [filter]. rewrite H by (now left). f_equal. apply IH. intros y Hy. apply H. now right. Qed.
  Lemma drop_mid L1 y L2 : sorted (L1 ++ y :: L2) -> drop (fst y) (L1 ++ y :: L2) = L1 ++ L2.
  Proof.
    intros Hs. apply sorted_app in Hs as (_ & Hs2 & Hs3). apply StronglySorted_inv in Hs2 as [Hs2 Hs4]. rewrite Forall_forall in Hs4.
    unfold drop. rewrite filter_app. cbn [filter]. rewrite Z.eqb_refl. cbn [negb]. rewrite !filter_all; [reflexivity| |].
    - intros x Hx. specialize (Hs4 x Hx). lia.
    - intros x Hx. specialize (Hs3 x y Hx ltac:(now left)). lia.
  Qed.
  Lemma sorted_filter f L : sorted L -> sorted (filter f L).
  Proof.
    unfold sorted. induction L as [|x L IH]; intros H; [constructor|]. apply StronglySorted_inv in H as [H1 H2]. cbn [filter]. destruct (f x); [|auto].
    constructor; [auto|]. rewrite Forall_forall in *. intros y Hy. apply filter_In in Hy as [Hy _]. auto.
  Qed.
  Lemma lookup_filter f L n : sorted L -> lookup (filter f L) n = match lookup L n with Some v => if f (n, v) then Some v else None | None => None end.
  Proof.
    intros Hs. destruct (lookup L n) as [v|] eqn:E.
    - apply lookup_in in E. destruct (f (n, v)) eqn:Ef.
      + apply in_lookup; [now apply sorted_filter|]. apply filter_In. auto.
      + apply lookup_none. intros [m u] Hx. apply filter_In in Hx as [Hx Hf]. cbn [fst]. intros ->. apply (in_lookup L n v Hs) in E. apply (in_lookup L n u Hs) in Hx. congruence.
    - apply lookup_none. intros [m u] Hx. apply filter_In in Hx as [Hx _]. cbn [fst]. intros ->. apply (in_lookup L n u Hs) in Hx. congruence.
  Qed.
  (** Entries within half a hyperframe of each other have different frame numbers. *)
  Definition tight (L : list item) : Prop := exists lo, within lo (lo + 1200000) L.
  Lemma erase_spec t L1 y L2 : inorder t = map conc (L1 ++ y :: L2) -> sorted (L1 ++ y :: L2) -> tight (L1 ++ y :: L2) ->
    inorder (rb_erase rb (conc y) t) = map conc (drop (fst y) (L1 ++ y :: L2)).
  Proof.
    intros E Hs (lo & Hw). rewrite drop_mid by exact Hs. rewrite map_app in E. cbn [map] in E. rewrite (proj2 Hrb _ _ _ _ E); [now rewrite map_app|].
    intros Hin. apply in_map_iff in Hin as (x & Hx & Hin). apply (f_equal n_fn) in Hx. rewrite !conc_fn in Hx.
    apply Forall_app in Hw as [Hw1 Hw2]. inversion Hw2 as [|? ? Hy _]; subst. unfold within in Hw1. rewrite Forall_forall in Hw1. specialize (Hw1 x Hin).
    apply sorted_app in Hs as (_ & _ & Hs). specialize (Hs x y Hin ltac:(now left)). cbv beta in *. clear - Hx Hw1 Hy Hs. lia.
  Qed.

  Definition rep (t : tree) (L : list item) : Prop := inorder t = map conc L /\ sorted L /\ tight L.
  Lemma tight_filter f L : tight L -> tight (filter f L).
  Proof. intros (lo & H). exists lo. unfold within in *. rewrite Forall_forall in *. intros x Hx. apply filter_In in Hx as [Hx _]. auto. Qed.
  Lemma rep_erase t L y : rep t L -> In y L -> rep (rb_erase rb (conc y) t) (drop (fst y) L).
  Proof.
    intros (E & Hs & Ht) Hin. apply in_split in Hin as (L1 & L2 & ->). split; [now apply erase_spec|]. split; [now apply sorted_filter|now apply tight_filter].
  Qed.
  Lemma filter_filter {A} (f g : A -> bool) l : filter f (filter g l) = filter (fun x => g x && f x) l.
  Proof. induction l as [|x l IH]; [reflexivity|]. cbn [filter]. destruct (g x); cbn [filter andb]; [destruct (f x); now rewrite IH|exact IH]. Qed.
  Lemma filter_ext_in' {A} (f g : A -> bool) l : (forall x, In x l -> f x = g x) -> filter f l = filter g l.
  Proof. apply filter_ext_in. Qed.
  Lemma find_conc (g : node -> bool) L : find g (map conc L) = option_map conc (find (fun x => g (conc x)) L).
  Proof. induction L as [|x L IH]; [reflexivity|]. cbn [map find]. destruct (g (conc x)); [reflexivity|exact IH]. Qed.
  Lemma filter_le {A} (f : A -> bool) l : (length (filter f l) <= length l)%nat.
  Proof. induction l as [|x l IH]; [cbn; lia|]. cbn [filter]. destruct (f x); cbn [length]; lia. Qed.
  Lemma drop_shorter L y : In y L -> (length (drop (fst y) L) < length L)%nat.
  Proof.
    unfold drop. induction L as [|x L IH]; intros H; [contradiction|]. cbn [filter]. destruct (Z.eqb_spec (fst x) (fst y)); cbn [negb].
    - cbn [length]. pose proof (filter_le (fun z : item => negb (fst z =? fst y)%Z) L). lia.
    - destruct H as [->|H]; [congruence|]. cbn [length]. specialize (IH H). lia.
  Qed.
  Definition who_of (x : item) : Z := snd (snd x).
  Lemma conc_who x : n_who (conc x) = who_of x.
  Proof. now destruct x as [n [r w]]. Qed.
  Lemma release_tbf_spec fuel : forall t L who, rep t L -> (length L < fuel)%nat ->
    rep (release_tbf_loop rb fuel t who) (filter (fun x => negb (who_of x =? who)) L).
  Proof.
    induction fuel as [|fuel IH]; intros t L who Hr Hl; [lia|]. cbn [release_tbf_loop]. assert (E := proj1 Hr). rewrite E, find_conc.
    destruct (find _ L) as [y|] eqn:Ef; cbn [option_map].
    - apply find_some in Ef as [Hin Hw]. cbv beta in Hw. rewrite conc_who in Hw. apply Z.eqb_eq in Hw.
      assert (Hlt := drop_shorter L y Hin). pose proof (IH _ _ who (rep_erase t L y Hr Hin) ltac:(lia)) as H. unfold release_node.
      replace (filter (fun x => negb (who_of x =? who)) L) with (filter (fun x => negb (who_of x =? who)) (drop (fst y) L)); [exact H|].
      unfold drop. rewrite filter_filter. apply filter_ext_in. intros x Hx. destruct (Z.eqb_spec (fst x) (fst y)) as [He|He]; cbn [negb andb]; [|reflexivity].
      destruct x as [n v], y as [m u]. cbn [fst] in He. subst m. destruct Hr as (_ & Hs & _). apply (in_lookup _ _ _ Hs) in Hin. apply (in_lookup _ _ _ Hs) in Hx.
      rewrite Hin in Hx. injection Hx as <-. rewrite Hw, Z.eqb_refl. reflexivity.
    - rewrite filter_all; [exact Hr|]. intros x Hx. apply find_none with (x := x) in Ef; [|exact Hx]. cbv beta in Ef. rewrite conc_who in Ef. now rewrite Ef.
  Qed.
  Lemma expire_spec fuel : forall t L n, rep t L -> close L n -> (length L < fuel)%nat ->
    rep (expire_loop rb fuel t (n mod 2715648)) (filter (fun x => negb (fst x <=? n)) L).
  Proof.
    induction fuel as [|fuel IH]; intros t L n Hr Hc Hl; [lia|]. cbn [expire_loop]. assert (E := proj1 Hr). rewrite E.
    destruct L as [|y L]; cbn [map]; [exact Hr|]. inversion Hc as [|? ? Hy Hc']; subst. rewrite conc_fn, fncmp_spec by lia.
    assert (Hs := proj1 (proj2 Hr)). apply StronglySorted_inv in Hs as [Hs1 Hs2]. rewrite Forall_forall in Hs2.
    assert (Hd : drop (fst y) (y :: L) = L) by (apply (drop_mid [] y L); exact (proj1 (proj2 Hr))).
    assert (Hrec : fst y <= n -> rep (expire_loop rb fuel (rb_erase rb (conc y) t) (n mod 2715648)) (filter (fun x => negb (fst x <=? n)) (y :: L))).
    { intros Hle. cbn [filter]. rewrite (proj2 (Z.leb_le _ _) Hle). cbn [negb]. apply IH; [|exact Hc'|cbn [length] in Hl; lia].
      rewrite <- Hd. apply rep_erase; [exact Hr|now left]. }
    destruct (Z.ltb_spec (fst y) n); cbn [Z.gtb Z.compare]; [apply Hrec; lia|].
    destruct (Z.eqb_spec (fst y) n); cbn [Z.gtb Z.compare]; [apply Hrec; lia|].
    rewrite filter_all; [exact Hr|]. intros x [<-|Hx]; [lia|]. specialize (Hs2 x Hx). lia.
  Qed.

  Definition matches (c : calendar) (L : list item) : Prop := forall n, c n = lookup L n.
  Lemma put_none c L n : matches c L -> sorted L -> matches (put c n None) (drop n L).
  Proof.
    intros H Hs m. unfold put, drop. rewrite lookup_filter by exact Hs. cbn [fst]. rewrite H. destruct (Z.eqb_spec m n); cbn [negb]; now destruct (lookup L m).
  Qed.
  Lemma inserted c L1 L2 y : matches c (L1 ++ L2) -> sorted (L1 ++ y :: L2) -> matches (put c (fst y) (Some (snd y))) (L1 ++ y :: L2).
  Proof.
    intros H Hs m. unfold put. rewrite H. rewrite !lookup_app, lookup_cons. rewrite (Z.eqb_sym m). destruct (Z.eqb_spec (fst y) m) as [<-|]; [|reflexivity].
    rewrite lookup_none; [reflexivity|]. intros x Hx. apply sorted_app in Hs as (_ & _ & Hs). specialize (Hs x y Hx ltac:(now left)). lia.
  Qed.
  Lemma in_window lo hi L n : within lo hi L -> hi - 1357824 < n < lo + 1357824 -> close L n.
  Proof. unfold within, close. rewrite !Forall_forall. intros H Hn x Hx. specialize (H x Hx). cbv beta in *. lia. Qed.
  Lemma within_filter f lo hi L : within lo hi L -> within lo hi (filter f L).
  Proof. unfold within. rewrite !Forall_forall. intros H x Hx. apply filter_In in Hx as [Hx _]. auto. Qed.

  Lemma step_spec now t c L o os : rep t L -> matches c L -> within (now - 600000) (now + 600000) L -> timely now (o :: os) ->
    exists now' L', rep (fst (step rb t (wire o))) L' /\ matches (fst (spec_step c o)) L' /\ within (now' - 600000) (now' + 600000) L' /\ timely now' os /\
      snd (step rb t (wire o)) = snd (spec_step c o).
  Proof.
    intros Hr Hm Hw Ht. pose proof Hr as (E & Hs & Htt).
    assert (Hget : forall n, near now n -> get_node t (n mod 2715648) = entry c n).
    { intros n Hn. rewrite (get_spec t L n E Hs (in_window (now - 600000) (now + 600000) L n Hw ltac:(unfold near in Hn; lia))). unfold entry. now rewrite Hm. }
    assert (Hdrop : forall n v, c n = Some v -> rep (rb_erase rb (conc (n, v)) t) (drop n L)).
    { intros n v Hc. rewrite Hm in Hc. apply lookup_in in Hc. apply (rep_erase t L (n, v) Hr Hc). }
    destruct o as [n rs w|n|n|n|w|n]; cbn [timely wire step spec_step] in *.
    - destruct Ht as [Hn Ht]. exists now. unfold reserve. change (mkNode (n mod 2715648) rs w) with (conc (n, (rs, w))).
      pose proof (link_spec t L (n, (rs, w)) E Hs (in_window (now - 600000) (now + 600000) L n Hw ltac:(unfold near in Hn; lia))) as Hl. cbn [fst] in Hl.
      destruct (link t (conc (n, (rs, w)))) as [t'|].
      + destruct Hl as (Hnone & L1 & L2 & -> & E' & Hs'). rewrite Hm, Hnone. exists (L1 ++ (n, (rs, w)) :: L2). cbn [fst snd].
        assert (Hw' : within (now - 600000) (now + 600000) (L1 ++ (n, (rs, w)) :: L2)).
        { apply Forall_app in Hw as [Hw1 Hw2]. apply Forall_app. split; [exact Hw1|]. constructor; [cbn [fst]; unfold near in Hn; lia|exact Hw2]. }
        split; [|repeat split; [|exact Hw'|exact Ht]].
        * split; [now rewrite (proj1 Hrb)|]. split; [exact Hs'|]. exists (now - 600000). replace (now - 600000 + 1200000) with (now + 600000) by lia. exact Hw'.
        * exact (inserted c L1 L2 (n, (rs, w)) Hm Hs').
      + destruct Hl as (v & Hv). rewrite Hm, Hv. exists L. cbn [fst snd]. split; [exact Hr|]. split; [exact Hm|]. split; [exact Hw|]. split; [exact Ht|reflexivity].
    - destruct Ht as [Hn Ht]. exists now, L. cbn [fst snd]. rewrite (Hget n Hn). auto.
    - destruct Ht as [Hn Ht]. exists now, (drop n L). unfold pop_node. rewrite (Hget n Hn). unfold entry. destruct (c n) as [[rs w]|] eqn:Ec; cbn [fst snd].
      + split; [exact (Hdrop n (rs, w) Ec)|]. split; [now apply put_none|]. split; [now apply within_filter|]. auto.
      + replace (drop n L) with L. 2:{ symmetry. apply filter_all. intros x Hx. destruct (Z.eqb_spec (fst x) n); [|reflexivity]. rewrite Hm in Ec. destruct x as [k v]. cbn [fst] in *. subst k. apply (in_lookup _ _ _ Hs) in Hx. congruence. }
        split; [exact Hr|]. split; [|auto]. intros m. unfold put. destruct (Z.eqb_spec m n) as [->|]; [now rewrite <- Hm, Ec|apply Hm].
    - destruct Ht as [Hn Ht]. exists now. unfold release_fn, release_node. rewrite (Hget n Hn). unfold entry. destruct (c n) as [[rs w]|] eqn:Ec; cbn [fst snd].
      + exists (drop n L). split; [exact (Hdrop n (rs, w) Ec)|]. split; [now apply put_none|]. split; [now apply within_filter|]. auto.
      + exists L. auto.
    - exists now, (filter (fun x => negb (who_of x =? w)) L). cbn [fst snd]. unfold release_tbf.
      split; [apply release_tbf_spec; [exact Hr|rewrite E, map_length; lia]|]. split; [|split; [now apply within_filter|auto]].
      intros m. rewrite lookup_filter by exact Hs. rewrite Hm. destruct (lookup L m) as [[rs w']|]; [|reflexivity]. unfold who_of. cbn [snd]. now destruct (w' =? w).
    - destruct Ht as [Hn Ht]. exists n, (filter (fun x => negb (fst x <=? n)) L). cbn [fst snd]. unfold expire_fn.
      split; [apply expire_spec; [exact Hr|apply (in_window _ _ _ n Hw); lia|rewrite E, map_length; lia]|]. split; [|split; [|auto]].
      + intros m. rewrite lookup_filter by exact Hs. rewrite Hm. cbn [fst]. destruct (lookup L m) as [v|]; destruct (m <=? n); reflexivity.
      + unfold within in *. rewrite Forall_forall in *. intros x Hx. apply filter_In in Hx as [Hx Hf]. specialize (Hw x Hx). cbv beta in *. lia.
  Qed.
  Lemma run_spec os : forall now t c L, rep t L -> matches c L -> within (now - 600000) (now + 600000) L -> timely now os ->
    exists L', rep (fst (run rb t (map wire os))) L' /\ matches (fst (spec_run c os)) L' /\ snd (run rb t (map wire os)) = snd (spec_run c os).
  Proof.
    induction os as [|o os IH]; intros now t c L Hr Hm Hw Ht; cbn [map run spec_run]; [exists L; auto|].
    destruct (step_spec now t c L o os Hr Hm Hw Ht) as (now' & L1 & Hr1 & Hm1 & Hw1 & Ht1 & Ha).
    destruct (step rb t (wire o)) as [t1 a] eqn:E1. destruct (spec_step c o) as [c1 b] eqn:E2. cbn [fst snd] in *. subst b.
    destruct (IH now' t1 c1 L1 Hr1 Hm1 Hw1 Ht1) as (L2 & Hr2 & Hm2 & Ha2).
    destruct (run rb t1 (map wire os)) as [t2 l]. destruct (spec_run c1 os) as [c2 l']. cbn [fst snd] in *. exists L2. subst l'. auto.
  Qed.
End WithLibrary.

(** *** C23: every history of calls answers as the calendar does, and leaves exactly the calendar's reservations, one
    per frame number. *)
Theorem C23_reservations : forall rb now os, tree_library rb -> timely now os ->
  let '(t, answers) := run rb Leaf (map wire os) in
  let '(cal, expected) := spec_run vacant os in
  answers = expected /\ NoDup (map n_fn (inorder t)) /\
  forall it, In it (inorder t) <-> exists n, entry cal n = Some it.
Proof.
  intros rb now os Hrb Ht.
  destruct (run_spec rb Hrb os now Leaf vacant []) as (L & (E & Hs & Htt) & Hm & Ha).
  { split; [reflexivity|]. split; [constructor|]. exists 0. constructor. } { intros n. reflexivity. } { constructor. } { exact Ht. }
  destruct (run rb Leaf (map wire os)) as [t a]. destruct (spec_run vacant os) as [c b]. cbn [fst snd] in *. split; [exact Ha|]. rewrite E. split.
  - clear Hm Ha E. destruct Htt as (lo & Hw). induction L as [|x L IH]; cbn [map]; [constructor|]. apply StronglySorted_inv in Hs as [Hs1 Hs2]. inversion Hw as [|? ? Hx Hw']; subst.
    constructor; [|now apply IH]. rewrite conc_fn. intros Hin. apply in_map_iff in Hin as (nd & Hnd & Hin). apply in_map_iff in Hin as (y & <- & Hin). rewrite conc_fn in Hnd.
    unfold within in Hw'. rewrite Forall_forall in Hs2, Hw'. specialize (Hs2 y Hin). specialize (Hw' y Hin). cbv beta in *. clear - Hnd Hs2 Hw' Hx. lia.
  - intros it. rewrite in_map_iff. split.
    + intros ([n [r w]] & <- & Hin). exists n. unfold entry. rewrite Hm, (in_lookup _ _ _ Hs Hin). reflexivity.
    + intros (n & Hn). unfold entry in Hn. rewrite Hm in Hn. destruct (lookup L n) as [[r w]|] eqn:El; [|discriminate]. injection Hn as <-. exists (n, (r, w)). split; [reflexivity|]. now apply lookup_in.
Qed.
Print Assumptions C23_reservations.

(** *** Non-vacuity: a tree library exists, and a history across the end of the hyperframe. *)
Fixpoint spine (l : list node) : tree := match l with [] => Leaf | x :: l' => Node Leaf x (spine l') end.
Definition node_eq_dec (a b : node) : {a = b} + {a <> b}.
Proof. decide equality; apply Z.eq_dec. Defined.
Fixpoint remove1 (x : node) (l : list node) : list node := match l with [] => [] | y :: l' => if node_eq_dec x y then l' else y :: remove1 x l' end.
Definition plain : rb_ops := mkRb (fun t => t) (fun it t => spine (remove1 it (inorder t))).
Lemma plain_ok : tree_library plain.
Proof.
  assert (Hsp : forall l, inorder (spine l) = l) by (induction l as [|x l IH]; [reflexivity|cbn; now rewrite IH]).
  split; [reflexivity|]. intros it t l r E Hn. cbn [rb_erase plain]. rewrite Hsp, E. clear E. induction l as [|x l IH]; cbn [app remove1].
  - now destruct (node_eq_dec it it).
  - destruct (node_eq_dec it x) as [->|]; [exfalso; apply Hn; now left|]. f_equal. apply IH. intros H. apply Hn. now right.
Qed.
Definition history : list call :=
  [CReserve 2715640 3 1; CReserve 2715661 3 1; CReserve 2715653 0 2; CReserve 2715653 3 1; CExpire 2715643; CGet 2715653; CPop 2715653; CReleaseFn 2715653; CReserve 2715700 2 5; CReleaseTbf 1].
Example C23_nonvacuous : timely 2715600 history /\
  run plain Leaf (map wire history) =
    (Node Leaf (mkNode 52 2 5) Leaf,
     [Rc 0; Rc 0; Rc 0; Rc (-17); Void; Found (Some (mkNode 5 0 2)); Found (Some (mkNode 5 0 2)); Rc (-126); Rc 0; Void]).
Proof. split; [cbn; unfold near; lia|now vm_compute]. Qed.
