(** Proofs about slhc.c: the ring of transmit states is a list in order of last use. *)
From Coq Require Import Permutation.
From Verif.Lib Require Import Base Outcome.
From Verif.Comp Require Import SlhcModel SlhcSpec SlhcProofs.

Definition hitb (s : slc) (key : list Z * list Z) (i : Z) : bool :=
  if list_eq_dec Z.eq_dec (fst key) (slice 12 8 (c_ip (ix cst0 (tx s) i))) then
    if list_eq_dec Z.eq_dec (snd key) (slice 0 4 (c_tcp (ix cst0 (tx s) i))) then true else false
  else false.
Lemma hitb_iff s key i : hitb s key i = true <-> key = (slice 12 8 (c_ip (ix cst0 (tx s) i)), slice 0 4 (c_tcp (ix cst0 (tx s) i))).
Proof.
  unfold hitb. destruct key as [a b]. cbn [fst snd]. destruct (list_eq_dec Z.eq_dec a _) as [->|N]; [destruct (list_eq_dec Z.eq_dec b _) as [->|N]|]; split; intros H; try reflexivity; try discriminate; inversion H; congruence.
Qed.

Fixpoint linked (nx : list Z) (l : list Z) : Prop :=
  match l with a :: r => match r with b :: _ => ix 0 nx a = b /\ linked nx r | [] => True end | [] => True end.
Lemma linked_cons nx a b r : linked nx (a :: b :: r) <-> ix 0 nx a = b /\ linked nx (b :: r).
Proof. reflexivity. Qed.
Lemma linked_app nx l1 l2 : linked nx (l1 ++ l2) <-> linked nx l1 /\ linked nx l2 /\ (l1 <> [] -> l2 <> [] -> ix 0 nx (last l1 0) = hd 0 l2).
Proof.
  induction l1 as [|a l1 IH]; [cbn; tauto|]. destruct l1 as [|b l1].
  - cbn [app last]. destruct l2 as [|c l2]; [cbn; split; intros; try tauto; repeat split; auto; congruence|].
    rewrite linked_cons. cbn [hd]. split.
    + intros [H1 H2]. split; [exact I|]. split; [exact H2|]. auto.
    + intros (_ & H2 & H3). split; [apply H3; discriminate|exact H2].
  - change ((a :: b :: l1) ++ l2) with (a :: b :: l1 ++ l2). rewrite !linked_cons. change (b :: l1 ++ l2) with ((b :: l1) ++ l2). rewrite IH.
    change (last (a :: b :: l1) 0) with (last (b :: l1) 0). assert (a :: b :: l1 <> [] /\ b :: l1 <> []) by (split; discriminate). tauto.
Qed.
Lemma linked_upd nx i v l : 0 <= i < zlen nx -> (forall x, In x l -> 0 <= x) -> (l <> [] -> ~ In i (removelast l)) -> linked nx l -> linked (upd nx i v) l.
Proof.
  intros Hi. induction l as [|a l IH]; [cbn; tauto|]. intros Hp Hn Hl. destruct l as [|b l]; [exact I|]. rewrite linked_cons in *. destruct Hl as [H1 H2].
  change (removelast (a :: b :: l)) with (a :: removelast (b :: l)) in Hn. specialize (Hn ltac:(discriminate)).
  split.
  - rewrite ix_upd_other; [exact H1|exact Hi|apply Hp; left; reflexivity|intros ->; apply Hn; left; reflexivity].
  - apply IH; [intros x Hx; apply Hp; right; exact Hx|intros _ H; apply Hn; right; exact H|exact H2].
Qed.

(** [ord] lists the places, the one used last first. *)
Record ring (s : slc) (ord : list Z) : Prop := mkRing {
  R_nd : NoDup ord; R_in : forall i, In i ord <-> 0 <= i < zlen (tx s); R_ln : length (nxt s) = length (tx s); R_ne : ord <> [];
  R_li : linked (nxt s) ord; R_cl : ix 0 (nxt s) (last ord 0) = hd 0 ord; R_ol : oldest s = last ord 0 }.

Lemma last_In (l : list Z) : l <> [] -> In (last l 0) l.
Proof. intros H. destruct (exists_last H) as (a & x & ->). rewrite last_last. apply in_or_app. right. left. reflexivity. Qed.
Lemma last_app_cons (l1 l2 : list Z) x d : last (l1 ++ x :: l2) d = last (x :: l2) d.
Proof. induction l1 as [|a l1 IH]; [reflexivity|]. cbn [app]. destruct (l1 ++ x :: l2) eqn:E; [destruct l1; discriminate|]. exact IH. Qed.
Lemma last_indep (l : list Z) d d' : l <> [] -> last l d = last l d'.
Proof. intros H. destruct (exists_last H) as (a & x & ->). rewrite !last_last. reflexivity. Qed.

Lemma search_spec s key l : forall lcs f, l <> [] -> linked (nxt s) l -> last l 0 = oldest s -> NoDup l -> (length l <= f)%nat ->
  exists b cs l1 l2, search f s key lcs (hd 0 l) = Some (b, last l1 lcs, cs) /\ l = l1 ++ cs :: l2 /\ (forall i, In i l1 -> hitb s key i = false) /\
    hitb s key cs = b /\ (b = false -> l2 = []).
Proof.
  induction l as [|a l IH]; [congruence|]. intros lcs f _ Hl Hla Hnd Hf. destruct f as [|f]; [cbn in Hf; lia|]. cbn [search hd].
  fold (hitb s key a). destruct (hitb s key a) eqn:E.
  - exists true, a, [], l. split; [reflexivity|]. split; [reflexivity|]. split; [intros i []|]. split; [exact E|discriminate].
  - destruct l as [|b l].
    + cbn [last] in Hla. rewrite <- Hla, Z.eqb_refl. exists false, a, [], []. split; [reflexivity|]. split; [reflexivity|]. split; [intros i []|]. split; [exact E|reflexivity].
    + rewrite linked_cons in Hl. destruct Hl as [H1 H2]. change (last (a :: b :: l) 0) with (last (b :: l) 0) in Hla.
      apply NoDup_cons_iff in Hnd as [Ha Hb].
      replace (a =? oldest s) with false. 2: { symmetry. apply Z.eqb_neq. intros Ea. apply Ha. rewrite Ea. rewrite <- Hla. apply last_In. discriminate. }
      rewrite H1. destruct (IH a f) as (b' & cs & l1 & l2 & S1 & S2 & S3 & S4 & S5); [discriminate|exact H2|exact Hla|exact Hb|cbn [length] in *; lia|].
      cbn [hd] in S1. exists b', cs, (a :: l1), l2. split; [|split; [cbn [app]; f_equal; exact S2|split; [intros i [<-|Hi]; [exact E|apply S3; exact Hi]|split; assumption]]].
      rewrite S1. destruct l1 as [|z l1]; [reflexivity|]. change (last (a :: z :: l1) lcs) with (last (z :: l1) lcs). rewrite (last_indep (z :: l1) a lcs) by discriminate. reflexivity.
Qed.

Lemma removelast_notin (l : list Z) : NoDup l -> l <> [] -> ~ In (last l 0) (removelast l).
Proof. intros Hn Hne. destruct (exists_last Hne) as (a & x & ->). rewrite last_last, removelast_last. apply NoDup_remove_2 in Hn. rewrite app_nil_r in Hn. exact Hn. Qed.
Lemma removelast_In (x : Z) l : In x (removelast l) -> In x l.
Proof. induction l as [|a l IH]; [intros []|]. destruct l as [|b l]; [intros []|]. change (removelast (a :: b :: l)) with (a :: removelast (b :: l)). intros [H|H]; [left; exact H|right; apply IH, H]. Qed.

(** The search finds the first place with the key, or ends at the last; the ring is then the list with that place in front. *)
Lemma search_ring s ord key tx' xc : ring s ord -> zlen (tx s) <= 256 -> length tx' = length (tx s) ->
  exists b lcs cs l1 l2, search 256 s key (oldest s) (ix 0 (nxt s) (oldest s)) = Some (b, lcs, cs) /\ ord = l1 ++ cs :: l2 /\
    (forall i, In i l1 -> hitb s key i = false) /\ hitb s key cs = b /\ (b = false -> l2 = []) /\ 0 <= cs < zlen (tx s) /\
    forall rx' rc to, ring (mkSlc tx' (fst (relink s b lcs cs)) rx' (snd (relink s b lcs cs)) xc rc to) (cs :: l1 ++ l2).
Proof.
  intros [Hnd Hin Hln Hne Hli Hcl Hol] Hsz Htx.
  assert (length ord <= 256)%nat as Hlen.
  { assert (incl ord (zrange (length (tx s)))) as Hi. { intros x Hx. apply zrange_In. apply Hin in Hx. exact Hx. }
    apply (NoDup_incl_length Hnd) in Hi. unfold zrange in Hi. rewrite map_length, seq_length in Hi. unfold zlen in Hsz. lia. }
  destruct (search_spec s key ord (oldest s) 256 Hne Hli (eq_sym Hol) Hnd Hlen) as (b & cs & l1 & l2 & S1 & S2 & S3 & S4 & S5).
  assert (ix 0 (nxt s) (oldest s) = hd 0 ord) as Eh by (rewrite Hol; exact Hcl).
  exists b, (last l1 (oldest s)), cs, l1, l2. rewrite Eh. split; [exact S1|]. split; [exact S2|]. split; [exact S3|]. split; [exact S4|]. split; [exact S5|].
  assert (0 <= cs < zlen (tx s)) as Hcs. { apply Hin. rewrite S2. apply in_or_app. right. left. reflexivity. }
  split; [exact Hcs|]. intros rx' rc to.
  assert (forall i, In i (cs :: l1 ++ l2) <-> In i ord) as HP. { intros i. rewrite S2. rewrite in_app_iff. cbn [In]. rewrite in_app_iff. tauto. }
  assert (NoDup (cs :: l1 ++ l2)) as Hnd'. { apply (Permutation_NoDup (l := ord)); [|exact Hnd]. rewrite S2. symmetry. apply Permutation_middle. }
  rewrite S2 in Hli. apply linked_app in Hli as (HL1 & HL2 & HL3).
  assert (forall x, In x ord -> 0 <= x < zlen (nxt s)) as Hpos. { intros x Hx. apply Hin in Hx. unfold zlen in *. rewrite Hln. exact Hx. }
  assert (linked (fst (relink s b (last l1 (oldest s)) cs)) (cs :: l1 ++ l2) /\
    ix 0 (fst (relink s b (last l1 (oldest s)) cs)) (last (cs :: l1 ++ l2) 0) = hd 0 (cs :: l1 ++ l2) /\
    snd (relink s b (last l1 (oldest s)) cs) = last (cs :: l1 ++ l2) 0) as (G1 & G2 & G3).
  {
    destruct l1 as [|a1 l1].
    { (* at the front *) cbn [app last] in *. unfold relink. rewrite Z.eqb_refl. assert ((if b then (nxt s, oldest s) else (nxt s, oldest s)) = (nxt s, oldest s)) as -> by (destruct b; reflexivity). cbn [fst snd]. split; [exact HL2|]. rewrite S2 in Hcl, Hol. cbn [app] in Hcl, Hol. split; [exact Hcl|exact Hol]. }
    set (l1' := a1 :: l1) in *. assert (l1' <> []) as N1 by discriminate. assert (last l1' (oldest s) = last l1' 0) as E1 by (apply last_indep; exact N1).
    assert (last l1' 0 <> oldest s) as Nol. { intros E. assert (In (oldest s) l1') as X by (rewrite <- E; apply last_In; exact N1). rewrite S2 in Hnd. rewrite Hol, S2, last_app_cons in X.
      revert X. rewrite S2 in Hol. clear - Hnd. intros X. assert (In (last (cs :: l2) 0) (cs :: l2)) as Y by (apply last_In; discriminate).
      revert X Y. generalize (last (cs :: l2) 0). intros z X Y. revert Hnd X. generalize l1'. intros l. induction l as [|q l IH]; intros Hn X; [destruct X|]. inversion Hn as [|? ? N1 N2]; subst. destruct X as [->|X]; [apply N1; apply in_or_app; right; exact Y|exact (IH N2 X)]. }
    assert (ix 0 (nxt s) (last l1' 0) = cs) as Hlcs by (apply HL3; [exact N1|discriminate]).
    unfold relink. rewrite E1. rewrite (proj2 (Z.eqb_neq _ _) Nol).
    destruct (cs =? oldest s) eqn:E2.
    { (* at the back *)
      assert (l2 = []) as ->. { destruct l2 as [|z l2]; [reflexivity|]. exfalso. rewrite S2 in Hol. rewrite last_app_cons in Hol. change (last (cs :: z :: l2) 0) with (last (z :: l2) 0) in Hol.
        apply NoDup_cons_iff in Hnd' as [Hx _]. apply Hx. apply in_or_app. right. apply Z.eqb_eq in E2. rewrite E2, Hol. apply last_In. discriminate. }
      assert (fst (if b then (nxt s, last l1' 0) else (nxt s, last l1' 0)) = nxt s) as -> by (destruct b; reflexivity). rewrite app_nil_r.
      apply Z.eqb_eq in E2. rewrite S2 in Hcl. rewrite last_app_cons in Hcl. cbn [last] in Hcl.
      assert (snd (if b then (nxt s, last l1' 0) else (nxt s, last l1' 0)) = last l1' 0) as -> by (destruct b; reflexivity). change (last (cs :: l1') 0) with (last l1' 0). split; [|split; [exact Hlcs|reflexivity]].
      unfold l1'. rewrite linked_cons. split; [rewrite Hcl; reflexivity|exact HL1]. }
    (* in the middle *)
    assert (l2 <> []) as N2. { intros ->. rewrite S2 in Hol. rewrite last_app_cons in Hol. cbn [last] in Hol. apply Z.eqb_neq in E2. congruence. }
    assert (b = true) as -> by (destruct b; [reflexivity|specialize (S5 eq_refl); congruence]). apply Z.eqb_neq in E2. cbn [fst snd].
    assert (hd 0 ord = hd 0 l1') as Hhd by (rewrite S2; reflexivity).
    assert (oldest s = last l2 0) as Hol2. { rewrite Hol, S2, last_app_cons. destruct l2; [congruence|reflexivity]. }
    assert (In (last l1' 0) ord) as I1 by (rewrite S2; apply in_or_app; left; apply last_In; exact N1).
    assert (In cs ord) as I2 by (apply Hin; exact Hcs). assert (In (oldest s) ord) as I3 by (rewrite Hol; apply last_In; exact Hne).
    pose proof Hnd' as X2. apply NoDup_cons_iff in X2 as [X1 X3].
    assert (forall x, In x l1' -> In x l2 -> False) as Hdis. { revert X3. clear. generalize l1'. intros l. induction l as [|q l IH]; intros Hn x A B; [destruct A|]. inversion Hn as [|? ? M1 M2]; subst. destruct A as [->|A]; [apply M1; apply in_or_app; right; exact B|exact (IH M2 x A B)]. }
    set (n1 := upd (nxt s) (last l1' 0) (ix 0 (nxt s) cs)). assert (length n1 = length (nxt s)) as Ln1 by (apply upd_length, Hpos, I1).
    set (n2 := upd n1 cs (ix 0 n1 (oldest s))). assert (length n2 = length (nxt s)) as Ln2 by (unfold n2; rewrite upd_length; [exact Ln1|unfold zlen; rewrite Ln1; apply Hpos, I2]).
    assert (0 <= oldest s < zlen n2) as Zo by (unfold zlen; rewrite Ln2; apply Hpos, I3). assert (0 <= cs < zlen n1) as Zc by (unfold zlen; rewrite Ln1; apply Hpos, I2).
    assert (ix 0 (nxt s) cs = hd 0 l2) as Hn. { destruct l2 as [|z l2]; [congruence|]. rewrite linked_cons in HL2. apply HL2. }
    assert (forall x, In x (l1' ++ l2) -> 0 <= x) as HP1. { intros x Hx. assert (In x ord) as Hy by (apply HP; right; exact Hx). apply Hpos in Hy. lia. }
    assert (last (cs :: l1' ++ l2) 0 = oldest s) as HlN. { rewrite Hol2. destruct l2 as [|z l2]; [congruence|]. rewrite app_comm_cons, last_app_cons. reflexivity. }
    rewrite HlN. split; [|split; [cbn [hd]; apply ix_upd_same; exact Zo|reflexivity]].
    apply linked_upd; [exact Zo|intros x [<-|Hx]; [apply Hcs|apply HP1, Hx]| |].
    { intros _ Hx. rewrite Hol2 in Hx. replace (last l2 0) with (last (cs :: l1' ++ l2) 0) in Hx. 2: { destruct l2 as [|z l2]; [congruence|]. rewrite app_comm_cons, last_app_cons. reflexivity. }
      revert Hx. apply removelast_notin; [exact Hnd'|discriminate]. }
    assert (linked n1 (l1' ++ l2)) as HLn.
    { apply linked_app. split; [|split].
      - apply linked_upd; [apply Hpos, I1|intros x Hx; apply HP1, in_or_app; left; exact Hx| |exact HL1]. intros _. apply removelast_notin; [|exact N1]. rewrite S2 in Hnd. revert Hnd. clear. generalize l1'. intros l. induction l as [|q l IH]; intros Hn; [constructor|]. inversion Hn; subst. constructor; [intros A; apply H1; apply in_or_app; left; exact A|apply IH; assumption].
      - apply linked_upd; [apply Hpos, I1|intros x Hx; apply HP1, in_or_app; right; exact Hx| |].
        + intros _ A. apply removelast_In in A. apply (Hdis (last l1' 0)); [apply last_In; exact N1|exact A].
        + destruct l2 as [|z l2]; [exact I|]. rewrite linked_cons in HL2. apply HL2.
      - intros _ _. unfold n1. rewrite ix_upd_same by (apply Hpos, I1). exact Hn. }
    change (cs :: l1' ++ l2) with ([cs] ++ (l1' ++ l2)). apply linked_app. split; [exact I|]. split.
    + apply linked_upd; [exact Zc|exact HP1| |exact HLn]. intros _ A. apply removelast_In in A. exact (X1 A).
    + intros _ _. cbn [last]. unfold n2. rewrite ix_upd_same by exact Zc. unfold n1. rewrite ix_upd_other; [|apply Hpos, I1|apply Hpos in I3; lia|exact Nol].
      rewrite Hol, Hcl, Hhd. reflexivity.
  }
  constructor.
  - exact Hnd'.
  - intros i. cbn [tx]. rewrite HP, Hin. unfold zlen. rewrite Htx. reflexivity.
  - cbn [nxt tx]. rewrite Htx. unfold relink. destruct b; [|exact Hln]. destruct (_ =? _); [exact Hln|]. destruct (_ =? _) eqn:E2; [exact Hln|].
    cbn [fst]. assert (In (last l1 (oldest s)) ord) as I1. { destruct l1 as [|a l1]; [cbn [last]; rewrite Hol; apply last_In; exact Hne|]. rewrite (last_indep _ _ 0) by discriminate. rewrite S2. apply in_or_app. left. apply last_In. discriminate. }
    assert (In cs ord) as I2 by (apply Hin; exact Hcs). assert (In (oldest s) ord) as I3 by (rewrite Hol; apply last_In; exact Hne).
    rewrite upd_length; [rewrite upd_length; [rewrite upd_length; [exact Hln|apply Hpos, I1]|unfold zlen; rewrite upd_length; [apply Hpos, I2|apply Hpos, I1]]|].
    unfold zlen. rewrite upd_length; [rewrite upd_length; [apply Hpos, I3|apply Hpos, I1]|]. unfold zlen. rewrite upd_length; [apply Hpos, I2|apply Hpos, I1].
  - discriminate.
  - exact G1.
  - exact G2.
  - exact G3.
Qed.
