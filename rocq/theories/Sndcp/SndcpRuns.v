(** Proofs: receiving schedules, and the tables of entities over whole histories. *)
From Coq Require Import Permutation.
From Verif.Lib Require Import Base Outcome.
From Verif.Sndcp Require Import SndcpModel SndcpSpec SndcpProofs SndcpSend.

(** *** Schedules *)
Lemma perm_forall2 {A B} (R : A -> B -> Prop) l l' : Permutation l' l -> forall is, Forall2 R is l ->
  exists is', Permutation is' is /\ Forall2 R is' l'.
Proof.
  induction 1; intros is H2.
  - inversion H2; subst. exists []. split; constructor.
  - inversion H2; subst. destruct (IHPermutation _ H5) as (is' & P & F).
    exists (x0 :: is'). split; constructor; assumption.
  - inversion H2 as [|a ? la ? Ha Hla]; subst. inversion Hla as [|b ? lb ? Hb Hlb]; subst.
    exists (b :: a :: lb). split; [apply perm_swap|]. repeat constructor; assumption.
  - destruct (IHPermutation2 _ H2) as (is1 & P1 & F1). destruct (IHPermutation1 _ F1) as (is2 & P2 & F2).
    exists is2. split; [etransitivity; eassumption|exact F2].
Qed.

Lemma first_step X k d p : 0 < k -> first_pdu X k p -> zlen (X 0) < 2 ^ 32 ->
  unitdata_ind d p = Ok (absorb d p, None, 0) /\ held X k [0] (absorb d p).
Proof.
  intros Hk Hp HX. pose proof (held_first X k d p Hk Hp HX) as HD. split; [|exact HD].
  destruct Hp as (HF & HT & HM & Hs & Hpl & Hl).
  rewrite unitdata_ind_spec by (intros ->; change (zlen (@nil Z)) with 0 in Hl; lia).
  rewrite HT, HF, HM. destruct (0 =? k) eqn:E; [lia|]. cbn [negb andb].
  destruct (zlen p <? 3) eqn:E1; [lia|]. destruct (zlen p =? 3) eqn:E2; [lia|].
  destruct (df_nomore (absorb d p) && have_all (absorb d p)) eqn:E3; [|reflexivity].
  exfalso. apply (held_all X k [0] _ ltac:(lia) HD) with (i := k) in E3; [|intros i [<-|[]]; lia|lia].
  destruct E3 as [E3|[]]. lia.
Qed.

Lemma single_step X d p : first_pdu X 0 p -> 1 <= zlen (X 0) ->
  exists d', unitdata_ind d p = Ok (d', Some (X 0), 0) /\ df_frags d' = df_frags d.
Proof.
  intros (HF & HT & HM & Hs & Hpl & Hl) HX.
  rewrite unitdata_ind_spec by (intros ->; change (zlen (@nil Z)) with 0 in Hl; lia).
  rewrite HT, HF, HM. change (negb (0 =? 0)) with false. cbn [negb andb].
  destruct (zlen p <? 3) eqn:E1; [lia|]. destruct (zlen p =? 3) eqn:E2; [lia|]. cbv zeta.
  assert (L : zlen p = 4 + zlen (payload p)).
  { unfold payload, hdr_len. rewrite HF. unfold zlen. rewrite skipn_length. unfold zlen in Hl. lia. }
  rewrite Hpl in L. destruct (zlen p =? 4) eqn:E3; [lia|]. rewrite Hpl. eexists. split; reflexivity.
Qed.

Lemma absorb_no0 d p : ~ In 0 (map fst (df_frags d)) -> F_bit p = false -> seg_of p <> 0 ->
  ~ In 0 (map fst (df_frags (absorb d p))).
Proof.
  intros H HF Hs. unfold absorb. rewrite HF. cbv zeta. destruct (M_bit p); cbn [last_seen enqueue df_frags map fst In]; tauto.
Qed.
Lemma done_step d p d' o rc : ~ In 0 (map fst (df_frags d)) -> F_bit p = false -> seg_of p <> 0 ->
  unitdata_ind d p = Ok (d', o, rc) -> o = None /\ ~ In 0 (map fst (df_frags d')).
Proof.
  intros H0 HF Hs H. destruct p as [|b p']; [discriminate H|]. rewrite unitdata_ind_spec in H by discriminate.
  rewrite HF in H. cbn [andb] in H. pose proof (absorb_no0 d (b :: p') H0 HF Hs) as HA.
  destruct (negb (T_bit (b :: p'))); [inversion H; subst; auto|].
  destruct (zlen (b :: p') <? 3); [inversion H; subst; auto|].
  destruct (df_nomore (absorb d (b :: p')) && have_all (absorb d (b :: p'))).
  - unfold segments in H. destruct (negb (fits (df_tot (absorb d (b :: p')) + 256))); [discriminate|].
    rewrite collect_no0 in H by exact HA. cbn [bind] in H. inversion H; subst. split; [reflexivity|]. exact HA.
  - inversion H; subst. auto.
Qed.
Lemma done_run ps : forall d d' outs, ~ In 0 (map fst (df_frags d)) ->
  Forall (fun p => F_bit p = false /\ seg_of p <> 0) ps -> rx d ps = Ok (d', outs) -> outs = [].
Proof.
  induction ps as [|p r IH]; intros d d' outs H0 HF H; cbn [rx] in H; [inversion H; reflexivity|].
  inversion HF as [|? ? [F1 F2] F3]; subst.
  destruct (unitdata_ind d p) as [[[d1 o] rc]|er|] eqn:E; [|discriminate|discriminate]. cbn [bind] in H.
  destruct (done_step d p d1 o rc H0 F1 F2 E) as [-> H1].
  destruct (rx d1 r) as [[d2 o2]|er|] eqn:E2; [|discriminate|discriminate]. cbn [bind fst snd olist app] in H.
  inversion H; subst. eapply IH; eassumption.
Qed.

Lemma rx_app_ok d ps qs d' outs : rx d (ps ++ qs) = Ok (d', outs) ->
  exists d1 o1 o2, rx d ps = Ok (d1, o1) /\ rx d1 qs = Ok (d', o2) /\ outs = o1 ++ o2.
Proof.
  rewrite rx_app. destruct (rx d ps) as [[d1 o1]|er|] eqn:E1; [|discriminate|discriminate]. cbn [bind fst snd].
  destruct (rx d1 qs) as [[d2 o2]|er|] eqn:E2; [|discriminate|discriminate]. cbn [bind fst snd]. intros H. inversion H; subst.
  exists d1, o1, o2. auto.
Qed.

Lemma from_0 k : 0 <= k -> from 0 (Z.to_nat k + 1) = 0 :: from 1 (Z.to_nat k).
Proof. intros H. rewrite Nat.add_1_r, from_S. reflexivity. Qed.

Lemma carries_x0 nsapi npdu pdus X k : carries nsapi npdu pdus X k -> zlen (X 0) <= 65279.
Proof.
  intros [Hk _ Hc Hl _]. rewrite <- Hc in Hl. rewrite from_0 in Hl by lia. cbn [map concat] in Hl.
  rewrite zlen_app in Hl. pose proof (zlen_nonneg (concat (map X (from 1 (Z.to_nat k))))). lia.
Qed.

(** Segments of one N-PDU, the first of them first: if all are there the N-PDU comes out, else nothing. *)
Lemma rx_whole nsapi npdu p0 rest X k sel d : carries nsapi npdu (p0 :: rest) X k -> Permutation sel rest ->
  exists d', rx d (p0 :: sel) = Ok (d', [npdu]) /\ (rest <> [] -> df_frags d' = []).
Proof.
  intros HC HP. pose proof (carries_x0 _ _ _ _ _ HC) as HX. destruct HC as [Hk (q & r & Eq & Hf & Hr) Hc Hl Hs].
  injection Eq as <- <-. cbn [rx]. destruct (Z.eq_dec k 0) as [->|Hk0].
  - inversion Hr; subst. apply Permutation_sym, Permutation_nil in HP. subst sel.
    change (from 0 (Z.to_nat 0 + 1)) with [0] in *. cbn [map concat] in *. rewrite app_nil_r in *.
    destruct (single_step X d p0 Hf ltac:(lia)) as (d' & -> & _). exists d'. split; [reflexivity|congruence].
  - destruct (first_step X k d p0 ltac:(lia) Hf ltac:(lia)) as [-> HD]. cbn [bind].
    destruct (perm_forall2 _ _ _ HP _ Hr) as (is & PI & FI).
    destruct (rx_sel X k ltac:(lia) ltac:(rewrite Hc; lia) is sel [0] (absorb d p0) FI HD) as [_ H].
    + apply Permutation_NoDup with (l := 0 :: is); [apply Permutation_cons_append|].
      constructor; [|eapply Permutation_NoDup; [apply Permutation_sym; exact PI|apply from_NoDup]].
      intros Hin. eapply Permutation_in in Hin; [|exact PI]. apply from_In in Hin. lia.
    + intros i Hi. apply in_app_or in Hi as [Hi|[<-|[]]]; [|lia]. eapply Permutation_in in Hi; [|exact PI]. apply from_In in Hi. lia.
    + exists k. split; [lia|]. intros [H|[]]. lia.
    + destruct H as (d' & -> & Hd).
      * intros i Hi. apply in_or_app. destruct (Z.eq_dec i 0) as [->|]; [right; left; reflexivity|].
        left. eapply Permutation_in; [apply Permutation_sym; exact PI|]. apply from_In. lia.
      * exists d'. cbn [bind fst snd olist app]. rewrite Hc. split; [reflexivity|]. intros _. exact Hd.
Qed.

Lemma rx_partial nsapi npdu p0 rest X k sel lost d : carries nsapi npdu (p0 :: rest) X k ->
  Permutation (sel ++ lost) rest -> lost <> [] -> exists d', rx d (p0 :: sel) = Ok (d', []).
Proof.
  intros HC HP HL. pose proof (carries_x0 _ _ _ _ _ HC) as HX. destruct HC as [Hk (q & r & Eq & Hf & Hr) Hc Hl Hs].
  injection Eq as <- <-. cbn [rx]. destruct (Z.eq_dec k 0) as [->|Hk0].
  - inversion Hr; subst. apply Permutation_sym, Permutation_nil in HP. apply app_eq_nil in HP as [_ HP]. congruence.
  - destruct (first_step X k d p0 ltac:(lia) Hf ltac:(lia)) as [-> HD]. cbn [bind].
    destruct (perm_forall2 _ _ _ HP _ Hr) as (is & PI & FI).
    apply Forall2_app_inv_r in FI as (is1 & is2 & F1 & F2 & ->).
    assert (ND : NoDup (0 :: is1 ++ is2)).
    { constructor; [|eapply Permutation_NoDup; [apply Permutation_sym; exact PI|apply from_NoDup]].
      intros Hin. eapply Permutation_in in Hin; [|exact PI]. apply from_In in Hin. lia. }
    assert (RG : forall i, In i (is1 ++ is2) -> 1 <= i <= k).
    { intros i Hi. eapply Permutation_in in Hi; [|exact PI]. apply from_In in Hi. lia. }
    destruct (rx_sel X k ltac:(lia) ltac:(rewrite Hc; lia) is1 sel [0] (absorb d p0) F1 HD) as [H _].
    + apply Permutation_NoDup with (l := 0 :: is1); [apply Permutation_cons_append|].
      inversion ND as [|? ? N1 N2]; subst. constructor; [intros Hin; apply N1, in_or_app; left; exact Hin|].
      clear -N2. induction is1 as [|a l IH]; [constructor|]. inversion N2; subst. constructor; [|auto].
      intros Hin. apply H1, in_or_app. left. exact Hin.
    + intros i Hi. apply in_app_or in Hi as [Hi|[<-|[]]]; [|lia]. specialize (RG i (in_or_app _ _ _ (or_introl Hi))). lia.
    + exists k. split; [lia|]. intros [H|[]]. lia.
    + destruct H as (d' & ->); [|exists d'; reflexivity].
      destruct is2 as [|j is2']; [inversion F2; subst; congruence|].
      exists j. pose proof (RG j (in_elt j is1 is2')). split; [lia|].
      intros Hin. apply in_app_or in Hin as [Hin|[Hin|[]]]; [|lia].
      inversion ND as [|? ? N1 N2]; subst. apply NoDup_remove_2 in N2. apply N2, in_or_app. left. exact Hin.
Qed.

Lemma rx_schedule nsapi l a dl : schedule l a dl ->
  Forall (fun x => exists X k, carries nsapi (fst x) (snd x) X k) l ->
  forall d d' outs, rx d a = Ok (d', outs) -> outs = dl.
Proof.
  induction 1 as [|x l a dl HS IH|npdu p0 rest sel lost l a dl HP HL HS IH|npdu p0 rest sel extra l a dl HP HE HX HS IH];
    intros HC d d' outs H.
  - cbn in H. inversion H. reflexivity.
  - inversion HC; subst. eapply IH; eassumption.
  - inversion HC as [|? ? (X & k & Hk) HC']; subst. cbn [fst snd] in Hk.
    change (p0 :: sel ++ a) with ((p0 :: sel) ++ a) in H. apply rx_app_ok in H as (d1 & o1 & o2 & H1 & H2 & ->).
    destruct (rx_partial nsapi npdu p0 rest X k sel lost d Hk HP HL) as (d1' & E). rewrite H1 in E. inversion E; subst.
    cbn [app]. eapply IH; eassumption.
  - inversion HC as [|? ? (X & k & Hk) HC']; subst. cbn [fst snd] in Hk.
    change (p0 :: sel ++ extra ++ a) with ((p0 :: sel) ++ extra ++ a) in H.
    apply rx_app_ok in H as (d1 & o1 & o2 & H1 & H2 & ->). apply rx_app_ok in H2 as (d2 & o3 & o4 & H2 & H3 & ->).
    destruct (rx_whole nsapi npdu p0 rest X k sel d Hk HP) as (d1' & E & Hf). rewrite H1 in E. inversion E; subst d1' o1.
    assert (o3 = []).
    { destruct rest as [|r0 rr].
      - rewrite (HE eq_refl) in H2. cbn in H2. inversion H2. reflexivity.
      - eapply done_run; [|exact HX|exact H2]. rewrite Hf by discriminate. intros []. }
    subst o3. cbn [app]. f_equal. eapply IH; eassumption.
Qed.
