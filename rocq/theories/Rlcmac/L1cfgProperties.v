(** C135: the physical layer is configured with what the TBFs that exist were assigned, and with nothing else. *)
From Verif.Lib Require Import Base.
From Verif.Rlcmac Require Import L1cfgModel L1cfgSpec.

(** ** Loops *)
Lemma upd_length n v l : length (upd n v l) = length l.
Proof. revert n; induction l as [|x r IH]; intros [|n]; cbn [upd length]; auto. Qed.
Lemma upd_nth n v l m : (n < length l)%nat -> nth m (upd n v l) 0 = if (m =? n)%nat then v else nth m l 0.
Proof.
  revert n m; induction l as [|x r IH]; intros n m H; cbn [length] in H; [lia|].
  destruct n as [|n], m as [|m]; cbn [upd nth]; try reflexivity.
  rewrite IH by lia. reflexivity.
Qed.
Lemma bit_one i n : Z.testbit (Z.shiftl 1 (Z.of_nat i)) (Z.of_nat n) = (n =? i)%nat.
Proof.
  rewrite Z.shiftl_spec by lia. destruct (Nat.eqb_spec n i) as [->|H].
  - rewrite Z.sub_diag. reflexivity.
  - destruct (Z.lt_ge_cases (Z.of_nat n - Z.of_nat i) 0) as [G|G]; [apply Z.testbit_neg_r; exact G|].
    apply (testbit_high 1 1); lia.
Qed.
Lemma ul_loop_spec a tn mask usf n : (tn + length a <= length usf)%nat ->
  let '(m, u) := ul_loop tn a mask usf in
  length u = length usf /\
  (Z.testbit m (Z.of_nat n), nth n u 0) =
    if ((tn <=? n) && (n <? tn + length a))%nat
    then match nth (n - tn) a None with Some x => (true, x) | None => (Z.testbit mask (Z.of_nat n), nth n usf 0) end
    else (Z.testbit mask (Z.of_nat n), nth n usf 0).
Proof.
  revert tn mask usf; induction a as [|x r IH]; intros tn mask usf H; cbn [ul_loop length] in *.
  - split; [reflexivity|]. replace ((tn <=? n) && (n <? tn + 0))%nat with false by lia. reflexivity.
  - assert (Hc : (n < tn)%nat \/ n = tn \/ (tn < n)%nat) by lia.
    destruct x as [u|].
    + specialize (IH (S tn) (Z.lor mask (Z.shiftl 1 (Z.of_nat tn))) (upd tn u usf)).
      rewrite upd_length in IH. specialize (IH ltac:(lia)).
      destruct (ul_loop (S tn) r _ _) as [m1 u1]. destruct IH as [L E]. split; [exact L|].
      rewrite E, Z.lor_spec, bit_one, upd_nth by lia.
      destruct Hc as [Hc|[->|Hc]].
      * replace ((S tn <=? n) && (n <? S tn + length r))%nat with false by lia.
        replace ((tn <=? n) && (n <? tn + S (length r)))%nat with false by lia.
        replace (n =? tn)%nat with false by lia. rewrite orb_false_r. reflexivity.
      * replace ((S tn <=? tn) && (tn <? S tn + length r))%nat with false by lia.
        replace ((tn <=? tn) && (tn <? tn + S (length r)))%nat with true by lia.
        rewrite Nat.eqb_refl, Nat.sub_diag, orb_true_r. reflexivity.
      * replace ((S tn <=? n) && (n <? S tn + length r))%nat with ((tn <=? n) && (n <? tn + S (length r)))%nat by lia.
        replace (n =? tn)%nat with false by lia. rewrite orb_false_r.
        replace (n - tn)%nat with (S (n - S tn)) by lia. reflexivity.
    + specialize (IH (S tn) mask usf ltac:(lia)).
      destruct (ul_loop (S tn) r _ _) as [m1 u1]. destruct IH as [L E]. split; [exact L|].
      rewrite E. destruct Hc as [Hc|[->|Hc]].
      * replace ((S tn <=? n) && (n <? S tn + length r))%nat with false by lia.
        replace ((tn <=? n) && (n <? tn + S (length r)))%nat with false by lia. reflexivity.
      * replace ((S tn <=? tn) && (tn <? S tn + length r))%nat with false by lia.
        replace ((tn <=? tn) && (tn <? tn + S (length r)))%nat with true by lia.
        rewrite Nat.sub_diag. reflexivity.
      * replace ((S tn <=? n) && (n <? S tn + length r))%nat with ((tn <=? n) && (n <? tn + S (length r)))%nat by lia.
        replace (n - tn)%nat with (S (n - S tn)) by lia. reflexivity.
Qed.
Lemma dl_mask_spec a i mask n :
  Z.testbit (dl_slotmask i a mask) (Z.of_nat n) =
  (Z.testbit mask (Z.of_nat n) || ((i <=? n)%nat && nth (n - i) a false)).
Proof.
  revert i mask; induction a as [|b r IH]; intros i mask; cbn [dl_slotmask].
  - destruct (n - i)%nat; cbn [nth]; rewrite andb_false_r, orb_false_r; reflexivity.
  - rewrite IH. assert (Hc : (n < i)%nat \/ n = i \/ (i < n)%nat) by lia.
    assert (T : Z.testbit (if b then Z.lor mask (Z.shiftl 1 (Z.of_nat i)) else mask) (Z.of_nat n)
                = (Z.testbit mask (Z.of_nat n) || (b && (n =? i)%nat))).
    { destruct b; cbn [andb]; [rewrite Z.lor_spec, bit_one; reflexivity|rewrite orb_false_r; reflexivity]. }
    rewrite T. destruct Hc as [Hc|[->|Hc]].
    + replace (S i <=? n)%nat with false by lia. replace (i <=? n)%nat with false by lia.
      replace (n =? i)%nat with false by lia. cbn [andb]. rewrite andb_false_r, !orb_false_r. reflexivity.
    + replace (S i <=? i)%nat with false by lia. rewrite Nat.leb_refl, Nat.eqb_refl, Nat.sub_diag. cbn [andb nth].
      rewrite andb_true_r, orb_false_r. reflexivity.
    + replace (S i <=? n)%nat with true by lia. replace (i <=? n)%nat with true by lia. replace (n =? i)%nat with false by lia.
      rewrite andb_false_r, orb_false_r. replace (n - i)%nat with (S (n - S i)) by lia. reflexivity.
Qed.

(** ** What one request means *)
(** The request for an allocation: number, starting time, and for each of the 8 timeslots whether it is allocated and with which USF. *)
Theorem C135_request_ul : forall p nr a start, length a = 8%nat ->
  let p' := obey p (submit_configure nr a start) in
  (forall tn, sends p' nr tn = nth tn a None) /\
  sends_from p' nr = match start with Some fn => fn | None => 4294967295 end /\
  (forall m, m <> nr -> p_ul p' m = p_ul p m) /\ p_dl p' = p_dl p.
Proof.
  intros p nr a start L. unfold submit_configure, alloc_ul.
  pose proof (ul_loop_spec a 0 0 (repeat 0 8)) as Hs. destruct (ul_loop 0 a 0 (repeat 0 8)) as [m u] eqn:E.
  cbn [obey]. split; [|split; [|split]].
  - intros tn. unfold sends. cbn [p_ul]. unfold set. rewrite Z.eqb_refl.
    specialize (Hs tn ltac:(rewrite repeat_length; lia)). destruct Hs as [_ Hs].
    rewrite Nat.sub_0_r, L in Hs.
    destruct ((0 <=? tn) && (tn <? 0 + 8))%nat eqn:R.
    + destruct (nth tn a None) as [x|]; inversion Hs as [[G1 G2]]; rewrite G1.
      * rewrite G2. reflexivity.
      * rewrite Z.bits_0. reflexivity.
    + inversion Hs as [[G1 G2]]. rewrite G1, Z.bits_0. rewrite nth_overflow by lia. reflexivity.
  - unfold sends_from. cbn [p_ul]. unfold set. rewrite Z.eqb_refl. reflexivity.
  - intros k Hk. cbn [p_ul]. unfold set. destruct (Z.eqb_spec k nr); [contradiction|reflexivity].
  - reflexivity.
Qed.
Theorem C135_request_dl : forall p nr a tfi, length a = 8%nat ->
  let p' := obey p (configure_l1ctl nr a tfi) in
  (forall tn, receives p' nr tn = if nth tn a false then Some tfi else None) /\
  (forall m, m <> nr -> p_dl p' m = p_dl p m) /\ p_ul p' = p_ul p.
Proof.
  intros p nr a tfi L. unfold configure_l1ctl, alloc_dl. cbn [obey]. split; [|split].
  - intros tn. unfold receives. cbn [p_dl]. unfold set. rewrite Z.eqb_refl, dl_mask_spec, Z.bits_0, Nat.sub_0_r. reflexivity.
  - intros k Hk. cbn [p_dl]. unfold set. destruct (Z.eqb_spec k nr); [contradiction|reflexivity].
  - reflexivity.
Qed.

Print Assumptions C135_request_ul.
Print Assumptions C135_request_dl.

(** ** All histories *)
Definition tag (l : list Z) : list (Z * Z) := map (fun k => (k, k mod 256)) l.
Lemma nr_of_tag k l : In k l -> nr_of k (tag l) = Some (k mod 256).
Proof.
  unfold nr_of, tag. induction l as [|x r IH]; intros H; [contradiction|]. cbn [map find fst].
  destruct (Z.eqb_spec x k) as [->|N]; [reflexivity|]. destruct H as [H|H]; [congruence|]. apply IH; exact H.
Qed.
Lemma without_tag k l : without k (tag l) = tag (drop k l).
Proof.
  unfold without, tag, drop. induction l as [|x r IH]; [reflexivity|]. cbn [map filter fst].
  destruct (negb (x =? k)); cbn [map]; rewrite IH; reflexivity.
Qed.
Lemma In_drop x k l : In x (drop k l) <-> In x l /\ x <> k.
Proof. unfold drop. rewrite filter_In. rewrite negb_true_iff, Z.eqb_neq. reflexivity. Qed.

Record Inv (w : want) (s : st) (p : phy) : Prop := mkI {
  i_un : s_un s = w_un w; i_unr : s_unr s = w_un w mod 256; i_ul : s_ul s = tag (w_ul w);
  i_dn : s_dn s = w_dn w; i_dnr : s_dnr s = w_dn w mod 256; i_dl : s_dl s = tag (w_dl w);
  i_urange : forall k, In k (w_ul w) -> w_un w - 256 <= k < w_un w;
  i_drange : forall k, In k (w_dl w) -> w_dn w - 256 <= k < w_dn w;
  i_unew : forall k, w_un w <= k -> w_ug w k = ([], None);
  i_dnew : forall k, w_dn w <= k -> w_dg w k = None;
  i_send : forall k, In k (w_ul w) ->
    (forall tn, sends p (k mod 256) tn = nth tn (fst (w_ug w k)) None) /\
    sends_from p (k mod 256) = match snd (w_ug w k) with Some fn => fn | None => 4294967295 end;
  i_quiet : forall nr, (forall k, In k (w_ul w) -> k mod 256 <> nr) -> (forall tn, sends p nr tn = None) /\ sends_from p nr = 4294967295;
  i_recv : forall k a tfi, In k (w_dl w) -> w_dg w k = Some (a, tfi) ->
    forall tn, receives p (k mod 256) tn = if nth tn a false then Some tfi else None }.

Lemma sends_ext p q nr : p_ul p nr = p_ul q nr -> (forall tn, sends p nr tn = sends q nr tn) /\ sends_from p nr = sends_from q nr.
Proof. unfold sends, sends_from. intros ->. split; reflexivity. Qed.
Lemma recv_ext p q nr : p_dl p nr = p_dl q nr -> forall tn, receives p nr tn = receives q nr tn.
Proof. unfold receives. intros ->. reflexivity. Qed.
Lemma nil_nth {A} n (d : A) : nth n [] d = d. Proof. destruct n; reflexivity. Qed.
Lemma sends0 nr : (forall tn, sends phy0 nr tn = None) /\ sends_from phy0 nr = 4294967295.
Proof. split; [|reflexivity]. intros tn. unfold sends, phy0. cbn [p_ul]. rewrite Z.bits_0. reflexivity. Qed.
Lemma apart n j k : n - 256 <= j < n -> n - 256 <= k < n -> j mod 256 = k mod 256 -> j = k.
Proof. lia. Qed.

(** A request for the uplink TBF [k], in any state that satisfies the invariant. *)
Lemma inv_cfg w s p k a start : Inv w s p -> In k (w_ul w) -> length a = 8%nat ->
  Inv (mkW (w_un w) (w_ul w) (set (w_ug w) k (a, start)) (w_dn w) (w_dl w) (w_dg w)) s (obey p (submit_configure (k mod 256) a start)).
Proof.
  intros I Hk L. destruct (C135_request_ul p (k mod 256) a start L) as (S1 & S2 & S3 & S4).
  destruct I as [A1 A2 A3 A4 A5 A6 A7 A8 A9 A10 A11 A12 A13].
  constructor; cbn [w_un w_ul w_ug w_dn w_dl w_dg]; auto.
  - intros j Hj. unfold set. destruct (Z.eqb_spec j k) as [->|N]; [specialize (A7 k Hk); lia|auto].
  - intros j Hj. unfold set. destruct (Z.eqb_spec j k) as [->|N]; cbn [fst snd]; [split; assumption|].
    assert (M : j mod 256 <> k mod 256) by (intros M; apply N; apply (apart (w_un w)); auto).
    destruct (sends_ext _ _ _ (S3 _ M)) as [X Y]. rewrite Y. destruct (A11 j Hj) as [U V]. split; [|exact V].
    intros tn. rewrite X. apply U.
  - intros nr Hn. assert (M : nr <> k mod 256) by (intros M; apply (Hn k Hk); auto).
    destruct (sends_ext _ _ _ (S3 _ M)) as [X Y]. rewrite Y. destruct (A12 nr Hn) as [U V]. split; [|exact V].
    intros tn. rewrite X. apply U.
  - intros j b tfi Hj Hg tn. rewrite (recv_ext _ p) by (rewrite S4; reflexivity). eapply A13; eauto.
Qed.
Lemma inv_step w s p e : Inv w s p -> possible w e -> calm w e ->
  Inv (want_step w e) (fst (step s e)) (obey_all p (snd (step s e))).
Proof.
  intros I P C. assert (I' := I). destruct I' as [A1 A2 A3 A4 A5 A6 A7 A8 A9 A10 A11 A12 A13].
  destruct e as [|k a fn|k a|k|k| |k a tfi|k|]; cbn [want_step step fst snd possible calm] in *.
  - (* UlNew *)
    constructor; cbn [s_un s_unr s_ul s_dn s_dnr s_dl w_un w_ul w_ug w_dn w_dl w_dg obey_all fold_left]; auto; try lia.
    + unfold tag. cbn [map]. rewrite A1, A2, A3. reflexivity.
    + intros j [<-|Hj]; [lia|]. specialize (A7 j Hj). specialize (C j Hj). lia.
    + intros j Hj. apply A9. lia.
    + intros j [<-|Hj]; [|auto]. rewrite (A9 (w_un w)) by lia. cbn [fst snd].
      assert (Q : forall k, In k (w_ul w) -> k mod 256 <> w_un w mod 256).
      { intros k Hk. specialize (A7 k Hk). specialize (C k Hk). lia. }
      destruct (A12 _ Q) as [U V]. split; [|exact V]. intros tn. rewrite U, nil_nth. reflexivity.
    + intros nr Hn. apply A12. intros k Hk. apply Hn. right; exact Hk.
  - (* UlWait *)
    destruct P as [Hk L]. unfold with_nr. rewrite A3, nr_of_tag by exact Hk. cbn [obey_all fold_left].
    apply inv_cfg; assumption.
  - (* UlCompl *)
    destruct P as [Hk L]. unfold with_nr. rewrite A3, nr_of_tag by exact Hk. cbn [obey_all fold_left].
    apply inv_cfg; assumption.
  - (* UlBack *)
    destruct C as [C1 C2]. unfold obey_all. rewrite fold_left_app. cbn [fold_left obey].
    constructor; cbn [w_un w_ul w_ug w_dn w_dl w_dg]; auto.
    + intros j Hj. unfold set. destruct (j =? k); auto.
    + intros j Hj. rewrite C1 in Hj. destruct Hj as [<-|[]]. unfold set. rewrite Z.eqb_refl. cbn [fst snd].
      destruct (sends0 (k mod 256)) as [U V]. split; [|exact V]. intros tn. rewrite U, nil_nth. reflexivity.
    + intros nr _. apply sends0.
    + intros j b tfi Hj. rewrite C2 in Hj. contradiction.
  - (* UlFree *)
    unfold with_nr. rewrite A3, nr_of_tag by exact P. cbn [obey_all fold_left]. unfold release_ul, alloc_ul. cbn [obey].
    constructor; cbn [s_un s_unr s_ul s_dn s_dnr s_dl w_un w_ul w_ug w_dn w_dl w_dg]; auto.
    + apply without_tag.
    + intros j Hj. apply In_drop in Hj as [Hj _]. auto.
    + intros j Hj. apply In_drop in Hj as [Hj N].
      assert (M : j mod 256 <> k mod 256) by (intros M; apply N; apply (apart (w_un w)); auto).
      unfold sends, sends_from. cbn [p_ul]. unfold set. rewrite (proj2 (Z.eqb_neq _ _) M). apply (A11 j Hj).
    + intros nr Hn. unfold sends, sends_from. cbn [p_ul]. unfold set. destruct (Z.eqb_spec nr (k mod 256)) as [->|M].
      * split; [|reflexivity]. intros tn. rewrite Z.bits_0. reflexivity.
      * apply A12. intros j Hj. destruct (Z.eq_dec j k) as [->|N]; [congruence|]. apply Hn. apply In_drop. split; assumption.
  - (* DlNew *)
    constructor; cbn [s_un s_unr s_ul s_dn s_dnr s_dl w_un w_ul w_ug w_dn w_dl w_dg obey_all fold_left]; auto; try lia.
    + unfold tag. cbn [map]. rewrite A4, A5, A6. reflexivity.
    + intros j [<-|Hj]; [lia|]. specialize (A8 j Hj). specialize (C j Hj). lia.
    + intros j Hj. apply A10. lia.
    + intros j b tfi [<-|Hj] G; [rewrite A10 in G by lia; discriminate|eauto].
  - (* DlCompl *)
    destruct P as [Hk L]. unfold with_nr. rewrite A6, nr_of_tag by exact Hk. cbn [obey_all fold_left].
    destruct (C135_request_dl p (k mod 256) a tfi L) as (R1 & R2 & R3).
    constructor; cbn [w_un w_ul w_ug w_dn w_dl w_dg]; auto.
    + intros j Hj. unfold set. destruct (Z.eqb_spec j k) as [->|N]; [specialize (A8 k Hk); lia|auto].
    + intros j b t Hj G tn. unfold set in G. destruct (Z.eqb_spec j k) as [->|N].
      * inversion G; subst. apply R1.
      * assert (M : j mod 256 <> k mod 256) by (intros M; apply N; apply (apart (w_dn w)); auto).
        rewrite (recv_ext _ p) by (apply R2; exact M). eapply A13; eauto.
  - (* DlFree *)
    constructor; cbn [s_un s_unr s_ul s_dn s_dnr s_dl w_un w_ul w_ug w_dn w_dl w_dg obey_all fold_left]; auto.
    + rewrite A6. apply without_tag.
    + intros j Hj. apply In_drop in Hj as [Hj _]. auto.
    + intros j b t Hj. apply In_drop in Hj as [Hj _]. eauto.
  - (* Idle *)
    destruct C as [C1 C2]. constructor; cbn [obey_all fold_left obey]; auto.
    + intros j Hj. rewrite C1 in Hj. contradiction.
    + intros nr _. apply sends0.
    + intros j b t Hj. rewrite C2 in Hj. contradiction.
Qed.
Lemma inv_run h : forall w s p, Inv w s p -> always possible w h -> always calm w h ->
  Inv (fold_left want_step h w) (fst (run s h)) (obey_all p (snd (run s h))).
Proof.
  induction h as [|e r IH]; intros w s p I P C; cbn [fold_left run always] in *; [exact I|].
  destruct P as [P1 P2], C as [C1 C2]. pose proof (inv_step w s p e I P1 C1) as J.
  destruct (step s e) as [s1 o]. cbn [fst snd] in J. specialize (IH _ _ _ J P2 C2).
  destruct (run s1 r) as [s2 o2]. cbn [fst snd] in *. unfold obey_all in *. rewrite fold_left_app. exact IH.
Qed.
Lemma inv0 : Inv want0 st0 phy0.
Proof.
  constructor; try reflexivity; try (cbn; contradiction).
  intros nr _. exact (sends0 nr).
Qed.

(** Uplink: in calm histories each TBF sends exactly where it was assigned, with the USFs it was assigned and from its starting time on, and no other
    number sends anywhere.  Missing: histories in which a TBF outlives 256 others, or the channels are released under other TBFs. *)
Theorem C135_ul_partial : forall h, always possible want0 h -> always calm want0 h ->
  let p := obey_all phy0 (snd (run st0 h)) in let w := wanted h in
  (forall k, In k (w_ul w) ->
     (forall tn, sends p (k mod 256) tn = nth tn (fst (w_ug w k)) None) /\
     sends_from p (k mod 256) = match snd (w_ug w k) with Some fn => fn | None => 4294967295 end) /\
  (forall nr, (forall k, In k (w_ul w) -> k mod 256 <> nr) -> forall tn, sends p nr tn = None).
Proof.
  intros h P C. destruct (inv_run h _ _ _ inv0 P C) as [_ _ _ _ _ _ _ _ _ _ A11 A12 _]. split; [exact A11|].
  intros nr Hn. apply A12. exact Hn.
Qed.
Print Assumptions C135_ul_partial.
(** Downlink: a TBF receives exactly where it was assigned, with its TFI.  Missing: that nothing is received for TBFs that are gone. *)
Theorem C135_dl_partial : forall h, always possible want0 h -> always calm want0 h ->
  let p := obey_all phy0 (snd (run st0 h)) in let w := wanted h in
  forall k a tfi, In k (w_dl w) -> w_dg w k = Some (a, tfi) ->
  forall tn, receives p (k mod 256) tn = if nth tn a false then Some tfi else None.
Proof. intros h P C. apply (inv_run h _ _ _ inv0 P C). Qed.
Print Assumptions C135_dl_partial.
(** Downlink, all histories, calm or not: what is received was assigned, with this TFI and on this timeslot, to a TBF of this number (which may be
    gone). *)
Record Asg (w : want) (s : st) (p : phy) : Prop := mkA {
  a_dn : s_dn s = w_dn w; a_dnr : s_dnr s = w_dn w mod 256; a_dl : s_dl s = tag (w_dl w);
  a_recv : forall nr tn tfi, receives p nr tn = Some tfi -> exists k a, w_dg w k = Some (a, tfi) /\ k mod 256 = nr /\ nth tn a false = true }.
Lemma obey_ul_recv l : (forall q, In q l -> match q with CfgUl _ _ _ _ => True | _ => False end) -> forall p nr tn, receives (obey_all p l) nr tn = receives p nr tn.
Proof.
  induction l as [|q r IH]; intros H p nr tn; [reflexivity|]. unfold obey_all. cbn [fold_left].
  change (receives (obey_all (obey p q) r) nr tn = receives p nr tn). rewrite IH by (intros; apply H; right; assumption).
  specialize (H q (or_introl eq_refl)). destruct q; [reflexivity|contradiction|contradiction].
Qed.
Lemma submit_is_ul nr a start : match submit_configure nr a start with CfgUl _ _ _ _ => True | _ => False end.
Proof. unfold submit_configure, alloc_ul. destruct (ul_loop 0 a 0 (repeat 0 8)). exact I. Qed.
Lemma asg_step w s p e : Asg w s p -> possible w e -> Asg (want_step w e) (fst (step s e)) (obey_all p (snd (step s e))).
Proof.
  intros [A4 A5 A6 A13] P.
  assert (R0 : forall nr tn tfi, receives phy0 nr tn <> Some tfi).
  { intros nr tn t. unfold receives, phy0. cbn [p_dl]. rewrite Z.bits_0. discriminate. }
  destruct e as [|k a fn|k a|k|k| |k a tfi|k|]; cbn [want_step step fst snd possible] in *.
  - constructor; auto.
  - constructor; auto. intros nr tn t. rewrite obey_ul_recv; [apply A13|]. intros q. unfold with_nr.
    destruct (nr_of k (s_ul s)); [|contradiction]. intros [<-|[]]. apply submit_is_ul.
  - constructor; auto. intros nr tn t. rewrite obey_ul_recv; [apply A13|]. intros q. unfold with_nr.
    destruct (nr_of k (s_ul s)); [|contradiction]. intros [<-|[]]. apply submit_is_ul.
  - constructor; auto. unfold obey_all. rewrite fold_left_app. cbn [fold_left obey]. intros nr tn t H. exfalso. exact (R0 _ _ _ H).
  - constructor; auto. intros nr tn t. rewrite obey_ul_recv; [apply A13|]. intros q. unfold with_nr.
    destruct (nr_of k (s_ul s)); [|contradiction]. intros [<-|[]]. exact I.
  - constructor; cbn [s_dn s_dnr s_dl w_dn w_dl w_dg]; auto; try lia.
    unfold tag. cbn [map]. rewrite A4, A5, A6. reflexivity.
  - destruct P as [Hk L]. unfold with_nr. rewrite A6, nr_of_tag by exact Hk. unfold obey_all. cbn [fold_left].
    destruct (C135_request_dl p (k mod 256) a tfi L) as (R1 & R2 & _).
    constructor; cbn [w_dn w_dl w_dg]; auto.
    intros nr tn t H. destruct (Z.eq_dec nr (k mod 256)) as [->|M].
    + rewrite R1 in H. exists k, a. unfold set. rewrite Z.eqb_refl.
      destruct (nth tn a false) eqn:B; [|discriminate]. inversion H; subst. auto.
    + rewrite (recv_ext _ p) in H by (apply R2; exact M). destruct (A13 _ _ _ H) as (j & b & G & N & B).
      exists j, b. unfold set. destruct (Z.eqb_spec j k) as [->|_]; [congruence|auto].
  - constructor; cbn [s_dn s_dnr s_dl w_dn w_dl w_dg]; auto. rewrite A6. apply without_tag.
  - constructor; auto. unfold obey_all. cbn [fold_left obey]. intros nr tn t H. exfalso. exact (R0 _ _ _ H).
Qed.
Theorem C135_dl_assigned : forall h, always possible want0 h ->
  let p := obey_all phy0 (snd (run st0 h)) in
  forall nr tn tfi, receives p nr tn = Some tfi ->
  exists k a, w_dg (wanted h) k = Some (a, tfi) /\ k mod 256 = nr /\ nth tn a false = true.
Proof.
  assert (G : forall h w s p, Asg w s p -> always possible w h -> Asg (fold_left want_step h w) (fst (run s h)) (obey_all p (snd (run s h)))).
  { induction h as [|e r IH]; intros w s p A P; cbn [fold_left run always] in *; [exact A|]. destruct P as [P1 P2].
    pose proof (asg_step w s p e A P1) as J. destruct (step s e) as [s1 o]. cbn [fst snd] in J. specialize (IH _ _ _ J P2).
    destruct (run s1 r) as [s2 o2]. cbn [fst snd] in *. unfold obey_all in *. rewrite fold_left_app. exact IH. }
  intros h P. apply (G h want0 st0 phy0); [|exact P]. constructor; try reflexivity.
  intros nr tn t. unfold receives, phy0. cbn [p_dl]. rewrite Z.bits_0. discriminate.
Qed.
Print Assumptions C135_dl_assigned.
(** After the channels are released nothing is configured, whatever happened before. *)
Theorem C135_idle : forall h, let p := obey_all phy0 (snd (run st0 (h ++ [Idle]))) in
  forall nr tn, sends p nr tn = None /\ receives p nr tn = None.
Proof.
  assert (E : forall h s, snd (run s (h ++ [Idle])) = snd (run s h) ++ [PdchRel]).
  { induction h as [|e r IH]; intros s; [reflexivity|]. cbn [app run]. destruct (step s e) as [s1 o]. specialize (IH s1).
    destruct (run s1 (r ++ [Idle])) as [x y], (run s1 r) as [x' y']. cbn [snd] in *. rewrite IH, app_assoc. reflexivity. }
  intros h p nr tn. subst p. rewrite E. unfold obey_all. rewrite fold_left_app. cbn [fold_left obey]. split; [apply sends0|].
  unfold receives, phy0. cbn [p_dl]. rewrite Z.bits_0. reflexivity.
Qed.
Print Assumptions C135_idle.

(** ** Where the claim fails *)
Definition two : ualloc := [None; None; Some 3; Some 5; None; None; None; None].
Definition one : dalloc := [false; false; false; false; true; false; false; false].
Definition ids (n : nat) : list Z := map Z.of_nat (seq 1 n).
(** TBF 0 is in use while 256 others, of other entities, come and go: the last of them has its number, and its end takes TBF 0's timeslots away. *)
Definition wrap : list ev := [UlNew; UlCompl 0 two] ++ flat_map (fun k => [UlNew; UlFree k]) (ids 256).
Lemma wrap_step n : forall w, In 0 (w_ul w) -> 1 <= w_un w ->
  always possible w (flat_map (fun k => [UlNew; UlFree k]) (map (fun i => w_un w + Z.of_nat i) (seq 0 n))) /\
  In 0 (w_ul (fold_left want_step (flat_map (fun k => [UlNew; UlFree k]) (map (fun i => w_un w + Z.of_nat i) (seq 0 n))) w)).
Proof.
  induction n as [|n IH]; intros w H0 H1; [split; [exact I|exact H0]|].
  cbn [seq map flat_map app]. rewrite Z.add_0_r. rewrite <- seq_shift, map_map.
  set (w2 := want_step (want_step w UlNew) (UlFree (w_un w))).
  assert (U : w_un w2 = w_un w + 1) by reflexivity.
  assert (Z0 : In 0 (w_ul w2)).
  { unfold w2. cbn [want_step w_ul w_un]. apply In_drop. split; [right; exact H0|lia]. }
  specialize (IH w2 Z0 ltac:(lia)). rewrite U in IH.
  rewrite (map_ext (fun x => w_un w + Z.of_nat (S x)) (fun i => w_un w + 1 + Z.of_nat i)) by (intros; lia).
  cbn [always fold_left]. fold w2. destruct IH as [P Q]. split; [|exact Q].
  split; [exact I|]. split; [|exact P]. cbn [possible want_step w_ul w_un]. left; reflexivity.
Qed.
Theorem C135_ul_refuted : exists h, always possible want0 h /\ In 0 (w_ul (wanted h)) /\ nth 2 (fst (w_ug (wanted h) 0)) None = Some 3 /\
  forall tn, sends (obey_all phy0 (snd (run st0 h))) (0 mod 256) tn = None.
Proof.
  exists wrap.
  assert (E : ids 256 = map (fun i => w_un (fold_left want_step [UlNew; UlCompl 0 two] want0) + Z.of_nat i) (seq 0 256)) by (vm_compute; reflexivity).
  destruct (wrap_step 256 (fold_left want_step [UlNew; UlCompl 0 two] want0)) as [P Q];
    [left; reflexivity|cbn; lia|]. rewrite <- E in P, Q.
  split; [|split; [|split]].
  - unfold wrap. cbn [app always]. split; [exact I|]. split; [split; [left; reflexivity|reflexivity]|]. exact P.
  - unfold wanted, wrap. rewrite fold_left_app. exact Q.
  - vm_compute. reflexivity.
  - assert (X : p_ul (obey_all phy0 (snd (run st0 wrap))) 0 = (0, 4294967295, repeat 0 8)) by (vm_compute; reflexivity).
    intros tn. unfold sends. change (0 mod 256) with 0. rewrite X, Z.bits_0. reflexivity.
Qed.
Print Assumptions C135_ul_refuted.
(** The end of a downlink TBF is not told to the physical layer: while the uplink TBF exists, blocks with its TFI are still received. *)
Theorem C135_dl_refuted : exists h, always possible want0 h /\ always calm want0 h /\ w_dl (wanted h) = [] /\
  receives (obey_all phy0 (snd (run st0 h))) 0 4 = Some 9.
Proof.
  exists [UlNew; UlCompl 0 two; DlNew; DlCompl 0 one 9; DlFree 0].
  split; [|split; [|split]]; [| |reflexivity|reflexivity]; cbn; repeat split; auto; contradiction.
Qed.
Print Assumptions C135_dl_refuted.
(** When the access procedure of an uplink TBF is begun again, the channels are released under a downlink TBF that goes on existing. *)
Theorem C135_back_refuted : exists h, always possible want0 h /\ w_dl (wanted h) = [0] /\ w_dg (wanted h) 0 = Some (one, 9) /\
  forall tn, receives (obey_all phy0 (snd (run st0 h))) 0 tn = None.
Proof.
  exists [DlNew; DlCompl 0 one 9; UlNew; UlCompl 0 two; UlBack 0].
  split; [|split; [|split]]; [|reflexivity|reflexivity|]; [cbn; repeat split; auto|].
  intros tn. cbn. destruct tn; reflexivity.
Qed.
Print Assumptions C135_back_refuted.

(** The timer started when the last TBF of an entity is gone (gre.c:124-128, 158-162) is not stopped when a new one is assigned meanwhile: it releases
    the channels under the new TBF. *)
Theorem C135_timer_refuted : exists h1 h2, w_ul (wanted h1) = [] /\ w_dl (wanted h1) = [] /\ h2 = [DlNew; DlCompl 1 one 9; Idle] /\
  always possible want0 (h1 ++ h2) /\ w_dl (wanted (h1 ++ h2)) = [1] /\ w_dg (wanted (h1 ++ h2)) 1 = Some (one, 9) /\
  forall nr tn, receives (obey_all phy0 (snd (run st0 (h1 ++ h2)))) nr tn = None.
Proof.
  exists [DlNew; DlCompl 0 one 5; DlFree 0], [DlNew; DlCompl 1 one 9; Idle].
  split; [reflexivity|]. split; [reflexivity|]. split; [reflexivity|]. split; [cbn; repeat split; auto|].
  split; [reflexivity|]. split; [reflexivity|]. intros nr tn. cbn. destruct tn; reflexivity.
Qed.
Print Assumptions C135_timer_refuted.

(** A history that meets the hypotheses: two entities, starting time, access begun anew, release. *)
Definition calm_history : list ev :=
  [UlNew; UlWait 0 two 1234; UlCompl 0 two; DlNew; DlCompl 0 one 9; UlNew; UlWait 1 two 77; DlFree 0; UlFree 1; UlBack 0; UlCompl 0 two].
Example C135_case : always possible want0 calm_history /\ always calm want0 calm_history /\
  map (sends (obey_all phy0 (snd (run st0 calm_history))) 0) (seq 0 8) = two /\
  map (sends (obey_all phy0 (snd (run st0 (firstn 7 calm_history)))) 1) (seq 0 8) = two /\
  sends_from (obey_all phy0 (snd (run st0 (firstn 7 calm_history)))) 1 = 77.
Proof.
  split; [|split; [|repeat split; reflexivity]]; cbn; repeat split; auto; intros; repeat (match goal with H : _ \/ _ |- _ => destruct H | H : False |- _ => destruct H end); subst; lia.
Qed.
