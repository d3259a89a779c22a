(** The dictionary of V.42bis: its lists of children are lists, and stay so. *)
From Verif.Lib Require Import Base Outcome.
From Verif.Comp Require Import V42Model.

Fixpoint chain (d : Z -> node) (e : Z) (l : list Z) : Prop :=
  match l with [] => e = 0 | a :: l => e = a /\ a <> 0 /\ chain d (n_next (d a)) l end.

Record dinv (n2 : Z) (d : Z -> node) (c1 : Z) (kids : Z -> list Z) : Prop := {
  di_n2 : 512 <= n2 <= 4096;
  di_c1 : 259 <= c1 < n2;
  di_chain : forall p, chain d (n_child (d p)) (kids p);
  di_kid : forall p e, In e (kids p) -> 259 <= e < n2 /\ e <> c1 /\ n_par (d e) = p /\ 3 <= p < 4096;
  di_nodup : forall p, NoDup (kids p);
  di_par : forall e, 259 <= e < n2 -> e <> c1 -> n_par (d e) <> 0 -> In e (kids (n_par (d e)));
  di_free : kids c1 = [];
  di_out : forall e, e < 259 \/ n2 <= e -> n_par (d e) = 0;
  di_root : forall x, 0 <= x < 256 -> n_par (d (x + 3)) = 0 /\ n_oct (d (x + 3)) = x }.

Definition dok (n2 : Z) (d : Z -> node) (c1 : Z) : Prop := exists kids, dinv n2 d c1 kids.

Lemma put_eq d i v : put d i v i = v.
Proof. unfold put. now rewrite Z.eqb_refl. Qed.
Lemma put_ne d i v k : k <> i -> put d i v k = d k.
Proof. intros H. unfold put. destruct (k =? i) eqn:E; [lia|reflexivity]. Qed.

Lemma range_length (l : list Z) a b : NoDup l -> (forall e, In e l -> a <= e < b) -> a <= b -> zlen l <= b - a.
Proof.
  intros N H L. assert (I : incl l (map (fun n => a + Z.of_nat n) (seq 0 (Z.to_nat (b - a))))).
  { intros e E. apply in_map_iff. exists (Z.to_nat (e - a)). specialize (H e E). split; [lia|]. apply in_seq. lia. }
  pose proof (NoDup_incl_length N I) as Q. rewrite map_length, seq_length in Q. unfold zlen. lia.
Qed.

Lemma kids_length n2 d c1 kids p : dinv n2 d c1 kids -> zlen (kids p) < 4096.
Proof.
  intros I. pose proof (di_n2 _ _ _ _ I). pose proof (range_length (kids p) 259 n2 (di_nodup _ _ _ _ I p)) as Q.
  assert (zlen (kids p) <= n2 - 259); [|lia]. apply Q; [|lia]. intros e E. apply (di_kid _ _ _ _ I p e E).
Qed.

Lemma find_kid_ok d x l fuel : forall e, chain d e l -> (length l <= fuel)%nat -> (forall a, In a l -> a < 4096) ->
  exists r, find_kid fuel d e x = Ok r /\
    ((r = 0 /\ forall a, In a l -> n_oct (d a) <> x) \/ (In r l /\ n_oct (d r) = x)).
Proof.
  revert fuel. induction l as [|a l IH]; intros fuel e C L B; cbn [chain] in C.
  - subst e. exists 0. destruct fuel; cbn; (split; [reflexivity|left; split; [reflexivity|intros ? []]]).
  - destruct C as (-> & Na & C). destruct fuel as [|f]; [cbn in L; lia|]. cbn [find_kid].
    destruct (a =? 0) eqn:E; [lia|]. unfold need. pose proof (B a (or_introl eq_refl)).
    destruct (a <? 4096) eqn:E2; [|lia]. destruct (n_oct (d a) =? x) eqn:E3.
    + exists a. split; [reflexivity|]. right. split; [now left|lia].
    + cbn in L. destruct (IH f _ C) as (r & R & Q); [lia|intros; apply B; now right|].
      exists r. split; [exact R|]. destruct Q as [[-> Q]|[Q1 Q2]].
      * left. split; [reflexivity|]. intros b [<-|Hb]; [lia|now apply Q].
      * right. split; [now right|exact Q2].
Qed.

Lemma match_ok n2 d c1 p x : dok n2 d c1 -> 0 < p < 4096 ->
  exists r, match_octet d p x = Ok r /\
    (r = 0 \/ (259 <= r < n2 /\ r <> c1 /\ n_par (d r) = p /\ n_oct (d r) = x)).
Proof.
  intros (kids & I) Hp. unfold match_octet, need. destruct (p =? 0) eqn:E; [lia|]. destruct (p <? 4096) eqn:E2; [|lia].
  pose proof (kids_length _ _ _ _ p I) as L. pose proof (di_n2 _ _ _ _ I).
  destruct (find_kid_ok d x (kids p) (Z.to_nat 4096) _ (di_chain _ _ _ _ I p)) as (r & R & Q).
  - unfold zlen in L. lia.
  - intros a A. destruct (di_kid _ _ _ _ I p a A) as (? & _). lia.
  - exists r. split; [exact R|]. destruct Q as [[-> _]|[Q1 Q2]]; [now left|]. right.
    destruct (di_kid _ _ _ _ I p r Q1) as (? & ? & ? & ?). tauto.
Qed.

Lemma match_root d x : match_octet d 0 x = Ok (x + 3).
Proof. reflexivity. Qed.

(** Searching for an entry without children ends. *)
Lemma scan_ok n2 d c fuel : 512 <= n2 <= 4096 -> 259 <= c < n2 -> n_child (d c) = 0 ->
  forall s, 259 <= s < n2 -> (if s <? c then c - s else c - s + (n2 - 259)) <= Z.of_nat fuel ->
  exists r, scan fuel n2 d s = Ok r /\ 259 <= r < n2 /\ n_child (d r) = 0.
Proof.
  intros Hn Hc Cc. induction fuel as [|f IH]; intros s Hs L; [destruct (s <? c) eqn:E; lia|].
  cbn [scan]. set (t := if s + 1 =? n2 then 259 else s + 1).
  assert (Ht : 259 <= t < n2) by (unfold t; destruct (s + 1 =? n2) eqn:E; lia).
  unfold need. destruct (t <? 4096) eqn:E4; [|lia]. destruct (n_child (d t) =? 0) eqn:E5.
  - exists t. repeat split; lia.
  - apply IH; [exact Ht|]. assert (t <> c) by (intros ->; lia). unfold t in *.
    destruct (s + 1 =? n2) eqn:E; destruct (s <? c) eqn:E1; [destruct (259 <? c) eqn:E6|destruct (259 <? c) eqn:E6|destruct (s + 1 <? c) eqn:E6|destruct (s + 1 <? c) eqn:E6]; lia.
Qed.

Lemma chain_ext d d' l : forall e, (forall a, In a l -> n_next (d' a) = n_next (d a)) -> chain d e l -> chain d' e l.
Proof.
  induction l as [|a l IH]; intros e H C; cbn [chain] in *; [exact C|]. destruct C as (-> & N & C).
  repeat split; [exact N|]. rewrite H by now left. apply IH; [|exact C]. intros; apply H; now right.
Qed.

(** The first component is the entry before the one to be taken out. *)
Lemma unlink_ok d nx l2 fuel : forall l1 e, chain d e (l1 ++ nx :: l2) -> l1 <> [] -> NoDup (l1 ++ nx :: l2) ->
  (length l1 <= fuel)%nat -> (forall a, In a l1 -> a < 4096) ->
  exists z, In z l1 /\ n_next (d nx) = (match l2 with [] => 0 | a :: _ => a end) /\
    unlink fuel d e nx = Ok (put d z (mkN (n_oct (d z)) (n_par (d z)) (n_child (d z)) (n_next (d nx)))) /\
    chain (put d z (mkN (n_oct (d z)) (n_par (d z)) (n_child (d z)) (n_next (d nx)))) e (l1 ++ l2).
Proof.
  induction fuel as [|f IH]; intros l1 e C N U L B; destruct l1 as [|a l1]; try congruence; [cbn in L; lia|].
  rewrite <- app_comm_cons in *. cbn [chain] in C. destruct C as (-> & Na & C). cbn [unlink]. unfold need.
  pose proof (B a (or_introl eq_refl)). destruct (a <? 4096) eqn:E; [|lia].
  inversion U as [|? ? U1 U2]; subst.
  destruct l1 as [|b l1].
  - cbn [app] in *. cbn [chain] in C. destruct C as (Cn & Nn & C). rewrite Cn, Z.eqb_refl.
    exists a. split; [now left|]. split; [destruct l2; cbn in C; [exact C|destruct C as (-> & _); reflexivity]|].
    split; [reflexivity|]. cbn [chain]. repeat split; [exact Na|]. rewrite put_eq. cbn [n_next].
    apply chain_ext with d; [|exact C]. intros c Hc. rewrite put_ne; [reflexivity|].
    intros ->. apply U1. right. exact Hc.
  - destruct (n_next (d a) =? nx) eqn:E2.
    { rewrite <- app_comm_cons in C. cbn [chain] in C. destruct C as (Cb & _). inversion U2 as [|? ? U3 _]; subst.
      exfalso. apply U3. apply in_or_app. right. left. lia. }
    assert (LL : (length (b :: l1) <= f)%nat) by (cbn in L |- *; lia).
    destruct (IH (b :: l1) (n_next (d a)) C ltac:(congruence) U2 LL) as (z & Z1 & Z2 & Z3 & Z4).
    { intros c Hc. apply B. now right. }
    exists z. split; [now right|]. split; [exact Z2|]. split; [exact Z3|].
    split; [reflexivity|]. split; [exact Na|].
    rewrite put_ne; [exact Z4|]. intros ->. apply U1. apply in_or_app. now left.
Qed.

Lemma chain_unique d l : forall l' e, chain d e l -> chain d e l' -> l = l'.
Proof.
  induction l as [|a l IH]; intros [|b l'] e C D; cbn [chain] in *; [reflexivity|destruct D; lia|destruct C; lia|].
  destruct C as (-> & N & C), D as (-> & _ & D). f_equal. eapply IH; eauto.
Qed.

Definition kset (kids : Z -> list Z) (p : Z) (l : list Z) : Z -> list Z := fun q => if q =? p then l else kids q.

(** After the first three writes of [add_octet]. *)
Lemma link_inv n2 d c1 kids at_ x : dinv n2 d c1 kids -> 3 <= at_ < 4096 -> at_ <> c1 ->
  let d1 := put d c1 (mkN x at_ 0 (n_next (d c1))) in
  let d2 := put d1 c1 (mkN (n_oct (d1 c1)) (n_par (d1 c1)) (n_child (d1 c1)) (n_child (d1 at_))) in
  let d3 := put d2 at_ (mkN (n_oct (d2 at_)) (n_par (d2 at_)) c1 (n_next (d2 at_))) in
  let kids' := kset kids at_ (c1 :: kids at_) in
  (forall p, chain d3 (n_child (d3 p)) (kids' p)) /\
  (forall p e, In e (kids' p) -> 259 <= e < n2 /\ n_par (d3 e) = p /\ 3 <= p < 4096) /\
  (forall p, NoDup (kids' p)) /\
  (forall e, 259 <= e < n2 -> n_par (d3 e) <> 0 -> In e (kids' (n_par (d3 e)))) /\
  n_child (d3 c1) = 0 /\
  (forall e, e <> c1 -> n_par (d3 e) = n_par (d e) /\ n_oct (d3 e) = n_oct (d e)) /\
  n_par (d3 c1) = at_ /\ n_oct (d3 c1) = x.
Proof.
  intros I Ha Hn d1 d2 d3 kids'.
  assert (E1 : forall e, e <> c1 -> e <> at_ -> d3 e = d e).
  { intros e N1 N2. unfold d3, d2, d1. rewrite !put_ne by assumption. reflexivity. }
  assert (E2 : d3 c1 = mkN x at_ 0 (n_child (d at_))).
  { unfold d3. rewrite put_ne by congruence. unfold d2. rewrite put_eq. unfold d1. rewrite put_eq. cbn [n_oct n_par n_child].
    rewrite put_ne by assumption. reflexivity. }
  assert (E3 : d3 at_ = mkN (n_oct (d at_)) (n_par (d at_)) c1 (n_next (d at_))).
  { unfold d3. rewrite put_eq. unfold d2, d1. rewrite !put_ne by assumption. reflexivity. }
  assert (NX : forall e, e <> c1 -> n_next (d3 e) = n_next (d e)).
  { intros e N. destruct (Z.eq_dec e at_) as [->|M]; [now rewrite E3|now rewrite E1]. }
  assert (PA : forall e, e <> c1 -> n_par (d3 e) = n_par (d e) /\ n_oct (d3 e) = n_oct (d e)).
  { intros e N. destruct (Z.eq_dec e at_) as [->|M]; [now rewrite E3|now rewrite E1]. }
  assert (CH : forall p, chain d3 (n_child (d p)) (kids p)).
  { intros p. apply chain_ext with d; [|apply (di_chain _ _ _ _ I)]. intros a A. apply NX. apply (di_kid _ _ _ _ I p a A). }
  pose proof (di_c1 _ _ _ _ I) as C1.
  repeat split.
  - intros p. unfold kids', kset. destruct (p =? at_) eqn:E.
    + assert (p = at_) by lia. subst p. rewrite E3. cbn [n_child chain]. split; [reflexivity|]. split; [lia|].
      rewrite E2. cbn [n_next]. apply CH.
    + destruct (Z.eq_dec p c1) as [->|M].
      * rewrite E2. cbn [n_child]. rewrite (di_free _ _ _ _ I). reflexivity.
      * rewrite E1 by lia. apply CH.
  - unfold kids', kset in H. destruct (p =? at_) eqn:E; [destruct H as [<-|H]; [lia|]|]; apply (di_kid _ _ _ _ I _ _ H).
  - unfold kids', kset in H. destruct (p =? at_) eqn:E; [destruct H as [<-|H]; [lia|]|]; apply (di_kid _ _ _ _ I _ _ H).
  - unfold kids', kset in H. destruct (p =? at_) eqn:E; [destruct H as [<-|H]; [rewrite E2; cbn; lia|]|];
    destruct (di_kid _ _ _ _ I _ _ H) as (? & N & P & ?); rewrite (proj1 (PA e N)); [|exact P]; lia.
  - unfold kids', kset in H. destruct (p =? at_) eqn:E; [lia|]; apply (di_kid _ _ _ _ I _ _ H).
  - unfold kids', kset in H. destruct (p =? at_) eqn:E; [lia|]; apply (di_kid _ _ _ _ I _ _ H).
  - intros p. unfold kids', kset. destruct (p =? at_) eqn:E; [|apply (di_nodup _ _ _ _ I)].
    constructor; [|apply (di_nodup _ _ _ _ I)]. intros A. apply (di_kid _ _ _ _ I) in A. lia.
  - intros e He Hp. unfold kids', kset. destruct (Z.eq_dec e c1) as [->|N].
    + rewrite E2. cbn [n_par]. rewrite Z.eqb_refl. now left.
    + rewrite (proj1 (PA e N)) in *. pose proof (di_par _ _ _ _ I e He N Hp) as A.
      destruct (n_par (d e) =? at_) eqn:E; [|exact A]. right. replace at_ with (n_par (d e)) by lia. exact A.
  - rewrite E2. reflexivity.
  - apply PA, H.
  - apply PA, H.
  - rewrite E2. reflexivity.
  - rewrite E2. reflexivity.
Qed.

Theorem add_ok n2 d c1 at_ x : dok n2 d c1 -> 3 <= at_ < 4096 -> at_ <> c1 ->
  exists d' c1', add_octet n2 d c1 at_ x = Ok (d', c1') /\ dok n2 d' c1' /\
    (forall e, e <> c1 -> n_par (d' e) = n_par (d e) /\ n_oct (d' e) = n_oct (d e)) /\
    n_par (d' c1) = at_ /\ n_oct (d' c1) = x.
Proof.
  intros (kids & I) Ha Hn. destruct (link_inv n2 d c1 kids at_ x I Ha Hn) as (CH & KD & ND & PR & CC & PA & P1 & O1).
  unfold add_octet. pose proof (di_n2 _ _ _ _ I) as N2. pose proof (di_c1 _ _ _ _ I) as C1.
  unfold need. destruct (c1 <? 4096) eqn:E1; [|lia]. destruct (at_ <? 4096) eqn:E2; [|lia]. cbn [andb].
  set (d3 := put (put (put d c1 _) c1 _) at_ _) in *. set (kids' := kset kids at_ (c1 :: kids at_)) in *. cbv zeta. fold d3. clearbody d3.
  destruct (scan_ok n2 d3 c1 (Z.to_nat n2) N2 C1 CC c1 C1) as (nx & SC & Hx & CX); [destruct (c1 <? c1); lia|].
  rewrite SC. cbn [bind].
  assert (KX : kids' nx = []).
  { eapply chain_unique; [apply CH|]. exact CX. }
  set (q := n_par (d3 nx)).
  destruct (Z.eq_dec q 0) as [Q|Q].
  - (* an entry not in use *)
    unfold detach. fold q. rewrite Q. cbn [Z.eqb bind].
    exists d3, nx. split; [reflexivity|]. split; [|split; [exact PA|split; [exact P1|exact O1]]].
    exists kids'. constructor; auto.
    + intros p e A. destruct (KD p e A) as (? & ? & ?). repeat split; try lia. intros ->. unfold q in Q. lia.
    + intros e He. destruct (PA e) as (-> & _); [lia|]. apply (di_out _ _ _ _ I e He).
    + intros y Hy. destruct (PA (y + 3)) as (-> & ->); [lia|]. apply (di_root _ _ _ _ I y Hy).
  - (* a leaf *)
    pose proof (PR nx Hx Q) as IN. fold q in IN. apply in_split in IN as (l1 & l2 & LQ).
    pose proof (KD q nx) as KQ. rewrite LQ in KQ. specialize (KQ (in_elt _ _ _)). destruct KQ as (_ & _ & Hq).
    assert (FIN : forall d', detach d3 nx = Ok d' -> chain d' (n_child (d' q)) (l1 ++ l2) ->
      (forall p, p <> q -> n_child (d' p) = n_child (d3 p)) ->
      (forall e, n_par (d' e) = n_par (d3 e) /\ n_oct (d' e) = n_oct (d3 e)) ->
      (forall p e, p <> q -> In e (kids' p) -> n_next (d' e) = n_next (d3 e)) ->
      exists d'' c1', (do d4 <- detach d3 nx; Ok (d4, nx)) = Ok (d'', c1') /\ dok n2 d'' c1' /\
        (forall e, e <> c1 -> n_par (d'' e) = n_par (d e) /\ n_oct (d'' e) = n_oct (d e)) /\
        n_par (d'' c1) = at_ /\ n_oct (d'' c1) = x).
    { intros d' D CQ CP PQ NQ. rewrite D. cbn [bind]. exists d', nx. split; [reflexivity|]. split.
      - exists (kset kids' q (l1 ++ l2)).
        assert (SUB : forall p e, In e (kset kids' q (l1 ++ l2) p) -> In e (kids' p) /\ e <> nx).
        { intros p e A. unfold kset in A. destruct (p =? q) eqn:E.
          - assert (p = q) by lia. subst p. pose proof (ND q) as N. rewrite LQ in N |- *.
            apply NoDup_remove in N as (_ & N). split; [apply in_app_or in A; apply in_or_app; destruct A; [now left|right; now right]|].
            intros ->. contradiction.
          - split; [exact A|]. intros ->. destruct (KD p nx A) as (_ & P & _). unfold q in E. lia. }
        constructor; auto.
        + intros p. unfold kset. destruct (p =? q) eqn:E; [assert (p = q) by lia; subst p; exact CQ|].
          rewrite CP by lia. apply chain_ext with d3; [|apply CH]. intros a A. apply (NQ p); [lia|exact A].
        + intros p e A. destruct (SUB p e A) as (B & N). destruct (KD p e B) as (? & ? & ?).
          rewrite (proj1 (PQ e)). repeat split; try lia.
        + intros p. unfold kset. destruct (p =? q); [|apply ND]. pose proof (ND q) as N. rewrite LQ in N.
          now apply NoDup_remove in N.
        + intros e He Ne Hp. rewrite (proj1 (PQ e)) in *. pose proof (PR e He Hp) as A. unfold kset.
          destruct (n_par (d3 e) =? q) eqn:E; [|exact A]. replace (n_par (d3 e)) with q in A by lia.
          rewrite LQ in A. apply in_app_or in A. apply in_or_app. destruct A as [A|[A|A]]; [now left|congruence|now right].
        + unfold kset. destruct (nx =? q) eqn:E; [|exact KX]. assert (nx = q) by lia. rewrite <- H in LQ. rewrite KX in LQ.
          destruct l1; discriminate LQ.
        + intros e He. destruct (PQ e) as (-> & _). destruct (PA e) as (-> & _); [lia|]. apply (di_out _ _ _ _ I e He).
        + intros y Hy. destruct (PQ (y + 3)) as (-> & ->). destruct (PA (y + 3)) as (-> & ->); [lia|]. apply (di_root _ _ _ _ I y Hy).
      - destruct (PQ c1) as (-> & ->). split; [|split; [exact P1|exact O1]].
        intros e N. destruct (PQ e) as (-> & ->). apply PA, N. }
    pose proof (CH q) as CQ. rewrite LQ in CQ.
    assert (DE : detach d3 nx = if n_child (d3 q) =? nx
       then Ok (put d3 q (mkN (n_oct (d3 q)) (n_par (d3 q)) (n_next (d3 nx)) (n_next (d3 q))))
       else unlink (Z.to_nat 4096) d3 (n_child (d3 q)) nx).
    { unfold detach. fold q. destruct (q =? 0) eqn:Eq; [lia|]. unfold need. destruct (q <? 4096) eqn:E4; [|lia]. reflexivity. }
    destruct l1 as [|a l1].
    + cbn [app chain] in CQ. destruct CQ as (CQ & _ & CQ2). rewrite CQ, Z.eqb_refl in DE.
      eapply FIN; [exact DE| | | |].
      * cbn [app]. rewrite put_eq. cbn [n_child]. apply chain_ext with d3; [|exact CQ2].
        intros b _. destruct (Z.eq_dec b q) as [->|N]; [now rewrite put_eq|now rewrite put_ne].
      * intros p N. now rewrite put_ne.
      * intros e. destruct (Z.eq_dec e q) as [->|N]; [now rewrite put_eq|now rewrite put_ne].
      * intros p e _ _. destruct (Z.eq_dec e q) as [->|N]; [now rewrite put_eq|now rewrite put_ne].
    + assert (NN : n_child (d3 q) <> nx).
      { pose proof (ND q) as N. rewrite LQ in N. cbn [app chain] in CQ, N. destruct CQ as (-> & _). apply NoDup_cons_iff in N as (N1 & _).
        intros ->. apply N1. apply in_elt. }
      rewrite (proj2 (Z.eqb_neq _ _) NN) in DE.
      destruct (unlink_ok d3 nx l2 (Z.to_nat 4096) (a :: l1) _ CQ) as (z & Z1 & Z2 & Z3 & Z4).
      * congruence.
      * pose proof (ND q) as N. now rewrite LQ in N.
      * pose proof (range_length (kids' q) 259 n2 (ND q)) as RL. rewrite LQ in RL. unfold zlen in RL. rewrite app_length in RL.
        rewrite <- LQ in RL. cut (Z.of_nat (length (a :: l1) + length (nx :: l2)) <= n2 - 259); [lia|].
        apply RL; [|lia]. intros e A. apply (KD q e A).
      * intros b B. assert (In b (kids' q)) by (rewrite LQ; apply in_or_app; now left). pose proof (KD q b H). lia.
      * rewrite Z3 in DE.
        assert (Hz : In z (kids' q)) by (rewrite LQ; apply in_or_app; now left).
        eapply FIN; [exact DE| | | |].
        -- destruct (Z.eq_dec q z) as [->|N]; [rewrite put_eq; exact Z4|rewrite put_ne by exact N; exact Z4].
        -- intros p _. destruct (Z.eq_dec p z) as [->|N]; [now rewrite put_eq|now rewrite put_ne].
        -- intros e. unfold put. destruct (e =? z) eqn:Ez; [|split; reflexivity]. assert (e = z) by lia. subst e. split; reflexivity.
        -- intros p e Np A. rewrite put_ne; [reflexivity|]. intros ->. destruct (KD p z A) as (_ & ? & _), (KD q z Hz) as (_ & ? & _). congruence.
Qed.

Lemma dict0_ok n2 : 512 <= n2 <= 4096 -> dok n2 dict0 259.
Proof.
  intros H. exists (fun _ => []). constructor; try lia; auto.
  - intros p. cbn. unfold dict0. destruct ((3 <=? p) && (p <? 259)); reflexivity.
  - intros p e [].
  - intros p. constructor.
  - intros e He Hn Hp. exfalso. apply Hp. unfold dict0. destruct ((3 <=? e) && (e <? 259)); reflexivity.
  - intros e He. unfold dict0. destruct ((3 <=? e) && (e <? 259)); reflexivity.
  - intros x Hx. unfold dict0. destruct (3 <=? x + 3) eqn:?, (x + 3 <? 259) eqn:?; cbn [andb]; try lia. cbn. lia.
Qed.
