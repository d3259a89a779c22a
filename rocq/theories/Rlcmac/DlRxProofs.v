(** Invariants of the downlink receiver. *)
From Verif.Lib Require Import Base Outcome.
From Verif.Rlcmac Require Import DlRxModel DlRxSpec.

Lemma dmod_mod x : dmod x = x mod 128.
Proof. apply land_127. Qed.
Lemma dslot_mod x : dslot (x mod 128) = x mod 128.
Proof. unfold dslot. change 1023 with (2 ^ 10 - 1). rewrite land_ones_mod by lia. change (2 ^ 10) with 1024. lia. Qed.
Lemma mod_eq a b : -128 < a - b < 128 -> a mod 128 = b mod 128 -> a = b.
Proof. lia. Qed.
Lemma mod_eqb a b : -128 < a - b < 128 -> (a mod 128 =? b mod 128) = (a =? b).
Proof. intros H. destruct (Z.eqb_spec a b) as [->|Hne]; [lia|]. destruct (Z.eqb_spec (a mod 128) (b mod 128)); [|reflexivity]. apply mod_eq in e; lia. Qed.
Lemma mod_same a b : a - b = 128 -> a mod 128 = b mod 128.
Proof. lia. Qed.
Lemma mod_add a k : (a mod 128 + k) mod 128 = (a + k) mod 128.
Proof. apply Zplus_mod_idemp_l. Qed.
Lemma mod_sub a k : (k - a mod 128) mod 128 = (k - a) mod 128.
Proof. apply Zminus_mod_idemp_r. Qed.
Lemma mod_addl a k : dmod (a mod 128 + k) = (a + k) mod 128.
Proof. rewrite dmod_mod. apply mod_add. Qed.

Lemma top_app a n : top (a ++ [n]) = Z.max (top a) (n + 1).
Proof. unfold top. induction a as [|x a IH]; cbn [fold_right app]; lia. Qed.
(** State recorded for block [n]. *)
Definition st (w : dlw) (n : Z) : nst := v_n w (n mod 128).
Local Ltac Zify.zify_post_hook ::= idtac.

Lemma st_mark w m n x : -128 < n - m < 128 -> st (n_mark w (m mod 128) x) n = if n =? m then x else st w n.
Proof. intros H. unfold st. cbn [n_mark v_n]. unfold dupd. rewrite dslot_mod, mod_eqb by exact H. reflexivity. Qed.

Lemma raise_r_spec k : forall w R, v_r w = R mod 128 -> (k <= 64)%nat ->
  let w' := raise_r_loop w k in
  v_r w' = (R + Z.of_nat k) mod 128 /\ v_q w' = v_q w /\
  forall m, R + Z.of_nat k - 64 <= m < R + Z.of_nat k + 64 ->
    st w' m = if R + 64 <=? m then NINVALID else if (R <=? m) && (m <? R + Z.of_nat k - 1) then NMISSING else st w m.
Proof.
  induction k as [|k IH]; intros w R Hr Hk w'.
  - subst w'. cbn [raise_r_loop]. rewrite Z.add_0_r. split; [exact Hr|]. split; [reflexivity|].
    intros m Hm. replace (R + 64 <=? m) with false by lia. replace ((R <=? m) && (m <? R - 1)) with false by lia. reflexivity.
  - subst w'. cbn [raise_r_loop].
    set (w1 := n_mark w (dmod (v_r w - dws)) NINVALID).
    set (w2 := match k with O => w1 | S _ => n_mark w1 (v_r w) NMISSING end).
    assert (Hs2 : forall m, R - 63 <= m < R + 65 -> st w2 m = if m =? R + 64 then NINVALID else if (m =? R) && (0 <? Z.of_nat k) then NMISSING else st w m).
    { intros m Hm.
      assert (H1 : st w1 m = if m =? R + 64 then NINVALID else st w m).
      { unfold w1. rewrite Hr. unfold dws. rewrite dmod_mod. replace (R mod 128 - 64) with (R mod 128 + -64) by lia. rewrite mod_add.
        replace ((R + -64) mod 128) with ((R + 64) mod 128) by (apply mod_same; lia). apply st_mark. lia. }
      unfold w2. destruct k as [|k].
      - rewrite H1. change (0 <? Z.of_nat 0) with false. rewrite andb_false_r. reflexivity.
      - rewrite Hr. rewrite st_mark by lia. rewrite H1. replace (0 <? Z.of_nat (S k)) with true by lia. rewrite andb_true_r.
        destruct (Z.eqb_spec m R), (Z.eqb_spec m (R + 64)); try reflexivity; lia. }
    assert (Hv2 : v_r w2 = R mod 128 /\ v_q w2 = v_q w). { unfold w2, w1. destruct k; cbn; auto. }
    destruct Hv2 as [Hv2 Hq2].
    destruct (IH (r_add w2 1) (R + 1)) as (H1 & H2 & H3).
    { cbn [r_add v_r]. rewrite Hv2. apply mod_addl. }
    { lia. }
    split; [rewrite H1; f_equal; lia|]. split; [rewrite H2; exact Hq2|].
    intros m Hm. rewrite H3 by lia. change (st (r_add w2 1) m) with (st w2 m).
    destruct (Z.leb_spec (R + 64) m).
    + destruct (Z.leb_spec (R + 1 + 64) m); [reflexivity|]. replace (R + 1 <=? m) with true by lia.
      replace (m <? R + 1 + Z.of_nat k - 1) with false by lia. cbn [andb]. rewrite Hs2 by lia. replace (m =? R + 64) with true by lia. reflexivity.
    + replace (R + 1 + 64 <=? m) with false by lia.
      destruct ((R + 1 <=? m) && (m <? R + 1 + Z.of_nat k - 1)) eqn:E.
      * replace ((R <=? m) && (m <? R + Z.of_nat (S k) - 1)) with true by lia. reflexivity.
      * rewrite Hs2 by lia. replace (m =? R + 64) with false by lia.
        destruct ((m =? R) && (0 <? Z.of_nat k)) eqn:E2.
        -- replace ((R <=? m) && (m <? R + Z.of_nat (S k) - 1)) with true by lia. reflexivity.
        -- replace ((R <=? m) && (m <? R + Z.of_nat (S k) - 1)) with false by lia. reflexivity.
Qed.

(** The window after receiving block [n]. *)
Lemma receive_spec w R n : v_r w = R mod 128 -> R - 64 <= n < R + 64 ->
  let w' := receive_bsn w (n mod 128) in
  let R' := if n <? R + 63 then Z.max R (n + 1) else R in
  v_r w' = R' mod 128 /\ v_q w' = v_q w /\
  forall m, R' - 64 <= m < R' + 64 ->
    st w' m = if m =? n then NRECEIVED else if R + 64 <=? m then NINVALID
              else if (R <=? m) && (m <? R' - 1) then NMISSING else st w m.
Proof.
  intros Hr Hn w' R'. subst w'. unfold receive_bsn, raise_v_r.
  set (w0 := n_mark w (n mod 128) NRECEIVED).
  assert (H0 : forall m, -128 < m - n < 128 -> st w0 m = if m =? n then NRECEIVED else st w m) by (intros; apply st_mark; assumption).
  change (v_r w0) with (v_r w). rewrite Hr, dmod_mod. change (Z.shiftr 128 1) with 64.
  replace (n mod 128 + 1 - R mod 128) with (n mod 128 + (1 - R mod 128)) by lia. rewrite mod_add.
  replace (n + (1 - R mod 128)) with (n + 1 - R mod 128) by lia. rewrite mod_sub.
  set (off := (n + 1 - R) mod 128).
  assert (Hoff : off = if R <=? n + 1 then n + 1 - R else n + 1 - R + 128).
  { unfold off. destruct (Z.leb_spec R (n + 1)).
    - apply Z.mod_small. lia.
    - replace (n + 1 - R) with ((n + 1 - R + 128) + (-1) * 128) at 1 by lia. rewrite Z_mod_plus_full. apply Z.mod_small. lia. }
  clearbody off. destruct (Z.leb_spec R (n + 1)) as [Hge|Hlt].
  - destruct (Z.ltb_spec off 64) as [Hs|Hs].
    + destruct (raise_r_spec (Z.to_nat off) w0 R Hr ltac:(lia)) as (H1 & H2 & H3).
      assert (HR' : R' = n + 1) by (unfold R'; replace (n <? R + 63) with true by lia; lia).
      rewrite HR'. replace (R + Z.of_nat (Z.to_nat off)) with (n + 1) in * by lia.
      split; [exact H1|]. split; [exact H2|]. intros m Hm. rewrite H3 by lia. rewrite H0 by lia.
      destruct (Z.eqb_spec m n).
      * subst m. replace (R + 64 <=? n) with false by lia. replace (n <? n + 1 - 1) with false by lia. rewrite andb_false_r. reflexivity.
      * destruct (R + 64 <=? m); [reflexivity|]. destruct ((R <=? m) && (m <? n + 1 - 1)); reflexivity.
    + assert (HR' : R' = R) by (unfold R'; replace (n <? R + 63) with false by lia; lia).
      rewrite HR'. split; [exact Hr|]. split; [reflexivity|]. intros m Hm. rewrite H0 by lia.
      destruct (m =? n); [reflexivity|]. replace (R + 64 <=? m) with false by lia.
      replace ((R <=? m) && (m <? R - 1)) with false by lia. reflexivity.
  - replace (off <? 64) with false by lia.
    assert (HR' : R' = R) by (unfold R'; replace (n <? R + 63) with true by lia; lia).
    rewrite HR'. split; [exact Hr|]. split; [reflexivity|]. intros m Hm. rewrite H0 by lia.
    destruct (m =? n); [reflexivity|]. replace (R + 64 <=? m) with false by lia.
    replace ((R <=? m) && (m <? R - 1)) with false by lia. reflexivity.
Qed.

Lemma n_received_st w n : n_received w (n mod 128) = true <-> st w n = NRECEIVED.
Proof. unfold n_received, st. rewrite dslot_mod. destruct (v_n w (n mod 128)); split; congruence. Qed.

Lemma raise_q_spec fuel : forall w Q R c, v_q w = Q mod 128 -> v_r w = R mod 128 -> 0 <= R - Q <= 64 -> R - Q <= Z.of_nat fuel ->
  exists w' Q', raise_q_loop w fuel c = Ok (w', c + (Q' - Q)) /\ Q <= Q' <= R /\ v_q w' = Q' mod 128 /\ v_r w' = v_r w /\ v_n w' = v_n w /\
    (forall m, Q <= m < Q' -> st w m = NRECEIVED) /\ (Q' = R \/ st w Q' <> NRECEIVED).
Proof.
  induction fuel as [|fuel IH]; intros w Q R c Hq Hr Hd Hf; cbn [raise_q_loop]; rewrite Hq, Hr, mod_eqb by lia.
  - replace (Q =? R) with true by lia. exists w, Q. replace (c + (Q - Q)) with c by lia.
    split; [reflexivity|]. split; [lia|]. do 3 (split; [auto|]). split; [intros; lia|left; lia].
  - destruct (Z.eqb_spec Q R) as [E|E].
    + exists w, Q. replace (c + (Q - Q)) with c by lia. split; [reflexivity|]. split; [lia|]. do 3 (split; [auto|]). split; [intros; lia|left; lia].
    + destruct (n_received w (Q mod 128)) eqn:En.
      * destruct (IH (q_add w 1) (Q + 1) R (c + 1)) as (w' & Q' & E1 & E2 & E3 & E4 & E5 & E6 & E7); [|exact Hr|lia|lia|].
        { cbn [q_add v_q]. rewrite Hq. apply mod_addl. }
        exists w', Q'. rewrite E1. split; [f_equal; f_equal; lia|]. split; [lia|]. split; [exact E3|]. split; [rewrite <- Hr; exact E4|]. split; [exact E5|].
        split; [|exact E7]. intros m Hm. destruct (Z.eq_dec m Q) as [->|]; [now apply n_received_st|]. apply (E6 m). lia.
      * exists w, Q. replace (c + (Q - Q)) with c by lia. split; [reflexivity|]. split; [lia|]. do 3 (split; [auto|]). split; [intros; lia|].
        right. intros H. apply n_received_st in H. congruence.
Qed.

Section Inv.
Context {B : Type} (fbi : B -> bool) (blk : Z -> B).

Record dinv (x : rx B) (ns : list Z) (Q R : Z) : Prop := mkdinv {
  i_rng : 0 <= Q <= R /\ R <= Q + 64;
  i_q : v_q (x_w x) = Q mod 128;
  i_r : v_r (x_w x) = R mod 128;
  i_rec : forall n, R - 64 <= n < R + 64 -> st (x_w x) n = NRECEIVED -> 0 <= n /\ In n ns /\ x_store x (n mod 128) = Some (blk n);
  i_past : forall n, R - 64 <= n < Q -> 0 <= n -> st (x_w x) n = NRECEIVED;
  i_stop : Q = R \/ st (x_w x) Q <> NRECEIVED;
  i_hist : forall n, 0 <= n < Q -> In n ns;
  i_zero : R = 0 -> x_store x 127 = None }.

Lemma dinv_init : dinv rx_init [] 0 0.
Proof.
  constructor; cbn; try reflexivity; try lia; try (left; reflexivity).
  - intros n _ H. discriminate.
Qed.

(** Everything tracked when no block arrives far ahead. *)
Record dfull (x : rx B) (ns : list Z) (Q R : Z) : Prop := mkdfull {
  f_top : R = top ns;
  f_new : forall n, R <= n < R + 64 -> st (x_w x) n <> NRECEIVED;
  f_arr : forall n, In n ns -> n < Q \/ (R - 64 <= n < R /\ st (x_w x) n = NRECEIVED) }.
Lemma dfull_init : dfull rx_init [] 0 0.
Proof. constructor; [reflexivity|intros n _ H; discriminate|intros n []]. Qed.

Definition upto (a b : Z) : list Z := map (fun i => a + Z.of_nat i) (seq 0 (Z.to_nat (b - a))).
Lemma upto_app a b c : a <= b <= c -> upto a b ++ upto b c = upto a c.
Proof.
  intros H. unfold upto. replace (Z.to_nat (c - a)) with (Z.to_nat (b - a) + Z.to_nat (c - b))%nat by lia.
  rewrite seq_app, map_app. f_equal. cbn [plus]. 
  transitivity (map (fun i => a + Z.of_nat i) (map (fun i => (Z.to_nat (b - a) + i)%nat) (seq 0 (Z.to_nat (c - b))))).
  - rewrite map_map. apply map_ext. intros i. lia.
  - f_equal. clear. generalize (Z.to_nat (b - a)) as s. intros s. induction (Z.to_nat (c - b)) as [|k IH] in s |- *; [reflexivity|].
    cbn [seq map]. f_equal; [lia|]. rewrite <- seq_shift, map_map. rewrite <- (IH (S s)). apply map_ext. intros; lia.
Qed.

Lemma rcv_spec x ns Q R n : dinv x ns Q R -> 0 <= n -> Q - 64 <= n < Q + 64 ->
  exists x' o Q' R', rcv fbi x (n mod 128) (blk n) = Ok (x', o) /\ dinv x' (ns ++ [n]) Q' R' /\ Q <= Q' /\
    delivered o = map (fun i => Some (blk i)) (upto Q Q') /\
    (In Finished o <-> Q' = R' /\ 0 < R' /\ fbi (blk (R' - 1)) = true) /\
    (dfull x ns Q R -> n < R + 63 -> dfull x' (ns ++ [n]) Q' R').
Proof.
  intros [Hrng Hq Hr Hrec Hpast Hstop Hhist Hzero] Hn0 Hn. unfold rcv.
  assert (Hin : in_window (x_w x) (n mod 128) = (Q <=? n)).
  { unfold in_window. rewrite Hq, dmod_mod. unfold dws.
    replace (n mod 128 - Q mod 128) with (n mod 128 + (- (Q mod 128))) by lia. rewrite mod_add.
    replace (n + - (Q mod 128)) with (n - Q mod 128) by lia. rewrite mod_sub. 
    destruct (Z.leb_spec Q n).
    - rewrite Z.mod_small by lia. lia.
    - replace (n - Q) with ((n - Q + 128) + (-1) * 128) by lia. rewrite Z_mod_plus_full, Z.mod_small by lia. lia. }
  rewrite Hin. 
  set (x1 := if negb (Q <=? n) then x else if n_received (x_w x) (n mod 128) then x
             else mkrx (receive_bsn (x_w x) (n mod 128)) (dupd (x_store x) (dslot (n mod 128)) (Some (blk n)))).
  (* facts about x1 *)
  assert (H1 : exists R1, Q <= R1 <= Q + 64 /\ v_q (x_w x1) = Q mod 128 /\ v_r (x_w x1) = R1 mod 128 /\
    (forall m, R1 - 64 <= m < R1 + 64 -> st (x_w x1) m = NRECEIVED -> 0 <= m /\ In m (ns ++ [n]) /\ x_store x1 (m mod 128) = Some (blk m)) /\
    (forall m, R1 - 64 <= m < Q -> 0 <= m -> st (x_w x1) m = NRECEIVED) /\
    (R1 = 0 -> x_store x1 127 = None) /\
    (dfull x ns Q R -> n < R + 63 -> R1 = top (ns ++ [n]) /\ (forall m, R1 <= m < R1 + 64 -> st (x_w x1) m <> NRECEIVED) /\
        forall m, In m (ns ++ [n]) -> m < Q \/ (R1 - 64 <= m < R1 /\ st (x_w x1) m = NRECEIVED))).
  { unfold x1. destruct (Z.leb_spec Q n) as [Hge|Hlt]; cbn [negb].
    2:{ exists R. split; [lia|]. split; [exact Hq|]. split; [exact Hr|]. split.
        { intros m Hm Hs. destruct (Hrec m Hm Hs) as (Ha & Hb & Hc). split; [exact Ha|]. split; [apply in_or_app; left; exact Hb|exact Hc]. }
        split; [exact Hpast|]. split; [exact Hzero|].
        intros [Ft Fn Fa] Hj. split; [rewrite top_app; lia|]. split; [exact Fn|]. intros m Hm. apply in_app_iff in Hm as [Hm|[<-|[]]]; [auto|lia]. }
    destruct (n_received (x_w x) (n mod 128)) eqn:En.
    { apply n_received_st in En.
      exists R. split; [lia|]. split; [exact Hq|]. split; [exact Hr|]. split.
      { intros m Hm Hs. destruct (Hrec m Hm Hs) as (Ha & Hb & Hc). split; [exact Ha|]. split; [apply in_or_app; left; exact Hb|exact Hc]. }
      split; [exact Hpast|]. split; [exact Hzero|].
      intros [Ft Fn Fa] Hj.
      assert (HnR : n < R). { destruct (Z.lt_ge_cases n R); [assumption|]. exfalso. apply (Fn n); [lia|exact En]. }
      split; [rewrite top_app; lia|]. split; [exact Fn|].
      intros m Hm. apply in_app_iff in Hm as [Hm|[<-|[]]]; [auto|]. right. split; [lia|exact En]. }
    assert (Hnr : st (x_w x) n <> NRECEIVED) by (intros H; apply n_received_st in H; congruence).
    destruct (receive_spec (x_w x) R n Hr ltac:(lia)) as (E1 & E2 & E3). cbn [x_w x_store].
    set (R1 := if n <? R + 63 then Z.max R (n + 1) else R) in *.
    assert (HR1 : R <= R1 <= Q + 64) by (unfold R1; destruct (n <? R + 63); lia).
    assert (Hn1 : R1 - 64 <= n < R1 + 64) by (unfold R1; destruct (n <? R + 63); lia).
    exists R1. split; [lia|]. split; [rewrite E2; exact Hq|]. split; [exact E1|]. split.
    { intros m Hm Hs. rewrite E3 in Hs by exact Hm. unfold dupd. rewrite dslot_mod, mod_eqb by lia.
      destruct (Z.eqb_spec m n) as [->|Hne].
      - split; [exact Hn0|]. split; [apply in_or_app; right; left; reflexivity|reflexivity].
      - destruct (Z.leb_spec (R + 64) m); [discriminate|].
        destruct ((R <=? m) && (m <? R1 - 1)); [discriminate|].
        destruct (Hrec m ltac:(lia) Hs) as (Ha & Hb & Hc). split; [exact Ha|]. split; [apply in_or_app; left; exact Hb|exact Hc]. }
    split.
    { intros m Hm Hm0. rewrite E3 by lia. destruct (m =? n); [reflexivity|]. replace (R + 64 <=? m) with false by lia.
      destruct ((R <=? m) && (m <? R1 - 1)) eqn:E; [lia|]. apply Hpast; lia. }
    split.
    { intros HR0. unfold dupd. rewrite dslot_mod. assert (R = 0) by lia. assert (Q = 0) by lia.
      rewrite Z.mod_small by lia. replace (127 =? n) with false by lia. auto. }
    intros [Ft Fn Fa] Hj. assert (HRt : R1 = Z.max R (n + 1)) by (unfold R1; replace (n <? R + 63) with true by lia; reflexivity).
    split; [rewrite top_app; lia|]. split.
    { intros m Hm. rewrite E3 by lia. replace (m =? n) with false by lia. destruct (Z.leb_spec (R + 64) m); [discriminate|].
      destruct ((R <=? m) && (m <? R1 - 1)); [discriminate|]. apply Fn. lia. }
    intros m Hm. apply in_app_iff in Hm as [Hm|[<-|[]]].
    - destruct (Fa m Hm) as [HQ|[Hr1 Hs1]]; [left; exact HQ|]. destruct (Z.lt_ge_cases m Q) as [|HmQ]; [left; assumption|].
      right. split; [lia|]. rewrite E3 by lia. destruct (m =? n); [reflexivity|]. replace (R + 64 <=? m) with false by lia.
      destruct ((R <=? m) && (m <? R1 - 1)) eqn:E; [lia|]. exact Hs1.
    - right. split; [lia|]. rewrite E3 by lia. rewrite Z.eqb_refl. reflexivity. }
  clearbody x1. destruct H1 as (R1 & HR1 & Hq1 & Hr1 & Hrec1 & Hpast1 & Hzero1 & Hfull1).
  destruct (raise_q_spec 128 (x_w x1) Q R1 0 Hq1 Hr1 ltac:(lia) ltac:(lia)) as (w2 & Q' & Eq & HQ' & Hq2 & Hr2 & Hn2 & Hall & Hst).
  unfold raise_v_q. rewrite Eq. cbn [bind].
  assert (Hst2 : forall m, st w2 m = st (x_w x1) m) by (intros m; unfold st; now rewrite Hn2).
  set (fin := if v_q w2 =? v_r w2 then _ else _).
  eexists. eexists. exists Q', R1. split; [reflexivity|].
  assert (Hstored : forall m, Q <= m < Q' -> In m (ns ++ [n]) /\ x_store x1 (m mod 128) = Some (blk m)).
  { intros m Hm. destruct (Hrec1 m ltac:(lia) (Hall m Hm)) as (_ & Ha & Hb). auto. }
  split.
  { constructor; cbn [x_w x_store].
    - lia.
    - exact Hq2.
    - rewrite Hr2. exact Hr1.
    - intros m Hm Hs. rewrite Hst2 in Hs. apply Hrec1; assumption.
    - intros m Hm Hm0. rewrite Hst2. destruct (Z.lt_ge_cases m Q); [apply Hpast1; lia|apply Hall; lia].
    - rewrite Hst2. exact Hst.
    - intros m Hm. destruct (Z.lt_ge_cases m Q); [apply in_or_app; left; apply Hhist; lia|apply Hstored; lia].
    - exact Hzero1. }
  split; [lia|].
  assert (Hdel : delivered (map (fun i => Fwd (x_store x1 (dslot (dmod (v_q (x_w x1) + Z.of_nat i))))) (seq 0 (Z.to_nat (0 + (Q' - Q)))) : list (rout B))
          = map (fun i => Some (blk i)) (upto Q Q')).
  { unfold upto. rewrite map_map. rewrite Z.add_0_l.
    assert (Hg : forall l, (forall i, In i l -> 0 <= Z.of_nat i < Q' - Q) ->
      delivered (map (fun i => Fwd (x_store x1 (dslot (dmod (v_q (x_w x1) + Z.of_nat i))))) l : list (rout B)) = map (fun i => Some (blk (Q + Z.of_nat i))) l).
    { induction l as [|i l IH]; intros Hl; [reflexivity|]. cbn [map]. unfold delivered in *. cbn [flat_map app]. f_equal.
      - rewrite Hq1, mod_addl, dslot_mod. apply Hstored. pose proof (Hl i ltac:(left; reflexivity)). lia.
      - apply IH. intros j Hj. apply Hl. right. exact Hj. }
    apply Hg. intros i Hi. apply in_seq in Hi. lia. }
  assert (Hfin : delivered fin = [] /\ (In Finished fin <-> Q' = R1 /\ 0 < R1 /\ fbi (blk (R1 - 1)) = true)).
  { unfold fin. rewrite Hq2, Hr2, Hr1, mod_eqb by lia.
    destruct (Z.eqb_spec Q' R1) as [E|E].
    2:{ split; [reflexivity|]. split; [intros []|lia]. }
    replace (R1 mod 128 - 1) with (R1 mod 128 + -1) by lia. rewrite mod_addl, dslot_mod.
    destruct (Z.eq_dec R1 0) as [E0|E0].
    - rewrite E0. change ((0 + -1) mod 128) with 127. rewrite (Hzero1 E0). split; [reflexivity|]. split; [intros []|lia].
    - assert (Hs : x_store x1 ((R1 + -1) mod 128) = Some (blk (R1 + -1))).
      { destruct (Z.lt_ge_cases (R1 + -1) Q).
        - apply (Hrec1 (R1 + -1)); [lia|]. apply Hpast1; lia.
        - apply Hstored. lia. }
      rewrite Hs. replace (R1 + -1) with (R1 - 1) by lia. destruct (fbi (blk (R1 - 1))); (split; [reflexivity|]); split; intros H; try (left; reflexivity).
      + repeat split; lia.
      + destruct H.
      + destruct H as (_ & _ & H). discriminate. }
  split.
  { unfold delivered in *. rewrite flat_map_app. rewrite Hdel, (proj1 Hfin). apply app_nil_r. }
  split.
  { rewrite <- (proj2 Hfin). rewrite in_app_iff. split; [|auto]. intros [H|H]; [|exact H]. apply in_map_iff in H as (? & ? & _). discriminate. }
  intros Hf Hj. destruct (Hfull1 Hf Hj) as (Ft & Fn & Fa). constructor; cbn [x_w].
  - exact Ft.
  - intros m Hm. rewrite Hst2. apply Fn, Hm.
  - intros m Hm. rewrite Hst2. destruct (Fa m Hm) as [|]; [left; lia|right; assumption].
Qed.

Lemma rrun_app l1 : forall (x : rx B) l2, rrun fbi x (l1 ++ l2) =
  do y <- rrun fbi x l1; let '(x1, o1) := y in do z <- rrun fbi x1 l2; let '(x2, o2) := z in Ok (x2, o1 ++ o2).
Proof.
  induction l1 as [|[bsn b] l1 IH]; intros x l2; cbn [app rrun].
  - cbn [bind]. destruct (rrun fbi x l2) as [[x2 o2]| |]; reflexivity.
  - destruct (rcv fbi x bsn b) as [[x1 o1]| |]; cbn [bind]; [|reflexivity|reflexivity]. rewrite IH.
    destruct (rrun fbi x1 l1) as [[x2 o2]| |]; cbn [bind]; [|reflexivity|reflexivity].
    destruct (rrun fbi x2 l2) as [[x3 o3]| |]; cbn [bind]; [|reflexivity|reflexivity]. now rewrite app_assoc.
Qed.

Lemma run_inv ns : within fbi blk ns ->
  exists x o Q R, rrun fbi rx_init (over_air blk ns) = Ok (x, o) /\ dinv x ns Q R /\
    delivered o = map (fun i => Some (blk i)) (upto 0 Q) /\
    (In Finished o -> exists k, 0 < k <= Q /\ fbi (blk (k - 1)) = true) /\
    (ns <> [] -> Q = R -> 0 < R -> fbi (blk (R - 1)) = true -> In Finished o) /\
    (no_jump ns -> dfull x ns Q R).
Proof.
  induction ns as [|n ns IH] using rev_ind; intros Hw.
  - exists rx_init, [], 0, 0. split; [reflexivity|]. split; [exact dinv_init|]. split; [reflexivity|]. split; [intros []|]. split; [congruence|]. intros _. exact dfull_init.
  - destruct IH as (x & o & Q & R & E & Hi & Hd & Hf & _ & Hj).
    { intros pre m post x o En. apply (Hw pre m (post ++ [n])). rewrite En, <- app_assoc. reflexivity. }
    destruct (Hw ns n [] x o eq_refl E) as (Hn0 & Hn).
    assert (Hz : zlen (delivered o) = Q).
    { rewrite Hd. unfold upto, zlen. rewrite !map_length, seq_length. pose proof (i_rng _ _ _ _ Hi). lia. }
    rewrite Hz in Hn. destruct (rcv_spec x ns Q R n Hi Hn0 Hn) as (x' & o' & Q' & R' & E' & Hi' & HQ & Hd' & Hf' & Hj').
    exists x', (o ++ o'), Q', R'. split.
    { unfold over_air. rewrite map_app. rewrite rrun_app. fold (over_air blk ns). rewrite E. cbn [bind map rrun]. rewrite E'. cbn [bind].
      now rewrite app_nil_r. }
    split; [exact Hi'|]. pose proof (i_rng _ _ _ _ Hi). split.
    { unfold delivered in *. rewrite flat_map_app, Hd, Hd', <- map_app, upto_app by lia. reflexivity. }
    split.
    { intros H1. apply in_app_iff in H1 as [H1|H1].
      - destruct (Hf H1) as (k & Hk & Hb). exists k. split; [lia|exact Hb].
      - apply Hf' in H1 as (Ha & Hb & Hc). exists R'. split; [lia|exact Hc]. }
    split; [intros _ H1 H2 H3; apply in_or_app; right; apply Hf'; auto|].
    intros Hnj. apply Hj'.
    + apply Hj. intros pre m post En. apply (Hnj pre m (post ++ [n])). rewrite En, <- app_assoc. reflexivity.
    + assert (Hfu : dfull x ns Q R). { apply Hj. intros pre m post En. apply (Hnj pre m (post ++ [n])). rewrite En, <- app_assoc. reflexivity. }
      rewrite (f_top _ _ _ _ Hfu). apply (Hnj ns n []). reflexivity.
Qed.
End Inv.

(** The bitmap as a number. *)
Definition bitsval (l : list bool) : Z := fold_left (fun a b => 2 * a + b2z b) l 0.
Lemma octet_fold l : forall a, octet l a = fold_left (fun a b => 2 * a + b2z b) l a.
Proof. induction l; intros a'; cbn; auto. Qed.
Lemma octet_acc l : forall a, octet l a = a * 2 ^ zlen l + octet l 0.
Proof.
  induction l as [|b l IH]; intros a; cbn [octet].
  - change (2 ^ zlen (@nil bool)) with 1. lia.
  - rewrite zlen_cons, Z.pow_add_r by (try apply zlen_nonneg; lia). rewrite (IH (2 * a + b2z b)), (IH (2 * 0 + b2z b)). change (2 ^ 1) with 2. lia.
Qed.
Lemma pack_val n : forall l a, length l = (8 * n)%nat ->
  fold_left (fun a b => a * 256 + b) (pack n l) a = fold_left (fun a b => 2 * a + b2z b) l a.
Proof.
  induction n as [|n IH]; intros l a Hl.
  - destruct l; [reflexivity|cbn in Hl; lia].
  - cbn [pack fold_left]. rewrite IH by (rewrite skipn_length; lia).
    transitivity (fold_left (fun a b => 2 * a + b2z b) (firstn 8 l ++ skipn 8 l) a); [|now rewrite firstn_skipn].
    rewrite fold_left_app. f_equal. pose proof (octet_acc (firstn 8 l) a) as Ha. rewrite octet_fold in Ha. rewrite Ha.
    replace (zlen (firstn 8 l)) with 8 by (unfold zlen; rewrite firstn_length; lia). reflexivity.
Qed.
Lemma pack_bits n l : length l = (8 * n)%nat -> big_endian (pack n l) = bitsval l.
Proof. apply pack_val. Qed.
Lemma bitsval_bit l : forall j, (j < length l)%nat -> Z.testbit (bitsval l) (Z.of_nat j) = nth (length l - 1 - j) l false.
Proof.
  induction l as [|b l IH] using rev_ind; intros j Hj; [cbn in Hj; lia|].
  unfold bitsval. rewrite fold_left_app. cbn [fold_left]. fold (bitsval l). rewrite app_length in *. cbn [length] in *.
  destruct j as [|j].
  - replace (length l + 1 - 1 - 0)%nat with (length l) by lia. rewrite app_nth2, Nat.sub_diag by lia. cbn [nth]. destruct b; cbn [b2z].
    + apply Z.testbit_odd_0.
    + rewrite Z.add_0_r. apply Z.testbit_even_0.
  - rewrite app_nth1 by lia. replace (Z.of_nat (S j)) with (Z.succ (Z.of_nat j)) by lia.
    replace (length l + 1 - 1 - S j)%nat with (length l - 1 - j)%nat by lia. rewrite <- IH by lia. destruct b; cbn [b2z].
    + apply Z.testbit_odd_succ. lia.
    + rewrite Z.add_0_r. apply Z.testbit_even_succ. lia.
Qed.
Lemma pack_length n : forall l, length (pack n l) = n.
Proof. induction n; intros l; cbn; auto. Qed.
Lemma octet_byte l : (length l <= 8)%nat -> 0 <= octet l 0 < 256.
Proof.
  intros H. assert (Hb : forall l a, 0 <= a -> 0 <= octet l a < (a + 1) * 2 ^ zlen l).
  { clear. induction l as [|b l IH]; intros a Ha; cbn [octet].
    - change (2 ^ zlen (@nil bool)) with 1. lia.
    - rewrite zlen_cons, Z.pow_add_r by (try apply zlen_nonneg; lia). change (2 ^ 1) with 2.
      assert (0 < 2 ^ zlen l) by (apply Z.pow_pos_nonneg; [lia|apply zlen_nonneg]).
      pose proof (IH (2 * a + b2z b) ltac:(destruct b; cbn [b2z]; lia)). destruct b; cbn [b2z] in *; nia. }
  specialize (Hb l 0 ltac:(lia)). assert (2 ^ zlen l <= 2 ^ 8) by (apply Z.pow_le_mono_r; unfold zlen; lia). change (2 ^ 8) with 256 in *. lia.
Qed.
Lemma pack_bytes n : forall l, bytes (pack n l).
Proof.
  induction n; intros l; [constructor|]. cbn [pack]. constructor; [|apply IHn]. apply octet_byte. rewrite firstn_length. lia.
Qed.

Lemma report_bit w j : 0 <= j < 64 -> Z.testbit (big_endian (snd (ack_desc w))) j = n_received w (dmod (v_r w - 1 - j)).
Proof.
  intros Hj. unfold ack_desc. cbn [snd].
  assert (Hl : length (rbb w) = 64%nat) by (unfold rbb; rewrite map_length, seq_length; reflexivity).
  rewrite (pack_bits 8 (rbb w) Hl).
  rewrite <- (Z2Nat.id j) at 1 by lia. rewrite bitsval_bit by lia. rewrite Hl. unfold rbb.
  set (f := fun i => n_received w (dmod (v_r w - 1 - (dws - 1 - Z.of_nat i)))).
  rewrite (nth_indep (map f (seq 0 64)) false (f 0%nat)) by (rewrite map_length, seq_length; lia).
  rewrite map_nth, seq_nth by lia. unfold f. f_equal. f_equal. unfold dws. lia.
Qed.

(** *** The statements of the property theorems. *)
Lemma upto_seq (A : Type) (f : Z -> A) Q : 0 <= Q -> map f (upto 0 Q) = map (fun i => f (Z.of_nat i)) (seq 0 (Z.to_nat Q)).
Proof. intros H. unfold upto. rewrite map_map. rewrite Z.sub_0_r. apply map_ext. intros i. f_equal. Qed.

Lemma c17 (B : Type) (fbi : B -> bool) blk ns : within fbi blk ns ->
  exists x o k, rrun fbi rx_init (over_air blk ns) = Ok (x, o) /\
    delivered o = map (fun i => Some (blk (Z.of_nat i))) (seq 0 k) /\ (forall n, 0 <= n < Z.of_nat k -> In n ns) /\
    (no_jump ns -> gap ns (Z.of_nat k)).
Proof.
  intros Hw. destruct (run_inv fbi blk ns Hw) as (x & o & Q & R & E & Hi & Hd & _ & _ & Hj).
  pose proof (i_rng _ _ _ _ _ Hi) as Hr. exists x, o, (Z.to_nat Q). split; [exact E|].
  split; [rewrite Hd; apply upto_seq; lia|]. split; [intros n Hn; apply (i_hist _ _ _ _ _ Hi); lia|].
  intros Hnj. specialize (Hj Hnj). split; [lia|]. split; [intros n Hn; apply (i_hist _ _ _ _ _ Hi); lia|].
  rewrite Z2Nat.id by lia. intros Hin. destruct (f_arr _ _ _ _ Hj Q Hin) as [|[H1 H2]]; [lia|].
  destruct (i_stop _ _ _ _ _ Hi); [lia|contradiction].
Qed.

Lemma finished_sound (B : Type) (fbi : B -> bool) blk ns x o : within fbi blk ns -> rrun fbi rx_init (over_air blk ns) = Ok (x, o) ->
  In Finished o -> exists f, 0 <= f < zlen (delivered o) /\ fbi (blk f) = true.
Proof.
  intros Hw E Hf. destruct (run_inv fbi blk ns Hw) as (x' & o' & Q & R & E' & Hi & Hd & H1 & _ & _).
  rewrite E in E'. injection E' as <- <-. destruct (H1 Hf) as (k & Hk & Hb). exists (k - 1).
  rewrite Hd. unfold upto, zlen. rewrite !map_length, seq_length. split; [lia|exact Hb].
Qed.
Lemma finished_complete (B : Type) (fbi : B -> bool) blk ns f : within fbi blk ns -> no_jump ns -> gap ns (f + 1) ->
  (forall n, In n ns -> n <= f) -> 0 <= f -> fbi (blk f) = true ->
  exists x o, rrun fbi rx_init (over_air blk ns) = Ok (x, o) /\ In Finished o /\
    delivered o = map (fun i => Some (blk (Z.of_nat i))) (seq 0 (Z.to_nat (f + 1))).
Proof.
  intros Hw Hnj (Hg0 & Hg1 & Hg2) Hle Hf0 Hb. destruct (run_inv fbi blk ns Hw) as (x & o & Q & R & E & Hi & Hd & _ & Hc & Hj).
  specialize (Hj Hnj). pose proof (i_rng _ _ _ _ _ Hi) as Hr.
  assert (Htop : top ns = f + 1).
  { assert (Hub : forall l, (forall n, In n l -> n <= f) -> top l <= f + 1).
    { clear -Hf0. unfold top. induction l as [|a l IH]; intros H; cbn [fold_right]; [lia|].
      pose proof (H a ltac:(left; reflexivity)). pose proof (IH ltac:(intros n Hn; apply H; right; exact Hn)). lia. }
    assert (Hlb : forall l n, In n l -> n + 1 <= top l).
    { clear. unfold top. induction l as [|a l IH]; intros n []; cbn [fold_right]; [subst; lia|]. pose proof (IH n H). lia. }
    pose proof (Hub ns Hle). pose proof (Hlb ns f (Hg1 f ltac:(lia))). lia. }
  pose proof (f_top _ _ _ _ Hj) as HR. rewrite Htop in HR.
  assert (HQ : Q = f + 1).
  { destruct (Z.lt_ge_cases Q (f + 1)) as [Hlt|]; [|lia]. exfalso.
    destruct (f_arr _ _ _ _ Hj Q (Hg1 Q ltac:(lia))) as [|[_ H2]]; [lia|]. destruct (i_stop _ _ _ _ _ Hi); [lia|contradiction]. }
  exists x, o. split; [exact E|]. split.
  - apply Hc; [intros ->; apply (Hg1 f); lia|lia|lia|]. rewrite HR. replace (f + 1 - 1) with f by lia. exact Hb.
  - rewrite Hd, upto_seq by lia. now rewrite HQ.
Qed.

Lemma c18 (B : Type) (fbi : B -> bool) blk ns : within fbi blk ns ->
  exists x o R, rrun fbi rx_init (over_air blk ns) = Ok (x, o) /\
    let d := zlen (delivered o) in
    let report := ack_desc (x_w x) in
    d <= R <= d + 64 /\ fst report = R mod 128 /\ length (snd report) = 8%nat /\ bytes (snd report) /\
    (forall j, 0 <= j < 64 -> let n := R - 1 - j in
      (Z.testbit (big_endian (snd report)) j = true -> 0 <= n /\ In n ns /\ x_store x (n mod 128) = Some (blk n)) /\
      (0 <= n < d -> Z.testbit (big_endian (snd report)) j = true)) /\
    (no_jump ns -> R = top ns /\ forall j, 0 <= j < 64 -> (Z.testbit (big_endian (snd report)) j = true <-> In (R - 1 - j) ns)).
Proof.
  intros Hw. destruct (run_inv fbi blk ns Hw) as (x & o & Q & R & E & Hi & Hd & _ & _ & Hj). exists x, o, R. split; [exact E|].
  assert (Hz : zlen (delivered o) = Q).
  { rewrite Hd. unfold upto, zlen. rewrite !map_length, seq_length. pose proof (i_rng _ _ _ _ _ Hi). lia. }
  cbv zeta. rewrite Hz. pose proof (i_rng _ _ _ _ _ Hi) as Hr. split; [lia|]. split; [exact (i_r _ _ _ _ _ Hi)|].
  split; [apply pack_length|]. split; [apply pack_bytes|].
  assert (Hbit : forall j, 0 <= j < 64 -> (Z.testbit (big_endian (snd (ack_desc (x_w x)))) j = true <-> st (x_w x) (R - 1 - j) = NRECEIVED)).
  { intros j Hjj. rewrite report_bit by exact Hjj. rewrite (i_r _ _ _ _ _ Hi).
    replace (R mod 128 - 1 - j) with (R mod 128 + (- 1 - j)) by lia. rewrite mod_addl.
    replace (R + (-1 - j)) with (R - 1 - j) by lia. apply n_received_st. }
  split.
  - intros j Hjj. split.
    + intros H. apply Hbit in H; [|exact Hjj]. apply (i_rec _ _ _ _ _ Hi); [lia|exact H].
    + intros Hn. apply Hbit; [exact Hjj|]. apply (i_past _ _ _ _ _ Hi); lia.
  - intros Hnj. specialize (Hj Hnj). split; [exact (f_top _ _ _ _ Hj)|]. intros j Hjj. rewrite Hbit by exact Hjj. split.
    + intros H. apply (i_rec _ _ _ _ _ Hi); [lia|exact H].
    + intros Hin. destruct (f_arr _ _ _ _ Hj _ Hin) as [Hlt|[_ H2]]; [|exact H2].
      destruct (Z.lt_ge_cases (R - 1 - j) 0) as [Hneg|]; [|apply (i_past _ _ _ _ _ Hi); lia].
      exfalso. apply in_split in Hin as (pre & post & En).
      destruct (run_inv fbi blk pre) as (x2 & o2 & Q2 & R2 & E2 & _).
      { intros pre' m post' x' o' En'. apply (Hw pre' m (post' ++ (R - 1 - j) :: post)). rewrite En, En', <- app_assoc. reflexivity. }
      destruct (Hw pre _ post x2 o2 En E2). lia.
Qed.
