(** C126: EGPRS Packet Channel Requests are decoded as table 11.2.5a.2 of TS 44.060 says. *)
From Coq Require Import ZArith List Bool Lia.
From Verif Require Import Lib.Base Csn1.Csn1Model Csn1.Csn1DlModel Csn1.ChReqModel Csn1.ChReqSpec.
Import ListNotations.
Open Scope Z_scope.

Lemma bits_of ra i : 0 <= ra -> 0 <= i < 11 -> msg_bits (ch_req_octets ra) i = Z.testbit ra (10 - i).
Proof.
  intros R H. unfold msg_bits, ch_req_octets. change 256 with (2 ^ 8).
  destruct (Z.ltb_spec i 8).
  - replace (i / 8) with 0 by (Z.to_euclidean_division_equations; lia). replace (i mod 8) with i by (Z.to_euclidean_division_equations; lia).
    cbn [Z.to_nat nth]. rewrite Z.mod_pow2_bits_low, Z.shiftr_spec by lia. f_equal. lia.
  - replace (i / 8) with 1 by (Z.to_euclidean_division_equations; lia). replace (i mod 8) with (i - 8) by (Z.to_euclidean_division_equations; lia).
    change (Z.to_nat 1) with 1%nat. cbn [nth]. change 7 with (Z.ones 3) at 1.
    rewrite Z.mod_pow2_bits_low, Z.shiftl_spec, Z.land_spec, Z.ones_spec_low by lia.
    rewrite andb_true_r. f_equal. lia.
Qed.
Lemma field_of ra n : 0 <= ra -> forall i, 0 <= i -> i + Z.of_nat n <= 11 ->
  field (msg_bits (ch_req_octets ra)) i n = (ra / 2 ^ (11 - i - Z.of_nat n)) mod 2 ^ Z.of_nat n.
Proof.
  intros R. induction n as [|n IH]; intros i I L; cbn [field]; [now rewrite Z.mod_1_r|].
  rewrite IH, bits_of by lia. replace (11 - (i + 1) - Z.of_nat n) with (11 - i - Z.of_nat (S n)) by lia.
  set (k := 11 - i - Z.of_nat (S n)). assert (K : 0 <= k) by lia. replace (10 - i) with (Z.of_nat n + k) by lia.
  rewrite <- Z.div_pow2_bits by lia. set (q := ra / 2 ^ k). rewrite Z.testbit_spec' by lia.
  rewrite Nat2Z.inj_succ, Z.pow_succ_r, (Z.mul_comm 2), Z.rem_mul_r by lia. lia.
Qed.

(** The decoder on its eleven bits. *)
Definition done (m : mem) (w : list (Z * Z)) : dres := DOk (mkcst 0 11 11 (fold_left (fun m x => upds m (fst x) 1 (snd x)) w m)).
Definition st (m : mem) : cst := mkcst 11 0 0 m.
Lemma alt strict f past m b v one r i : 1 <= b <= 11 ->
  dec strict f 16 past 6 0 (DAlt b v false one r) (Alts i 0 1) (st m) =
  if field f 0 (Z.to_nat b) mod 256 =? v then call (dec strict f 16 past 6 0 one run_mode) (mkcst (11 - b) b b (upds m 0 1 i))
  else dec strict f 16 past 6 0 r (Alts (i + 1) 0 1) (st m).
Proof.
  intros B. cbn [dec]. unfold read. cbn [s_ri st]. destruct (Z.eqb_spec b 0); [lia|]. destruct (Z.leb_spec (0 + b) 16); [|lia]. cbn [Z.leb Z.compare andb].
  destruct (_ =? v).
  - unfold store. destruct strict; cbn; reflexivity.
  - unfold set_pos. cbn [s_rem s_off s_mem st]. now replace (0 + b - b) with 0 by lia.
Qed.
Lemma calc strict f past m :
  decode strict f 16 past 6 d_ch_req 11 0 0 m =
    if field f 0 1 mod 256 =? 0 then done m [(0, 0); (2, field f 1 5); (4, field f 6 2); (5, field f 8 3)] else
    if field f 0 3 mod 256 =? 4 then done m [(0, 1); (3, field f 3 3); (4, field f 6 2); (5, field f 8 3)] else
    if field f 0 3 mod 256 =? 5 then done m [(0, 2); (1, field f 3 3); (4, field f 6 2); (5, field f 8 3)] else
    if field f 0 6 mod 256 =? 0x30 then done m [(0, 3); (4, field f 6 2); (5, field f 8 3)] else
    if field f 0 6 mod 256 =? 0x33 then done m [(0, 4); (5, field f 6 5)] else
    if field f 0 6 mod 256 =? 0x35 then done m [(0, 5); (5, field f 6 5)] else
    if field f 0 6 mod 256 =? 0x36 then done m [(0, 6); (5, field f 6 5)] else
    if field f 0 6 mod 256 =? 0x37 then done m [(0, 7); (5, field f 6 5)] else
    if field f 0 6 mod 256 =? 0x38 then done m [(0, 8); (4, field f 6 2); (5, field f 8 3)] else
    if field f 0 6 mod 256 =? 0x39 then done m [(0, 9); (5, field f 6 5)] else DErr (-8).
Proof.
  unfold decode. change (mkcst 11 0 0 m) with (st m). unfold call at 1. cbn [s_rem st Z.ltb Z.compare].
  change (dec strict f 16 past 6 0 d_ch_req run_mode (st m)) with
    (after (dec strict f 16 past 6 0 ch_req_alts (Alts 0 0 1) (st m)) (dec strict f 16 past 6 0 DEnd run_mode)).
  unfold ch_req_alts.
  Ltac one strict := rewrite alt by lia; lazymatch goal with |- after (if ?b then _ else _) _ = _ =>
     change (Z.to_nat 1) with 1%nat; change (Z.to_nat 3) with 3%nat; change (Z.to_nat 6) with 6%nat end;
     lazymatch goal with |- after (if ?b then _ else _) _ = (if ?c then _ else _) => change c with b; destruct b; [destruct strict; reflexivity|] end.
  do 10 one strict. reflexivity.
Qed.

Ltac consts :=
change (11 - 0 - Z.of_nat 1) with 10; change (11 - 0 - Z.of_nat 3) with 8; change (11 - 0 - Z.of_nat 6) with 5; change (11 - 1 - Z.of_nat 5) with 5;
change (11 - 3 - Z.of_nat 3) with 5; change (11 - 6 - Z.of_nat 2) with 3; change (11 - 8 - Z.of_nat 3) with 0; change (11 - 6 - Z.of_nat 5) with 0;
change (2 ^ 10) with 1024; change (2 ^ 8) with 256; change (2 ^ 5) with 32; change (2 ^ 3) with 8; change (2 ^ 0) with 1;
change (2 ^ Z.of_nat 1) with 2; change (2 ^ Z.of_nat 3) with 8; change (2 ^ Z.of_nat 6) with 64; change (2 ^ Z.of_nat 5) with 32; change (2 ^ Z.of_nat 2) with 4.
Ltac de := Z.to_euclidean_division_equations; lia.
Lemma holds_done m w : (forall a v, In (a, v) w -> 0 <= v < 256) -> NoDup (map fst w) ->
  exists s, done m w = DOk s /\ holds m (s_mem s) w /\ s_rem s = 0.
Proof.
  intros V N. eexists. split; [reflexivity|]. cbn [s_mem s_rem]. split; [|reflexivity]. revert m V N.
  induction w as [|[a v] w IH]; intros m V N; cbn [fold_left map fst snd] in *.
  - split; [contradiction|auto].
  - apply NoDup_cons_iff in N. destruct N as [N1 N2]. destruct (IH (upds m a 1 v) (fun a v H => V a v (or_intror H)) N2) as [A B]. split.
    + intros x y [E|H]; [|now apply A]. injection E as -> ->. rewrite B by exact N1. cbn. unfold upd1. rewrite Z.eqb_refl.
      apply Z.mod_small. apply (V x y). now left.
    + intros x H. rewrite B by (intros K; apply H; now right). cbn. unfold upd1. destruct (Z.eqb_spec x a); [|reflexivity].
      exfalso. apply H. now left.
Qed.

(** C126: every request of the table is decoded to its kind and fields; no other octet is written. *)
Theorem C126_decoded : forall r strict past h m, valid r -> 0 <= h ->
  exists s, decode_ch_req strict past (code r + 2048 * h) m = DOk s /\ holds m (s_mem s) (written r) /\ s_rem s = 0.
Proof.
  intros r strict past h m V H. unfold decode_ch_req. rewrite calc.
  assert (C : 0 <= code r) by (destruct r; cbn [valid code] in *; unfold fits in V; lia).
  rewrite !field_of by lia. set (ra := code r + 2048 * h).
  consts.
  assert (T : forall (a b : Z) w (X : dres), a = b -> w = written r -> exists s, (if a =? b then done m w else X) = DOk s /\ holds m (s_mem s) (written r) /\ s_rem s = 0).
  { intros a b w X -> ->. rewrite Z.eqb_refl. apply holds_done.
    - intros x v I. destruct r; cbn [valid written] in *; unfold fits in V; cbn in I; intuition; match goal with E : (_, _) = (_, _) |- _ => injection E as <- <-; lia end.
    - destruct r; cbn; repeat constructor; cbn; lia. }
  assert (F : forall (a b : Z) Y X (P : dres -> Prop), a <> b -> P X -> P (if a =? b then Y else X)) by (intros a b Y X P N K; now destruct (Z.eqb_spec a b)).
  subst ra. destruct r; cbn [valid code written] in *; unfold fits in V;
    repeat (first [apply T; [de|repeat f_equal; de] |
      match goal with |- exists s, (if ?a =? ?b then _ else _) = DOk s /\ _ => apply (F a b _ _ (fun d => exists s, d = DOk s /\ _)); [de|] end]).
Qed.

(** C126: and nothing else is accepted. *)
Theorem C126_refused : forall ra strict past m, 0 <= ra -> (forall r, valid r -> code r <> ra mod 2048) ->
  decode_ch_req strict past ra m = DErr (-8).
Proof.
  intros ra strict past m R N. unfold decode_ch_req. rewrite calc. rewrite !field_of by lia. consts.
  pose (p := (ra / 8) mod 4). pose (b := ra mod 8). pose (a3 := (ra / 32) mod 8). pose (a5 := (ra / 32) mod 32). pose (b5 := ra mod 32).
  pose proof (N (OnePhase a5 p b)) as N0. pose proof (N (ShortAccess a3 p b)) as N1. pose proof (N (OnePhaseRed a3 p b)) as N2. pose proof (N (TwoPhase p b)) as N3.
  pose proof (N (Signalling b5)) as N4. pose proof (N (OnePhaseUnack b5)) as N5. pose proof (N (Dedicated b5)) as N6. pose proof (N (Emergency b5)) as N7.
  pose proof (N (TwoPhaseIpa p b)) as N8. pose proof (N (SignallingIpa b5)) as N9. cbn [valid code] in *.
  assert (A5 : fits 5 a5) by (unfold fits, a5; de). assert (A3 : fits 3 a3) by (unfold fits, a3; de). assert (P2 : fits 2 p) by (unfold fits, p; de).
  assert (B3 : fits 3 b) by (unfold fits, b; de). assert (B5 : fits 5 b5) by (unfold fits, b5; de).
  specialize (N0 (conj A5 (conj P2 B3))). specialize (N1 (conj A3 (conj P2 B3))). specialize (N2 (conj A3 (conj P2 B3))). specialize (N3 (conj P2 B3)).
  specialize (N4 B5). specialize (N5 B5). specialize (N6 B5). specialize (N7 B5). specialize (N8 (conj P2 B3)). specialize (N9 B5).
  clear N A5 A3 P2 B3 B5. unfold a5, a3, p, b, b5 in *. clear a5 a3 p b b5.
  destruct (Z.eqb_spec (((ra / 1024) mod 2) mod 256) 0); [exfalso; clear N1 N2 N3 N4 N5 N6 N7 N8 N9; de|].
  destruct (Z.eqb_spec (((ra / 256) mod 8) mod 256) 4); [exfalso; clear N0 N2 N3 N4 N5 N6 N7 N8 N9; de|].
  destruct (Z.eqb_spec (((ra / 256) mod 8) mod 256) 5); [exfalso; clear N0 N1 N3 N4 N5 N6 N7 N8 N9; de|].
  clear N0 N1 N2.
  destruct (Z.eqb_spec (((ra / 32) mod 64) mod 256) 0x30); [exfalso; clear N4 N5 N6 N7 N8 N9; de|]. clear N3.
  destruct (Z.eqb_spec (((ra / 32) mod 64) mod 256) 0x33); [exfalso; clear N5 N6 N7 N8 N9; de|]. clear N4.
  destruct (Z.eqb_spec (((ra / 32) mod 64) mod 256) 0x35); [exfalso; clear N6 N7 N8 N9; de|]. clear N5.
  destruct (Z.eqb_spec (((ra / 32) mod 64) mod 256) 0x36); [exfalso; clear N7 N8 N9; de|]. clear N6.
  destruct (Z.eqb_spec (((ra / 32) mod 64) mod 256) 0x37); [exfalso; clear N8 N9; de|]. clear N7.
  destruct (Z.eqb_spec (((ra / 32) mod 64) mod 256) 0x38); [exfalso; clear N9; de|]. clear N8.
  destruct (Z.eqb_spec (((ra / 32) mod 64) mod 256) 0x39); [exfalso; de|]. reflexivity.
Qed.

(** Non-vacuity, with values of the test suite: 0x2b5, 0x675 and the refused 0x7ea. *)
Example C126_case : code (OnePhase 21 2 5) = 0x2b5 /\ code (Signalling 21) = 0x675 /\ valid (OnePhase 21 2 5) /\ valid (Signalling 21) /\
  (forall r, valid r -> code r <> 0x7ea mod 2048).
Proof.
  split; [reflexivity|]. split; [reflexivity|]. split; [cbn; unfold fits; lia|]. split; [cbn; unfold fits; lia|].
  intros [] V; cbn [valid code] in *; unfold fits in V; change (0x7ea mod 2048) with 0x7ea; lia.
Qed.

Print Assumptions C126_decoded.
Print Assumptions C126_refused.
