(** The decoder on the downlink control messages that 44.060 describes. *)
From Coq Require Import ZArith List Bool Lia.
From Verif Require Import Lib.Base Csn1.Csn1Model Csn1.Csn1Tables Csn1.Csn1EncModel Csn1.Csn1DlModel Csn1.Csn1Layout Csn1.Csn1Step
  Rlcmac.CcchSpec Rlcmac.CcchDec Rlcmac.PdchSpec Rlcmac.PdchStep.
Import ListNotations.
Open Scope Z_scope.

(** The presence bit of an option. *)
Definition there {A} (o : option A) : Z := match o with Some _ => 1 | None => 0 end.

Lemma fits_ok lim base off n : 0 <= base + off -> base + off + Z.of_nat n <= lim -> fits lim base off n = true.
Proof. unfold fits. lia. Qed.

Section Dec.
Variable bits : Z -> bool.
Variable nbits : Z.
Variable past : Z -> Z -> Z * Z.
Notation here := (here bits nbits).
Notation runs := (runs bits nbits past).
Notation leaves := (leaves bits nbits).

(** *** Steps that say what is known about the memory afterwards *)
(** The table [d] reads exactly [l0], writes only from [lo] to [hi], and then [R] holds. *)
Definition eats lim base d l0 lo hi (R : mem -> Prop) : Prop :=
  forall l p m, runs lim base d run_mode p (l0 ++ l) m (leaves (fun l1 m1 => l1 = l /\ keep lo hi m m1 /\ R m1)).

Lemma uint_k lim base b off room null n v l r p m Q : b = Z.of_nat n -> 0 < b <= 8 -> 0 <= v < 2 ^ b -> 0 <= base + off < lim ->
  (forall p1 m1, keep (base + off) (base + off + 1) m m1 -> m1 (base + off) = v -> runs lim base r run_mode p1 l m1 Q) ->
  runs lim base (DUint b off room null r) run_mode p (U n v :: l) m Q.
Proof.
  intros E B V L R. assert (W : width b = 1%nat) by (unfold width; replace (b <=? 8) with true by lia; reflexivity).
  eapply step_uint; [exact E|lia|exact V|apply fits_ok; rewrite ?W; lia|]. rewrite W. apply R; [apply keep_upds; lia|].
  apply upds_at. assert (2 ^ b <= 2 ^ 8) by (apply Z.pow_le_mono_r; lia). change (2 ^ 8) with 256 in *. lia.
Qed.
Lemma wide_k lim base b off room null n v l r p m Q : b = Z.of_nat n -> b <= 32 -> 0 <= v < 2 ^ b -> 0 <= base + off -> base + off + Z.of_nat (width b) <= lim ->
  2 ^ b <= 256 ^ Z.of_nat (width b) ->
  (forall p1 m1, keep (base + off) (base + off + Z.of_nat (width b)) m m1 -> rdle m1 (base + off) (width b) = v -> runs lim base r run_mode p1 l m1 Q) ->
  runs lim base (DUint b off room null r) run_mode p (U n v :: l) m Q.
Proof.
  intros E B V L H P R. eapply step_uint; [exact E|lia|exact V|apply fits_ok; lia|]. apply R; [apply keep_upds; lia|]. apply rdle_upds. lia.
Qed.
(** One optional number. *)
Lemma opt_uint_k lim base b off room null off2 room2 null2 n o l r p m Q : b = Z.of_nat n -> 0 < b <= 8 ->
  (forall v, o = Some v -> 0 <= v < 2 ^ b) -> null2 = false -> 0 <= base + off -> off < off2 -> base + off2 < lim ->
  (forall p1 m1, keep (base + off) (base + off2 + 1) m m1 -> m1 (base + off) = there o -> (forall v, o = Some v -> m1 (base + off2) = v) ->
     runs lim base r run_mode p1 l m1 Q) ->
  runs lim base (DNext false 1 off room null (DUint b off2 room2 null2 r)) run_mode p (opt (fun v => [U n v]) o ++ l) m Q.
Proof.
  intros E B V -> L O H R. apply step_opt; [apply fits_ok; lia|reflexivity| |].
  - intros v ->. cbn [app]. eapply uint_k; [exact E|exact B|apply V; reflexivity|lia|]. intros p1 m1 K Ev. apply R.
    + intros x X. rewrite K by lia. apply upds_out. lia.
    + rewrite K by lia. apply upds_at. cbn. lia.
    + intros w Hw. injection Hw as <-. exact Ev.
  - intros ->. apply step_skip; [reflexivity|]. cbn [rest]. apply R.
    + apply keep_upds; lia.
    + apply upds_at. cbn. lia.
    + discriminate.
Qed.
(** One optional structure. *)
Lemma opt_type_k {A} (f : A -> list item) o lim base off room (null : bool) off2 room2 sub sz (T : A -> mem -> Prop) l r p m Q :
  (forall a, o = Some a -> eats lim (base + off2) sub (f a) (base + off2) (base + off2 + sz) (T a)) ->
  0 <= base + off -> off < off2 -> 0 <= sz -> base + off < lim ->
  (forall p1 m1, (forall x, x < base + off \/ base + off < x < base + off2 \/ base + off2 + sz <= x -> m1 x = m x) -> m1 (base + off) = there o -> (forall a, o = Some a -> T a m1) ->
     runs lim base r run_mode p1 l m1 Q) ->
  runs lim base (DNext false 1 off room null (DType off2 room2 false sub r)) run_mode p (opt f o ++ l) m Q.
Proof.
  intros S0 L O Sz H R. apply step_opt; [apply fits_ok; lia|reflexivity| |].
  - intros a ->. eapply step_type; [left; reflexivity|apply (S0 a eq_refl)|]. intros p1 l1 m1 (-> & K & Ta). apply R.
    + intros x X. rewrite K by lia. apply upds_out. lia.
    + rewrite K by lia. apply upds_at. cbn. lia.
    + intros w Hw. injection Hw as <-. exact Ta.
  - intros ->. apply step_skip; [reflexivity|]. cbn [rest]. apply R.
    + intros x X. apply upds_out. lia.
    + apply upds_at. cbn. lia.
    + discriminate.
Qed.
Lemma type_k lim base off room sub l0 sz (T : mem -> Prop) l r p m Q :
  eats lim (base + off) sub l0 (base + off) (base + off + sz) T ->
  (forall p1 m1, keep (base + off) (base + off + sz) m m1 -> T m1 -> runs lim base r run_mode p1 l m1 Q) ->
  runs lim base (DType off room false sub r) run_mode p (l0 ++ l) m Q.
Proof. intros S0 R. eapply step_type; [left; reflexivity|apply S0|]. intros p1 l1 m1 (-> & K & T1). auto. Qed.
Lemma sel_tarr lim base c off room stride sub r j n p l m Q :
  runs lim base r (Sel j n) p l m Q -> runs lim base (DTArr c off room stride sub r) (Sel (S j) (S n)) p l m Q.
Proof. intros R H k. specialize (R H k). cbn [dec control]. replace (S n - 1)%nat with n by lia. exact R. Qed.
Lemma skip_tarr lim base c off room stride sub r n p l m Q :
  runs lim base r (Skip n) p l m Q -> runs lim base (DTArr c off room stride sub r) (Skip (S n)) p l m Q.
Proof. intros R. exact R. Qed.

Ltac here_k K := repeat match goal with
  | H : ?m0 ?a = ?v |- _ => match type of K with keep _ _ m0 ?m1 => assert (m1 a = v) by (rewrite K by lia; exact H); clear H end end.
Ltac fin := unfold eats; intros l p m.
Ltac done_k := apply runs_end; split; [reflexivity|split; [|]]; [..|try exact Logic.I].

(** *** Information elements *)
Lemma ta_eats x lim base : items_ok (timing_advance x) -> 0 <= base -> base + 5 <= lim ->
  eats lim base Packet_Timing_Advance_t (timing_advance x) base (base + 5) (fun _ => True).
Proof.
  intros K B L l p m. destruct x as [v i]. unfold timing_advance in *. cbn [fst snd] in *. oks. rewrite <- app_assoc. unfold Packet_Timing_Advance_t.
  eapply opt_uint_k; [reflexivity|lia|intros w ->; cbn [opt] in *; oks; num|reflexivity|lia|lia|lia|]. intros p1 m1 K1 _ _.
  apply step_opt; [apply fits_ok; lia|reflexivity| |].
  - intros a ->. cbn [opt app] in *. oks. eapply uint_k; [reflexivity|lia|num|lia|]. intros p2 m2 K2 _. eapply uint_k; [reflexivity|lia|num|lia|]. intros p3 m3 K3 _.
    apply runs_end. split; [reflexivity|split; [|exact Logic.I]]. intros y Y. rewrite K3 by lia. rewrite K2 by lia. rewrite upds_out by lia. apply K1. lia.
  - intros _. do 2 (apply step_skip; [reflexivity|]). apply runs_end. split; [reflexivity|split; [|exact Logic.I]]. intros y Y. cbn [rest] in *. rewrite upds_out by lia. apply K1. lia.
Qed.

(** A chain of optional numbers. *)
Fixpoint gammas (n : nat) (off : Z) : descr :=
  match n with O => DEnd | S n => DNext false 1 off 1 false (DUint 5 (off + 1) 1 false (gammas n (off + 2))) end.
Lemma gammas_eats : forall gs off lim base, items_ok (flat_map (opt (fun g => [U 5 g])) gs) -> 0 <= base + off -> base + off + 2 * zlen gs <= lim ->
  eats lim base (gammas (length gs) off) (flat_map (opt (fun g => [U 5 g])) gs) (base + off) (base + off + 2 * zlen gs) (fun _ => True).
Proof.
  induction gs as [|g gs IH]; intros off lim base K B L l p m; cbn [length gammas flat_map].
  - cbn [app]. apply runs_end. split; [reflexivity|split; [apply keep_refl|exact Logic.I]].
  - unfold zlen in *. cbn [length flat_map] in *. oks. rewrite <- app_assoc.
    eapply opt_uint_k; [reflexivity|lia|intros w ->; cbn [opt] in *; oks; num|reflexivity|lia|lia|lia|]. intros p1 m1 K1 _ _.
    eapply runs_imp; [|apply IH; [assumption|lia|lia]]. intros s (p2 & l2 & m2 & S2 & (-> & K2 & _)). exists p2, l, m2. split; [exact S2|].
    split; [reflexivity|split; [|exact Logic.I]]. intros y Y. rewrite K2 by lia. apply K1. lia.
Qed.
Lemma power_eats x lim base : items_ok (power_params x) -> length (snd x) = 8%nat -> 0 <= base -> base + 17 <= lim ->
  eats lim base Power_Control_Parameters_t (power_params x) base (base + 17) (fun _ => True).
Proof.
  intros K N B L l p m. destruct x as [a gs]. unfold power_params in *. cbn [fst snd] in *. oks.
  change Power_Control_Parameters_t with (DUint 4 0 1 false (gammas 8 1)). rewrite <- N. cbn [app].
  eapply uint_k; [reflexivity|lia|num|lia|]. intros p1 m1 K1 _. assert (Z8 : zlen gs = 8) by (unfold zlen; lia).
  eapply runs_imp; [|apply gammas_eats; [assumption|lia|lia]]. intros s (p2 & l2 & m2 & S2 & (-> & K2 & _)). exists p2, l, m2. split; [exact S2|].
  split; [reflexivity|split; [|exact Logic.I]]. intros y Y. rewrite K2 by lia. apply K1. lia.
Qed.
Lemma ext_eats b lim base : 1 <= zlen b <= 64 -> 0 <= base -> base + 9 <= lim ->
  eats lim base Extension_Bits_t (extension_bits b) base (base + 9) (fun _ => True).
Proof.
  intros Lb B L l p m. unfold extension_bits, Extension_Bits_t. cbn [app].
  eapply step_uintoff; [reflexivity|lia|cbn; lia|apply fits_ok; cbn; lia|]. change (width 6) with 1%nat.
  replace (zlen b - 1 + 1) with (zlen b) by lia.
  apply step_varbmp_k; [apply upds_at; lia|lia|lia|]. intros p1 m1 K. apply runs_end. split; [reflexivity|split; [|exact Logic.I]].
  intros y Y. rewrite K by lia. apply upds_out. cbn. lia.
Qed.

Lemma step_imp lim base d md p l m (R R' : list item -> mem -> Prop) : (forall l1 m1, R l1 m1 -> R' l1 m1) ->
  runs lim base d md p l m (leaves R) -> runs lim base d md p l m (leaves R').
Proof. intros I0. apply runs_imp. intros s (p2 & l2 & m2 & S2 & X). exists p2, l2, m2. auto. Qed.

(** *** Frequency parameters *)
Lemma sel_k lim base off room sub l0 sz n l r p m Q :
  eats lim (base + off) sub l0 (base + off) (base + off + sz) (fun _ => True) ->
  (forall p1 m1, keep (base + off) (base + off + sz) m m1 -> runs lim base r (Skip n) p1 l m1 Q) ->
  runs lim base (DType off room false sub r) (Sel 0 (S n)) p (l0 ++ l) m Q.
Proof. intros S0 R. eapply step_sel_type; [left; reflexivity|apply S0|]. intros p1 l1 m1 (-> & K & _). auto. Qed.
Lemma index_eats idx lim base : items_ok (repeated 6 idx) -> zlen idx <= 16 -> 0 <= base -> base + 17 <= lim ->
  eats lim base ARFCN_index_list_t (repeated 6 idx) base (base + 17) (fun _ => True).
Proof.
  intros K N B L l p m. unfold repeated. rewrite <- app_assoc. cbn [app]. unfold ARFCN_index_list_t.
  apply step_recarr_k; [reflexivity|lia|lia|lia|apply fits_ok; lia|apply (rep_ok 6); assumption|]. intros p1 m1 K1. apply runs_end.
  split; [reflexivity|split; [|exact Logic.I]]. eapply keep_wide; [exact K1|lia|lia].
Qed.
Lemma bitmap_eats b lim base : 1 <= zlen b <= 64 -> 0 <= base -> base + 10 <= lim ->
  eats lim base MobileAllocation_t [U 6 (zlen b - 1); Any b] base (base + 10) (fun _ => True).
Proof.
  intros Lb B L l p m. unfold MobileAllocation_t. cbn [app].
  eapply step_uintoff; [reflexivity|lia|cbn; lia|apply fits_ok; cbn; lia|]. change (width 6) with 1%nat.
  replace (zlen b - 1 + 1) with (zlen b) by lia.
  apply step_varbmp_k; [apply upds_at; lia|lia|lia|]. intros p1 m1 K. apply runs_end. split; [reflexivity|split; [|exact Logic.I]].
  intros y Y. rewrite K by lia. apply upds_out. cbn. lia.
Qed.
Lemma ma_eats hsn rfl f lim base : items_ok (gprs_ma hsn rfl f) -> zlen rfl <= 4 -> match f with inl idx => zlen idx <= 16 | inr b => 1 <= zlen b <= 64 end ->
  0 <= base -> base + 24 <= lim -> eats lim base GPRS_Mobile_Allocation_t (gprs_ma hsn rfl f) base (base + 24) (fun _ => True).
Proof.
  intros K N1 N2 B L l p m. unfold gprs_ma in *. oks. rewrite <- !app_assoc. cbn [app]. unfold GPRS_Mobile_Allocation_t.
  eapply uint_k; [reflexivity|lia|num|lia|]. intros p1 m1 K1 _. unfold repeated at 1. rewrite <- !app_assoc. cbn [app].
  apply step_recarr_k; [reflexivity|lia|lia|lia|apply fits_ok; lia|apply (rep_ok 4); assumption|]. intros p2 m2 K2.
  destruct f as [idx|b]; oks; cbn [app].
  - apply step_union2; [auto|apply fits_ok; lia|]. apply step_sel; [reflexivity|]. eapply sel_k with (sz := 17); [apply index_eats; [assumption|lia|lia|lia]|].
    intros p3 m3 K3. apply runs_end. split; [reflexivity|split; [|exact Logic.I]]. intros y Y. rewrite K3 by lia. rewrite upds_out by lia. rewrite K2 by lia. apply K1. lia.
  - apply step_union2; [auto|apply fits_ok; lia|]. eapply (sel_k _ _ _ _ _ [U 6 (zlen b - 1); Any b] 10); [apply bitmap_eats; lia|].
    intros p3 m3 K3. apply step_skip; [reflexivity|]. apply runs_end. split; [reflexivity|split; [|exact Logic.I]].
    intros y Y. rewrite K3 by lia. rewrite upds_out by lia. rewrite K2 by lia. apply K1. lia.
Qed.
Lemma freq_eats x lim base : items_ok (freq_items x) -> freq_ok x -> 0 <= base -> base + 28 <= lim ->
  eats lim base Frequency_Parameters_t (freq_items x) base (base + 28) (fun _ => True).
Proof.
  intros K N B L l p m. destruct x as [tsc f]. unfold freq_items, freq_ok in *. cbn [fst snd] in *. oks. cbn [app]. unfold Frequency_Parameters_t.
  eapply uint_k; [reflexivity|lia|num|lia|]. intros p1 m1 K1 _. destruct f as [a|maio ma marks|maio hsn rfl f|maio hsn fl]; oks; cbn [app].
  - apply step_union4; [lia|apply fits_ok; lia|]. eapply step_sel_uint; [reflexivity|lia|num|apply fits_ok; cbn; lia|].
    do 3 (apply step_skip; [reflexivity|]). apply runs_end. split; [reflexivity|split; [|exact Logic.I]]. change (width 10) with 2%nat.
    intros y Y. rewrite upds_out by lia. rewrite upds_out by lia. apply K1. lia.
  - apply step_union4; [lia|apply fits_ok; lia|]. change (Z.to_nat 1) with 1%nat. apply step_sel; [reflexivity|]. cbn [rest].
    eapply (sel_k _ _ _ _ _ (U 6 maio :: U 4 ma :: opt (fun c => U 2 (fst c) :: opt (fun d => [U 2 d]) (snd c)) marks) 6).
    + intros l2 p2 m2. cbn [app]. unfold Indirect_encoding_t. eapply uint_k; [reflexivity|lia|num|lia|]. intros p3 m3 K3 _. eapply uint_k; [reflexivity|lia|num|lia|]. intros p4 m4 K4 _.
      eapply opt_type_k with (sz := 3) (T := fun _ _ => True); [|lia|lia|lia|lia|].
      * intros [c d] ->. cbn [opt fst snd] in *. oks. intros l3 p5 m5. cbn [app]. unfold CHANGE_MARK_t. eapply uint_k; [reflexivity|lia|num|lia|]. intros p6 m6 K6 _.
        eapply opt_uint_k; [reflexivity|lia|intros w ->; cbn [opt] in *; oks; num|reflexivity|lia|lia|lia|]. intros p7 m7 K7 _ _.
        apply runs_end. split; [reflexivity|split; [|exact Logic.I]]. intros y Y. rewrite K7 by lia. apply K6. lia.
      * intros p5 m5 K5 _ _. apply runs_end. split; [reflexivity|split; [|exact Logic.I]]. intros y Y. rewrite K5 by lia. rewrite K4 by lia. apply K3. lia.
    + intros p2 m2 K2. do 2 (apply step_skip; [reflexivity|]). apply runs_end. split; [reflexivity|split; [|exact Logic.I]].
      intros y Y. rewrite K2 by lia. rewrite upds_out by lia. apply K1. lia.
  - destruct N as [N1 N2]. apply step_union4; [lia|apply fits_ok; lia|]. change (Z.to_nat 2) with 2%nat. do 2 (apply step_sel; [reflexivity|]). cbn [rest].
    eapply (sel_k _ _ _ _ _ (U 6 maio :: gprs_ma hsn rfl f) 25).
    + intros l2 p2 m2. cbn [app]. unfold Direct_encoding_1_t. eapply uint_k; [reflexivity|lia|num|lia|]. intros p3 m3 K3 _.
      eapply type_k with (sz := 24); [apply ma_eats; [assumption|assumption|assumption|lia|lia]|]. intros p4 m4 K4 _.
      apply runs_end. split; [reflexivity|split; [|exact Logic.I]]. intros y Y. rewrite K4 by lia. apply K3. lia.
    + intros p2 m2 K2. apply step_skip; [reflexivity|]. apply runs_end. split; [reflexivity|split; [|exact Logic.I]].
      intros y Y. rewrite K2 by lia. rewrite upds_out by lia. apply K1. lia.
  - apply step_union4; [lia|apply fits_ok; lia|]. change (Z.to_nat 3) with 3%nat. do 3 (apply step_sel; [reflexivity|]). cbn [rest].
    eapply (sel_k _ _ _ _ _ (U 6 maio :: U 6 hsn :: U 4 (zlen fl - 3) :: map (U 8) fl) 21).
    + intros l2 p2 m2. cbn [app]. unfold Direct_encoding_2_t. eapply uint_k; [reflexivity|lia|num|lia|]. intros p3 m3 K3 _. eapply uint_k; [reflexivity|lia|num|lia|]. intros p4 m4 K4 _.
      eapply step_uintoff; [reflexivity|lia|num|apply fits_ok; cbn; lia|]. change (width 4) with 1%nat. replace (zlen fl - 3 + 3) with (zlen fl) by lia.
      apply step_vararr; [apply upds_at; lia| |lia|lia|].
      * match goal with H : Forall item_ok (map (U 8) fl) |- _ => rewrite Forall_map in H; eapply Forall_impl; [|exact H]; cbn; intros; lia end.
      * intros p5 m5 K5. apply runs_end. split; [reflexivity|split; [|exact Logic.I]]. intros y Y. rewrite K5 by lia. rewrite upds_out by (cbn; lia). rewrite K4 by lia. apply K3. lia.
    + intros p2 m2 K2. apply runs_end. split; [reflexivity|split; [|exact Logic.I]].
      intros y Y. rewrite K2 by lia. rewrite upds_out by lia. apply K1. lia.
Qed.

(** *** Starting frame number *)
Definition frame_at (m : mem) (a : Z) (f : Z * Z * Z + Z) : Prop :=
  match f with inl t => m a = 0 /\ time_at m (a + 2) t | inr k => m a = 1 /\ rdle m (a + 2) 2 = k end.
Lemma frame_keep lo hi m m1 a f : keep lo hi m m1 -> a + 6 <= lo \/ hi <= a -> frame_at m a f -> frame_at m1 a f.
Proof.
  intros K H F. destruct f as [[[t1 t3] t2]|k]; unfold frame_at, time_at in *.
  - destruct F as (F0 & F1 & F2 & F3). rewrite !(K _) by lia. auto.
  - destruct F as (F0 & F1). rewrite (K _) by lia. split; [auto|]. rewrite (rdle_keep 2 lo hi m m1) by (auto; lia). exact F1.
Qed.
Lemma start_eats f lim base : items_ok (starting_frame f) -> 0 <= base -> base + 6 <= lim ->
  eats lim base Starting_Frame_Number_t (starting_frame f) base (base + 6) (fun m => frame_at m base f).
Proof.
  intros K B L l p m. unfold starting_frame in *. unfold Starting_Frame_Number_t. destruct f as [[[t1 t3] t2]|k]; unfold starting_time in *; oks; cbn [app].
  - apply step_union2; [auto|apply fits_ok; lia|]. eapply step_sel_type with (R := fun l1 m1 => l1 = l /\ keep (base + 2) (base + 5) (upds m (base + 0) 1 0) m1 /\ time_at m1 (base + 2) (t1, t3, t2)); [left; reflexivity| |].
    + unfold StartingTime_t. eapply uint_k; [reflexivity|lia|num|lia|]. intros p1 m1 K1 E1. eapply uint_k; [reflexivity|lia|num|lia|]. intros p2 m2 K2 E2. eapply uint_k; [reflexivity|lia|num|lia|]. intros p3 m3 K3 E3.
      apply runs_end. split; [reflexivity|]. split; [intros y Y; rewrite K3 by lia; rewrite K2 by lia; apply K1; lia|]. unfold time_at.
      replace (base + 2 + 0) with (base + 2) in E1 by lia. rewrite K3 by lia. rewrite K2 by lia. rewrite (K3 (base + 2 + 1)) by lia. auto.
    + intros p1 l1 m1 (-> & K1 & T). apply step_skip; [reflexivity|]. apply runs_end. split; [reflexivity|]. split; [intros y Y; rewrite K1 by lia; apply upds_out; lia|].
      split; [|exact T]. rewrite K1 by lia. rewrite Z.add_0_r. apply upds_at. lia.
  - apply step_union2; [auto|apply fits_ok; lia|]. apply step_sel; [reflexivity|]. cbn [rest]. eapply step_sel_uint; [reflexivity|lia|num|apply fits_ok; cbn; lia|]. change (width 13) with 2%nat.
    apply runs_end. split; [reflexivity|]. split; [intros y Y; rewrite upds_out by lia; apply upds_out; lia|].
    split; [rewrite upds_out by lia; rewrite Z.add_0_r; apply upds_at; lia|]. apply rdle_upds. match goal with H : item_ok (U 13 k) |- _ => cbn in H end. cbn. lia.
Qed.

(** *** Whom an assignment is for *)
Definition id_at (m : mem) (a : Z) (w : (Z + Z) + Z) : Prop :=
  match w with
  | inl (inl u) => m a = 0 /\ m (a + 4) = 0 /\ m (a + 5) = u
  | inl (inr d) => m a = 0 /\ m (a + 4) = 1 /\ m (a + 5) = d
  | inr t => m a = 1 /\ rdle m (a + 4) 4 = t
  end.
Lemma id_keep lo hi m m1 a w : keep lo hi m m1 -> a + 8 <= lo \/ hi <= a -> id_at m a w -> id_at m1 a w.
Proof.
  intros K H F. destruct w as [[u|d]|t]; unfold id_at in *.
  - rewrite !(K _) by lia. exact F.
  - rewrite !(K _) by lia. exact F.
  - rewrite (K _) by lia. rewrite (rdle_keep 4 lo hi m m1) by (auto; lia). exact F.
Qed.
Lemma gtfi_eats t lim base : items_ok (global_tfi t) -> 0 <= base -> base + 2 <= lim ->
  eats lim base Global_TFI_t (global_tfi t) base (base + 2) (fun m => m base = match t with inl _ => 0 | inr _ => 1 end /\ m (base + 1) = match t with inl u => u | inr d => d end).
Proof.
  intros K B L l p m. unfold Global_TFI_t. destruct t as [u|d]; unfold global_tfi in *; oks; cbn [app].
  - apply step_union2; [auto|apply fits_ok; lia|]. eapply step_sel_uint; [reflexivity|lia|num|apply fits_ok; cbn; lia|]. apply step_skip; [reflexivity|]. apply runs_end. change (width 5) with 1%nat.
    split; [reflexivity|]. split; [intros y Y; rewrite upds_out by lia; apply upds_out; lia|]. split; [rewrite upds_out by lia; rewrite Z.add_0_r; apply upds_at; lia|].
    apply upds_at. match goal with H : item_ok (U 5 _) |- _ => cbn in H end. lia.
  - apply step_union2; [auto|apply fits_ok; lia|]. apply step_sel; [reflexivity|]. eapply step_sel_uint; [reflexivity|lia|num|apply fits_ok; cbn; lia|]. apply runs_end. change (width 5) with 1%nat.
    split; [reflexivity|]. split; [intros y Y; rewrite upds_out by lia; apply upds_out; lia|]. split; [rewrite upds_out by lia; rewrite Z.add_0_r; apply upds_at; lia|].
    apply upds_at. match goal with H : item_ok (U 5 _) |- _ => cbn in H end. lia.
Qed.
Lemma choice_eats alts w lim base : items_ok (addressee w) -> 0 <= base -> base + 8 <= lim ->
  eats lim base (DChoice 0 1 (DAlt 1 0 false (DType 4 2 false Global_TFI_t DEnd) (DAlt 2 2 false (DUint 32 4 4 false DEnd) alts)) DEnd) (addressee w) base (base + 8) (fun m => id_at m base w).
Proof.
  intros K B L l p m. destruct w as [t|t]; unfold addressee in *; oks; cbn [app].
  - eapply step_choice0; [apply fits_ok; lia| |].
    + eapply type_k with (sz := 2); [apply gtfi_eats; [assumption|lia|lia]|]. intros p1 m1 K1 [E0 E1]. apply runs_end.
      instantiate (1 := fun l1 m1 => l1 = l /\ keep base (base + 8) m m1 /\ id_at m1 base (inl t)).
      split; [reflexivity|]. split; [intros y Y; rewrite K1 by lia; apply upds_out; lia|].
      assert (E : m1 base = 0) by (rewrite K1 by lia; rewrite Z.add_0_r; apply upds_at; lia).
      replace (base + 4 + 1) with (base + 5) in E1 by lia. destruct t; cbn [id_at]; auto.
    + intros p1 l1 m1 X. apply runs_end. exact X.
  - eapply step_choice1; [apply fits_ok; lia| |].
    + eapply wide_k; [reflexivity|lia|num|lia|cbn; lia|cbn; lia|]. change (width 32) with 4%nat. intros p1 m1 K1 E. apply runs_end.
      instantiate (1 := fun l1 m1 => l1 = l /\ keep base (base + 8) m m1 /\ id_at m1 base (inr t)).
      split; [reflexivity|]. split; [intros y Y; rewrite K1 by lia; apply upds_out; lia|]. split; [|exact E]. rewrite K1 by lia. rewrite Z.add_0_r. apply upds_at. lia.
    + intros p1 l1 m1 X. apply runs_end. exact X.
Qed.

(** *** Timeslots *)
(** At [a] and every [n] octets: presence bit and USF. *)
Definition slots_at (m : mem) (a n : Z) (l : list (option Z)) : Prop :=
  forall i o, nth_error l i = Some o -> m (a + n * Z.of_nat i) = there o /\ (forall u, o = Some u -> m (a + n * Z.of_nat i + 1) = u).
Lemma slots_keep lo hi m m1 a n l : keep lo hi m m1 -> 2 <= n -> hi <= a \/ a + n * zlen l <= lo -> slots_at m a n l -> slots_at m1 a n l.
Proof.
  intros K N H F i o E. destruct (F i o E) as [F1 F2]. assert (I : (i < length l)%nat) by (apply nth_error_Some; rewrite E; discriminate).
  assert (n * (Z.of_nat i + 1) <= n * zlen l) by (unfold zlen; apply Z.mul_le_mono_nonneg_l; lia). assert (0 <= n * Z.of_nat i) by lia.
  split; [rewrite K by lia; exact F1|]. intros u Hu. rewrite K by lia. auto.
Qed.
Definition ts_elem (lim base off : Z) (i : Z) (s : cst) : dres :=
  call (dec false bits nbits past (inner false lim base off 16) (base + off + i * 2) Timeslot_Allocation_t run_mode) s.
Lemma ts_rep lim base off l : 0 <= base + off -> forall ls i k p m, items_ok (flat_map (opt (fun u => [U 3 u])) ls) -> 0 <= i -> base + off + 2 * i + 2 * zlen ls <= lim ->
  here p (flat_map (opt (fun u => [U 3 u])) ls ++ l) ->
  exists k1 p1 m1, rep (length ls) i (ts_elem lim base off) (st k p (flat_map (opt (fun u => [U 3 u])) ls ++ l) m) = DOk (st k1 p1 l m1) /\ here p1 l /\
    keep (base + off + 2 * i) (base + off + 2 * i + 2 * zlen ls) m m1 /\ slots_at m1 (base + off + 2 * i) 2 ls.
Proof.
  intros B. induction ls as [|o ls IH]; intros i k p m K I0 L HH; cbn [length rep flat_map].
  - exists k, p, m. split; [reflexivity|]. split; [exact HH|]. split; [apply keep_refl|]. intros [|j] o E; discriminate E.
  - cbn [flat_map] in *. oks. rewrite <- app_assoc in *. assert (Zl : zlen (o :: ls) = 1 + zlen ls) by (unfold zlen; cbn [length]; lia). assert (Z0 : 0 <= zlen ls) by (unfold zlen; lia). rewrite Zl in *.
    set (t := flat_map (opt (fun u => [U 3 u])) ls ++ l) in *.
    assert (One : runs lim (base + off + i * 2) Timeslot_Allocation_t run_mode p (opt (fun u => [U 3 u]) o ++ t) m
      (leaves (fun l1 m1 => l1 = t /\ keep (base + off + 2 * i) (base + off + 2 * i + 2) m m1 /\ m1 (base + off + 2 * i) = there o /\ (forall u, o = Some u -> m1 (base + off + 2 * i + 1) = u)))).
    { unfold Timeslot_Allocation_t. eapply opt_uint_k; [reflexivity|lia|intros w ->; cbn [opt] in *; oks; num|reflexivity|lia|lia|lia|]. intros p1 m1 K1 E1 E2. apply runs_end.
      split; [reflexivity|]. split; [intros y Y; apply K1; lia|]. replace (base + off + 2 * i) with (base + off + i * 2 + 0) by lia. split; [exact E1|].
      intros u Hu. replace (base + off + i * 2 + 0 + 1) with (base + off + i * 2 + 1) by lia. auto. }
    unfold ts_elem at 1, call, inner. cbn [st s_rem]. assert (S0 := size_nonneg (opt (fun u => [U 3 u]) o ++ t)). replace (size _ <? 0) with false by lia.
    destruct (One HH k) as (s & E & p1 & l1 & m1 & ((k1 & ->) & HA) & (-> & K1 & E1 & E2)). rewrite E. cbn [bindd].
    destruct (IH (i + 1) k1 p1 m1 ltac:(assumption) ltac:(lia) ltac:(lia) HA) as (k2 & p2 & m2 & E3 & HB & K2 & F2).
    exists k2, p2, m2. split; [exact E3|]. split; [exact HB|]. split; [intros y Y; rewrite K2 by lia; apply K1; lia|].
    intros [|j] o' Ej; cbn [nth_error] in Ej.
    + injection Ej as <-. replace (base + off + 2 * i + 2 * Z.of_nat 0) with (base + off + 2 * i) by lia. split; [rewrite K2 by lia; exact E1|]. intros u Hu. rewrite K2 by lia. auto.
    + destruct (F2 j o' Ej) as [A1 A2]. replace (base + off + 2 * i + 2 * Z.of_nat (S j)) with (base + off + 2 * (i + 1) + 2 * Z.of_nat j) by lia. auto.
Qed.
(** A chain of optional pairs. *)
Fixpoint usfs (n : nat) (off : Z) : descr :=
  match n with O => DEnd | S n => DNext false 2 off 1 false (DUint 3 (off + 1) 1 false (DUint 5 (off + 2) 1 false (usfs n (off + 3)))) end.
Notation pair_items := (opt (fun u : Z * Z => [U 3 (fst u); U 5 (snd u)])).
Lemma usfs_eats : forall gs off lim base, items_ok (flat_map pair_items gs) -> 0 <= base + off -> base + off + 3 * zlen gs <= lim ->
  eats lim base (usfs (length gs) off) (flat_map pair_items gs) (base + off) (base + off + 3 * zlen gs)
    (fun m => slots_at m (base + off) 3 (map (option_map fst) gs)).
Proof.
  induction gs as [|g gs IH]; intros off lim base K B L l p m; cbn [length usfs flat_map map].
  - cbn [app]. apply runs_end. split; [reflexivity|split; [apply keep_refl|]]. intros [|j] o E; discriminate E.
  - assert (Zl : zlen (g :: gs) = 1 + zlen gs) by (unfold zlen; cbn [length]; lia). assert (0 <= zlen gs) by (unfold zlen; lia). rewrite Zl in *.
    cbn [flat_map] in *. oks. rewrite <- app_assoc.
    assert (C : forall p1 m1, keep (base + off) (base + off + 3) m m1 -> m1 (base + off) = there g -> (forall u, g = Some u -> m1 (base + off + 1) = fst u) ->
      runs lim base (usfs (length gs) (off + 3)) run_mode p1 (flat_map pair_items gs ++ l) m1
        (leaves (fun l1 m1 => l1 = l /\ keep (base + off) (base + off + 3 * (1 + zlen gs)) m m1 /\ slots_at m1 (base + off) 3 (option_map fst g :: map (option_map fst) gs)))).
    { intros p1 m1 K1 E1 E2. eapply step_imp; [|apply IH; [assumption|lia|lia]]. intros l2 m2 (-> & K2 & F2). split; [reflexivity|]. split; [intros y Y; rewrite K2 by lia; apply K1; lia|].
      intros [|j] o' Ej; cbn [nth_error] in Ej.
      + injection Ej as <-. replace (base + off + 3 * Z.of_nat 0) with (base + off) by lia. split; [rewrite K2 by lia; destruct g; exact E1|].
        intros u Hu. rewrite K2 by lia. destruct g as [[]|]; cbn in Hu; [injection Hu as <-; apply (E2 _ eq_refl)|discriminate Hu].
      + destruct (F2 j o' Ej) as [A1 A2]. replace (base + off + 3 * Z.of_nat (S j)) with (base + (off + 3) + 3 * Z.of_nat j) by lia. auto. }
    apply step_opt; [apply fits_ok; lia|reflexivity| |].
    + intros [u v] ->. cbn [opt app fst snd] in *. oks. eapply uint_k; [reflexivity|lia|num|lia|]. intros p1 m1 K1 E1. eapply uint_k; [reflexivity|lia|num|lia|]. intros p2 m2 K2 _. apply C.
      * intros y Y. rewrite K2 by lia. rewrite K1 by lia. apply upds_out. lia.
      * rewrite K2 by lia. rewrite K1 by lia. apply upds_at. cbn. lia.
      * intros w Hw. injection Hw as <-. rewrite K2 by lia. replace (base + off + 1) with (base + (off + 1)) by lia. exact E1.
    + intros ->. do 2 (apply step_skip; [reflexivity|]). cbn [rest]. apply C; [apply keep_upds; lia|apply upds_at; cbn; lia|discriminate].
Qed.

(** *** Dynamic allocation *)
Definition dyn_items ext p0 gran tfi granted start slots : list item :=
  [U 1 ext] ++ opt (fun x : Z * Z => [U 4 (fst x); U 1 (snd x)]) p0 ++ [U 1 gran] ++ opt (fun t => [U 5 t]) tfi ++
  opt (fun n => [U 8 n]) granted ++ opt starting_frame start ++ slot_items slots.
Definition slots_mem (m : mem) (a : Z) (x : list (option Z) + Z * list (option (Z * Z))) : Prop :=
  match x with inl l => m a = 0 /\ slots_at m (a + 1) 2 l | inr (_, l) => m a = 1 /\ slots_at m (a + 2) 3 (map (option_map fst) l) end.
Lemma sel_ts lim base j r ls l p m Q : items_ok (flat_map (opt (fun u => [U 3 u])) ls) -> length ls = 8%nat -> 0 <= base -> base + 33 <= lim ->
  (forall p1 m1, keep (base + 17) (base + 33) m m1 -> slots_at m1 (base + 17) 2 ls -> runs lim base r (Skip j) p1 l m1 Q) ->
  runs lim base (DTArr (CFix 8) 17 16 2 Timeslot_Allocation_t r) (Sel 0 (S j)) p (flat_map (opt (fun u => [U 3 u])) ls ++ l) m Q.
Proof.
  intros K N B L R HH k. cbn [dec control]. assert (Z8 : zlen ls = 8) by (unfold zlen; lia). replace (S j - 1)%nat with j by lia.
  destruct (ts_rep lim base 17 l ltac:(lia) ls 0 k p m K ltac:(lia) ltac:(lia) HH) as (k1 & p1 & m1 & E & HA & K1 & F1).
  rewrite N in E. eapply (go bits nbits past lim base r (Skip j) _ k1 p1 l j m1); [exact HA|exact E| |reflexivity].
  apply R; [intros y Y; apply K1; lia|]. replace (base + 17) with (base + 17 + 2 * 0) by lia. exact F1.
Qed.
Lemma pwr_table : Timeslot_Allocation_Power_Ctrl_Param_t = DUint 4 0 1 false (usfs 8 1).
Proof. reflexivity. Qed.
Lemma pwr_eats alpha ls lim base : items_ok (U 4 alpha :: flat_map pair_items ls) -> length ls = 8%nat -> 0 <= base -> base + 25 <= lim ->
  eats lim base Timeslot_Allocation_Power_Ctrl_Param_t (U 4 alpha :: flat_map pair_items ls) base (base + 25) (fun m => slots_at m (base + 1) 3 (map (option_map fst) ls)).
Proof.
  intros K N B L l p m. rewrite pwr_table. oks. rewrite <- N. assert (Z8 : zlen ls = 8) by (unfold zlen; lia). cbn [app].
  eapply uint_k; [reflexivity|lia|num|lia|]. intros p1 m1 K1 _. eapply step_imp; [|apply usfs_eats; [assumption|lia|lia]].
  intros l2 m2 (-> & K2 & F2). split; [reflexivity|]. split; [intros y Y; rewrite K2 by lia; apply K1; lia|]. exact F2.
Qed.
Definition slots_table : descr :=
  DUnion false 2 16 1 (DTArr (CFix 8) 17 16 2 Timeslot_Allocation_t (DType 17 25 false Timeslot_Allocation_Power_Ctrl_Param_t DEnd)).
Lemma slot_eats slots lim base : items_ok (slot_items slots) -> length (usf_of slots) = 8%nat -> 0 <= base -> base + 42 <= lim ->
  eats lim base slots_table (slot_items slots) (base + 16) (base + 42) (fun m => slots_mem m (base + 16) slots).
Proof.
  intros K N B L l p m. unfold slots_table. destruct slots as [ls|[alpha ls]]; cbn [slot_items usf_of] in *; cbn [app].
  - oks. apply step_union2; [auto|apply fits_ok; lia|]. change (Z.to_nat 0) with 0%nat. apply sel_ts; [assumption|exact N|lia|lia|].
    intros p1 m1 K1 F1. apply step_skip; [reflexivity|]. cbn [rest]. apply runs_end. split; [reflexivity|].
    split; [intros y Y; rewrite K1 by lia; apply upds_out; lia|]. cbn [slots_mem]. split; [rewrite K1 by lia; apply upds_at; lia|].
    replace (base + 16 + 1) with (base + 17) by lia. exact F1.
  - apply Forall_cons_iff in K as [_ K]. rewrite map_length in N.
    apply step_union2; [auto|apply fits_ok; lia|]. change (Z.to_nat 1) with 1%nat. apply sel_tarr.
    eapply step_sel_type; [left; reflexivity|apply pwr_eats; [exact K|exact N|lia|lia]|].
    intros p1 l1 m1 (-> & K1 & F1). apply runs_end. split; [reflexivity|]. split; [intros y Y; rewrite K1 by lia; apply upds_out; lia|].
    cbn [slots_mem]. split; [rewrite K1 by lia; apply upds_at; lia|]. replace (base + 16 + 2) with (base + 17 + 1) by lia. exact F1.
Qed.
Lemma slots_mem_keep lo hi m m1 a x : keep lo hi m m1 -> length (usf_of x) = 8%nat -> a + 26 <= lo \/ hi <= a -> slots_mem m a x -> slots_mem m1 a x.
Proof.
  intros K N H F. destruct x as [ls|[al ls]]; cbn [slots_mem usf_of] in *; destruct F as [F0 F1].
  - split; [rewrite K by lia; exact F0|]. eapply slots_keep; [exact K|lia|unfold zlen; lia|exact F1].
  - split; [rewrite K by lia; exact F0|]. eapply slots_keep; [exact K|lia|unfold zlen; rewrite N; lia|exact F1].
Qed.
Definition dyn_at (m : mem) (base : Z) (tfi : option Z) start slots : Prop :=
  m (base + 5) = there tfi /\ (forall t, tfi = Some t -> m (base + 6) = t) /\ m (base + 9) = there start /\
  (forall f, start = Some f -> frame_at m (base + 10) f) /\ slots_mem m (base + 16) slots.
Lemma dyn_eats ext p0 gran tfi granted start slots lim base : items_ok (dyn_items ext p0 gran tfi granted start slots) -> length (usf_of slots) = 8%nat -> 0 <= base -> base + 42 <= lim ->
  eats lim base Dynamic_Allocation_t (dyn_items ext p0 gran tfi granted start slots) base (base + 42)
    (fun m => dyn_at m base tfi start slots).
Proof.
  intros K N B L l p m. unfold dyn_items in *. oks. rewrite <- !app_assoc. cbn [app]. unfold Dynamic_Allocation_t.
  eapply uint_k; [reflexivity|lia|num|lia|]. intros p1 m1 K1 _.
  assert (C : forall p2 m2, keep base (base + 42) m m2 ->
    runs lim base (Nat.iter 4 rest Dynamic_Allocation_t) run_mode p2 (U 1 gran :: opt (fun t => [U 5 t]) tfi ++ opt (fun n => [U 8 n]) granted ++ opt starting_frame start ++ slot_items slots ++ l) m2
      (leaves (fun l1 m1 => l1 = l /\ keep base (base + 42) m m1 /\ dyn_at m1 base tfi start slots))).
  { intros p2 m2 K2. cbn [Nat.iter nat_rect rest Dynamic_Allocation_t]. eapply uint_k; [reflexivity|lia|num|lia|]. intros p3 m3 K3 _.
    eapply opt_uint_k; [reflexivity|lia|intros w ->; cbn [opt] in *; oks; num|reflexivity|lia|lia|lia|]. intros p4 m4 K4 E4 E4'.
    eapply opt_uint_k; [reflexivity|lia|intros w ->; cbn [opt] in *; oks; num|reflexivity|lia|lia|lia|]. intros p5 m5 K5 _ _.
    eapply opt_type_k with (sz := 6) (T := fun f m => frame_at m (base + 10) f); [|lia|lia|lia|lia|].
    { intros f ->. cbn [opt] in *. oks. apply start_eats; [assumption|lia|lia]. }
    intros p6 m6 K6 E6 F6. eapply step_imp; [|apply slot_eats; [assumption|exact N|lia|lia]].
    intros l7 m7 (-> & K7 & F7). split; [reflexivity|]. split; [intros y Y; rewrite K7 by lia; rewrite K6 by lia; rewrite K5 by lia; rewrite K4 by lia; rewrite K3 by lia; apply K2; lia|].
    unfold dyn_at. split; [rewrite K7 by lia; rewrite K6 by lia; rewrite K5 by lia; exact E4|]. split; [intros t Ht; rewrite K7 by lia; rewrite K6 by lia; rewrite K5 by lia; auto|].
    split; [rewrite K7 by lia; exact E6|]. split; [intros f Hf; eapply frame_keep; [exact K7|lia|auto]|]. exact F7. }
  apply step_opt; [apply fits_ok; lia|reflexivity| |].
  - intros [u v] ->. cbn [opt app fst snd] in *. oks. eapply uint_k; [reflexivity|lia|num|lia|]. intros p2 m2 K2 E2. eapply uint_k; [reflexivity|lia|num|lia|]. intros p3 m3 K3 _. apply C.
    intros y Y. rewrite K3 by lia. rewrite K2 by lia. rewrite upds_out by lia. apply K1. lia.
  - intros _. do 2 (apply step_skip; [reflexivity|]). apply C. intros y Y. rewrite upds_out by lia. apply K1. lia.
Qed.
End Dec.
