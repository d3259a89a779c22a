(** More steps of the decoder on a message that consists of known fields, and what they leave unchanged. *)
From Coq Require Import ZArith List Bool Lia.
From Verif Require Import Lib.Base Csn1.Csn1Model Csn1.Csn1Tables Csn1.Csn1EncModel Csn1.Csn1DlModel Csn1.Csn1Layout Csn1.Csn1Step
  Rlcmac.CcchSpec Rlcmac.CcchDec Rlcmac.PdchSpec.
Import ListNotations.
Open Scope Z_scope.

(** Unchanged except from [lo] to [hi]. *)
Definition keep (lo hi : Z) (m m1 : mem) : Prop := forall x, x < lo \/ hi <= x -> m1 x = m x.
Lemma keep_refl lo hi m : keep lo hi m m.
Proof. intros x _. reflexivity. Qed.
Lemma keep_trans lo hi m1 m2 m3 : keep lo hi m1 m2 -> keep lo hi m2 m3 -> keep lo hi m1 m3.
Proof. intros A B x H. rewrite (B x H). auto. Qed.
Lemma keep_wide lo hi lo' hi' m m1 : keep lo' hi' m m1 -> lo <= lo' -> hi' <= hi -> keep lo hi m m1.
Proof. intros A L H x X. apply A. lia. Qed.
Lemma upds_out n : forall m a v x, x < a \/ a + Z.of_nat n <= x -> upds m a n v x = m x.
Proof.
  induction n as [|n IH]; intros m a v x H; [reflexivity|]. cbn [upds]. rewrite IH by lia. unfold upd1. destruct (Z.eqb_spec x a); [lia|reflexivity].
Qed.
Lemma keep_upds lo hi n m a v : lo <= a -> a + Z.of_nat n <= hi -> keep lo hi m (upds m a n v).
Proof. intros L H x X. apply upds_out. lia. Qed.
Lemma keep_upd lo hi n m m1 a v : keep lo hi m m1 -> lo <= a -> a + Z.of_nat n <= hi -> keep lo hi m (upds m1 a n v).
Proof. intros K L H. eapply keep_trans; [exact K|apply keep_upds; assumption]. Qed.
Lemma upds_at m a v : 0 <= v < 256 -> upds m a 1 v a = v.
Proof. intros V. cbn [upds]. unfold upd1. rewrite Z.eqb_refl. apply Z.mod_small. exact V. Qed.
Lemma rdle_upds n : forall m a v, 0 <= v < 256 ^ Z.of_nat n -> rdle (upds m a n v) a n = v.
Proof.
  induction n as [|n IH]; intros m a v V; [cbn in *; lia|]. cbn [rdle upds]. rewrite upds_out by lia. unfold upd1. rewrite Z.eqb_refl.
  rewrite Nat2Z.inj_succ, Z.pow_succ_r in V by lia. rewrite IH by (split; [apply Z.div_pos; lia|apply Z.div_lt_upper_bound; lia]).
  rewrite Z.add_comm. symmetry. apply Z.div_mod. lia.
Qed.
Lemma rdle_keep n : forall lo hi m m1 a, keep lo hi m m1 -> a + Z.of_nat n <= lo \/ hi <= a -> rdle m1 a n = rdle m a n.
Proof.
  induction n as [|n IH]; intros lo hi m m1 a K H; [reflexivity|]. cbn [rdle]. rewrite (K a) by lia. rewrite (IH lo hi m m1) by (auto; lia). reflexivity.
Qed.

Section Steps.
Variable bits : Z -> bool.
Variable nbits : Z.
Variable past : Z -> Z -> Z * Z.
Notation here := (here bits nbits).
Notation runs := (runs bits nbits past).
Notation leaves := (leaves bits nbits).

(** The chosen alternative of a union is a number. *)
Lemma step_sel_uint lim base j b off room null n v l r p m Q :
  b = Z.of_nat n -> b <= 32 -> 0 <= v < 2 ^ b -> fits lim base off (width b) = true ->
  runs lim base r (Skip j) (p + b) l (upds m (base + off) (width b) v) Q ->
  runs lim base (DUint b off room null r) (Sel 0 (S j)) p (U n v :: l) m Q.
Proof.
  intros -> B V Fi R H k. cbn [dec control]. replace (S j - 1)%nat with j by lia.
  eapply go; [|apply uint_U; auto|exact R|reflexivity]. apply (here_U bits nbits past _ _ _ _ H).
Qed.
(** Two bits as two single bits. *)
Lemma here_split p a b l : 0 <= b < 2 -> here p (U 2 (2 * a + b) :: l) -> here p (U 1 a :: U 1 b :: l).
Proof.
  intros B (P & S & M & A). split; [exact P|]. split; [cbn [size width_of] in *; lia|]. split; [exact M|]. cbn [lay] in *.
  replace (p + Z.of_nat 1 + Z.of_nat 1) with (p + Z.of_nat 2) by lia. rewrite app_assoc. replace (number a 1 ++ number b 1) with (number (2 * a + b) 2); [exact A|].
  assert (b = 0 \/ b = 1) as [->| ->] by lia; unfold number; cbn [seq map app];
    change (Z.of_nat (2 - 1 - 0)) with 1; change (Z.of_nat (2 - 1 - 1)) with 0; change (Z.of_nat (1 - 1 - 0)) with 0.
  - rewrite Z.add_0_r, Z.testbit_even_0. rewrite (Z.testbit_even_succ a 0 ltac:(lia) : Z.testbit (2 * a) 1 = _). reflexivity.
  - rewrite Z.testbit_odd_0. rewrite (Z.testbit_odd_succ a 0 ltac:(lia) : Z.testbit (2 * a + 1) 1 = _). reflexivity.
Qed.
Lemma step_union4 lim base off room v l r p m Q : 0 <= v < 4 -> fits lim base off 1 = true ->
  runs lim base r (Sel (Z.to_nat v) 4) (p + 2) l (upds m (base + off) 1 v) Q ->
  runs lim base (DUnion false 4 off room r) run_mode p (U 2 v :: l) m Q.
Proof.
  intros V Fi R H k. set (a := v / 2). set (b := v mod 2). assert (E : v = 2 * a + b /\ 0 <= a < 2 /\ 0 <= b < 2) by (unfold a, b; lia). destruct E as (E & A & B).
  assert (H0 := H). rewrite E in H0. apply here_split in H0; [|exact B].
  assert (A' : 0 <= a < 2 ^ Z.of_nat 1) by (change (2 ^ Z.of_nat 1) with 2; lia). assert (B' : 0 <= b < 2 ^ Z.of_nat 1) by (change (2 ^ Z.of_nat 1) with 2; lia).
  pose proof (read_U bits nbits past _ _ _ _ H0 A') as E1. destruct (here_U bits nbits past _ _ _ _ H0) as [H1 _].
  pose proof (read_U bits nbits past _ _ _ _ H1 B') as E2. change (Z.of_nat 1) with 1 in *.
  cbn [dec control run_mode]. change ((4 <=? 0)%nat || (16 <? 4)%nat) with false. cbv iota.
  change (Z.to_nat (nth 4 ix_bits 0)) with 2%nat. cbn [union_index st s_ri s_off]. rewrite E1. cbv beta iota zeta. unfold adv, st. cbn [s_ri s_off s_rem s_mem].
  rewrite E2. cbv beta iota zeta. replace (2 * (2 * 0 + a mod 2) + b mod 2) with v by (rewrite !Z.mod_small by lia; lia).
  rewrite (store_fits bits past) by exact Fi. cbn [bindd].
  replace (set_mem _ _) with (st k (p + 2) l (upds m (base + off) 1 v)).
  2: { unfold set_mem, st. cbn [s_rem s_off s_ri s_mem size width_of]. f_equal; lia. }
  replace (Nat.min (Z.to_nat v) (4 - 1)) with (Z.to_nat v) by lia. apply R. change 2 with (Z.of_nat 2). apply (here_U bits nbits past _ _ _ _ H).
Qed.

(** One element of an array of numbers. *)
Lemma octet_U lim base off room n v i l rem o p m : here p (U n v :: l) -> 0 <= v < 2 ^ Z.of_nat n -> 0 <= i -> 0 <= base + off -> base + off + i + 1 <= lim ->
  octet false bits nbits past lim base off room (Z.of_nat n) i (mkcst rem o p m) = DOk (mkcst rem o (p + Z.of_nat n) (upds m (base + off + i) 1 v)).
Proof. intros H V I A B. unfold octet. cbn [s_ri s_rem s_off set_pos]. rewrite (read_U bits nbits past _ _ _ _ H V). rewrite (store_at bits past) by lia. reflexivity. Qed.
Definition element (lim base off room n d i : Z) (s : cst) : dres :=
  bindd (octet false bits nbits past lim base off room n i s) (fun s => DOk (set_pos s (s_rem s) (s_off s + d) (s_ri s))).
(** An array of numbers, with the increment [d] of the bit offset per element. *)
Lemma array_U lim base off room n d l rem : forall vs i o p m,
  here p (map (U n) vs ++ l) -> Forall (fun v => 0 <= v < 2 ^ Z.of_nat n /\ v < 256) vs -> 0 <= i -> 0 <= base + off -> base + off + i + zlen vs <= lim ->
  exists m1, rep (length vs) i (element lim base off room (Z.of_nat n) d) (mkcst rem o p m) =
    DOk (mkcst rem (o + d * zlen vs) (p + Z.of_nat n * zlen vs) m1) /\ here (p + Z.of_nat n * zlen vs) l /\
    keep (base + off + i) (base + off + i + zlen vs) m m1 /\
    (forall j, (j < length vs)%nat -> m1 (base + off + i + Z.of_nat j) = nth j vs 0).
Proof.
  induction vs as [|v vs IH]; intros i o p m H V I A B.
  - exists m. cbn [length rep map app] in *. change (zlen (@nil Z)) with 0. rewrite !Z.mul_0_r, !Z.add_0_r. split; [reflexivity|].
    split; [exact H|]. split; [apply keep_refl|]. intros j J. cbn in J. lia.
  - cbn [map app length rep] in *. apply Forall_cons_iff in V as [[V V2] VS]. assert (Zl : zlen (v :: vs) = 1 + zlen vs) by (unfold zlen; cbn [length]; lia).
    assert (Z0 : 0 <= zlen vs) by (unfold zlen; lia). rewrite Zl in *.
    unfold element at 1. rewrite (octet_U _ _ _ _ _ _ _ _ _ _ _ _ H V) by lia. cbn [bindd]. unfold set_pos at 1. cbn [s_rem s_off s_ri s_mem].
    destruct (here_U bits nbits past _ _ _ _ H) as [H1 _].
    destruct (IH (i + 1) (o + d) (p + Z.of_nat n) (upds m (base + off + i) 1 v) H1 VS ltac:(lia) A ltac:(lia)) as (m1 & E & H2 & K & N).
    exists m1. rewrite E. split; [f_equal; f_equal; lia|]. split; [replace (p + Z.of_nat n * (1 + zlen vs)) with (p + Z.of_nat n + Z.of_nat n * zlen vs) by lia; exact H2|]. split.
    + intros x X. rewrite (K x) by lia. apply upds_out. lia.
    + intros [|j] J.
      * rewrite K by lia. replace (base + off + i + Z.of_nat 0) with (base + off + i) by lia. cbn [nth]. apply upds_at. lia.
      * cbn [nth]. rewrite <- N by lia. f_equal. lia.
Qed.
Lemma rep_ext (f g : Z -> cst -> dres) : (forall i s, f i s = g i s) -> forall n i s, rep n i f s = rep n i g s.
Proof. intros H. induction n as [|n IH]; intros i s; cbn [rep]; [reflexivity|]. rewrite H. destruct (g i s); cbn [bindd]; auto. Qed.
Lemma size_map n vs l : size (map (U n) vs ++ l) = Z.of_nat n * zlen vs + size l.
Proof. induction vs as [|v vs IH]; cbn [map app size width_of]; [unfold zlen; cbn; lia|]. rewrite IH. unfold zlen. cbn [length]. lia. Qed.

(** M_BITMAP of 64 bits. *)
Lemma step_bitmap lim base off room vs l r p m Q : length vs = 8%nat -> Forall (fun v => 0 <= v < 256) vs ->
  0 <= base + off -> base + off + 8 <= lim ->
  (forall p1 m1, keep (base + off) (base + off + 8) m m1 -> (forall j, (j < 8)%nat -> m1 (base + off + Z.of_nat j) = nth j vs 0) ->
     runs lim base r run_mode p1 l m1 Q) ->
  runs lim base (DBitmap 64 off room r) run_mode p (map (U 8) vs ++ l) m Q.
Proof.
  intros L V A B R H k. cbn [dec control run_mode]. unfold dec_bitmap. change (0 <? 64) with true. change (64 <? 64) with false. change (64 <=? 32) with false. cbv iota.
  assert (S := size_nonneg l). cbn [st s_rem]. rewrite size_map. unfold zlen. rewrite L. replace (Z.of_nat 8 * Z.of_nat 8 + size l <? 64) with false by lia.
  assert (V' : Forall (fun v => 0 <= v < 2 ^ Z.of_nat 8 /\ v < 256) vs) by (eapply Forall_impl; [|exact V]; cbn; intros; lia).
  destruct (array_U lim base off room 8 0 l (size (map (U 8) vs ++ l)) vs 0 (p + 8 * k) p m H V' ltac:(lia) A ltac:(unfold zlen; rewrite L; lia)) as (m1 & E & H1 & K & N).
  rewrite L in E. rewrite (rep_ext _ (octet false bits nbits past lim base off room 8)) in E.
  2: { intros i s. unfold element. change (Z.of_nat 8) with 8. destruct (octet _ _ _ _ _ _ _ _ _ _ _) as [s'| |]; cbn [bindd]; try reflexivity. f_equal. destruct s'. unfold set_pos. cbn. f_equal. lia. }
  change (st k p (map (U 8) vs ++ l) m) with (mkcst (size (map (U 8) vs ++ l)) (p + 8 * k) p m). rewrite E. cbn [bindd adv s_rem s_off s_ri s_mem].
  assert (Zv : zlen vs = 8) by (unfold zlen; lia). rewrite Zv in *. change (Z.of_nat 8 * 8) with 64 in *.
  eapply (go bits nbits past lim base r (Skip 0) _ k (p + 64) l 0%nat m1).
  - exact H1.
  - f_equal. unfold st, adv. cbn [s_rem s_off s_ri s_mem]. rewrite size_map, Zv. f_equal; lia.
  - apply R; [intros x X; apply K; lia|]. intros j J. rewrite <- N by lia. f_equal. lia.
  - reflexivity.
Qed.
(** M_UINT_ARRAY, elements of at most 8 bits. *)
Lemma step_uintarr lim base b c off room n vs l r p m Q : b = Z.of_nat n -> (n <= 8)%nat -> c = zlen vs -> Forall (fun v => 0 <= v < 2 ^ Z.of_nat n) vs ->
  0 <= base + off -> base + off + c <= lim ->
  (forall p1 m1, keep (base + off) (base + off + c) m m1 -> runs lim base r run_mode p1 l m1 Q) ->
  runs lim base (DUintArr b c off room r) run_mode p (map (U n) vs ++ l) m Q.
Proof.
  intros -> N8 -> V A B R H k. cbn [dec control run_mode]. unfold dec_uintarr. assert (S := size_nonneg l). cbn [st s_rem s_off s_ri]. rewrite size_map.
  replace (Z.of_nat n * zlen vs <=? Z.of_nat n * zlen vs + size l) with true by lia. replace (Z.of_nat n <=? 8) with true by lia.
  assert (V' : Forall (fun v => 0 <= v < 2 ^ Z.of_nat n /\ v < 256) vs).
  { eapply Forall_impl; [|exact V]. cbn. intros a Ha. split; [exact Ha|]. assert (2 ^ Z.of_nat n <= 2 ^ 8) by (apply Z.pow_le_mono_r; lia). change (2 ^ 8) with 256 in *. lia. }
  destruct (array_U lim base off room n (Z.of_nat n) l (size l) vs 0 (p + 8 * k) p m H V' ltac:(lia) A ltac:(lia)) as (m1 & E & H1 & K & _).
  unfold set_pos at 1. cbn [st s_mem]. replace (Z.to_nat (zlen vs)) with (length vs) by (unfold zlen; lia).
  replace (Z.of_nat n * zlen vs + size l - Z.of_nat n * zlen vs) with (size l) by lia.
  eapply (go bits nbits past lim base r (Skip 0) _ k (p + Z.of_nat n * zlen vs) l 0%nat m1); [exact H1| |apply R; intros x X; apply K; lia|reflexivity].
  etransitivity; [exact E|]. f_equal. unfold st. f_equal. lia.
Qed.
(** M_VAR_ARRAY. *)
Lemma step_vararr lim base coff off room vs l r p m Q : m (base + coff) = zlen vs -> Forall (fun v => 0 <= v < 256) vs ->
  0 <= base + off -> base + off + zlen vs <= lim ->
  (forall p1 m1, keep (base + off) (base + off + zlen vs) m m1 -> runs lim base r run_mode p1 l m1 Q) ->
  runs lim base (DVarArr 0 coff off room r) run_mode p (map (U 8) vs ++ l) m Q.
Proof.
  intros C V A B R H k. cbn [dec control run_mode]. unfold dec_vararr. assert (S := size_nonneg l). cbn [st s_mem s_rem]. rewrite C, Z.add_0_r, size_map. change (Z.of_nat 8) with 8.
  assert (V' : Forall (fun v => 0 <= v < 2 ^ Z.of_nat 8 /\ v < 256) vs) by (eapply Forall_impl; [|exact V]; cbn; intros; lia).
  destruct (array_U lim base off room 8 8 l (size l) vs 0 (p + 8 * k) p m H V' ltac:(lia) A ltac:(lia)) as (m1 & E & H1 & K & _). change (Z.of_nat 8) with 8 in *.
  destruct (Z.ltb_spec 0 (zlen vs)) as [L|L].
  - replace (8 * zlen vs + size l - 8 * zlen vs) with (size l) by lia. replace (size l <? 0) with false by lia.
    change (set_pos (st k p (map (U 8) vs ++ l) m) (size l) (s_off (st k p (map (U 8) vs ++ l) m)) (s_ri (st k p (map (U 8) vs ++ l) m))) with (mkcst (size l) (p + 8 * k) p m).
    replace (Z.to_nat (zlen vs)) with (length vs) by (unfold zlen; lia).
    eapply (go bits nbits past lim base r (Skip 0) _ k (p + 8 * zlen vs) l 0%nat m1); [exact H1| |apply R; intros x X; apply K; lia|reflexivity].
    etransitivity; [exact E|]. f_equal. unfold st. f_equal. lia.
  - assert (vs = []) as -> by (destruct vs; [reflexivity|unfold zlen in L; cbn [length] in L; lia]). cbn [map app] in *.
    eapply (go bits nbits past lim base r (Skip 0) _ k p l 0%nat m); [exact H|reflexivity|apply R, keep_refl|reflexivity].
Qed.

(** M_CHOICE: the first alternative is a zero, the second 10. *)
Lemma step_choice0 lim base off room one alts r l p m R Q : fits lim base off 1 = true ->
  runs lim base one run_mode (p + 1) l (upds m (base + off) 1 0) (leaves R) ->
  (forall p1 l1 m1, R l1 m1 -> runs lim base r run_mode p1 l1 m1 Q) ->
  runs lim base (DChoice off room (DAlt 1 0 false one alts) r) run_mode p (U 1 0 :: l) m Q.
Proof.
  intros Fi Sub C H k. cbn [dec control run_mode]. assert (S := size_nonneg l).
  assert (V : 0 <= 0 < 2 ^ Z.of_nat 1) by (cbn; lia). pose proof (read_U bits nbits past _ _ _ _ H V) as E. change (Z.of_nat 1) with 1 in E. cbn [st s_ri]. rewrite E.
  change (0 mod 256 =? 0) with true. cbv iota. rewrite (store_fits bits past) by exact Fi. cbn [bindd].
  change (adv (st k p (U 1 0 :: l) m) 1 (p + 1)) with (adv (mkcst (1 + size l) (p + 8 * k) p m) 1 (p + 1)). rewrite (set_st bits past).
  destruct (here_U bits nbits past _ _ _ _ H) as [H1 _]. destruct (Sub H1 k) as (s & E1 & p1 & l1 & m1 & ((k1 & ->) & H2) & X).
  unfold call. cbn [st s_rem]. replace (size l <? 0) with false by lia.
  eapply (go bits nbits past lim base r (Skip 0) _ k1 p1 l1 0%nat m1); [exact H2|exact E1|apply C; exact X|reflexivity].
Qed.
Lemma step_choice1 lim base off room one0 one alts r l p m R Q : fits lim base off 1 = true ->
  runs lim base one run_mode (p + 2) l (upds m (base + off) 1 1) (leaves R) ->
  (forall p1 l1 m1, R l1 m1 -> runs lim base r run_mode p1 l1 m1 Q) ->
  runs lim base (DChoice off room (DAlt 1 0 false one0 (DAlt 2 2 false one alts)) r) run_mode p (U 2 2 :: l) m Q.
Proof.
  intros Fi Sub C H k. cbn [dec control run_mode]. assert (S := size_nonneg l).
  assert (H0 : here p (U 1 1 :: U 1 0 :: l)) by (apply here_split; [lia|exact H]).
  assert (V0 : 0 <= 1 < 2 ^ Z.of_nat 1) by (cbn; lia). pose proof (read_U bits nbits past _ _ _ _ H0 V0) as E0. change (Z.of_nat 1) with 1 in E0.
  assert (V : 0 <= 2 < 2 ^ Z.of_nat 2) by (cbn; lia). pose proof (read_U bits nbits past _ _ _ _ H V) as E. change (Z.of_nat 2) with 2 in E. cbn [st s_ri]. rewrite E0.
  change (1 mod 256 =? 0) with false. cbv iota. cbn [set_pos s_ri]. replace (p + 1 - 1) with p by lia. rewrite E. change (2 mod 256 =? 2) with true. cbv iota. change (0 + 1) with 1.
  rewrite (store_fits bits past) by exact Fi. cbn [bindd].
  match goal with |- context [call _ ?x] => replace x with (st k (p + 2) l (upds m (base + off) 1 1)) end.
  2: { unfold set_mem, set_pos, adv, st. cbn [s_rem s_off s_ri s_mem size width_of]. f_equal; lia. }
  destruct (here_U bits nbits past _ _ _ _ H) as [H1 _]. change (Z.of_nat 2) with 2 in H1. destruct (Sub H1 k) as (s & E1 & p1 & l1 & m1 & ((k1 & ->) & H2) & X).
  unfold call. cbn [st s_rem]. replace (size l <? 0) with false by lia.
  eapply (go bits nbits past lim base r (Skip 0) _ k1 p1 l1 0%nat m1); [exact H2|exact E1|apply C; exact X|reflexivity].
Qed.

(** M_REC_ARRAY, with what it leaves unchanged; the count is stored in front of the array. *)
Lemma recarr_keep lim base b coff off room n l : b = Z.of_nat n -> 0 <= base + off -> fits lim base coff 1 = true -> coff < off ->
  forall vs fuel i k p m, (length vs < fuel)%nat -> 0 <= i -> base + off + i + zlen vs <= lim -> Forall (fun v => 0 <= v < 2 ^ b) vs ->
  here p (flat_map (fun v => [U 1 1; U n v]) vs ++ U 1 0 :: l) ->
  exists k1 p1 m1, dec_recarr false bits nbits past fuel lim base b coff off room i (st k p (flat_map (fun v => [U 1 1; U n v]) vs ++ U 1 0 :: l) m) =
    DOk (st k1 p1 l m1) /\ here p1 l /\ keep (base + coff) (base + off + i + zlen vs) m m1.
Proof.
  intros -> A Fi CO. induction vs as [|v vs IH]; intros fuel i k p m Fu I0 Li V H.
  - destruct fuel as [|fuel]; [cbn in Fu; lia|]. cbn [flat_map app] in *. cbn [dec_recarr st s_ri]. rewrite (tag_U bits nbits past _ _ _ H) by lia. cbn [Z.eqb].
    rewrite (store_fits bits past) by exact Fi. exists k, (p + 1). eexists. split; [|split; [apply (here_U bits nbits past _ _ _ _ H)|]].
    + f_equal. change (st k p (U 1 0 :: l) m) with (mkcst (1 + size l) (p + 8 * k) p m). apply (set_st bits past).
    + cbn [s_mem adv]. apply keep_upds; unfold zlen in *; cbn [length] in *; lia.
  - destruct fuel as [|fuel]; [cbn in Fu; lia|]. cbn [flat_map] in *. rewrite <- app_assoc in *. cbn [app] in *. set (t := flat_map _ vs ++ U 1 0 :: l) in *.
    apply Forall_cons_iff in V as [Hv V]. assert (S := size_nonneg t). unfold zlen in Li. cbn [length] in *.
    cbn [dec_recarr st s_ri]. rewrite (tag_U bits nbits past _ _ _ H) by lia. cbn [Z.eqb Pos.eqb]. destruct (here_U bits nbits past _ _ _ _ H) as [H1 _]. change (Z.of_nat 1) with 1 in H1.
    unfold octet. cbn [set_pos s_ri s_rem s_off]. rewrite (read_U bits nbits past _ _ _ _ H1 Hv). rewrite (store_at bits past) by lia. cbn [bindd set_mem set_pos s_rem s_off s_ri s_mem].
    unfold set_mem, set_pos, st. cbn [s_rem s_off s_ri s_mem size width_of]. replace (Z.of_nat 1 + (Z.of_nat n + size t) - 1 - Z.of_nat n <? 0) with false by lia.
    destruct (here_U bits nbits past _ _ _ _ H1) as [H2 _]. specialize (IH fuel (i + 1) k (p + 1 + Z.of_nat n) (upds m (base + off + i) 1 v)).
    match goal with |- context [adv ?s _ _] => set (s0 := s) end.
    edestruct IH as (k1 & p1 & m1 & E & H3 & K); [lia|lia|unfold zlen; lia|exact V|exact H2|]. fold t in E.
    exists k1, p1, m1. split; [|split; [exact H3|]]. 1: { etransitivity; [|exact E]. f_equal. unfold s0, adv, st. cbn [s_rem s_off s_ri s_mem]. f_equal; lia. }
    unfold zlen in *. cbn [length]. intros x X. rewrite K by lia. apply upds_out. lia.
Qed.
Lemma step_recarr_k lim base b coff off room n vs l r p m Q : b = Z.of_nat n -> 0 <= base + off -> base + off + zlen vs <= lim -> coff < off ->
  fits lim base coff 1 = true -> Forall (fun v => 0 <= v < 2 ^ b) vs ->
  (forall p1 m1, keep (base + coff) (base + off + zlen vs) m m1 -> runs lim base r run_mode p1 l m1 Q) ->
  runs lim base (DRecArr b coff off room r) run_mode p (flat_map (fun v => [U 1 1; U n v]) vs ++ U 1 0 :: l) m Q.
Proof.
  intros E A Li CO Fi V R H k. cbn [dec control run_mode].
  edestruct (recarr_keep lim base b coff off room n l E A Fi CO vs) with (i := 0) (k := k) (p := p) (m := m) (fuel := S (Z.to_nat (s_rem (st k p (flat_map (fun v => [U 1 1; U n v]) vs ++ U 1 0 :: l) m))))
    as (k1 & p1 & m1 & E1 & H1 & K); [|lia|lia|exact V|exact H|].
  - cbn [st s_rem]. assert (G : Z.of_nat (length vs) <= size (flat_map (fun v => [U 1 1; U n v]) vs ++ U 1 0 :: l)).
    { clear. assert (S := size_nonneg l). induction vs as [|v vs IH]; cbn [flat_map length app size width_of] in *; lia. }
    lia.
  - eapply go; [exact H1|exact E1|apply R; intros x X; apply K; lia|reflexivity].
Qed.

(** M_VAR_BITMAP and M_LEFT_VAR_BMP, with what they leave unchanged. *)
Lemma rep_octets_k lim base off room : forall n i s, 0 <= s_ri s -> s_ri s + 8 * Z.of_nat n <= nbits -> 0 <= i -> 0 <= base + off ->
  base + off + i + Z.of_nat n <= lim ->
  exists m, rep n i (octet false bits nbits past lim base off room 8) s = DOk (mkcst (s_rem s) (s_off s) (s_ri s + 8 * Z.of_nat n) m) /\
    keep (base + off + i) (base + off + i + Z.of_nat n) (s_mem s) m.
Proof.
  induction n as [|n IH]; intros i s A B C E G.
  - exists (s_mem s). split; [|apply keep_refl]. cbn [rep]. f_equal. destruct s. cbn. f_equal. lia.
  - cbn [rep]. destruct (octet_in bits nbits past lim base off room 8 i s) as (v & Ev); try lia. rewrite Ev. cbn [bindd].
    match goal with |- context [rep n _ _ ?s1] => set (s1' := s1) end.
    destruct (IH (i + 1) s1') as (m & Em & Km); unfold s1'; cbn [s_ri]; try lia. exists m. unfold s1' in Em, Km. cbn [s_ri s_rem s_off s_mem] in Em, Km. rewrite Em. split.
    + f_equal. f_equal. lia.
    + intros a Ha. rewrite Km by lia. apply upds_out. lia.
Qed.
Lemma step_varbmp_k (la : bool) lim base coff off room b l r p m Q : m (base + coff) = zlen b -> 0 <= base + off -> base + off + (zlen b + 7) / 8 <= lim ->
  (forall p1 m1, keep (base + off) (base + off + (zlen b + 7) / 8) m m1 -> runs lim base r run_mode p1 l m1 Q) ->
  runs lim base (DVarBmp la false 0 coff off room r) run_mode p (Any b :: l) m Q.
Proof.
  intros N A B R H k. cbn [dec control run_mode]. assert (S := size_nonneg l).
  assert (H1 : here (p + zlen b) l).
  { destruct H as (P & S1 & M & X). cbn [size width_of lay] in *. apply (at_app bits past) in X as [_ X]. unfold zlen in *. split; [lia|split; [lia|split; [exact M|exact X]]]. }
  destruct H as (P & S1 & M & X). cbn [size width_of] in S1. assert (Z0 : 0 <= zlen b) by (unfold zlen; lia).
  set (q := zlen b / 8). set (j := zlen b mod 8). assert (zlen b = 8 * q + j /\ 0 <= j < 8 /\ 0 <= q) as (E1 & E2 & E3) by (unfold q, j; lia).
  set (w := (zlen b + 7) / 8) in *. assert (W : w = if 0 <? j then q + 1 else q) by (unfold w; destruct (Z.ltb_spec 0 j); lia).
  assert (Wq : q <= w) by (rewrite W; destruct (Z.ltb_spec 0 j); lia). assert (Wj : 0 < j -> q + 1 <= w) by (intros J; rewrite W; replace (0 <? j) with true by lia; lia).
  clear W.
  assert (E : exists m1, dec_varbmp false bits nbits past la false lim base 0 coff off room (st k p (Any b :: l) m) = DOk (st (k - q) (p + zlen b) l m1) /\
    keep (base + off) (base + off + w) m m1).
  { clearbody w. unfold dec_varbmp. cbn [bindd st s_mem s_rem]. rewrite N, Z.add_0_r. fold q j. destruct (Z.ltb_spec 0 (zlen b)) as [Hn|Hn].
    2: { exists m. split; [|apply keep_refl]. f_equal. unfold st. cbn [size width_of]. f_equal; lia. }
    cbn [size width_of]. replace (zlen b + size l - zlen b <? 0) with false by lia.
    set (s1 := mkcst (zlen b + size l - zlen b) (p + 8 * k) p m).
    change (set_pos (st k p (Any b :: l) m) (zlen b + size l - zlen b) (s_off (st k p (Any b :: l) m)) (s_ri (st k p (Any b :: l) m))) with s1.
    clearbody q j. destruct la.
    - destruct (rep_octets_k lim base off room (Z.to_nat q) 0 s1) as (m1 & E & K); unfold s1; cbn [s_ri]; try lia.
      fold s1. rewrite E. cbn [bindd]. unfold s1. cbn [s_rem s_off s_ri]. destruct (Z.ltb_spec 0 j).
      + destruct (octet_in bits nbits past lim base off room j q (mkcst (zlen b + size l - zlen b) (p + 8 * k) (p + 8 * Z.of_nat (Z.to_nat q)) m1)) as (v & Ev);
          cbn [s_ri]; try lia. rewrite Ev. cbn [bindd set_pos s_rem s_off s_ri s_mem]. eexists. unfold set_pos, st. cbn [s_rem s_off s_ri s_mem]. split; [f_equal; f_equal; lia|].
        intros a Ha. rewrite upds_out by lia. apply K. lia.
      + eexists. unfold st. split; [f_equal; f_equal; lia|]. intros a Ha. apply K. lia.
    - destruct (Z.ltb_spec 0 j).
      + destruct (octet_in bits nbits past lim base off room j 0 s1) as (v & Ev); unfold s1; cbn [s_ri]; try lia. fold s1. rewrite Ev. cbn [bindd set_pos s_rem s_off s_ri s_mem].
        cbv iota. match goal with |- context [rep _ _ _ ?x] => set (s2 := x) end.
        destruct (rep_octets_k lim base off room (Z.to_nat q) 1 s2) as (m1 & E & K); [unfold s2, s1; cbn [s_ri set_pos]; lia ..|].
        rewrite E. eexists. unfold st, s2, s1, set_pos in *. cbn [s_rem s_off s_ri s_mem] in *. split; [f_equal; f_equal; lia|].
        intros a Ha. rewrite K by lia. rewrite upds_out by lia. reflexivity.
      + cbn [bindd]. destruct (rep_octets_k lim base off room (Z.to_nat q) 0 s1) as (m1 & E & K); unfold s1; cbn [s_ri]; try lia.
        fold s1. rewrite E. eexists. unfold st, s1. cbn [s_rem s_off s_ri]. split; [f_equal; f_equal; lia|]. intros a Ha. apply K. lia. }
  destruct E as (m1 & E & K). eapply go; [exact H1|exact E|apply R; exact K|reflexivity].
Qed.
End Steps.
