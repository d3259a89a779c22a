(** The decoder on a message that consists of known fields. *)
From Coq Require Import ZArith List Bool Lia.
From Verif Require Import Lib.Base Csn1.Csn1Model Csn1.Csn1Layout.
Import ListNotations.
Open Scope Z_scope.

Lemma number_length v n : length (number v n) = n.
Proof. unfold number. rewrite map_length, seq_length. reflexivity. Qed.
Lemma number_S v n : number v (S n) = Z.testbit v (Z.of_nat n) :: number v n.
Proof.
  unfold number. cbn [seq map]. f_equal; [f_equal; lia|]. rewrite <- seq_shift, map_map. apply map_ext. intros k. f_equal. lia.
Qed.
Lemma size_nonneg l : 0 <= size l.
Proof. induction l as [|[]]; cbn [size width_of]; unfold zlen in *; lia. Qed.
Lemma size_app a b : size (a ++ b) = size a + size b.
Proof. induction a as [|x a IH]; cbn [app size]; lia. Qed.
Lemma lay_length l : forall p, zlen (lay p l) = size l.
Proof.
  induction l as [|[n v|h|b] r IH]; intros p; cbn [lay size width_of]; [reflexivity|..]; unfold zlen in *; cbn [length];
    rewrite ?app_length, ?number_length; rewrite ?Nat2Z.inj_add; [rewrite IH; lia| |rewrite IH; lia].
  rewrite Nat2Z.inj_succ, IH. lia.
Qed.

Lemma upds_below m a v i : i < a -> upds m a 1 v i = m i.
Proof. intros H. cbn [upds]. unfold upd1. destruct (Z.eqb_spec i a); [lia|reflexivity]. Qed.

Section Run.
Variable bits : Z -> bool.
Variable nbits : Z.
Variable past : Z -> Z -> Z * Z.

(** From bit [p] on the message consists of [l]. *)
Definition at_bits (p : Z) (b : list bool) : Prop := forall i, (i < length b)%nat -> bits (p + Z.of_nat i) = nth i b false.
Definition here (p : Z) (l : list item) : Prop := 0 <= p /\ p + size l = nbits /\ nbits mod 8 = 0 /\ at_bits p (lay p l).
(** The state in front of [l]; the bit offset may lag behind the position by whole octets. *)
Definition st (k p : Z) (l : list item) (m : mem) : cst := mkcst (size l) (p + 8 * k) p m.

Lemma at_app p b c : at_bits p (b ++ c) -> at_bits p b /\ at_bits (p + zlen b) c.
Proof.
  intros H. split; intros i Hi.
  - rewrite (H i) by (rewrite app_length; lia). apply app_nth1. exact Hi.
  - unfold zlen. replace (p + Z.of_nat (length b) + Z.of_nat i) with (p + Z.of_nat (length b + i)) by lia.
    rewrite H by (rewrite app_length; lia). rewrite app_nth2 by lia. f_equal. lia.
Qed.
Lemma at_cons p b c : at_bits p (b :: c) -> bits p = b /\ at_bits (p + 1) c.
Proof.
  intros H. split; [specialize (H 0%nat); cbn in H; rewrite <- H by lia; f_equal; lia|].
  intros i Hi. specialize (H (S i)). cbn [length nth] in H. rewrite <- H by lia. f_equal. lia.
Qed.
Lemma here_U p n v l : here p (U n v :: l) -> here (p + Z.of_nat n) l /\ at_bits p (number v n).
Proof.
  intros (P & S & M & A). cbn [size width_of lay] in *. apply at_app in A as [A B]. unfold zlen in B. rewrite number_length in B.
  split; [split; [lia|split; [lia|split; [exact M|exact B]]]|exact A].
Qed.
Lemma here_F p h l : here p (F h :: l) -> here (p + 1) l /\ bits p = xorb h (filler_bit p).
Proof.
  intros (P & S & M & A). cbn [size width_of lay] in *. apply at_cons in A as [A B].
  split; [split; [lia|split; [lia|split; [exact M|exact B]]]|exact A].
Qed.

Lemma mod_pow_succ v n : v mod 2 ^ Z.of_nat (S n) = b2z (Z.testbit v (Z.of_nat n)) * 2 ^ Z.of_nat n + v mod 2 ^ Z.of_nat n.
Proof.
  assert (B : Z.testbit v (Z.of_nat n) = Z.odd (v / 2 ^ Z.of_nat n)).
  { rewrite <- Z.shiftr_div_pow2 by lia. rewrite <- Z.bit0_odd, Z.shiftr_spec by lia. reflexivity. }
  rewrite B. rewrite Nat2Z.inj_succ, Z.pow_succ_r by lia. set (q := 2 ^ Z.of_nat n). assert (Q : 0 < q) by (apply Z.pow_pos_nonneg; lia).
  rewrite (Z.mul_comm 2 q), Z.rem_mul_r by lia. rewrite Zmod_odd. destruct (Z.odd (v / q)); cbn [b2z]; lia.
Qed.
Lemma field_number n : forall p v, at_bits p (number v n) -> field bits p n = v mod 2 ^ Z.of_nat n.
Proof.
  induction n as [|n IH]; intros p v A; [cbn [field]; change (2 ^ Z.of_nat 0) with 1; rewrite Z.mod_1_r; reflexivity|].
  rewrite number_S in A. apply at_cons in A as [A B]. cbn [field]. rewrite A, (IH _ _ B). symmetry. apply mod_pow_succ.
Qed.
Lemma read_U p n v l : here p (U n v :: l) -> 0 <= v < 2 ^ Z.of_nat n -> read bits nbits past p (Z.of_nat n) = (v, p + Z.of_nat n).
Proof.
  intros H V. assert (S := size_nonneg l). destruct (here_U _ _ _ _ H) as [_ A]. destruct H as (P & N & _ & _).
  cbn [size width_of] in N. unfold read. destruct (Z.of_nat n =? 0) eqn:E.
  - apply Z.eqb_eq in E. rewrite E in *. change (2 ^ 0) with 1 in V. f_equal; lia.
  - replace ((0 <=? p) && (p + Z.of_nat n <=? nbits)) with true by lia.
    rewrite Nat2Z.id, (field_number _ _ _ A), Z.mod_small by exact V. reflexivity.
Qed.

Lemma field_bit n : forall p k, (k < n)%nat -> Z.testbit (field bits p n) (Z.of_nat k) = bits (p + Z.of_nat (n - 1 - k)).
Proof.
  induction n as [|n IH]; intros p k K; [lia|]. cbn [field].
  assert (R : 0 <= field bits (p + 1) n < 2 ^ Z.of_nat n).
  { clear. revert p. induction n as [|n IH]; intros p; cbn [field]; [cbn; lia|]. specialize (IH (p + 1)).
    rewrite Nat2Z.inj_succ, Z.pow_succ_r by lia. destruct (bits (p + 1)); cbn [b2z]; lia. }
  destruct (Nat.eq_dec k n) as [->|N].
  - replace (S n - 1 - n)%nat with 0%nat by lia. replace (p + Z.of_nat 0) with p by lia.
    rewrite Z.testbit_odd, Z.shiftr_div_pow2 by lia.
    rewrite Z.div_add_l by lia. rewrite Z.div_small by exact R. destruct (bits p); reflexivity.
  - replace (S n - 1 - k)%nat with (S (n - 1 - k)) by lia.
    replace (p + Z.of_nat (S (n - 1 - k))) with (p + 1 + Z.of_nat (n - 1 - k)) by lia. rewrite <- IH by lia.
    rewrite Z.add_comm. rewrite <- (Z.mod_pow2_bits_low _ (Z.of_nat n)) by lia.
    rewrite Z.mod_add by lia. rewrite Z.mod_small by exact R. reflexivity.
Qed.
Lemma masked_F k p h l : here p (F h :: l) -> masked bits nbits past p (p + 8 * k) 1 = (b2z h, p + 1).
Proof.
  intros H. assert (S := size_nonneg l). destruct (here_F _ _ _ H) as [_ A]. destruct H as (P & N & M & _). cbn [size width_of] in N.
  unfold masked. replace ((p + 8 * k) mod 8) with (p mod 8) by (rewrite (Z.mul_comm 8 k), Z.mod_add by lia; reflexivity).
  assert (R : 0 <= p mod 8 < 8) by (apply Z.mod_pos_bound; lia).
  replace (0 <=? 8 - p mod 8 - 1) with true by lia.
  assert (E : read bits nbits past (p - p mod 8) 8 = (field bits (p - p mod 8) 8, p - p mod 8 + 8)).
  { unfold read. change (8 =? 0) with false. cbv iota.
    replace ((0 <=? p - p mod 8) && (p - p mod 8 + 8 <=? nbits)) with true by lia. reflexivity. }
  rewrite E. f_equal; [|lia].
  assert (K : 0 <= field bits (p - p mod 8) 8 < 256).
  { cbn [field]. repeat match goal with |- context [bits ?x] => destruct (bits x) end; cbn; lia. }
  rewrite (Z.mod_small _ 256) by exact K. change (2 ^ 1 - 1) with 1.
  rewrite Z.land_comm. change 1 with (Z.ones 1) at 1. rewrite Z.land_comm, Z.land_ones by lia. change (2 ^ 1) with 2. rewrite Zmod_odd, <- Z.bit0_odd, Z.shiftr_spec by lia.
  rewrite Z.lxor_spec. set (r := p mod 8) in *.
  replace (0 + (8 - r - 1)) with (Z.of_nat (Z.to_nat (7 - r))) by lia. rewrite field_bit by lia.
  replace (p - r + Z.of_nat (8 - 1 - Z.to_nat (7 - r))) with p by lia. rewrite A. unfold filler_bit.
  fold r. replace (Z.of_nat (Z.to_nat (7 - r))) with (7 - r) by lia. destruct h, (Z.testbit 43 (7 - r)); reflexivity.
Qed.

(** *** Steps *)
Notation D := (dec false bits nbits past).
Definition runs (lim base : Z) (d : descr) (md : mode) (p : Z) (l : list item) (m : mem) (Q : cst -> Prop) : Prop :=
  here p l -> forall k, exists s, D lim base d md (st k p l m) = DOk s /\ Q s.
(** It ends in front of [l]. *)
Definition stops (p : Z) (l : list item) (m : mem) (s : cst) : Prop := (exists k, s = st k p l m) /\ here p l.

Definition fits (lim base off : Z) (n : nat) : bool := (0 <=? base + off) && (base + off + Z.of_nat n <=? lim).
Lemma store_fits lim base off room n v s : fits lim base off n = true ->
  store false lim base off room 0 n v s = DOk (set_mem s (upds (s_mem s) (base + off) n v)).
Proof.
  unfold fits, store. intros H. change (0 <=? 0) with true. cbn [negb orb andb]. replace (base + off + 0) with (base + off) by lia.
  rewrite H. reflexivity.
Qed.
Lemma after_ok s k : 0 <= s_rem s -> after (DOk s) k = k s.
Proof. intros H. unfold after, bindd. replace (s_rem s <? 0) with false by lia. reflexivity. Qed.
Lemma set_st k n p l m m' : set_mem (adv (mkcst (n + size l) (p + 8 * k) p m) n (p + n)) m' = st k (p + n) l m'.
Proof. unfold st, set_mem, adv. cbn [s_rem s_off s_ri s_mem]. f_equal; lia. Qed.

Lemma step_end lim base p l m : runs lim base DEnd run_mode p l m (stops p l m).
Proof. intros H k. eexists. split; [reflexivity|split; [eexists; reflexivity|exact H]]. Qed.

(** After a step the rest runs from the next field on. *)
Lemma go lim base r md e k p1 l1 n m1 Q :
  here p1 l1 -> e = DOk (st k p1 l1 m1) -> runs lim base r (Skip n) p1 l1 m1 Q ->
  md = Skip n -> exists s, after e (D lim base r md) = DOk s /\ Q s.
Proof. intros H -> R ->. rewrite after_ok by apply size_nonneg. apply R. exact H. Qed.

Lemma uint_U k lim base b off room null err n v l p m : b = Z.of_nat n -> b <= 32 -> 0 <= v < 2 ^ b ->
  fits lim base off (width b) = true -> here p (U n v :: l) ->
  dec_uint false bits nbits past lim base b off room null err (st k p (U n v :: l) m) =
  DOk (st k (p + b) l (upds m (base + off) (width b) v)).
Proof.
  intros -> B V Fi H. unfold dec_uint, st. cbn [s_rem s_ri size width_of]. assert (S := size_nonneg l).
  replace (Z.of_nat n <=? Z.of_nat n + size l) with true by lia. replace (32 <? Z.of_nat n) with false by lia.
  rewrite (read_U _ _ _ _ H V). rewrite store_fits by exact Fi. f_equal. apply set_st.
Qed.
Lemma step_uint lim base b off room null n v l r p m Q :
  b = Z.of_nat n -> b <= 32 -> 0 <= v < 2 ^ b -> fits lim base off (width b) = true ->
  runs lim base r run_mode (p + b) l (upds m (base + off) (width b) v) Q ->
  runs lim base (DUint b off room null r) run_mode p (U n v :: l) m Q.
Proof.
  intros -> B V Fi R H k. cbn [dec control run_mode].
  eapply go; [|apply uint_U; auto|exact R|reflexivity]. apply (here_U _ _ _ _ H).
Qed.
Lemma step_bit lim base off room null v l r p m Q :
  0 <= v < 2 -> fits lim base off 1 = true ->
  runs lim base r run_mode (p + 1) l (upds m (base + off) 1 v) Q ->
  runs lim base (DBit off room null r) run_mode p (U 1 v :: l) m Q.
Proof.
  intros V Fi R H k. cbn [dec control run_mode].
  eapply go; [| |exact R|reflexivity]; [apply (here_U _ _ _ _ H)|].
  unfold dec_bit, st. cbn [s_rem s_ri size width_of]. assert (S := size_nonneg l).
  replace (0 <? Z.of_nat 1 + size l) with true by lia. pose proof (read_U _ _ _ _ H V) as E. change (Z.of_nat 1) with 1 in *. rewrite E.
  rewrite store_fits by exact Fi. f_equal. apply set_st.
Qed.
Lemma step_uintlh lim base off room h l r p m Q : fits lim base off 1 = true ->
  runs lim base r run_mode (p + 1) l (upds m (base + off) 1 (b2z h)) Q ->
  runs lim base (DUintLH 1 off room r) run_mode p (F h :: l) m Q.
Proof.
  intros Fi R H k. cbn [dec control run_mode]. eapply go; [| |exact R|reflexivity]; [apply (here_F _ _ _ H)|].
  unfold dec_uintlh, st. cbn [s_rem s_ri s_off size width_of]. assert (S := size_nonneg l).
  replace (1 <=? 1 + size l) with true by lia. change (8 <? 1) with false. cbv iota.
  rewrite (masked_F _ _ _ _ H), store_fits by exact Fi. f_equal. apply set_st.
Qed.
(** A nested structure: what is known where it ends. *)
Definition leaves (R : list item -> mem -> Prop) (s : cst) : Prop := exists p l m, stops p l m s /\ R l m.
Lemma leave p l m (R : list item -> mem -> Prop) : R l m -> forall s, stops p l m s -> leaves R s.
Proof. intros H s S. exists p, l, m. auto. Qed.
Lemma runs_imp lim base d md p l m (Q Q' : cst -> Prop) : (forall s, Q s -> Q' s) -> runs lim base d md p l m Q -> runs lim base d md p l m Q'.
Proof. intros I R H k. destruct (R H k) as (s & E & X). eauto. Qed.
Lemma runs_end lim base p l m (R : list item -> mem -> Prop) : R l m -> runs lim base DEnd run_mode p l m (leaves R).
Proof. intros H. eapply runs_imp; [apply leave, H|apply step_end]. Qed.
Lemma type_runs lim base off room (null : bool) sub k p l m R :
  runs lim (base + off) sub run_mode p l m (leaves R) -> (null = false \/ 0 < size l) -> here p l ->
  exists k1 p1 l1 m1, (if null && (s_rem (st k p l m) =? 0) then DOk (st k p l m)
   else call (D (inner false lim base off room) (base + off) sub run_mode) (st k p l m)) = DOk (st k1 p1 l1 m1) /\ here p1 l1 /\ R l1 m1.
Proof.
  intros Sub N H. assert (S := size_nonneg l). destruct (Sub H k) as (s & E & p1 & l1 & m1 & ((k1 & ->) & H1) & X).
  exists k1, p1, l1, m1. split; [|auto]. unfold call, inner. cbn [s_rem st].
  replace (null && (size l =? 0)) with false by (destruct N; subst; lia). replace (size l <? 0) with false by lia. exact E.
Qed.
Lemma step_type lim base off room null sub r p l m R Q : null = false \/ 0 < size l ->
  runs lim (base + off) sub run_mode p l m (leaves R) ->
  (forall p1 l1 m1, R l1 m1 -> runs lim base r run_mode p1 l1 m1 Q) ->
  runs lim base (DType off room null sub r) run_mode p l m Q.
Proof.
  intros N Sub C H k. cbn [dec control run_mode].
  destruct (type_runs _ _ _ room _ _ k _ _ _ _ Sub N H) as (k1 & p1 & l1 & m1 & E & H1 & X).
  eapply go; [exact H1|exact E|apply C; exact X|reflexivity].
Qed.
(** M_TYPE_OR_NULL at the end of the message. *)
Lemma step_type0 lim base off room sub r p m Q :
  runs lim base r run_mode p [] m Q ->
  runs lim base (DType off room true sub r) run_mode p [] m Q.
Proof. intros R H k. cbn [dec control run_mode]. eapply go; [exact H|reflexivity|exact R|reflexivity]. Qed.

(** M_NEXT_EXIST. *)
Lemma step_next lim base n off room (null : bool) v l r p m Q :
  v = 0 \/ v = 1 -> (v = 1 -> all_null n r = false \/ 0 < size l) -> fits lim base off 1 = true ->
  runs lim base r (Skip (if v =? 0 then n else 0)) (p + 1) l (upds m (base + off) 1 v) Q ->
  runs lim base (DNext false n off room null r) run_mode p (U 1 v :: l) m Q.
Proof.
  intros V N Fi R H k. cbn [dec control run_mode]. assert (S := size_nonneg l).
  assert (V' : 0 <= v < 2 ^ Z.of_nat 1) by (change (2 ^ Z.of_nat 1) with 2; lia).
  cbn [st s_rem size width_of s_ri s_off]. change (Z.of_nat 1) with 1.
  replace (null && (1 + size l =? 0)) with false by lia.
  pose proof (read_U _ _ _ _ H V') as E. change (Z.of_nat 1) with 1 in E. rewrite E. cbv beta iota zeta.
  assert (I : (v =? 0) || (1 + size l =? 1) && all_null n r = (v =? 0)).
  { destruct V as [->| ->]; [reflexivity|]. cbn [Z.eqb orb]. destruct (N eq_refl) as [->|L]; lia. }
  rewrite I. eapply go; [| |exact R|reflexivity]; [apply (here_U _ _ _ _ H)|].
  rewrite store_fits by exact Fi. f_equal. change (st k p (U 1 v :: l) m) with (mkcst (1 + size l) (p + 8 * k) p m).
  replace (if v =? 0 then 0 else 1) with v by (destruct V; subst; reflexivity). apply set_st.
Qed.
(** M_NEXT_EXIST_LH. *)
Lemma step_nextlh lim base n off room (null : bool) h l r p m Q :
  (h = true -> all_null n r = false \/ 0 < size l) -> fits lim base off 1 = true ->
  runs lim base r (Skip (if h then 0 else n)) (p + 1) l (upds m (base + off) 1 (b2z h)) Q ->
  runs lim base (DNext true n off room null r) run_mode p (F h :: l) m Q.
Proof.
  intros N Fi R H k. cbn [dec control run_mode]. assert (S := size_nonneg l).
  cbn [st s_rem size width_of s_ri s_off].
  replace (null && (1 + size l =? 0)) with false by lia.
  rewrite (masked_F _ _ _ _ H). cbv beta iota zeta.
  assert (I : (b2z h =? 0) || (1 + size l =? 1) && all_null n r = negb h).
  { destruct h; [|reflexivity]. cbn [b2z Z.eqb orb negb]. destruct (N eq_refl) as [->|L]; lia. }
  rewrite I. replace (if negb h then n else 0%nat) with (if h then 0%nat else n) by (destruct h; reflexivity).
  replace (if negb h then 0 else 1) with (b2z h) by (destruct h; reflexivity).
  eapply go; [| |exact R|reflexivity]; [apply (here_F _ _ _ H)|].
  rewrite store_fits by exact Fi. f_equal. change (st k p (F h :: l) m) with (mkcst (1 + size l) (p + 8 * k) p m). apply set_st.
Qed.
(** M_NEXT_EXIST_OR_NULL(_LH) at the end of the message. *)
Lemma step_next0 lim base lh n off room r p m Q : fits lim base off 1 = true ->
  runs lim base r (Skip n) p [] (upds m (base + off) 1 0) Q ->
  runs lim base (DNext lh n off room true r) run_mode p [] m Q.
Proof.
  intros Fi R H k. cbn [dec control run_mode st s_rem size]. change (true && (0 =? 0)) with true. cbv iota.
  eapply go; [exact H| |exact R|reflexivity]. rewrite store_fits by exact Fi. reflexivity.
Qed.
(** In front of spare padding. *)
Lemma step_spare lim base n off room r p j m Q : fits lim base off 1 = true ->
  (forall p' j', runs lim base r (Skip n) p' (spare j') (upds m (base + off) 1 0) Q) ->
  runs lim base (DNext true n off room true r) run_mode p (spare j) m Q.
Proof.
  intros Fi R. destruct j as [|j]; cbn [spare repeat].
  - apply step_next0; [exact Fi|]. apply (R p 0%nat).
  - apply step_nextlh; [discriminate|exact Fi|]. cbn [b2z]. apply R.
Qed.
(** Unions. *)
Lemma step_union2 lim base off room v l r p m Q : v = 0 \/ v = 1 -> fits lim base off 1 = true ->
  runs lim base r (Sel (Z.to_nat v) 2) (p + 1) l (upds m (base + off) 1 v) Q ->
  runs lim base (DUnion false 2 off room r) run_mode p (U 1 v :: l) m Q.
Proof.
  intros V Fi R H k. assert (V' : 0 <= v < 2 ^ Z.of_nat 1) by (change (2 ^ Z.of_nat 1) with 2; lia).
  pose proof (read_U _ _ _ _ H V') as E. change (Z.of_nat 1) with 1 in E.
  cbn [dec control run_mode]. change ((2 <=? 0)%nat || (16 <? 2)%nat) with false. cbv iota.
  change (Z.to_nat (nth 2 ix_bits 0)) with 1%nat. cbn [union_index st s_ri s_off]. rewrite E. cbv beta iota zeta.
  replace (2 * 0 + v mod 2) with v by (destruct V; subst; reflexivity).
  rewrite store_fits by exact Fi. cbn [bindd].
  change (adv (st k p (U 1 v :: l) m) 1 (p + 1)) with (adv (mkcst (1 + size l) (p + 8 * k) p m) 1 (p + 1)). rewrite set_st.
  replace (Nat.min (Z.to_nat v) (2 - 1)) with (Z.to_nat v) by lia. apply R. apply (here_U _ _ _ _ H).
Qed.
Lemma step_union4lh lim base off room h1 h2 l r p m Q : fits lim base off 1 = true ->
  runs lim base r (Sel (Z.to_nat (2 * b2z h1 + b2z h2)) 4) (p + 1 + 1) l (upds m (base + off) 1 (2 * b2z h1 + b2z h2)) Q ->
  runs lim base (DUnion true 4 off room r) run_mode p (F h1 :: F h2 :: l) m Q.
Proof.
  intros Fi R H k. pose proof (masked_F k _ _ _ H) as E. destruct (here_F _ _ _ H) as [H1 _]. pose proof (masked_F k _ _ _ H1) as E1.
  cbn [dec control run_mode]. change ((4 <=? 0)%nat || (16 <? 4)%nat) with false. cbv iota.
  change (Z.to_nat (nth 4 ix_bits 0)) with 2%nat. cbn [union_index st s_ri s_off]. rewrite E. cbv beta iota zeta. unfold adv, st. cbn [s_ri s_off s_rem s_mem].
  replace (p + 8 * k + 1) with (p + 1 + 8 * k) by lia. rewrite E1. cbv beta iota zeta.
  replace (2 * (2 * 0 + b2z h1 mod 2) + b2z h2 mod 2) with (2 * b2z h1 + b2z h2) by (destruct h1, h2; reflexivity).
  rewrite store_fits by exact Fi. cbn [bindd].
  replace (set_mem _ _) with (st k (p + 1 + 1) l (upds m (base + off) 1 (2 * b2z h1 + b2z h2))).
  2: { unfold set_mem, st. cbn [s_rem s_off s_ri s_mem size width_of]. f_equal; lia. }
  replace (Nat.min _ (4 - 1)) with (Z.to_nat (2 * b2z h1 + b2z h2)) by (destruct h1, h2; reflexivity). apply R. apply (here_F _ _ _ H1).
Qed.
(** The chosen alternative of a union. *)
Lemma step_sel_type lim base n off room null sub r p l m R Q : null = false \/ 0 < size l ->
  runs lim (base + off) sub run_mode p l m (leaves R) ->
  (forall p1 l1 m1, R l1 m1 -> runs lim base r (Skip n) p1 l1 m1 Q) ->
  runs lim base (DType off room null sub r) (Sel 0 (S n)) p l m Q.
Proof.
  intros N Sub C H k. cbn [dec control]. replace (S n - 1)%nat with n by lia.
  destruct (type_runs _ _ _ room _ _ k _ _ _ _ Sub N H) as (k1 & p1 & l1 & m1 & E & H1 & X).
  eapply go; [exact H1|exact E|apply C; exact X|reflexivity].
Qed.
(** Entries passed over. *)
Definition skippable (d : descr) : bool :=
  match d with
  | DBit _ _ _ _ | DUint _ _ _ _ _ | DType _ _ _ _ _ | DNext _ _ _ _ _ _ | DUintLH _ _ _ _ | DUnion _ _ _ _ _
  | DTrap _ _ | DUintArr _ _ _ _ _ | DBitmap _ _ _ _ => true
  | _ => false
  end.
Lemma step_skip lim base d n p l m Q : skippable d = true ->
  runs lim base (rest d) (Skip n) p l m Q -> runs lim base d (Skip (S n)) p l m Q.
Proof. destruct d; intros K R; try discriminate K; exact R. Qed.
Lemma step_sel lim base d j n p l m Q : skippable d = true ->
  runs lim base (rest d) (Sel j n) p l m Q -> runs lim base d (Sel (S j) (S n)) p l m Q.
Proof. destruct d; intros K R; try discriminate K; intros H k; specialize (R H k); cbn [dec control rest] in *; replace (S n - 1)%nat with n by lia; exact R. Qed.

(** M_FIXED *)
Lemma step_fixed lim base b value n l r p m Q : b = Z.of_nat n -> b <= 32 -> 0 <= value < 2 ^ b ->
  runs lim base r run_mode (p + b) l m Q ->
  runs lim base (DFixed b value r) run_mode p (U n value :: l) m Q.
Proof.
  intros -> B V R H k. cbn [dec control run_mode]. eapply (go _ _ _ _ _ k); [| |exact R|reflexivity]; [apply (here_U _ _ _ _ H)|].
  unfold dec_fixed. replace (32 <? Z.of_nat n) with false by lia. cbn [st s_ri]. rewrite (read_U _ _ _ _ H V), Z.eqb_refl. f_equal.
  unfold st, adv. cbn [s_rem s_off s_ri s_mem size width_of]. f_equal; lia.
Qed.

(** The end of a table with padding: the message is used up. *)
Lemma pad_end lim base p l m : runs lim base (DPad DEnd) run_mode p l m (fun s => s_mem s = m).
Proof.
  intros H k. assert (S := size_nonneg l). cbn [dec control run_mode]. unfold dec_pad. cbn [st s_rem s_off s_ri set_pos].
  destruct (0 <? size l) eqn:E.
  - eexists. split; [rewrite after_ok by (cbn; lia); reflexivity|reflexivity].
  - eexists. split; [rewrite after_ok by (cbn; lia); reflexivity|reflexivity].
Qed.
Lemma runs_pad lim base p l m (R : mem -> Prop) : R m -> runs lim base (DPad DEnd) run_mode p l m (fun s => R (s_mem s)).
Proof. intros H. eapply runs_imp; [|apply pad_end]. cbn. intros s ->. exact H. Qed.
(** M_THIS_EXIST(_LH) *)
Lemma step_existlh lim base off room l r p m Q : fits lim base off 1 = true ->
  runs lim base r run_mode (p + 1) l (upds m (base + off) 1 1) Q ->
  runs lim base (DExist true off room r) run_mode p (F true :: l) m Q.
Proof.
  intros Fi R H k. cbn [dec control run_mode]. cbn [st s_rem size width_of s_ri s_off].
  rewrite (masked_F _ _ _ _ H). cbv beta iota zeta. cbn [b2z]. rewrite store_fits by exact Fi. cbn [bindd].
  change (1 mod 256 =? 0) with false. cbv iota. cbn [adv s_mem st].
  eapply go; [|f_equal; apply set_st|exact R|reflexivity]. apply (here_F _ _ _ H).
Qed.

(** M_UINT_OFFSET *)
Lemma step_uintoff lim base b off room add n v l r p m Q :
  b = Z.of_nat n -> b <= 32 -> 0 <= v < 2 ^ b -> fits lim base off (width b) = true ->
  runs lim base r run_mode (p + b) l (upds m (base + off) (width b) (v + add)) Q ->
  runs lim base (DUintOff b off room add r) run_mode p (U n v :: l) m Q.
Proof.
  intros -> B V Fi R H k. cbn [dec control run_mode].
  eapply (go _ _ _ _ _ k); [| |exact R|reflexivity]; [apply (here_U _ _ _ _ H)|].
  unfold dec_uintoff, st. cbn [s_rem s_ri size width_of]. assert (S := size_nonneg l).
  replace (Z.of_nat n <=? Z.of_nat n + size l) with true by lia. replace (32 <? Z.of_nat n) with false by lia.
  rewrite (read_U _ _ _ _ H V). rewrite store_fits by exact Fi. f_equal. apply set_st.
Qed.
(** One element of an array. *)
Lemma store_at lim base off room k v s : 0 <= k -> 0 <= base + off -> base + off + k + 1 <= lim ->
  store false lim base off room k 1 v s = DOk (set_mem s (upds (s_mem s) (base + off + k) 1 v)).
Proof. intros. unfold store. cbn [negb orb andb]. replace (_ && _) with true by lia. reflexivity. Qed.
Lemma read_in p b : 0 <= p -> 0 <= b -> p + b <= nbits -> exists v, read bits nbits past p b = (v, p + b).
Proof.
  intros. unfold read. destruct (b =? 0) eqn:E; [exists 0; f_equal; lia|]. replace ((0 <=? p) && (p + b <=? nbits)) with true by lia. eauto.
Qed.
Lemma octet_in lim base off room b i s : 0 <= s_ri s -> 0 <= b -> s_ri s + b <= nbits -> 0 <= i -> 0 <= base + off -> base + off + i + 1 <= lim ->
  exists v, octet false bits nbits past lim base off room b i s = DOk (mkcst (s_rem s) (s_off s) (s_ri s + b) (upds (s_mem s) (base + off + i) 1 v)).
Proof.
  intros. unfold octet. destruct (read_in (s_ri s) b) as (v & E); [lia..|]. rewrite E. rewrite store_at by lia. exists v. reflexivity.
Qed.
Lemma rep_octets lim base off room : forall n i s, 0 <= s_ri s -> s_ri s + 8 * Z.of_nat n <= nbits -> 0 <= i -> 0 <= base + off ->
  base + off + i + Z.of_nat n <= lim ->
  exists m, rep n i (octet false bits nbits past lim base off room 8) s = DOk (mkcst (s_rem s) (s_off s) (s_ri s + 8 * Z.of_nat n) m) /\
    (forall a, a < base + off -> m a = s_mem s a).
Proof.
  induction n as [|n IH]; intros i s A B C E G.
  - exists (s_mem s). split; [|reflexivity]. cbn [rep]. f_equal. destruct s. cbn. f_equal. lia.
  - cbn [rep]. destruct (octet_in lim base off room 8 i s) as (v & Ev); try lia. rewrite Ev. cbn [bindd].
    match goal with |- context [rep n _ _ ?s1] => set (s1' := s1) end.
    destruct (IH (i + 1) s1') as (m & Em & Km); unfold s1'; cbn [s_ri]; try lia. exists m. unfold s1' in Em, Km. cbn [s_ri s_rem s_off s_mem] in Em, Km. rewrite Em. split.
    + f_equal. f_equal. lia.
    + intros a Ha. rewrite Km by exact Ha. apply upds_below. lia.
Qed.
(** A variable bitmap whose length is the number of bits given. *)
Lemma step_varbmp (la : bool) lim base coff off room b l r p m Q : m (base + coff) = zlen b -> 0 <= base + off -> base + off + zlen b / 8 + 1 <= lim ->
  (forall p1 m1, (forall a, a < base + off -> m1 a = m a) -> runs lim base r run_mode p1 l m1 Q) ->
  runs lim base (DVarBmp la false 0 coff off room r) run_mode p (Any b :: l) m Q.
Proof.
  intros N A B R H k. cbn [dec control run_mode]. assert (S := size_nonneg l).
  assert (H1 : here (p + zlen b) l).
  { destruct H as (P & S1 & M & X). cbn [size width_of lay] in *. apply at_app in X as [_ X]. unfold zlen in *. split; [lia|split; [lia|split; [exact M|exact X]]]. }
  destruct H as (P & S1 & M & X). cbn [size width_of] in S1. assert (Z0 : 0 <= zlen b) by (unfold zlen; lia).
  set (q := zlen b / 8). set (j := zlen b mod 8). assert (zlen b = 8 * q + j /\ 0 <= j < 8 /\ 0 <= q) as (E1 & E2 & E3) by (unfold q, j; lia).
  assert (E : exists m1, dec_varbmp false bits nbits past la false lim base 0 coff off room (st k p (Any b :: l) m) = DOk (st (k - q) (p + zlen b) l m1) /\
    (forall a, a < base + off -> m1 a = m a)).
  { unfold dec_varbmp. cbn [bindd st s_mem s_rem]. rewrite N, Z.add_0_r. fold q j. destruct (Z.ltb_spec 0 (zlen b)) as [Hn|Hn].
    2: { exists m. split; [|reflexivity]. f_equal. unfold st. cbn [size width_of]. f_equal; lia. }
    cbn [size width_of]. replace (zlen b + size l - zlen b <? 0) with false by lia. 
    set (s1 := mkcst (zlen b + size l - zlen b) (p + 8 * k) p m).
    change (set_pos (st k p (Any b :: l) m) (zlen b + size l - zlen b) (s_off (st k p (Any b :: l) m)) (s_ri (st k p (Any b :: l) m))) with s1. destruct la.
    - destruct (rep_octets lim base off room (Z.to_nat q) 0 s1) as (m1 & E & K); unfold s1; cbn [s_ri]; try lia.
      fold s1. rewrite E. cbn [bindd]. unfold s1. cbn [s_rem s_off s_ri]. destruct (Z.ltb_spec 0 j).
      + destruct (octet_in lim base off room j q (mkcst (zlen b + size l - zlen b) (p + 8 * k) (p + 8 * Z.of_nat (Z.to_nat q)) m1)) as (v & Ev);
          cbn [s_ri]; try lia. rewrite Ev. cbn [bindd set_pos s_rem s_off s_ri s_mem]. eexists. unfold set_pos, st. cbn [s_rem s_off s_ri s_mem]. split; [f_equal; f_equal; lia|]. intros a Ha. rewrite upds_below by lia. exact (K a Ha).
      + eexists. unfold st. split; [f_equal; f_equal; lia|exact K].
    - destruct (Z.ltb_spec 0 j).
      + destruct (octet_in lim base off room j 0 s1) as (v & Ev); unfold s1; cbn [s_ri]; try lia. fold s1. rewrite Ev. cbn [bindd set_pos s_rem s_off s_ri s_mem].
        cbv iota. match goal with |- context [rep _ _ _ ?x] => set (s2 := x) end.
        destruct (rep_octets lim base off room (Z.to_nat q) 1 s2) as (m1 & E & K); [unfold s2, s1; cbn [s_ri set_pos]; lia ..|].
        rewrite E. eexists. unfold st, s2, s1, set_pos in *. cbn [s_rem s_off s_ri s_mem] in *. split; [f_equal; f_equal; lia|].
        intros a Ha. rewrite K by exact Ha. rewrite upds_below by lia. reflexivity.
      + cbn [bindd]. destruct (rep_octets lim base off room (Z.to_nat q) 0 s1) as (m1 & E & K); unfold s1; cbn [s_ri]; try lia.
        fold s1. rewrite E. eexists. unfold st, s1. cbn [s_rem s_off s_ri]. split; [f_equal; f_equal; lia|exact K]. }
  destruct E as (m1 & E & K). eapply go; [exact H1|exact E|apply R; exact K|reflexivity].
Qed.

(** A recursive array. *)
Lemma tag_U p v l : here p (U 1 v :: l) -> 0 <= v < 2 -> tag bits nbits p = (v =? 1).
Proof.
  intros H V. assert (S := size_nonneg l). destruct (here_U _ _ _ _ H) as [_ X]. destruct H as (P & N & _ & _). cbn [size width_of] in N.
  unfold tag. replace ((0 <=? p) && (p <? nbits)) with true by lia. cbn [andb]. specialize (X 0%nat). cbn in X. replace (p + 0) with p in X by lia. rewrite X by lia.
  assert (C : v = 0 \/ v = 1) by lia. destruct C as [->| ->]; reflexivity.
Qed.
Lemma recarr_ok lim base b coff off room n l : b = Z.of_nat n -> 0 <= base + off -> fits lim base coff 1 = true ->
  forall vs fuel i k p m, (length vs < fuel)%nat -> 0 <= i -> base + off + i + zlen vs <= lim -> Forall (fun v => 0 <= v < 2 ^ b) vs ->
  here p (flat_map (fun v => [U 1 1; U n v]) vs ++ U 1 0 :: l) ->
  exists k1 p1 m1, dec_recarr false bits nbits past fuel lim base b coff off room i (st k p (flat_map (fun v => [U 1 1; U n v]) vs ++ U 1 0 :: l) m) =
    DOk (st k1 p1 l m1) /\ here p1 l.
Proof.
  intros -> A Fi. induction vs as [|v vs IH]; intros fuel i k p m Fu I0 Li V H.
  - destruct fuel as [|fuel]; [cbn in Fu; lia|]. cbn [flat_map app] in *. cbn [dec_recarr st s_ri]. rewrite (tag_U _ _ _ H) by lia. cbn [Z.eqb].
    rewrite store_fits by exact Fi. exists k, (p + 1). eexists. split; [|apply (here_U _ _ _ _ H)]. f_equal.
    change (st k p (U 1 0 :: l) m) with (mkcst (1 + size l) (p + 8 * k) p m). apply set_st.
  - destruct fuel as [|fuel]; [cbn in Fu; lia|]. cbn [flat_map] in *. rewrite <- app_assoc in *. cbn [app] in *. set (t := flat_map _ vs ++ U 1 0 :: l) in *.
    apply Forall_cons_iff in V as [Hv V]. assert (S := size_nonneg t). unfold zlen in Li. cbn [length] in *.
    cbn [dec_recarr st s_ri]. rewrite (tag_U _ _ _ H) by lia. cbn [Z.eqb Pos.eqb]. destruct (here_U _ _ _ _ H) as [H1 _]. change (Z.of_nat 1) with 1 in H1.
    unfold octet. cbn [set_pos s_ri s_rem s_off]. rewrite (read_U _ _ _ _ H1 Hv). rewrite store_at by lia. cbn [bindd set_mem set_pos s_rem s_off s_ri s_mem].
    unfold set_mem, set_pos, st. cbn [s_rem s_off s_ri s_mem size width_of]. replace (Z.of_nat 1 + (Z.of_nat n + size t) - 1 - Z.of_nat n <? 0) with false by lia.
    destruct (here_U _ _ _ _ H1) as [H2 _]. specialize (IH fuel (i + 1) k (p + 1 + Z.of_nat n) (upds m (base + off + i) 1 v)).
    match goal with |- context [adv ?s _ _] => set (s0 := s) end.
    edestruct IH as (k1 & p1 & m1 & E & H3); [lia|lia|unfold zlen; lia|exact V|exact H2|]. fold t in E.
    exists k1, p1, m1. split; [|exact H3]. etransitivity; [|exact E]. f_equal. unfold s0, adv, st. cbn [s_rem s_off s_ri s_mem]. f_equal; lia.
Qed.
Lemma step_recarr lim base b coff off room n vs l r p m Q : b = Z.of_nat n -> 0 <= base + off -> base + off + zlen vs <= lim ->
  fits lim base coff 1 = true -> Forall (fun v => 0 <= v < 2 ^ b) vs ->
  (forall p1 m1, runs lim base r run_mode p1 l m1 Q) ->
  runs lim base (DRecArr b coff off room r) run_mode p (flat_map (fun v => [U 1 1; U n v]) vs ++ U 1 0 :: l) m Q.
Proof.
  intros E A Li Fi V R H k. cbn [dec control run_mode].
  edestruct (recarr_ok lim base b coff off room n l E A Fi vs) with (i := 0) (k := k) (p := p) (m := m) (fuel := S (Z.to_nat (s_rem (st k p (flat_map (fun v => [U 1 1; U n v]) vs ++ U 1 0 :: l) m))))
    as (k1 & p1 & m1 & E1 & H1); [|lia|lia|exact V|exact H|].
  - cbn [st s_rem]. assert (G : Z.of_nat (length vs) <= size (flat_map (fun v => [U 1 1; U n v]) vs ++ U 1 0 :: l)).
    { clear. assert (S := size_nonneg l). induction vs as [|v vs IH]; cbn [flat_map length app size width_of] in *; lia. }
    lia.
  - eapply go; [exact H1|exact E1|apply R|reflexivity].
Qed.
End Run.
