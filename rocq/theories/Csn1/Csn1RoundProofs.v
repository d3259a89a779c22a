(** The decoder inverts the encoder: proof. *)
From Coq Require Import ZArith List Bool Lia.
From Verif Require Import Lib.Base Csn1.Csn1Model Csn1.Csn1EncModel Csn1.Csn1Round.
Import ListNotations.
Open Scope Z_scope.

Lemma wr_length v n : length (wr v n) = n.
Proof. induction n as [|n IH]; cbn; auto. Qed.
Lemma zlen_wr v b : 0 <= b -> zlen (wr v (Z.to_nat b)) = b.
Proof. intros. unfold zlen. rewrite wr_length. lia. Qed.
Lemma zlen_wr1 v : zlen (wr v 1) = 1.
Proof. reflexivity. Qed.

Lemma eok_inj a b c d : EOk a b = EOk c d -> a = c /\ b = d.
Proof. intros [= -> ->]. auto. Qed.

Section Round.
Variable m : mem.
Hypothesis mo : forall x, 0 <= m x < 256.
Variable m0 : mem.
Variable bits : Z -> bool.
Variable nbits : Z.
Variable past : Z -> Z -> Z * Z.

Definition at_ (p : Z) (b : list bool) : Prop :=
  0 <= p /\ p + zlen b <= nbits /\ forall i, 0 <= i < zlen b -> bits (p + i) = nth (Z.to_nat i) b false.
Lemma at_app p b c : at_ p (b ++ c) -> at_ p b /\ at_ (p + zlen b) c.
Proof.
  intros (H & L & N). rewrite zlen_app in *. pose proof (zlen_nonneg b). pose proof (zlen_nonneg c).
  split; (split; [lia|split; [lia|]]); intros i Hi.
  - rewrite N by lia. rewrite app_nth1; auto. unfold zlen in *. lia.
  - replace (p + zlen b + i) with (p + (zlen b + i)) by lia. rewrite N by lia.
    rewrite app_nth2 by (unfold zlen in *; lia). f_equal. unfold zlen in *. lia.
Qed.
Lemma mod_pow_succ v n : v mod 2 ^ Z.of_nat (S n) = b2z (Z.testbit v (Z.of_nat n)) * 2 ^ Z.of_nat n + v mod 2 ^ Z.of_nat n.
Proof.
  replace (Z.of_nat (S n)) with (Z.of_nat n + 1) by lia. rewrite Z.pow_add_r by lia.
  rewrite Z.rem_mul_r by (apply Z.pow_nonzero || lia; lia).
  pose proof (Z.testbit_spec' v (Z.of_nat n) ltac:(lia)) as T. change (2 ^ 1) with 2.
  replace (b2z (Z.testbit v (Z.of_nat n))) with (Z.b2z (Z.testbit v (Z.of_nat n))) by (destruct (Z.testbit _ _); reflexivity).
  rewrite T. lia.
Qed.
Lemma field_wr n : forall p v, at_ p (wr v n) -> field bits p n = v mod 2 ^ Z.of_nat n.
Proof.
  induction n as [|n IH]; intros p v H.
  - cbn. rewrite Z.mod_1_r. reflexivity.
  - rewrite mod_pow_succ. cbn [field wr] in *. rewrite (IH (p + 1) v).
    + destruct H as (H0 & H1 & H2). specialize (H2 0). rewrite Z.add_0_r in H2. rewrite H2; [reflexivity|].
      rewrite zlen_cons. pose proof (zlen_nonneg (wr v n)). lia.
    + change (Z.testbit v (Z.of_nat n) :: wr v n) with ([Z.testbit v (Z.of_nat n)] ++ wr v n) in H.
      apply at_app in H. apply H.
Qed.
Lemma read_wr p v b : 0 <= b -> at_ p (wr v (Z.to_nat b)) -> read bits nbits past p b = (v mod 2 ^ b, p + b).
Proof.
  intros Hb H. unfold read. destruct (Z.eqb_spec b 0) as [->|Hn].
  - rewrite Z.mod_1_r, Z.add_0_r. reflexivity.
  - pose proof H as (H0 & H1 & _). rewrite zlen_wr in H1 by auto.
    replace ((0 <=? p) && (p + b <=? nbits)) with true by lia.
    rewrite (field_wr _ _ _ H), Z2Nat.id by auto. reflexivity.
Qed.
Lemma read_wr_small p v b : at_ p (wr v (Z.to_nat b)) -> 0 <= b -> 0 <= v < 2 ^ b -> read bits nbits past p b = (v, p + b).
Proof. intros H Hb Hv. rewrite (read_wr _ v) by auto. rewrite Z.mod_small by auto. reflexivity. Qed.
(** The first bits of a longer field. *)
Lemma wr_split v j k : wr v (j + k) = wr (v / 2 ^ Z.of_nat k) j ++ wr v k.
Proof.
  induction j as [|j IH]; cbn [wr Nat.add app]; [reflexivity|]. rewrite IH. f_equal.
  rewrite Z.div_pow2_bits by lia. f_equal. lia.
Qed.
Lemma at_prefix p v b bt l : 0 <= b <= bt -> at_ p (wr v (Z.to_nat bt) ++ l) -> at_ p (wr (v / 2 ^ (bt - b)) (Z.to_nat b)).
Proof.
  intros Hb H. apply at_app in H as (H & _).
  replace (Z.to_nat bt) with (Z.to_nat b + Z.to_nat (bt - b))%nat in H by lia. rewrite wr_split in H.
  apply at_app in H as (H & _). rewrite Z2Nat.id in H by lia. exact H.
Qed.

(** *** Memory *)
Definition Inv (R : list Z) (mm : mem) : Prop := forall x, mm x = if existsb (Z.eqb x) R then m x else m0 x.
Lemma inv_in R mm x : Inv R mm -> known R x = true -> mm x = m x.
Proof. intros I H. rewrite I. unfold known in H. rewrite H. reflexivity. Qed.
Lemma rdle_range n : forall a, 0 <= rdle m a n < 256 ^ Z.of_nat n.
Proof.
  induction n as [|n IH]; intros a; cbn [rdle]; [cbn; lia|].
  replace (Z.of_nat (S n)) with (Z.of_nat n + 1) by lia. rewrite Z.pow_add_r by lia. change (256 ^ 1) with 256.
  pose proof (IH (a + 1)). pose proof (mo a). lia.
Qed.
Lemma rdle1 a : rdle m a 1 = m a.
Proof. cbn [rdle]. lia. Qed.
Lemma upds_rdle n : forall mm a x, upds mm a n (rdle m a n) x = if (a <=? x) && (x <? a + Z.of_nat n) then m x else mm x.
Proof.
  induction n as [|n IH]; intros mm a x; cbn [upds rdle].
  - replace ((a <=? x) && (x <? a + Z.of_nat 0)) with false by lia. reflexivity.
  - pose proof (mo a) as A.
    replace ((m a + 256 * rdle m (a + 1) n) mod 256) with (m a)
      by (generalize dependent (rdle m (a + 1) n); intros; lia).
    replace ((m a + 256 * rdle m (a + 1) n) / 256) with (rdle m (a + 1) n)
      by (generalize dependent (rdle m (a + 1) n); intros; lia).
    rewrite IH. unfold upd1. destruct (Z.eqb_spec x a) as [->|].
    + replace ((a + 1 <=? a) && (a <? a + 1 + Z.of_nat n)) with false by lia.
      replace ((a <=? a) && (a <? a + Z.of_nat (S n))) with true by lia. reflexivity.
    + replace ((a + 1 <=? x) && (x <? a + 1 + Z.of_nat n)) with ((a <=? x) && (x <? a + Z.of_nat (S n))) by lia. reflexivity.
Qed.
Lemma existsb_addrs n a x : existsb (Z.eqb x) (addrs a n) = (a <=? x) && (x <? a + Z.of_nat n).
Proof.
  apply eq_true_iff_eq. rewrite existsb_exists. split.
  - intros (y & Hy & E). apply Z.eqb_eq in E. subst y. apply in_addrs in Hy. lia.
  - intros H. exists x. split; [apply in_addrs; lia|apply Z.eqb_refl].
Qed.
Lemma inv_upds R mm a n : Inv R mm -> Inv (addrs a n ++ R) (upds mm a n (rdle m a n)).
Proof.
  intros I x. rewrite upds_rdle, existsb_app, existsb_addrs. destruct (_ && _); cbn [orb]; auto.
Qed.
Lemma store_ok lim base off room k n s R v :
  0 <= k -> k + Z.of_nat n <= room -> 0 <= base + off + k -> base + off + k + Z.of_nat n <= lim -> Inv R (s_mem s) ->
  v = rdle m (base + off + k) n ->
  exists t, store true lim base off room k n v s = DOk t /\ Inv (addrs (base + off + k) n ++ R) (s_mem t) /\
            s_rem t = s_rem s /\ s_ri t = s_ri s /\ s_off t = s_off s.
Proof.
  intros H1 H2 H3 H4 I ->. unfold store. cbn [negb orb].
  replace ((0 <=? k) && (k + Z.of_nat n <=? room) && (0 <=? base + off + k) && (base + off + k + Z.of_nat n <=? lim)) with true by lia.
  eexists. split; [reflexivity|]. cbn [set_mem s_mem s_rem s_ri s_off]. split; [apply inv_upds; exact I|auto].
Qed.

(** *** Decoding what was encoded *)
Definition OK (top : bool) (rem : Z) (R : list Z) (e : eres) (l : option (list Z)) (f : cst -> dres) : Prop :=
  forall b rem' R' s, e = EOk b rem' -> l = Some R' -> at_ (s_ri s) b -> zlen b <= s_rem s <= rem -> Inv R (s_mem s) ->
  rem - zlen b <= rem' /\
  exists t, f s = DOk t /\ Inv R' (s_mem t) /\ s_rem t = s_rem s - zlen b /\ (top = false -> s_ri t = s_ri s + zlen b).

Lemma OK_after top rem R e l f ke kl kd :
  OK false rem R e l f -> (forall rem1 R1, OK top rem1 R1 (ke rem1) (kl rem1 R1) kd) ->
  OK top rem R (eafter e ke) (lthen e l kl) (fun s => after (f s) kd).
Proof.
  intros H K b rem' R' s E L A Hs I. unfold eafter in E. unfold lthen in L.
  destruct e as [b1 rem1| |]; try discriminate. destruct l as [R1|]; try discriminate.
  destruct (rem1 <? 0); try discriminate. destruct (ke rem1) as [b2 rem2| |] eqn:E2; try discriminate.
  apply eok_inj in E as (<- & <-). apply at_app in A as (A1 & A2). rewrite zlen_app in *.
  pose proof (zlen_nonneg b1). pose proof (zlen_nonneg b2).
  destruct (H b1 rem1 R1 s eq_refl eq_refl A1 ltac:(lia) I) as (C1 & t1 & D1 & I1 & P1 & Q1). specialize (Q1 eq_refl).
  rewrite <- Q1 in A2. destruct (K rem1 R1 b2 rem2 R' t1 E2 L A2 ltac:(lia) I1) as (C2 & t2 & D2 & I2 & P2 & Q2).
  split; [lia|]. exists t2. split.
  - unfold after. rewrite D1. cbn [bindd]. destruct (Z.ltb_spec (s_rem t1) 0); [lia|]. exact D2.
  - split; [exact I2|]. split; [lia|]. intros Ht. specialize (Q2 Ht). lia.
Qed.
(** Without the check of the remaining bits. *)
Lemma OK_bind top rem R e l f ke kl kd :
  OK false rem R e l f -> (forall rem1 R1, OK top rem1 R1 (ke rem1) (kl rem1 R1) kd) ->
  OK top rem R (ebind e ke) (lthen e l kl) (fun s => bindd (f s) kd).
Proof.
  intros H K b rem' R' s E L A Hs I. unfold ebind in E. unfold lthen in L.
  destruct e as [b1 rem1| |]; try discriminate. destruct l as [R1|]; try discriminate.
  destruct (ke rem1) as [b2 rem2| |] eqn:E2; try discriminate.
  apply eok_inj in E as (<- & <-). apply at_app in A as (A1 & A2). rewrite zlen_app in *.
  pose proof (zlen_nonneg b1). pose proof (zlen_nonneg b2).
  destruct (H b1 rem1 R1 s eq_refl eq_refl A1 ltac:(lia) I) as (C1 & t1 & D1 & I1 & P1 & Q1). specialize (Q1 eq_refl).
  rewrite <- Q1 in A2. destruct (K rem1 R1 b2 rem2 R' t1 E2 L A2 ltac:(lia) I1) as (C2 & t2 & D2 & I2 & P2 & Q2).
  split; [lia|]. exists t2. rewrite D1. cbn [bindd]. split; [exact D2|].
  split; [exact I2|]. split; [lia|]. intros Ht. specialize (Q2 Ht). lia.
Qed.
Lemma OK_call top rem R ke l f : OK top rem R (ke rem) l f -> OK top rem R (ecall ke rem) l (call f).
Proof.
  intros H b rem' R' s E L A Hs I. unfold ecall in E. destruct (rem <? 0); try discriminate.
  destruct (H b rem' R' s E L A Hs I) as (C & t & D & X). split; [exact C|]. exists t. split; [|exact X].
  unfold call. pose proof (zlen_nonneg b). destruct (Z.ltb_spec (s_rem s) 0); [lia|]. exact D.
Qed.
Lemma OK_rep fe fl fd : (forall i rem R, OK false rem R (fe i rem) (fl i rem R) (fd i)) ->
  forall n i rem R, OK false rem R (erep n i fe rem) (lrep n i fe fl rem R) (rep n i fd).
Proof.
  intros H n. induction n as [|n IH]; intros i rem R.
  - intros b rem' R' s E L A Hs I. cbn [erep lrep] in *. inversion E; subst. inversion L; subst.
    cbn [zlen length] in *. split; [cbn; lia|]. exists s. cbn. split; [reflexivity|]. split; [exact I|]. split; [lia|]. lia.
  - cbn [erep lrep rep]. apply (OK_bind false rem R (fe i rem) (fl i rem R) (fd i)); auto.
Qed.

Ltac ok_intro := intros bb rem' R' s E L A Hs I.
(** One member. *)
Lemma fld_some lim base off room n ok R R' :
  fld m lim base off room n ok R = Some R' ->
  R' = addrs (base + off) n ++ R /\ 0 <= base + off /\ base + off + Z.of_nat n <= lim /\ Z.of_nat n <= room /\
  ok (rdle m (base + off) n) = true.
Proof.
  unfold fld. destruct (_ && _) eqn:E; try discriminate. intros [= <-]. rewrite !andb_true_iff in E.
  destruct E as (((E1 & E2) & E3) & E4). split; [reflexivity|]. repeat split; try lia. exact E4.
Qed.
Lemma load_ok base off room k n f : 0 <= k -> k + Z.of_nat n <= room -> load m base off room k n f = f (rdle m (base + off + k) n).
Proof. intros. unfold load. replace ((0 <=? k) && (k + Z.of_nat n <=? room)) with true by lia. reflexivity. Qed.
Lemma store_fld lim base off room n ok R R' s v :
  fld m lim base off room n ok R = Some R' -> Inv R (s_mem s) -> v = rdle m (base + off) n ->
  exists t, store true lim base off room 0 n v s = DOk t /\ Inv R' (s_mem t) /\ s_rem t = s_rem s /\ s_ri t = s_ri s /\ s_off t = s_off s.
Proof.
  intros H I Hv. apply fld_some in H as (-> & H1 & H2 & H3 & _).
  destruct (store_ok lim base off room 0 n s R v) as (t & T); auto; try lia.
  - subst v. f_equal. lia.
  - exists t. rewrite Z.add_0_r in T. exact T.
Qed.
Lemma load_fld lim base off room n ok R R' f :
  fld m lim base off room n ok R = Some R' -> load m base off room 0 n f = f (rdle m (base + off) n).
Proof. intros H. apply fld_some in H as (_ & _ & _ & H & _). rewrite load_ok by lia. f_equal. f_equal. lia. Qed.
Lemma width_pow b : 0 <= b <= 32 -> 2 ^ b <= 256 ^ Z.of_nat (width b).
Proof.
  intros H. unfold width. destruct (Z.leb_spec b 8); [change (256 ^ Z.of_nat 1) with (2 ^ 8); apply Z.pow_le_mono_r; lia|].
  destruct (Z.leb_spec b 16); [change (256 ^ Z.of_nat 2) with (2 ^ 16)|change (256 ^ Z.of_nat 4) with (2 ^ 32)]; apply Z.pow_le_mono_r; lia.
Qed.

Lemma uint_ok lim base b off room null err err' rem R :
  OK false rem R (enc_uint m base b off room null err rem) (lv_uint m lim base b off room null rem R)
     (dec_uint true bits nbits past lim base b off room null err').
Proof.
  ok_intro. unfold lv_uint in L. destruct ((0 <=? b) && (b <=? 32)) eqn:Hb; try discriminate.
  unfold enc_uint in E. unfold dec_uint.
  destruct (Z.leb_spec b rem) as [Hr|Hr].
  - destruct (Z.ltb_spec 32 b); [lia|]. rewrite (load_fld _ _ _ _ _ _ _ _ _ L) in E. apply eok_inj in E as (<- & <-).
    rewrite zlen_wr in * by lia. pose proof (fld_some _ _ _ _ _ _ _ _ L) as (_ & _ & _ & _ & F). unfold below in F.
    pose proof (rdle_range (width b) (base + off)).
    destruct (Z.leb_spec b (s_rem s)); [|lia]. rewrite (read_wr_small _ _ _ A ltac:(lia) ltac:(lia)). split; [lia|].
    destruct (store_fld _ _ _ _ _ _ _ _ (adv s b (s_ri s + b)) _ L I eq_refl) as (t & T & T1 & T2 & T3 & T4).
    exists t. rewrite T. cbn [adv s_rem s_ri] in *. split; [reflexivity|]. split; [exact T1|]. split; [lia|]. intros _. lia.
  - destruct null; try discriminate. apply eok_inj in E as (<- & <-). change (zlen (@nil bool)) with 0 in *.
    destruct (Z.leb_spec b (s_rem s)); [lia|]. split; [lia|].
    pose proof (fld_some _ _ _ _ _ _ _ _ L) as (_ & _ & _ & _ & F).
    destruct (store_fld _ _ _ _ _ _ _ _ s 0 L I ltac:(lia)) as (t & T & T1 & T2 & T3 & T4).
    exists t. rewrite T. split; [reflexivity|]. split; [exact T1|]. split; [lia|]. intros _. lia.
Qed.
Lemma uintoff_ok lim base b off room add rem R :
  OK false rem R (enc_uintoff m base b off room add rem) (lv_uintoff m lim base b off room add rem R)
     (dec_uintoff true bits nbits past lim base b off room add).
Proof.
  ok_intro. unfold lv_uintoff in L. destruct (_ && _) eqn:Hb; try discriminate.
  rewrite !andb_true_iff in Hb. unfold enc_uintoff in E. unfold dec_uintoff.
  destruct (Z.leb_spec b rem) as [Hr|Hr]; try discriminate.
  destruct (Z.ltb_spec 32 b); [lia|]. rewrite (load_fld _ _ _ _ _ _ _ _ _ L) in E.
  replace (add mod (if b <=? 8 then 256 else 65536)) with add in E by (destruct (b <=? 8); rewrite Z.mod_small; lia).
  apply eok_inj in E as (<- & <-).
  rewrite zlen_wr in * by lia. pose proof (fld_some _ _ _ _ _ _ _ _ L) as (_ & _ & _ & _ & F). unfold below in F.
  destruct (Z.leb_spec b (s_rem s)); [|lia]. rewrite (read_wr_small _ _ _ A ltac:(lia) ltac:(lia)). split; [lia|].
  destruct (store_fld _ _ _ _ _ _ _ _ (adv s b (s_ri s + b)) (rdle m (base + off) (width b) - add + add) L I ltac:(lia)) as (t & T & T1 & T2 & T3 & T4).
  exists t. rewrite T. cbn [adv s_rem s_ri] in *. split; [reflexivity|]. split; [exact T1|]. split; [lia|]. intros _. lia.
Qed.
Lemma bit_ok lim base off room null rem R : 0 < rem ->
  OK false rem R (enc_bit m base off room null rem) (fld m lim base off room 1 (below 1) R)
     (dec_bit true bits nbits past lim base off room null).
Proof.
  intros Hr. ok_intro. unfold enc_bit in E. unfold dec_bit. destruct (Z.ltb_spec 0 rem); [|lia].
  rewrite (load_fld _ _ _ _ _ _ _ _ _ L) in E. apply eok_inj in E as (<- & <-). rewrite zlen_wr1 in *.
  pose proof (fld_some _ _ _ _ _ _ _ _ L) as (_ & _ & _ & _ & F). unfold below in F.
  pose proof (rdle_range 1 (base + off)).
  destruct (Z.ltb_spec 0 (s_rem s)); [|lia]. rewrite (read_wr_small _ (rdle m (base + off) 1) 1 A ltac:(lia) ltac:(lia)). split; [lia|].
  destruct (store_fld _ _ _ _ _ _ _ _ (adv s 1 (s_ri s + 1)) _ L I eq_refl) as (t & T & T1 & T2 & T3 & T4).
  exists t. rewrite T. cbn [adv s_rem s_ri] in *. split; [reflexivity|]. split; [exact T1|]. split; [lia|]. intros _. lia.
Qed.
Lemma ubit_ok lim base off room rem R :
  OK false rem R (load m base off room 0 1 (fun v => EOk (wr v 1) (rem - 1))) (fld m lim base off room 1 (below 1) R)
     (fun s => let '(v, ri) := read bits nbits past (s_ri s) 1 in
               store true lim base off room 0 1 (if 0 <? v then 1 else 0) (adv s 1 ri)).
Proof.
  ok_intro. rewrite (load_fld _ _ _ _ _ _ _ _ _ L) in E. apply eok_inj in E as (<- & <-). rewrite zlen_wr1 in *.
  pose proof (fld_some _ _ _ _ _ _ _ _ L) as (_ & _ & _ & _ & F). unfold below in F.
  pose proof (rdle_range 1 (base + off)).
  rewrite (read_wr_small _ (rdle m (base + off) 1) 1 A ltac:(lia) ltac:(lia)). split; [lia|].
  destruct (store_fld _ _ _ _ _ _ _ _ (adv s 1 (s_ri s + 1)) (if 0 <? rdle m (base + off) 1 then 1 else 0) L I
              ltac:(destruct (Z.ltb_spec 0 (rdle m (base + off) 1)); lia)) as (t & T & T1 & T2 & T3 & T4).
  exists t. rewrite T. cbn [adv s_rem s_ri] in *. split; [reflexivity|]. split; [exact T1|]. split; [lia|]. intros _. lia.
Qed.
Lemma fixed_ok b value rem R : 0 <= b <= 32 -> 0 <= value < 2 ^ b ->
  OK false rem R (EOk (wr value (Z.to_nat b)) (rem - b)) (Some R) (dec_fixed bits nbits past b value).
Proof.
  intros Hb Hv. ok_intro. apply eok_inj in E as (<- & <-). inversion L; subst R'. clear L. rewrite zlen_wr in * by lia.
  unfold dec_fixed. destruct (Z.ltb_spec 32 b); [lia|]. rewrite (read_wr_small _ _ _ A ltac:(lia) Hv), Z.eqb_refl.
  split; [lia|]. eexists. split; [reflexivity|]. cbn [adv s_mem s_rem s_ri]. split; [exact I|]. split; [lia|]. intros _. lia.
Qed.

(** Octets, one after the other. *)
Lemma inv_ext R R' mm : (forall x, existsb (Z.eqb x) R = existsb (Z.eqb x) R') -> Inv R mm -> Inv R' mm.
Proof. intros H I x. rewrite <- H. apply I. Qed.
Lemma inv_known R a mm : Inv (addrs a 1 ++ R) mm -> Inv (a :: R) mm.
Proof. intros I. exact I. Qed.
Lemma octets_rep lim base off room b c fe f (g : cst -> cst) :
  0 <= b <= 8 ->
  (forall i rem, fe i rem = eoctet m base off room (Z.to_nat b) i (rem - c)) ->
  (forall i s, f i s = bindd (octet true bits nbits past lim base off room b i s) (fun s => DOk (g s))) ->
  (forall s, s_mem (g s) = s_mem s /\ s_rem (g s) = s_rem s /\ s_ri (g s) = s_ri s) ->
  forall n i rem bb rem' s R,
  erep n i fe rem = EOk bb rem' -> 0 <= i -> i + Z.of_nat n <= room -> 0 <= base + off -> base + off + i + Z.of_nat n <= lim ->
  (forall k, i <= k < i + Z.of_nat n -> m (base + off + k) < 2 ^ b) ->
  at_ (s_ri s) bb -> Inv R (s_mem s) ->
  zlen bb = b * Z.of_nat n /\ rem' = rem - c * Z.of_nat n /\
  exists t, rep n i f s = DOk t /\ Inv (addrs (base + off + i) n ++ R) (s_mem t) /\ s_rem t = s_rem s /\ s_ri t = s_ri s + zlen bb.
Proof.
  intros Hb He Hf Hg n. induction n as [|n IH]; intros i rem bb rem' s R E H1 H2 H3 H4 Hm A I; cbn [erep rep] in *.
  - apply eok_inj in E as (<- & <-). change (zlen (@nil bool)) with 0. split; [lia|]. split; [lia|].
    exists s. split; [reflexivity|]. split; [exact I|]. split; [reflexivity|lia].
  - rewrite He in E. unfold eoctet in E. rewrite load_ok in E by lia. cbn [ebind] in E.
    destruct (erep n (i + 1) fe (rem - c)) as [b2 rem2| |] eqn:E2; try discriminate. apply eok_inj in E as (<- & <-).
    rewrite rdle1 in A. apply at_app in A as (A1 & A2). rewrite zlen_app, rdle1, zlen_wr in * by lia.
    rewrite Hf. unfold octet. pose proof (mo (base + off + i)). specialize (Hm i ltac:(lia)) as Hi.
    rewrite (read_wr_small _ _ _ A1 ltac:(lia) ltac:(lia)).
    destruct (store_ok lim base off room i 1 (set_pos s (s_rem s) (s_off s) (s_ri s + b)) R (m (base + off + i))) as (t1 & T & T1 & T2 & T3 & T4);
      try lia; [exact I|rewrite rdle1; reflexivity|].
    rewrite T. cbn [bindd]. cbn [set_pos s_rem s_ri] in *. destruct (Hg t1) as (G1 & G2 & G3).
    destruct (IH (i + 1) _ _ _ (g t1) (addrs (base + off + i) 1 ++ R) E2) as (Z1 & Z2 & t & D & I2 & P & Q); try lia.
    + intros k Hk. apply Hm. lia.
    + rewrite G3, T3. exact A2.
    + rewrite G1. exact T1.
    + split; [lia|]. split; [lia|]. exists t. split; [exact D|]. split; [|split; lia].
      refine (inv_ext _ _ _ _ I2). intros x. rewrite !existsb_app, !existsb_addrs.
      destruct (existsb (Z.eqb x) R); lia.
Qed.
Lemma octets_some lim base b off room n R R' : lv_octets m lim base b off room n R = Some R' ->
  R' = addrs (base + off) n ++ R /\ 0 <= b <= 8 /\ 0 <= base + off /\ base + off + Z.of_nat n <= lim /\ Z.of_nat n <= room /\
  forall k, 0 <= k < 0 + Z.of_nat n -> m (base + off + k) < 2 ^ b.
Proof.
  unfold lv_octets. destruct (_ && _) eqn:E; try discriminate. intros [= <-].
  apply andb_true_iff in E as (E & F). rewrite forallb_forall in F. split; [reflexivity|]. split; [lia|]. split; [lia|].
  split; [lia|]. split; [lia|]. intros k Hk. specialize (F (base + off + k)). unfold below in F.
  rewrite in_addrs in F. apply Z.ltb_lt, F. lia.
Qed.
Lemma uintarr_ok u lim base b c off room rem R : 0 <= c ->
  OK false rem R (enc_uintarr m base b c off room rem) (lv_octets m lim base b off room (Z.to_nat c) R)
     (dec_uintarr true bits nbits past u lim base b c off room).
Proof.
  intros Hc. ok_intro. apply octets_some in L as (-> & Hb & H1 & H2 & H3 & H4). unfold enc_uintarr in E. unfold dec_uintarr.
  destruct (Z.leb_spec (b * c) rem); try discriminate. destruct (Z.leb_spec b 8); [|lia].
  set (g := fun s => set_pos s (s_rem s) (s_off s + b) (s_ri s)).
  destruct (octets_rep lim base off room b b _ _ g Hb (fun _ _ => eq_refl) (fun _ _ => eq_refl) (fun _ => conj eq_refl (conj eq_refl eq_refl))
              _ _ _ _ _ (set_pos s (s_rem s - b * c) (s_off s) (s_ri s)) R E ltac:(lia) ltac:(lia) H1 ltac:(lia) H4 A I)
    as (Z1 & Z2 & t & T & T1 & T2 & T3).
  cbn [set_pos s_rem s_ri] in *. rewrite Z2Nat.id in * by lia. rewrite Z.add_0_r in T1.
  destruct (Z.leb_spec (b * c) (s_rem s)); [|lia]. split; [lia|]. exists t. split; [exact T|]. split; [exact T1|]. split; [lia|]. intros _; lia.
Qed.
Lemma bitmap_ok lim base b off room rem R : b = 32 \/ b = 64 ->
  OK false rem R (enc_bitmap m base b off room rem) (lv_octets m lim base 8 off room (Z.to_nat (b / 8)) R)
     (dec_bitmap true bits nbits past lim base b off room).
Proof.
  intros Hb. ok_intro. apply octets_some in L as (-> & _ & H1 & H2 & H3 & H4). unfold enc_bitmap in E. unfold dec_bitmap.
  destruct (Z.ltb_spec 0 b); [|lia]. destruct (Z.ltb_spec rem b); try discriminate. destruct (Z.ltb_spec 64 b); [lia|].
  assert (N : (if b <=? 32 then 4%nat else 8%nat) = Z.to_nat (b / 8)) by (destruct Hb as [-> | ->]; reflexivity).
  rewrite N in *. clear N. destruct (erep _ _ _ _) as [l rem1| |] eqn:E1; try discriminate. apply eok_inj in E as (<- & <-).
  assert (B8 : b = 8 * Z.of_nat (Z.to_nat (b / 8))) by (destruct Hb as [-> | ->]; reflexivity).
  destruct (octets_rep lim base off room 8 0 (eoctet m base off room 8) (octet true bits nbits past lim base off room 8) (fun s => s)
              ltac:(lia) ltac:(intros; rewrite Z.sub_0_r; reflexivity)
              ltac:(intros i s0; destruct (octet _ _ _ _ _ _ _ _ _ i s0); reflexivity) ltac:(auto)
              _ _ _ _ _ s R E1 ltac:(lia) ltac:(lia) H1 ltac:(lia) H4 A I)
    as (Z1 & Z2 & t & T & T1 & T2 & T3).
  rewrite Z.add_0_r in T1. destruct (Z.ltb_spec (s_rem s) b); [lia|]. rewrite T. cbn [bindd]. split; [lia|].
  eexists. split; [reflexivity|]. cbn [adv s_rem s_ri s_mem]. split; [exact T1|]. split; [lia|]. intros _; lia.
Qed.
(** The index of a union. *)
Lemma union_index_ok n : forall ix v s, at_ (s_ri s) (wr v n) ->
  exists t, union_index bits nbits past n false ix s = (ix * 2 ^ Z.of_nat n + v mod 2 ^ Z.of_nat n, t) /\
            s_rem t = s_rem s - Z.of_nat n /\ s_ri t = s_ri s + Z.of_nat n /\ s_mem t = s_mem s.
Proof.
  induction n as [|n IH]; intros ix v s A.
  - exists s. cbn [union_index]. change (2 ^ Z.of_nat 0) with 1. rewrite Z.mod_1_r. split; [f_equal; lia|]. repeat split; lia.
  - cbn [union_index]. change (wr v (S n)) with ([Z.testbit v (Z.of_nat n)] ++ wr v n) in A. apply at_app in A as (A1 & A2).
    replace [Z.testbit v (Z.of_nat n)] with (wr (b2z (Z.testbit v (Z.of_nat n))) (Z.to_nat 1)) in A1 by (destruct (Z.testbit _ _); reflexivity).
    change (zlen [Z.testbit v (Z.of_nat n)]) with 1 in A2.
    rewrite (read_wr_small _ _ _ A1 ltac:(lia)) by (destruct (Z.testbit _ _); cbn; lia).
    destruct (IH (2 * ix + b2z (Z.testbit v (Z.of_nat n)) mod 2) v (adv s 1 (s_ri s + 1)) A2) as (t & T & T1 & T2 & T3).
    exists t. rewrite T. cbn [adv s_rem s_ri s_mem] in *. split; [|repeat split; try lia; auto].
    f_equal. rewrite mod_pow_succ. replace (Z.of_nat (S n)) with (Z.of_nat n + 1) by lia. rewrite Z.pow_add_r by lia. change (2 ^ 1) with 2.
    replace (b2z (Z.testbit v (Z.of_nat n)) mod 2) with (b2z (Z.testbit v (Z.of_nat n))) by (destruct (Z.testbit _ _); reflexivity).
    ring.
Qed.
Lemma ixb n : (n <=? 0)%nat || (16 <? n)%nat = false -> 0 <= nth n ix_bits 0 <= 5.
Proof. intros H. do 17 (destruct n as [|n]; [try discriminate; cbn; lia|]). exfalso. apply orb_false_iff in H as (_ & H). apply Nat.ltb_ge in H. lia. Qed.
(** The alternatives of a choice. *)
Lemma alt_prefix base r : forall i rem bb rem' bt vt, 0 <= i ->
  enc m base r (Alts i 0 0) rem = EOk bb rem' -> alt_at r (Z.to_nat i) = Some (bt, vt) -> exists l, bb = wr vt (Z.to_nat bt) ++ l.
Proof.
  induction r; intros i rem bb rem' bt vt Hi E H; cbn [alt_at] in H; try discriminate.
  cbn [enc] in E. destruct (Z.eqb_spec i 0) as [->|Hn].
  - change (Z.to_nat 0) with O in H. inversion H; subst. cbn [ebind] in E.
    destruct (ecall _ _) as [b2 remx| |]; try discriminate. apply eok_inj in E as (<- & <-). eauto.
  - destruct (Z.to_nat i) as [|k] eqn:K; [lia|].
    eapply IHr2; [|exact E|]; [lia|]. replace (Z.to_nat (i - 1)) with k by lia. exact H.
Qed.
Lemma zlen_filler n : zlen (filler n) = 8 * Z.of_nat n.
Proof. induction n as [|n IH]; [reflexivity|]. cbn [filler]. rewrite zlen_app, IH. change (zlen (wr 43 8)) with 8. lia. Qed.
(** The elements of a recursive array. *)
Lemma tag_ok p x l : at_ p (x :: l) -> tag bits nbits p = x.
Proof.
  intros (H0 & H1 & H2). rewrite zlen_cons in *. pose proof (zlen_nonneg l). unfold tag.
  replace ((0 <=? p) && (p <? nbits)) with true by lia. cbn [andb]. specialize (H2 0 ltac:(lia)). rewrite Z.add_0_r in H2. exact H2.
Qed.
Lemma rec_ok lim base coff cap (fe : Z -> Z -> eres) fl elem :
  0 <= base + coff -> base + coff + 1 <= lim ->
  (forall i rem R, OK false rem R (fe i rem) (fl i rem R) (elem i)) ->
  forall n i rem R bb rem' R' s fuel,
  (n < fuel)%nat -> 0 <= i -> i + Z.of_nat n <= cap -> i + Z.of_nat n = m (base + coff) ->
  ebind (erep n i (fun i rem => ebind (EOk [true] (rem - 1)) (fun rem => eafter (fe i rem) (EOk []))) rem) (fun rem => EOk [false] rem) = EOk bb rem' ->
  lrep n i (fun i rem => eafter (fe i (rem - 1)) (EOk [])) (fun i rem => fl i (rem - 1)) rem R = Some R' ->
  at_ (s_ri s) bb -> zlen bb <= s_rem s <= rem -> Inv R (s_mem s) ->
  rem - zlen bb <= rem' /\
  exists t, rec_elems true bits nbits fuel lim base coff cap i elem s = DOk t /\ Inv ((base + coff) :: R') (s_mem t) /\
            s_rem t = s_rem s - zlen bb /\ s_ri t = s_ri s + zlen bb.
Proof.
  intros Hc1 Hc2 He n. induction n as [|n IH]; intros i rem R bb rem' R' s fuel Hf Hi Hcap Hcnt E L A Hs I;
    (destruct fuel as [|fuel]; [lia|]).
  - cbn [erep ebind lrep] in *. apply eok_inj in E as (<- & <-). inversion L; subst R'. cbn [app] in *. change (zlen [false]) with 1 in *.
    cbn [rec_elems]. rewrite (tag_ok _ _ _ A). split; [lia|].
    destruct (store_ok lim base coff 1 0 1 (adv s 1 (s_ri s + 1)) R (i mod 256)) as (t & T & T1 & T2 & T3 & T4);
      try (cbn [adv s_mem]; lia || exact I).
    + rewrite rdle1, Z.add_0_r. pose proof (mo (base + coff)). replace i with (m (base + coff)) by lia. rewrite Z.mod_small by lia. reflexivity.
    + exists t. rewrite T. split; [reflexivity|]. cbn [adv s_rem s_ri] in *. rewrite Z.add_0_r in T1. split; [exact T1|]. split; lia.
  - cbn [erep lrep] in *. cbn [ebind] in E. unfold lthen in L at 1.
    destruct (eafter (fe i (rem - 1)) (EOk [])) as [b1 rem1| |] eqn:E1; try discriminate.
    destruct (fl i (rem - 1) R) as [R1|] eqn:L1; try discriminate.
    cbn [ebind] in E. match type of E with context [erep n (i + 1) ?F rem1] => destruct (erep n (i + 1) F rem1) as [b2 rem2| |] eqn:E2; try discriminate end. cbn [ebind] in E. apply eok_inj in E as (<- & <-).
    unfold eafter in E1. destruct (fe i (rem - 1)) as [b3 rem3| |] eqn:E3; try discriminate.
    destruct (rem3 <? 0) eqn:R3; try discriminate. apply eok_inj in E1 as (<- & <-). rewrite app_nil_r in A, Hs |- *.
    replace ((([true] ++ b3) ++ b2) ++ [false]) with ([true] ++ (b3 ++ (b2 ++ [false]))) in * by (rewrite !app_assoc; reflexivity).
    cbn [rec_elems]. rewrite (tag_ok _ _ _ A). apply at_app in A as (_ & A). change (zlen [true]) with 1 in A. apply at_app in A as (A3 & A2).
    rewrite zlen_app in Hs. change (zlen [true]) with 1 in Hs. rewrite (zlen_app b3) in Hs.
    pose proof (zlen_nonneg b3). pose proof (zlen_nonneg (b2 ++ [false])).
    destruct (Z.ltb_spec cap (i + 1)); [lia|].
    destruct (He i (rem - 1) R b3 rem3 R1 (adv s 1 (s_ri s + 1)) E3 L1 A3) as (C1 & t1 & D1 & I1 & P1 & Q1);
      [cbn [adv s_rem]; lia|exact I|]. specialize (Q1 eq_refl). cbn [adv s_rem s_ri] in *.
    rewrite D1. cbn [bindd]. destruct (Z.ltb_spec (s_rem t1) 0); [lia|]. rewrite <- Q1 in A2.
    destruct (IH (i + 1) rem3 R1 (b2 ++ [false]) rem2 R' t1 fuel) as (C2 & t & D2 & I2 & P2 & Q2); try lia; auto.
    { cbn [ebind]. rewrite E2. reflexivity. }
    rewrite !zlen_app in *. change (zlen [true]) with 1 in *. change (zlen [false]) with 1 in *.
    split; [lia|]. exists t. split; [exact D2|]. split; [exact I2|]. split; lia.
Qed.
Definition F1 (fe : Z -> Z -> eres) (i rem : Z) : eres :=
  ebind (if 0 <? i then EOk [true] (rem - 1) else EOk [] rem) (fun rem => eafter (fe i rem) (EOk [])).
Definition K1 (rem : Z) : eres := EOk [false] (rem - 1).
Lemma F1_inv fe i rem b rem1 : 0 <= i -> F1 fe i rem = EOk b rem1 ->
  exists b3, fe i (if i =? 0 then rem else rem - 1) = EOk b3 rem1 /\ b = (if i =? 0 then [] else [true]) ++ b3 /\
             eafter (fe i (if i =? 0 then rem else rem - 1)) (EOk []) = EOk b3 rem1.
Proof.
  intros Hi E. unfold F1 in E. destruct (Z.ltb_spec 0 i), (Z.eqb_spec i 0); try lia; cbn [ebind] in E; unfold eafter in *;
    (destruct (fe i _) as [b3 rem3| |]; try discriminate); (destruct (rem3 <? 0); try discriminate);
    apply eok_inj in E as (<- & <-); exists b3; rewrite !app_nil_r; auto.
Qed.
Lemma ebind_inv e k b rem : ebind e k = EOk b rem -> exists b1 rem1 b2, e = EOk b1 rem1 /\ k rem1 = EOk b2 rem /\ b = b1 ++ b2.
Proof.
  unfold ebind. destruct e as [b1 rem1| |]; try discriminate. destruct (k rem1) as [b2 rem2| |] eqn:K; try discriminate.
  intros E. apply eok_inj in E as (<- & <-). eauto 6.
Qed.
Lemma rec1_ok lim base coff cap (fe : Z -> Z -> eres) fl elem :
  0 <= base + coff -> base + coff + 1 <= lim ->
  (forall i rem R, OK false rem R (fe i rem) (fl i rem R) (elem i)) ->
  forall n i rem R bb rem' R' s fuel,
  (n < fuel)%nat -> 0 <= i -> i + Z.of_nat (S n) <= cap -> i + Z.of_nat (S n) = m (base + coff) ->
  ebind (erep (S n) i (F1 fe) rem) K1 = EOk bb rem' ->
  lrep (S n) i (fun i rem => eafter (fe i (if i =? 0 then rem else rem - 1)) (EOk [])) (fun i rem => fl i (if i =? 0 then rem else rem - 1)) rem R = Some R' ->
  exists rst, bb = (if i =? 0 then [] else [true]) ++ rst /\
  (at_ (s_ri s) rst -> zlen rst <= s_rem s <= rem - (if i =? 0 then 0 else 1) -> Inv R (s_mem s) ->
  rem - zlen bb <= rem' /\
  exists t, rec_elems1 true bits nbits fuel lim base coff cap i elem s = DOk t /\ Inv ((base + coff) :: R') (s_mem t) /\
            s_rem t = s_rem s - zlen rst /\ s_ri t = s_ri s + zlen rst).
Proof.
  intros Hc1 Hc2 He n. induction n as [|n IH]; intros i rem R bb rem' R' s fuel Hf Hi Hcap Hcnt E L;
    (destruct fuel as [|fuel]; [lia|]);
    apply ebind_inv in E as (b1 & rem2 & b2 & E & EK & ->); unfold K1 in EK; apply eok_inj in EK as (<- & <-);
    change (erep (S ?k) i (F1 fe) rem) with (ebind (F1 fe i rem) (erep k (i + 1) (F1 fe))) in E;
    apply ebind_inv in E as (bf & rem3 & bt & EF & ET & ->); apply F1_inv in EF as (b3 & E3 & -> & E3'); auto;
    change (lrep (S ?k) i ?fe' ?fl' rem R) with (lthen (fe' i rem) (fl' i rem R) (lrep k (i + 1) fe' fl')) in L;
    cbv beta in L; unfold lthen in L; rewrite E3' in L;
    (destruct (fl i (if i =? 0 then rem else rem - 1) R) as [R1|] eqn:L1; try discriminate);
    exists (b3 ++ (bt ++ [false])); (split; [rewrite !app_assoc; reflexivity|]); intros A Hs I;
    apply at_app in A as (A3 & A2); rewrite zlen_app in Hs; pose proof (zlen_nonneg b3); pose proof (zlen_nonneg (bt ++ [false]));
    cbn [rec_elems1]; (destruct (Z.ltb_spec cap (i + 1)); [lia|]);
    (destruct (He i _ R b3 rem3 R1 s E3 L1 A3) as (C1 & t1 & D1 & I1 & P1 & Q1); [destruct (i =? 0); lia|exact I|]);
    specialize (Q1 eq_refl); rewrite D1; cbn [bindd]; (destruct (Z.ltb_spec (s_rem t1) 0); [lia|]); rewrite <- Q1 in A2;
    rewrite !zlen_app in *; change (zlen [false]) with 1 in *;
    assert (Z1 : zlen (if i =? 0 then [] else [true]) = if i =? 0 then 0 else 1) by (destruct (i =? 0); reflexivity); rewrite Z1.
  - cbn [erep] in ET. apply eok_inj in ET as (<- & <-). cbn [lrep] in L. inversion L; subst R1. cbn [app] in A2.
    rewrite (tag_ok _ _ _ A2). change (zlen (@nil bool)) with 0 in *.
    split; [destruct (i =? 0); lia|].
    destruct (store_ok lim base coff 1 0 1 (adv t1 1 (s_ri t1 + 1)) R' ((i + 1) mod 256)) as (t & T & T1 & T2 & T3 & T4);
      try (cbn [adv s_mem]; lia || exact I1).
    + rewrite rdle1, Z.add_0_r. pose proof (mo (base + coff)). replace (i + 1) with (m (base + coff)) by lia. rewrite Z.mod_small by lia. reflexivity.
    + exists t. rewrite T. split; [reflexivity|]. cbn [adv s_rem s_ri] in *. rewrite Z.add_0_r in T1. split; [exact T1|]. split; lia.
  - destruct (IH (i + 1) rem3 R1 (bt ++ [false]) (rem2 - 1) R' (adv t1 1 (s_ri t1 + 1)) fuel) as (rst & Hr & HH); try lia; auto.
    { unfold ebind. rewrite ET. reflexivity. }
    destruct (Z.eqb_spec (i + 1) 0); [lia|]. pose proof (f_equal zlen Hr) as Hz. rewrite !zlen_app in Hz.
    change (zlen [false]) with 1 in Hz. change (zlen [true]) with 1 in Hz.
    rewrite Hr in A2. cbn [app] in A2. rewrite (tag_ok _ _ _ A2).
    change (true :: rst) with ([true] ++ rst) in A2. apply at_app in A2 as (_ & A2). change (zlen [true]) with 1 in A2.
    cbn [adv s_rem s_ri s_mem] in HH. destruct HH as (C2 & t & D2 & I2 & P2 & Q2); auto; [destruct (i =? 0); lia|].
    rewrite Hr, zlen_app in C2. change (zlen [true]) with 1 in C2.
    split; [destruct (i =? 0); lia|]. exists t. split; [exact D2|]. split; [exact I2|]. split; lia.
Qed.

Definition plain (md : mode) : Prop := match md with Alts _ _ _ => False | _ => True end.
Definition P (d : descr) : Prop := forall top lim base md rem R, plain md ->
  OK top rem R (enc m base d md rem) (live m top lim base d md rem R) (dec true bits nbits past lim base d md).
Definition PA (d : descr) : Prop := forall lim base i j off room rem R0,
  0 <= i -> 0 <= base + off -> base + off + 1 <= lim -> 1 <= room -> j + i = m (base + off) ->
  OK false rem R0 (enc m base d (Alts i 0 0) rem) (live m false lim base d (Alts i 0 0) rem (addrs (base + off) 1 ++ R0))
     (dec true bits nbits past lim base d (Alts j off room)).
Lemma OK_control top rem R md ne nl nd re rl rd ue ul ud : plain md ->
  (forall md, plain md -> OK top rem R (ne md rem) (nl md rem R) (nd md)) ->
  OK top rem R (re tt) (rl tt) rd -> (forall n, OK top rem R (ue n) (ul n) (fun s => ud s n)) ->
  OK top rem R (econtrol md rem ne re ue) (lcontrol md rem R nl rl ul) (fun s => control md s nd (rd s) (ud s)).
Proof.
  intros Hm Hn Hr Hu. destruct md as [[|k]|[|k] n|? ? ?]; cbn [econtrol lcontrol control].
  - exact Hr.
  - exact (Hn (Skip k) Logic.I).
  - exact (Hu (n - 1)%nat).
  - exact (Hn (Sel k (n - 1)) Logic.I).
  - destruct Hm.
Qed.
Lemma OK_none top rem R e f : OK top rem R e None f.
Proof. ok_intro. discriminate. Qed.
Lemma OK_fst top rem R e l f f' : (forall s, f s = f' s) -> OK top rem R e l f -> OK top rem R e l f'.
Proof. intros H K. ok_intro. rewrite <- H. apply (K _ _ _ _ E L A Hs I). Qed.
Lemma null_ok i rem R : OK false rem R (EOk [] rem) (Some R) (fun s => DOk (set_pos s (s_rem s) (s_off s + i) (s_ri s))).
Proof.
  ok_intro. apply eok_inj in E as (<- & <-). inversion L; subst R'. change (zlen (@nil bool)) with 0. split; [lia|].
  eexists. split; [reflexivity|]. cbn [set_pos s_mem s_rem s_ri]. split; [exact I|]. split; lia.
Qed.
Lemma skip_ok rem R : OK false rem R (EOk [] rem) (Some R) DOk.
Proof.
  ok_intro. apply eok_inj in E as (<- & <-). inversion L; subst R'. change (zlen (@nil bool)) with 0. split; [lia|].
  exists s. split; [reflexivity|]. split; [exact I|]. split; lia.
Qed.

Lemma OK_top top rem R e l f : OK false rem R e l f -> OK top rem R e l f.
Proof.
  intros K. ok_intro. destruct (K _ _ _ _ E L A Hs I) as (C & t & D & X & Y & Z). split; [exact C|].
  exists t. split; [exact D|]. split; [exact X|]. split; [exact Y|]. intros _. exact (Z eq_refl).
Qed.
(** A test on the structure that leaves nothing when it fails. *)
Lemma OK_if top rem R e l f (c : bool) : (c = true -> OK top rem R e l f) -> OK top rem R e (if c then l else None) f.
Proof. destruct c; auto using OK_none. Qed.
(** A member stored after some bits were read. *)
Lemma OK_pre top rem R rem1 R1 (pre : list bool) ke l f g :
  OK top rem1 R1 (ke rem1) l f -> rem - zlen pre <= rem1 ->
  (forall s, at_ (s_ri s) pre -> zlen pre <= s_rem s <= rem -> Inv R (s_mem s) ->
     exists t, g s = f t /\ Inv R1 (s_mem t) /\ s_rem t = s_rem s - zlen pre /\ s_ri t = s_ri s + zlen pre) ->
  OK top rem R (ebind (EOk pre rem1) ke) l g.
Proof.
  intros K Hr Hg. ok_intro. cbn [ebind] in E. destruct (ke rem1) as [b2 rem2| |] eqn:Ee; try discriminate. apply eok_inj in E as (<- & <-).
  apply at_app in A as (A1 & A2). rewrite zlen_app in *. pose proof (zlen_nonneg b2). pose proof (zlen_nonneg pre).
  destruct (Hg s A1 ltac:(lia) I) as (t1 & D1 & I1 & P1 & Q1). rewrite <- Q1 in A2.
  destruct (K b2 rem2 R' t1 eq_refl L A2) as (C & t & D & I2 & P2 & Q2); [|exact I1|].
  - (* the decoder has no more bits left than the encoder *) lia.
  - split; [lia|]. exists t. rewrite D1. split; [exact D|]. split; [exact I2|]. split; [lia|]. intros Ht. specialize (Q2 Ht). lia.
Qed.
Lemma OK_efter top rem R pre rem1 ke l g : OK top rem R (ebind (EOk pre rem1) ke) l g -> OK top rem R (eafter (EOk pre rem1) ke) l g.
Proof.
  intros K. ok_intro. cbn [eafter] in E. destruct (rem1 <? 0); try discriminate. exact (K _ _ _ _ E L A Hs I).
Qed.

Lemma zlen_cons_pos {X} (x : X) l : 0 < zlen (x :: l).
Proof. rewrite zlen_cons. pose proof (zlen_nonneg l). lia. Qed.
Lemma type_ok (null : bool) rem R e l f :
  OK false rem R e l f ->
  OK false rem R e (if null && match e with EOk (_ :: _) _ => false | _ => true end then None else l)
     (fun s => if null && (s_rem s =? 0) then DOk s else f s).
Proof.
  intros K. ok_intro. destruct null; cbn [andb] in *; [|exact (K _ _ _ _ E L A Hs I)].
  subst e. destruct bb as [|x bb]; [discriminate|]. pose proof (zlen_cons_pos x bb).
  destruct (Z.eqb_spec (s_rem s) 0); [lia|]. exact (K _ _ _ _ eq_refl L A Hs I).
Qed.
(** An array of structures. *)
Lemma elem_ok lim base off room stride sub i rem R : P sub ->
  OK false rem R (if (i + 1) * stride <=? room then ecall (enc m (base + off + i * stride) sub run_mode) rem else EUB)
     (live m false (Z.min lim (base + off + room)) (base + off + i * stride) sub run_mode rem R)
     (fun s => call (dec true bits nbits past (inner true lim base off room) (base + off + i * stride) sub run_mode) s).
Proof.
  intros H. destruct (_ <=? _).
  - apply (OK_call false rem R (enc m (base + off + i * stride) sub run_mode)). apply H. exact Logic.I.
  - ok_intro. discriminate.
Qed.
Lemma tarr_ok lim base off room stride sub n rem R (cnt : cst -> Z) : P sub ->
  (forall s, Inv R (s_mem s) -> cnt s = n) ->
  OK false rem R
     (erep (Z.to_nat n) 0 (fun i rem => if (i + 1) * stride <=? room then ecall (enc m (base + off + i * stride) sub run_mode) rem else EUB) rem)
     (lrep (Z.to_nat n) 0 (fun i rem => if (i + 1) * stride <=? room then ecall (enc m (base + off + i * stride) sub run_mode) rem else EUB)
        (fun i => live m false (Z.min lim (base + off + room)) (base + off + i * stride) sub run_mode) rem R)
     (fun s => rep (Z.to_nat (cnt s)) 0 (fun i s => call (dec true bits nbits past (inner true lim base off room) (base + off + i * stride) sub run_mode) s) s).
Proof.
  intros H Hc. ok_intro. rewrite (Hc s I).
  exact (OK_rep _ _ _ (fun i rem R => elem_ok lim base off room stride sub i rem R H) (Z.to_nat n) 0 rem R bb rem' R' s E L A Hs I).
Qed.
Lemma pad_ok lim base rem R :
  OK true rem R (eafter (enc_pad rem) (enc m base DEnd run_mode)) (Some R) (fun s => after (dec_pad s) (dec true bits nbits past lim base DEnd run_mode)).
Proof.
  ok_intro. inversion L; subst R'. unfold enc_pad in E. unfold dec_pad.
  assert (Z1 : zlen bb = Z.max 0 rem /\ rem' <= 0 /\ rem - zlen bb <= rem').
  { destruct (Z.ltb_spec 0 rem).
    - cbn [eafter] in E. cbn [enc] in E. change (0 <? 0) with false in E. cbn iota in E. apply eok_inj in E as (<- & <-).
      rewrite !zlen_app, zlen_wr, zlen_filler by lia. change (zlen (@nil bool)) with 0. lia.
    - unfold eafter in E. destruct (Z.ltb_spec rem 0); try discriminate. cbn [enc] in E. apply eok_inj in E as (<- & <-).
      change (zlen ([] ++ @nil bool)) with 0. lia. }
  destruct Z1 as (Z1 & Z2 & Z3). split; [exact Z3|]. unfold after.
  destruct (Z.ltb_spec 0 (s_rem s)); cbn [bindd].
  - exists (set_pos s 0 (s_off s + s_rem s) (s_ri s)). split; [reflexivity|].
    cbn [set_pos s_mem s_rem]. split; [exact I|]. split; [lia|]. discriminate.
  - exists s. destruct (Z.ltb_spec (s_rem s) 0); [pose proof (zlen_nonneg bb); lia|]. split; [reflexivity|].
    split; [exact I|]. split; [lia|]. discriminate.
Qed.
Lemma rectarr_ok (first : bool) lim base coff off room stride cap sub rem R : P sub ->
  let fe (i rem : Z) := if (i + 1) * stride <=? room then ecall (enc m (base + off + i * stride) sub run_mode) rem else EUB in
  let fl (i : Z) := live m false (Z.min lim (base + off + room)) (base + off + i * stride) sub run_mode in
  (if first then 1 <=? m (base + coff) else true) && (m (base + coff) <=? cap) && (0 <=? base + coff) && (base + coff + 1 <=? lim) = true ->
  OK false rem R ((if first then enc_rectarr1 else enc_rectarr) m base coff fe rem)
     (match lrep (Z.to_nat (m (base + coff))) 0
              (fun i rem => eafter (fe i (if first && (i =? 0) then rem else rem - 1)) (EOk []))
              (fun i rem => fl i (if first && (i =? 0) then rem else rem - 1)) rem R with
      | Some R => Some ((base + coff) :: R)
      | None => None
      end)
     (fun s => (if first then rec_elems1 else rec_elems) true bits nbits (S (Z.to_nat cap)) lim base coff cap 0
                 (fun i s => call (dec true bits nbits past (inner true lim base off room) (base + off + i * stride) sub run_mode) s) s).
Proof.
  intros Hsub fe fl Hc. rewrite !andb_true_iff in Hc. destruct Hc as (((Hf & Hcap) & Hc1) & Hc2).
  assert (He : forall i rem R, OK false rem R (fe i rem) (fl i rem R)
     (fun s => call (dec true bits nbits past (inner true lim base off room) (base + off + i * stride) sub run_mode) s))
    by (intros; apply elem_ok; exact Hsub).
  ok_intro. destruct (lrep _ _ _ _ _ _) as [R1|] eqn:L1; try discriminate. inversion L; subst R'. clear L.
  pose proof (mo (base + coff)). destruct first; cbn [andb] in *.
  - destruct (Z.to_nat (m (base + coff))) as [|n] eqn:N; [lia|].
    unfold enc_rectarr1 in E. rewrite N in E.
    destruct (rec1_ok lim base coff cap fe fl _ ltac:(lia) ltac:(lia) He n 0 rem R bb rem' R1 s (S (Z.to_nat cap)) ltac:(lia) ltac:(lia) ltac:(lia) ltac:(lia) E L1)
      as (rst & Hb & HH). cbn [Z.eqb app] in Hb, HH. subst rst. destruct HH as (C & t & D & X & Y & Z); auto; [lia|].
    split; [exact C|]. exists t. split; [exact D|]. split; [exact X|]. split; [exact Y|]. auto.
  - destruct (rec_ok lim base coff cap fe fl _ ltac:(lia) ltac:(lia) He (Z.to_nat (m (base + coff))) 0 rem R bb rem' R1 s (S (Z.to_nat cap)) ltac:(lia) ltac:(lia) ltac:(lia) ltac:(lia) E L1 A Hs I)
      as (C & t & D & X & Y & Z).
    split; [exact C|]. exists t. split; [exact D|]. split; [exact X|]. split; [exact Y|]. auto.
Qed.

(** The alternative that the member names, and the ones before it. *)
Lemma alt_ok keep lim base b value one r i j off room rem R0 : P one -> PA r ->
  0 <= i -> 0 <= base + off -> base + off + 1 <= lim -> 1 <= room -> j + i = m (base + off) ->
  OK false rem R0 (enc m base (DAlt b value keep one r) (Alts i 0 0) rem)
     (live m false lim base (DAlt b value keep one r) (Alts i 0 0) rem (addrs (base + off) 1 ++ R0))
     (dec true bits nbits past lim base (DAlt b value keep one r) (Alts j off room)).
Proof.
  intros Hone Hr Hi H1 H2 H3 Hj. cbn [enc live]. destruct (_ && _) eqn:Hb; [|apply OK_none].
  rewrite !andb_true_iff in Hb. destruct Hb as (((Hb1 & Hb2) & Hv1) & Hv2).
  assert (P8 : 2 ^ b <= 256) by (change 256 with (2 ^ 8); apply Z.pow_le_mono_r; lia).
  destruct (Z.eqb_spec i 0) as [->|Hn].
  - destruct keep; [apply OK_none|]. cbn [lthen].
    apply (OK_pre false rem R0 (rem - b) (addrs (base + off) 1 ++ R0) (wr value (Z.to_nat b)) (ecall (enc m base one run_mode)) _
             (call (dec true bits nbits past lim base one run_mode))).
    + apply OK_call. apply Hone. exact Logic.I.
    + rewrite zlen_wr by lia. lia.
    + intros s A Hs I. rewrite zlen_wr in * by lia. cbn [dec].
      rewrite (read_wr_small _ _ _ A ltac:(lia) ltac:(lia)). rewrite (Z.mod_small value 256), Z.eqb_refl by lia.
      destruct (store_ok lim base off room 0 1 (adv s b (s_ri s + b)) R0 j) as (t & T & T1 & T2 & T3 & T4); try lia; [exact I|rewrite rdle1, Z.add_0_r; lia|].
      exists t. rewrite T. cbn [bindd adv s_rem s_ri] in *. rewrite Z.add_0_r in T1. split; [reflexivity|]. split; [exact T1|]. split; lia.
  - destruct (alt_at r (Z.to_nat (i - 1))) as [(bt, vt)|] eqn:Ha; [|apply OK_none].
    apply OK_if. intros Hc. rewrite !andb_true_iff in Hc. destruct Hc as ((((Hc1 & Hc2) & Hc3) & Hc4) & Hc5).
    ok_intro. destruct (alt_prefix base r (i - 1) rem bb rem' bt vt ltac:(lia) E Ha) as (l & Hl).
    rewrite Hl in A. pose proof (at_prefix _ vt b bt l ltac:(lia) A) as A'. rewrite <- Hl in A.
    assert (Hq : 0 <= vt / 2 ^ (bt - b) < 2 ^ b).
    { assert (0 < 2 ^ (bt - b)) by (apply Z.pow_pos_nonneg; lia).
      split; [apply Z.div_pos; lia|]. apply Z.div_lt_upper_bound; [lia|]. rewrite <- Z.pow_add_r by lia.
      replace (bt - b + b) with bt by lia. lia. }
    cbn [dec]. rewrite (read_wr_small _ _ _ A' ltac:(lia) Hq). rewrite Z.mod_small by lia.
    destruct (Z.eqb_spec (vt / 2 ^ (bt - b)) value); [discriminate|].
    destruct (Hr lim base (i - 1) (j + 1) off room rem R0 ltac:(lia) H1 H2 H3 ltac:(lia) bb rem' R'
             (set_pos s (s_rem s) (s_off s) (s_ri s + b - b)) E L
             ltac:(cbn [set_pos s_ri]; replace (s_ri s + b - b) with (s_ri s) by lia; exact A) Hs I) as (C & t & D & X & Y & Z).
    split; [exact C|]. exists t. split; [exact D|]. split; [exact X|]. split; [exact Y|].
    intros _. specialize (Z eq_refl). cbn [set_pos s_ri] in Z. lia.
Qed.
Lemma ser_ok lim base lb off room sub rem R : P sub ->
  OK false rem R
    (match ecall (enc m (base + off) sub run_mode) (rem - lb) with EOk b rem => EOk (wr (zlen b) (Z.to_nat lb) ++ b) rem | x => x end)
    (match ecall (enc m (base + off) sub run_mode) (rem - lb) with
     | EOk b _ => if (0 <=? lb) && (lb <=? 8) && (0 <? zlen b) && (zlen b <? 2 ^ lb)
                  then live m false (Z.min lim (base + off + room)) (base + off) sub run_mode (rem - lb) R else None
     | _ => None end)
    (fun s => let '(v, ri) := read bits nbits past (s_ri s) lb in
            let len := v mod 256 in
            let s := adv s lb ri in
            bindd (call (dec true bits nbits past (inner true lim base off room) (base + off) sub run_mode)
                     (if 0 <? len then set_pos s len (s_off s) (s_ri s) else s))
              (fun t => DOk (if 0 <? len then mkcst (s_rem s - len) (s_off s + len) (s_ri t + s_rem t) (s_mem t)
                             else set_pos t (s_rem t) (s_off t) (s_ri t + s_rem t)))).
Proof.
  intros Hsub. ok_intro. destruct (ecall _ _) as [b rem1| |] eqn:Ee; try discriminate. apply eok_inj in E as (<- & <-).
  destruct (_ && _) eqn:Hb in L; try discriminate. rewrite !andb_true_iff in Hb. destruct Hb as (((Hb1 & Hb2) & Hb3) & Hb4).
  assert (P8 : 2 ^ lb <= 256) by (change 256 with (2 ^ 8); apply Z.pow_le_mono_r; lia).
  apply at_app in A as (A1 & A2). rewrite zlen_app, zlen_wr in * by lia.
  rewrite (read_wr_small _ _ _ A1 ltac:(lia) ltac:(lia)). cbv zeta. rewrite Z.mod_small by lia. rewrite Hb3.
  destruct (OK_call false (rem - lb) R (enc m (base + off) sub run_mode) _ _ (Hsub false (Z.min lim (base + off + room)) (base + off) run_mode (rem - lb) R Logic.I)
              b rem1 R' (set_pos (adv s lb (s_ri s + lb)) (zlen b) (s_off (adv s lb (s_ri s + lb))) (s_ri (adv s lb (s_ri s + lb)))) Ee L A2)
    as (C & t & D & X & Y & Z).
  - cbn [set_pos s_rem]. lia.
  - exact I.
  - split; [lia|]. specialize (Z eq_refl). cbn [set_pos adv s_rem s_ri s_off] in *. unfold inner. rewrite D. cbn [bindd].
    eexists. split; [reflexivity|]. cbn [s_mem s_rem s_ri]. split; [exact X|]. split; [lia|]. intros _. lia.
Qed.
Lemma union_ok top lim base n off room r rem R : P r -> (n <=? 0)%nat || (16 <? n)%nat = false ->
  OK top rem R
    (load m base off room 0 1 (fun v =>
       ebind (EOk (wr v (Z.to_nat (nth n ix_bits 0))) (rem - nth n ix_bits 0))
             (enc m base r (Sel (Nat.min (Z.to_nat (v mod 2 ^ nth n ix_bits 0)) (n - 1)) n))))
    (match fld m lim base off room 1 (below (nth n ix_bits 0)) R with
     | Some R => live m top lim base r (Sel (Nat.min (Z.to_nat (m (base + off) mod 2 ^ nth n ix_bits 0)) (n - 1)) n) (rem - nth n ix_bits 0) R
     | None => None
     end)
    (fun s => let '(ix, s) := union_index bits nbits past (Z.to_nat (nth n ix_bits 0)) false 0 s in
              bindd (store true lim base off room 0 1 ix s) (dec true bits nbits past lim base r (Sel (Nat.min (Z.to_nat ix) (n - 1)) n))).
Proof.
  intros Hr Hn. pose proof (ixb n Hn) as Hx. set (bts := nth n ix_bits 0) in *.
  destruct (fld _ _ _ _ _ _ _ _) as [R1|] eqn:F; [|apply OK_none].
  rewrite (load_fld _ _ _ _ _ _ _ _ _ F), rdle1. pose proof (fld_some _ _ _ _ _ _ _ _ F) as (_ & _ & _ & _ & Fv).
  unfold below in Fv. rewrite rdle1 in Fv. pose proof (mo (base + off)) as Hm. set (v := m (base + off)) in *.
  apply (OK_pre top rem R (rem - bts) R1 (wr v (Z.to_nat bts)) _ _
           (dec true bits nbits past lim base r (Sel (Nat.min (Z.to_nat (v mod 2 ^ bts)) (n - 1)) n))).
  - apply Hr. exact Logic.I.
  - rewrite zlen_wr by lia. lia.
  - intros s A Hs I. rewrite zlen_wr in * by lia.
    destruct (union_index_ok (Z.to_nat bts) 0 v s A) as (t & T & T1 & T2 & T3). rewrite T, Z2Nat.id in * by lia.
    rewrite Z.mul_0_l, Z.add_0_l.
    destruct (store_fld _ _ _ _ _ _ _ _ t (v mod 2 ^ bts) F ltac:(rewrite T3; exact I) ltac:(rewrite rdle1, Z.mod_small by lia; reflexivity)) as (t1 & D & X1 & X2 & X3 & X4).
    rewrite D. cbn [bindd]. exists t1. split; [reflexivity|]. split; [exact X1|]. split; lia.
Qed.
Lemma next_ok top lim base n off room (null : bool) r rem R : P r ->
  OK top rem R
    (if null && (rem =? 0) then eafter (EOk [] rem) (enc m base r (Skip n))
     else load m base off room 0 1 (fun v => eafter (EOk (wr v 1) (rem - 1)) (enc m base r (Skip (if v =? 0 then n else 0)))))
    (if null && (rem =? 0) then
       match fld m lim base off room 1 (Z.eqb 0) R with Some R => live m top lim base r (Skip n) rem R | None => None end
     else if (m (base + off) =? 0) || negb (all_null n r) then
       match fld m lim base off room 1 (below 1) R with
       | Some R => live m top lim base r (Skip (if m (base + off) =? 0 then n else 0)) (rem - 1) R
       | None => None
       end
     else None)
    (fun s => if null && (s_rem s =? 0) then
           after (store true lim base off room 0 1 0 s) (dec true bits nbits past lim base r (Skip n))
         else
           let '(v, ri) := read bits nbits past (s_ri s) 1 in
           let isnull := (v =? 0) || ((s_rem s =? 1) && all_null n r) in
           after (store true lim base off room 0 1 (if isnull then 0 else 1) (adv s 1 ri))
                 (dec true bits nbits past lim base r (Skip (if isnull then n else 0)))).
Proof.
  intros Hr. destruct (null && (rem =? 0)) eqn:Nu.
  - destruct (fld _ _ _ _ _ _ _ _) as [R1|] eqn:F; [|apply OK_none].
    apply OK_efter. apply (OK_pre top rem R rem R1 [] _ _ (dec true bits nbits past lim base r (Skip n))).
    + apply Hr. exact Logic.I.
    + change (zlen (@nil bool)) with 0. lia.
    + intros s A Hs I. change (zlen (@nil bool)) with 0 in *. apply andb_true_iff in Nu as (-> & Nu). cbn [andb].
      replace (s_rem s =? 0) with true by lia. pose proof (fld_some _ _ _ _ _ _ _ _ F) as (_ & _ & _ & _ & Fv).
      destruct (store_fld _ _ _ _ _ _ _ _ s 0 F I ltac:(lia)) as (t1 & D & X1 & X2 & X3 & X4).
      exists t1. rewrite D. cbn [after bindd]. unfold after. cbn [bindd]. destruct (Z.ltb_spec (s_rem t1) 0); [lia|]. split; [reflexivity|]. split; [exact X1|]. split; lia.
  - destruct (_ || _) eqn:Hz; [|apply OK_none].
    destruct (fld _ _ _ _ _ _ _ _) as [R1|] eqn:F; [|apply OK_none].
    rewrite (load_fld _ _ _ _ _ _ _ _ _ F), rdle1. pose proof (fld_some _ _ _ _ _ _ _ _ F) as (_ & _ & _ & _ & Fv).
    unfold below in Fv. rewrite rdle1 in Fv. pose proof (mo (base + off)) as Hm. change (2 ^ 1) with 2 in Fv.
    apply OK_efter. apply (OK_pre top rem R (rem - 1) R1 (wr (m (base + off)) 1) _ _ (dec true bits nbits past lim base r (Skip (if m (base + off) =? 0 then n else 0)))).
    + apply Hr. exact Logic.I.
    + rewrite zlen_wr1. lia.
    + intros s A Hs I. rewrite zlen_wr1 in *. replace (s_rem s =? 0) with false by lia. rewrite andb_false_r.
      rewrite (read_wr_small _ (m (base + off)) 1 A ltac:(lia) ltac:(change (2 ^ 1) with 2; lia)). cbv zeta.
      assert (Hn : (m (base + off) =? 0) || (s_rem s =? 1) && all_null n r = (m (base + off) =? 0)).
      { destruct (m (base + off) =? 0); cbn [orb] in *; [reflexivity|]. destruct (all_null n r); [discriminate|]. apply andb_false_r. }
      rewrite Hn.
      destruct (store_fld _ _ _ _ _ _ _ _ (adv s 1 (s_ri s + 1)) (if m (base + off) =? 0 then 0 else 1) F I
                  ltac:(rewrite rdle1; destruct (Z.eqb_spec (m (base + off)) 0); lia)) as (t1 & D & X1 & X2 & X3 & X4).
      cbn [adv s_rem s_ri] in *. exists t1. rewrite D. unfold after. cbn [bindd]. destruct (Z.ltb_spec (s_rem t1) 0); [lia|].
      split; [reflexivity|]. split; [exact X1|]. split; lia.
Qed.
Ltac ctl top rem R md lim base d Hmd := apply (OK_control top rem R md (enc m base d) (live m top lim base d) (dec true bits nbits past lim base d)); [exact Hmd|auto| |].
Ltac nexts H := intros; apply H; exact Logic.I.

Theorem round d : P d /\ PA d.
Proof.
  induction d; (split; [|try (intros lim base i0 j off0 room0 rem R0 _ _ _ _ _; exact (OK_none _ _ _ _ _))]);
    repeat match goal with H : P _ /\ PA _ |- _ => destruct H end; try intros top lim base md rem R Hmd.
  - (* DEnd *)
    destruct md as [[|k]|? ?|? ? ?]; try exact (OK_none _ _ _ _ _). apply OK_top. exact (skip_ok rem R).
  - (* DBit *)
    ctl top rem R md lim base d Hmd.
    + apply OK_if. intros Hr. apply OK_after; [apply bit_ok; lia|]. nexts H.
    + intros n. apply (OK_after top rem R _ _ (fun s => let '(v, ri) := read bits nbits past (s_ri s) 1 in store true lim base off room 0 1 (if 0 <? v then 1 else 0) (adv s 1 ri))); [apply ubit_ok|]. nexts H.
  - (* DNull *)
    ctl top rem R md lim base d Hmd.
    + exact (OK_after top rem R _ _ _ _ (live m top lim base d run_mode) _ (null_ok n rem R) (fun rem1 R1 => H top lim base run_mode rem1 R1 Logic.I)).
    + intros k. exact (OK_after top rem R _ _ _ _ (live m top lim base d (Skip k)) _ (null_ok n rem R) (fun rem1 R1 => H top lim base (Skip k) rem1 R1 Logic.I)).
  - (* DUint *)
    ctl top rem R md lim base d Hmd.
    + apply OK_after; [apply uint_ok|]. nexts H.
    + intros n. apply (OK_after top rem R _ _ (dec_uint true bits nbits past lim base bits0 off room false (-1))); [apply uint_ok|]. nexts H.
  - (* DUintOff *)
    ctl top rem R md lim base d Hmd.
    + apply OK_after; [apply uintoff_ok|]. nexts H.
    + intros n. apply (OK_after top rem R _ _ (dec_uintoff true bits nbits past lim base bits0 off room add)); [apply uintoff_ok|]. nexts H.
  - (* DUintLH *)
    ctl top rem R md lim base d Hmd; [|intros n]; apply OK_none.
  - (* DUintArr *)
    ctl top rem R md lim base d Hmd.
    + apply OK_if. intros Hn. apply OK_after; [apply uintarr_ok; lia|nexts H].
    + intros k. apply OK_if. intros Hn. apply (OK_after top rem R _ _ (dec_uintarr true bits nbits past true lim base bits0 n off room)); [apply uintarr_ok; lia|nexts H].
  - (* DTArr *)
    ctl top rem R md lim base d2 Hmd.
    + destruct c as [n|coff|coff]; [|apply OK_if; intros Hk|apply OK_if; intros Hk].
      * apply OK_after; [apply (tarr_ok lim base off room stride d1 n rem R (fun _ => n)); auto|]. nexts H.
      * apply OK_after; [apply (tarr_ok lim base off room stride d1 _ rem R (fun s => s_mem s (base + coff))); auto|nexts H].
        intros s I. apply (inv_in _ _ _ I Hk).
      * apply OK_after; [apply (tarr_ok lim base off room stride d1 _ rem R (fun s => s_mem s (base + coff))); auto|nexts H].
        intros s I. apply (inv_in _ _ _ I Hk).
    + intros k. destruct c as [n|coff|coff]; [|apply OK_if; intros Hk|apply OK_none].
      * apply (OK_after top rem R _ _ _ _ (live m top lim base d2 (Skip k)) _ (tarr_ok lim base off room stride d1 n rem R (fun _ => n) H1 (fun _ _ => eq_refl))). nexts H.
      * apply (OK_after top rem R _ _ _ _ (live m top lim base d2 (Skip k)) _ (tarr_ok lim base off room stride d1 _ rem R (fun s => s_mem s (base + coff)) H1 (fun s I => inv_in _ _ _ I Hk))). nexts H.
  - (* DBitmap *)
    ctl top rem R md lim base d Hmd; [|intros n; apply OK_none].
    apply OK_if. intros Hb. apply OK_after; [apply bitmap_ok; lia|]. nexts H.
  - (* DType *)
    ctl top rem R md lim base d2 Hmd.
    + apply (OK_after top rem R (ecall (enc m (base + off) d1 run_mode) rem) _ (fun s => if null && (s_rem s =? 0) then DOk s else call (dec true bits nbits past (inner true lim base off room) (base + off) d1 run_mode) s)); [|nexts H].
      apply type_ok. apply OK_call. apply H1. exact Logic.I.
    + intros n. apply (OK_after top rem R (ecall (enc m (base + off) d1 run_mode) rem) _ (fun s => if null && (s_rem s =? 0) then DOk s else call (dec true bits nbits past (inner true lim base off room) (base + off) d1 run_mode) s)); [|nexts H].
      apply type_ok. apply OK_call. apply H1. exact Logic.I.
  - (* DChoice *)
    ctl top rem R md lim base d2 Hmd; [|intros n; apply OK_none].
    apply OK_after; [|nexts H].
    destruct (fld m lim base off room 1 (fun _ => true) R) as [R1|] eqn:F; [|apply OK_none].
    rewrite (load_fld _ _ _ _ _ _ _ _ _ F), rdle1. apply fld_some in F as (-> & F1 & F2 & F3 & _).
    apply H2; try lia. pose proof (mo (base + off)). lia.
  - (* DAlt, in another place *)
    destruct md; [apply OK_none|apply OK_none|destruct Hmd].
  - (* DAlt *)
    revert top lim base md rem R Hmd. intros lim base i j off room rem R0 Hi X1 X2 X3 X4. apply alt_ok; auto.
  - (* DSer *)
    ctl top rem R md lim base d2 Hmd; [|intros n; apply OK_none].
    refine (OK_after top rem R _ _ _ _ (live m top lim base d2 run_mode) _ (ser_ok lim base lbits off room d1 rem R H1) _). nexts H.
  - (* DUnion *)
    ctl top rem R md lim base d Hmd; [|intros k; apply OK_none].
    destruct lh; [apply OK_none|]. cbn [orb]. destruct ((n <=? 0)%nat || (16 <? n)%nat) eqn:Hn; [apply OK_none|].
    apply union_ok; auto.
  - (* DExist *)
    ctl top rem R md lim base d Hmd; [|intros n]; apply OK_none.
  - (* DNext *)
    ctl top rem R md lim base d Hmd; [|intros k; apply OK_none].
    destruct lh; [apply OK_none|]. apply next_ok; auto.
  - ctl top rem R md lim base d Hmd; [|intros k]; apply OK_none.
  - (* DPad *)
    ctl top rem R md lim base d Hmd; [|intros k; apply OK_none].
    destruct d; try apply OK_none. destruct top; [|apply OK_none]. exact (pad_ok lim base rem R).
  - ctl top rem R md lim base d Hmd; [|intros k]; apply OK_none.
  - ctl top rem R md lim base d Hmd; [|intros k]; apply OK_none.
  - (* DRecTArr *)
    ctl top rem R md lim base d2 Hmd; [|intros k; apply OK_none].
    destruct first; apply OK_if; intros Hc.
    + refine (OK_after top rem R _ _ _ _ (live m top lim base d2 run_mode) _ (rectarr_ok true lim base coff off room stride cap d1 rem R H1 Hc) _). nexts H.
    + refine (OK_after top rem R _ _ _ _ (live m top lim base d2 run_mode) _ (rectarr_ok false lim base coff off room stride cap d1 rem R H1 Hc) _). nexts H.
  - (* DFixed *)
    ctl top rem R md lim base d Hmd; [|intros k; apply OK_none].
    apply OK_if. intros Hc.
    exact (OK_after top rem R _ _ _ _ (live m top lim base d run_mode) _ (fixed_ok bits0 value rem R ltac:(lia) ltac:(lia)) (fun rem1 R1 => H top lim base run_mode rem1 R1 Logic.I)).
  - ctl top rem R md lim base d Hmd; [|intros k]; apply OK_none.
  - ctl top rem R md lim base d Hmd; [|intros k]; apply OK_none.
Qed.
End Round.
