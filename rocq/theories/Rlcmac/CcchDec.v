(** The decoder on the rest octets that 44.018 describes. *)
From Coq Require Import ZArith List Bool Lia.
From Verif Require Import Lib.Base Csn1.Csn1Model Csn1.Csn1Tables Csn1.Csn1EncModel Csn1.Csn1DlModel Csn1.Csn1Layout Csn1.Csn1Step
  Rlcmac.CcchSpec.
Import ListNotations.
Open Scope Z_scope.

Ltac oks := unfold items_ok, priority, nln in *;
  repeat match goal with
  | H : Forall item_ok (_ ++ _) |- _ => apply Forall_app in H; destruct H
  | H : Forall item_ok (_ :: _) |- _ => apply Forall_cons_iff in H; destruct H
  | H : Forall item_ok [] |- _ => clear H
  end.
Ltac num := match goal with H : item_ok (U _ ?v) |- 0 <= ?v < _ => exact H | |- 0 <= _ < _ => cbn; lia end.
Ltac stepu := eapply step_uint; [reflexivity|lia|num|reflexivity|].
Ltac keepm := first [reflexivity | intros; cbn [upds]; unfold upd1;
  repeat match goal with |- context [?a =? ?b] => destruct (Z.eqb_spec a b); [lia|] end; reflexivity].

Section Dec.
Variable bits : Z -> bool.
Variable nbits : Z.
Variable past : Z -> Z -> Z * Z.
Notation runs := (runs bits nbits past).

Lemma step_optlh {A} (f : A -> list item) o lim base n off room null r l p m Q :
  fits lim base off 1 = true -> all_null n r = false ->
  (forall a, o = Some a -> runs lim base r run_mode (p + 1) (f a ++ l) (upds m (base + off) 1 1) Q) ->
  (o = None -> runs lim base r (Skip n) (p + 1) l (upds m (base + off) 1 0) Q) ->
  runs lim base (DNext true n off room null r) run_mode p (opt_lh f o ++ l) m Q.
Proof.
  intros Fi N S0 N0. destruct o as [a|]; cbn [opt_lh app].
  - apply step_nextlh; [auto|exact Fi|]. apply S0. reflexivity.
  - apply step_nextlh; [auto|exact Fi|]. apply N0. reflexivity.
Qed.
Lemma step_opt {A} (f : A -> list item) o lim base n off room null r l p m Q :
  fits lim base off 1 = true -> all_null n r = false ->
  (forall a, o = Some a -> runs lim base r run_mode (p + 1) (f a ++ l) (upds m (base + off) 1 1) Q) ->
  (o = None -> runs lim base r (Skip n) (p + 1) l (upds m (base + off) 1 0) Q) ->
  runs lim base (DNext false n off room null r) run_mode p (opt f o ++ l) m Q.
Proof.
  intros Fi N S0 N0. destruct o as [a|]; cbn [opt app].
  - apply step_next; [auto|auto|exact Fi|]. cbn [Z.eqb]. apply S0. reflexivity.
  - apply step_next; [auto|discriminate|exact Fi|]. cbn [Z.eqb]. apply N0. reflexivity.
Qed.

(** *** Paging *)
Lemma group_dec g l p m : items_ok (group_call g) ->
  runs 44 8 Group_Call_information_t run_mode p (group_call g ++ l) m (leaves bits nbits (fun l1 _ => l1 = l)).
Proof.
  destruct g as [[[[[value sf] af] prio] ciph] chan]. unfold group_call. intros K.
  rewrite <- app_assoc. unfold Group_Call_information_t. eapply step_type with (R := fun l1 _ => l1 = opt (fun '(t, tn, tsc, f) => channel t tn tsc f) chan ++ l).
  - left. reflexivity.
  - oks. cbn [app]. unfold Group_Call_Reference_t. do 5 stepu. apply runs_end. reflexivity.
  - intros p1 l1 m1 ->. apply step_opt; [reflexivity|reflexivity| |].
    2: { intros _. apply step_skip; [reflexivity|]. apply runs_end. reflexivity. }
    intros [[[t tn] tsc] f] ->. eapply step_type with (R := fun l1 _ => l1 = l); [left; reflexivity| |intros p2 l2 m2 ->; apply runs_end; reflexivity].
    cbn [opt] in K. unfold channel in *. oks. rewrite <- !app_assoc. cbn [app]. unfold Group_Channel_Description_t.
    eapply step_type with (R := fun l1 _ => l1 = U 1 0 :: l); [left; reflexivity| |].
    + unfold Channel_Description_t. do 3 stepu. destruct f as [[sp arfcn]|[maio hsn]]; oks; cbn [app].
      * apply step_union2; [auto|reflexivity|]. eapply step_sel_type with (R := fun l1 _ => l1 = U 1 0 :: l); [left; reflexivity| |].
        { unfold SingleRFChannel_t. do 2 stepu. apply runs_end. reflexivity. }
        intros ? ? ? ->. apply step_skip; [reflexivity|]. apply runs_end. reflexivity.
      * apply step_union2; [auto|reflexivity|]. apply step_sel; [reflexivity|]. eapply step_sel_type with (R := fun l1 _ => l1 = U 1 0 :: l); [left; reflexivity| |].
        { unfold RFHoppingChannel_t. do 2 stepu. apply runs_end. reflexivity. }
        intros ? ? ? ->. apply runs_end. reflexivity.
    + intros ? ? ? ->. apply step_next; [auto|discriminate|reflexivity|]. apply step_skip; [reflexivity|]. apply runs_end. reflexivity.
Qed.

Lemma p1_dec n pr1 pr2 g i1 i2 more p m : items_ok (p1_rest n pr1 pr2 g i1 i2 more) ->
  runs 44 0 P1_Rest_Octets_t run_mode p (p1_rest n pr1 pr2 g i1 i2 more) m
    (fun s => s_mem s 40 = b2z i1 /\ s_mem s 41 = b2z i2).
Proof.
  set (Q := fun s : cst => _). unfold p1_rest. intros K. unfold items_ok in K.
  repeat (apply Forall_app in K; destruct K as [? K]). clear K.
  assert (T4 : forall p m, runs 44 0 (Nat.iter 9 rest P1_Rest_Octets_t) run_mode p [F i1; F i2; Any more] m Q).
  { intros p' m'. cbn [Nat.iter nat_rect rest P1_Rest_Octets_t]. apply step_uintlh; [reflexivity|]. apply step_uintlh; [reflexivity|].
    apply runs_pad with (R := fun m => m 40 = b2z i1 /\ m 41 = b2z i2). split; destruct i1, i2; reflexivity. }
  assert (T3 : forall p m, runs 44 0 (Nat.iter 7 rest P1_Rest_Octets_t) run_mode p (opt_lh group_call g ++ [F i1; F i2; Any more]) m Q).
  { intros p' m'. cbn [Nat.iter nat_rect rest P1_Rest_Octets_t]. apply step_optlh; [reflexivity|reflexivity| |].
    - intros a ->. eapply step_type; [left; reflexivity|apply group_dec; cbn [opt_lh] in *; oks; assumption|]. intros ? ? ? ->. apply T4.
    - intros _. apply step_skip; [reflexivity|]. apply T4. }
  assert (T2 : forall p m, runs 44 0 (Nat.iter 5 rest P1_Rest_Octets_t) run_mode p (opt_lh priority pr2 ++ opt_lh group_call g ++ [F i1; F i2; Any more]) m Q).
  { intros p' m'. cbn [Nat.iter nat_rect rest P1_Rest_Octets_t]. apply step_optlh; [reflexivity|reflexivity| |].
    - intros a ->. cbn [opt_lh app] in *; unfold priority in *; cbn [app]. oks. stepu. apply T3.
    - intros _. apply step_skip; [reflexivity|]. apply T3. }
  assert (T1 : forall p m, runs 44 0 (Nat.iter 3 rest P1_Rest_Octets_t) run_mode p (opt_lh priority pr1 ++ opt_lh priority pr2 ++ opt_lh group_call g ++ [F i1; F i2; Any more]) m Q).
  { intros p' m'. cbn [Nat.iter nat_rect rest P1_Rest_Octets_t]. apply step_optlh; [reflexivity|reflexivity| |].
    - intros a ->. cbn [opt_lh app] in *; unfold priority in *; cbn [app]. oks. stepu. apply T2.
    - intros _. apply step_skip; [reflexivity|]. apply T2. }
  unfold P1_Rest_Octets_t. apply step_optlh; [reflexivity|reflexivity| |].
  - intros a ->. cbn [opt_lh app] in *; unfold nln in *; cbn [app]. oks. stepu. stepu. apply T1.
  - intros _. do 2 (apply step_skip; [reflexivity|]). apply T1.
Qed.

Lemma p2_dec c n pr1 pr2 pr3 i3 more p m : items_ok (p2_rest c n pr1 pr2 pr3 i3 more) ->
  runs 12 0 P2_Rest_Octets_t run_mode p (p2_rest c n pr1 pr2 pr3 i3 more) m (fun s => s_mem s 11 = b2z i3).
Proof.
  set (Q := fun s : cst => _). unfold p2_rest. intros K. unfold items_ok in K.
  repeat (apply Forall_app in K; destruct K as [? K]). clear K.
  assert (T5 : forall p m, runs 12 0 (Nat.iter 11 rest P2_Rest_Octets_t) run_mode p [F i3; Any more] m Q).
  { intros p' m'. cbn [Nat.iter nat_rect rest P2_Rest_Octets_t]. apply step_uintlh; [reflexivity|].
    apply runs_pad with (R := fun m => m 11 = b2z i3). destruct i3; reflexivity. }
  assert (T4 : forall p m, runs 12 0 (Nat.iter 9 rest P2_Rest_Octets_t) run_mode p (opt_lh priority pr3 ++ [F i3; Any more]) m Q).
  { intros p' m'. cbn [Nat.iter nat_rect rest P2_Rest_Octets_t]. apply step_optlh; [reflexivity|reflexivity| |].
    - intros a ->. cbn [opt_lh app] in *; unfold priority in *; cbn [app]. oks. stepu. apply T5.
    - intros _. apply step_skip; [reflexivity|]. apply T5. }
  assert (T3 : forall p m, runs 12 0 (Nat.iter 7 rest P2_Rest_Octets_t) run_mode p (opt_lh priority pr2 ++ opt_lh priority pr3 ++ [F i3; Any more]) m Q).
  { intros p' m'. cbn [Nat.iter nat_rect rest P2_Rest_Octets_t]. apply step_optlh; [reflexivity|reflexivity| |].
    - intros a ->. cbn [opt_lh app] in *; unfold priority in *; cbn [app]. oks. stepu. apply T4.
    - intros _. apply step_skip; [reflexivity|]. apply T4. }
  assert (T2 : forall p m, runs 12 0 (Nat.iter 5 rest P2_Rest_Octets_t) run_mode p (opt_lh priority pr1 ++ opt_lh priority pr2 ++ opt_lh priority pr3 ++ [F i3; Any more]) m Q).
  { intros p' m'. cbn [Nat.iter nat_rect rest P2_Rest_Octets_t]. apply step_optlh; [reflexivity|reflexivity| |].
    - intros a ->. cbn [opt_lh app] in *; unfold priority in *; cbn [app]. oks. stepu. apply T3.
    - intros _. apply step_skip; [reflexivity|]. apply T3. }
  assert (T1 : forall p m, runs 12 0 (Nat.iter 2 rest P2_Rest_Octets_t) run_mode p (opt_lh nln n ++ opt_lh priority pr1 ++ opt_lh priority pr2 ++ opt_lh priority pr3 ++ [F i3; Any more]) m Q).
  { intros p' m'. cbn [Nat.iter nat_rect rest P2_Rest_Octets_t]. apply step_optlh; [reflexivity|reflexivity| |].
    - intros a ->. cbn [opt_lh app] in *; unfold nln in *; cbn [app]. oks. stepu. stepu. apply T2.
    - intros _. do 2 (apply step_skip; [reflexivity|]). apply T2. }
  unfold P2_Rest_Octets_t. apply step_optlh; [reflexivity|reflexivity| |].
  - intros a ->. cbn [opt_lh app] in *. oks. stepu. apply T1.
  - intros _. apply step_skip; [reflexivity|]. apply T1.
Qed.

(** *** Immediate assignment *)
(** Memory up to [n] unchanged. *)
Definition same (n : Z) (m m1 : mem) : Prop := forall x, x < n -> m1 x = m x.
Lemma same_trans n m1 m2 m3 : same n m1 m2 -> same n m2 m3 -> same n m1 m3.
Proof. intros A B x H. rewrite (B x H). auto. Qed.
Lemma same_upd n m a v : n <= a -> same n m (upds m a 1 v).
Proof. intros H x Hx. cbn [upds]. unfold upd1. destruct (Z.eqb_spec x a); [lia|reflexivity]. Qed.
Lemma upd_at m a v : 0 <= v < 256 -> upds m a 1 v a = v.
Proof. intros H. cbn [upds]. unfold upd1. rewrite Z.eqb_refl. apply Z.mod_small. exact H. Qed.
Lemma upd_off m a v x : x <> a -> upds m a 1 v x = m x.
Proof. intros H. cbn [upds]. unfold upd1. destruct (Z.eqb_spec x a); [lia|reflexivity]. Qed.

Definition time_at (m : mem) (a : Z) (t : Z * Z * Z) : Prop := let '(t1, t3, t2) := t in m a = t1 /\ m (a + 1) = t3 /\ m (a + 2) = t2.
Definition start_at (m : mem) (e a : Z) (o : option (Z * Z * Z)) : Prop :=
  match o with None => m e = 0 | Some t => m e = 1 /\ time_at m a t end.

Ltac okk := unfold items_ok;
  repeat match goal with
  | |- Forall item_ok [] => constructor
  | |- Forall item_ok (_ :: _) => constructor; [first [assumption|exact I]|]
  | |- Forall item_ok (_ ++ _) => apply Forall_app; split
  | _ => assumption
  end.
(** Addresses and widths as numbers. *)
Ltac norm :=
  repeat match goal with |- context [upds _ (Z.add ?a ?b) _ _] => let c := eval vm_compute in (Z.add a b) in change (Z.add a b) with c end;
  repeat match goal with |- context [width ?b] => let c := eval vm_compute in (width b) in change (width b) with c end.
Ltac rdm := repeat first [rewrite upd_at by lia | rewrite upd_off by lia].
Ltac frame := intros x Hx; cbn [upds]; unfold upd1; repeat match goal with |- context [?a =? ?b] => destruct (Z.eqb_spec a b); [lia|] end; try reflexivity.
Ltac small := repeat match goal with H : item_ok (U _ _) |- _ => cbn in H end; unfold Z.pow_pos in *; cbn in *.

Lemma start_dec t l p m b : 0 <= b <= 77 -> items_ok (starting_time t) ->
  runs 80 b StartingTime_t run_mode p (starting_time t ++ l) m
    (leaves bits nbits (fun l1 m1 => l1 = l /\ time_at m1 b t /\ same b m m1)).
Proof.
  intros B K. destruct t as [[t1 t3] t2]. unfold starting_time in *. oks. cbn [app].
  unfold StartingTime_t. assert (F : forall o, 0 <= o <= 2 -> fits 80 b o 1 = true) by (intros; unfold fits; lia).
  assert (0 <= t1 < 256 /\ 0 <= t3 < 256 /\ 0 <= t2 < 256) as (R1 & R3 & R2) by (small; lia).
  eapply step_uint; [reflexivity|lia|num|apply F; lia|]. eapply step_uint; [reflexivity|lia|num|apply F; lia|]. eapply step_uint; [reflexivity|lia|num|apply F; lia|].
  apply runs_end. split; [reflexivity|]. change (width 5) with 1%nat. change (width 6) with 1%nat. split.
  - unfold time_at. replace (b + 0) with b by lia. rdm. auto.
  - intros x Hx. rdm. reflexivity.
Qed.

(** Dynamic allocation. *)
Lemma dyn_alloc_dec usf gran p0 l p m :
  items_ok ([U 3 usf; U 1 gran] ++ opt (fun x : Z * Z => [U 4 (fst x); U 1 (snd x)]) p0) ->
  runs 80 19 DynamicAllocation_t run_mode p ([U 3 usf; U 1 gran] ++ opt (fun x : Z * Z => [U 4 (fst x); U 1 (snd x)]) p0 ++ l) m
    (leaves bits nbits (fun l1 m1 => l1 = l /\ m1 19 = usf /\ same 19 m m1)).
Proof.
  intros K. oks. assert (0 <= usf < 256) by (small; lia). cbn [app]. unfold DynamicAllocation_t. do 2 stepu. apply step_opt; [reflexivity|reflexivity| |].
  - intros a ->. cbn [opt app] in *. oks. do 2 stepu. apply runs_end. norm.
    split; [reflexivity|]. split; [rdm; reflexivity|intros x Hx; rdm; reflexivity].
  - intros _. do 2 (apply step_skip; [reflexivity|]). apply runs_end. split; [reflexivity|].
    norm. split; [rdm; reflexivity|intros x Hx; rdm; reflexivity].
Qed.
Lemma dynamic_dec tfi poll usf gran p0 ccc tbcc alpha gamma tai start l p m :
  items_ok (ia_dynamic tfi poll usf gran p0 ccc tbcc alpha gamma tai start) ->
  runs 80 16 GPRS_DynamicOrFixedAllocation_t run_mode p
    ([U 5 tfi; U 1 poll; U 1 0; U 3 usf; U 1 gran] ++ opt (fun x : Z * Z => [U 4 (fst x); U 1 (snd x)]) p0 ++ [U 2 ccc; U 1 tbcc] ++
     opt (fun a => [U 4 a]) alpha ++ [U 5 gamma] ++ opt (fun t => [U 4 t]) tai ++ opt starting_time start ++ l) m
    (leaves bits nbits (fun l1 m1 => l1 = l /\
       m1 16 = tfi /\ m1 18 = 0 /\ m1 19 = usf /\ m1 24 = ccc /\ start_at m1 31 32 start /\ same 16 m m1)).
Proof.
  intros K. unfold ia_dynamic in K. oks. assert (0 <= tfi < 256 /\ 0 <= usf < 256 /\ 0 <= ccc < 256) as (Rt & Ru & Rc) by (small; lia).
  cbn [app]. unfold GPRS_DynamicOrFixedAllocation_t. do 2 stepu. apply step_union2; [auto|reflexivity|]. 
  eapply step_sel_type; [left; reflexivity|apply dyn_alloc_dec; okk|].
  norm. 
  intros p1 l1 m1 (-> & E19 & Sm). apply step_skip; [reflexivity|]. cbn [rest].
  assert (E16 : m1 16 = tfi) by (rewrite Sm by lia; rdm; reflexivity). assert (E18 : m1 18 = 0) by (rewrite Sm by lia; rdm; reflexivity).
  assert (S16 : same 16 m m1) by (intros x Hx; rewrite Sm by lia; rdm; reflexivity). clear Sm.
  do 2 stepu. norm. 
  set (Q := leaves _ _ _).
  set (d3 := DNext false 1 15 _ _ _).
  assert (T3 : forall p m2, m2 16 = tfi -> m2 18 = 0 -> m2 19 = usf -> m2 24 = ccc -> same 16 m m2 ->
    runs 80 16 d3 run_mode p (opt starting_time start ++ l) m2 Q).
  { intros p' m2 F16 F18 F19 F24 SS. unfold d3. apply step_opt; [reflexivity|reflexivity| |].
    - intros t ->. eapply step_type; [left; reflexivity|apply start_dec; [cbn; lia|cbn [opt] in *; oks; assumption]|].
      norm. intros p2 l2 m3 (-> & T & S3). apply runs_end. unfold start_at. repeat split; try (rewrite S3 by lia; rdm; auto; fail); auto.
      + intros x Hx. rewrite S3 by lia. rdm. apply SS. exact Hx.
    - intros ->. apply step_skip; [reflexivity|]. apply runs_end. norm. unfold start_at. repeat split; try (rdm; auto; fail).
      intros x Hx. rdm. apply SS. exact Hx. }
  clearbody d3. set (d2 := DNext false 1 13 _ _ _).
  assert (T2 : forall p m2, m2 16 = tfi -> m2 18 = 0 -> m2 19 = usf -> m2 24 = ccc -> same 16 m m2 ->
    runs 80 16 d2 run_mode p (opt (fun t => [U 4 t]) tai ++ opt starting_time start ++ l) m2 Q).
  { intros p' m2 F16 F18 F19 F24 SS. unfold d2. apply step_opt; [reflexivity|reflexivity| |].
    - intros t ->. cbn [opt app] in *. oks. stepu. norm. apply T3; try (rdm; assumption).
      intros x Hx. rdm. apply SS. exact Hx.
    - intros _. apply step_skip; [reflexivity|]. cbn [rest]. norm. apply T3; try (rdm; assumption). intros x Hx. rdm. apply SS. exact Hx. }
  clearbody d2. apply step_opt; [reflexivity|reflexivity| |].
  - intros a ->. cbn [opt app] in *. oks. do 2 stepu. norm. apply T2; try (rdm; auto; fail).
    intros x Hx. rdm. apply S16. exact Hx.
  - intros _. apply step_skip; [reflexivity|]. cbn [rest app]. stepu. norm. apply T2; try (rdm; auto; fail).
    intros x Hx. rdm. apply S16. exact Hx.
Qed.

(** Single block allocation. *)
Lemma single_dec alpha gamma start p0 l p m : items_ok (ia_single alpha gamma start p0) ->
  runs 80 16 GPRS_SingleBlockAllocation_t run_mode p
    (opt (fun a => [U 4 a]) alpha ++ [U 5 gamma; U 2 1] ++ starting_time start ++
     opt_lh (fun x : Z * Z * Z => [U 4 (fst (fst x)); U 1 (snd (fst x)); U 1 (snd x)]) p0 ++ l) m
    (leaves bits nbits (fun l1 m1 => l1 = l /\ time_at m1 23 start /\ same 16 m m1)).
Proof.
  intros K. unfold ia_single in K. oks. unfold GPRS_SingleBlockAllocation_t.
  set (Q := leaves _ _ _). set (d1 := DUint 5 _ _ _ _).
  assert (T1 : forall p m2, same 16 m m2 -> runs 80 16 d1 run_mode p
    ([U 5 gamma; U 2 1] ++ starting_time start ++
     opt_lh (fun x : Z * Z * Z => [U 4 (fst (fst x)); U 1 (snd (fst x)); U 1 (snd x)]) p0 ++ l) m2 Q).
  { intros p' m2 SS. unfold d1. cbn [app]. stepu. eapply step_fixed; [reflexivity|lia|lia|].
    eapply step_type; [left; reflexivity|apply start_dec; [cbn; lia|assumption]|].
    norm. intros p2 l2 m3 (-> & T & S3). change (16 + 7) with 23 in *. assert (S16 : same 16 m m3) by (intros x Hx; rewrite S3 by lia; rdm; auto).
    destruct start as [[t1 t3] t2]. destruct T as (Ta & Tb & Tc). change (23 + 1) with 24 in *. change (23 + 2) with 25 in *.
    apply step_optlh; [reflexivity|reflexivity| |].
    - intros a ->. cbn [opt_lh app] in *. oks. do 3 stepu. norm. apply runs_end. split; [reflexivity|]. unfold time_at.
      split; [change (23 + 1) with 24; change (23 + 2) with 25; rdm; auto|intros x Hx; rdm; auto].
    - intros _. do 3 (apply step_skip; [reflexivity|]). norm. apply runs_end. split; [reflexivity|]. unfold time_at.
      split; [change (23 + 1) with 24; change (23 + 2) with 25; rdm; auto|intros x Hx; rdm; auto]. }
  clearbody d1. apply step_opt; [reflexivity|reflexivity| |].
  - intros a ->. cbn [opt app] in *. oks. stepu. norm. apply T1. intros x Hx. rdm. reflexivity.
  - intros _. apply step_skip; [reflexivity|]. norm. apply T1. intros x Hx. rdm. reflexivity.
Qed.

(** What follows the assignment does not change it. *)
Lemma ul_additions r99 n p m : items_ok (ul_tail r99 n) ->
  runs 80 12 (Nat.iter 3 rest Packet_Uplink_ImmAssignment_t) run_mode p (ul_tail r99 n) m
    (leaves bits nbits (fun l1 m1 => (exists n', l1 = spare n') /\ same 36 m m1)).
Proof.
  intros K. cbn [Nat.iter nat_rect rest Packet_Uplink_ImmAssignment_t]. unfold ul_tail in *. oks. destruct r99 as [x|].
  - cbn [app] in *. apply step_nextlh; [left; reflexivity|reflexivity|]. cbn [b2z].
    eapply step_type with (R := fun l1 m1 => l1 = spare n /\ same 36 m m1); [left; reflexivity| |].
    + unfold PU_IA_AdditionsR99_t. apply step_opt; [reflexivity|reflexivity| |].
      * intros a ->. cbn [opt] in *. oks. cbn [app]. stepu. norm. apply runs_end. split; [reflexivity|]. intros y Hy. rdm. reflexivity.
      * intros _. apply step_skip; [reflexivity|]. norm. apply runs_end. split; [reflexivity|]. intros y Hy. rdm. reflexivity.
    + intros p1 l1 m1 (-> & S1). apply runs_end. eauto.
  - cbn [app]. apply step_spare; [reflexivity|]. intros p' j'. apply step_skip; [reflexivity|]. apply runs_end. norm. split; [eauto|].
    intros y Hy. rdm. reflexivity.
Qed.
Lemma hh_additions n p m (R : mem -> Prop) : (forall m1, same 52 m m1 -> R m1) ->
  runs 80 4 (Nat.iter 3 rest IA_RestOctetsHH_t) run_mode p (spare n) m (leaves bits nbits (fun _ m1 => R m1)).
Proof.
  intros K. cbn [Nat.iter nat_rect rest IA_RestOctetsHH_t]. apply step_spare; [reflexivity|]. intros p1 n1. do 2 (apply step_skip; [reflexivity|]).
  apply step_spare; [reflexivity|]. intros p2 n2. do 2 (apply step_skip; [reflexivity|]). apply runs_end. norm. apply K. intros x Hx. rdm. reflexivity.
Qed.

(** An assignment of the kind [u] (0: uplink, 1: downlink). *)
Lemma hh_dec u sub l p m (R1 : list item -> mem -> Prop) (R : mem -> Prop) :
  (u = 0 /\ sub = Packet_Uplink_ImmAssignment_t \/ u = 1 /\ sub = Packet_Downlink_ImmAssignment_t) ->
  (forall p' m', m' 0 = 3 -> m' 4 = 0 -> m' 8 = u -> (forall x, 8 < x -> m' x = m x) -> runs 80 12 sub run_mode p' l m' (leaves bits nbits R1)) ->
  (forall l1 m1, R1 l1 m1 -> (exists n, l1 = spare n) /\ forall m2, same 52 m1 m2 -> R m2) ->
  runs 80 0 IA_RestOctets_t run_mode p ([F true; F true; U 1 0; U 1 u] ++ l) m (fun s => R (s_mem s)).
Proof.
  intros U Sub C. unfold IA_RestOctets_t. cbn [app]. apply step_union4lh; [reflexivity|]. cbn [b2z]. change (Z.to_nat (2 * 1 + 1)) with 3%nat.
  do 3 (apply step_sel; [reflexivity|]). change (2 * 1 + 1) with 3. cbn [rest].
  eapply step_sel_type with (R := fun _ m1 => R m1); [left; reflexivity| |].
  2: { intros p1 l1 m1 H. apply runs_pad with (R := R). exact H. }
  norm. unfold IA_RestOctetsHH_t. apply step_union2; [auto|reflexivity|]. change (Z.to_nat 0) with 0%nat.
  eapply step_sel_type with (R := R1); [left; reflexivity| |].
  - norm. unfold IA_PacketAssignment_UL_DL_t. destruct U as [(-> & ->)|(-> & ->)].
    + apply step_union2; [auto|reflexivity|]. change (Z.to_nat 0) with 0%nat. norm.
      eapply step_sel_type; [left; reflexivity|apply Sub; [rdm; reflexivity|rdm; reflexivity|rdm; reflexivity|intros x Hx; rdm; reflexivity]|]. intros p1 l1 m1 H. apply step_skip; [reflexivity|]. apply runs_end. exact H.
    + apply step_union2; [auto|reflexivity|]. change (Z.to_nat 1) with 1%nat. norm. apply step_sel; [reflexivity|].
      eapply step_sel_type; [left; reflexivity|apply Sub; [rdm; reflexivity|rdm; reflexivity|rdm; reflexivity|intros x Hx; rdm; reflexivity]|]. intros p1 l1 m1 H. apply runs_end. exact H.
  - intros p1 l1 m1 H. apply C in H as ((n & ->) & H). apply step_skip; [reflexivity|]. apply hh_additions. exact H.
Qed.

Lemma ia_dynamic_dec tfi poll usf gran p0 ccc tbcc alpha gamma tai start r99 n p m :
  items_ok (ia_dynamic tfi poll usf gran p0 ccc tbcc alpha gamma tai start ++ ul_tail r99 n) ->
  runs 80 0 IA_RestOctets_t run_mode p (ia_dynamic tfi poll usf gran p0 ccc tbcc alpha gamma tai start ++ ul_tail r99 n) m
    (fun s => let m := s_mem s in m 0 = 3 /\ m 4 = 0 /\ m 8 = 0 /\ m 12 = 1 /\ m 16 = tfi /\ m 18 = 0 /\ m 19 = usf /\ m 24 = ccc /\ start_at m 31 32 start).
Proof.
  intros K. apply Forall_app in K as [K1 K2]. cbv zeta.
  set (R := fun m : mem => m 0 = 3 /\ m 4 = 0 /\ m 8 = 0 /\ m 12 = 1 /\ m 16 = tfi /\ m 18 = 0 /\ m 19 = usf /\ m 24 = ccc /\ start_at m 31 32 start).
  change (runs 80 0 IA_RestOctets_t run_mode p (ia_dynamic tfi poll usf gran p0 ccc tbcc alpha gamma tai start ++ ul_tail r99 n) m (fun s => R (s_mem s))).
  assert (G : forall m1 m2, R m1 -> same 36 m1 m2 -> R m2).
  { intros m1 m2 H S. unfold R, start_at in *. rewrite !S by lia. destruct start as [[[t1 t3] t2]|]; [unfold time_at in *; rewrite !S by lia|]; exact H. }
  unfold ia_dynamic. rewrite <- !app_assoc.
  change ([F true; F true; U 1 0; U 1 0; U 1 1; U 5 tfi; U 1 poll; U 1 0; U 3 usf; U 1 gran] ++ ?l)
    with ([F true; F true; U 1 0; U 1 0] ++ U 1 1 :: [U 5 tfi; U 1 poll; U 1 0; U 3 usf; U 1 gran] ++ l).
  eapply hh_dec with (R1 := fun l1 m1 => (exists n', l1 = spare n') /\ R m1); [left; split; reflexivity| |].
  - intros p' m' E0 E4 E8 _. unfold Packet_Uplink_ImmAssignment_t. apply step_union2; [auto|reflexivity|]. change (Z.to_nat 1) with 1%nat.
    apply step_sel; [reflexivity|]. eapply step_sel_type; [left; reflexivity|apply dynamic_dec; exact K1|].
    norm. intros p1 l1 m1 (-> & E16 & E18 & E19 & E24 & St & S16).
    assert (H : R m1). { unfold R. rewrite !(S16 0), !(S16 4), !(S16 8), !(S16 12) by lia. rdm. repeat split; auto. }
    eapply runs_imp; [|apply ul_additions; exact K2]. intros s (p2 & l2 & m2 & S2 & X2 & Sm). exists p2, l2, m2. split; [exact S2|]. split; [exact X2|]. eapply G; eauto.
  - intros l1 m1 (X & H). split; [exact X|]. intros m2 S2. eapply G; [exact H|]. intros x Hx. apply S2. lia.
Qed.
Lemma ia_single_dec alpha gamma start p0 r99 n p m :
  items_ok (ia_single alpha gamma start p0 ++ ul_tail r99 n) ->
  runs 80 0 IA_RestOctets_t run_mode p (ia_single alpha gamma start p0 ++ ul_tail r99 n) m
    (fun s => let m := s_mem s in m 0 = 3 /\ m 4 = 0 /\ m 8 = 0 /\ m 12 = 0 /\ time_at m 23 start).
Proof.
  intros K. apply Forall_app in K as [K1 K2]. cbv zeta.
  set (R := fun m : mem => m 0 = 3 /\ m 4 = 0 /\ m 8 = 0 /\ m 12 = 0 /\ time_at m 23 start).
  change (runs 80 0 IA_RestOctets_t run_mode p (ia_single alpha gamma start p0 ++ ul_tail r99 n) m (fun s => R (s_mem s))).
  assert (G : forall m1 m2, R m1 -> same 36 m1 m2 -> R m2).
  { intros m1 m2 H S. unfold R, time_at in *. destruct start as [[t1 t3] t2]. rewrite !S by lia. exact H. }
  unfold ia_single. rewrite <- !app_assoc.
  change ([F true; F true; U 1 0; U 1 0; U 1 0] ++ ?l) with ([F true; F true; U 1 0; U 1 0] ++ U 1 0 :: l).
  eapply hh_dec with (R1 := fun l1 m1 => (exists n', l1 = spare n') /\ R m1); [left; split; reflexivity| |].
  - intros p' m' E0 E4 E8 _. unfold Packet_Uplink_ImmAssignment_t. apply step_union2; [auto|reflexivity|]. change (Z.to_nat 0) with 0%nat.
    eapply step_sel_type; [left; reflexivity|apply single_dec; exact K1|].
    norm. intros p1 l1 m1 (-> & St & S16). apply step_skip; [reflexivity|].
    assert (H : R m1). { unfold R. rewrite !(S16 0), !(S16 4), !(S16 8), !(S16 12) by lia. rdm. repeat split; auto. }
    eapply runs_imp; [|apply ul_additions; exact K2]. intros s (p2 & l2 & m2 & S2 & X2 & Sm). exists p2, l2, m2. split; [exact S2|]. split; [exact X2|]. eapply G; eauto.
  - intros l1 m1 (X & H). split; [exact X|]. intros m2 S2. eapply G; [exact H|]. intros x Hx. apply S2. lia.
Qed.

(** Downlink assignment. *)
Definition tfi_part (x : Z * Z * option Z * Z * Z * Z) : list item :=
  let '(tfi, mode, alpha, gamma, poll, valid) := x in
  [U 5 tfi; U 1 mode] ++ opt (fun a => [U 4 a]) alpha ++ [U 5 gamma; U 1 poll; U 1 valid].
Definition dl_facts (tlli : Z) (t : option (Z * Z * option Z * Z * Z * Z)) (start : option (Z * Z * Z)) (old m : mem) : Prop :=
  m 0 = 3 /\ m 4 = 0 /\ m 8 = 1 /\ rdle m 12 4 = tlli /\
  match t with None => m 16 = 0 /\ m 17 = old 17 | Some (tfi, _, _, _, _, _) => m 17 = tfi end /\ start_at m 26 27 start.
Lemma dl_dec tlli t tai start p0 r99 n p m old :
  items_ok (ia_downlink tlli t tai start p0 ++ dl_tail r99 n) -> m 0 = 3 -> m 4 = 0 -> m 8 = 1 -> m 17 = old 17 ->
  runs 80 12 Packet_Downlink_ImmAssignment_t run_mode p
    (U 32 tlli :: opt tfi_part t ++ opt (fun t => [U 4 t]) tai ++ opt starting_time start ++
     opt (fun x : Z * Z * Z => [U 4 (fst (fst x)); U 1 (snd (fst x)); U 1 (snd x)]) p0 ++ dl_tail r99 n) m
    (leaves bits nbits (fun l1 m1 => (exists n', l1 = spare n') /\ dl_facts tlli t start old m1)).
Proof.
  intros K E0 E4 E8 E17. apply Forall_app in K as [K1 K2]. unfold ia_downlink in K1. oks.
  set (Q := leaves _ _ _). unfold Packet_Downlink_ImmAssignment_t.
  set (d5 := DNext true 1 24 _ _ _).
  assert (T5 : forall p m1, dl_facts tlli t start old m1 -> runs 80 12 d5 run_mode p (dl_tail r99 n) m1 Q).
  { intros p' m1 HF. assert (G : forall m2, same 36 m1 m2 -> dl_facts tlli t start old m2).
    { intros m2 S. unfold dl_facts, start_at in *. cbn [rdle] in *. rewrite !S by lia.
      destruct start as [[[t1 t3] t2]|]; [unfold time_at in *; rewrite !S by lia|]; exact HF. }
    clear HF. unfold d5, dl_tail in *. oks. destruct r99 as [[[w ll] b]|].
    - cbn [app] in *. oks. apply step_nextlh; [left; reflexivity|reflexivity|]. cbn [b2z].
      eapply step_type with (R := fun l1 m2 => l1 = spare n /\ same 36 m1 m2); [left; reflexivity| |].
      + unfold PD_IA_AdditionsR99_t. do 2 stepu. apply step_opt; [reflexivity|reflexivity| |].
        * intros a ->. cbn [opt] in *. oks. cbn [app]. stepu. norm. apply runs_end. split; [reflexivity|]. intros y Hy. rdm. reflexivity.
        * intros _. apply step_skip; [reflexivity|]. norm. apply runs_end. split; [reflexivity|]. intros y Hy. rdm. reflexivity.
      + intros p1 l1 m2 (-> & S1). apply runs_end. eauto.
    - cbn [app]. apply step_spare; [reflexivity|]. intros p1 j'. apply step_skip; [reflexivity|]. apply runs_end. norm. split; [eauto|].
      apply G. intros y Hy. rdm. reflexivity. }
  clearbody d5. set (d4 := DNext false 3 18 _ _ _).
  assert (T4 : forall p m1, dl_facts tlli t start old m1 -> runs 80 12 d4 run_mode p
     (opt (fun x : Z * Z * Z => [U 4 (fst (fst x)); U 1 (snd (fst x)); U 1 (snd x)]) p0 ++ dl_tail r99 n) m1 Q).
  { intros p' m1 HF. assert (G : forall m2, same 30 m1 m2 -> dl_facts tlli t start old m2).
    { intros m2 S. unfold dl_facts, start_at in *. cbn [rdle] in *. rewrite !S by lia.
      destruct start as [[[t1 t3] t2]|]; [unfold time_at in *; rewrite !S by lia|]; exact HF. }
    clear HF. unfold d4. apply step_opt; [reflexivity|reflexivity| |].
    - intros a ->. cbn [opt app] in *. oks. do 3 stepu. norm. apply T5. apply G. intros x Hx. rdm. reflexivity.
    - intros _. do 3 (apply step_skip; [reflexivity|]). norm. apply T5. apply G. intros x Hx. rdm. reflexivity. }
  clearbody d4. set (d3 := DNext false 1 14 _ _ _).
  assert (T3 : forall p m1, dl_facts tlli t None old (upds m1 26 1 0) -> runs 80 12 d3 run_mode p
     (opt starting_time start ++ opt (fun x : Z * Z * Z => [U 4 (fst (fst x)); U 1 (snd (fst x)); U 1 (snd x)]) p0 ++ dl_tail r99 n) m1 Q).
  { intros p' m1 HF. unfold d3. apply step_opt; [reflexivity|reflexivity| |].
    - intros st ->. eapply step_type; [left; reflexivity|apply start_dec; [cbn; lia|cbn [opt] in *; oks; assumption]|].
      norm. change (12 + 15) with 27 in *. intros p2 l2 m3 (-> & T & S3). apply T4. unfold dl_facts in *. cbn [rdle] in *.
      rewrite !S3 by lia.
      repeat rewrite upd_off in HF by lia. repeat rewrite upd_off by lia. destruct HF as (h1 & h2 & h3 & h4 & h5 & h6).
      repeat (split; [assumption|]). split; [|exact T]. rewrite S3 by lia. rdm. reflexivity.
    - intros ->. apply step_skip; [reflexivity|]. norm. apply T4. exact HF. }
  clearbody d3. set (d2 := DNext false 1 12 _ _ _).
  assert (T2 : forall p m1, (m1 0 = 3 /\ m1 4 = 0 /\ m1 8 = 1 /\ rdle m1 12 4 = tlli /\
     match t with None => m1 16 = 0 /\ m1 17 = old 17 | Some (tfi, _, _, _, _, _) => m1 17 = tfi end) -> runs 80 12 d2 run_mode p
     (opt (fun t => [U 4 t]) tai ++ opt starting_time start ++
      opt (fun x : Z * Z * Z => [U 4 (fst (fst x)); U 1 (snd (fst x)); U 1 (snd x)]) p0 ++ dl_tail r99 n) m1 Q).
  { intros p' m1 HF. unfold d2. apply step_opt; [reflexivity|reflexivity| |].
    - intros a ->. cbn [opt app] in *. oks. stepu. norm. apply T3. unfold dl_facts, start_at. cbn [rdle]. 
      repeat rewrite upd_off by lia. rewrite upd_at by lia. tauto. 
    - intros _. apply step_skip; [reflexivity|]. norm. apply T3. unfold dl_facts, start_at. cbn [rdle].
      repeat rewrite upd_off by lia. rewrite upd_at by lia. tauto.  }
  clearbody d2. stepu. norm.
  set (m1 := upds m 12 4 tlli).
  assert (X : m1 0 = 3 /\ m1 4 = 0 /\ m1 8 = 1 /\ rdle m1 12 4 = tlli /\ m1 17 = old 17).
  { unfold m1. cbn [upds rdle]. unfold upd1. cbn [Z.eqb Z.add Pos.add Pos.eqb Pos.succ]. repeat split; auto.
    assert (V : 0 <= tlli < 2 ^ 32) by num. rewrite Z.add_0_r. 
    pose proof (Z.div_mod tlli 256 ltac:(lia)). pose proof (Z.div_mod (tlli / 256) 256 ltac:(lia)). pose proof (Z.div_mod (tlli / 256 / 256) 256 ltac:(lia)).
    assert (0 <= tlli / 256 / 256 / 256 < 256) by lia.
    rewrite (Z.mod_small (tlli / 256 / 256 / 256)) by lia. lia. }
  clearbody m1. destruct X as (X0 & X4 & X8 & X12 & X17). cbn [rdle] in X12.
  apply step_opt; [reflexivity|reflexivity| |].
  - intros [[[[[tfi mode] alpha] gamma] poll] valid] ->. cbn [opt] in *. unfold tfi_part in *. oks. rewrite <- !app_assoc. cbn [app].
    assert (0 <= tfi < 256) by (small; lia). do 2 stepu. apply step_opt; [reflexivity|reflexivity| |].
    + intros a ->. cbn [opt app] in *. oks. do 4 stepu. norm. apply T2. cbn [rdle]. rdm. repeat split; try assumption; try reflexivity.
    + intros _. apply step_skip; [reflexivity|]. cbn [rest]. do 3 stepu. norm. apply T2. cbn [rdle]. rdm. repeat split; try assumption; try reflexivity.
  - intros ->. do 7 (apply step_skip; [reflexivity|]). norm. apply T2. cbn [rdle]. rdm. repeat split; try assumption; try reflexivity.
Qed.
Lemma ia_downlink_dec tlli t tai start p0 r99 n p m :
  items_ok (ia_downlink tlli t tai start p0 ++ dl_tail r99 n) ->
  runs 80 0 IA_RestOctets_t run_mode p (ia_downlink tlli t tai start p0 ++ dl_tail r99 n) m
    (fun s => dl_facts tlli t start m (s_mem s)).
Proof.
  intros K. pose proof K as K'. unfold ia_downlink. rewrite <- !app_assoc.
  change ([F true; F true; U 1 0; U 1 1; U 32 tlli] ++ ?l) with ([F true; F true; U 1 0; U 1 1] ++ U 32 tlli :: l).
  set (old := m). fold tfi_part.
  eapply hh_dec with (R1 := fun l1 m1 => (exists n', l1 = spare n') /\ dl_facts tlli t start old m1) (R := dl_facts tlli t start old); [right; split; reflexivity| |].
  - intros p' m' F0 F4 F8 F9. apply dl_dec; auto. apply F9. lia.
  - intros l1 m1 (X & H). split; [exact X|]. intros m2 S2. unfold dl_facts, start_at in *. cbn [rdle] in *. rewrite !S2 by lia.
      destruct start as [[[t1 t3] t2]|]; [unfold time_at in *; rewrite !S2 by lia|]; exact H.
Qed.

(** *** System information type 13 *)
Lemma rep_ok n l : items_ok (repeated n l) -> Forall (fun v => 0 <= v < 2 ^ Z.of_nat n) l.
Proof.
  unfold repeated. induction l as [|v l IH]; intros H; [constructor|]. cbn [flat_map app] in H. oks. constructor; [assumption|].
  apply IH. apply Forall_app. split; [assumption|]. constructor; [assumption|constructor].
Qed.
Lemma rep_size n l : zlen l * (1 + Z.of_nat n) <= size (repeated n l).
Proof. unfold repeated, zlen. induction l as [|v l IH]; cbn [flat_map app size width_of length] in *; lia. Qed.
(** A step may use that the message is that long. *)
Lemma runs_here lim base d md p l m Q : (size l <= nbits -> runs lim base d md p l m Q) -> runs lim base d md p l m Q.
Proof. intros H X. apply H; [|exact X]. destruct X as (P & S & _). lia. Qed.

Lemma ma_dec hsn rfl f l p m : nbits <= 160 -> items_ok (gprs_ma hsn rfl f) -> (forall b, f = inr b -> 1 <= zlen b <= 64) ->
  runs 84 7 GPRS_Mobile_Allocation_t run_mode p (gprs_ma hsn rfl f ++ l) m (leaves bits nbits (fun l1 _ => l1 = l)).
Proof.
  intros NB K B. apply runs_here. intros Sz. unfold gprs_ma in *. rewrite !size_app in Sz. cbn [size width_of] in Sz.
  assert (S0 := size_nonneg l). assert (S1 := rep_size 4 rfl). assert (S4 := size_nonneg (repeated 4 rfl)). oks. rewrite <- !app_assoc. cbn [app]. unfold GPRS_Mobile_Allocation_t. stepu.
  unfold repeated at 1. rewrite <- !app_assoc. cbn [app].
  assert (S2 : 0 <= size (match f with inl idx => U 1 1 :: repeated 6 idx | inr b => [U 1 0; U 6 (zlen b - 1); Any b] end)) by apply size_nonneg.
  apply step_recarr; [reflexivity|lia|lia|reflexivity|apply (rep_ok 4); assumption|]. intros p1 m1. destruct f as [idx|b]; cbn [app].
  - cbn [size width_of] in Sz, S2. assert (S3 := rep_size 6 idx).
    apply step_union2; [auto|reflexivity|]. apply step_sel; [reflexivity|]. eapply step_sel_type with (R := fun l1 _ => l1 = l); [left; reflexivity| |].
    + unfold repeated. rewrite <- app_assoc. cbn [app]. unfold ARFCN_index_list_t. oks.
      apply step_recarr; [reflexivity|lia|lia|reflexivity|apply (rep_ok 6); assumption|]. intros. apply runs_end. reflexivity.
    + intros ? ? ? ->. apply runs_end. reflexivity.
  - specialize (B b eq_refl). oks. apply step_union2; [auto|reflexivity|]. eapply step_sel_type with (R := fun l1 _ => l1 = l); [left; reflexivity| |].
    + unfold MobileAllocation_t. eapply step_uintoff; [reflexivity|lia|num|reflexivity|].
      apply step_varbmp; [|lia|lia|intros; apply runs_end; reflexivity].
      change (7 + 7 + 9) with 23. change (width 6) with 1%nat. cbn [upds]. unfold upd1. cbn [Z.eqb Pos.eqb]. rewrite Z.mod_small by lia. lia.
    + intros ? ? ? ->. apply step_skip; [reflexivity|]. apply runs_end. reflexivity.
Qed.

Lemma options_dec nmo t3168 t3192 drx abt cat bscv pan ext l p m : items_ok (cell_options nmo t3168 t3192 drx abt cat bscv pan ext) ->
  (forall b, ext = Some b -> 1 <= zlen b <= 64) ->
  runs 84 36 GPRS_Cell_Options_t run_mode p (cell_options nmo t3168 t3192 drx abt cat bscv pan ext ++ l) m
    (leaves bits nbits (fun l1 m1 => l1 = l /\ m1 37 = t3168 /\ m1 38 = t3192)).
Proof.
  intros K B. unfold cell_options in *. oks. cbn [app]. unfold GPRS_Cell_Options_t.
  assert (T : forall p m, m 37 = t3168 -> m 38 = t3192 -> runs 84 36 (Nat.iter 11 rest GPRS_Cell_Options_t) run_mode p
     (opt (fun b => [U 6 (zlen b - 1); Any b]) ext ++ l) m (leaves bits nbits (fun l1 m1 => l1 = l /\ m1 37 = t3168 /\ m1 38 = t3192))).
  { intros p1 m1 E1 E2. cbn [Nat.iter nat_rect rest GPRS_Cell_Options_t]. apply step_opt; [reflexivity|reflexivity| |].
    - intros b ->. specialize (B b eq_refl). cbn [opt] in *. oks.
      eapply step_type with (R := fun l1 m1 => l1 = l /\ m1 37 = t3168 /\ m1 38 = t3192); [left; reflexivity| |].
      + cbn [app]. unfold Extension_Bits_t. eapply step_uintoff; [reflexivity|lia|num|reflexivity|].
        apply step_varbmp; [|lia|lia|].
        * norm. change (36 + 12 + 0) with 48. cbn [upds]. unfold upd1. cbn [Z.eqb Pos.eqb]. rewrite Z.mod_small by lia. lia.
        * intros p2 m2 K2. apply runs_end. split; [reflexivity|]. rewrite !K2 by lia. split; assumption.
      + intros p2 l2 m2 (-> & ? & ?). apply runs_end. split; [reflexivity|]. split; assumption.
    - intros _. apply step_skip; [reflexivity|]. apply runs_end. split; [reflexivity|]. split; assumption. }
  do 7 stepu. rewrite <- app_assoc. apply step_opt; [reflexivity|reflexivity| |].
  - intros [[a b] c] ->. cbn [opt fst snd app] in *. oks. do 3 stepu. apply T; norm; cbn in H2, H3; rdm; reflexivity.
  - intros _. do 3 (apply step_skip; [reflexivity|]). apply T; norm; cbn in H2, H3; rdm; reflexivity.
Qed.

(** The additions leave the timers alone. *)
Definition keeps (t3168 t3192 : Z) (l1 : list item) (m1 : mem) : Prop := m1 37 = t3168 /\ m1 38 = t3192.
Lemma or_null_dec {A} (f : A -> list item) x base off room o2 room2 sub p m a b r Q :
  fits 84 base off 1 = true -> 38 < base + off -> m 37 = a -> m 38 = b ->
  (forall p m y, x = inr y -> m 37 = a -> m 38 = b -> runs 84 (base + o2) sub run_mode p (f y) m (leaves bits nbits (keeps a b))) ->
  (forall p l m, keeps a b l m -> runs 84 base r run_mode p l m Q) ->
  runs 84 base (DNext true 1 off room true (DType o2 room2 false sub r)) run_mode p (or_null f x) m Q.
Proof.
  intros Fi G E1 E2 Sub R.
  assert (U1 : forall v, upds m (base + off) 1 v 37 = a /\ upds m (base + off) 1 v 38 = b).
  { intros v. rewrite !upds_below by lia. split; assumption. }
  destruct x as [[more|]|y]; cbn [or_null].
  - apply step_nextlh; [discriminate|exact Fi|]. apply step_skip; [reflexivity|]. apply R. apply U1.
  - apply step_next0; [exact Fi|]. apply step_skip; [reflexivity|]. apply R. apply U1.
  - apply step_nextlh; [left; reflexivity|exact Fi|]. cbv iota. eapply step_type; [left; reflexivity|apply Sub; [reflexivity|apply U1..]|].
    intros. apply R. assumption.
Qed.
Lemma si13_r6_dec x p m a b : items_ok (si13_r6 x) -> m 37 = a -> m 38 = b ->
  runs 84 78 SI13_AdditionsR6 run_mode p (si13_r6 x) m (leaves bits nbits (keeps a b)).
Proof.
  destruct x as [[pw n] more]. unfold si13_r6. intros K E1 E2. oks. unfold SI13_AdditionsR6.
  apply step_opt; [reflexivity|reflexivity| |].
  - intros v ->. cbn [opt app] in *. oks. do 2 stepu. apply runs_end. unfold keeps. norm. rdm. auto.
  - intros ->. apply step_skip; [reflexivity|]. stepu. apply runs_end. unfold keeps. norm. rdm. auto.
Qed.
Lemma si13_r4_dec x p m a b : items_ok (si13_r4 x) -> m 37 = a -> m 38 = b ->
  runs 84 76 SI13_AdditionsR4 run_mode p (si13_r4 x) m (leaves bits nbits (keeps a b)).
Proof.
  destruct x as [v x]. unfold si13_r4. cbn [fst snd]. intros K E1 E2. oks. unfold SI13_AdditionsR4. stepu.
  apply or_null_dec with (a := a) (b := b); [reflexivity|lia|norm; rdm; assumption|norm; rdm; assumption| |].
  - intros p' m' y -> ? ?. cbn [or_null] in *. oks. apply si13_r6_dec; assumption.
  - intros. apply runs_end. assumption.
Qed.
Lemma si13_r99_dec x p m a b : items_ok (si13_r99 x) -> m 37 = a -> m 38 = b ->
  runs 84 68 SI13_AdditionR99 run_mode p (si13_r99 x) m (leaves bits nbits (keeps a b)).
Proof.
  destruct x as [v x]. unfold si13_r99. cbn [fst snd]. intros K E1 E2. oks. unfold SI13_AdditionR99. stepu.
  apply or_null_dec with (a := a) (b := b); [reflexivity|lia|norm; rdm; assumption|norm; rdm; assumption| |].
  - intros p' m' y -> ? ?. cbn [or_null] in *. oks. apply si13_r4_dec; assumption.
  - intros. apply runs_end. assumption.
Qed.

(** A mobile allocation and an extension as 44.018 has them. *)
Definition ma_items (x : Z * (Z * list Z * (list Z + list bool))) : Z * list item := (fst x, let '(h, r, f) := snd x in gprs_ma h r f).
Lemma si13_dec mark field ma rac spgc prio nco nmo t3168 t3192 drx abt cat bscv pan ext al tw tt pc nav add p m :
  nbits <= 160 ->
  let l := si13_rest mark field (option_map ma_items ma) rac spgc prio nco (cell_options nmo t3168 t3192 drx abt cat bscv pan ext)
    (power_control al tw tt pc nav) add in
  items_ok l -> (forall x b, ma = Some x -> snd (snd x) = inr b -> 1 <= zlen b <= 64) -> (forall b, ext = Some b -> 1 <= zlen b <= 64) ->
  runs 84 0 SI13_RestOctets_t run_mode p l m (fun s => s_mem s 37 = t3168 /\ s_mem s 38 = t3192).
Proof.
  intros NB l K BM BE. unfold l, si13_rest in *. clear l. set (Q := fun s : cst => _). oks.
  assert (T3 : forall p m, m 37 = t3168 -> m 38 = t3192 -> runs 84 0 (Nat.iter 9 rest SI13_RestOctets_t) run_mode p (or_null si13_r99 add) m Q).
  { intros p1 m1 E1 E2. cbn [Nat.iter nat_rect rest SI13_RestOctets_t]. apply or_null_dec with (a := t3168) (b := t3192); [reflexivity|lia|assumption..| |].
    - intros p2 m2 y -> ? ?. cbn [or_null] in *. oks. apply si13_r99_dec; assumption.
    - intros. apply runs_pad with (R := fun m => m 37 = t3168 /\ m 38 = t3192). assumption. }
  assert (T2 : forall p m, runs 84 0 (Nat.iter 6 rest SI13_RestOctets_t) run_mode p
    ([U 1 0; U 8 rac; U 1 spgc; U 3 prio; U 2 nco] ++ cell_options nmo t3168 t3192 drx abt cat bscv pan ext ++ power_control al tw tt pc nav ++ or_null si13_r99 add) m Q).
  { intros p1 m1. cbn [Nat.iter nat_rect rest SI13_RestOctets_t app]. apply step_union2; [auto|reflexivity|].
    eapply step_sel_type with (R := fun l1 m1 => l1 = or_null si13_r99 add /\ m1 37 = t3168 /\ m1 38 = t3192); [left; reflexivity| |].
    - unfold PBCCH_Not_present_t. do 4 stepu.
      eapply step_type; [left; reflexivity|apply options_dec; assumption|]. intros p2 l2 m2 (-> & E1 & E2).
      eapply step_type with (R := fun l1 m1 => l1 = or_null si13_r99 add /\ m1 37 = t3168 /\ m1 38 = t3192); [left; reflexivity| |].
      + unfold power_control in *. oks. unfold GPRS_Power_Control_Parameters_t. cbn [app]. do 5 stepu. apply runs_end. split; [reflexivity|].
        norm. rdm. auto.
      + intros p3 l3 m3 X. apply runs_end. exact X.
    - intros p2 l2 m2 (-> & E1 & E2). apply step_skip; [reflexivity|]. apply T3; assumption. }
  cbn [app]. unfold SI13_RestOctets_t. apply step_existlh; [reflexivity|]. do 2 stepu. apply step_opt; [reflexivity|reflexivity| |].
  - intros [mk its] E. destruct ma as [[mk' [[h r] f]]|]; [|discriminate]. cbn [option_map ma_items fst snd] in E. injection E as <- <-.
    cbn [opt option_map ma_items fst snd app] in *. oks. stepu.
    eapply step_type; [left; reflexivity|apply ma_dec; [exact NB|assumption|]|].
    + intros b ->. apply (BM _ b eq_refl). reflexivity.
    + intros p2 l2 m2 ->. apply T2.
  - intros _. do 2 (apply step_skip; [reflexivity|]). apply T2.
Qed.
End Dec.
