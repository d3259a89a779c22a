(** Proofs about the blocks of the CCCH and BCCH. *)
From Coq Require Import ZArith List Bool Lia.
From Verif Require Import Lib.Base Csn1.Csn1Model Csn1.Csn1Tables Csn1.Csn1DlModel Csn1.Csn1EncModel Csn1.Csn1Properties
  Rlcmac.FnModel Rlcmac.UlTbfModel Rlcmac.CcchModel.
Import ListNotations.
Open Scope Z_scope.

Section Block.
Variable rsl : Z -> Z + Z.
Variable mi_dec : list Z -> mobile_id + Z.
Variable rfn2fn : Z -> Z -> Z.
Variable past : Z -> Z -> Z * Z.
Variable est_rc : Z.
Variable ents : list ent.
Variable ul_waits : bool.
Variable msg : list Z.
Hypothesis P : any_past past.
Hypothesis L : length msg = 23%nat.
Hypothesis O : Forall (fun b => 0 <= b < 256) msg.

Lemma oct_ok i : 0 <= i < 23 -> exists b, oct msg i = Some b /\ 0 <= b < 256 /\ b = nth (Z.to_nat i) msg 0.
Proof.
  intros H. unfold oct, zlen. rewrite L. replace ((0 <=? i) && (i <? Z.of_nat 23)) with true by lia.
  eexists. split; [reflexivity|]. split; [|reflexivity]. rewrite Forall_forall in O. apply O. apply nth_In. lia.
Qed.
Lemma octs_ok i n : 0 <= i -> 0 <= n -> i + n <= 23 -> octs msg i n = Some (slice (Z.to_nat i) (Z.to_nat n) msg).
Proof.
  intros. unfold octs, zlen. rewrite L. replace ((0 <=? i) && (0 <=? n) && (i + n <=? Z.of_nat 23)) with true by lia. reflexivity.
Qed.
Lemma int32_small v : - 2 ^ 31 <= v < 2 ^ 31 -> int32 v = v.
Proof. intros H. unfold int32. rewrite Z.mod_small by lia. lia. Qed.

Definition safe_ro (dec : (Z -> bool) -> Z -> mem -> dres) (sz : Z) : Prop :=
  forall bits len m, octet_mem m -> 0 <= len <= 23 -> contained sz m (dec bits len m).
Lemma decode_at_ok dec sz off len m : safe_ro dec sz -> octet_mem m -> 0 <= off -> 0 <= len -> off + len <= 23 ->
  decode_at msg dec off len m <> RoBad.
Proof.
  intros S M A B C. unfold decode_at. rewrite int32_small by lia. replace (8 * len <? 0) with false by lia.
  unfold zlen. rewrite L. replace ((0 <=? off) && (off + len <=? Z.of_nat 23)) with true by lia.
  specialize (S (msg_bits (skipn (Z.to_nat off) msg)) len m M ltac:(lia)). destruct (dec _ _ _); [discriminate|discriminate|destruct S].
Qed.
Lemma zero_mem : octet_mem zero.
Proof. intros x. unfold zero. lia. Qed.

Notation imm_ass := (handle_imm_ass rsl rfn2fn past est_rc ents ul_waits msg).
Lemma no_abort_ul ts fn m a : m ia_type = 1 /\ m ia_lh = 0 \/
  m ia_type = 3 /\ m ia_hh = 0 /\ m ia_uldl = 0 /\ (m ia_ul = 0 \/ m ia_ul = 1 /\ (m ia_alloc = 0 \/ m ia_alloc = 1)) ->
  exists rc l, to_ul rfn2fn ul_waits ts fn m a = Done rc l.
Proof.
  intros H. unfold to_ul, ul_contents. destruct ul_waits; cbn [negb]; [|eauto].
  destruct H as [(-> & ->)|(-> & -> & -> & H)]; cbn [Z.eqb Pos.eqb]; [eauto|].
  destruct H as [->|(-> & [->| ->])]; cbn [Z.eqb Pos.eqb]; eauto.
Qed.
Lemma no_abort_dl ts fn m a : m ia_type = 1 \/ m ia_type = 3 /\ m ia_hh = 0 /\ m ia_uldl = 1 ->
  exists rc l, to_dl rfn2fn ents ts fn m a = Done rc l.
Proof.
  intros H. unfold to_dl. destruct H as [->|(-> & -> & ->)]; cbn [Z.eqb Pos.eqb]; [eauto|].
  destruct (by_tlli _ _) as [[i e]|]; cbn [andb]; eauto.
Qed.

Lemma ccch_ok m0 fn : octet_mem m0 -> exists rc a, imm_ass m0 fn = Done rc a.
Proof.
  intros M. unfold handle_imm_ass.
  destruct (oct_ok 11 ltac:(lia)) as (mal & -> & Bm & _). cbn [cbind].
  destruct (oct_ok 4 ltac:(lia)) as (chan & -> & _ & _). cbn [cbind].
  destruct (rsl chan) as [ts|rc]; [|eauto].
  set (r := decode_at _ _ _ _ _).
  assert (R : (r = RoErr NEED_MORE \/ mal <= 11) /\ r <> RoBad).
  { unfold r. destruct (Z_le_gt_dec mal 11) as [H|H].
    - split; [right; exact H|]. unfold MACBLOCK. rewrite Z.mod_small by lia.
      apply (decode_at_ok _ 80); try lia; auto. intros b len m Hm Hl. apply C47_imm_ass_contained; auto.
    - assert (E : decode_at msg (decode_imm_ass_ro false past) (12 + mal) ((MACBLOCK - (12 + mal)) mod 2 ^ 64) m0 = RoErr NEED_MORE).
      { unfold decode_at, MACBLOCK. 
        replace ((23 - (12 + mal)) mod 2 ^ 64) with (2 ^ 64 + (11 - mal)).
        2: { symmetry. rewrite <- (Z.mod_add _ 1) by lia. rewrite Z.mod_small by lia. lia. }
        assert (I : int32 (8 * (2 ^ 64 + (11 - mal))) = 8 * (11 - mal)).
        { unfold int32. replace (8 * (2 ^ 64 + (11 - mal)) + 2 ^ 31) with (8 * (11 - mal) + 2 ^ 31 + (8 * 2 ^ 32) * 2 ^ 32) by lia.
          rewrite Z.mod_add by lia. rewrite Z.mod_small by lia. lia. }
        rewrite I. replace (8 * (11 - mal) <? 0) with true by lia. reflexivity. }
      rewrite E. split; [left; reflexivity|discriminate]. }
  destruct R as [R1 R2]. destruct r as [m|rc|]; [|eauto|congruence].
  assert (Hm : mal <= 11) by (destruct R1; [discriminate|assumption]).
  destruct (oct_ok 5 ltac:(lia)) as (c1 & -> & _ & _). cbn [cbind].
  destruct (oct_ok 6 ltac:(lia)) as (c2 & -> & _ & _). cbn [cbind].
  destruct (oct_ok 10 ltac:(lia)) as (ta & -> & _ & _). cbn [cbind]. cbv zeta.
  assert (G : forall a, exists rc l,
     (if negb (est_rc =? 0) then Done est_rc a
      else if m ia_type =? 1 then
             if m ia_lh =? 0 then to_ul rfn2fn ul_waits ts fn m a else if m ia_lh =? 1 then to_dl rfn2fn ents ts fn m a else Done 0 a
           else if m ia_type =? 3 then
                  if m ia_hh =? 0 then
                    if m ia_uldl =? 0 then
                      if (m ia_ul =? 0) || ((m ia_ul =? 1) && ((m ia_alloc =? 0) || (m ia_alloc =? 1))) then to_ul rfn2fn ul_waits ts fn m a
                      else Done 0 a
                    else if m ia_uldl =? 1 then to_dl rfn2fn ents ts fn m a else Done 0 a
                  else Done 0 a
                else Done 0 a) = Done rc l).
  { intros a. destruct (est_rc =? 0); cbn [negb]; [|eauto].
    destruct (Z.eqb_spec (m ia_type) 1) as [T|T].
    { destruct (Z.eqb_spec (m ia_lh) 0); [apply no_abort_ul; auto|]. destruct (Z.eqb_spec (m ia_lh) 1); [apply no_abort_dl; auto|eauto]. }
    destruct (Z.eqb_spec (m ia_type) 3); [|eauto]. destruct (Z.eqb_spec (m ia_hh) 0); [|eauto].
    destruct (Z.eqb_spec (m ia_uldl) 0).
    { destruct (_ || _) eqn:E; [|eauto]. apply no_abort_ul. right. repeat split; auto. lia. }
    destruct (Z.eqb_spec (m ia_uldl) 1); [apply no_abort_dl; auto|eauto]. }
  destruct (Z.testbit c1 4).
  - rewrite octs_ok by lia. cbn [cbind]. apply G.
  - destruct (Z.testbit c1 3); [eauto|apply G].
Qed.

Lemma pag1_rest_ok mi1 mi2 p : 0 <= p <= 23 -> exists rc a, pag1_rest past ents msg mi1 mi2 p = Done rc a.
Proof.
  intros H. unfold pag1_rest, MACBLOCK. destruct (23 - p =? 0); [eauto|].
  assert (N : decode_at msg (decode_p1ro false past) p (23 - p) zero <> RoBad).
  { apply (decode_at_ok _ 44); try lia; [|apply zero_mem]. intros b len m Hm Hl. apply C47_p1_contained; auto. }
  destruct (decode_at _ _ _ _ _) as [m|rc|]; [|eauto|congruence].
  destruct (m 40 =? 1); [|eauto]. destruct (known_type mi1); eauto.
Qed.
Lemma pag1_ok : exists rc a, handle_pag_req1 mi_dec past ents msg = Done rc a.
Proof.
  unfold handle_pag_req1, MACBLOCK. destruct (oct_ok 0 ltac:(lia)) as (pl & -> & _). cbn [cbind]. destruct (pl =? 23 - 1); [eauto|].
  destruct (oct_ok 4 ltac:(lia)) as (len & -> & B & _). cbn [cbind].
  destruct (Z.ltb_spec 23 (5 + len)) as [H|H]; [eauto|]. rewrite octs_ok by lia. cbn [cbind]. destruct (mi_dec _) as [mi1|rc]; [|eauto].
  destruct (Z.ltb_spec 23 (5 + len + 1)) as [K|K]; [eauto|]. destruct (oct_ok (5 + len) ltac:(lia)) as (ie & -> & _). cbn [cbind].
  destruct (ie =? IE_MOBILE_ID); [|apply pag1_rest_ok; lia].
  destruct (Z.ltb_spec 23 (5 + len + 1 + 1)) as [J|J]; [eauto|]. destruct (oct_ok (5 + len + 1) ltac:(lia)) as (len2 & -> & B2 & _). cbn [cbind].
  destruct (Z.ltb_spec 23 (5 + len + 1 + 1 + len2)) as [I|I]; [eauto|]. rewrite octs_ok by lia. cbn [cbind].
  destruct (mi_dec _) as [mi2|rc]; [|eauto]. apply pag1_rest_ok. lia.
Qed.
Lemma pag2_ok : exists rc a, handle_pag_req2 mi_dec past ents msg = Done rc a.
Proof.
  unfold handle_pag_req2, MACBLOCK. destruct (oct_ok 0 ltac:(lia)) as (pl & -> & _). cbn [cbind]. destruct (pl =? 23 - 1); [eauto|].
  destruct (oct_ok 12 ltac:(lia)) as (ie & -> & _). cbn [cbind]. destruct (negb _); [eauto|].
  destruct (oct_ok 13 ltac:(lia)) as (len & -> & B & _). cbn [cbind].
  destruct (Z.ltb_spec 23 (14 + len)) as [H|H]; [eauto|]. rewrite octs_ok by lia. cbn [cbind]. destruct (mi_dec _) as [mi3|rc]; [|eauto].
  cbv zeta. destruct (23 - (14 + len) =? 0); [eauto|].
  assert (N : decode_at msg (decode_p2ro false past) (14 + len) (23 - (14 + len)) zero <> RoBad).
  { apply (decode_at_ok _ 12); try lia; [|apply zero_mem]. intros b l m Hm Hl. apply C47_p2_contained; auto. }
  destruct (decode_at _ _ _ _ _) as [m|rc|]; [|eauto|congruence]. destruct (negb _); [eauto|]. destruct (known_type mi3); eauto.
Qed.
Lemma si13_ok m0 : octet_mem m0 -> fst (handle_si13 past msg m0) <> OutOfBounds.
Proof.
  intros M. unfold handle_si13, MACBLOCK.
  assert (N : decode_at msg (decode_si13ro false past) 3 (23 - 3) m0 <> RoBad).
  { apply (decode_at_ok _ 84); try lia; auto. intros b l m Hm Hl. apply C47_si13_contained; auto. }
  destruct (decode_at _ _ _ _ _) as [m|rc|]; [|discriminate|congruence]. destruct (7 <? m 38); discriminate.
Qed.
Lemma ind_ok stack si13 fn : octet_mem stack -> octet_mem si13 ->
  ccch_data_ind rsl mi_dec rfn2fn past est_rc ents ul_waits msg stack si13 fn <> OutOfBounds.
Proof.
  intros A B. unfold ccch_data_ind. destruct (oct_ok 2 ltac:(lia)) as (mt & -> & _). cbn [cbind].
  destruct (mt =? 63); [destruct (ccch_ok stack fn A) as (? & ? & ->); discriminate|].
  destruct (mt =? 33); [destruct pag1_ok as (? & ? & ->); discriminate|].
  destruct (mt =? 34); [destruct pag2_ok as (? & ? & ->); discriminate|].
  destruct (mt =? 0); [apply si13_ok; auto|discriminate].
Qed.
End Block.
