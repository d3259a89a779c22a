(** What the handlers do with the messages of 44.018. *)
From Coq Require Import ZArith List Bool Lia.
From Verif Require Import Lib.Base Csn1.Csn1Model Csn1.Csn1Tables Csn1.Csn1EncModel Csn1.Csn1DlModel Csn1.Csn1Layout Csn1.Csn1Step
  Rlcmac.FnModel Rlcmac.UlTbfModel Rlcmac.CcchSpec Rlcmac.CcchModel Rlcmac.CcchDec.
Import ListNotations.
Open Scope Z_scope.

Lemma carried_here msg o l : length msg = 23%nat -> (o <= 23)%nat -> carried msg o l ->
  here (msg_bits (skipn o msg)) (8 * (23 - Z.of_nat o)) 0 l.
Proof.
  intros L O C. unfold carried in C. rewrite L in C.
  assert (S : size l = 8 * (23 - Z.of_nat o)).
  { rewrite <- (lay_length l 0), <- C. unfold zlen. rewrite map_length, seq_length. lia. }
  split; [lia|]. split; [lia|]. split; [lia|]. rewrite <- C. intros i Hi. rewrite map_length, seq_length in Hi.
  rewrite nth_indep with (d' := bit_at (skipn o msg) 0) by (rewrite map_length, seq_length; exact Hi).
  rewrite map_nth with (f := fun i => bit_at (skipn o msg) i), seq_nth by exact Hi. unfold msg_bits, bit_at.
  replace (Z.to_nat ((0 + Z.of_nat i) / 8)) with (i / 8)%nat.
  - cbn [Nat.add]. f_equal. rewrite Nat2Z.inj_sub by (pose proof (Nat.mod_upper_bound i 8); lia). rewrite Nat2Z.inj_mod. reflexivity.
  - cbn [Z.add]. rewrite <- (Nat2Z.id (i / 8)), Nat2Z.inj_div. reflexivity.
Qed.

Lemma decode_known past msg o l d sz m Q : length msg = 23%nat -> (o <= 23)%nat -> carried msg o l ->
  (forall bits nbits, nbits <= 8 * (23 - Z.of_nat o) -> runs bits nbits past sz 0 d run_mode 0 l m Q) ->
  exists s, decode_at msg (fun bits => decode_ro false past bits d sz) (Z.of_nat o) (23 - Z.of_nat o) m = RoOk (s_mem s) /\ Q s.
Proof.
  intros L O C R. pose proof (carried_here _ _ _ L O C) as H. destruct (R _ _ (Z.le_refl _) H 0) as (s & E & X). exists s. split; [|exact X].
  unfold decode_at. replace (int32 (8 * (23 - Z.of_nat o)) <? 0) with false by (unfold int32; rewrite Z.mod_small by lia; lia).
  unfold zlen. rewrite L. replace ((0 <=? Z.of_nat o) && (Z.of_nat o + (23 - Z.of_nat o) <=? Z.of_nat 23)) with true by lia.
  rewrite Nat2Z.id. unfold decode_ro, decode. change (mkcst (8 * (23 - Z.of_nat o)) 0 0 m) with (mkcst (8 * (23 - Z.of_nat o)) (0 + 8 * 0) 0 m).
  destruct H as (_ & Sz & _). replace (8 * (23 - Z.of_nat o)) with (size l) at 2 by lia. fold (st 0 0 l m).
  assert (G : call (dec false (msg_bits (skipn o msg)) (8 * (23 - Z.of_nat o)) past sz 0 d run_mode) (st 0 0 l m) = DOk s); [|rewrite G; reflexivity].
  unfold call. cbn [st s_rem]. replace (size l <? 0) with false by (pose proof (size_nonneg l); lia). exact E.
Qed.

(** Octets of a message given in pieces. *)
Lemma oct_mid msg a x c i : msg = a ++ x :: c -> i = zlen a -> oct msg i = Some x.
Proof.
  intros -> ->. unfold oct, zlen. rewrite app_length. cbn [length].
  replace ((0 <=? Z.of_nat (length a)) && (Z.of_nat (length a) <? Z.of_nat (length a + S (length c)))) with true by lia.
  rewrite Nat2Z.id, app_nth2, Nat.sub_diag by lia. reflexivity.
Qed.
Lemma octs_mid msg a b c i n : msg = a ++ b ++ c -> i = zlen a -> n = zlen b -> octs msg i n = Some b.
Proof.
  intros -> -> ->. unfold octs, zlen. rewrite !app_length.
  match goal with |- (if ?x then _ else _) = _ => replace x with true by lia end.
  unfold slice. rewrite !Nat2Z.id, skipn_app, skipn_all, Nat.sub_diag. cbn [app skipn]. rewrite firstn_app, Nat.sub_diag, firstn_all. cbn [firstn].
  rewrite app_nil_r. reflexivity.
Qed.
Lemma message_split msg head rest : message msg head rest -> exists tail, msg = head ++ tail /\ length msg = 23%nat /\ (length head <= 23)%nat /\
  items_ok rest /\ carried msg (length head) rest.
Proof.
  intros (L & _ & F & K & C). exists (skipn (length head) msg). rewrite <- F at 1. rewrite firstn_skipn. split; [reflexivity|].
  split; [exact L|]. split; [|auto]. rewrite <- F at 1. rewrite firstn_length. lia.
Qed.
(** A message whose rest octets have a field is longer than its head. *)
Lemma some_rest msg head rest : message msg head rest -> 0 < size rest -> (length head < 23)%nat.
Proof.
  intros (L & _ & F & _ & C) S. unfold carried in C. rewrite L in C. apply (f_equal (@length bool)) in C. rewrite map_length, seq_length in C.
  pose proof (lay_length rest 0) as E. unfold zlen in E. lia.
Qed.

(** *** Paging *)
Section Page.
Variable ents : list ent.
Definition owns (e : ent) (mi : mobile_id) : Prop :=
  match mi with MiImsi d => e_imsi e = d | MiTmsi t => e_ptmsi e = t | _ => False end.
Lemma eqs_eq a : forall b, eqs a b = true <-> a = b.
Proof.
  induction a as [|x a IH]; intros [|y b]; cbn [eqs]; try (split; [discriminate|discriminate]); [split; reflexivity|].
  rewrite andb_true_iff, IH, Z.eqb_eq. split; [intros [-> ->]; reflexivity|intros [= -> ->]; auto].
Qed.
Lemma page_spec mi : exists l, page ents mi = map PageInd l /\ (length l <= 1)%nat /\
  (forall t, In t l -> exists e, In e ents /\ owns e mi /\ e_tlli e = t) /\
  (forall e, In e ents -> owns e mi -> exists e', In e' ents /\ owns e' mi /\ In (e_tlli e') l).
Proof.
  assert (G : forall f : ent -> bool, (forall e, f e = true <-> owns e mi) ->
    exists l, (match find f ents with Some e => [PageInd (e_tlli e)] | None => [] end) = map PageInd l /\ (length l <= 1)%nat /\
    (forall t, In t l -> exists e, In e ents /\ owns e mi /\ e_tlli e = t) /\
    (forall e, In e ents -> owns e mi -> exists e', In e' ents /\ owns e' mi /\ In (e_tlli e') l)).
  { intros f Hf. destruct (find f ents) as [e|] eqn:E.
    - apply find_some in E as [I T]. apply Hf in T. exists [e_tlli e]. split; [reflexivity|]. split; [cbn; lia|].
      split; [intros t [<-|[]]; eauto|]. intros e' _ _. exists e. cbn. auto.
    - exists []. split; [reflexivity|]. split; [cbn; lia|]. split; [intros t []|]. intros e I O. apply Hf in O.
      rewrite (find_none _ _ E e I) in O. discriminate. }
  assert (N : owns = owns) by reflexivity. destruct mi as [|d|t|]; cbn [page].
  2: apply G; intros e; cbn [owns]; apply eqs_eq.
  2: apply G; intros e; cbn [owns]; apply Z.eqb_eq.
  all: exists []; split; [reflexivity|]; split; [cbn; lia|]; split; [intros t []|intros e _ []].
Qed.
End Page.

Section Handlers.
Variable mi_dec : list Z -> mobile_id + Z.
Variable past : Z -> Z -> Z * Z.
Variable ents : list ent.

Lemma p1_size n pr1 pr2 g i1 i2 more : 0 < size (p1_rest n pr1 pr2 g i1 i2 more).
Proof.
  unfold p1_rest. rewrite !size_app. cbn [size width_of].
  pose proof (size_nonneg (opt_lh nln n)). pose proof (size_nonneg (opt_lh priority pr1)). pose proof (size_nonneg (opt_lh priority pr2)).
  pose proof (size_nonneg (opt_lh group_call g)). unfold zlen. lia.
Qed.
(** Without a second priority the rest octets do not begin like a second identity. *)
Lemma not_ie msg head x tail n pr1 g i1 i2 more : msg = head ++ x :: tail -> carried msg (length head) (p1_rest n pr1 None g i1 i2 more) -> x <> 0x17.
Proof.
  intros -> C ->. unfold carried in C. rewrite skipn_app, skipn_all, Nat.sub_diag in C. cbn [app skipn] in C. rewrite app_length in C.
  replace (8 * (length head + length (23%Z :: tail) - length head))%nat with (S (S (S (8 * length tail + 5)))) in C by (cbn [length]; lia).
  cbn [seq map] in C. unfold p1_rest in C.
  destruct n as [[n0 n1]|]; [discriminate C|]. destruct pr1 as [pr|]; [discriminate C|]. discriminate C.
Qed.

Lemma pag1_rest_ok msg o mi1 mi2 n pr1 pr2 g i1 i2 more : length msg = 23%nat -> (o < 23)%nat ->
  carried msg o (p1_rest n pr1 pr2 g i1 i2 more) -> items_ok (p1_rest n pr1 pr2 g i1 i2 more) ->
  (i1 = true -> known_type mi1 = true) ->
  pag1_rest past ents msg mi1 mi2 (Z.of_nat o) = Done 0 ((if i1 then page ents mi1 else []) ++ if i2 then page ents mi2 else []).
Proof.
  intros L O C K T. unfold pag1_rest, MACBLOCK. replace (23 - Z.of_nat o =? 0) with false by lia.
  destruct (decode_known past msg o _ P1_Rest_Octets_t 44 zero (fun s => s_mem s 40 = b2z i1 /\ s_mem s 41 = b2z i2) L ltac:(lia) C) as (s & E & E1 & E2).
  { intros bits nbits _. apply p1_dec. exact K. }
  change (decode_p1ro false past) with (fun bits => decode_ro false past bits P1_Rest_Octets_t 44). rewrite E, E1, E2.
  destruct i1, i2; cbn [b2z Z.eqb Pos.eqb]; rewrite ?T by reflexivity; rewrite ?app_nil_r; reflexivity.
Qed.

Lemma pag1_msg msg plen mode id1 id2 n pr1 pr2 g i1 i2 more mi1 mi2 :
  message msg (paging1_head plen mode id1 id2) (p1_rest n pr1 pr2 g i1 i2 more) ->
  mi_dec id1 = inl mi1 -> match id2 with Some id => mi_dec id = inl mi2 | None => mi2 = MiNone /\ pr2 = None end ->
  (i1 = true -> known_type mi1 = true) ->
  handle_pag_req1 mi_dec past ents msg = Done 0 ((if i1 then page ents mi1 else []) ++ if i2 then page ents mi2 else []).
Proof.
  intros M D1 D2 T. pose proof (some_rest _ _ _ M (p1_size _ _ _ _ _ _ _)) as Lh. pose proof M as M0.
  apply message_split in M as (tail & E & L & _ & K & C). unfold paging1_head in E, Lh, C. rewrite <- !app_assoc in E. cbn [app] in E.
  rewrite !app_length in Lh. cbn [length] in Lh. assert (Lt : (0 < length tail)%nat).
  { apply (f_equal (@length Z)) in E. rewrite L in E. cbn [length] in E. rewrite !app_length in E. destruct id2; cbn [length app] in *; rewrite ?app_length in *; lia. }
  unfold handle_pag_req1, MACBLOCK. rewrite (oct_mid msg [] (4 * plen + 1) _ 0 E eq_refl). cbn [cbind]. replace (4 * plen + 1 =? 23 - 1) with false by lia.
  rewrite (oct_mid msg [4 * plen + 1; 6; 33; mode] (zlen id1) _ 4 E eq_refl). cbn [cbind].
  replace (23 <? 5 + zlen id1) with false by (unfold zlen; lia).
  rewrite (octs_mid msg [4 * plen + 1; 6; 33; mode; zlen id1] id1 _ 5 (zlen id1) E eq_refl eq_refl). cbn [cbind]. rewrite D1.
  replace (23 <? 5 + zlen id1 + 1) with false by (unfold zlen; lia).
  destruct id2 as [id|].
  - cbn [app length] in *. rewrite ?app_length in *. cbn [length] in *.
    assert (E1 : msg = ([4 * plen + 1; 6; 33; mode; zlen id1] ++ id1) ++ 23 :: zlen id :: id ++ tail) by (rewrite <- app_assoc; exact E).
    rewrite (oct_mid msg _ 23 _ (5 + zlen id1) E1) by (unfold zlen; rewrite app_length; cbn [length]; lia). cbn [cbind].
    change (23 =? IE_MOBILE_ID) with true. cbv iota. cbv zeta.
    assert (E2 : msg = ([4 * plen + 1; 6; 33; mode; zlen id1] ++ id1 ++ [23]) ++ zlen id :: id ++ tail) by (rewrite <- !app_assoc; exact E).
    replace (23 <? 5 + zlen id1 + 1 + 1) with false by (unfold zlen; lia).
    rewrite (oct_mid msg _ (zlen id) _ (5 + zlen id1 + 1) E2) by (unfold zlen; rewrite !app_length; cbn [length]; lia). cbn [cbind].
    replace (23 <? 5 + zlen id1 + 1 + 1 + zlen id) with false by (unfold zlen; lia).
    assert (E3 : msg = ([4 * plen + 1; 6; 33; mode; zlen id1] ++ id1 ++ [23; zlen id]) ++ id ++ tail) by (rewrite <- !app_assoc; exact E).
    rewrite (octs_mid msg _ id _ (5 + zlen id1 + 1 + 1) (zlen id) E3) by (unfold zlen; rewrite ?app_length; cbn [length]; lia). cbn [cbind]. rewrite D2.
    match type of C with carried _ ?o _ => replace (5 + zlen id1 + 1 + 1 + zlen id) with (Z.of_nat o) by (unfold zlen; cbn [length app]; rewrite ?app_length; cbn [length]; rewrite ?app_length; lia) end.
    eapply pag1_rest_ok; [exact L| |exact C|exact K|exact T]. cbn [length]. rewrite ?app_length. cbn [length]. lia.
  - destruct D2 as [-> ->]. cbn [app] in E. rewrite app_nil_r in C. destruct tail as [|x tail]; [cbn in Lt; lia|].
    assert (E1 : msg = ([4 * plen + 1; 6; 33; mode; zlen id1] ++ id1) ++ x :: tail) by (rewrite <- app_assoc; exact E).
    rewrite (oct_mid msg _ x _ (5 + zlen id1) E1) by (unfold zlen; rewrite app_length; cbn [length]; lia). cbn [cbind].
    destruct (Z.eqb_spec x IE_MOBILE_ID) as [X|_]; [exfalso; revert X; eapply not_ie; [exact E1|exact C]|].
    match type of C with carried _ ?o _ => replace (5 + zlen id1) with (Z.of_nat o) by (unfold zlen; rewrite ?app_length; cbn [length]; lia) end.
    eapply pag1_rest_ok; [exact L| |exact C|exact K|exact T]. rewrite ?app_length. cbn [length] in *. lia.
Qed.

Lemma p2_size c n pr1 pr2 pr3 i3 more : 0 < size (p2_rest c n pr1 pr2 pr3 i3 more).
Proof.
  unfold p2_rest. rewrite !size_app. cbn [size width_of].
  pose proof (size_nonneg (opt_lh nln n)). pose proof (size_nonneg (opt_lh priority pr1)). pose proof (size_nonneg (opt_lh priority pr2)).
  pose proof (size_nonneg (opt_lh priority pr3)). pose proof (size_nonneg (opt_lh (fun c : Z => [U 2 c]) c)). unfold zlen. lia.
Qed.
Lemma pag2_msg msg plen mode tmsis id3 c n pr1 pr2 pr3 i3 more mi3 :
  message msg (paging2_head plen mode tmsis id3) (p2_rest c n pr1 pr2 pr3 i3 more) -> length tmsis = 8%nat ->
  mi_dec id3 = inl mi3 -> (i3 = true -> known_type mi3 = true) ->
  handle_pag_req2 mi_dec past ents msg = Done 0 (if i3 then page ents mi3 else []).
Proof.
  intros M L8 D T. pose proof (some_rest _ _ _ M (p2_size _ _ _ _ _ _ _)) as Lh.
  apply message_split in M as (tail & E & L & _ & K & C). unfold paging2_head in E, Lh, C. rewrite <- !app_assoc in E. cbn [app] in E.
  rewrite !app_length in Lh. cbn [length] in Lh. rewrite L8 in Lh.
  unfold handle_pag_req2, MACBLOCK. rewrite (oct_mid msg [] (4 * plen + 1) _ 0 E eq_refl). cbn [cbind]. replace (4 * plen + 1 =? 23 - 1) with false by lia.
  assert (E1 : msg = ([4 * plen + 1; 6; 34; mode] ++ tmsis) ++ 23 :: zlen id3 :: id3 ++ tail) by (rewrite <- app_assoc; exact E).
  rewrite (oct_mid msg _ 23 _ 12 E1) by (unfold zlen; rewrite app_length, L8; reflexivity). cbn [cbind]. change (negb (23 =? IE_MOBILE_ID)) with false. cbv iota.
  assert (E2 : msg = ([4 * plen + 1; 6; 34; mode] ++ tmsis ++ [23]) ++ zlen id3 :: id3 ++ tail) by (rewrite <- !app_assoc; exact E).
  rewrite (oct_mid msg _ (zlen id3) _ 13 E2) by (unfold zlen; rewrite !app_length, L8; reflexivity). cbn [cbind].
  replace (23 <? 14 + zlen id3) with false by (unfold zlen; lia).
  assert (E3 : msg = ([4 * plen + 1; 6; 34; mode] ++ tmsis ++ [23; zlen id3]) ++ id3 ++ tail) by (rewrite <- !app_assoc; exact E).
  rewrite (octs_mid msg _ id3 _ 14 (zlen id3) E3) by (unfold zlen; rewrite ?app_length, ?L8; reflexivity). cbn [cbind]. rewrite D. cbv zeta.
  replace (23 - (14 + zlen id3) =? 0) with false by (unfold zlen; lia).
  match type of C with carried _ ?o _ => set (o' := o) in *; replace (14 + zlen id3) with (Z.of_nat o') by (unfold o', zlen; rewrite !app_length, L8; cbn [length]; lia) end.
  destruct (decode_known past msg o' (p2_rest c n pr1 pr2 pr3 i3 more) P2_Rest_Octets_t 12 zero (fun s => s_mem s 11 = b2z i3) L) as (s & Es & E4); [unfold o'; rewrite !app_length, L8; cbn [length]; lia|exact C| |].
  { intros bits nbits _. apply p2_dec. exact K. }
  change (decode_p2ro false past) with (fun bits => decode_ro false past bits P2_Rest_Octets_t 12). rewrite Es, E4.
  destruct i3; cbn [b2z Z.eqb Pos.eqb negb]; rewrite ?T by reflexivity; reflexivity.
Qed.

(** *** System information 13 *)
Lemma si13_msg msg plen mark field ma rac spgc prio nco nmo t3168 t3192 drx abt cat bscv pan ext al tw tt pc nav add m0 :
  message msg (si13_head plen) (si13_rest mark field (option_map ma_items ma) rac spgc prio nco
     (cell_options nmo t3168 t3192 drx abt cat bscv pan ext) (power_control al tw tt pc nav) add) ->
  (forall x b, ma = Some x -> snd (snd x) = inr b -> 1 <= zlen b <= 64) -> (forall b, ext = Some b -> 1 <= zlen b <= 64) ->
  fst (handle_si13 past msg m0) = Done 0 [SetTimer 3168 (t3168_ms t3168); SetTimer 3192 (t3192_ms t3192)].
Proof.
  intros M BM BE. apply message_split in M as (tail & _ & L & _ & K & C).
  destruct (decode_known past msg 3 _ SI13_RestOctets_t 84 m0 (fun s => s_mem s 37 = t3168 /\ s_mem s 38 = t3192) L ltac:(lia) C) as (s & E & E1 & E2).
  { intros bits nbits N. apply si13_dec; [lia|exact K|exact BM|exact BE]. }
  unfold handle_si13, MACBLOCK. change 3 with (Z.of_nat 3).
  change (decode_si13ro false past) with (fun bits => decode_ro false past bits SI13_RestOctets_t 84). rewrite E. cbn [fst]. rewrite E1, E2.
  unfold si13_rest, cell_options in K. oks. match goal with H : item_ok (U 3 t3192) |- _ => cbn in H; replace (7 <? t3192) with false by lia end.
  unfold t3168_ms, t3192_ms. rewrite Z.mul_comm. reflexivity.
Qed.

End Handlers.

(** *** Immediate assignment *)
Section ImmAss.
Variable rsl : Z -> Z + Z.
Variable rfn2fn : Z -> Z -> Z.
Variable past : Z -> Z -> Z * Z.
Variable ents : list ent.
Variable msg : list Z.
Variables (plen mode chan c1 c2 : Z) (ref : list Z) (ta : Z) (ma : list Z).
Variable rest : list item.
Hypothesis M : message msg (imm_ass_head plen mode chan c1 c2 ref ta ma) rest.
Hypothesis R3 : length ref = 3%nat.
Variable ts : Z.
Hypothesis Ts : rsl chan = inl ts.
Variables (tsc : Z) (f : Z * Z + Z).
Hypothesis Ch : channel_octets c1 c2 tsc f.
Hypothesis Ma : (length ma <= 8)%nat.
Definition freq_of : freq := match f with inl (hsn, maio) => Hopping hsn maio ma | inr arfcn => Arfcn arfcn end.

Lemma ia_go ul_waits m0 fn Q :
  (forall bits nbits, runs bits nbits past 80 0 IA_RestOctets_t run_mode 0 rest m0 Q) ->
  exists s, Q s /\
  handle_imm_ass rsl rfn2fn past 0 ents ul_waits msg m0 fn =
    let a := [PdchEst ts tsc ta freq_of] in let m := s_mem s in
    if m ia_type =? 1 then if m ia_lh =? 0 then to_ul rfn2fn ul_waits ts fn m a else if m ia_lh =? 1 then to_dl rfn2fn ents ts fn m a else Done 0 a
    else if m ia_type =? 3 then
      if m ia_hh =? 0 then
        if m ia_uldl =? 0 then
          if (m ia_ul =? 0) || ((m ia_ul =? 1) && ((m ia_alloc =? 0) || (m ia_alloc =? 1))) then to_ul rfn2fn ul_waits ts fn m a
          else Done 0 a
        else if m ia_uldl =? 1 then to_dl rfn2fn ents ts fn m a else Done 0 a
      else Done 0 a
    else Done 0 a.
Proof.
  intros R. apply message_split in M as (tail & E & L & Lh & K & C).
  destruct ref as [|r1 [|r2 [|r3 [|]]]]; try discriminate R3. unfold imm_ass_head in *. cbn [app] in E.
  destruct (decode_known past msg _ _ IA_RestOctets_t 80 m0 Q L Lh C (fun bits nbits _ => R bits nbits)) as (s & Es & X). exists s. split; [exact X|].
  cbn [app length] in Es. unfold handle_imm_ass, MACBLOCK.
  rewrite (oct_mid msg [4 * plen + 1; 6; 63; mode; chan; c1; c2; r1; r2; r3; ta] (zlen ma) _ 11 E eq_refl). cbn [cbind].
  rewrite (oct_mid msg [4 * plen + 1; 6; 63; mode] chan _ 4 E eq_refl). cbn [cbind]. rewrite Ts.
  cbn [app length] in Lh.
  replace (Z.of_nat (S (S (S (S (S (S (S (S (S (S (S (S (length ma))))))))))))) ) with (12 + zlen ma) in Es by (unfold zlen; lia).
  rewrite Z.mod_small by (unfold zlen; lia).
  change (decode_imm_ass_ro false past) with (fun bits => decode_ro false past bits IA_RestOctets_t 80). rewrite Es.
  rewrite (oct_mid msg [4 * plen + 1; 6; 63; mode; chan] c1 _ 5 E eq_refl). cbn [cbind].
  rewrite (oct_mid msg [4 * plen + 1; 6; 63; mode; chan; c1] c2 _ 6 E eq_refl). cbn [cbind].
  rewrite (oct_mid msg [4 * plen + 1; 6; 63; mode; chan; c1; c2; r1; r2; r3] ta _ 10 E eq_refl). cbn [cbind]. cbv zeta.
  destruct Ch as [Bt Cf]. assert (T : forall k, 0 <= k -> Z.testbit c1 k = (c1 / 2 ^ k mod 2 =? 1)).
  { intros k Hk. pose proof (Z.testbit_spec' c1 k Hk) as Y. destruct (Z.testbit c1 k); cbn [Z.b2z] in Y; rewrite <- Y; reflexivity. }
  rewrite !T by lia. change (2 ^ 4) with 16. change (2 ^ 3) with 8. unfold freq_of. destruct f as [[hsn maio]|arfcn].
  - destruct Cf as (B1 & B2 & -> & ->). replace ((32 * tsc + 16 + maio / 4) / 16 mod 2 =? 1) with true by lia. cbv iota.
    assert (Z.min (zlen ma) 8 = zlen ma) as -> by (unfold zlen; lia).
    rewrite (octs_mid msg [4 * plen + 1; 6; 63; mode; chan; 32 * tsc + 16 + maio / 4; 64 * (maio mod 4) + hsn; r1; r2; r3; ta; zlen ma] ma _ 12 (zlen ma) E eq_refl eq_refl). cbn [cbind].
    replace ((32 * tsc + 16 + maio / 4) / 32) with tsc by lia. replace ((64 * (maio mod 4) + hsn) mod 64) with hsn by lia.
    replace ((64 * (maio mod 4) + hsn) / 64 + 4 * ((32 * tsc + 16 + maio / 4) mod 16)) with maio by lia. reflexivity.
  - destruct Cf as (B1 & -> & ->). replace ((32 * tsc + arfcn / 256) / 16 mod 2 =? 1) with false by lia.
    replace ((32 * tsc + arfcn / 256) / 8 mod 2 =? 1) with false by lia. cbv iota.
    replace ((32 * tsc + arfcn / 256) / 32) with tsc by lia.
    replace (arfcn mod 256 + 256 * ((32 * tsc + arfcn / 256) mod 4)) with arfcn by lia. reflexivity.
Qed.
End ImmAss.

