(** Theorems about the blocks of the CCCH and BCCH (C34, C51, C52, C53). *)
From Coq Require Import ZArith List Bool Lia.
From Verif Require Import Lib.Base Csn1.Csn1Model Csn1.Csn1Tables Csn1.Csn1EncModel Csn1.Csn1DlModel Csn1.Csn1Properties Csn1.Csn1Layout Csn1.Csn1Step
  Rlcmac.FnModel Rlcmac.FnProperties Rlcmac.UlTbfModel Rlcmac.CcchSpec Rlcmac.CcchModel Rlcmac.CcchProofs Rlcmac.CcchDec Rlcmac.CcchMsg.
Import ListNotations.
Open Scope Z_scope.

(** *** C34: whatever block the cell sends (23 octets), no octet outside of it is read and nothing is stored outside the
    decoded structures; [rsl], [mi_dec], [rfn2fn], [past]: any behaviour of libosmocore; [stack], [si13]: any earlier contents
    of the structures. *)
Theorem C34_ccch_parsing_stays_inside :
  forall rsl mi_dec rfn2fn past est_rc ents ul_waits msg stack si13 fn,
  any_past past -> length msg = 23%nat -> Forall (fun b => 0 <= b < 256) msg -> octet_mem stack -> octet_mem si13 ->
  ccch_data_ind rsl mi_dec rfn2fn past est_rc ents ul_waits msg stack si13 fn <> OutOfBounds.
Proof. intros. apply ind_ok; assumption. Qed.
Print Assumptions C34_ccch_parsing_stays_inside.

(** Immediate assignments and paging requests do not abort the process either. *)
Theorem C34_no_abort :
  forall rsl mi_dec rfn2fn past est_rc ents ul_waits msg stack si13 fn,
  any_past past -> length msg = 23%nat -> Forall (fun b => 0 <= b < 256) msg -> octet_mem stack -> octet_mem si13 ->
  nth 2 msg 0 <> 0 ->
  exists rc a, ccch_data_ind rsl mi_dec rfn2fn past est_rc ents ul_waits msg stack si13 fn = Done rc a.
Proof.
  intros rsl mi_dec rfn2fn past est_rc ents ul_waits msg stack si13 fn P L O A B N. unfold ccch_data_ind.
  assert (E : oct msg 2 = Some (nth 2 msg 0)) by (unfold oct, zlen; rewrite L; reflexivity). rewrite E. set (mt := nth 2 msg 0) in *. cbn [cbind].
  destruct (mt =? 63); [apply ccch_ok; assumption|]. destruct (mt =? 33); [apply pag1_ok; assumption|].
  destruct (mt =? 34); [apply pag2_ok; assumption|]. destruct (Z.eqb_spec mt 0) as [X|]; [destruct (N X)|eauto].
Qed.
Print Assumptions C34_no_abort.

Definition no_rsl (c : Z) : Z + Z := inl (c mod 8).
Definition no_mi (l : list Z) : mobile_id + Z :=
  match l with
  | 0xf4 :: a :: b :: c :: d :: _ => inl (MiTmsi (((a * 256 + b) * 256 + c) * 256 + d))
  | _ => inl (MiImsi l)
  end.
Definition no_rfn (r fn : Z) : Z := r + fn - fn mod 42432.
(** The longest mobile allocation: the remaining length wraps around. *)
Example C34_nonvacuous :
  any_past no_past /\ octet_mem zeroes /\
  ccch_data_ind no_rsl no_mi no_rfn no_past 0 [] true ([0x2d; 6; 0x3f; 0x10; 0x0f; 0xe3; 0x67; 0x78; 0x09; 0x6b; 0; 255] ++ repeat 0x2b 11) zeroes zeroes 0 =
    Done (-5) [] /\
  ccch_data_ind no_rsl no_mi no_rfn no_past 0 [] true ([0x31; 6; 0x21; 0; 18] ++ repeat 0x2b 18) zeroes zeroes 0 = Done 0 [] /\
  ccch_data_ind no_rsl no_mi no_rfn no_past 0 [] true ([0x31; 6; 0x21; 0; 19] ++ repeat 0x2b 18) zeroes zeroes 0 = Done (-74) [].
Proof. split; [intros p b H; cbn; lia|]. split; [intros x; unfold zeroes; lia|]. split; [lazy; reflexivity|]. split; lazy; reflexivity. Qed.

(** *** C51: paging.  [owns e mi]: the entity [e] has the identity [mi].  Of a block that is a paging request (any octets)
    only entities are told that have an identity found in it. *)
Theorem C51_only_paged_entities :
  forall rsl mi_dec rfn2fn past est_rc ents ul_waits msg stack si13 fn rc acts,
  length msg = 23%nat -> nth 2 msg 0 = 0x21 \/ nth 2 msg 0 = 0x22 ->
  ccch_data_ind rsl mi_dec rfn2fn past est_rc ents ul_waits msg stack si13 fn = Done rc acts ->
  (length acts <= 2)%nat /\
  forall a, In a acts -> exists e mi i n, In e ents /\ owns e mi /\ mi_dec (firstn n (skipn i msg)) = inl mi /\ a = PageInd (e_tlli e).
Proof.
  intros rsl mi_dec rfn2fn past est_rc ents ul_waits msg stack si13 fn rc acts L T.
  assert (G : forall l mi a i n, mi_dec l = inl mi -> octs msg i n = Some l -> In a (page ents mi) ->
     exists e mi i n, In e ents /\ owns e mi /\ mi_dec (firstn n (skipn i msg)) = inl mi /\ a = PageInd (e_tlli e)).
  { intros l mi a i n D S I. destruct (page_spec ents mi) as (ts & E & _ & Sd & _). rewrite E in I. apply in_map_iff in I as (t & <- & I).
    apply Sd in I as (e & I & O & <-). exists e, mi, (Z.to_nat i), (Z.to_nat n). unfold octs in S. destruct (_ && _); [|discriminate].
    injection S as S. unfold slice in S. rewrite S. auto. }
  assert (Len : forall mi, (length (page ents mi) <= 1)%nat).
  { intros mi. destruct (page_spec ents mi) as (ts & E & Lt & _). rewrite E, map_length. exact Lt. }
  assert (R1 : forall mi1 mi2 p rc acts, pag1_rest past ents msg mi1 mi2 p = Done rc acts ->
    (length acts <= 2)%nat /\ forall a, In a acts -> In a (page ents mi1) \/ In a (page ents mi2)).
  { intros mi1 mi2 p rc' acts' H. unfold pag1_rest in H. destruct (MACBLOCK - p =? 0); [injection H as <- <-; split; [cbn; lia|intros a []]|].
    destruct (decode_at _ _ _ _ _) as [m|c|]; [|injection H as <- <-; split; [cbn; lia|intros a []]|discriminate].
    pose proof (Len mi1). pose proof (Len mi2).
    assert (W : forall b : bool, (length (if b then page ents mi2 else []) <= 1)%nat) by (intros []; cbn; lia).
    destruct (m 40 =? 1); [destruct (known_type mi1)|]; injection H as <- <-.
    - split; [rewrite app_length; specialize (W (m 41 =? 1)); lia|]. intros a I. apply in_app_or in I as [I|I]; [auto|]. destruct (m 41 =? 1); [auto|destruct I].
    - split; [cbn; lia|]. intros a [].
    - split; [specialize (W (m 41 =? 1)); lia|]. intros a I. destruct (m 41 =? 1); [auto|destruct I]. }
  assert (Z0 : forall rc' acts', Done rc' [] = Done rc acts' -> (length acts' <= 2)%nat /\ forall a : cact, In a acts' -> False).
  { intros rc' acts' [= _ <-]. split; [cbn; lia|intros a []]. }
  assert (E2 : oct msg 2 = Some (nth 2 msg 0)).
  { unfold oct, zlen. rewrite L. reflexivity. }
  unfold ccch_data_ind. rewrite E2. cbn [cbind]. destruct T as [-> | ->]; cbn [Z.eqb Pos.eqb].
  - unfold handle_pag_req1. intros H. destruct (oct msg 0) as [pl|]; [|discriminate]; cbn [cbind] in H.
    destruct (pl =? MACBLOCK - 1); [destruct (Z0 _ _ H) as [W X]; split; [exact W|]; intros a I; destruct (X a I)|].
    destruct (oct msg 4) as [len|]; [|discriminate]; cbn [cbind] in H.
    destruct (MACBLOCK <? 5 + len); [destruct (Z0 _ _ H) as [W X]; split; [exact W|]; intros a I; destruct (X a I)|].
    destruct (octs msg 5 len) as [id1|] eqn:O1; [|discriminate]; cbn [cbind] in H. destruct (mi_dec id1) as [mi1|c] eqn:D1;
      [|destruct (Z0 _ _ H) as [W X]; split; [exact W|]; intros a I; destruct (X a I)].
    cbv zeta in H. destruct (MACBLOCK <? 5 + len + 1); [destruct (Z0 _ _ H) as [W X]; split; [exact W|]; intros a I; destruct (X a I)|].
    destruct (oct msg (5 + len)) as [ie|]; [|discriminate]; cbn [cbind] in H. destruct (ie =? IE_MOBILE_ID).
    + destruct (MACBLOCK <? 5 + len + 1 + 1); [destruct (Z0 _ _ H) as [W X]; split; [exact W|]; intros a I; destruct (X a I)|].
      destruct (oct msg (5 + len + 1)) as [len2|]; [|discriminate]; cbn [cbind] in H.
      destruct (MACBLOCK <? 5 + len + 1 + 1 + len2); [destruct (Z0 _ _ H) as [W X]; split; [exact W|]; intros a I; destruct (X a I)|].
      destruct (octs msg (5 + len + 1 + 1) len2) as [id2|] eqn:O2; [|discriminate]; cbn [cbind] in H. destruct (mi_dec id2) as [mi2|c] eqn:D2;
        [|destruct (Z0 _ _ H) as [W X]; split; [exact W|]; intros a I; destruct (X a I)].
      apply R1 in H as [W X]. split; [exact W|]. intros a I. destruct (X a I); eauto.
    + apply R1 in H as [W X]. split; [exact W|]. intros a I. destruct (X a I) as [I1|[]]; eauto.
  - unfold handle_pag_req2. intros H. destruct (oct msg 0) as [pl|]; [|discriminate]; cbn [cbind] in H.
    destruct (pl =? MACBLOCK - 1); [destruct (Z0 _ _ H) as [W X]; split; [exact W|]; intros a I; destruct (X a I)|].
    destruct (oct msg 12) as [ie|]; [|discriminate]; cbn [cbind] in H. destruct (negb _); [destruct (Z0 _ _ H) as [W X]; split; [exact W|]; intros a I; destruct (X a I)|].
    destruct (oct msg 13) as [len|]; [|discriminate]; cbn [cbind] in H.
    destruct (MACBLOCK <? 14 + len); [destruct (Z0 _ _ H) as [W X]; split; [exact W|]; intros a I; destruct (X a I)|].
    destruct (octs msg 14 len) as [id3|] eqn:O3; [|discriminate]; cbn [cbind] in H. destruct (mi_dec id3) as [mi3|c] eqn:D3;
      [|destruct (Z0 _ _ H) as [W X]; split; [exact W|]; intros a I; destruct (X a I)].
    cbv zeta in H. destruct (_ =? 0); [destruct (Z0 _ _ H) as [W X]; split; [exact W|]; intros a I; destruct (X a I)|].
    destruct (decode_at _ _ _ _ _) as [m|c|]; [|destruct (Z0 _ _ H) as [W X]; split; [exact W|]; intros a I; destruct (X a I)|discriminate].
    destruct (negb _); [destruct (Z0 _ _ H) as [W X]; split; [exact W|]; intros a I; destruct (X a I)|].
    destruct (known_type mi3); [|destruct (Z0 _ _ H) as [W X]; split; [exact W|]; intros a I; destruct (X a I)].
    injection H as <- <-. split; [pose proof (Len mi3); lia|]. intros a I. eauto.
Qed.
Print Assumptions C51_only_paged_entities.

(** An identity that is an IMSI or a (P-)TMSI. *)
Definition subscriber (mi : mobile_id) : Prop := match mi with MiImsi _ | MiTmsi _ => True | _ => False end.
Lemma subscriber_known mi : subscriber mi -> known_type mi = true.
Proof. destruct mi; cbn; tauto. Qed.
(** The entities told ([pages]: TLLIs) are those with the identities paged. *)
Definition pages_are (ents : list ent) (paged : mobile_id -> Prop) (pages : list Z) : Prop :=
  (forall t, In t pages -> exists e mi, paged mi /\ In e ents /\ owns e mi /\ e_tlli e = t) /\
  (forall mi e, paged mi -> In e ents -> owns e mi -> exists e', In e' ents /\ owns e' mi /\ In (e_tlli e') pages).

(** Paging request type 1 of 44.018: an entity is told exactly if one of its identities is in the message and the
    packet page indication that belongs to it is set; one entity per identity.  Partial: no frequency list in a group call;
    the first identity is an IMSI or a TMSI if its indication is set; without a second identity there is no second priority. *)
Theorem C51_paging_type1_partial :
  forall rsl mi_dec rfn2fn past est_rc ents ul_waits stack si13 fn msg plen mode id1 id2 n pr1 pr2 g (i1 i2 : bool) more mi1 mi2,
  message msg (paging1_head plen mode id1 id2) (p1_rest n pr1 pr2 g i1 i2 more) ->
  mi_dec id1 = inl mi1 -> match id2 with Some id => mi_dec id = inl mi2 | None => mi2 = MiNone /\ pr2 = None end ->
  (i1 = true -> subscriber mi1) ->
  exists pages, ccch_data_ind rsl mi_dec rfn2fn past est_rc ents ul_waits msg stack si13 fn = Done 0 (map PageInd pages) /\
    pages_are ents (fun mi => i1 = true /\ mi = mi1 \/ i2 = true /\ mi = mi2) pages /\
    Z.of_nat (length pages) <= b2z i1 + b2z i2.
Proof.
  intros rsl mi_dec rfn2fn past est_rc ents ul_waits stack si13 fn msg plen mode id1 id2 n pr1 pr2 g i1 i2 more mi1 mi2 M D1 D2 S1.
  pose proof (pag1_msg mi_dec past ents _ _ _ _ _ _ _ _ _ _ _ _ _ _ M D1 D2 (fun e => subscriber_known _ (S1 e))) as H.
  apply message_split in M as (tail & E & L & _). unfold paging1_head in E. cbn [app] in E.
  unfold ccch_data_ind. rewrite (oct_mid msg [4 * plen + 1; 6] 33 _ 2 E eq_refl). cbn [cbind Z.eqb Pos.eqb]. rewrite H.
  destruct (page_spec ents mi1) as (l1 & E1 & N1 & A1 & B1). destruct (page_spec ents mi2) as (l2 & E2 & N2 & A2 & B2).
  exists ((if i1 then l1 else []) ++ if i2 then l2 else []). split; [|split].
  - f_equal. rewrite map_app. f_equal; [destruct i1|destruct i2]; auto.
  - split.
    + intros t I. apply in_app_or in I as [I|I].
      * destruct i1; [|destruct I]. destruct (A1 t I) as (e & X). exists e, mi1. tauto.
      * destruct i2; [|destruct I]. destruct (A2 t I) as (e & X). exists e, mi2. tauto.
    + intros mi e [[-> ->]|[-> ->]] I O.
      * destruct (B1 e I O) as (e' & X & Y & W). exists e'. rewrite in_app_iff. auto.
      * destruct (B2 e I O) as (e' & X & Y & W). exists e'. rewrite in_app_iff. auto.
  - rewrite app_length. destruct i1, i2; cbn [length b2z]; lia.
Qed.
Print Assumptions C51_paging_type1_partial.

(** Paging request type 2 (two TMSIs, which page for circuit switched services, and a third identity). *)
Theorem C51_paging_type2 :
  forall rsl mi_dec rfn2fn past est_rc ents ul_waits stack si13 fn msg plen mode tmsis id3 c n pr1 pr2 pr3 (i3 : bool) more mi3,
  message msg (paging2_head plen mode tmsis id3) (p2_rest c n pr1 pr2 pr3 i3 more) -> length tmsis = 8%nat ->
  mi_dec id3 = inl mi3 -> (i3 = true -> subscriber mi3) ->
  exists pages, ccch_data_ind rsl mi_dec rfn2fn past est_rc ents ul_waits msg stack si13 fn = Done 0 (map PageInd pages) /\
    pages_are ents (fun mi => i3 = true /\ mi = mi3) pages /\ Z.of_nat (length pages) <= b2z i3.
Proof.
  intros rsl mi_dec rfn2fn past est_rc ents ul_waits stack si13 fn msg plen mode tmsis id3 c n pr1 pr2 pr3 i3 more mi3 M L8 D S1.
  pose proof (pag2_msg mi_dec past ents _ _ _ _ _ _ _ _ _ _ _ _ _ M L8 D (fun e => subscriber_known _ (S1 e))) as H.
  apply message_split in M as (tail & E & L & _). unfold paging2_head in E. cbn [app] in E.
  unfold ccch_data_ind. rewrite (oct_mid msg [4 * plen + 1; 6] 34 _ 2 E eq_refl). cbn [cbind Z.eqb Pos.eqb]. rewrite H.
  destruct (page_spec ents mi3) as (l & E1 & N1 & A1 & B1). exists (if i3 then l else []). split; [destruct i3; rewrite ?E1; reflexivity|]. split.
  - split.
    + intros t I. destruct i3; [|destruct I]. destruct (A1 t I) as (e & X). exists e, mi3. tauto.
    + intros mi e [-> ->] I O. exact (B1 e I O).
  - destruct i3; cbn [length b2z]; lia.
Qed.
Print Assumptions C51_paging_type2.

Lemma octets_dec l : forallb (fun b => (0 <=? b) && (b <? 256)) l = true -> Forall (fun b => 0 <= b < 256) l.
Proof. intros H. apply Forall_forall. intros x I. rewrite forallb_forall in H. specialize (H x I). lia. Qed.
Definition fits_item (i : item) : bool := match i with U n v => (0 <=? v) && (v <? 2 ^ Z.of_nat n) | _ => true end.
Lemma items_dec l : forallb fits_item l = true -> items_ok l.
Proof. intros H. apply Forall_forall. intros x I. rewrite forallb_forall in H. specialize (H x I). destruct x; cbn in *; [lia|exact Logic.I..]. Qed.
Ltac msg_ok := split; [reflexivity|]; split; [apply octets_dec; reflexivity|]; split; [reflexivity|]; split;
  [apply items_dec; reflexivity|vm_compute; reflexivity].

(** tests/rlcmac/rlcmac_prim_test.c:234-257: a page of an IMSI with its indication set. *)
Definition pag_req_1 : list Z := [0x31; 0x06; 0x21; 0x00; 0x08; 0x29; 0x26; 0x24; 0x00; 0x00; 0x00; 0x40; 0x32; 0x27] ++ repeat 0x2b 9.
Example C51_nonvacuous : exists more,
  message pag_req_1 (paging1_head 12 0 [0x29; 0x26; 0x24; 0x00; 0x00; 0x00; 0x40; 0x32] None) (p1_rest None None None None true true more) /\
  ccch_data_ind no_rsl no_mi no_rfn no_past 0 [mkEnt 5 6 7 [1]; mkEnt 8 9 10 [0x29; 0x26; 0x24; 0x00; 0x00; 0x00; 0x40; 0x32]] true pag_req_1 zeroes zeroes 0 =
    Done 0 [PageInd 8].
Proof. exists (skipn 6 (map (bit_at (skipn 13 pag_req_1)) (seq 0 80))). split; [|lazy; reflexivity]. msg_ok. Qed.

(** *** C52: immediate assignments.  The mobile turns to the packet channel described, and the TBF concerned gets timeslot,
    TFI, USF, coding scheme and starting time as sent.  [rfn2fn]: gsm_rfn2fn of libosmocore; [starts]: the starting frame
    handed on is that for the frame number modulo 42432 with the remainders sent. *)
Definition starts (rfn2fn : Z -> Z -> Z) (fn : Z) (sent : option (Z * Z * Z)) (o : option Z) : Prop :=
  match sent with None => o = None | Some t => exists r, rfn_of t r /\ o = Some (rfn2fn r fn) end.
Definition carrier (f : Z * Z + Z) (ma : list Z) : freq :=
  match f with inl (hsn, maio) => Hopping hsn maio ma | inr arfcn => Arfcn arfcn end.

Lemma time_starts rfn2fn m a fn t1 t3 t2 : item_ok (U 5 t1) -> item_ok (U 6 t3) -> item_ok (U 5 t2) -> time_ok (t1, t3, t2) ->
  time_at m a (t1, t3, t2) -> exists r, rfn_of (t1, t3, t2) r /\ start_fn rfn2fn m a fn = rfn2fn r fn.
Proof.
  intros B1 B3 B2 [K3 K2] (E1 & E2 & E3). unfold start_fn. rewrite E1, E2, E3. eexists. split; [|reflexivity].
  cbn in B1, B2, B3. destruct (C40_absolute_start t1 t3 t2) as (A & B & C & D); [lia..|]. unfold rfn_of. auto.
Qed.

(** Dynamic allocation; [waits]: a TBF is waiting for an assignment on the CCCH. *)
Theorem C52_dynamic_assignment :
  forall rsl mi_dec rfn2fn past ents waits stack si13 fn msg plen mode chan c1 c2 ref ta ma ts tsc f
    tfi poll usf gran p0 ccc tbcc alpha gamma tai start r99 n,
  message msg (imm_ass_head plen mode chan c1 c2 ref ta ma)
    (ia_dynamic tfi poll usf gran p0 ccc tbcc alpha gamma tai start ++ ul_tail r99 n) ->
  length ref = 3%nat -> rsl chan = inl ts -> channel_octets c1 c2 tsc f -> (length ma <= 8)%nat ->
  (forall t, start = Some t -> time_ok t) ->
  exists st, starts rfn2fn fn start st /\
    ccch_data_ind rsl mi_dec rfn2fn past 0 ents waits msg stack si13 fn =
      if waits then Done 0 [PdchEst ts tsc ta (carrier f ma); UlAssigned ts fn (IaDynamic tfi usf ccc st)]
      else Done (-2) [PdchEst ts tsc ta (carrier f ma)].
Proof.
  intros until n. intros M R3 Ts Ch Ma Tk.
  destruct (ia_go rsl rfn2fn past ents msg plen mode chan c1 c2 ref ta ma _ M R3 ts Ts tsc f Ch Ma waits stack fn _
    (fun bits nbits => ia_dynamic_dec bits nbits past tfi poll usf gran p0 ccc tbcc alpha gamma tai start r99 n 0 stack (proj1 (proj2 (proj2 (proj2 M))))))
    as (s & (F0 & F4 & F8 & F12 & F16 & F18 & F19 & F24 & Fs) & H).
  apply message_split in M as (tail & E & L & _ & K & _). unfold imm_ass_head in E. cbn [app] in E.
  unfold ccch_data_ind. rewrite (oct_mid msg [4 * plen + 1; 6] 63 _ 2 E eq_refl). cbn [cbind Z.eqb Pos.eqb]. rewrite H. cbv zeta.
  unfold to_ul, ul_contents, ia_type, ia_hh, ia_uldl, ia_ul, ia_alloc, ia_start_ex, ia_start, ia_tfi, ia_usf, ia_ccc. rewrite F0, F4, F8, F12, F16, F18, F19, F24.
  cbn [Z.eqb Pos.eqb orb andb negb]. unfold start_at in Fs. destruct start as [[[t1 t3] t2]|].
  - destruct Fs as [-> Fs]. cbn [Z.eqb Pos.eqb]. unfold ia_dynamic, opt, starting_time in K. oks.
    destruct (time_starts rfn2fn (s_mem s) 32 fn t1 t3 t2) as (r & R & Er); try assumption; [apply Tk; reflexivity|].
    eexists. split; [exists r; split; [exact R|reflexivity]|]. rewrite Er. destruct waits; reflexivity.
  - rewrite Fs. cbn [Z.eqb Pos.eqb]. eexists. split; [reflexivity|]. destruct waits; reflexivity.
Qed.
Print Assumptions C52_dynamic_assignment.

(** Single block. *)
Theorem C52_single_block :
  forall rsl mi_dec rfn2fn past ents waits stack si13 fn msg plen mode chan c1 c2 ref ta ma ts tsc f alpha gamma start p0 r99 n,
  message msg (imm_ass_head plen mode chan c1 c2 ref ta ma) (ia_single alpha gamma start p0 ++ ul_tail r99 n) ->
  length ref = 3%nat -> rsl chan = inl ts -> channel_octets c1 c2 tsc f -> (length ma <= 8)%nat -> time_ok start ->
  exists r, rfn_of start r /\
    ccch_data_ind rsl mi_dec rfn2fn past 0 ents waits msg stack si13 fn =
      if waits then Done 0 [PdchEst ts tsc ta (carrier f ma); UlAssigned ts fn (IaSingleBlock (rfn2fn r fn))]
      else Done (-2) [PdchEst ts tsc ta (carrier f ma)].
Proof.
  intros until n. intros M R3 Ts Ch Ma Tk.
  destruct (ia_go rsl rfn2fn past ents msg plen mode chan c1 c2 ref ta ma _ M R3 ts Ts tsc f Ch Ma waits stack fn _
    (fun bits nbits => ia_single_dec bits nbits past alpha gamma start p0 r99 n 0 stack (proj1 (proj2 (proj2 (proj2 M))))))
    as (s & (F0 & F4 & F8 & F12 & Fs) & H).
  apply message_split in M as (tail & E & L & _ & K & _). unfold imm_ass_head in E. cbn [app] in E.
  unfold ccch_data_ind. rewrite (oct_mid msg [4 * plen + 1; 6] 63 _ 2 E eq_refl). cbn [cbind Z.eqb Pos.eqb]. rewrite H. cbv zeta.
  unfold to_ul, ul_contents, ia_type, ia_hh, ia_uldl, ia_ul, ia_sb_start. rewrite F0, F4, F8, F12.
  cbn [Z.eqb Pos.eqb orb andb negb]. destruct start as [[t1 t3] t2]. unfold ia_single, opt, starting_time in K. oks.
  destruct (time_starts rfn2fn (s_mem s) 23 fn t1 t3 t2) as (r & R & Er); try assumption. exists r. split; [exact R|]. rewrite Er. destruct waits; reflexivity.
Qed.
Print Assumptions C52_single_block.

(** Downlink: the assignment goes to an entity with that TLLI (or that old TLLI); if there is none only the channel is
    established. *)
Lemma by_tlli_spec ents t :
  match by_tlli ents t with
  | Some (i, e) => nth_error ents i = Some e /\ (e_tlli e = t \/ e_old_tlli e = t)
  | None => forall e, In e ents -> e_tlli e <> t /\ e_old_tlli e <> t
  end.
Proof.
  unfold by_tlli. destruct (find _ _) as [[i e]|] eqn:E.
  - apply find_some in E as [I T]. cbn [snd] in T. split; [|lia].
    assert (G : forall (l : list ent) k i e, In (i, e) (combine (seq k (length l)) l) -> nth_error l (i - k) = Some e /\ (k <= i)%nat).
    { induction l as [|x l IH]; intros k j y H; [destruct H|]. cbn [length seq combine] in H. destruct H as [[= -> ->]|H].
      - rewrite Nat.sub_diag. split; [reflexivity|lia].
      - apply IH in H as [H Hk]. replace (j - k)%nat with (S (j - S k)) by lia. split; [exact H|lia]. }
    apply G in I as [I _]. rewrite Nat.sub_0_r in I. exact I.
  - intros e I. destruct (In_nth_error _ _ I) as (i & Hi).
    assert (G : forall (l : list ent) k i e, nth_error l i = Some e -> In ((k + i)%nat, e) (combine (seq k (length l)) l)).
    { clear. induction l as [|x l IH]; intros k j y H; [destruct j; discriminate|]. cbn [length seq combine]. destruct j as [|j]; cbn [nth_error] in H.
      - injection H as ->. left. f_equal. lia.
      - right. replace (k + S j)%nat with (S k + j)%nat by lia. apply IH. exact H. }
    specialize (G ents 0%nat i e Hi). apply (find_none _ _ E) in G. cbn [snd] in G. lia.
Qed.

Theorem C52_downlink_assignment_partial :
  forall rsl mi_dec rfn2fn past ents ul_waits stack si13 fn msg plen mode chan c1 c2 ref ta ma ts tsc f
    tlli tfi rlcm alpha gamma poll valid tai start p0 r99 n,
  message msg (imm_ass_head plen mode chan c1 c2 ref ta ma)
    (ia_downlink tlli (Some (tfi, rlcm, alpha, gamma, poll, valid)) tai start p0 ++ dl_tail r99 n) ->
  length ref = 3%nat -> rsl chan = inl ts -> channel_octets c1 c2 tsc f -> (length ma <= 8)%nat ->
  (forall t, start = Some t -> time_ok t) ->
  let res := ccch_data_ind rsl mi_dec rfn2fn past 0 ents ul_waits msg stack si13 fn in
  let est := PdchEst ts tsc ta (carrier f ma) in
  (exists i e st, nth_error ents i = Some e /\ (e_tlli e = tlli \/ e_old_tlli e = tlli) /\ starts rfn2fn fn start st /\
     res = Done 0 [est; DlAssigned (Z.of_nat i) ts fn tfi st]) \/
  ((forall e, In e ents -> e_tlli e <> tlli /\ e_old_tlli e <> tlli) /\ res = Done (-2) [est]).
Proof.
  intros until n. intros M R3 Ts Ch Ma Tk. cbv zeta.
  destruct (ia_go rsl rfn2fn past ents msg plen mode chan c1 c2 ref ta ma _ M R3 ts Ts tsc f Ch Ma ul_waits stack fn _
    (fun bits nbits => ia_downlink_dec bits nbits past tlli _ tai start p0 r99 n 0 stack (proj1 (proj2 (proj2 (proj2 M))))))
    as (s & (F0 & F4 & F8 & Ft & F17 & Fs) & H).
  apply message_split in M as (tail & E & L & _ & K & _). unfold imm_ass_head in E. cbn [app] in E.
  unfold ccch_data_ind. rewrite (oct_mid msg [4 * plen + 1; 6] 63 _ 2 E eq_refl). cbn [cbind Z.eqb Pos.eqb]. rewrite H. cbv zeta.
  unfold to_dl, ia_type, ia_hh, ia_uldl, ia_tlli, ia_dl_tfi, ia_dl_start_ex, ia_dl_start. rewrite F0, F4, F8, Ft.
  cbn [Z.eqb Pos.eqb orb andb negb]. pose proof (by_tlli_spec ents tlli) as B. destruct (by_tlli ents tlli) as [[i e]|].
  - destruct B as [B1 B2]. left. exists i, e. unfold start_at in Fs. rewrite F17. destruct start as [[[t1 t3] t2]|].
    + destruct Fs as [-> Fs]. cbn [Z.eqb Pos.eqb]. unfold ia_downlink, opt, starting_time in K. oks.
      destruct (time_starts rfn2fn (s_mem s) 27 fn t1 t3 t2) as (r & R & Er); try assumption; [apply Tk; reflexivity|].
      eexists. split; [exact B1|]. split; [exact B2|]. split; [exists r; split; [exact R|reflexivity]|]. rewrite Er. reflexivity.
    + rewrite Fs. cbn [Z.eqb]. exists None. split; [exact B1|]. split; [exact B2|]. split; reflexivity.
  - right. split; [exact B|]. reflexivity.
Qed.
Print Assumptions C52_downlink_assignment_partial.

(** The two assignments of tests/rlcmac/rlcmac_prim_test.c:138-230. *)
Definition imm_ass_ul : list Z := [0x2d; 0x06; 0x3f; 0x10; 0x0f; 0xe3; 0x67; 0x78; 0x09; 0x6b; 0x00; 0x00; 0xc8; 0x00; 0x30; 0x0b] ++ repeat 0x2b 7.
Definition imm_ass_dl : list Z := [0x2d; 0x06; 0x3f; 0x30; 0x0f; 0xe3; 0x67; 0x7d; 0x80; 0x00; 0x1c; 0x00; 0xd0; 0x00; 0x00; 0x00; 0x18; 0x00; 0x03] ++ repeat 0x2b 4.
Example C52_nonvacuous_uplink :
  message imm_ass_ul (imm_ass_head 11 0x10 0x0f 0xe3 0x67 [0x78; 0x09; 0x6b] 0 []) (ia_dynamic 0 0 0 0 None 1 1 None 0 None None ++ ul_tail None 60) /\
  channel_octets 0xe3 0x67 7 (inr 871) /\
  ccch_data_ind no_rsl no_mi no_rfn no_past 0 [] true imm_ass_ul zeroes zeroes 21 =
    Done 0 [PdchEst 7 7 0 (Arfcn 871); UlAssigned 7 21 (IaDynamic 0 0 1 None)].
Proof. split; [msg_ok|]. split; [unfold channel_octets; lia|lazy; reflexivity]. Qed.
Example C52_nonvacuous_downlink :
  message imm_ass_dl (imm_ass_head 11 0x30 0x0f 0xe3 0x67 [0x7d; 0x80; 0x00] 0x1c [])
    (ia_downlink 1 (Some (0, 0, None, 0, 0, 0)) None None None ++ dl_tail None 34) /\
  ccch_data_ind no_rsl no_mi no_rfn no_past 0 [mkEnt 5 6 7 []; mkEnt 8 1 10 []] false imm_ass_dl zeroes zeroes 21 =
    Done 0 [PdchEst 7 7 0x1c (Arfcn 871); DlAssigned 1 7 21 0 None].
Proof. split; [msg_ok|lazy; reflexivity]. Qed.
(** Hopping, a starting time and the uplink TBF's parameters. *)
Definition imm_ass_hop : list Z := [0x2d; 0x6; 0x3f; 0x10; 0xf; 0x7a; 0x8c; 0x1; 0x2; 0x3; 0x3f; 0x2; 0xaa; 0x55; 0xcc; 0x4a; 0x9e; 0xd1; 0x36; 0xb6; 0x8a; 0xe7; 0x2b].
Example C52_nonvacuous_start :
  message imm_ass_hop (imm_ass_head 11 0x10 0x0f 0x7a 0x8c [1; 2; 3] 63 [0xaa; 0x55])
    (ia_dynamic 17 0 5 0 (Some (3, 1)) 2 1 (Some 4) 9 (Some 6) (Some (13, 40, 21)) ++ ul_tail (Some (Some 7)) 8) /\
  channel_octets 0x7a 0x8c 3 (inl (12, 42)) /\ rfn_of (13, 40, 21) (13 * 1326 + 51 * 19 + 40) /\
  ccch_data_ind no_rsl no_mi no_rfn no_past 0 [] true imm_ass_hop zeroes zeroes 21 =
    Done 0 [PdchEst 7 3 63 (Hopping 12 42 [0xaa; 0x55]); UlAssigned 7 21 (IaDynamic 17 5 2 (Some (13 * 1326 + 51 * 19 + 40)))].
Proof. split; [msg_ok|]. split; [unfold channel_octets; lia|]. split; [unfold rfn_of; lia|lazy; reflexivity]. Qed.
Definition imm_ass_sb : list Z := [0x2d; 0x6; 0x3f; 0x10; 0xf; 0xe3; 0x67; 0x1; 0x2; 0x3; 0x3f; 0x0; 0xc5; 0x12; 0xb6; 0x8a; 0xab; 0x2b; 0x2b; 0x2b; 0x2b; 0x2b; 0x2b].
Example C52_nonvacuous_single :
  message imm_ass_sb (imm_ass_head 11 0x10 0x0f 0xe3 0x67 [1; 2; 3] 63 [])
    (ia_single (Some 4) 9 (13, 40, 21) None ++ ul_tail None 54) /\
  ccch_data_ind no_rsl no_mi no_rfn no_past 0 [] true imm_ass_sb zeroes zeroes 21 =
    Done 0 [PdchEst 7 7 63 (Arfcn 871); UlAssigned 7 21 (IaSingleBlock (13 * 1326 + 51 * 19 + 40))].
Proof. split; [msg_ok|lazy; reflexivity]. Qed.

(** A downlink assignment without TFI (44.018 allows it: only a timing advance or a starting time is sent) starts the TBF with
    a TFI from whatever the stack held: the same block, two results. *)
Definition imm_ass_no_tfi : list Z := [0x2d; 0x6; 0x3f; 0x30; 0xf; 0xe3; 0x67; 0x7d; 0x80; 0x0; 0x1c; 0x0; 0xd0; 0x0; 0x0; 0x0; 0x14; 0xcb; 0x2b; 0x2b; 0x2b; 0x2b; 0x2b].
Theorem C52_missing_tfi_refuted :
  exists msg plen mode chan c1 c2 ref ta tai n, message msg (imm_ass_head plen mode chan c1 c2 ref ta [])
      (ia_downlink 1 None tai None None ++ dl_tail None n) /\
    forall stack_tfi, 0 <= stack_tfi < 256 -> exists stack, octet_mem stack /\
      ccch_data_ind no_rsl no_mi no_rfn no_past 0 [mkEnt 1 1 10 []] false msg stack zeroes 21 =
        Done 0 [PdchEst 7 7 28 (Arfcn 871); DlAssigned 0 7 21 stack_tfi None].
Proof.
  exists imm_ass_no_tfi, 11, 0x30, 0x0f, 0xe3, 0x67, [0x7d; 0x80; 0x00], 0x1c, (Some 3), 44%nat. assert (M : message imm_ass_no_tfi (imm_ass_head 11 0x30 0x0f 0xe3 0x67 [0x7d; 0x80; 0x00] 0x1c [])
      (ia_downlink 1 None (Some 3) None None ++ dl_tail None 44)) by msg_ok. split; [exact M|].
  intros v Hv. exists (fun _ => v). split; [intros x; exact Hv|].
  destruct (ia_go no_rsl no_rfn no_past [mkEnt 1 1 10 []] imm_ass_no_tfi 11 0x30 0x0f 0xe3 0x67 [0x7d; 0x80; 0x00] 0x1c [] _ M eq_refl 7 eq_refl 7 (inr 871)
    ltac:(unfold channel_octets; lia) ltac:(cbn; lia) false (fun _ => v) 21 _
    (fun bits nbits => ia_downlink_dec bits nbits no_past 1 None (Some 3) None None None 44 0 (fun _ => v) (proj1 (proj2 (proj2 (proj2 M))))))
    as (s & (F0 & F4 & F8 & Ft & (_ & F17) & Fs) & H).
  unfold ccch_data_ind. change (oct imm_ass_no_tfi 2) with (Some 63). cbn [cbind Z.eqb Pos.eqb]. rewrite H. cbv zeta.
  unfold to_dl, ia_type, ia_hh, ia_uldl, ia_tlli, ia_dl_tfi, ia_dl_start_ex, ia_dl_start. unfold start_at in Fs. rewrite F0, F4, F8, Ft, F17, Fs. reflexivity.
Qed.
Print Assumptions C52_missing_tfi_refuted.

(** The request reference (octets 7-9: which mobile asked, and when) is not looked at: whatever the mobile sent itself, the
    answer to another mobile's request makes it leave for the channel given there and hands that assignment to its TBF. *)
Theorem C52_request_reference_refuted :
  forall own, exists msg plen mode chan c1 c2 ref ta n, ref <> own /\
    message msg (imm_ass_head plen mode chan c1 c2 ref ta []) (ia_dynamic 0 0 0 0 None 1 1 None 0 None None ++ ul_tail None n) /\
    ccch_data_ind no_rsl no_mi no_rfn no_past 0 [] true msg zeroes zeroes 21 =
      Done 0 [PdchEst 7 7 0 (Arfcn 871); UlAssigned 7 21 (IaDynamic 0 0 1 None)].
Proof.
  intros own. destruct (list_eq_dec Z.eq_dec [0x78; 0x09; 0x6b] own) as [<-|N].
  - exists ([0x2d; 0x06; 0x3f; 0x10; 0x0f; 0xe3; 0x67; 0x79; 0x09; 0x6b; 0x00; 0x00; 0xc8; 0x00; 0x30; 0x0b] ++ repeat 0x2b 7), 11, 0x10, 0x0f, 0xe3, 0x67, [0x79; 0x09; 0x6b], 0, 60%nat.
    split; [discriminate|]. split; [msg_ok|lazy; reflexivity].
  - exists imm_ass_ul, 11, 0x10, 0x0f, 0xe3, 0x67, [0x78; 0x09; 0x6b], 0, 60%nat. split; [exact N|]. split; [msg_ok|lazy; reflexivity].
Qed.
Print Assumptions C52_request_reference_refuted.

(** *** C53: system information 13 sets the timers T3168 and T3192 to the durations of 44.060.  Partial: cells without PBCCH
    (there is none in networks in use, but 44.018 has them). *)
Theorem C53_si13_timers_partial :
  forall rsl mi_dec rfn2fn past est_rc ents ul_waits stack si13 fn msg plen mark field ma rac spgc prio nco
    nmo t3168 t3192 drx abt cat bscv pan ext al tw tt pc nav add,
  message msg (si13_head plen)
    (si13_rest mark field (option_map (fun x : Z * (Z * list Z * (list Z + list bool)) => (fst x, let '(h, r, f) := snd x in gprs_ma h r f)) ma) rac spgc prio nco
      (cell_options nmo t3168 t3192 drx abt cat bscv pan ext) (power_control al tw tt pc nav) add) ->
  (forall x b, ma = Some x -> snd (snd x) = inr b -> 1 <= zlen b <= 64) -> (forall b, ext = Some b -> 1 <= zlen b <= 64) ->
  ccch_data_ind rsl mi_dec rfn2fn past est_rc ents ul_waits msg stack si13 fn =
    Done 0 [SetTimer 3168 (t3168_ms t3168); SetTimer 3192 (t3192_ms t3192)].
Proof.
  intros until add. intros M BM BE. pose proof (si13_msg mi_dec past _ _ _ _ ma _ _ _ _ _ _ _ _ _ _ _ _ _ _ _ _ _ _ _ si13 M BM BE) as H.
  apply message_split in M as (tail & E & L & _). unfold si13_head in E. cbn [app] in E.
  unfold ccch_data_ind. rewrite (oct_mid msg [4 * plen + 1; 6] 0 _ 2 E eq_refl). cbn [cbind Z.eqb]. exact H.
Qed.
Print Assumptions C53_si13_timers_partial.
Definition si13_msg1 : list Z := [1; 6; 0; 0xa0; 0xa4; 0xcc; 0x2a; 0xd5; 0x0; 0x58; 0xae; 0x6c; 0xd3; 0x91; 0x2c; 0x6a; 0x79; 0xdb; 0x2b; 0x2b; 0x2b; 0x2b; 0x2b].
Example C53_nonvacuous : exists more,
  message si13_msg1 (si13_head 0)
    (si13_rest 2 0 (Some (1, gprs_ma 9 [3] (inr [true; false; true; true; false; true; false; true; false; true; false]))) 1 0 6 0
      (cell_options 2 5 6 3 0 1 9 (Some (2, 3, 4)) (Some [true; false; true; true; false])) (power_control 3 10 15 0 7) (inr (1, inl (Some more)))) /\
  ccch_data_ind no_rsl no_mi no_rfn no_past 0 [] true si13_msg1 zeroes zeroes 0 = Done 0 [SetTimer 3168 3000; SetTimer 3192 160].
Proof. exists (skipn 117 (map (bit_at (skipn 3 si13_msg1)) (seq 0 160))). split; [msg_ok|lazy; reflexivity]. Qed.

(** With a PBCCH the code takes octets of its description for the cell options: any ARFCN of the PBCCH whose low octet exceeds 7
    aborts the process. *)
Definition si13_pbcch psi1 pb tsc tn arfcn more : list item :=
  [F true; U 3 0; U 4 0; U 1 0; U 1 1; U 4 psi1; U 4 pb; U 3 tsc; U 3 tn; U 2 1; U 10 arfcn; F false; Any more].
Theorem C53_pbcch_refuted :
  exists msg plen psi1 pb tsc tn arfcn more, message msg (si13_head plen) (si13_pbcch psi1 pb tsc tn arfcn more) /\
    forall rsl mi_dec rfn2fn est_rc ents ul_waits stack fn,
    ccch_data_ind rsl mi_dec rfn2fn no_past est_rc ents ul_waits msg stack zeroes fn = Abort.
Proof.
  set (msg := [1; 6; 0; 0x80; 0x40; 0x0; 0x43; 0x2b; 0x2b; 0x2b; 0x2b; 0x2b; 0x2b; 0x2b; 0x2b; 0x2b; 0x2b; 0x2b; 0x2b; 0x2b; 0x2b; 0x2b; 0x2b]).
  exists msg, 0, 0, 0, 0, 0, 50, (skipn 37 (map (bit_at (skipn 3 msg)) (seq 0 160))). split; [msg_ok|].
  intros. unfold ccch_data_ind. change (oct msg 2) with (Some 0). cbn [cbind Z.eqb]. lazy. reflexivity.
Qed.
Print Assumptions C53_pbcch_refuted.
