(** Proofs: what the segmentation produces, and that the receiver puts it together again. *)
From Coq Require Import Permutation.
From Verif.Lib Require Import Base Outcome.
From Verif.Sndcp Require Import SndcpModel SndcpSpec SndcpProofs.

(** *** Segmentation *)
Section Send.
Variable e : sne.
Hypothesis Hn : 4 <= e_n201u e <= 65535.

(** Payload room of fragment number [j], and the SN-PDUs carrying given payloads from fragment [j] on. *)
Definition cap (j : Z) : Z := if j =? 0 then e_n201u e - 4 else e_n201u e - 3.
Definition one_pdu (j : Z) (more : bool) (x : list Z) : list Z :=
  common (e_nsapi e) more (j =? 0) :: (if j =? 0 then [comp 0 0] else []) ++ udata (e_tx e) (j mod 15) ++ x.
Fixpoint build (j : Z) (xs : list (list Z)) : list (list Z) :=
  match xs with
  | [] => []
  | x :: r => one_pdu j (match r with [] => false | _ => true end) x :: build ((j + 1) mod 256) r
  end.
Fixpoint chunked (j : Z) (xs : list (list Z)) : Prop :=
  match xs with
  | [] => False
  | [x] => 1 <= zlen x <= cap j
  | x :: r => zlen x = cap j /\ chunked ((j + 1) mod 256) r
  end.

Lemma ud_frag_spec j rest : 0 <= j < 256 ->
  ud_frag e 0 0 j rest =
    let x := firstn (Z.to_nat (cap j)) rest in
    let rest' := skipn (Z.to_nat (cap j)) rest in
    (one_pdu j (match rest' with [] => false | _ => true end) x, rest', match rest' with [] => false | _ => true end).
Proof.
  intros Hj. unfold ud_frag. cbv zeta.
  assert (M : ((e_n201u e - 3) mod 2 ^ 32 - b2z (j =? 0)) mod 2 ^ 32 = cap j).
  { unfold cap. destruct (j =? 0); cbn [b2z]; rewrite (Z.mod_small (e_n201u e - 3)) by lia; rewrite Z.mod_small; lia. }
  rewrite M. assert (C : 0 <= cap j) by (unfold cap; destruct (j =? 0); lia).
  assert (E1 : firstn (Z.to_nat (if cap j <? zlen rest then cap j else zlen rest)) rest = firstn (Z.to_nat (cap j)) rest).
  { destruct (cap j <? zlen rest) eqn:E; [reflexivity|]. rewrite !firstn_all2 by (unfold zlen in *; lia). reflexivity. }
  assert (E2 : skipn (Z.to_nat (if cap j <? zlen rest then cap j else zlen rest)) rest = skipn (Z.to_nat (cap j)) rest).
  { destruct (cap j <? zlen rest) eqn:E; [reflexivity|]. rewrite !skipn_all2 by (unfold zlen in *; lia). reflexivity. }
  rewrite E1, E2. assert (E3 : (0 <? zlen (skipn (Z.to_nat (cap j)) rest)) =
    match skipn (Z.to_nat (cap j)) rest with [] => false | _ => true end).
  { destruct (skipn (Z.to_nat (cap j)) rest); [reflexivity|]. unfold zlen. cbn [length]. apply Z.ltb_lt. lia. }
  rewrite E3. reflexivity.
Qed.

Definition weight (j : Z) (rest : list Z) : nat := (2 * length rest + (if (j =? 0)%Z then 1 else 0))%nat.

Lemma frag_loop_spec fuel : forall j rest, 0 <= j < 256 -> (weight j rest < fuel)%nat -> rest <> [] ->
  exists xs, concat xs = rest /\ chunked j xs /\
    frag_loop fuel e 0 0 j rest None = Ok (build j xs, true) /\
    forall n, frag_loop fuel e 0 0 j rest (Some n) =
      Ok (firstn (S n) (build j xs), (length (build j xs) <=? n)%nat).
Proof.
  induction fuel as [|fuel IH]; intros j rest Hj Hw Hr; [lia|].
  cbn [frag_loop]. rewrite ud_frag_spec by exact Hj. cbv zeta.
  set (x := firstn (Z.to_nat (cap j)) rest). set (rest' := skipn (Z.to_nat (cap j)) rest).
  assert (Hx : rest = x ++ rest') by (symmetry; apply firstn_skipn).
  assert (C : 0 <= cap j) by (unfold cap; destruct (j =? 0); lia).
  destruct rest' as [|b r'] eqn:E.
  - exists [x]. rewrite app_nil_r in Hx. cbn [concat build chunked]. rewrite app_nil_r.
    split; [congruence|]. split.
    + assert (length x <= Z.to_nat (cap j))%nat by (apply firstn_le_length).
      assert (length x <> 0)%nat by (rewrite <- Hx; destruct rest; [congruence|cbn; lia]).
      unfold zlen. lia.
    + split; [reflexivity|]. intros [|n]; cbn [length build]; reflexivity.
  - assert (Lx : zlen x = cap j).
    { unfold x, zlen. rewrite firstn_length_le; [lia|].
      destruct (le_lt_dec (Z.to_nat (cap j)) (length rest)) as [L|L]; [exact L|].
      assert (A : rest' = []) by (apply skipn_all2; lia). unfold rest' in *. congruence. }
    assert (Lr : length rest = (length x + length (b :: r'))%nat) by (rewrite Hx at 1; apply app_length).
    destruct (IH ((j + 1) mod 256) (b :: r')) as (xs & Hc & Hch & H1 & H2).
    + apply Z.mod_pos_bound. lia.
    + unfold weight in *. unfold zlen in Lx. unfold cap in Lx.
      destruct (j =? 0) eqn:E0.
      * apply Z.eqb_eq in E0. subst j. change ((0 + 1) mod 256 =? 0) with false. cbv iota. lia.
      * destruct ((j + 1) mod 256 =? 0); lia.
    + discriminate.
    + exists (x :: xs). cbn [concat]. rewrite Hc. split; [congruence|].
      destruct xs as [|y ys]; [destruct Hch|]. split; [split; [exact Lx|exact Hch]|].
      cbn [option_map]. rewrite H1. cbn [bind fst snd].
      split; [reflexivity|]. intros [|n]; [reflexivity|].
      cbn [pred option_map]. rewrite H2. cbn [bind fst snd].
      change (build j (x :: y :: ys)) with (one_pdu j true x :: build ((j + 1) mod 256) (y :: ys)).
      cbn [length firstn Nat.leb]. reflexivity.
Qed.

Lemma one_pdu_len j more x : zlen (one_pdu j more x) = zlen x + (if j =? 0 then 4 else 3).
Proof.
  unfold one_pdu, udata. rewrite zlen_cons, !zlen_app. destruct (j =? 0); rewrite ?zlen_cons;
    change (zlen (@nil Z)) with 0; lia.
Qed.

Lemma build_len xs : forall j, chunked j xs -> Forall (fun p => zlen p <= e_n201u e) (build j xs).
Proof.
  induction xs as [|x r IH]; intros j H; cbn [build]; constructor.
  - rewrite one_pdu_len. cbn [chunked] in H. unfold cap in H. destruct r, (j =? 0); lia.
  - destruct r as [|y r']; [constructor|]. cbn [chunked] in H. apply IH. apply H.
Qed.

(** Fields of one SN-PDU. *)
Lemma one_pdu_fields j more x : 0 <= e_tx e < 4096 -> 0 <= e_nsapi e < 16 ->
  let p := one_pdu j more x in
  F_bit p = (j =? 0) /\ T_bit p = true /\ M_bit p = more /\ nsapi_of p = e_nsapi e /\
  seg_of p = j mod 15 /\ npdu_nr p = e_tx e /\ payload p = x.
Proof.
  intros Ht Hs. cbv zeta.
  destruct (common_fields (e_nsapi e) more (j =? 0) ((if j =? 0 then [comp 0 0] else []) ++ udata (e_tx e) (j mod 15) ++ x))
    as (A & B & C & D).
  fold (one_pdu j more x) in A, B, C, D. rewrite A, B, C, D.
  split; [reflexivity|]. split; [reflexivity|]. split; [reflexivity|]. split; [apply Z.mod_small; lia|].
  assert (U : oct (one_pdu j more x) (hdr_len (one_pdu j more x) - 2) = Z.land (Z.shiftr (e_tx e) 8) 15 + Z.land (j mod 15) 15 * 16 /\
              oct (one_pdu j more x) (hdr_len (one_pdu j more x) - 1) = Z.land (e_tx e) 255 /\
              payload (one_pdu j more x) = x).
  { unfold payload, hdr_len, oct. rewrite A. unfold one_pdu. destruct (j =? 0); repeat split; reflexivity. }
  destruct U as (U1 & U2 & U3). unfold seg_of, npdu_nr. rewrite U1, U2, U3.
  rewrite !land_15, land_255, shiftr_div by lia. change (2 ^ 8) with 256.
  assert (J : 0 <= j mod 15 < 15) by (apply Z.mod_pos_bound; lia).
  rewrite (Z.mod_small (j mod 15)) by lia. rewrite (Z.mod_small (e_tx e / 256)) by lia.
  split; [lia|]. split; [lia|reflexivity].
Qed.

(** Number of SN-PDUs. *)
Lemma chunked_count xs : forall j m, 1 <= j -> j + m <= 255 -> chunked j xs ->
  zlen (concat xs) <= m * (e_n201u e - 3) -> 0 <= m -> zlen xs <= m.
Proof.
  induction xs as [|x r IH]; intros j m Hj Hl Hc Hb Hm; [destruct Hc|].
  rewrite zlen_cons. cbn [concat] in Hb. rewrite zlen_app in Hb.
  assert (CJ : cap j = e_n201u e - 3) by (unfold cap; destruct (j =? 0) eqn:E; lia).
  destruct r as [|y r'].
  - cbn [chunked] in Hc. cbn [concat] in Hb. change (zlen (@nil Z)) with 0 in *. change (zlen (@nil (list Z))) with 0.
    destruct (Z.eq_dec m 0) as [->|]; lia.
  - change (zlen x = cap j /\ chunked ((j + 1) mod 256) (y :: r')) in Hc. destruct Hc as [Hx Hc].
    pose proof (zlen_nonneg (concat (y :: r'))). rewrite Hx, CJ in Hb.
    assert (1 <= m) by (destruct (Z_le_gt_dec 1 m); [lia|]; assert (m = 0) by lia; subst m; lia).
    rewrite (Z.mod_small (j + 1)) in Hc by lia.
    assert (zlen (y :: r') <= m - 1); [|lia].
    apply (IH (j + 1)); try assumption; lia.
Qed.

Lemma build_length xs : forall j, length (build j xs) = length xs.
Proof. induction xs; intros j; cbn [build length]; [reflexivity|]. rewrite IHxs. reflexivity. Qed.
End Send.

(** *** From the SN-PDUs of one N-PDU to what the receiver needs to know of them *)
(** Segment numbers [j], [j + 1], … ([n] of them). *)
Definition from (j : Z) (n : nat) : list Z := map (fun i => j + Z.of_nat i) (seq 0 n).
Lemma from_S j n : from j (S n) = j :: from (j + 1) n.
Proof. unfold from. cbn [seq map]. f_equal; [lia|]. rewrite <- seq_shift, map_map. apply map_ext. intros; lia. Qed.
Lemma from_In j n i : In i (from j n) <-> j <= i < j + Z.of_nat n.
Proof.
  unfold from. rewrite in_map_iff. split.
  - intros (m & <- & H). apply in_seq in H. lia.
  - intros H. exists (Z.to_nat (i - j)). split; [lia|]. apply in_seq. lia.
Qed.
Lemma from_NoDup j n : NoDup (from j n).
Proof. apply FinFun.Injective_map_NoDup; [intros a b; lia|apply seq_NoDup]. Qed.

Record carries (nsapi : Z) (npdu : list Z) (pdus : list (list Z)) (X : Z -> list Z) (k : Z) : Prop := {
  car_k : 0 <= k <= 14;
  car_first : exists p0 rest, pdus = p0 :: rest /\ first_pdu X k p0 /\ Forall2 (seg_pdu X k) (from 1 (Z.to_nat k)) rest;
  car_concat : concat (map X (from 0 (Z.to_nat k + 1))) = npdu;
  car_len : 1 <= zlen npdu <= 65279;
  car_nsapi : Forall (fun p => nsapi_of p = nsapi) pdus }.

Lemma build_segs e X k : 0 <= e_tx e < 4096 -> 0 <= e_nsapi e < 16 -> k <= 14 -> forall xs j,
  1 <= j -> j + zlen xs = k + 1 -> (forall i, (i < length xs)%nat -> X (j + Z.of_nat i) = nth i xs []) ->
  Forall2 (seg_pdu X k) (from j (length xs)) (build e j xs).
Proof.
  intros Ht Hs Hk. induction xs as [|x r IH]; intros j Hj Hl HX; cbn [build length]; [constructor|].
  rewrite from_S. rewrite zlen_cons in Hl. pose proof (zlen_nonneg r).
  constructor.
  - destruct (one_pdu_fields e j (match r with [] => false | _ => true end) x Ht Hs) as (A & B & C & D & E & F & G).
    unfold seg_pdu. rewrite A, B, C, E, G, one_pdu_len. pose proof (HX O ltac:(cbn; lia)) as X0. cbn [nth] in X0.
    rewrite Z.add_0_r in X0. rewrite X0. pose proof (zlen_nonneg x).
    destruct (j =? 0) eqn:E0; [lia|]. repeat split; try reflexivity; try lia.
    + destruct r; [change (zlen (@nil (list Z))) with 0 in Hl; destruct (j =? k) eqn:Q; [reflexivity|lia]|].
      rewrite zlen_cons in Hl. pose proof (zlen_nonneg r). destruct (j =? k) eqn:Q; [lia|reflexivity].
  - destruct r as [|y r']; [constructor|]. rewrite (Z.mod_small (j + 1)) by lia. apply IH; try lia.
    intros i Hi. specialize (HX (S i) ltac:(cbn in *; lia)).
    change (nth (S i) (x :: y :: r') []) with (nth i (y :: r') []) in HX. rewrite <- HX. f_equal. lia.
Qed.

Lemma concat_nth (xs : list (list Z)) j X : (forall i, (i < length xs)%nat -> X (j + Z.of_nat i) = nth i xs []) ->
  concat (map X (from j (length xs))) = concat xs.
Proof.
  revert j. induction xs as [|x r IH]; intros j H; [reflexivity|]. cbn [length]. rewrite from_S. cbn [map concat].
  rewrite IH.
  - f_equal. specialize (H O ltac:(cbn; lia)). rewrite Z.add_0_r in H. exact H.
  - intros i Hi. specialize (H (S i) ltac:(cbn; lia)). cbn [nth] in H. rewrite <- H. f_equal. lia.
Qed.

Lemma build_nsapi e : 0 <= e_tx e < 4096 -> 0 <= e_nsapi e < 16 -> forall xs j,
  Forall (fun p => nsapi_of p = e_nsapi e /\ npdu_nr p = e_tx e /\ T_bit p = true) (build e j xs).
Proof.
  intros Ht Hs. induction xs as [|x r IH]; intros j; cbn [build]; constructor; [|apply IH].
  destruct (one_pdu_fields e j (match r with [] => false | _ => true end) x Ht Hs) as (A & B & C & D & E & F & G).
  auto.
Qed.

(** The whole effect of an SN-UNITDATA.req. *)
Lemma req_cases e npdu : 0 <= e_n201u e <= 65535 -> npdu <> [] -> zlen npdu <= 65279 ->
  (e_n201u e >= 4 -> zlen npdu > e_n201u e - 4 -> e_n201u e <= 65279) ->
  exists xs, concat xs = npdu /\ (4 <= e_n201u e -> chunked e 0 xs) /\ (e_n201u e < 4 -> xs = [npdu]) /\
    forall refuse, sn_unitdata_req e npdu refuse =
      Ok (match refuse with
          | None => set_tx e ((e_tx e + 1) mod 4095)
          | Some n => if (length xs <=? n)%nat || (length xs =? 1)%nat && (zlen npdu <=? usub64 (e_n201u e) 4)
                      then set_tx e ((e_tx e + 1) mod 4095) else e
          end,
          match refuse with None => build e 0 xs | Some n => firstn (S n) (build e 0 xs) end,
          match refuse with None => 0 | Some n => if (length xs <=? n)%nat then 0 else -1 end).
Proof.
  intros Hn Hne Hl Hbig. unfold sn_unitdata_req, fits.
  destruct (zlen npdu + 256 <=? 65535) eqn:E1; [|lia]. cbn [negb].
  destruct (usub64 (e_n201u e) 4 <? zlen npdu) eqn:E2.
  - assert (4 <= e_n201u e).
    { destruct (Z_le_gt_dec 4 (e_n201u e)); [lia|]. unfold usub64 in E2.
      rewrite <- (Z.mod_add _ 1) in E2 by lia. rewrite Z.mod_small in E2 by lia. lia. }
    assert (U : usub64 (e_n201u e) 4 = e_n201u e - 4) by (unfold usub64; apply Z.mod_small; lia).
    destruct (e_n201u e + 256 <=? 65535) eqn:E3; [|lia]. cbn [negb].
    destruct (frag_loop_spec e ltac:(lia) (2 * length npdu + 2) 0 npdu) as (xs & Hc & Hch & H1 & H2);
      [lia|unfold weight; cbn; lia|exact Hne|].
    exists xs. split; [exact Hc|]. split; [intros _; exact Hch|]. split; [lia|].
    intros [n|].
    + rewrite H2. cbn [bind]. rewrite build_length.
      assert (E4 : (zlen npdu <=? usub64 (e_n201u e) 4) = false) by (apply Z.leb_gt; lia).
      rewrite E4, andb_false_r, orb_false_r. destruct (length xs <=? n)%nat; reflexivity.
    + rewrite H1. cbn [bind]. reflexivity.
  - exists [npdu]. cbn [concat]. rewrite app_nil_r. split; [reflexivity|]. split.
    + intros H4. cbn [chunked]. unfold cap. cbn [Z.eqb]. assert (1 <= zlen npdu).
      { destruct npdu; [congruence|]. rewrite zlen_cons. pose proof (zlen_nonneg npdu). lia. }
      unfold usub64 in E2. rewrite Z.mod_small in E2 by lia. lia.
    + split; [reflexivity|]. intros refuse.
      assert (E4 : (zlen npdu <=? usub64 (e_n201u e) 4) = true) by (apply Z.leb_le; lia).
      rewrite E4. destruct refuse as [[|n]|]; reflexivity.
Qed.

Lemma send_carries e npdu e' pdus rc :
  4 <= e_n201u e <= 65279 -> 0 <= e_tx e < 4096 -> 0 <= e_nsapi e < 16 -> npdu <> [] -> zlen npdu <= 65279 ->
  zlen npdu <= (e_n201u e - 4) + 14 * (e_n201u e - 3) ->
  sn_unitdata_req e npdu None = Ok (e', pdus, rc) ->
  exists X k, carries (e_nsapi e) npdu pdus X k.
Proof.
  intros Hn Ht Hs Hne Hl Hcount H.
  destruct (req_cases e npdu ltac:(lia) Hne Hl ltac:(lia)) as (xs & Hc & Hch & _ & Hreq).
  specialize (Hch ltac:(lia)). rewrite Hreq in H. injection H as <- <- <-.
  destruct xs as [|x0 xr]; [destruct Hch|].
  assert (L0 : zlen x0 <= e_n201u e - 4 /\ zlen xr <= 14).
  { destruct xr as [|x1 xr'].
    - cbn [chunked] in Hch. unfold cap in Hch. cbn [Z.eqb] in Hch. change (zlen (@nil (list Z))) with 0. lia.
    - change (zlen x0 = cap e 0 /\ chunked e ((0 + 1) mod 256) (x1 :: xr')) in Hch.
      destruct Hch as [Hx Hch]. unfold cap in Hx. cbn [Z.eqb] in Hx. split; [lia|].
      change ((0 + 1) mod 256) with 1 in Hch. apply (chunked_count e ltac:(lia) _ 1 14 ltac:(lia) ltac:(lia) Hch); [|lia].
      rewrite <- Hc in Hcount. change (concat (x0 :: x1 :: xr')) with (x0 ++ concat (x1 :: xr')) in Hcount.
      rewrite zlen_app in Hcount. lia. }
  destruct L0 as [L0 Lr]. pose proof (zlen_nonneg xr).
  set (X := fun i => nth (Z.to_nat i) (x0 :: xr) []).
  exists X, (zlen xr). constructor.
  - lia.
  - cbn [build]. eexists _, _. split; [reflexivity|]. split.
    + destruct (one_pdu_fields e 0 (match xr with [] => false | _ => true end) x0 Ht Hs) as (A & B & C & D & E & F & G).
      unfold first_pdu. rewrite A, B, C, E, G, one_pdu_len. change (0 =? 0) with true. pose proof (zlen_nonneg x0).
      repeat split; try reflexivity; try lia.
      destruct xr; [reflexivity|]. rewrite zlen_cons. pose proof (zlen_nonneg xr).
      destruct (0 =? zlen xr + 1) eqn:Q; [lia|reflexivity].
    + change ((0 + 1) mod 256) with 1. unfold zlen at 2. rewrite Nat2Z.id.
      apply build_segs; try assumption; try lia.
      intros i Hi. unfold X. replace (Z.to_nat (1 + Z.of_nat i)) with (S i) by lia. reflexivity.
  - rewrite <- Hc. replace (Z.to_nat (zlen xr) + 1)%nat with (length (x0 :: xr)) by (cbn [length]; unfold zlen; lia).
    apply concat_nth. intros i Hi. unfold X. rewrite Z.add_0_l, Nat2Z.id. reflexivity.
  - split; [|lia]. destruct npdu; [congruence|]. rewrite zlen_cons. pose proof (zlen_nonneg npdu). lia.
  - eapply Forall_impl; [|apply (build_nsapi e Ht Hs)]. intros p Hp. apply Hp.
Qed.

(** *** Reception of a sequence of SN-PDUs by one entity *)
Definition olist {A} (o : option A) : list A := match o with Some x => [x] | None => [] end.
Fixpoint rx (d : defrag) (ps : list (list Z)) : res (defrag * list (list Z)) :=
  match ps with
  | [] => Ok (d, [])
  | p :: r => do x <- unitdata_ind d p; let '(d1, o, _) := x in do y <- rx d1 r; Ok (fst y, olist o ++ snd y)
  end.

Lemma rx_app d ps qs : rx d (ps ++ qs) = do x <- rx d ps; do y <- rx (fst x) qs; Ok (fst y, snd x ++ snd y).
Proof.
  revert d. induction ps as [|p r IH]; intros d; cbn [rx app bind fst snd].
  - destruct (rx d qs) as [[d1 o]|er|]; reflexivity.
  - destruct (unitdata_ind d p) as [[[d1 o] rc]|er|]; cbn [bind]; try reflexivity. rewrite IH.
    destruct (rx d1 r) as [[d2 o2]|er|]; cbn [bind fst snd]; try reflexivity.
    destruct (rx d2 qs) as [[d3 o3]|er|]; cbn [bind fst snd]; try reflexivity. rewrite app_assoc. reflexivity.
Qed.

Lemma incl_total X S L : NoDup S -> incl S L ->
  total (map (fun i : Z => (i, X i)) S) <= total (map (fun i => (i, X i)) L).
Proof.
  revert L. induction S as [|a S IH]; intros L ND HI; [apply total_nonneg|].
  inversion ND as [|? ? Hni ND']; subst. destruct (in_split a L (HI a (or_introl eq_refl))) as (L1 & L2 & ->).
  assert (HI' : incl S (L1 ++ L2)).
  { intros b Hb. specialize (HI b (or_intror Hb)). apply in_app_or in HI as [HI|[HI|HI]]; apply in_or_app; auto. subst; contradiction. }
  specialize (IH _ ND' HI'). rewrite map_app in *. rewrite total_app in *. cbn [map total fold_right snd].
  fold (total (map (fun i => (i, X i)) S)) (total (map (fun i => (i, X i)) L2)). lia.
Qed.

Lemma total_concat X L : total (map (fun i : Z => (i, X i)) L) = zlen (concat (map X L)).
Proof.
  induction L as [|a L IH]; [reflexivity|]. cbn [map total fold_right concat snd]. rewrite zlen_app.
  fold (total (map (fun i => (i, X i)) L)). lia.
Qed.

Section Receive.
Variables (X : Z -> list Z) (k : Z).
Hypothesis Hk : 0 < k.
Hypothesis Hlen : zlen (concat (map X (from 0 (Z.to_nat k + 1)))) <= 65279.

Lemma sub_total S : NoDup S -> (forall i, In i S -> 0 <= i <= k) -> total (map (fun i => (i, X i)) S) <= 65279.
Proof.
  intros ND HS. etransitivity; [|exact Hlen]. rewrite <- total_concat. apply incl_total; [exact ND|].
  intros i Hi. apply from_In. specialize (HS i Hi). lia.
Qed.

Lemma rx_sel : forall is ps S d, Forall2 (seg_pdu X k) is ps -> held X k S d -> NoDup (is ++ S) ->
  (forall i, In i (is ++ S) -> 0 <= i <= k) -> (exists i, 0 <= i <= k /\ ~ In i S) ->
  ((exists i, 0 <= i <= k /\ ~ In i (is ++ S)) -> exists d', rx d ps = Ok (d', [])) /\
  ((forall i, 0 <= i <= k -> In i (is ++ S)) ->
   exists d', rx d ps = Ok (d', [concat (map X (from 0 (Z.to_nat k + 1)))]) /\ df_frags d' = []).
Proof.
  induction is as [|i is IH]; intros ps S d HP HD ND HR HM.
  - inversion HP; subst. cbn [app rx] in *. split.
    + intros _. exists d. reflexivity.
    + intros H. destruct HM as (j & Hj & Hn). exfalso. apply Hn, H, Hj.
  - inversion HP as [|? p ? ps' Hp HP']; subst. cbn [app] in *.
    inversion ND as [|? ? Hni ND']; subst.
    assert (Hi : 0 <= i <= k) by (apply HR; left; reflexivity).
    assert (HiS : ~ In i S) by (intros Hc; apply Hni, in_or_app; right; exact Hc).
    assert (PM : Permutation (i :: is ++ S) (is ++ i :: S)) by apply Permutation_middle.
    assert (NDS : NoDup (i :: S)).
    { constructor; [exact HiS|]. clear -ND'. induction is as [|a l IHl]; [exact ND'|]. inversion ND'; subst. auto. }
    assert (RS : forall j, In j (i :: S) -> 0 <= j <= k).
    { intros j [<-|Hj]; [exact Hi|]. apply HR. right. apply in_or_app. right. exact Hj. }
    pose proof (sub_total (i :: S) NDS RS) as HT.
    assert (HA : held X k (i :: S) (absorb d p)) by (apply held_absorb; try assumption; lia).
    pose proof (held_all X k (i :: S) _ ltac:(lia) HA RS) as HAll.
    assert (STEP : unitdata_ind d p =
      if df_nomore (absorb d p) && have_all (absorb d p) then segments (absorb d p) else Ok (absorb d p, None, 0)).
    { destruct Hp as (HF & HTb & HMb & Hs & Hpl & Hl).
      rewrite unitdata_ind_spec by (intros ->; change (zlen (@nil Z)) with 0 in Hl; lia).
      rewrite HTb, HF. cbn [negb andb]. destruct (zlen p <? 3) eqn:E; [lia|reflexivity]. }
    cbn [rx]. rewrite STEP.
    destruct (df_nomore (absorb d p) && have_all (absorb d p)) eqn:EA.
    + (* complete now: nothing else can follow *)
      assert (All : forall j, 0 <= j <= k -> In j (i :: S)) by (apply HAll; exact eq_refl).
      assert (is = []).
      { destruct is as [|a l]; [reflexivity|]. exfalso. cbn [app] in ND', Hni.
        inversion ND' as [|? ? Hna _]; subst.
        assert (Ha : 0 <= a <= k) by (apply HR; right; left; reflexivity).
        destruct (All a Ha) as [<-|Hin]; [apply Hni; left; reflexivity|]. apply Hna, in_or_app. right. exact Hin. }
      subst is. inversion HP'; subst. cbn [app] in *.
      destruct (held_complete X k (i :: S) (absorb d p) ltac:(lia) HA NDS) as (d' & Hseg & Hf).
      * intros j. split; [apply RS|apply All].
      * destruct HA. lia.
      * rewrite Hseg. cbn [bind fst snd rx olist app]. split.
        -- intros (j & Hj & Hn). exfalso. apply Hn, All, Hj.
        -- intros _. exists d'. split; [|exact Hf]. unfold from. do 3 f_equal.
    + cbn [bind]. destruct (IH ps' (i :: S) (absorb d p) HP' HA) as [IH1 IH2].
      * eapply Permutation_NoDup; [exact PM|exact ND].
      * intros j Hj. apply HR. eapply Permutation_in; [apply Permutation_sym; exact PM|exact Hj].
      * destruct (Exists_dec (fun j => ~ In j (i :: S)) (from 0 (Z.to_nat k + 1))) as [Hex|Hno].
        -- intros j. destruct (in_dec Z.eq_dec j (i :: S)); tauto.
        -- apply Exists_exists in Hex as (j & Hj & Hn). apply from_In in Hj. exists j. split; [lia|exact Hn].
        -- exfalso. assert (EA' : false = true); [|discriminate]. apply HAll. intros j Hj.
           destruct (in_dec Z.eq_dec j (i :: S)) as [|Hn]; [assumption|]. exfalso. apply Hno, Exists_exists.
           exists j. split; [apply from_In; lia|exact Hn].
      * split.
        -- intros (j & Hj & Hn). destruct IH1 as (d' & ->).
           { exists j. split; [exact Hj|]. intros Hc. apply Hn. eapply Permutation_in; [apply Permutation_sym; exact PM|exact Hc]. }
           exists d'. reflexivity.
        -- intros H. destruct IH2 as (d' & -> & Hf).
           { intros j Hj. eapply Permutation_in; [exact PM|apply H, Hj]. }
           exists d'. split; [reflexivity|exact Hf].
Qed.
End Receive.
