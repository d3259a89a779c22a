(** Proofs about SNDCP segmentation and reassembly. *)
From Coq Require Import Permutation.
From Verif.Lib Require Import Base Outcome.
From Verif.Sndcp Require Import SndcpModel SndcpSpec.

(** *** Header fields *)
Lemma h_first_F p h : nth 0 p 0 = h -> h_first h = F_bit p.
Proof.
  intros <-. unfold h_first, F_bit, oct. change 64 with (2 ^ 6) at 1. rewrite tst_bit by lia.
  change (2 ^ 6) with 64. destruct (nth 0 p 0 / 64 mod 2 =? 0) eqn:E, (nth 0 p 0 / 64 mod 2 =? 1) eqn:E2; cbn; lia.
Qed.
Lemma h_type_T p h : nth 0 p 0 = h -> h_type h = T_bit p.
Proof.
  intros <-. unfold h_type, T_bit, oct. change 32 with (2 ^ 5) at 1. rewrite tst_bit by lia.
  change (2 ^ 5) with 32. destruct (nth 0 p 0 / 32 mod 2 =? 0) eqn:E, (nth 0 p 0 / 32 mod 2 =? 1) eqn:E2; cbn; lia.
Qed.
Lemma h_more_M p h : nth 0 p 0 = h -> h_more h = M_bit p.
Proof.
  intros <-. unfold h_more, M_bit, oct. change 16 with (2 ^ 4) at 1. rewrite tst_bit by lia.
  change (2 ^ 4) with 16. destruct (nth 0 p 0 / 16 mod 2 =? 0) eqn:E, (nth 0 p 0 / 16 mod 2 =? 1) eqn:E2; cbn; lia.
Qed.
Lemma h_nsapi_of p h : nth 0 p 0 = h -> h_nsapi h = nsapi_of p.
Proof. intros <-. unfold h_nsapi, nsapi_of, oct. apply land_15. Qed.

Lemma common_fields nsapi more first r :
  let p := common nsapi more first :: r in
  F_bit p = first /\ T_bit p = true /\ M_bit p = more /\ nsapi_of p = nsapi mod 16.
Proof.
  cbv zeta. unfold F_bit, T_bit, M_bit, nsapi_of, oct, common. cbn [nth]. rewrite land_15.
  destruct more, first; cbn [b2z]; repeat split; try (apply Z.eqb_eq; lia); try (apply Z.eqb_neq; lia); lia.
Qed.

(** What defrag_input does to the state before it looks whether the N-PDU is complete. *)
Definition reset (d : defrag) (num c : Z) : defrag := mkdf num 0 0 false 0 [] (Z.land c 15) (Z.shiftr c 4).
Definition last_seen (d : defrag) : defrag :=
  mkdf (df_npdu d) (df_high d) (df_have d) true (df_tot d) (df_frags d) (df_pcomp d) (df_dcomp d).
Definition absorb (d : defrag) (p : list Z) : defrag :=
  let d1 := if F_bit p then mkdf (Z.lor (Z.shiftl (Z.land (oct p (hdr_len p - 2)) 15) 8) (oct p (hdr_len p - 1)))
                                 0 0 false 0 [] (Z.land (oct p 1) 15) (Z.shiftr (oct p 1) 4) else d in
  let d2 := enqueue d1 (seg_of p) (payload p) in
  if M_bit p then d2 else last_seen d2.

Lemma rd_nth p i : (i < length p)%nat -> rd p (Z.of_nat i) = Ok (oct p i).
Proof. intros H. rewrite rd_ok by (unfold zlen; lia). rewrite Nat2Z.id. reflexivity. Qed.

Lemma payload_rdn p : (hdr_len p <= length p)%nat ->
  rdn p (Z.of_nat (hdr_len p)) (zlen p - Z.of_nat (hdr_len p)) = Ok (payload p).
Proof.
  intros H. rewrite rdn_ok by (unfold zlen; lia). rewrite Nat2Z.id. unfold slice, payload.
  f_equal. apply firstn_all2. rewrite skipn_length. unfold zlen. lia.
Qed.

Lemma defrag_input_spec d p : (hdr_len p <= length p)%nat ->
  defrag_input (if F_bit p then mkdf (df_npdu d) (df_high d) (df_have d) (df_nomore d) (df_tot d) (df_frags d)
                                     (Z.land (oct p 1) 15) (Z.shiftr (oct p 1) 4) else d) p =
  (if df_nomore (absorb d p) && have_all (absorb d p) then segments (absorb d p) else Ok (absorb d p, None, 0)).
Proof.
  intros H.
  assert (H0 : (0 < length p)%nat) by (unfold hdr_len in H; destruct (F_bit p); lia).
  unfold defrag_input. change 0 with (Z.of_nat 0) at 1. rewrite rd_nth by exact H0. cbn [bind].
  rewrite (h_first_F p) by reflexivity. rewrite (h_more_M p) by reflexivity.
  assert (E : (if F_bit p then 2 else 1) = Z.of_nat (hdr_len p - 2)) by (unfold hdr_len; destruct (F_bit p); reflexivity).
  rewrite E. rewrite rd_nth by (unfold hdr_len in *; destruct (F_bit p); lia). cbn [bind].
  replace (Z.of_nat (hdr_len p - 2) + 1) with (Z.of_nat (hdr_len p - 1)) by (unfold hdr_len; destruct (F_bit p); reflexivity).
  rewrite rd_nth by (unfold hdr_len in *; destruct (F_bit p); lia). cbn [bind].
  replace (Z.of_nat (hdr_len p - 2) + 2) with (Z.of_nat (hdr_len p)) by (unfold hdr_len; destruct (F_bit p); reflexivity).
  rewrite payload_rdn by exact H. cbn [bind]. cbv zeta. rewrite (shiftr_div (oct p (hdr_len p - 2)) 4) by lia. change (2 ^ 4) with 16.
  fold (seg_of p). unfold absorb, last_seen.
  destruct (F_bit p), (M_bit p); reflexivity.
Qed.

Lemma unitdata_ind_spec d p : p <> [] ->
  unitdata_ind d p =
  if negb (T_bit p) then Ok (d, None, - EINVAL)
  else if zlen p <? 3 then Ok (d, None, - EIO)
  else if F_bit p && (zlen p =? 3) then UB
  else if F_bit p && negb (M_bit p)
  then let d1 := mkdf (df_npdu d) (df_high d) (df_have d) (df_nomore d) (df_tot d) (df_frags d)
                      (Z.land (oct p 1) 15) (Z.shiftr (oct p 1) 4) in
       if zlen p =? 4 then Ok (d1, None, - EIO) else Ok (d1, Some (payload p), 0)
  else if df_nomore (absorb d p) && have_all (absorb d p) then segments (absorb d p) else Ok (absorb d p, None, 0).
Proof.
  intros Hp. assert (H0 : (0 < length p)%nat) by (destruct p; [congruence|cbn; lia]).
  unfold unitdata_ind. change 0 with (Z.of_nat 0) at 1. rewrite rd_nth by exact H0. cbn [bind].
  rewrite (h_type_T p) by reflexivity. rewrite (h_first_F p) by reflexivity. rewrite (h_more_M p) by reflexivity.
  destruct (T_bit p); [|reflexivity]. cbn [negb]. destruct (zlen p <? 3) eqn:E3; [reflexivity|].
  assert (L3 : (3 <= length p)%nat) by (unfold zlen in E3; lia).
  pose proof (defrag_input_spec d p) as D. unfold hdr_len at 1 in D.
  destruct (F_bit p) eqn:EF; cbn [andb orb negb].
  - change 1 with (Z.of_nat 1) at 1. rewrite rd_nth by lia. cbn [bind].
    destruct (zlen p =? 3) eqn:E4.
    + assert (L : length p = 3%nat) by (unfold zlen in E4; lia).
      assert (R : rd p 3 = UB) by (unfold rd; rewrite (proj1 (Z.eqb_eq _ _) E4); reflexivity).
      destruct (M_bit p).
      * unfold defrag_input. change 0 with (Z.of_nat 0) at 1. rewrite rd_nth by exact H0. cbn [bind].
        rewrite (h_first_F p) by reflexivity. rewrite EF. change 2 with (Z.of_nat 2) at 1.
        rewrite rd_nth by lia. cbn [bind]. change (2 + 1) with 3. rewrite R. reflexivity.
      * rewrite R. reflexivity.
    + destruct (M_bit p) eqn:EM.
      * apply D. unfold zlen in E4. lia.
      * change 3 with (Z.of_nat 3) at 1. rewrite rd_nth by (unfold zlen in E4; lia). cbn [bind negb].
        destruct (zlen p =? 4) eqn:E5.
        -- destruct (zlen p - 4 <=? 0) eqn:E6; [reflexivity|lia].
        -- destruct (zlen p - 4 <=? 0) eqn:E6; [unfold zlen in *; lia|].
           pose proof (payload_rdn p) as P. unfold hdr_len in P. rewrite EF in P. change (Z.of_nat 4) with 4 in P.
           rewrite P by (unfold zlen in *; lia). reflexivity.
  - apply D. exact L3.
Qed.

(** *** Reassembly *)
Lemma mask_bit n i : 0 <= i -> Z.testbit (mask n) i = (i <=? Z.of_nat n).
Proof.
  intros Hi. induction n; cbn [mask].
  - change 1 with (2 ^ 0). rewrite Z.pow2_bits_eqb by lia. destruct (0 =? i) eqn:E, (i <=? Z.of_nat 0) eqn:E2; lia.
  - rewrite Z.lor_spec, IHn, Z.shiftl_1_l, Z.pow2_bits_eqb by lia.
    destruct (i <=? Z.of_nat n) eqn:E, (Z.of_nat (S n) =? i) eqn:E2, (i <=? Z.of_nat (S n)) eqn:E3; cbn; lia.
Qed.

Lemma get_seg_some s l : In s (map fst l) -> NoDup (map fst l) ->
  exists x l1 l2, l = l1 ++ (s, x) :: l2 /\ get_seg s l = Some (x, l1 ++ l2).
Proof.
  induction l as [|[n y] r IH]; cbn [map fst In get_seg]; [intros []|]. intros Hin Hnd.
  destruct (n =? s) eqn:E.
  - apply Z.eqb_eq in E. subst. exists y, [], r. split; reflexivity.
  - destruct Hin as [Hin|Hin]; [lia|]. inversion Hnd as [|? ? Hni Hnd']; subst.
    destruct (IH Hin Hnd') as (x & l1 & l2 & -> & ->). exists x, ((n, y) :: l1), l2. split; reflexivity.
Qed.
Lemma get_seg_none s l : ~ In s (map fst l) -> get_seg s l = None.
Proof.
  induction l as [|[n y] r IH]; [reflexivity|]. cbn [map fst In get_seg]. intros H.
  destruct (n =? s) eqn:E; [apply Z.eqb_eq in E; tauto|]. rewrite IH by tauto. reflexivity.
Qed.

(** Total length of the entries of a list. *)
Definition total (l : list (Z * list Z)) : Z := fold_right (fun x s => zlen (snd x) + s) 0 l.
Lemma total_app l1 l2 : total (l1 ++ l2) = total l1 + total l2.
Proof. induction l1; cbn [total fold_right app]; [reflexivity|]. unfold total in IHl1. rewrite IHl1. unfold total. lia. Qed.
Lemma total_nonneg l : 0 <= total l.
Proof. induction l as [|x l IH]; cbn [total fold_right]; [lia|]. unfold total in IH. pose proof (zlen_nonneg (snd x)). lia. Qed.
Lemma total_perm l l' : Permutation l l' -> total l = total l'.
Proof. induction 1; cbn [total fold_right] in *; unfold total in *; lia. Qed.
Lemma get_seg_total s l x l' : get_seg s l = Some (x, l') -> total l = zlen x + total l'.
Proof.
  revert x l'. induction l as [|[n y] r IH]; cbn [get_seg]; [discriminate|]. intros x l'.
  destruct (n =? s).
  - intros [= <- <-]. reflexivity.
  - destruct (get_seg s r) as [[y' r']|]; [|discriminate]. intros [= <- <-].
    specialize (IH _ _ eq_refl). cbn [total fold_right snd] in *. unfold total in *. lia.
Qed.

(** collect never overruns the buffer when the entries fit into it. *)
Lemma collect_total n seg room acc l :
  zlen acc + total l <= room ->
  exists o l', collect n seg room acc l = Ok (o, l') /\ total l' <= total l /\
    match o with Some r => zlen r + total l' <= zlen acc + total l | None => True end.
Proof.
  revert seg acc l. induction n as [|n IH]; intros seg acc l H; cbn [collect].
  - exists (Some acc), l. repeat split; lia.
  - destruct (get_seg seg l) as [[x l']|] eqn:E; [|exists None, l; repeat split; lia].
    apply get_seg_total in E. pose proof (zlen_nonneg x). pose proof (total_nonneg l').
    destruct (zlen acc + zlen x <=? room) eqn:E2; [|lia].
    destruct (IH (seg + 1) (acc ++ x) l') as (o & l2 & -> & Ht & Ho); [rewrite zlen_app; lia|].
    exists o, l2. split; [reflexivity|]. split; [lia|]. destruct o; [rewrite zlen_app in Ho; lia|exact Logic.I].
Qed.

(** All segments present exactly once: they come out in order and nothing is left. *)
Lemma collect_all (X : Z -> list Z) n : forall seg room acc l,
  Permutation l (map (fun i => (i, X i)) (map (fun k => seg + Z.of_nat k) (seq 0 n))) ->
  zlen acc + total l <= room ->
  collect n seg room acc l = Ok (Some (acc ++ concat (map X (map (fun k => seg + Z.of_nat k) (seq 0 n)))), []).
Proof.
  induction n as [|n IH]; intros seg room acc l HP HR; cbn [collect].
  - cbn in HP. apply Permutation_sym, Permutation_nil in HP. subst. cbn. rewrite app_nil_r. reflexivity.
  - assert (S0 : forall g : Z -> Z, map (fun k => seg + Z.of_nat k) (seq 0 (S n)) =
                   seg :: map (fun k => (seg + 1) + Z.of_nat k) (seq 0 n)).
    { intros _. cbn [seq map]. f_equal; [lia|]. rewrite <- seq_shift, map_map. apply map_ext. intros k. lia. }
    specialize (S0 (fun x => x)). rewrite S0 in *. cbn [map] in HP.
    assert (ND : NoDup (map fst l)).
    { apply (Permutation_map fst) in HP. eapply Permutation_NoDup; [apply Permutation_sym; exact HP|].
      cbn [map fst]. rewrite map_map. cbn [fst]. rewrite map_id.
      rewrite <- S0. apply FinFun.Injective_map_NoDup; [intros a b; lia|apply seq_NoDup]. }
    assert (HI : In seg (map fst l)).
    { apply (Permutation_map fst) in HP. eapply Permutation_in; [apply Permutation_sym; exact HP|]. left. reflexivity. }
    destruct (get_seg_some seg l HI ND) as (x & l1 & l2 & El & ->).
    assert (Hx : x = X seg).
    { assert (Hin : In (seg, x) l) by (rewrite El; apply in_elt).
      eapply Permutation_in in Hin; [|exact HP]. destruct Hin as [Hin|Hin]; [congruence|].
      rewrite map_map in Hin. apply in_map_iff in Hin as (k & Hk & _). inversion Hk. lia. }
    subst x. rewrite El in HR. rewrite total_app in HR. cbn [total fold_right snd] in HR. fold (total l2) in HR.
    pose proof (total_nonneg l1). pose proof (total_nonneg l2).
    destruct (zlen acc + zlen (X seg) <=? room) eqn:E; [|lia].
    rewrite (IH (seg + 1) room (acc ++ X seg) (l1 ++ l2)).
    + cbn [map concat]. rewrite <- app_assoc. reflexivity.
    + rewrite El in HP. apply Permutation_sym, Permutation_cons_app_inv, Permutation_sym in HP. exact HP.
    + rewrite zlen_app, total_app. lia.
Qed.

(** Segment 0 is missing: nothing comes out and nothing is taken. *)
Lemma collect_no0 n room l : ~ In 0 (map fst l) -> collect (S n) 0 room [] l = Ok (None, l).
Proof. intros H. cbn [collect]. rewrite (get_seg_none 0 l H). reflexivity. Qed.

(** State in the middle of an N-PDU whose segments are [X 0] … [X k], with the segments in [S] received. *)
Record held (X : Z -> list Z) (k : Z) (S : list Z) (d : defrag) : Prop := {
  held_frags : df_frags d = map (fun i => (i, X i)) S;
  held_have : forall i, 0 <= i -> Z.testbit (df_have d) i = if in_dec Z.eq_dec i S then true else false;
  held_nonneg : 0 <= df_have d;
  held_high : df_high d = fold_right Z.max 0 S;
  held_tot : df_tot d = total (map (fun i => (i, X i)) S);
  held_nomore : df_nomore d = if in_dec Z.eq_dec k S then true else false }.

Lemma fold_max_ge S i : In i S -> i <= fold_right Z.max 0 S.
Proof. induction S as [|a S IH]; [intros []|]. cbn. intros [->|H]; [lia|]. specialize (IH H). lia. Qed.
Lemma fold_max_le S k : 0 <= k -> (forall i, In i S -> i <= k) -> fold_right Z.max 0 S <= k.
Proof. intros Hk. induction S as [|a S IH]; cbn; [lia|]. intros H. pose proof (H a (or_introl eq_refl)). specialize (IH (fun i Hi => H i (or_intror Hi))). lia. Qed.

Lemma held_all X k S d : 0 <= k -> held X k S d -> (forall i, In i S -> 0 <= i <= k) ->
  df_nomore d && have_all d = true <-> (forall i, 0 <= i <= k -> In i S).
Proof.
  intros Hk [Hf Hh Hn Hg Ht Hm] HS. rewrite andb_true_iff. unfold have_all. rewrite Z.eqb_eq, Hm, Hg. split.
  - intros [H1 H2] i Hi. destruct (in_dec Z.eq_dec k S) as [Hin|]; [|discriminate].
    assert (E : fold_right Z.max 0 S = k).
    { pose proof (fold_max_ge S k Hin). pose proof (fold_max_le S k Hk (fun i Hi => proj2 (HS i Hi))). lia. }
    rewrite E in H2. assert (B : Z.testbit (df_have d) i = true).
    { rewrite <- H2, mask_bit by lia. apply Z.leb_le. lia. }
    rewrite Hh in B by lia. destruct (in_dec Z.eq_dec i S); [assumption|discriminate].
  - intros H. destruct (in_dec Z.eq_dec k S) as [Hin|Hni]; [|exfalso; apply Hni, H; lia]. split; [reflexivity|].
    assert (E : fold_right Z.max 0 S = k).
    { pose proof (fold_max_ge S k Hin). pose proof (fold_max_le S k Hk (fun i Hi => proj2 (HS i Hi))). lia. }
    rewrite E. apply Z.bits_inj'. intros i Hi. rewrite mask_bit, Hh by lia.
    destruct (in_dec Z.eq_dec i S) as [Hii|Hii]; [apply Z.leb_le; apply HS in Hii; lia|].
    apply Z.leb_gt. destruct (Z_le_gt_dec i k); [|lia]. exfalso. apply Hii, H. lia.
Qed.

(** [p] is segment [i] of [X], not the first. *)
Definition seg_pdu (X : Z -> list Z) (k i : Z) (p : list Z) : Prop :=
  F_bit p = false /\ T_bit p = true /\ M_bit p = negb (i =? k) /\ seg_of p = i /\ payload p = X i /\ 3 <= zlen p.
Definition first_pdu (X : Z -> list Z) (k : Z) (p : list Z) : Prop :=
  F_bit p = true /\ T_bit p = true /\ M_bit p = negb (0 =? k) /\ seg_of p = 0 /\ payload p = X 0 /\ 4 <= zlen p.

Lemma held_absorb X k S d i p : held X k S d -> seg_pdu X k i p -> 0 <= i -> ~ In i S ->
  total (map (fun i => (i, X i)) (i :: S)) < 2 ^ 32 -> held X k (i :: S) (absorb d p).
Proof.
  intros [Hf Hh Hn Hg Ht Hm] (HF & HT & HM & Hs & Hp & Hl) Hi Hni Hlt.
  unfold absorb. rewrite HF, HM, Hs, Hp. cbv zeta.
  assert (HH : forall j, 0 <= j -> Z.testbit (Z.lor (df_have d) (Z.shiftl 1 i)) j =
            if in_dec Z.eq_dec j (i :: S) then true else false).
  { intros j Hj. rewrite Z.lor_spec, Hh, Z.shiftl_1_l, Z.pow2_bits_eqb by lia.
    destruct (in_dec Z.eq_dec j (i :: S)) as [Hin|Hin], (in_dec Z.eq_dec j S) as [Hin2|Hin2]; cbn [orb]; try reflexivity.
    - destruct Hin as [<-|Hin]; [apply Z.eqb_refl|contradiction].
    - exfalso. apply Hin. right. exact Hin2.
    - apply Z.eqb_neq. intros ->. apply Hin. left. reflexivity. }
  assert (H0 : 0 <= Z.lor (df_have d) (Z.shiftl 1 i)).
  { apply Z.lor_nonneg. split; [exact Hn|]. rewrite Z.shiftl_1_l. apply Z.pow_nonneg. lia. }
  pose proof (total_nonneg (map (fun i => (i, X i)) (i :: S))) as H1.
  assert (T : (df_tot d + zlen (X i)) mod 2 ^ 32 = total (map (fun i => (i, X i)) (i :: S))).
  { rewrite Ht. cbn [map total fold_right snd] in *. fold (total (map (fun i => (i, X i)) S)) in *.
    rewrite Z.mod_small; lia. }
  destruct (i =? k) eqn:E; cbn [negb]; constructor; unfold last_seen, enqueue;
    cbn [df_frags df_have df_high df_tot df_nomore map fold_right]; try assumption.
  - rewrite Hf. reflexivity.
  - rewrite Hg. reflexivity.
  - destruct (in_dec Z.eq_dec k (i :: S)) as [|Hx]; [reflexivity|]. exfalso. apply Hx. left. lia.
  - rewrite Hf. reflexivity.
  - rewrite Hg. reflexivity.
  - rewrite Hm. destruct (in_dec Z.eq_dec k (i :: S)) as [[Hx|Hx]|Hx], (in_dec Z.eq_dec k S) as [Hy|Hy]; try reflexivity; try contradiction.
    + lia.
    + exfalso. apply Hx. right. exact Hy.
Qed.

Lemma held_first X k d p : 0 < k -> first_pdu X k p -> zlen (X 0) < 2 ^ 32 -> held X k [0] (absorb d p).
Proof.
  intros Hk (HF & HT & HM & Hs & Hp & Hl) HX. unfold absorb. rewrite HF, HM, Hs, Hp. cbv zeta.
  destruct (0 =? k) eqn:E; [lia|]. cbn [negb]. pose proof (zlen_nonneg (X 0)).
  constructor; unfold enqueue; cbn [df_frags df_have df_high df_tot df_nomore map fold_right total snd]; try reflexivity.
  - intros i Hi. change (Z.lor 0 (Z.shiftl 1 0)) with (2 ^ 0). rewrite Z.pow2_bits_eqb by lia.
    destruct (in_dec Z.eq_dec i [0]) as [[<-|[]]|Hn]; [reflexivity|]. apply Z.eqb_neq. intros <-. apply Hn. left. reflexivity.
  - cbn. lia.
  - rewrite Z.mod_small; lia.
  - destruct (in_dec Z.eq_dec k [0]) as [[Hn|[]]|Hn]; [lia|reflexivity].
Qed.

(** A complete N-PDU comes out whole and leaves nothing behind. *)
Lemma held_complete X k S d : 0 <= k -> held X k S d -> NoDup S -> (forall i, In i S <-> 0 <= i <= k) ->
  df_tot d <= 65279 ->
  exists d', segments d = Ok (d', Some (concat (map X (map Z.of_nat (seq 0 (Z.to_nat k + 1))))), 0) /\ df_frags d' = [].
Proof.
  intros Hk [Hf Hh Hn Hg Ht Hm] ND HS Hb. unfold segments, fits.
  destruct (df_tot d + 256 <=? 65535) eqn:E; [|lia]. cbn [negb].
  assert (EK : df_high d = k).
  { rewrite Hg. pose proof (fold_max_ge S k (proj2 (HS k) ltac:(lia))).
    pose proof (fold_max_le S k Hk (fun i Hi => proj2 (proj1 (HS i) Hi))). lia. }
  rewrite EK, Hf.
  assert (SEQ : map (fun j : nat => 0 + Z.of_nat j) (seq 0 (Datatypes.S (Z.to_nat k))) = map Z.of_nat (seq 0 (Z.to_nat k + 1))).
  { rewrite Nat.add_1_r. apply map_ext. intros; lia. }
  rewrite (collect_all X (Datatypes.S (Z.to_nat k)) 0).
  - cbn [bind app]. rewrite SEQ. eexists. split.
    + do 2 f_equal. f_equal. f_equal. rewrite firstn_app.
      assert (L : length (concat (map X (map Z.of_nat (seq 0 (Z.to_nat k + 1))))) = Z.to_nat (df_tot d)).
      { rewrite Ht. clear -ND HS Hk.
        assert (P : Permutation S (map Z.of_nat (seq 0 (Z.to_nat k + 1)))).
        { apply NoDup_Permutation; [exact ND|apply FinFun.Injective_map_NoDup; [intros a b; lia|apply seq_NoDup]|].
          intros i. rewrite HS, in_map_iff. split.
          - intros Hi. exists (Z.to_nat i). split; [lia|apply in_seq; lia].
          - intros (j & <- & Hj). apply in_seq in Hj. lia. }
        rewrite (total_perm _ _ (Permutation_map (fun i => (i, X i)) P)).
        generalize (map Z.of_nat (seq 0 (Z.to_nat k + 1))). intros l. induction l as [|a l IH]; [reflexivity|].
        cbn [map concat total fold_right snd]. rewrite app_length, IH. fold (total (map (fun i => (i, X i)) l)).
        pose proof (total_nonneg (map (fun i => (i, X i)) l)). unfold zlen. lia. }
      rewrite L, Nat.sub_diag. cbn [firstn]. rewrite app_nil_r. apply firstn_all2. lia.
    + reflexivity.
  - rewrite SEQ. apply Permutation_map. apply NoDup_Permutation; [exact ND|apply FinFun.Injective_map_NoDup; [intros a b; lia|apply seq_NoDup]|].
    intros i. rewrite HS, in_map_iff. split.
    + intros Hi. exists (Z.to_nat i). split; [lia|apply in_seq; lia].
    + intros (j & <- & Hj). apply in_seq in Hj. lia.
  - change (zlen (@nil Z)) with 0. rewrite <- Ht. lia.
Qed.
