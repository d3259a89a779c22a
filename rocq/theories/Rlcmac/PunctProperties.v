(** C131: puncturing schemes of EGPRS blocks that are sent again. *)
From Coq Require Import Bool.
From Verif.Lib Require Import Base Outcome.
From Verif.Rlcmac Require RlcDataModel.
From Verif.Rlcmac Require Import CsModel AirModel AirSpec AirEdgeSpec AirProofs AirProofs2 AirEdge AirEdgeProperties PunctSpec.

Lemma put_zlen buf i src m : RlcDataModel.put buf i src = Ok m -> zlen m = zlen buf.
Proof.
  unfold RlcDataModel.put. destruct (Z.leb_spec 0 i); cbn [andb]; [|discriminate]. destruct (Z.leb_spec (i + zlen src) (zlen buf)); [|discriminate].
  intros E. injection E as <-. unfold zlen in *. rewrite !app_length, firstn_length, skipn_length. lia.
Qed.
Lemma from_loop_zlen x s : forall dst i c m l, from_loop x dst i s c = Ok (m, l) -> zlen m = zlen dst.
Proof.
  induction s as [|a s IH]; intros dst i c m l H; cbn [from_loop] in H; [injection H as <- _; reflexivity|].
  destruct (RlcDataModel.put _ _ _) as [d| |] eqn:P; cbn [bind] in H; try discriminate. apply put_zlen in P. apply IH in H. lia.
Qed.
Lemma copy_from_zlen offs len dst b m : copy_from offs len dst b = Ok m -> zlen m = zlen dst.
Proof.
  unfold copy_from. destruct (rdn b 0 len) as [s| |]; cbn [bind]; try discriminate. destruct (_ =? 0); [apply put_zlen|].
  destruct (rd dst _) as [d0| |]; cbn [bind]; try discriminate. destruct (from_loop _ _ _ _ _) as [[d l]| |] eqn:F; cbn [bind]; try discriminate.
  destruct (rd d _) as [o| |]; cbn [bind]; try discriminate. intros P. apply put_zlen in P. apply from_loop_zlen in F. lia.
Qed.
Lemma one_zlen s cs spb n i pad msg s1 m p f h : one_block s cs spb n i pad msg = Ok (s1, m, p, f, h) -> 5 <= cs <= 13 ->
  zlen m = zlen msg /\ p = get_punct (a_ps (s n)) (a_last (s n)) cs spb /\ 0 <= p <= 2 /\
  (forall j, j <> n -> s1 j = s j) /\ a_last (s1 n) = cs /\
  a_ps (s1 n) = (if (spb =? SPB_FIRST_10PAD) || (spb =? SPB_FIRST_6NOPAD) then p else update_punct p cs).
Proof.
  intros H C. unfold one_block in H. set (q := get_punct _ _ _ _) in *.
  destruct (is_edge cs && negb ((0 <=? q) && (q <=? 2))) eqn:U; [discriminate|].
  destruct (get_data (s n)) as [[from seg]| |]; cbn [bind] in H; try discriminate.
  destruct (data_offs_bits cs pad true i) as [offs| |]; cbn [bind] in H; try discriminate.
  destruct (block_data_len cs pad) as [len| |]; cbn [bind] in H; try discriminate.
  destruct (copy_from _ _ _ _) as [m'| |] eqn:F; cbn [bind] in H; try discriminate. apply copy_from_zlen in F.
  injection H as <- <- <- _ _. split; [exact F|]. split; [reflexivity|]. split; [unfold is_edge in U; lia|].
  split; [intros j J; unfold sset; replace (j =? n) with false by lia; reflexivity|]. unfold sset. rewrite Z.eqb_refl. split; reflexivity.
Qed.

(** A message, as the network sees it. *)
Lemma size_message cs pad n : 5 <= cs <= 13 -> (pad = true -> cs = 7 \/ cs = 10) -> size_ul cs = Ok n -> n = message (cs - 4) pad.
Proof.
  intros H P E. destruct (edge_cases _ H) as [D|[D|[D|[D|[D|[D|[D|[D|D]]]]]]]]; subst cs; vm_compute in E; injection E as <-;
    destruct pad; try reflexivity; destruct (P eq_refl); discriminate.
Qed.
Lemma rows_differ r r' : In r cps_table -> In r' cps_table -> r_cps r = r_cps r' -> message (r_mcs r) (r_pad r) = message (r_mcs r') (r_pad r') -> r = r'.
Proof.
  pose (same := fun x y => (r_type x =? r_type y) && (r_cps x =? r_cps y) && (r_mcs x =? r_mcs y) && Bool.eqb (r_pad x) (r_pad y) && (r_p1 x =? r_p1 y) && (r_p2 x =? r_p2 y)).
  assert (F : forallb (fun x => forallb (fun y => implb ((r_cps x =? r_cps y) && (message (r_mcs x) (r_pad x) =? message (r_mcs y) (r_pad y))) (same x y)) cps_table) cps_table = true) by (vm_compute; reflexivity).
  intros H H' C M. rewrite forallb_forall in F. specialize (F r H). rewrite forallb_forall in F. specialize (F r' H').
  rewrite C, M, !Z.eqb_refl in F. cbn [andb implb] in F. unfold same in F. rewrite !andb_true_iff, !Z.eqb_eq, Bool.eqb_true_iff in F.
  destruct r, r'; cbn in F. destruct F as [[[[[? ?] ?] ?] ?] ?]. congruence.
Qed.

Lemma choose_pad b two : snd (choose_cs b two) = true -> two = false \/ (fst (choose_cs b two) = 7 \/ fst (choose_cs b two) = 10) .
Proof.
  unfold choose_cs. destruct (a_init b =? 12); cbn [andb]; [destruct (a_cur b =? 10) eqn:A; cbn [orb]; [right; right; cbn; lia|destruct (a_cur b =? 7) eqn:B; [right; left; cbn; lia|]]|];
    destruct two; cbn; auto; discriminate.
Qed.
Lemma choose_pad' b two : snd (choose_cs b two) = true -> fst (choose_cs b two) = 7 \/ fst (choose_cs b two) = 10.
Proof.
  intros H. destruct (choose_pad b two H) as [E|E]; [|exact E]. subst two. revert H. unfold choose_cs, dec_to_single_block. cbn [negb].
  destruct (a_init b =? 12); cbn [andb]; [destruct (a_cur b =? 10) eqn:A; cbn [orb]; [right; cbn; lia|destruct (a_cur b =? 7) eqn:B; [left; cbn; lia|]]|];
    (destruct (a_cur b =? 12) eqn:D; [discriminate|]); repeat (match goal with |- context [if ?x then _ else _] => destruct x eqn:? end); cbn; intros; try discriminate; auto.
Qed.
Lemma choose_one b cs pad : choose_cs b false = (cs, pad) -> 5 <= cs <= 13 -> cs <> 12 -> num_data_blocks cs = Ok 1.
Proof.
  intros H C N. assert (L : cs <= 10).
  { revert H. unfold choose_cs, dec_to_single_block. cbn [negb]. destruct (_ && _) eqn:A; [intros E; injection E as <- _; lia|].
    destruct (a_cur b =? 12) eqn:D; [intros E; injection E as <- _; lia|].
    repeat (match goal with |- context [if ?x then _ else _] => destruct x eqn:? end); intros E; injection E as <- _; lia. }
  destruct (edge_cases _ C) as [D|[D|[D|[D|[D|[D|[D|[D|D]]]]]]]]; subst cs; try lia; reflexivity.
Qed.

Lemma sent s tfi n o s1 m k c f r : acked_block s tfi n o = Ok (s1, m, k, Some c, f) -> o <> Some n -> get_spb (s n) = Ok SPB_NO -> told m c r -> (r_mcs r = 8 -> o <> None) ->
  exists p, p = get_punct (a_ps (s n)) (a_last (s n)) (r_mcs r + 4) SPB_NO /\ 0 <= p <= 2 /\ r_p1 r = p mod schemes (r_mcs r) + 1 /\ 1 <= r_mcs r <= 9 /\
    a_last (s1 n) = r_mcs r + 4 /\ a_ps (s1 n) = update_punct p (r_mcs r + 4) /\
    r_mcs r + 4 = fst (choose_cs (s n) (match o with Some _ => true | None => false end)).
Proof.
  intros H No Sp T N8. unfold acked_block in H. set (two := match o with Some _ => true | None => false end) in *.
  pose proof (choose_pad' (s n) two) as Hpad. destruct (choose_cs (s n) two) as [cs pad] eqn:Ec. cbn [fst snd] in Hpad.
  rewrite Sp in H. cbn [bind] in H. destruct (num_data_blocks cs) as [num| |] eqn:En; cbn [bind] in H; try discriminate.
  destruct (size_ul cs) as [sz| |] eqn:Es; cbn [bind] in H; try discriminate. destruct (negb _); [discriminate|].
  destruct (one_block s cs SPB_NO n 0 pad _) as [[[[[sa ma] pa] fa] ha]| |] eqn:E1; cbn [bind] in H; try discriminate.
  destruct (is_edge cs) eqn:Ed.
  2:{ exfalso. match type of H with (do y <- ?x; _) = _ => destruct x as [[[[[sb mb] pb] kb] fb]| |]; cbn [bind] in H; try discriminate end.
      destruct (write_ul_header _ _ _) as [mc| |]; cbn [bind] in H; discriminate. }
  assert (C : 5 <= cs <= 13) by (unfold is_edge in Ed; lia).
  destruct (one_zlen _ _ _ _ _ _ _ _ _ _ _ _ E1 C) as (Z1 & P1 & R1 & O1 & L1 & Q1).
  assert (W : forall h x, write_ul_header cs h x = Ok x).
  { intros h x. unfold write_ul_header. destruct (edge_cases _ C) as [D|[D|[D|[D|[D|[D|[D|[D|D]]]]]]]]; rewrite D; reflexivity. }
  change ((SPB_NO =? SPB_FIRST_10PAD) || (SPB_NO =? SPB_FIRST_6NOPAD)) with false in Q1. cbv iota in Q1.
  assert (Sz : sz = message (cs - 4) pad) by (apply size_message; auto).
  assert (Zr : zlen (repeat 0 (Z.to_nat sz)) = sz).
  { unfold zlen. rewrite repeat_length. rewrite Z2Nat.id; [reflexivity|]. destruct (edge_cases _ C) as [D|[D|[D|[D|[D|[D|[D|[D|D]]]]]]]]; rewrite D in Es; vm_compute in Es; injection Es as <-; lia. }
  (* what there is of a second data block *)
  assert (S : exists pb sb mb, zlen mb = sz /\ (11 <= cs -> 0 <= pb <= 2 \/ cs = 12 /\ o = None) /\ (sb n = sa n \/ cs = 12 /\ o = None) /\ s1 = sb /\ m = mb /\ mcs_cps cs pa pb pad = Ok c).
  { destruct (Z.eqb_spec num 2) as [->|N2].
    - destruct (one_block sa cs SPB_NO _ 1 pad ma) as [[[[[sb mb] pb] fb] hb]| |] eqn:E2; cbn [bind] in H; try discriminate. rewrite W in H. cbn [bind] in H.
      destruct (one_zlen _ _ _ _ _ _ _ _ _ _ _ _ E2 C) as (Z2 & P2 & R2 & O2 & _ & _).
      destruct (mcs_cps cs pa pb pad) as [v| |] eqn:Ev; try discriminate. injection H as <- <- _ <- _.
      exists pb, sb, mb. split; [lia|]. split; [auto|]. split; [|auto]. destruct o as [k'|]; [left; apply O2; congruence|].
      right. split; [|reflexivity]. destruct (Z.eq_dec cs 12) as [X|X]; [exact X|exfalso]. rewrite (choose_one _ _ _ Ec C X) in En. discriminate.
    - cbn [bind] in H. rewrite W in H. cbn [bind] in H. destruct (mcs_cps cs pa PS_INVALID pad) as [v| |] eqn:Ev; try discriminate. injection H as <- <- _ <- _.
      exists PS_INVALID, sa, ma. split; [lia|]. split; [|auto]. intros G. exfalso. destruct (edge_cases _ C) as [D|[D|[D|[D|[D|[D|[D|[D|D]]]]]]]]; try lia; rewrite D in En; vm_compute in En; injection En as <-; apply N2; reflexivity. }
  destruct S as (pb & sb & mb & Zb & Rb & Sb & -> & -> & Ev).
  assert (Rb' : if 11 <=? cs then 0 <= pb <= 2 else True).
  { destruct (Z.leb_spec 11 cs) as [G|G]; [|exact I]. destruct (Rb G) as [X|[X Y]]; [exact X|exfalso].
    (* MCS-8 alone: the CPS shows MCS-8, which is excluded *)
    destruct T as (T1 & T2 & T3). apply N8; [|exact Y]. rewrite Zb in T3. rewrite Sz, X in T3. clear - T1 T3.
    assert (F : forallb (fun r => implb (message 8 pad =? message (r_mcs r) (r_pad r)) (r_mcs r =? 8)) cps_table = true) by (destruct pad; vm_compute; reflexivity).
    rewrite forallb_forall in F. specialize (F r T1). change (12 - 4) with 8 in T3. rewrite <- T3, Z.eqb_refl in F. cbn [implb] in F. lia. }
  pose proof (proj1 (C114_cps cs pa pb pad c C R1 Rb' Hpad) Ev) as Row.
  destruct T as (T1 & T2 & T3).
  assert (Er : r = mkrow (type_of (cs - 4)) c (cs - 4) pad (pa mod schemes (cs - 4) + 1) (if 11 <=? cs then pb + 1 else 0)).
  { apply rows_differ; [exact T1|exact Row|exact T2|]. cbn [r_mcs r_pad]. lia. }
  rewrite Er in *. cbn [r_mcs r_p1 r_pad] in *. replace (cs - 4 + 4) with cs in * by lia. cbn [fst].
  assert (Sn : sb n = sa n). { destruct Sb as [X|[X Y]]; [exact X|exfalso]. apply N8; [lia|exact Y]. }
  exists pa. rewrite Sn. repeat split; try assumption; try lia.
Qed.

(** C131: the first transmission of a block, alone or beside another, has the scheme P1. *)
Theorem C131_first : forall s tfi n o s1 m k c f r cs ti e cv buf,
  s n = new_ablk cs ti e cv buf -> acked_block s tfi n o = Ok (s1, m, k, Some c, f) -> o <> Some n -> get_spb (s n) = Ok 0 -> told m c r -> (r_mcs r = 8 -> o <> None) ->
  r_p1 r = 1.
Proof.
  intros s tfi n o s1 m k c f r cs ti e cv buf B H No Sp T N8. destruct (sent _ _ _ _ _ _ _ _ _ _ H No Sp T N8) as (p & P & R & E & M & _ & _ & Ch).
  rewrite B in P, Ch. cbn [new_ablk a_ps a_last] in P. rewrite E.
  assert (p = 0) as ->; [|rewrite Z.mod_0_l; [reflexivity|unfold schemes; destruct (_ || _); lia]].
  rewrite P. unfold choose_cs, dec_to_single_block in Ch. cbn [new_ablk a_init a_cur a_seg] in Ch. unfold get_punct. change (SPB_NO =? SPB_SEC) with false. cbv iota.
  set (c0 := r_mcs r + 4) in *. change ((0 =? 0) || (0 =? 2)) with true. cbv iota.
  destruct (cs =? 13) eqn:A1; destruct (c0 =? 10) eqn:A2; cbn [andb]; try reflexivity;
  destruct (cs =? 10) eqn:A3; destruct (c0 =? 13) eqn:A4; cbn [andb]; try reflexivity; try lia;
  destruct (cs =? 11) eqn:A5; destruct (c0 =? 9) eqn:A6; cbn [andb]; try reflexivity; try lia;
  destruct (cs =? 9) eqn:A7; destruct (c0 =? 11) eqn:A8; cbn [andb]; try reflexivity; try lia;
  try (destruct (negb (cs =? c0)); reflexivity).
  all: exfalso; revert Ch; repeat (match goal with |- context [if ?x then _ else _] => destruct x eqn:? end); cbn [fst]; intros; lia.
Qed.

(** C131 (partial): a block that is sent, and next sent again, whatever the scheme commanded meanwhile, has the puncturing scheme of the
    standard the second time: missing are switches between MCS-6 and MCS-9 (refuted below), blocks in segments, and MCS-8 when the block fills
    both places of the message. *)
Theorem C131_table_partial : forall s tfi n o1 s1 m1 k1 c1 f1 r1 s' o2 s2 m2 k2 c2 f2 r2,
  o1 <> Some n -> o2 <> Some n -> get_spb (s n) = Ok 0 -> get_spb (s' n) = Ok 0 ->
  acked_block s tfi n o1 = Ok (s1, m1, k1, Some c1, f1) -> told m1 c1 r1 -> (r_mcs r1 = 8 -> o1 <> None) ->
  (exists cur, s' n = let b := s1 n in mkablk (a_buf b) (a_ti b) (a_e b) (a_cv b) (a_last b) cur (a_init b) (a_ps b) (a_seg b)) ->
  acked_block s' tfi n o2 = Ok (s2, m2, k2, Some c2, f2) -> told m2 c2 r2 -> (r_mcs r2 = 8 -> o2 <> None) ->
  ~ (r_mcs r1 = 6 /\ r_mcs r2 = 9) -> ~ (r_mcs r1 = 9 /\ r_mcs r2 = 6) ->
  r_p1 r2 = after (r_mcs r1) (r_mcs r2) (r_p1 r1).
Proof.
  intros s tfi n o1 s1 m1 k1 c1 f1 r1 s' o2 s2 m2 k2 c2 f2 r2 N1 N2 S1 S2 H1 T1 E1 (cur & B) H2 T2 E2 X1 X2.
  destruct (sent _ _ _ _ _ _ _ _ _ _ H1 N1 S1 T1 E1) as (p & _ & R & P & M & L & Q & _).
  destruct (sent _ _ _ _ _ _ _ _ _ _ H2 N2 S2 T2 E2) as (q & G & R' & P' & M' & _).
  rewrite B in G. cbv zeta in G. cbn [a_ps a_last] in G. rewrite L, Q in G. rewrite P', G, P.
  clear - M M' R X1 X2. set (x := r_mcs r1) in *. set (y := r_mcs r2) in *. clearbody x y.
  assert (p = 0 \/ p = 1 \/ p = 2) as D by lia.
  assert (x = 1 \/ x = 2 \/ x = 3 \/ x = 4 \/ x = 5 \/ x = 6 \/ x = 7 \/ x = 8 \/ x = 9) as Dx by lia.
  assert (y = 1 \/ y = 2 \/ y = 3 \/ y = 4 \/ y = 5 \/ y = 6 \/ y = 7 \/ y = 8 \/ y = 9) as Dy by lia.
  destruct Dx as [->|[->|[->|[->|[->|[->|[->|[->| ->]]]]]]]]; destruct Dy as [->|[->|[->|[->|[->|[->|[->|[->| ->]]]]]]]];
    try (exfalso; lia); destruct D as [->|[->| ->]]; reflexivity.
Qed.

(** C131 (refuted): a block of MCS-9 is sent alone, in MCS-6 with P1, and again beside another in MCS-9: with P2, where the standard has P3. *)
Theorem C131_table_refuted : exists s tfi n s1 m1 k1 c1 f1 r1 o2 s2 m2 k2 c2 f2 r2,
  (forall j, s j = new_ablk 13 0 1 3 (map Z.of_nat (seq 0 74))) /\ o2 <> n /\
  acked_block s tfi n None = Ok (s1, m1, k1, Some c1, f1) /\ told m1 c1 r1 /\ acked_block s1 tfi n (Some o2) = Ok (s2, m2, k2, Some c2, f2) /\ told m2 c2 r2 /\
  (r_mcs r1, r_p1 r1) = (6, 1) /\ r_mcs r2 = 9 /\ r_p1 r2 = 2 /\ after 6 9 1 = 3.
Proof.
  exists blk9, 0, 5. eexists _, _, _, _, _, (mkrow 2 0 6 false 1 0), 6. eexists _, _, _, _, _, (mkrow 1 4 9 false 2 1).
  split; [reflexivity|]. split; [discriminate|]. split; [vm_compute; reflexivity|]. split; [split; [vm_compute; tauto|split; vm_compute; reflexivity]|].
  split; [vm_compute; reflexivity|]. split; [split; [vm_compute; tauto|split; vm_compute; reflexivity]|]. repeat split.
Qed.

(** Non-vacuity: MCS-7 alone in MCS-5 with P1, then beside another in MCS-7 with P2. *)
Definition blk7 : store := fun _ => new_ablk 11 0 1 3 (map Z.of_nat (seq 0 74)).
Example C131_case : exists s1 m1 k1 c1 f1 s2 m2 k2 c2 f2, 
  get_spb (blk7 5) = Ok 0 /\ acked_block blk7 0 5 None = Ok (s1, m1, k1, Some c1, f1) /\ told m1 c1 (mkrow 2 4 5 false 1 0) /\ get_spb (s1 5) = Ok 0 /\
  acked_block s1 0 5 (Some 6) = Ok (s2, m2, k2, Some c2, f2) /\ told m2 c2 (mkrow 1 23 7 false 2 1).
Proof.
  do 10 eexists. split; [vm_compute; reflexivity|]. split; [vm_compute; reflexivity|]. split; [split; [vm_compute; tauto|split; vm_compute; reflexivity]|].
  split; [vm_compute; reflexivity|]. split; [vm_compute; reflexivity|]. split; [vm_compute; tauto|split; vm_compute; reflexivity].
Qed.

Print Assumptions C131_first.
Print Assumptions C131_table_partial.
Print Assumptions C131_table_refuted.
