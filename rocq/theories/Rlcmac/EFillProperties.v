(** C132: the network finds in an EGPRS data block the LLC frames that were put in. *)
From Coq Require Import Bool.
From Verif.Lib Require Import Base Outcome.
From Verif.Rlcmac Require Import RlcDataModel CountdownProofs EFillSpec EFillModel.

(** C132 (refuted): a frame of ten octets, alone in a block of MCS-1, the last one.  Its length is written in the format of GPRS (six bits,
    M and E), the indication of filling after it in that of EGPRS: the network finds a frame of twenty octets. *)
Theorem C132_frames_refuted : exists dlen frame e oct, 
  create_block_e dlen false 0 true [frame] = Ok (e, oct, []) /\ dlen = 22 /\ frame = [1; 2; 3; 4; 5; 6; 7; 8; 9; 10] /\
  units e oct = [frame ++ repeat 43 10] /\ units e oct <> [frame].
Proof.
  exists 22, [1; 2; 3; 4; 5; 6; 7; 8; 9; 10]. do 2 eexists. split; [vm_compute; reflexivity|]. split; [reflexivity|]. split; [reflexivity|].
  split; [vm_compute; reflexivity|]. vm_compute. discriminate.
Qed.

Lemma le_octets t : tlli_octets_le t = tlli_le t.
Proof.
  unfold tlli_octets_le, tlli_le. change 255 with (Z.ones 8). rewrite !Z.land_ones, !Z.shiftr_div_pow2 by lia. reflexivity.
Qed.
Lemma put_at (a m c s : list Z) i : zlen a = i -> length m = length s -> put (a ++ m ++ c) i s = Ok (a ++ s ++ c).
Proof.
  intros A L. unfold put. assert (0 <= i) by (unfold zlen in A; lia). rewrite (proj2 (Z.leb_le 0 i)) by lia.
  rewrite (proj2 (Z.leb_le _ _)) by (unfold zlen in *; rewrite !app_length; lia). cbn [andb].
  assert (N : Z.to_nat i = length a) by (unfold zlen in A; lia). rewrite N. rewrite firstn_app, firstn_all, Nat.sub_diag. cbn [firstn]. rewrite app_nil_r.
  rewrite skipn_app, skipn_all2 by lia. replace (length a + length s - length a)%nat with (length s) by lia. rewrite <- L, skipn_app, skipn_all, Nat.sub_diag. reflexivity.
Qed.

(** C132 (partial): the indication of filling is right: for a block with [l] indicators (the last of them [x]) and data [d] with at least one
    octet left, it goes between the indicators and the data, E of the indicator before it becomes 0 and its own is 1; every other octet stays. *)
Theorem C132_padding_partial : forall l x d y rest e, byte x ->
  append_pad (mkbst (l ++ [x] ++ d ++ [y] ++ rest) (zlen l + 1 + zlen d) (zlen l + 1) e) =
  Ok (mkbst (l ++ [x / 2 * 2] ++ [255] ++ d ++ rest) (zlen l + 2 + zlen d + zlen rest) (zlen l + 2) e).
Proof.
  intros l x d y rest e Bx. unfold append_pad. cbn [b_nc b_off b_buf b_e].
  assert (Pl : 0 <= zlen l) by apply zlen_nonneg. assert (Pd : 0 <= zlen d) by apply zlen_nonneg.
  assert (S : (if zlen l + 1 =? zlen l + 1 + zlen d then Ok (l ++ [x] ++ d ++ [y] ++ rest)
               else shift1 (l ++ [x] ++ d ++ [y] ++ rest) (zlen l + 1) (zlen l + 1 + zlen d - (zlen l + 1))) = Ok (l ++ [x] ++ [hd y d] ++ d ++ rest)).
  { destruct d as [|d0 d']; [cbn [app hd]; change (zlen (@nil Z)) with 0; rewrite Z.add_0_r, Z.eqb_refl; reflexivity|].
    assert (0 < zlen (d0 :: d')) by (rewrite zlen_cons; pose proof (zlen_nonneg d'); lia).
    rewrite (proj2 (Z.eqb_neq _ _)) by lia. unfold shift1. replace (zlen l + 1 + zlen (d0 :: d') - (zlen l + 1)) with (zlen (d0 :: d')) by lia.
    rewrite rdn_ok; [|lia|lia|rewrite !zlen_app; change (zlen [x]) with 1; change (zlen [y]) with 1; pose proof (zlen_nonneg rest); lia]. cbn [bind].
    assert (Sl : slice (Z.to_nat (zlen l + 1)) (Z.to_nat (zlen (d0 :: d'))) (l ++ [x] ++ (d0 :: d') ++ [y] ++ rest) = d0 :: d').
    { unfold slice, zlen. rewrite Nat2Z.id. replace (Z.to_nat (Z.of_nat (length l) + 1)) with (length (l ++ [x])) by (rewrite app_length; cbn [length]; lia).
      rewrite (app_assoc l [x]). rewrite skipn_app, skipn_all, Nat.sub_diag. cbn [skipn app]. rewrite app_comm_cons, firstn_app, firstn_all, Nat.sub_diag. cbn [firstn]. apply app_nil_r. }
    rewrite Sl. replace (l ++ [x] ++ (d0 :: d') ++ [y] ++ rest) with ((l ++ [x] ++ [d0]) ++ (d' ++ [y]) ++ rest) by (rewrite <- !app_assoc; reflexivity).
    rewrite (put_at (l ++ [x] ++ [d0]) (d' ++ [y]) rest (d0 :: d')); [rewrite <- !app_assoc; reflexivity|rewrite !zlen_app; change (zlen [x]) with 1; change (zlen [d0]) with 1; lia|rewrite app_length; cbn [length]; lia]. }
  rewrite S. cbn [bind].
  replace (l ++ [x] ++ [hd y d] ++ d ++ rest) with ((l ++ [x]) ++ [hd y d] ++ (d ++ rest)) by (rewrite <- !app_assoc; reflexivity).
  rewrite (put_at (l ++ [x]) [hd y d] (d ++ rest) [127 * 2 + 1]); [|rewrite zlen_app; reflexivity|reflexivity]. cbn [bind].
  unfold prev_li. cbn [b_nc]. rewrite (proj2 (Z.eqb_neq (zlen l + 1) 0)) by lia. replace (zlen l + 1 - 1) with (zlen l) by lia.
  replace ((l ++ [x]) ++ [127 * 2 + 1] ++ d ++ rest) with (l ++ [x] ++ ([127 * 2 + 1] ++ d ++ rest)) by (rewrite <- !app_assoc; reflexivity).
  rewrite rd_ok by (rewrite !zlen_app; change (zlen [x]) with 1; pose proof (zlen_nonneg rest); change (zlen [127 * 2 + 1]) with 1; lia). cbn [bind].
  replace (nth (Z.to_nat (zlen l)) (l ++ [x] ++ [127 * 2 + 1] ++ d ++ rest) 0) with x.
  2:{ unfold zlen. rewrite Nat2Z.id, app_nth2, Nat.sub_diag by lia. reflexivity. }
  rewrite (put_at l [x] ([127 * 2 + 1] ++ d ++ rest) [Z.land x 254]); [|reflexivity|reflexivity]. cbn [bind].
  assert (X : Z.land x 254 = x / 2 * 2).
  { assert (G : forallb (fun n => Z.land (Z.of_nat n) 254 =? Z.of_nat n / 2 * 2) (seq 0 256) = true) by (vm_compute; reflexivity).
    rewrite forallb_forall in G. unfold byte in Bx. specialize (G (Z.to_nat x) ltac:(apply in_seq; lia)). rewrite Z2Nat.id in G by lia. lia. }
  rewrite X. do 2 f_equal; [rewrite !zlen_app; change (zlen [x]) with 1; change (zlen [y]) with 1; lia|lia].
Qed.

(** C132 (partial): building a block never goes wrong, whatever is waiting: nothing is written outside the block and no assertion fails. *)
Lemma pad_sizes st : 0 <= b_nc st <= b_off st -> b_off st < zlen (b_buf st) -> exists st', append_pad st = Ok st' /\ zlen (b_buf st') = zlen (b_buf st).
Proof.
  intros N O. unfold append_pad.
  assert (S : exists b1, (if b_nc st =? b_off st then Ok (b_buf st) else shift1 (b_buf st) (b_nc st) (b_off st - b_nc st)) = Ok b1 /\ zlen b1 = zlen (b_buf st)).
  { destruct (b_nc st =? b_off st); [eauto|]. unfold shift1. rewrite rdn_ok by lia. cbn [bind]. apply put_ok; [lia|]. unfold zlen in *. rewrite slice_length; lia. }
  destruct S as (b1 & -> & L1). cbn [bind].
  destruct (put_ok b1 [127 * 2 + 1] (b_nc st) ltac:(lia)) as (b2 & -> & L2); [rewrite one_octet; lia|]. cbn [bind].
  destruct (prev_ok st (fun o => Z.land o 254) b2 ltac:(lia)) as (b3 & -> & L3). cbn [bind]. eexists. split; [reflexivity|]. cbn [b_buf]. lia.
Qed.
Lemma fill_e_sizes final : forall pend st, 0 <= b_nc st <= b_off st -> b_off st < zlen (b_buf st) -> Forall (fun m => m <> []) pend -> (pend <> [] \/ 0 < b_nc st) ->
  exists st' more, fill_e final st pend = Ok (st', more) /\ zlen (b_buf st') = zlen (b_buf st).
Proof.
  induction pend as [|m r IH]; intros st Hnc Hoff Hok Hp; cbn [fill_e].
  - destruct Hp as [Hp|Hp]; [congruence|]. rewrite (proj2 (Z.ltb_lt _ _) Hp). destruct (pad_sizes st Hnc Hoff) as (st' & -> & L). cbn [bind]. eauto.
  - inversion Hok as [|? ? Hm Hr]; subst. assert (Hm1 : 0 < zlen m) by (destruct m; [congruence|rewrite zlen_cons; pose proof (zlen_nonneg m); lia]).
    rewrite (proj2 (Z.eqb_neq (zlen m) 0)) by lia. destruct (append_sizes final st m Hnc Hoff Hm) as (ar & st' & more & E & Hl & Hn & Hcase). rewrite E. cbn [bind]. cbv zeta in Hcase.
    destruct Hcase as [(Hlt & -> & ->)|[(He & -> & ->)|[(He & -> & -> & ->)|(Hlt & -> & Ho)]]]; eauto.
    destruct (Z.ltb_spec 0 (zlen (b_buf st) - b_off st - 1 - zlen m)) as [Hs|Hs]; [|eauto].
    destruct (IH st' ltac:(lia) ltac:(lia) Hr ltac:(right; lia)) as (st2 & more2 & E2 & L2). exists st2, more2. split; [exact E2|lia].
Qed.
Theorem C132_contained_partial : forall dlen ti tlli final pend, 5 <= dlen -> pend <> [] -> Forall (fun f => f <> []) pend ->
  exists e oct more, create_block_e dlen ti tlli final pend = Ok (e, oct, more) /\ zlen oct = dlen.
Proof.
  intros dlen ti tlli final pend Hd Hp Hok. unfold create_block_e.
  assert (Hb : exists b0, (if ti then put (repeat 43 (Z.to_nat dlen)) 0 (tlli_octets_le tlli) else Ok (repeat 43 (Z.to_nat dlen))) = Ok b0 /\ zlen b0 = dlen).
  { assert (Hz : zlen (repeat 43 (Z.to_nat dlen)) = dlen) by (unfold zlen; rewrite repeat_length; lia). destruct ti; [|eauto].
    destruct (put_ok (repeat 43 (Z.to_nat dlen)) (tlli_octets_le tlli) 0 ltac:(lia)) as (b & E & L); [change (zlen (tlli_octets_le tlli)) with 4; lia|]. exists b. split; [exact E|lia]. }
  destruct Hb as (b0 & -> & Hz). cbn [bind].
  destruct (fill_e_sizes final pend (mkbst b0 (if ti then 4 else 0) 0 1)) as (st' & more & E & L); cbn [b_buf b_off b_nc]; [destruct ti; lia|destruct ti; lia|exact Hok|now left|].
  rewrite E. cbn [bind]. cbn [b_buf] in L. exists (b_e st'), (b_buf st'), more. split; [reflexivity|lia].
Qed.

(** C132 (partial): a block that the first frame fills, or more than fills, is read as that frame, or the start of it, behind the TLLI while
    contention is not resolved; what does not fit comes next. *)
Theorem C132_filled_partial : forall dlen (ti : bool) tlli final f rest, 5 <= dlen ->
  let head := if ti then tlli_le tlli else [] in let n := dlen - zlen head in
  (n < zlen f \/ n = zlen f /\ final = true) ->
  exists e oct more, create_block_e dlen ti tlli final (f :: rest) = Ok (e, oct, more) /\
    units e oct = [head ++ firstn (Z.to_nat n) f] /\ (n < zlen f -> more = skipn (Z.to_nat n) f :: rest) /\ (n = zlen f -> more = rest).
Proof.
  intros dlen ti tlli final f rest Hd head n Hn. unfold create_block_e.
  assert (Hh : zlen head = if ti then 4 else 0) by (unfold head; destruct ti; reflexivity).
  assert (N0 : 0 < n) by (unfold n; rewrite Hh; destruct ti; lia).
  assert (Hb : (if ti then put (repeat 43 (Z.to_nat dlen)) 0 (tlli_octets_le tlli) else Ok (repeat 43 (Z.to_nat dlen))) = Ok (head ++ repeat 43 (Z.to_nat n))).
  { unfold n, head. destruct ti; [|change (zlen (@nil Z)) with 0; rewrite Z.sub_0_r; reflexivity]. rewrite le_octets. change (zlen (tlli_le tlli)) with 4.
    replace (repeat 43 (Z.to_nat dlen)) with ([] ++ repeat 43 4 ++ repeat 43 (Z.to_nat (dlen - 4))) by (cbn [app]; rewrite <- repeat_app; f_equal; lia).
    rewrite (put_at [] (repeat 43 4) _ (tlli_le tlli)) by reflexivity. reflexivity. }
  rewrite Hb. cbn [bind fill_e b_nc]. rewrite (proj2 (Z.eqb_neq (zlen f) 0)) by lia.
  set (st0 := mkbst (head ++ repeat 43 (Z.to_nat n)) (if ti then 4 else 0) 0 1).
  assert (Zb : zlen (head ++ repeat 43 (Z.to_nat n)) = zlen head + n) by (rewrite zlen_app; f_equal; unfold zlen; rewrite repeat_length; lia).
  assert (P : forall g, zlen g = n -> put (head ++ repeat 43 (Z.to_nat n)) (if ti then 4 else 0) g = Ok (head ++ g)).
  { intros g Hg. rewrite <- (app_nil_r (head ++ repeat _ _)), <- app_assoc. rewrite (put_at head (repeat 43 (Z.to_nat n)) [] g); [rewrite app_nil_r; reflexivity|exact Hh|rewrite repeat_length; unfold zlen in Hg; lia]. }
  unfold append_ul, prev_li. cbn [b_buf b_off b_nc b_e st0]. change (0 =? 0) with true. cbv zeta. cbn [bind].
  replace (zlen (head ++ repeat 43 (Z.to_nat n)) - (if ti then 4 else 0)) with n by (rewrite Zb; lia).
  destruct (Z.ltb_spec n (zlen f)) as [L|L].
  - rewrite P by (apply zlen_firstn; lia). cbn [bind b_e b_buf]. do 3 eexists. split; [reflexivity|]. split; [reflexivity|]. split; [reflexivity|intros; lia].
  - destruct Hn as [Hn|[Hn Hf]]; [lia|]. rewrite (proj2 (Z.eqb_eq (zlen f) n)) by lia. rewrite Hf. cbn [andb]. rewrite P by lia. cbn [bind b_e b_buf].
    do 3 eexists. split; [reflexivity|]. split; [|split; [intros; lia|reflexivity]]. cbn [units]. unfold units. cbn [Z.eqb Pos.eqb].
    rewrite firstn_all2 by (unfold zlen in *; lia). reflexivity.
Qed.

(** C132 (partial): a block with one frame that leaves room: the octets of the block, and what the network reads, for all frames and sizes.  The
    length is in the upper six bits where the network expects seven, so that a frame of less than 64 octets is read as twice as long. *)
Lemma shift_head (head : list Z) n : 0 < n -> exists x, shift1 (head ++ repeat 43 (Z.to_nat n)) 0 (zlen head - 0) = Ok ([x] ++ head ++ repeat 43 (Z.to_nat (n - 1))).
Proof.
  intros N. exists (hd 43 head). unfold shift1. rewrite Z.sub_0_r.
  rewrite rdn_ok; [|lia|apply zlen_nonneg|rewrite zlen_app; pose proof (zlen_nonneg (repeat 43 (Z.to_nat n))); lia]. cbn [bind].
  assert (R : repeat 43 (Z.to_nat n) = [43] ++ repeat 43 (Z.to_nat (n - 1))) by (replace (Z.to_nat n) with (S (Z.to_nat (n - 1))) by lia; reflexivity).
  assert (S : slice (Z.to_nat 0) (Z.to_nat (zlen head)) (head ++ repeat 43 (Z.to_nat n)) = head).
  { unfold slice, zlen. rewrite Nat2Z.id. cbn [skipn Z.to_nat]. rewrite firstn_app, firstn_all, Nat.sub_diag. cbn [firstn]. apply app_nil_r. }
  rewrite S, R. destruct head as [|h t].
  - cbn [app hd]. change (0 + 1) with 1. apply (put_at [43] [] (repeat 43 (Z.to_nat (n - 1))) []); reflexivity.
  - cbn [hd]. replace ((h :: t) ++ [43] ++ repeat 43 (Z.to_nat (n - 1))) with ([h] ++ (t ++ [43]) ++ repeat 43 (Z.to_nat (n - 1))) by (rewrite <- !app_assoc; reflexivity).
    rewrite (put_at [h] (t ++ [43]) _ (h :: t)); [reflexivity|reflexivity|rewrite app_length; cbn [length]; lia].
Qed.
Theorem C132_short_partial : forall dlen (ti : bool) tlli final f, 5 <= dlen ->
  let head := if ti then tlli_le tlli else [] in let n := dlen - zlen head in
  0 < zlen f -> zlen f + 2 <= n ->
  create_block_e dlen ti tlli final [f] =
  Ok (0, [zlen f mod 64 * 4; 255] ++ head ++ f ++ repeat 43 (Z.to_nat (n - 2 - zlen f)), []).
Proof.
  intros dlen ti tlli final f Hd head n Hf Hn. unfold create_block_e.
  assert (Hh : zlen head = if ti then 4 else 0) by (unfold head; destruct ti; reflexivity).
  assert (Hb : (if ti then put (repeat 43 (Z.to_nat dlen)) 0 (tlli_octets_le tlli) else Ok (repeat 43 (Z.to_nat dlen))) = Ok (head ++ repeat 43 (Z.to_nat n))).
  { unfold n, head. destruct ti; [|change (zlen (@nil Z)) with 0; rewrite Z.sub_0_r; reflexivity]. rewrite le_octets. change (zlen (tlli_le tlli)) with 4.
    replace (repeat 43 (Z.to_nat dlen)) with ([] ++ repeat 43 4 ++ repeat 43 (Z.to_nat (dlen - 4))) by (cbn [app]; rewrite <- repeat_app; f_equal; lia).
    rewrite (put_at [] (repeat 43 4) _ (tlli_le tlli)) by reflexivity. reflexivity. }
  rewrite Hb. cbn [bind]. rewrite <- Hh. cbn [fill_e b_nc]. rewrite (proj2 (Z.eqb_neq (zlen f) 0)) by lia.
  assert (Zb : zlen (head ++ repeat 43 (Z.to_nat n)) = zlen head + n) by (rewrite zlen_app; f_equal; unfold zlen; rewrite repeat_length; lia).
  unfold append_ul, prev_li. cbn [b_buf b_off b_nc b_e]. cbv zeta. rewrite Zb. replace (zlen head + n - zlen head) with n by lia.
  rewrite (proj2 (Z.ltb_ge n (zlen f))) by lia. rewrite (proj2 (Z.eqb_neq (zlen f) n)) by lia. cbn [andb].
  destruct (shift_head head n ltac:(lia)) as [x ->]. cbn [bind]. change (0 =? 0) with true. cbn [bind].
  rewrite (put_at [] [x] (head ++ repeat 43 (Z.to_nat (n - 1))) [li_octet (zlen f) 0 1]) by reflexivity. cbn [bind].
  replace ([] ++ [li_octet (zlen f) 0 1] ++ head ++ repeat 43 (Z.to_nat (n - 1)))
    with (([li_octet (zlen f) 0 1] ++ head) ++ repeat 43 (length f) ++ repeat 43 (Z.to_nat (n - 1 - zlen f)))
    by (rewrite <- repeat_app, <- app_assoc; cbn [app]; do 3 f_equal; unfold zlen in *; lia).
  rewrite (put_at ([li_octet (zlen f) 0 1] ++ head) (repeat 43 (length f)) _ f); [|rewrite zlen_app; change (zlen [_]) with 1; lia|apply repeat_length].
  cbn [bind]. rewrite (proj2 (Z.ltb_lt 0 (n - 1 - zlen f))) by lia. cbn [b_nc]. change (0 <? 0 + 1) with true. cbv iota.
  pose proof (C132_padding_partial [] (li_octet (zlen f) 0 1) (head ++ f) 43 (repeat 43 (Z.to_nat (n - 2 - zlen f))) 0) as Q.
  assert (Bl : li_octet (zlen f) 0 1 = zlen f mod 64 * 4 + 1).
  { unfold li_octet. change 63 with (Z.ones 6). rewrite Z.land_ones by lia. change (2 ^ 6) with 64. lia. }
  specialize (Q ltac:(unfold byte; rewrite Bl; lia)).
  replace (([li_octet (zlen f) 0 1] ++ head) ++ f ++ repeat 43 (Z.to_nat (n - 1 - zlen f)))
    with ([] ++ [li_octet (zlen f) 0 1] ++ (head ++ f) ++ [43] ++ repeat 43 (Z.to_nat (n - 2 - zlen f))).
  2:{ replace (Z.to_nat (n - 1 - zlen f)) with (S (Z.to_nat (n - 2 - zlen f))) by lia. cbn [app repeat]. rewrite <- !app_assoc. reflexivity. }
  replace (zlen head + 1 + zlen f) with (zlen (@nil Z) + 1 + zlen (head ++ f)) by (rewrite zlen_app; change (zlen (@nil Z)) with 0; lia).
  change (0 + 1) with (zlen (@nil Z) + 1). rewrite Q. cbn [bind b_e b_buf app].
  rewrite Bl. replace ((zlen f mod 64 * 4 + 1) / 2 * 2) with (zlen f mod 64 * 4) by lia. rewrite <- !app_assoc. reflexivity.
Qed.

Lemma firstn_repeat_min {A} (x : A) k m : firstn k (repeat x m) = repeat x (Nat.min k m).
Proof. revert m; induction k as [|k IH]; intros [|m]; cbn [firstn repeat Nat.min]; try reflexivity. rewrite IH. reflexivity. Qed.
(** C132 (refuted), for every frame of less than 64 octets that leaves room for more than the indication of filling: none is read back, each comes
    with filling behind it. *)
Theorem C132_every_short_refuted : forall dlen tlli final f, 5 <= dlen -> 0 < zlen f < 64 -> zlen f + 2 < dlen ->
  exists e oct, create_block_e dlen false tlli final [f] = Ok (e, oct, []) /\
    units e oct = [f ++ repeat 43 (Z.to_nat (Z.min (zlen f) (dlen - 2 - zlen f)))] /\ units e oct <> [f].
Proof.
  intros dlen tlli final f Hd Hf Hn. pose proof (C132_short_partial dlen false tlli final f Hd) as Q. cbv zeta iota in Q.
  change (zlen (@nil Z)) with 0 in Q. rewrite Z.sub_0_r in Q. specialize (Q ltac:(lia) ltac:(lia)). rewrite Z.mod_small in Q by lia.
  do 2 eexists. split; [exact Q|].
  assert (U : units 0 ([zlen f * 4; 255] ++ [] ++ f ++ repeat 43 (Z.to_nat (dlen - 2 - zlen f)))
              = [f ++ repeat 43 (Z.to_nat (Z.min (zlen f) (dlen - 2 - zlen f)))]).
  { unfold units. cbn [Z.eqb app indicators].
    assert (O : Z.odd (zlen f * 4) = false) by (rewrite Z.odd_mul; change (Z.odd 4) with false; apply andb_false_r). rewrite O. change (Z.odd 255) with true. cbv iota.
    replace (zlen f * 4 / 2) with (2 * zlen f) by lia. change (255 / 2) with 127.
    assert (C : forall d, cut [2 * zlen f; 127] d = [firstn (Z.to_nat (2 * zlen f)) d]).
    { intros d. cbn [cut]. destruct (2 * zlen f) as [|q|q]; try reflexivity. do 8 (destruct q; try reflexivity). }
    rewrite C. f_equal. rewrite firstn_app. rewrite firstn_all2 by (unfold zlen in *; lia). f_equal.
    rewrite firstn_repeat_min. f_equal. unfold zlen in *. lia. }
  split; [exact U|]. rewrite U. intros E. injection E as E. apply (f_equal (@length Z)) in E. rewrite app_length, repeat_length in E. lia.
Qed.

(** Non-vacuity: filling behind two frames; a frame that fills a block. *)
Example C132_case : byte 20 /\ append_pad (mkbst ([17] ++ [20] ++ [1; 2; 3; 4] ++ [43] ++ [43]) 6 2 0) = Ok (mkbst [17; 20; 255; 1; 2; 3; 4; 43] 8 3 0).
Proof. split; [unfold byte; lia|vm_compute; reflexivity]. Qed.
Example C132_case2 : create_block_e 22 true 0xc0ffee01 true [repeat 7 18] = Ok (1, [1; 0xee; 0xff; 0xc0] ++ repeat 7 18, []).
Proof. vm_compute. reflexivity. Qed.

Example C132_case3 : create_block_e 30 true 0xc0ffee01 false [[1; 2; 3]] = Ok (0, [12; 255; 1; 0xee; 0xff; 0xc0; 1; 2; 3] ++ repeat 43 21, []).
Proof. vm_compute. reflexivity. Qed.

Print Assumptions C132_frames_refuted.
Print Assumptions C132_padding_partial.
Print Assumptions C132_contained_partial.
Print Assumptions C132_filled_partial.
Print Assumptions C132_short_partial.
Print Assumptions C132_every_short_refuted.
