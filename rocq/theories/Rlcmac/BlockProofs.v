(** Proofs about the codec for RLC data blocks of CS-1. *)
From Verif.Lib Require Import Base Outcome.
From Verif.Rlcmac Require Import BlockModel BlockSpec AirSpec.
From Verif.Rlcmac Require Import RlcDataModel RlcDataSpec RlcDataProofs RlcDataProofs2.

Lemma octs_app (a b c : list Z) i n : i = zlen a -> n = zlen b -> octs (a ++ b ++ c) i n = Ok b.
Proof.
  intros -> ->. unfold octs. rewrite !zlen_app. pose proof (zlen_nonneg c). replace (_ <=? _) with true by lia. f_equal.
  unfold slice, zlen. rewrite !Nat2Z.id, skipn_app_exact by reflexivity. apply firstn_app_exact. reflexivity.
Qed.
Lemma oct_app (a c : list Z) o i : i = zlen a -> oct (a ++ o :: c) i = Ok o.
Proof. intros E. unfold oct. change (a ++ o :: c) with (a ++ [o] ++ c). rewrite (octs_app a [o] c i 1 E eq_refl). reflexivity. Qed.

Lemma two o : o mod 4 = 2 <-> (o / 2 mod 2 =? 1) && (o mod 2 =? 0) = true.
Proof. rewrite andb_true_iff, !Z.eqb_eq. Z.to_euclidean_division_equations; lia. Qed.

Lemma ext_in_stop pre2 : forall room pre o rest, Forall (fun o => o mod 4 = 2) pre2 -> o mod 4 <> 2 -> (length pre2 < room)%nat ->
  ext_in room (pre ++ pre2 ++ o :: rest) (zlen pre) = Ok (map mark (pre2 ++ [o]), zlen pre + zlen (pre2 ++ [o])).
Proof.
  induction pre2 as [|a pre2 IH]; intros room pre o rest H Ho Hl.
  - destruct room; [cbn [length] in Hl; lia|]. cbn [app ext_in]. rewrite oct_app by reflexivity. cbn [bind].
    destruct ((o / 2 mod 2 =? 1) && (o mod 2 =? 0)) eqn:E; [apply two in E; contradiction|]. reflexivity.
  - inversion H as [|x y Ha Hr]; subst x y. destruct room; [cbn [length] in Hl; lia|]. cbn [app ext_in]. rewrite oct_app by reflexivity. cbn [bind].
    rewrite (proj1 (two a) Ha). replace (zlen pre + 1) with (zlen (pre ++ [a])) by (rewrite zlen_app; reflexivity).
    replace (pre ++ a :: pre2 ++ o :: rest) with ((pre ++ [a]) ++ pre2 ++ o :: rest) by (rewrite <- app_assoc; reflexivity).
    rewrite (IH room (pre ++ [a]) o rest Hr Ho) by (cbn [length] in Hl; lia). cbn [bind fst snd map]. f_equal. f_equal.
    cbn [app]. rewrite (zlen_app pre [a]), (zlen_cons a (pre2 ++ [o])). change (zlen [a]) with 1. lia.
Qed.
Lemma ext_in_over room : forall pre l rest, Forall (fun o => o mod 4 = 2) l -> length l = room -> ext_in room (pre ++ l ++ rest) (zlen pre) = UB.
Proof.
  induction room as [|room IH]; intros pre l rest H Hl; [reflexivity|]. destruct l as [|a l]; [discriminate Hl|]. inversion H as [|x y Ha Hr]; subst x y.
  cbn [app ext_in]. rewrite oct_app by reflexivity. cbn [bind]. rewrite (proj1 (two a) Ha).
  replace (zlen pre + 1) with (zlen (pre ++ [a])) by (rewrite zlen_app; reflexivity).
  replace (pre ++ a :: l ++ rest) with ((pre ++ [a]) ++ l ++ rest) by (rewrite <- app_assoc; reflexivity).
  rewrite (IH (pre ++ [a]) l rest Hr) by (cbn [length] in Hl; lia). reflexivity.
Qed.
Lemma split_two n : forall l : list Z, (n <= length l)%nat ->
  Forall (fun o => o mod 4 = 2) (firstn n l) \/ exists p o r, l = p ++ o :: r /\ Forall (fun o => o mod 4 = 2) p /\ o mod 4 <> 2 /\ (length p < n)%nat.
Proof.
  induction n as [|n IH]; intros l Hl; [left; constructor|]. destruct l as [|a l]; [cbn [length] in Hl; lia|]. cbn [firstn].
  destruct (Z.eq_dec (a mod 4) 2) as [E|E].
  - destruct (IH l ltac:(cbn [length] in Hl; lia)) as [F|(p & o & r & -> & F & G & L)]; [left; constructor; assumption|].
    right. exists (a :: p), o, r. split; [reflexivity|]. split; [constructor; assumption|]. split; [exact G|cbn; lia].
  - right. exists [], a, l. split; [reflexivity|]. split; [constructor|]. split; [exact E|cbn; lia].
Qed.

(** What the octets behind the three of the header hold. *)
Definition tlli_of (t : list Z) : Z := fold_left (fun acc o => acc * 256 + o) t 0.
Definition e_shape (e1 : Z) (ex : list Z) : Prop :=
  match e1 with
  | 0 => exists p o, ex = p ++ [o] /\ Forall (fun o => o mod 4 = 2) p /\ o mod 4 <> 2 /\ (length p < 5)%nat
  | _ => ex = []
  end.
Lemma decode_shape a b c ex tl pf d : a / 64 mod 4 = 0 -> e_shape (c mod 2) ex ->
  (b mod 2 = 1 -> zlen tl = 4) -> (b mod 2 = 0 -> tl = []) ->
  (b mod 2 = 1 /\ b / 64 mod 2 = 1 -> zlen pf = 1) -> (~ (b mod 2 = 1 /\ b / 64 mod 2 = 1) -> pf = []) ->
  3 + zlen ex + zlen tl + zlen pf + zlen d = 23 ->
  decode_ul (a :: b :: c :: ex ++ tl ++ pf ++ d) =
  Ok (Some (mkudata 0 (a / 4 mod 16) (a / 2 mod 2) (a mod 2) (b / 128 mod 2) (b / 64 mod 2) (b / 2 mod 32) (b mod 2) (c / 2 mod 128) (c mod 2)
    (map mark ex) (if b mod 2 =? 1 then Some (tlli_of tl) else None)
    (if (b mod 2 =? 1) && (b / 64 mod 2 =? 1) then Some (nth 0 pf 0 / 2 mod 128, nth 0 pf 0 mod 2) else None) d)).
Proof.
  intros Ha He Ht1 Ht0 Hp1 Hp0 Hz. unfold decode_ul. set (v := a :: b :: c :: ex ++ tl ++ pf ++ d).
  assert (v = [a; b; c] ++ ex ++ tl ++ pf ++ d) as Ev by reflexivity.
  assert (oct v 0 = Ok a) as -> by (apply (oct_app [] _ a 0); reflexivity). cbn [bind]. rewrite Ha. cbn [Z.eqb negb].
  assert (oct v 1 = Ok b) as -> by (apply (oct_app [a] _ b 1); reflexivity). cbn [bind].
  assert (oct v 2 = Ok c) as -> by (apply (oct_app [a; b] _ c 2); reflexivity). cbn [bind]. cbv zeta.
  assert ((if c mod 2 =? 0 then ext_in MAX_PDU v 3 else Ok ([], 3)) = Ok (map mark ex, 3 + zlen ex)) as ->.
  { assert (c mod 2 = 0 \/ c mod 2 = 1) as [D|D] by (Z.to_euclidean_division_equations; lia); rewrite D in He |- *; cbn [Z.eqb Pos.eqb e_shape] in *.
    - destruct He as (p & o & -> & F & G & L). rewrite Ev, <- app_assoc. cbn [app].
      change (a :: b :: c :: p ++ o :: tl ++ pf ++ d) with ([a; b; c] ++ p ++ o :: tl ++ pf ++ d). change 3 with (zlen [a; b; c]) at 1 2. apply ext_in_stop; assumption.
    - subst ex. reflexivity. }
  cbn [bind].
  assert (b mod 2 = 0 \/ b mod 2 = 1) as Db by (Z.to_euclidean_division_equations; lia).
  assert (b / 64 mod 2 = 0 \/ b / 64 mod 2 = 1) as Dp by (Z.to_euclidean_division_equations; lia).
  pose proof (zlen_nonneg ex). pose proof (zlen_nonneg d).
  destruct Db as [Db|Db]; rewrite Db.
  - rewrite (Ht0 Db) in *. rewrite (Hp0 ltac:(lia)) in *. change (0 =? 1) with false. cbn [andb bind]. change (zlen (@nil Z)) with 0 in Hz.
    replace ((23 <? 3 + zlen ex) || (20 <? 23 - (3 + zlen ex))) with false by lia.
    assert (octs v (3 + zlen ex) (23 - (3 + zlen ex)) = Ok d) as ->.
    { rewrite Ev. cbn [app]. change (a :: b :: c :: ex ++ d) with ([a; b; c] ++ ex ++ d).
      rewrite <- (app_nil_r d) at 1. rewrite (app_assoc [a; b; c] ex (d ++ [])). apply octs_app; [rewrite zlen_app; reflexivity|lia]. }
    reflexivity.
  - pose proof (Ht1 Db) as Zt. change (1 =? 1) with true.
    assert (octs v (3 + zlen ex) 4 = Ok tl) as ->.
    { rewrite Ev. rewrite (app_assoc [a; b; c] ex _). apply octs_app; [rewrite zlen_app; reflexivity|lia]. }
    cbn [bind andb]. fold (tlli_of tl). destruct Dp as [Dp|Dp]; rewrite Dp.
    + rewrite (Hp0 ltac:(lia)) in *. change (0 =? 1) with false. cbn [bind]. change (zlen (@nil Z)) with 0 in Hz.
      replace ((23 <? 3 + zlen ex + 4) || (20 <? 23 - (3 + zlen ex + 4))) with false by lia.
      assert (octs v (3 + zlen ex + 4) (23 - (3 + zlen ex + 4)) = Ok d) as ->.
      { rewrite Ev. cbn [app]. change (a :: b :: c :: ex ++ tl ++ d) with ([a; b; c] ++ ex ++ tl ++ d). rewrite <- (app_nil_r d) at 1.
        rewrite (app_assoc [a; b; c] ex _), (app_assoc _ tl (d ++ [])). apply octs_app; [rewrite !zlen_app, Zt; reflexivity|lia]. }
      reflexivity.
    + pose proof (Hp1 (conj Db Dp)) as Zp. change (1 =? 1) with true. destruct pf as [|o [|? ?]]; [discriminate Zp| |rewrite !zlen_cons in Zp; pose proof (zlen_nonneg l); lia].
      assert (oct v (3 + zlen ex + 4) = Ok o) as ->.
      { rewrite Ev. rewrite (app_assoc [a; b; c] ex _), (app_assoc _ tl _). apply oct_app. rewrite !zlen_app, Zt. reflexivity. }
      cbn [bind nth]. replace ((23 <? 3 + zlen ex + 4 + 1) || (20 <? 23 - (3 + zlen ex + 4 + 1))) with false by lia.
      assert (octs v (3 + zlen ex + 4 + 1) (23 - (3 + zlen ex + 4 + 1)) = Ok d) as ->.
      { rewrite Ev. rewrite <- (app_nil_r d) at 1. rewrite (app_assoc [a; b; c] ex _), (app_assoc _ tl _), (app_assoc _ [o] _). apply octs_app; [rewrite !zlen_app, Zt; reflexivity|lia]. }
      reflexivity.
Qed.

(** *** The extension octets of a layout *)
Lemma x_marks segs t : Forall (fun s => 1 <= zlen s <= 63) segs -> map mark (exts segs t) = marks segs t.
Proof.
  assert (forall n k, 0 <= n <= 63 -> 0 <= k < 4 -> mark (4 * n + k) = (n, k / 2, k mod 2)) as M.
  { intros n k Hn Hk. unfold mark. f_equal; [f_equal|]; Z.to_euclidean_division_equations; lia. }
  induction segs as [|s segs IH]; intros H; [destruct t; reflexivity|]. inversion H as [|x y Hs Hr]; subst x y. specialize (IH Hr). cbn [exts marks map]. rewrite <- IH.
  destruct (exts segs t) as [|e es]; cbn [map].
  - destruct t; rewrite M by lia; reflexivity.
  - rewrite M by lia. destruct t; reflexivity.
Qed.
Lemma x_shape segs t : exts segs t = [] \/ exists p o, exts segs t = p ++ [o] /\ Forall (fun o => o mod 4 = 2) p /\ o mod 4 <> 2.
Proof.
  assert (forall l : list (list Z), Forall (fun o => o mod 4 = 2) (map x2 l)) as F.
  { induction l as [|a l IH]; [constructor|]. cbn [map]. constructor; [unfold x2; Z.to_euclidean_division_equations; lia|exact IH]. }
  destruct (snoc_cases segs) as [->|(segs' & s & ->)].
  - destruct t; [left; reflexivity|left; reflexivity|]. right. exists [], 1. split; [reflexivity|]. split; [constructor|discriminate].
  - right. rewrite exts_snoc. destruct t.
    + eexists. eexists. split; [reflexivity|]. split; [apply F|]. Z.to_euclidean_division_equations; lia.
    + eexists. eexists. split; [reflexivity|]. split; [apply F|]. Z.to_euclidean_division_equations; lia.
    + exists (map x2 (segs' ++ [s])), 1. split; [rewrite map_app, <- app_assoc; reflexivity|]. split; [apply F|discriminate].
Qed.
Lemma cut_pieces final segs t : well_formed final segs t -> cut final (marks segs t) (concat segs ++ tail_data t) = pieces final segs t.
Proof.
  unfold pieces. intros [H Ht]. assert (segs <> [] \/ match t with TFill _ => False | _ => True end) as N by (destruct t; auto). clear Ht. revert N.
  induction segs as [|s segs IH]; intros N.
  - destruct N as [N|N]; [congruence|]. destruct t; [contradiction|reflexivity|reflexivity].
  - inversion H as [|x y Hs Hr]; subst x y. specialize (IH Hr). cbn [marks concat map app]. rewrite <- app_assoc.
    assert (firstn (Z.to_nat (zlen s)) (s ++ concat segs ++ tail_data t) = s) as F1 by (apply firstn_app_exact; unfold zlen; lia).
    assert (skipn (Z.to_nat (zlen s)) (s ++ concat segs ++ tail_data t) = concat segs ++ tail_data t) as F2 by (apply skipn_app_exact; unfold zlen; lia).
    destruct (marks segs t) as [|m0 ms] eqn:Em.
    + assert (segs = []) as -> by (destruct segs; [reflexivity|discriminate Em]).
      destruct t as [p|d|d]; cbn [cut]; replace (zlen s =? 0) with false by lia; rewrite F1, ?F2.
      * reflexivity.
      * change (1 =? 1) with true. cbn [cut]. reflexivity.
      * discriminate Em.
    + assert (segs <> [] \/ match t with TFill _ => False | _ => True end) as N2.
      { destruct segs; [right; destruct t; [discriminate Em|exact I|exact I]|left; discriminate]. }
      cbn [cut]. replace (zlen s =? 0) with false by lia. rewrite F1, F2. change (1 =? 1) with true. cbv iota. f_equal. rewrite <- (IH N2). reflexivity.
Qed.
(** Segments after the first of five octets or more: at most five extension octets in 20 octets. *)
Lemma x_room tl segs t : Forall (fun s => 1 <= zlen s) segs -> Forall (fun s => 5 <= zlen s) (List.tl segs) -> zlen (layout tl segs t) <= 20 -> (length (exts segs t) <= 5)%nat.
Proof.
  intros H1 H5 Hz. pose proof (exts_len segs t) as E. unfold layout in Hz. rewrite !zlen_app, E in Hz. pose proof (zlen_nonneg tl). pose proof (zlen_nonneg (tail_data t)).
  assert (zlen segs <= 4) as L.
  { destruct segs as [|s r]; [cbn; lia|]. cbn [List.tl] in H5. inversion H1 as [|x y Hs _]; subst x y. cbn [concat] in Hz. rewrite zlen_app, zlen_cons in Hz. rewrite zlen_cons.
    assert (5 * zlen r <= zlen (concat r)) as C.
    { clear -H5. induction r as [|a r IH]; [cbn; lia|]. inversion H5; subst. cbn [concat]. rewrite zlen_cons, zlen_app. specialize (IH H2). lia. }
    destruct t; lia. }
  unfold zlen in E, L. destruct t; lia.
Qed.
