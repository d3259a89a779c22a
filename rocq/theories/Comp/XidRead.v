(** Whole fields, elements and blocks are read as TS 44.065 says. *)
From Verif.Lib Require Import Base Outcome.
From Verif.Comp Require Import SlhcModel XidModel XidSpec XidProofs.

(** What the decoder needs in addition to TS 44.065. *)
Definition readable (x : xf) : Prop := not_small x /\ (length (x_prof x) = 0 \/ length (x_prof x) = 16)%nat.
Definition x_par (x : xf) : params := mkPar (x_alg x) (x_nsapi x) (x_vals x ++ repeat (-1) (length (widths (x_alg x)) - length (x_vals x))) (x_prof x).

Lemma zlen_two v : zlen (two v) = 2. Proof. reflexivity. Qed.
Lemma zlen_profs vs : zlen (concat (map two vs)) = 2 * zlen vs.
Proof. induction vs as [|v vs IH]; [reflexivity|]. cbn [map concat]. rewrite zlen_app, zlen_cons, IH, zlen_two. lia. Qed.
Lemma len_widths a : length (dtab a) = length (widths a). Proof. destruct a; reflexivity. Qed.

Lemma params_at x pre post i n : xf_ok x -> readable x -> i = zlen pre -> n = zlen (x_payload x) ->
  dec_params (x_alg x) (pre ++ x_payload x ++ post) i n = Ok (Some (x_par x, zlen (x_payload x))).
Proof.
  intros (_ & Hns & Hp & _ & Hrohc & Hl & Hpr) [Hs Hl2] Hi Hn.
  destruct (fits_d _ _ Hp Hs) as (Hf & Hr & Hlen).
  pose proof (zlen_nonneg (nums (widths (x_alg x)) (x_vals x))) as Z1. pose proof (zlen_nonneg (x_prof x)) as Z2.
  assert (zlen (x_payload x) = 2 + zlen (nums (widths (x_alg x)) (x_vals x)) + 2 * zlen (x_prof x)) as Ep
    by (unfold x_payload; rewrite !zlen_app, zlen_two, zlen_profs; lia).
  remember (pre ++ x_payload x ++ post) as M eqn:EM.
  assert (M = pre ++ two (bits (x_nsapi x)) ++ (nums (widths (x_alg x)) (x_vals x) ++ concat (map two (x_prof x)) ++ post)) as E1
    by (rewrite EM; unfold x_payload; rewrite <- !app_assoc; reflexivity).
  assert (M = (pre ++ two (bits (x_nsapi x))) ++ nums (widths (x_alg x)) (x_vals x) ++ (concat (map two (x_prof x)) ++ post)) as E2
    by (rewrite E1; rewrite <- !app_assoc; reflexivity).
  assert (M = (pre ++ two (bits (x_nsapi x)) ++ nums (widths (x_alg x)) (x_vals x)) ++ concat (map two (x_prof x)) ++ post) as E3
    by (rewrite E1; rewrite <- !app_assoc; reflexivity).
  assert (dec_sapis M i n = Ok (Some (x_nsapi x))) as S1 by (rewrite E1; apply sapis_at; assumption || lia).
  unfold dec_params. rewrite S1. cbn [bind].
  pose proof (vals_at (x_alg x) (dtab (x_alg x)) [] (x_vals x) (pre ++ two (bits (x_nsapi x))) (concat (map two (x_prof x)) ++ post) (i + 2) (n - 2) (2 * zlen (x_prof x)) Hf Hr) as V.
  rewrite ws_d, <- E2 in V. rewrite V; clear V; [|rewrite zlen_app, zlen_two; lia|lia| |lia|apply dtab_w].
  2:{ intros Hlt. destruct (x_prof x) as [|q qs] eqn:Eq; [reflexivity|]. destruct Hrohc as [Ea El]; [discriminate|]. rewrite Ea, El in Hlt. cbn in Hlt. lia. }
  cbn [bind]. rewrite len_widths.
  destruct (Nat.eqb (length (x_vals x)) (length (widths (x_alg x)))) eqn:Eall.
  - destruct (x_alg x) eqn:Ea;
      try (assert (x_prof x = []) as Epr by (destruct (x_prof x); [reflexivity|exfalso; destruct Hrohc; discriminate]);
           unfold x_par; rewrite Ea, Epr; rewrite Epr in Ep; change (zlen (@nil Z)) with 0 in Ep; do 4 f_equal; lia).
    rewrite E3. rewrite (prof_at (x_prof x) 16); [|lia|exact Hpr|rewrite !zlen_app, zlen_two; lia|lia]. cbn [bind fst snd].
    unfold x_par. rewrite Ea. replace (if zlen (x_prof x) =? 16 then x_prof x else []) with (x_prof x).
    + do 3 f_equal. lia.
    + destruct (zlen (x_prof x) =? 16) eqn:E16; [reflexivity|]. unfold zlen in E16. destruct Hl2 as [Hl2|Hl2]; [|lia]. destruct (x_prof x); [reflexivity|discriminate].
  - assert (x_prof x = []) as Epr.
    { destruct (x_prof x) as [|q qs] eqn:Eq; [reflexivity|]. destruct Hrohc as [Ea El]; [discriminate|]. rewrite Ea, El in Eall. discriminate. }
    unfold x_par. rewrite Epr in *. change (zlen (@nil Z)) with 0 in Ep. destruct (x_alg x) eqn:Ea; do 4 f_equal; lia.
Qed.

Lemma nib a b : 0 <= a <= 15 -> 0 <= b <= 15 -> (a * 16 + b) / 16 = a /\ (a * 16 + b) mod 16 = b.
Proof. intros. split; [symmetry; apply (Z.div_unique _ 16 a b); lia|symmetry; apply (Z.mod_unique _ 16 a b); lia]. Qed.
Lemma nibbles_at cs : forall pre post i, Forall (fun c => 0 <= c <= 15) cs -> i = zlen pre ->
  dec_nibbles (length cs) false (pre ++ halves cs ++ post) i = Ok cs /\ zlen (halves cs) = (zlen cs + 1) / 2.
Proof.
  assert (forall k cs, (length cs <= k)%nat -> forall pre post i, Forall (fun c => 0 <= c <= 15) cs -> i = zlen pre ->
    dec_nibbles (length cs) false (pre ++ halves cs ++ post) i = Ok cs /\ zlen (halves cs) = (zlen cs + 1) / 2) as G.
  { clear cs. induction k as [|k IH]; intros [|a [|b cs]] Hk pre post i F Hi; try (cbn in Hk; lia).
    1,2: split; reflexivity.
    - inversion F as [|? ? Ha _]; subst. destruct (nib a 0 Ha ltac:(lia)) as [N1 _]. rewrite Z.add_0_r in N1.
      split; [|reflexivity]. cbn [length halves app dec_nibbles]. rewrite rd_at by reflexivity. cbn [bind]. rewrite N1. reflexivity.
    - inversion F as [|? ? Ha F1]; subst. inversion F1 as [|? ? Hb F2]; subst. destruct (nib a b Ha Hb) as [N1 N2].
      destruct (IH cs ltac:(cbn in Hk; lia) (pre ++ [a * 16 + b]) post (zlen pre + 1) F2 ltac:(rewrite zlen_app; reflexivity)) as [E L].
      split.
      + cbn [length halves app dec_nibbles negb]. rewrite rd_at by reflexivity. cbn [bind]. rewrite <- app_assoc in E. cbn [app] in E. rewrite E. cbn [bind]. rewrite N1, N2. reflexivity.
      + cbn [halves]. rewrite !zlen_cons, L. replace (zlen cs + 1 + 1 + 1) with (zlen cs + 1 + 1 * 2) by lia. rewrite Z.div_add by lia. reflexivity. }
  intros. apply (G (length cs)); auto.
Qed.

Lemma zlen_nums a vs : fits (dtab a) vs -> 0 <= zlen (nums (widths a) vs) <= 12.
Proof.
  intros H. split; [apply zlen_nonneg|]. destruct a; cbn [widths]; destruct vs as [|? [|? [|? [|? [|? [|? [|? ?]]]]]]]; cbn [dtab fits] in H; try tauto;
    cbn [nums Z.eqb Pos.eqb app two]; unfold zlen; cbn [length]; lia.
Qed.
Lemma payload_len x : xf_ok x -> readable x -> 2 <= zlen (x_payload x) <= 46.
Proof.
  intros (_ & _ & Hp & _ & _ & Hl & _) [Hs _]. destruct (fits_d _ _ Hp Hs) as (Hf & _). pose proof (zlen_nums _ _ Hf).
  unfold x_payload. rewrite !zlen_app, zlen_two, zlen_profs. unfold zlen at 2 4. lia.
Qed.
Lemma num_small a : 0 <= number a <= 2. Proof. destruct a; cbn; lia. Qed.
Lemma alg_num a : alg_of (kind a) (number a) = Some a. Proof. destruct a; reflexivity. Qed.
Lemma n_comps_num a : Z.to_nat (num_comps a) = n_comps a. Proof. destruct a; reflexivity. Qed.

Lemma field_at x pre post i n lt : xf_ok x -> readable x -> i = zlen pre -> 1 <= n ->
  (x_prop x = None -> lookup_algo (x_entity x) (kind (x_alg x)) lt = number (x_alg x)) ->
  dec_field (pre ++ x_oct x ++ post) i n lt (kind (x_alg x)) = Ok (Some (x_field x, zlen (x_oct x))).
Proof.
  intros Hok Hrd Hi Hn Hlt. pose proof (payload_len x Hok Hrd) as Hpl. pose proof Hok as (He & _ & _ & Hc & _).
  unfold dec_field. destruct (n <? 1) eqn:?; [lia|]. unfold x_oct, x_field in *. fold (x_par x).
  destruct (x_prop x) as [cs|] eqn:Eprop.
  - destruct Hc as [Hcl Hcf]. cbn [app].
    remember (zlen (halves cs ++ x_payload x)) as L eqn:EL.
    rewrite rd_at by exact Hi. cbn [bind].
    destruct (128 <=? 128 + x_entity x) eqn:?; [|lia].
    replace ((128 + x_entity x) mod 32) with (x_entity x) by (apply (Z.mod_unique _ 32 4); lia).
    replace (pre ++ 128 + x_entity x :: number (x_alg x) :: L :: (halves cs ++ x_payload x) ++ post)
      with ((pre ++ [128 + x_entity x]) ++ number (x_alg x) :: L :: (halves cs ++ x_payload x) ++ post) by (rewrite <- app_assoc; reflexivity).
    rewrite rd_at by (rewrite zlen_app; cbn; lia). cbn [bind]. pose proof (num_small (x_alg x)). rewrite (Z.mod_small (number (x_alg x))) by lia.
    replace ((pre ++ [128 + x_entity x]) ++ number (x_alg x) :: L :: (halves cs ++ x_payload x) ++ post)
      with ((pre ++ [128 + x_entity x; number (x_alg x)]) ++ L :: (halves cs ++ x_payload x) ++ post) by (rewrite <- !app_assoc; reflexivity).
    rewrite rd_at by (rewrite zlen_app; cbn; lia). cbn [bind]. rewrite alg_num, n_comps_num, <- Hcl.
    replace ((pre ++ [128 + x_entity x; number (x_alg x)]) ++ L :: (halves cs ++ x_payload x) ++ post)
      with ((pre ++ [128 + x_entity x; number (x_alg x); L]) ++ halves cs ++ x_payload x ++ post) by (rewrite <- !app_assoc; reflexivity).
    destruct (nibbles_at cs (pre ++ [128 + x_entity x; number (x_alg x); L]) (x_payload x ++ post) (i + 2 + 1) Hcf ltac:(rewrite zlen_app; cbn; lia)) as [N1 N2].
    rewrite N1. cbn [bind].
    assert (zlen cs = num_comps (x_alg x)) as Ecs by (unfold zlen; rewrite Hcl, <- n_comps_num; destruct (x_alg x); reflexivity). rewrite <- Ecs, <- N2.
    rewrite app_assoc. rewrite zlen_app in EL. pose proof (zlen_nonneg (halves cs)).
    replace ((L - zlen (halves cs)) mod 2 ^ 32) with (zlen (x_payload x)) by (rewrite Z.mod_small; [lia|]; split; [lia|]; change (2 ^ 32) with 4294967296; lia).
    rewrite (params_at x _ post _ _ Hok Hrd); [|rewrite !zlen_app; cbn; lia|reflexivity]. cbn [bind]. do 3 f_equal. rewrite !zlen_cons, zlen_app. lia.
  - cbn [app]. remember (zlen (x_payload x)) as L eqn:EL. rewrite rd_at by exact Hi. cbn [bind]. destruct (128 <=? x_entity x) eqn:?; [lia|].
    rewrite (Z.mod_small (x_entity x)) by lia. rewrite (Hlt eq_refl). cbn [bind].
    replace (pre ++ x_entity x :: L :: x_payload x ++ post) with ((pre ++ [x_entity x]) ++ L :: x_payload x ++ post) by (rewrite <- app_assoc; reflexivity).
    rewrite rd_at by (rewrite zlen_app; cbn; lia). cbn [bind dec_nibbles Z.to_nat]. rewrite alg_num.
    replace ((pre ++ [x_entity x]) ++ L :: x_payload x ++ post) with ((pre ++ [x_entity x; L]) ++ x_payload x ++ post) by (rewrite <- !app_assoc; reflexivity).
    change ((0 + 1) / 2) with 0. replace ((L - 0) mod 2 ^ 32) with L by (rewrite Z.mod_small; [lia|]; split; [lia|]; change (2 ^ 32) with 4294967296; lia).
    rewrite (params_at x _ post _ _ Hok Hrd); [|rewrite !zlen_app; cbn; lia|exact EL]. cbn [bind]. do 3 f_equal. rewrite !zlen_cons. lia.
Qed.

Lemma oct_len x : xf_ok x -> readable x -> 4 <= zlen (x_oct x).
Proof.
  intros Hok Hrd. pose proof (payload_len x Hok Hrd). unfold x_oct. destruct (x_prop x); rewrite !zlen_app; [pose proof (zlen_nonneg (halves l))|]; unfold zlen at 1; cbn [length]; lia.
Qed.
Lemma octs_len xs : Forall (fun x => xf_ok x /\ readable x) xs -> 4 * zlen xs <= zlen (concat (map x_oct xs)).
Proof. induction 1 as [|x xs [H1 H2] _ IH]; [reflexivity|]. cbn [map concat]. rewrite zlen_app, zlen_cons. pose proof (oct_len x H1 H2). lia. Qed.
(** What the table must say about the fields that are not proposals. *)
Definition known (lt : option table) (x : xf) : Prop := x_prop x = None -> lookup_algo (x_entity x) (kind (x_alg x)) lt = number (x_alg x).

Lemma block_at cls lt : forall xs fuel pre post i cnt, xs <> [] -> Forall (fun x => kind (x_alg x) = cls /\ (xf_ok x /\ readable x) /\ known lt x) xs ->
  i = zlen pre -> (length xs <= fuel)%nat -> 0 <= cnt -> cnt + zlen xs <= 65 ->
  dec_block fuel (pre ++ concat (map x_oct xs) ++ post) i (zlen (concat (map x_oct xs))) lt cls cnt = Ok (Some (map x_field xs)).
Proof.
  induction xs as [|x xs IH]; intros fuel pre post i cnt Hne F Hi Hfu Hc Hc2; [congruence|].
  inversion F as [|? ? (Ec & [Hok Hrd] & Hk) F']; subst. destruct fuel as [|fuel]; [cbn in Hfu; lia|].
  rewrite zlen_cons in Hc2. pose proof (zlen_nonneg xs). cbn [dec_block]. destruct (64 <? cnt) eqn:?; [lia|].
  cbn [map concat]. rewrite <- (app_assoc (x_oct x)). pose proof (oct_len x Hok Hrd). pose proof (zlen_nonneg (concat (map x_oct xs))).
  rewrite zlen_app. rewrite (field_at x pre _ (zlen pre) _ lt Hok Hrd eq_refl); [|lia|exact Hk]. cbn [bind].
  destruct xs as [|y xs].
  - cbn [map concat]. change (zlen (@nil Z)) with 0. destruct (0 <? zlen (x_oct x) + 0 - zlen (x_oct x)) eqn:?; [lia|]. reflexivity.
  - assert (4 * zlen (y :: xs) <= zlen (concat (map x_oct (y :: xs)))) as Hy by (apply octs_len; revert F'; apply Forall_impl; tauto). rewrite (zlen_cons y xs) in Hy. pose proof (zlen_nonneg xs).
    destruct (0 <? zlen (x_oct x) + zlen (concat (map x_oct (y :: xs))) - zlen (x_oct x)) eqn:?; [|lia].
    replace (zlen (x_oct x) + zlen (concat (map x_oct (y :: xs))) - zlen (x_oct x)) with (zlen (concat (map x_oct (y :: xs)))) by lia.
    rewrite app_assoc. rewrite (IH fuel (pre ++ x_oct x) post); [reflexivity|discriminate|exact F'|rewrite zlen_app; reflexivity|cbn in *; lia|lia|lia].
Qed.

Definition elem_read (lt : option table) (e : elem) : Prop :=
  elem_ok e /\ Forall (fun x => readable x /\ known lt x) (e_fields e).
Lemma elem_len e lt : elem_read lt e -> 3 <= zlen (elem_oct e).
Proof.
  intros [H F]. destruct e as [v|cls xs]; [unfold zlen; cbn; lia|]. destruct H as (H1 & _ & H2 & _). cbn [elem_oct]. rewrite !zlen_cons.
  assert (4 * zlen xs <= zlen (concat (map x_oct xs))) as Hy. { apply octs_len. cbn [e_fields] in F. rewrite Forall_forall in *. intros x Hx. specialize (H2 x Hx). specialize (F x Hx). tauto. }
  destruct xs as [|y xs]; [congruence|]. rewrite (zlen_cons y xs) in Hy. pose proof (zlen_nonneg xs). lia.
Qed.
Definition msg (es : list elem) : list Z := concat (map elem_oct es).

Lemma xid_at lt (want : bool) : forall es fuel pre i v fs room, es <> [] -> (length es <= fuel)%nat -> Forall (elem_read lt) es -> i = zlen pre ->
  dec_xid fuel (pre ++ msg es ++ room) i (zlen (msg es)) lt (if want then Some v else None) fs =
  Ok (Some (if want then Some (fold_left (fun v e => e_version e v) es v) else None, fields_of es ++ fs)).
Proof.
  induction es as [|e es IH]; intros fuel pre i v fs room Hne Hf F Hi; [congruence|]. destruct fuel as [|fuel]; [cbn in Hf; lia|].
  inversion F as [|? ? He F']; subst. pose proof (elem_len e lt He) as Hel. cbn [dec_xid msg map concat]. fold (msg es). rewrite zlen_app.
  assert (0 <= zlen (msg es)) by apply zlen_nonneg.
  assert (exists t l val, elem_oct e = t :: l :: val /\ l = zlen val /\ 0 <= t <= 2 /\ (t = 0 <-> exists v', e = Version v')) as (t & l & val & Eo & El & Ht & Ht0).
  { destruct e as [v'|cls xs]; cbn [elem_oct]; do 3 eexists; (split; [reflexivity|]); (split; [reflexivity|]).
    - split; [lia|]. split; eauto.
    - destruct He as [(_ & [->| ->] & _) _]; (split; [lia|]); split; [discriminate|intros [? ?]; discriminate|discriminate|intros [? ?]; discriminate]. }
  assert (zlen (elem_oct e) = l + 2) as Ez by (rewrite Eo, !zlen_cons; lia). rewrite Ez in *.
  assert (tlv_one (pre ++ (elem_oct e ++ msg es) ++ room) (zlen pre) (l + 2 + zlen (msg es)) = Ok (Some (t, l))) as ET.
  { unfold tlv_one. destruct (l + 2 + zlen (msg es) <? 1) eqn:?; [lia|]. rewrite Eo. cbn [app]. rewrite rd_at by reflexivity. cbn [bind].
    destruct (2 <? t) eqn:?; [lia|]. destruct (l + 2 + zlen (msg es) <? 2) eqn:?; [lia|].
    replace (pre ++ t :: l :: (val ++ msg es) ++ room) with ((pre ++ [t]) ++ l :: (val ++ msg es) ++ room) by (rewrite <- app_assoc; reflexivity).
    rewrite rd_at by (rewrite zlen_app; reflexivity). cbn [bind]. destruct (l + 2 + zlen (msg es) <? l + 2) eqn:?; [lia|]. reflexivity. }
  rewrite ET. cbn [bind].
  assert ((if want then Some v else None) = (if want then Some v else None)) as _ by reflexivity.
  assert (match (if want then Some v else None) with Some _ => if t =? 0 then do o <- rd (pre ++ (elem_oct e ++ msg es) ++ room) (zlen pre + 2); Ok (Some o) else Ok (if want then Some v else None) | None => Ok (if want then Some v else None) end
          = Ok (if want then Some (e_version e v) else None)) as EV.
  { destruct want; [|reflexivity]. destruct (t =? 0) eqn:E0.
    - destruct (proj1 Ht0 ltac:(lia)) as [v' ->]. cbn [elem_oct app e_version].
      replace (pre ++ 0 :: 1 :: v' :: msg es ++ room) with ((pre ++ [0; 1]) ++ v' :: msg es ++ room) by (rewrite <- app_assoc; reflexivity). rewrite rd_at by (rewrite zlen_app; reflexivity). reflexivity.
    - destruct e as [v'|cls xs]; [|reflexivity]. exfalso. assert (t = 0) by (apply Ht0; eauto). lia. }
  rewrite EV. cbn [bind].
  assert ((if t =? 0 then Ok (Some []) else dec_block 65 (pre ++ (elem_oct e ++ msg es) ++ room) (zlen pre + 2) l lt t 0) = Ok (Some (map x_field (e_fields e)))) as EB.
  { destruct e as [v'|cls xs].
    - assert (t = 0) by (apply Ht0; eauto). subst t. reflexivity.
    - destruct He as [(Hxs & Hcls & Hfx & Hlen) Hfr]. cbn [elem_oct e_fields] in *. injection Eo as <- El' <-.
      destruct (cls =? 0) eqn:?; [lia|].
      replace (pre ++ ((cls :: zlen (concat (map x_oct xs)) :: concat (map x_oct xs)) ++ msg es) ++ room)
        with ((pre ++ [cls; zlen (concat (map x_oct xs))]) ++ concat (map x_oct xs) ++ msg es ++ room) by (rewrite <- !app_assoc; reflexivity). rewrite El.
      assert (Forall (fun x => kind (x_alg x) = cls /\ (xf_ok x /\ readable x) /\ known lt x) xs) as FF.
      { rewrite Forall_forall in *. intros x Hx. specialize (Hfx x Hx). specialize (Hfr x Hx). tauto. }
      assert (4 * zlen xs <= 255). { etransitivity; [apply octs_len|exact Hlen]. revert FF. apply Forall_impl. tauto. }
      apply block_at; [exact Hxs|exact FF|rewrite zlen_app; reflexivity|unfold zlen in *; lia|lia|lia]. }
  rewrite EB. cbn [bind].
  assert (rev (map x_field (e_fields e)) ++ fs = rev (map x_field (e_fields e)) ++ fs) as _ by reflexivity.
  unfold fields_of. cbn [map concat fold_left]. rewrite map_app, rev_app_distr, <- app_assoc.
  destruct es as [|e2 es].
  - cbn [msg map concat]. change (zlen (@nil Z)) with 0. destruct (l + 2 + 0 - (l + 2) <=? 2) eqn:?; [|lia]. reflexivity.
  - assert (3 <= zlen (msg (e2 :: es))) as H3. { cbn [msg map concat]. rewrite zlen_app. inversion F' as [|? ? F1 _]; subst. pose proof (elem_len e2 lt F1). pose proof (zlen_nonneg (concat (map elem_oct es))). lia. }
    destruct (l + 2 + zlen (msg (e2 :: es)) - (l + 2) <=? 2) eqn:?; [lia|].
    replace (l + 2 + zlen (msg (e2 :: es)) - (l + 2)) with (zlen (msg (e2 :: es))) by lia.
    rewrite (app_assoc pre (elem_oct e)). rewrite (IH fuel (pre ++ elem_oct e) _ _ _ room); [unfold fields_of; rewrite app_assoc; reflexivity|discriminate|cbn in *; lia|exact F'|rewrite zlen_app; lia].
Qed.
