(** Coding, completing and the limits of reading. *)
From Verif.Lib Require Import Base Outcome.
From Verif.Comp Require Import SlhcModel SlhcProofs XidModel XidSpec XidProofs XidRead.

(** ** Coding *)
Lemma enc_vals_ok a tab : forall done vs, fits tab vs -> rels a done vs -> enc_vals a done tab vs = Ok (nums (ws tab) vs).
Proof.
  induction tab as [|[[w lo] hi] tab IH]; intros done [|v vs] Hf Hr; try reflexivity.
  cbn [fits rels] in Hf, Hr. destruct Hf as (Hv & Hl & Hf). destruct Hr as (Hr1 & Hr). cbn [enc_vals ws map nums fst]. rewrite Hr1.
  destruct (lo <=? v) eqn:?; [|lia]. destruct (v <=? hi) eqn:?; [|lia]. cbn [andb asserts]. rewrite IH by assumption. cbn [bind]. fold (ws tab).
  destruct Hv as [[-> Hv]|[-> Hv]]; cbn [Z.eqb Pos.eqb]; [rewrite Z.mod_small by lia|rewrite (proj1 (two_ok v Hv))]; reflexivity.
Qed.
Lemma enc_profs vs : Forall (fun v => 0 <= v <= 65535) vs -> concat (map be16 vs) = concat (map two vs).
Proof. induction 1 as [|v vs H _ IH]; [reflexivity|]. cbn [map concat]. rewrite IH, (proj1 (two_ok v H)). reflexivity. Qed.
Lemma full_par x : par_ok (x_alg x) (x_vals x) -> x_par x = mkPar (x_alg x) (x_nsapi x) (x_vals x) (x_prof x).
Proof. intros H. destruct (fits_e _ _ H) as (_ & _ & L). unfold x_par. rewrite L, Nat.sub_diag, app_nil_r. reflexivity. Qed.
Lemma enc_params_ok x : xf_ok x -> par_ok (x_alg x) (x_vals x) -> enc_params (x_par x) = Ok (x_payload x).
Proof.
  intros (_ & Hns & _ & _ & _ & Hl & Hpr) Hp. destruct (fits_e _ _ Hp) as (Hf & Hr & _). rewrite (full_par x Hp). unfold enc_params. cbn [p_prof p_nsapi p_alg p_vals].
  destruct (zlen (x_prof x) <=? 16) eqn:?; [|unfold zlen in *; lia]. cbn [asserts]. destruct (ns_ok _ Hns) as (_ & Eb & Hb & Hn). unfold enc_sapis.
  destruct (zlen (x_nsapi x) <=? 11) eqn:?; [|lia]. cbn [asserts].
  replace (forallb (fun n => (5 <=? n) && (n <=? 15)) (x_nsapi x)) with true
    by (symmetry; apply forallb_forall; destruct Hns as [_ F]; rewrite Forall_forall in F; intros n Hin; specialize (F n Hin); lia).
  cbn [asserts bind]. rewrite Eb, enc_vals_ok by assumption. cbn [bind]. rewrite ws_e, enc_profs by assumption. rewrite <- (proj1 (two_ok _ Hb)). reflexivity.
Qed.
Lemma comps_halves cs : enc_comps cs = halves cs.
Proof. reflexivity. Qed.
(** Octets the encoder is able to write: the length of a field is an octet anyway. *)
Lemma payload_len_e x : xf_ok x -> par_ok (x_alg x) (x_vals x) -> 2 <= zlen (x_payload x) <= 46.
Proof.
  intros (_ & _ & _ & _ & _ & Hl & _) Hp. destruct (fits_e _ _ Hp) as (Hf & _).
  assert (0 <= zlen (nums (widths (x_alg x)) (x_vals x)) <= 12).
  { split; [apply zlen_nonneg|]. destruct (x_alg x); cbn [widths]; destruct (x_vals x) as [|? [|? [|? [|? [|? [|? [|? ?]]]]]]]; cbn [etab fits] in Hf; try tauto;
      cbn [nums Z.eqb Pos.eqb app two]; unfold zlen; cbn [length]; lia. }
  unfold x_payload. rewrite !zlen_app, zlen_two, zlen_profs. unfold zlen at 2 4. lia.
Qed.
Lemma enc_field_ok x maxlen : xf_ok x -> par_ok (x_alg x) (x_vals x) -> zlen (x_oct x) <= maxlen -> enc_field maxlen (x_field x) = Ok (x_oct x).
Proof.
  intros Hok Hp Hm. pose proof (enc_params_ok x Hok Hp) as EP. pose proof (payload_len_e x Hok Hp) as PL. destruct Hok as (He & _ & _ & Hc & _).
  unfold enc_field, x_field. fold (x_par x). cbn [f_par f_comp f_p f_entity f_algo]. rewrite EP. cbn [bind].
  pose proof (num_small (x_alg x)) as Hnum. unfold x_oct in *. destruct (x_prop x) as [cs|].
  - destruct Hc as [Hcl Hcf]. assert (zlen cs <= 5) as Hz by (unfold zlen; rewrite Hcl; destruct (x_alg x); cbn; lia).
    destruct (nibbles_at cs [] [] 0 Hcf eq_refl) as [_ HL]. pose proof (zlen_nonneg (halves cs)). assert (zlen (halves cs) <= 3) by (rewrite HL; apply Z.div_le_upper_bound; lia).
    cbn [app] in *. rewrite !zlen_cons, zlen_app in Hm. rewrite <- HL.
    destruct (zlen cs <=? 16) eqn:?; [|lia]. cbn [asserts]. destruct (zlen (x_payload x) + zlen (halves cs) + 3 <=? maxlen) eqn:?; [|lia]. cbn [asserts].
    destruct (x_entity x <=? 31) eqn:?; [|lia]. cbn [asserts]. destruct ((0 <=? number (x_alg x)) && (number (x_alg x) <=? 31)) eqn:?; [|lia]. cbn [asserts].
    replace (forallb (fun c => c <=? 15) cs) with true by (symmetry; apply forallb_forall; rewrite Forall_forall in Hcf; intros c Hin; specialize (Hcf c Hin); lia).
    cbn [asserts]. change (enc_comps cs) with (halves cs). rewrite zlen_app, !Z.mod_small by lia. rewrite (Z.add_comm (zlen (halves cs))). reflexivity.
  - cbn [app] in *. rewrite !zlen_cons in Hm. change (zlen (@nil Z)) with 0. cbn [Z.leb asserts Z.compare]. rewrite Z.add_0_r.
    destruct (zlen (x_payload x) + 2 <=? maxlen) eqn:?; [|lia]. cbn [asserts]. destruct (x_entity x <=? 31) eqn:?; [|lia]. cbn [asserts].
    destruct ((0 <=? number (x_alg x)) && (number (x_alg x) <=? 31)) eqn:?; [|lia]. cbn [asserts]. rewrite !Z.mod_small by lia. reflexivity.
Qed.
Definition full (x : xf) : Prop := xf_ok x /\ par_ok (x_alg x) (x_vals x).
Lemma class_x x : class (x_field x) = kind (x_alg x). Proof. reflexivity. Qed.
Lemma pack_ok cls : forall xs maxlen, Forall full xs -> zlen (concat (map x_oct (of_class cls xs))) <= maxlen ->
  pack maxlen cls (map x_field xs) = Ok (concat (map x_oct (of_class cls xs))).
Proof.
  induction xs as [|x xs IH]; intros maxlen F H; [reflexivity|]. inversion F as [|? ? [H1 H2] F']; subst. unfold of_class in *. cbn [map pack filter] in *. rewrite class_x, Z.eqb_sym.
  destruct (kind (x_alg x) =? cls); [|apply IH; assumption]. cbn [map concat] in *. rewrite zlen_app in H.
  pose proof (zlen_nonneg (concat (map x_oct (filter (fun x0 => kind (x_alg x0) =? cls) xs)))).
  rewrite enc_field_ok by (assumption || lia). cbn [bind]. rewrite IH by (assumption || lia). reflexivity.
Qed.
Lemma put_ok done rest tag val : zlen val <= 255 -> 2 + zlen val <= zlen rest ->
  tlv_put (done ++ rest) (zlen done) tag (zlen val) val = Ok (done ++ (tag :: zlen val :: val) ++ skipn (2 + length val) rest, zlen done + (2 + zlen val)).
Proof.
  intros H1 H2. pose proof (zlen_nonneg val). pose proof (zlen_nonneg done). unfold tlv_put. rewrite Z.mod_small by lia.
  replace (firstn (Z.to_nat (zlen val)) val) with val by (unfold zlen; rewrite Nat2Z.id, firstn_all; reflexivity).
  rewrite wr_ok by (rewrite ?zlen_app, ?zlen_cons; lia). cbn [bind].
  replace (Z.to_nat (zlen done)) with (length done) by (unfold zlen; lia).
  rewrite <- (firstn_skipn (2 + length val) rest) at 1. rewrite ow_app; [f_equal; f_equal; lia|].
  rewrite firstn_length_le; [reflexivity|]. unfold zlen in *. lia.
Qed.
Lemma zlen_pos_iff (l : list Z) : (0 <? zlen l) = match l with [] => false | _ => true end.
Proof. destruct l; [reflexivity|]. rewrite zlen_cons. pose proof (zlen_nonneg l). destruct (0 <? zlen l + 1) eqn:?; [reflexivity|lia]. Qed.
Lemma oct_nonempty x : x_oct x <> []. Proof. unfold x_oct. destruct (x_prop x); discriminate. Qed.
Lemma octs_empty xs : concat (map x_oct xs) = [] -> xs = [].
Proof. destruct xs as [|x xs]; [reflexivity|]. cbn [map concat]. intros H. apply app_eq_nil in H as [H _]. destruct (oct_nonempty x H). Qed.
Lemma elems_oct cls xs : msg (elems_for cls xs) = match concat (map x_oct (of_class cls xs)) with [] => [] | b => cls :: zlen b :: b end.
Proof.
  unfold elems_for. destruct (of_class cls xs) as [|x l] eqn:E; [reflexivity|]. unfold msg. cbn [map concat elem_oct]. rewrite app_nil_r. cbn [map concat].
  destruct (x_oct x ++ concat (map x_oct l)) eqn:E2; [|reflexivity]. apply app_eq_nil in E2 as [E2 _]. destruct (oct_nonempty x E2).
Qed.
Lemma put_elems cls xs done rest : zlen (concat (map x_oct (of_class cls xs))) <= 255 -> zlen (msg (elems_for cls xs)) <= zlen rest ->
  let b := concat (map x_oct (of_class cls xs)) in
  (if 0 <? zlen b then tlv_put (done ++ rest) (zlen done) cls (zlen b) b else Ok (done ++ rest, zlen done)) =
  Ok (done ++ msg (elems_for cls xs) ++ skipn (length (msg (elems_for cls xs))) rest, zlen done + zlen (msg (elems_for cls xs))) /\
  (if 0 <? zlen b then zlen b + 2 else 0) = zlen (msg (elems_for cls xs)).
Proof.
  intros H1 H2 b. rewrite elems_oct in *. fold b in H1, H2. fold b. rewrite zlen_pos_iff. destruct b as [|o r] eqn:E.
  - cbn [app length skipn]. rewrite Z.add_0_r. split; reflexivity.
  - rewrite <- E in *. split.
    + rewrite put_ok; [|lia|rewrite !zlen_cons in H2; lia]. rewrite !zlen_cons. cbn [length]. do 2 f_equal. lia.
    + rewrite !zlen_cons. lia.
Qed.
Lemma skipn_add {A} a b (l : list A) : skipn a (skipn b l) = skipn (b + a) l.
Proof. revert l. induction b as [|b IH]; intros l; [reflexivity|]. destruct l as [|x l]; [rewrite !skipn_nil; reflexivity|]. cbn [skipn Nat.add]. apply IH. Qed.
Lemma msg_app a b : msg (a ++ b) = msg a ++ msg b.
Proof. unfold msg. rewrite map_app, concat_app. reflexivity. Qed.

Theorem compile_ok dst xs v : Forall full xs -> -1 <= v <= 255 -> 3 <= zlen dst -> zlen (msg (block_of v xs)) <= zlen dst ->
  zlen (concat (map x_oct (of_class 1 (rev xs)))) <= 255 -> zlen (concat (map x_oct (of_class 2 (rev xs)))) <= 255 ->
  compile_xid dst (map x_field xs) v = Ok (msg (block_of v xs) ++ skipn (length (msg (block_of v xs))) dst, zlen (msg (block_of v xs))).
Proof.
  intros F Hv H3 Hd H1 H2. unfold block_of in *. rewrite !msg_app in *. rewrite !zlen_app in *.
  pose proof (zlen_nonneg (msg (elems_for 1 (rev xs)))) as Z1. pose proof (zlen_nonneg (msg (elems_for 2 (rev xs)))) as Z2.
  unfold compile_xid. destruct (3 <=? zlen dst) eqn:?; [|lia]. cbn [asserts].
  remember (msg (if 0 <=? v then [Version v] else [])) as hd eqn:Ehd.
  assert ((if 0 <=? v then do x <- tlv_put dst 0 0 1 [v mod 256]; Ok (x, 3) else Ok ((dst, 0), 0)) = Ok ((hd ++ skipn (length hd) dst, zlen hd), zlen hd)) as EH.
  { subst hd. destruct (0 <=? v) eqn:?; [|reflexivity]. rewrite Z.mod_small by lia. pose proof (put_ok [] dst 0 [v] ltac:(cbn; lia) ltac:(cbn; lia)) as P.
    change (zlen [v]) with 1 in P. change (zlen (@nil Z)) with 0 in P. cbn [app] in P. rewrite P. reflexivity. }
  rewrite EH. cbn [bind].
  assert (zlen (skipn (length hd) dst) = zlen dst - zlen hd) as Es. { unfold zlen in *. rewrite skipn_length. lia. }
  destruct (map x_field xs) as [|f fs] eqn:Em.
  { destruct xs; [|discriminate]. cbn [rev elems_for of_class filter msg map concat app] in *. rewrite app_nil_r. change (zlen (@nil Z) + zlen (@nil Z)) with 0. rewrite Z.add_0_r. reflexivity. }
  rewrite <- Em, <- map_rev.
  assert (Forall full (rev xs)) as Fr by (apply Forall_rev; exact F).
  rewrite (pack_ok 1 (rev xs) 512 Fr) by lia. cbn [bind].
  destruct (put_elems 1 (rev xs) hd (skipn (length hd) dst) H1 ltac:(lia)) as [P1 L1]. cbv zeta in P1, L1. rewrite P1. cbn [bind]. rewrite L1.
  rewrite (pack_ok 2 (rev xs) 512 Fr) by lia. cbn [bind].
  remember (msg (elems_for 1 (rev xs))) as m1 eqn:Em1. remember (skipn (length m1) (skipn (length hd) dst)) as rest eqn:Er.
  assert (zlen rest = zlen dst - zlen hd - zlen m1) as Er2. { subst rest. unfold zlen in *. rewrite skipn_length. lia. }
  destruct (put_elems 2 (rev xs) (hd ++ m1) rest H2 ltac:(lia)) as [P2 L2]. cbv zeta in P2, L2. rewrite zlen_app, <- app_assoc in P2. rewrite P2. cbn [bind fst]. rewrite L2.
  f_equal. f_equal; [|lia]. rewrite <- !app_assoc. do 3 f_equal. subst rest. rewrite !skipn_add. f_equal. rewrite !app_length. lia.
Qed.

(** ** Round trip *)
Lemma elems_read cls xs : cls = 1 \/ cls = 2 -> Forall (fun x => xf_ok x /\ readable x /\ exists cs, x_prop x = Some cs) xs ->
  zlen (concat (map x_oct (of_class cls xs))) <= 255 -> Forall (elem_read None) (elems_for cls xs).
Proof.
  intros Hc F H. unfold elems_for. assert (Forall (fun x => kind (x_alg x) = cls /\ xf_ok x /\ readable x /\ exists cs, x_prop x = Some cs) (of_class cls xs)) as G.
  { apply Forall_forall. intros x Hx. apply filter_In in Hx as [Hx E]. rewrite Forall_forall in F. split; [lia|apply F; exact Hx]. }
  destruct (of_class cls xs) as [|x l] eqn:E; constructor; [|constructor]. split.
  - split; [discriminate|]. split; [exact Hc|]. split; [revert G; apply Forall_impl; tauto|exact H].
  - cbn [e_fields]. revert G. apply Forall_impl. intros y (_ & _ & Hr & cs & Hp). split; [exact Hr|]. intros Hn. congruence.
Qed.
Lemma fields_elems cls xs : concat (map e_fields (elems_for cls xs)) = of_class cls xs.
Proof. unfold elems_for. destruct (of_class cls xs); [reflexivity|]. cbn [map concat e_fields]. apply app_nil_r. Qed.
Lemma of_class_rev cls xs : of_class cls (rev xs) = rev (of_class cls xs).
Proof.
  unfold of_class. induction xs as [|x xs IH]; [reflexivity|]. cbn [rev filter]. rewrite filter_app, IH. cbn [filter]. destruct (_ =? cls); cbn [rev]; [reflexivity|apply app_nil_r].
Qed.
Lemma fields_block v xs : fields_of (block_of v xs) = map x_field (of_class 2 xs ++ of_class 1 xs).
Proof.
  unfold fields_of, block_of. rewrite !map_app, !concat_app, !fields_elems, !of_class_rev.
  assert (concat (map e_fields (if 0 <=? v then [Version v] else [])) = []) as -> by (destruct (0 <=? v); reflexivity). cbn [app].
  rewrite <- map_rev, rev_app_distr, !rev_involutive, map_app. reflexivity.
Qed.
Lemma version_block v xs : -1 <= v -> version_of (block_of v xs) = v.
Proof.
  intros H. unfold version_of, block_of, elems_for. rewrite !fold_left_app.
  destruct (of_class 1 (rev xs)), (of_class 2 (rev xs)), (0 <=? v) eqn:?; cbn [fold_left e_version]; lia.
Qed.
Lemma block_len v xs : (length (block_of v xs) <= 3)%nat.
Proof. unfold block_of, elems_for. rewrite !app_length. destruct (of_class 1 (rev xs)), (of_class 2 (rev xs)), (0 <=? v); cbn [length]; lia. Qed.
Lemma parse_elems es room : (1 <= length es <= 3)%nat -> Forall (elem_read None) es ->
  parse_xid true (msg es ++ room) (zlen (msg es)) None = Ok (Some (Some (version_of es), fields_of es)).
Proof.
  intros Hl F. assert (es <> []) as Hne by (intros ->; cbn in Hl; lia). unfold parse_xid.
  assert (3 <= zlen (msg es)). { destruct es as [|e es]; [congruence|]. inversion F as [|? ? F1 _]; subst. pose proof (elem_len e None F1). cbn [msg map concat]. rewrite zlen_app. pose proof (zlen_nonneg (concat (map elem_oct es))). lia. }
  destruct (zlen (msg es) =? 0) eqn:?; [lia|].
  pose proof (xid_at None true es 3 [] 0 (-1) [] room Hne ltac:(lia) F eq_refl) as X. cbn [app] in X. rewrite X, app_nil_r. reflexivity.
Qed.

(** ** Completing *)
Lemma fill_app vs : forall ws k, Forall (fun v => 0 <= v) vs -> (length vs <= length ws)%nat -> k = (length ws - length vs)%nat ->
  fill (vs ++ repeat (-1) k) ws = vs ++ skipn (length vs) ws.
Proof.
  induction vs as [|v vs IH]; intros ws k F Hl ->.
  - cbn [app length skipn]. rewrite Nat.sub_0_r. induction ws as [|w ws IHw]; [reflexivity|]. cbn [length repeat fill]. cbn [Z.ltb Z.compare]. f_equal. apply IHw. cbn; lia.
  - inversion F as [|? ? Hv F']; subst. destruct ws as [|w ws]; [cbn in Hl; lia|]. cbn [length app fill skipn Nat.sub]. destruct (v <? 0) eqn:?; [lia|]. f_equal. apply IH; [exact F'|cbn in Hl; lia|reflexivity].
Qed.
Lemma alg_eqb_refl a : alg_eqb a a = true. Proof. destruct a; reflexivity. Qed.
Lemma fits_nonneg tab : forall vs, fits tab vs -> Forall (fun v => 0 <= v) vs.
Proof. induction tab as [|[[w lo] hi] tab IH]; intros [|v vs] H; try (constructor; fail); [destruct H|]. cbn [fits] in H. destruct H as (Hv & _ & H). constructor; [lia|apply IH; exact H]. Qed.
Lemma complete_miss f ok xs : Forall (fun x => x_entity x <> f_entity f) xs -> complete_field f ok (map x_field xs) = (f, ok).
Proof. induction 1 as [|x xs H _ IH]; [reflexivity|]. cbn [map complete_field x_field f_entity]. destruct (x_entity x =? f_entity f) eqn:?; [lia|exact IH]. Qed.

Definition good (xs : list xf) (y : xf) : Prop := xf_ok y /\ readable y /\ answers xs y /\ x_alg y <> ROHC.
Lemma complete_one xs : request xs -> forall y, good xs y -> complete_field (x_field y) true (map x_field xs) = (meaning xs y, true).
Proof.
  intros [F N] y ((_ & _ & Hp & _ & Hrohc & _) & [Hs _] & (Hnone & x & Hin & He & Ha) & Hnr).
  destruct (fits_d _ _ Hp Hs) as (Hf & _ & Hlen).
  unfold meaning. revert N Hin. induction F as [|z xs (Hz & Hpz & cs & Ecs) F IH]; intros N Hin; [destruct Hin|].
  inversion N as [|? ? Nz N']; subst. cbn [map complete_field find].
  change (f_entity (x_field z)) with (x_entity z). change (f_entity (x_field y)) with (x_entity y). destruct (x_entity z =? x_entity y) eqn:E.
  - assert (z = x) as ->. { destruct Hin as [Hin|Hin]; [exact Hin|]. exfalso. apply Nz. replace (x_entity z) with (x_entity x) by lia. apply in_map. exact Hin. }
    destruct (fits_e _ _ Hpz) as (_ & _ & Lz). destruct Hz as (_ & _ & _ & Hcz & Hrz & _).
    assert (x_prof y = []) as Epy by (destruct (x_prof y); [reflexivity|exfalso; apply Hnr; apply Hrohc; discriminate]).
    assert (x_prof x = []) as Epx by (destruct (x_prof x); [reflexivity|exfalso; apply Hnr; rewrite <- Ha; apply Hrz; discriminate]).
    unfold x_field at 4 7. unfold x_field at 1 2 3. cbn [f_par f_comp]. unfold complete_params. cbn [p_alg p_nsapi p_vals p_prof]. rewrite <- Ha at 1. rewrite alg_eqb_refl.
    rewrite (fill_app (x_vals y)); [|eapply fits_nonneg; exact Hf|rewrite app_length, repeat_length, Lz, Ha; lia|rewrite app_length, repeat_length, Lz, Ha; lia].
    rewrite Ecs in *. destruct Hcz as [Hcz _].
    rewrite complete_miss.
    + unfold x_field. cbn [f_p f_entity f_algo]. rewrite Hnone, Ecs, Epy, Epx, Lz, Nat.sub_diag, app_nil_r.
      destruct cs; [destruct (x_alg x); discriminate|]. reflexivity.
    + apply Forall_forall. intros w Hw Ew. apply Nz. change (f_entity (x_field y)) with (x_entity y) in Ew. cbn [f_entity] in Ew. replace (x_entity x) with (x_entity w) by lia. apply in_map. exact Hw.
  - destruct Hin as [->|Hin]; [lia|]. apply IH; assumption.
Qed.
Lemma complete_ok xs : request xs -> forall ys, Forall (good xs) ys -> complete (map x_field ys) (map x_field xs) = Some (map (meaning xs) ys).
Proof. intros R ys. induction 1 as [|y ys Hy _ IH]; [reflexivity|]. cbn [map complete]. rewrite (complete_one xs R y Hy). cbn [map]. rewrite IH. reflexivity. Qed.

Lemma find_table xs : request xs -> forall y, answers xs y -> find_algo (x_entity y) (kind (x_alg y)) (map (fun f => (f_entity f, class f, f_algo f)) (map x_field xs)) = number (x_alg y).
Proof.
  intros [_ N] y (_ & x & Hin & He & Ha). revert N Hin. induction xs as [|z xs IH]; intros N Hin; [destruct Hin|].
  inversion N as [|? ? Nz N']; subst. cbn [map find_algo]. rewrite class_x. change (f_entity (x_field z)) with (x_entity z). change (f_algo (x_field z)) with (number (x_alg z)).
  destruct Hin as [->|Hin].
  - rewrite He, Z.eqb_refl, <- Ha, Z.eqb_refl. reflexivity.
  - destruct (x_entity z =? x_entity y) eqn:E; [|apply IH; assumption]. exfalso. apply Nz. replace (x_entity z) with (x_entity x) by lia. apply in_map. exact Hin.
Qed.
Lemma request_len xs : request xs -> zlen xs <= 32.
Proof.
  intros [F N]. assert (incl (map x_entity xs) (map Z.of_nat (seq 0 32))) as I.
  { intros e He. apply in_map_iff in He as (x & <- & Hx). rewrite Forall_forall in F. destruct (F x Hx) as ((H & _) & _). apply in_map_iff. exists (Z.to_nat (x_entity x)). split; [lia|]. apply in_seq. lia. }
  pose proof (NoDup_incl_length N I) as L. rewrite !map_length, seq_length in L. unfold zlen. lia.
Qed.
Lemma filter_fields xs : filter (fun f => negb (class f =? 3)) (map x_field xs) = map x_field xs.
Proof. induction xs as [|x xs IH]; [reflexivity|]. cbn [map filter]. rewrite class_x, IH. destruct (x_alg x); reflexivity. Qed.
Theorem answer_ok xs es room : request xs -> (1 <= length es <= 3)%nat -> Forall elem_ok es -> Forall (good xs) (concat (map e_fields es)) ->
  parse_xid true (msg es ++ room) (zlen (msg es)) (Some (map x_field xs)) = Ok (Some (Some (version_of es), rev (map (meaning xs) (concat (map e_fields es))))).
Proof.
  intros R Hl F G. assert (es <> []) as Hne by (intros ->; cbn in Hl; lia).
  assert (fill_table (map x_field xs) = Ok (map (fun f => (f_entity f, class f, f_algo f)) (map x_field xs))) as ET.
  { unfold fill_table. rewrite filter_fields. pose proof (request_len xs R). replace (zlen _ <=? 64) with true; [reflexivity|]. unfold zlen in *. rewrite !map_length. lia. }
  remember (map (fun f => (f_entity f, class f, f_algo f)) (map x_field xs)) as lt eqn:Elt.
  assert (Forall (elem_read (Some lt)) es) as FR.
  { apply Forall_forall. intros e He. rewrite Forall_forall in F. split; [apply F; exact He|]. apply Forall_forall. intros y Hy.
    rewrite Forall_forall in G. destruct (G y) as (_ & H1 & H2 & _). { apply in_concat. exists (e_fields e). split; [apply in_map; exact He|exact Hy]. }
    split; [exact H1|]. intros _. subst lt. cbn [lookup_algo]. apply find_table; assumption. }
  unfold parse_xid.
  assert (3 <= zlen (msg es)). { destruct es as [|e es]; [congruence|]. inversion FR as [|? ? F1 _]; subst. pose proof (elem_len e _ F1). cbn [msg map concat]. rewrite zlen_app. pose proof (zlen_nonneg (concat (map elem_oct es))). lia. }
  destruct (zlen (msg es) =? 0) eqn:?; [lia|]. rewrite ET. cbn [bind].
  pose proof (xid_at (Some lt) true es 3 [] 0 (-1) [] room Hne ltac:(lia) FR eq_refl) as X. cbn [app] in X. cbv beta iota zeta. cbv beta iota zeta in X. unfold table in *. rewrite X, app_nil_r. cbn [bind].
  unfold fields_of. rewrite <- map_rev, (complete_ok xs R) by (apply Forall_rev; exact G). rewrite map_rev. reflexivity.
Qed.
