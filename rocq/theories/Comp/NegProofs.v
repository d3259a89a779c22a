From Verif.Lib Require Import Base Outcome.
From Verif.Comp Require Import SlhcModel XidModel XidSpec XidProofs XidRead XidCode NegModel NegSpec.

(** ** Tables *)
Lemma term_ok k e : ent_ok k e -> can_term e = true.
Proof. intros (_ & E & _). unfold can_term. rewrite E. destruct (k =? 2); reflexivity. Qed.
Lemma free_ok k t : table_ok k t -> comp_free t = Ok tt.
Proof.
  intros [_ F]. unfold comp_free. replace (forallb can_term t) with true; [reflexivity|]. symmetry. apply forallb_forall. intros e He. rewrite Forall_forall in F. eapply term_ok. apply F. exact He.
Qed.
Lemma without_id n t : ~ In n (map en_entity t) -> without n t = t.
Proof.
  induction t as [|e t IH]; intros H; [reflexivity|]. cbn [without filter map In] in *. destruct (en_entity e =? n) eqn:?; [exfalso; apply H; left; lia|]. cbn [negb]. f_equal. apply IH. tauto.
Qed.
Lemma delete_ok k t n : table_ok k t -> comp_delete t n = Ok (without n t).
Proof.
  intros [N F]. induction t as [|e t IH]; [reflexivity|]. inversion N as [|? ? N1 N2]; subst. inversion F as [|? ? F1 F2]; subst. cbn [comp_delete without filter].
  destruct (en_entity e =? n) eqn:E; cbn [negb].
  - rewrite (term_ok _ _ F1). replace (if en_class e =? 2 then true else true) with true by (destruct (en_class e =? 2); reflexivity). cbn [asserts]. f_equal. symmetry. apply without_id. replace n with (en_entity e) by lia. exact N1.
  - rewrite (IH N2 F2). reflexivity.
Qed.
Lemma without_table k t n : table_ok k t -> table_ok k (without n t) /\ ~ In n (map en_entity (without n t)).
Proof.
  intros [N F]. split; [split|].
  - clear F. induction t as [|e t IH]; [constructor|]. inversion N as [|? ? N1 N2]; subst. cbn [without filter]. destruct (negb (en_entity e =? n)); [|apply IH; exact N2].
    cbn [map]. constructor; [|apply IH; exact N2]. intros H. apply N1. apply in_map_iff in H as (x & E & Hx). apply filter_In in Hx as [Hx _]. rewrite <- E. apply in_map. exact Hx.
  - apply Forall_forall. intros e He. apply filter_In in He as [He _]. rewrite Forall_forall in F. apply F. exact He.
  - intros H. apply in_map_iff in H as (x & E & Hx). apply filter_In in Hx as [_ Hx]. rewrite E, Z.eqb_refl in Hx. discriminate.
Qed.
Lemma look_without n t i : look i (without n t) = if i =? n then None else look i t.
Proof.
  induction t as [|e t IH]; [destruct (i =? n); reflexivity|]. cbn [without filter look find]. destruct (en_entity e =? n) eqn:E; cbn [negb].
  - fold (without n t). fold (look i (without n t)). rewrite IH. destruct (i =? n) eqn:E2; [reflexivity|]. destruct (en_entity e =? i) eqn:E3; [lia|reflexivity].
  - cbn [look find]. destruct (en_entity e =? i) eqn:E3; [destruct (i =? n) eqn:E4; [lia|reflexivity]|]. fold (without n t). fold (look i (without n t)). rewrite IH. reflexivity.
Qed.
Lemma cons_table k t e : table_ok k t -> ~ In (en_entity e) (map en_entity t) -> ent_ok k e -> table_ok k (e :: t).
Proof. intros [N F] H E. split; [cbn [map]; constructor; assumption|constructor; assumption]. Qed.

(** ** Fields *)
(** A field with all parameters, as it is handled. *)
Definition whole (x : xf) : Prop := xf_ok x /\ par_ok (x_alg x) (x_vals x) /\ exists cs, x_prop x = Some cs.
Definition comps_of (x : xf) : list Z := match x_prop x with Some cs => cs | None => [] end.
Definition given (p : bool) (x : xf) : field := mkF p (x_entity x) (number (x_alg x)) (comps_of x) (Some (mkPar (x_alg x) (x_nsapi x) (x_vals x) (x_prof x))).
Lemma given_field x : whole x -> given true x = x_field x.
Proof.
  intros (_ & H & cs & E). unfold given, x_field, comps_of. rewrite E. destruct (fits_e _ _ H) as (_ & _ & L). rewrite L, Nat.sub_diag, app_nil_r. reflexivity.
Qed.
Lemma kind_class a : class_of a = kind a. Proof. destruct a; reflexivity. Qed.
Lemma start_ok x : whole x -> (x_alg x = RFC1144 \/ x_alg x = V42BIS) -> ctx_init (mkPar (x_alg x) (x_nsapi x) (x_vals x) (x_prof x)) = Ok (start (x_alg x) (x_vals x)).
Proof.
  intros (_ & H & _). destruct x as [e a p ns vs pr]. cbn [x_alg x_vals x_nsapi x_prof] in *. intros [-> | ->]; unfold ctx_init; cbn [p_alg p_vals].
  - destruct vs as [|s [|]]; try destruct H. reflexivity.
  - destruct vs as [|p0 [|p1 [|p2 [|]]]]; try destruct H. cbn [start]. destruct H as [H1 H2]. replace ((p1 <? 512) || (65535 <? p1) || (p2 <? 6) || (250 <? p2)) with false by lia. reflexivity.
Qed.
Lemma accepts_alg c x : accepts c x = true -> (x_alg x = RFC1144 \/ x_alg x = V42BIS) /\ x_nsapi x <> [].
Proof. unfold accepts. destruct (x_alg x), (x_nsapi x); intros H; try discriminate; split; auto; discriminate. Qed.
Lemma asked_ok c x : whole x -> accepts c x = true -> ent_ok (kind (x_alg x)) (asked x).
Proof.
  intros ((H1 & H2 & _ & H3 & _) & HP & cs & E) A. destruct (accepts_alg c x A) as [Ha Hn]. rewrite E in H3. destruct H3 as [H3 H4].
  unfold ent_ok, asked. cbn [en_entity en_alg en_comp en_nsapi en_state]. rewrite E.
  destruct (x_alg x); destruct Ha as [Ha|Ha]; try discriminate; cbn [kind Z.eqb Pos.eqb n_comps] in *; (split; [exact H1|]; split; [reflexivity|]; split; [exact H3|]; split; [exact H4|]; split; [exact Hn|]; split; [exact H2|]).
  - destruct (x_vals x) as [|s [|]]; try destruct HP. reflexivity.
  - destruct (x_vals x) as [|p0 [|p1 [|p2 [|]]]]; try destruct HP. reflexivity.
Qed.
Lemma accepts_code c x :
  (match x_alg x with RFC1144 => c_rfc1144 c | V42BIS => c_v42bis c | _ => false end) && (0 <? zlen (x_nsapi x)) = accepts c x.
Proof.
  unfold accepts. destruct (x_nsapi x) as [|n ns]; [rewrite andb_comm; destruct (x_alg x); reflexivity|]. rewrite zlen_cons. pose proof (zlen_nonneg ns). replace (0 <? zlen ns + 1) with true by lia. rewrite andb_comm. destruct (x_alg x); reflexivity.
Qed.
(** A field in the answer. *)
Definition answered (c : cfg) (x : xf) : field :=
  mkF false (x_entity x) (number (x_alg x)) (comps_of x) (Some (mkPar (x_alg x) (if accepts c x then x_nsapi x else []) (x_vals x) (x_prof x))).
Definition updated (c : cfg) (t : list ent) (x : xf) : list ent :=
  (if accepts c x then [asked x] else []) ++ without (x_entity x) t.
Lemma handle_ok c p t x : whole x -> table_ok (kind (x_alg x)) t ->
  handle c t (mkPar (x_alg x) (x_nsapi x) (x_vals x) (x_prof x)) (given p x) = Ok (updated c t x, answered c x) /\ table_ok (kind (x_alg x)) (updated c t x).
Proof.
  intros W T. unfold handle. cbn [p_alg p_nsapi]. rewrite accepts_code. destruct (without_table _ t (x_entity x) T) as [T2 N2]. unfold updated, answered. destruct (accepts c x) eqn:A.
  - unfold comp_add. cbn [no_prop given f_entity]. rewrite (delete_ok _ _ _ T). cbn [bind]. unfold comp_create. cbn [f_par p_nsapi f_entity f_comp p_alg no_prop given].
    destruct (accepts_alg c x A) as [Ha Hn]. replace (0 <? zlen (x_nsapi x)) with true by (symmetry; rewrite zlen_pos_iff; destruct (x_nsapi x); [congruence|reflexivity]).
    cbn [asserts]. rewrite (start_ok x W Ha). cbn [bind]. split; [reflexivity|]. cbn [app]. apply cons_table; [exact T2|exact N2|apply (asked_ok c); assumption].
  - cbn [no_prop given f_entity]. rewrite (delete_ok _ _ _ T). cbn [bind app]. split; [reflexivity|exact T2].
Qed.
Lemma look_updated c t x n : look n (updated c t x) = if x_entity x =? n then if accepts c x then Some (asked x) else None else look n t.
Proof.
  unfold updated. destruct (accepts c x); cbn [app].
  - cbn [look find asked en_entity]. destruct (x_entity x =? n) eqn:E; [reflexivity|]. fold (look n (without (x_entity x) t)). rewrite look_without. destruct (n =? x_entity x) eqn:?; [lia|reflexivity].
  - rewrite look_without, Z.eqb_sym. reflexivity.
Qed.
Lemma class_given p x : class (given p x) = kind (x_alg x). Proof. unfold class, given. cbn [f_par p_alg]. apply kind_class. Qed.
Definition upd2 (c : cfg) (pd : list ent * list ent) (x : xf) : list ent * list ent :=
  if kind (x_alg x) =? 2 then (updated c (fst pd) x, snd pd) else (fst pd, updated c (snd pd) x).
Lemma handle_all_ok c p xs : forall pt dt, Forall whole xs -> table_ok 2 pt -> table_ok 1 dt ->
  let r := fold_left (upd2 c) xs (pt, dt) in
  handle_all c pt dt (map (given p) xs) = Ok (fst r, snd r, map (answered c) xs) /\ table_ok 2 (fst r) /\ table_ok 1 (snd r).
Proof.
  induction xs as [|x xs IH]; intros pt dt F T2 T1; cbv zeta; [cbn [fold_left fst snd map handle_all]; auto|].
  inversion F as [|? ? W F']; subst. cbn [map handle_all]. rewrite class_given. cbn [given f_par]. fold (given p x). cbn [fold_left]. unfold upd2 at 2 4 6 8. cbn [fst snd].
  destruct (kind (x_alg x) =? 2) eqn:K.
  - assert (kind (x_alg x) = 2) as K2 by lia. destruct (handle_ok c p pt x W) as [E T]; [rewrite K2; exact T2|]. rewrite E. cbn [bind fst snd]. rewrite K2 in T.
    destruct (IH (updated c pt x) dt F' T T1) as (E2 & Q). cbv zeta in E2. rewrite E2. cbn [bind]. split; [reflexivity|exact Q].
  - assert (kind (x_alg x) = 1) as K1 by (destruct (x_alg x); cbn in *; lia). destruct (handle_ok c p dt x W) as [E T]; [rewrite K1; exact T1|]. rewrite E. cbn [bind fst snd]. rewrite K1 in T.
    destruct (IH pt (updated c dt x) F' T2 T) as (E2 & Q). cbv zeta in E2. rewrite E2. cbn [bind]. split; [reflexivity|exact Q].
Qed.
Lemma settled_other c k xs n old : ~ In n (map x_entity xs) -> settled c k xs n old = old.
Proof.
  intros H. unfold settled. induction xs as [|x xs IH]; [reflexivity|]. cbn [find map In] in *. destruct (x_entity x =? n) eqn:?; [exfalso; apply H; left; lia|]. apply IH. tauto.
Qed.
Lemma fold_look c xs : forall pt dt n, NoDup (map x_entity xs) ->
  let r := fold_left (upd2 c) xs (pt, dt) in
  look n (fst r) = settled c 2 xs n (look n pt) /\ look n (snd r) = settled c 1 xs n (look n dt).
Proof.
  induction xs as [|x xs IH]; intros pt dt n N; cbv zeta; [split; reflexivity|]. cbn [map] in N. inversion N as [|? ? N1 N2]; subst. cbn [fold_left]. unfold upd2 at 2 4. cbn [fst snd].
  assert (forall k old, settled c k (x :: xs) n old = if x_entity x =? n then if kind (x_alg x) =? k then if accepts c x then Some (asked x) else None else old else settled c k xs n old) as S1.
  { intros k old. unfold settled. cbn [find]. destruct (x_entity x =? n); reflexivity. }
  rewrite !S1. destruct (kind (x_alg x) =? 2) eqn:K.
  - destruct (IH (updated c pt x) dt n N2) as [E1 E2]. rewrite E1, E2, look_updated. destruct (x_entity x =? n) eqn:E; [|split; reflexivity].
    rewrite !settled_other by (replace n with (x_entity x) by lia; exact N1). split; [reflexivity|]. destruct (kind (x_alg x) =? 1) eqn:?; [lia|reflexivity].
  - assert (kind (x_alg x) =? 1 = true) as K1 by (destruct (x_alg x); cbn in *; lia). rewrite K1.
    destruct (IH pt (updated c dt x) n N2) as [E1 E2]. rewrite E1, E2, look_updated. destruct (x_entity x =? n) eqn:E; [|split; reflexivity].
    rewrite !settled_other by (replace n with (x_entity x) by lia; exact N1). split; reflexivity.
Qed.

(** The version is asked for or not. *)
Lemma dec_want fuel : forall m i n lt v fs r, dec_xid fuel m i n lt (Some v) fs = Ok r ->
  dec_xid fuel m i n lt None fs = Ok (match r with Some (_, l) => Some (None, l) | None => None end).
Proof.
  induction fuel as [|fuel IH]; intros m i n lt v fs r H; [injection H as <-; reflexivity|]. cbn [dec_xid] in *.
  destruct (tlv_one m i n) as [[[t l]|]| |]; cbn [bind] in *; try discriminate; [|injection H as <-; reflexivity].
  destruct (t =? 0) eqn:E0.
  - destruct (rd m (i + 2)) as [o| |]; cbn [bind] in *; try discriminate. destruct (n - (l + 2) <=? 2); [injection H as <-; reflexivity|]. eapply IH. exact H.
  - cbn [bind] in *. destruct (dec_block 65 m (i + 2) l lt t 0) as [[new|]| |]; cbn [bind] in *; try discriminate; [|injection H as <-; reflexivity].
    destruct (n - (l + 2) <=? 2); [injection H as <-; reflexivity|]. eapply IH. exact H.
Qed.
Lemma parse_want m n req r : parse_xid true m n req = Ok r -> parse_xid false m n req = Ok (match r with Some (_, l) => Some (None, l) | None => None end).
Proof.
  unfold parse_xid. destruct (n =? 0); [intros H; injection H as <-; reflexivity|]. destruct req as [req|]; [|apply dec_want].
  destruct (fill_table req) as [lt| |]; cbn [bind]; try discriminate. destruct (dec_xid 3 m 0 n (Some lt) (Some (-1)) []) as [x| |] eqn:E; cbn [bind]; try discriminate.
  rewrite (dec_want _ _ _ _ _ _ _ _ E). cbn [bind]. destruct x as [[v fs]|]; intros H; injection H as <-; [destruct (complete fs req); reflexivity|reflexivity].
Qed.
