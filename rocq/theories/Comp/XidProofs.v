(** Proofs about sndcp_xid.c: reading what TS 44.065 allows. *)
From Verif.Lib Require Import Base Outcome.
From Verif.Comp Require Import SlhcModel XidModel XidSpec.

(** ** Sets of NSAPIs *)
Fixpoint subs (l : list Z) : list (list Z) :=
  match l with [] => [[]] | x :: r => map (cons x) (subs r) ++ subs r end.
Lemma subs_In l : StronglySorted Z.lt l -> forall s, StronglySorted Z.lt s -> incl s l -> In s (subs l).
Proof.
  induction 1 as [|x l Sl IH F]; intros s Ss Hi.
  - destruct s as [|y s]; [left; reflexivity|]. exfalso. apply (Hi y). left. reflexivity.
  - cbn [subs]. apply in_or_app. destruct s as [|y s]; [right; apply IH; [constructor|intros ? []]|].
    apply StronglySorted_inv in Ss as [Ss Fy]. rewrite Forall_forall in F, Fy.
    destruct (Hi y (or_introl eq_refl)) as [<-|Hy].
    + left. apply in_map. apply IH; [exact Ss|]. intros z Hz. destruct (Hi z (or_intror Hz)) as [<-|?]; [|assumption]. specialize (Fy x Hz). lia.
    + right. apply IH; [constructor; [exact Ss|apply Forall_forall; exact Fy]|]. intros z Hz. destruct (Hi z Hz) as [<-|?]; [|assumption].
      specialize (F y Hy). destruct Hz as [->|Hz]; [lia|]. specialize (Fy x Hz). lia.
Qed.
Definition all_ns : list Z := [5; 6; 7; 8; 9; 10; 11; 12; 13; 14; 15].
Definition ns_check (ns : list Z) : bool :=
  (if list_eq_dec Z.eq_dec (filter (fun k => Z.testbit (bits ns) k) all_ns) ns then true else false)
  && (fold_left (fun b n => Z.lor b (Z.shiftl 1 n)) ns 0 =? bits ns) && (0 <=? bits ns) && (bits ns <=? 65535) && (zlen ns <=? 11).
Lemma ns_all : forallb ns_check (subs all_ns) = true.
Proof. vm_compute. reflexivity. Qed.
Lemma ns_ok ns : nsapi_set ns ->
  filter (fun k => Z.testbit (bits ns) k) all_ns = ns /\ fold_left (fun b n => Z.lor b (Z.shiftl 1 n)) ns 0 = bits ns /\ 0 <= bits ns <= 65535 /\ zlen ns <= 11.
Proof.
  intros [Ss F]. assert (In ns (subs all_ns)) as H.
  { apply subs_In; [|exact Ss|].
    - unfold all_ns. repeat (constructor; [|repeat (constructor; [lia|]); constructor]). constructor.
    - intros z Hz. rewrite Forall_forall in F. specialize (F z Hz). unfold all_ns. cbn [In]. lia. }
  pose proof ns_all as A. rewrite forallb_forall in A. specialize (A ns H). unfold ns_check in A.
  destruct (list_eq_dec Z.eq_dec (filter (fun k => Z.testbit (bits ns) k) all_ns) ns) as [E|]; [|discriminate]. cbn [andb] in A.
  apply andb_true_iff in A as [A A4]. apply andb_true_iff in A as [A A3]. apply andb_true_iff in A as [A1 A2]. split; [exact E|]. lia.
Qed.

(** ** Reading *)
Lemma rd_at pre x post i : i = zlen pre -> rd (pre ++ x :: post) i = Ok x.
Proof.
  intros ->. rewrite rd_ok by (rewrite zlen_app, zlen_cons; pose proof (zlen_nonneg post); pose proof (zlen_nonneg pre); lia).
  unfold zlen. rewrite Nat2Z.id, nth_middle. reflexivity.
Qed.
Lemma two_ok v : 0 <= v <= 65535 -> two v = be16 v /\ (v / 256) * 256 + v mod 256 = v.
Proof. intros H. unfold two, be16. rewrite (Z.mod_small (v / 256)) by (split; [apply Z.div_pos; lia|apply Z.div_lt_upper_bound; lia]). split; [reflexivity|]. pose proof (Z.div_mod v 256). lia. Qed.
Lemma rd2_at pre v post i : i = zlen pre -> rd (pre ++ two v ++ post) i = Ok (v / 256) /\ rd (pre ++ two v ++ post) (i + 1) = Ok (v mod 256).
Proof.
  intros ->. unfold two. cbn [app]. split; [apply rd_at; reflexivity|].
  change (pre ++ v / 256 :: v mod 256 :: post) with (pre ++ [v / 256] ++ v mod 256 :: post). rewrite app_assoc. apply rd_at. rewrite zlen_app. reflexivity.
Qed.

Lemma sapis_at pre ns post i n : nsapi_set ns -> i = zlen pre -> 2 <= n ->
  dec_sapis (pre ++ two (bits ns) ++ post) i n = Ok (Some ns).
Proof.
  intros H Hi Hn. destruct (ns_ok ns H) as (E & _ & Hb & _). destruct (rd2_at pre (bits ns) post i Hi) as [R1 R2].
  unfold dec_sapis. destruct (n <? 2) eqn:?; [lia|]. rewrite R1. cbn [bind]. rewrite R2. cbn [bind].
  destruct (two_ok (bits ns) Hb) as [_ ->]. fold all_ns. rewrite E. reflexivity.
Qed.

(** The table of the decoder, with values that fit. *)
Fixpoint fits (tab : list (Z * Z * Z)) (vs : list Z) : Prop :=
  match tab, vs with
  | (w, lo, hi) :: tab, v :: vs => ((w = 1 /\ 0 <= v <= 255) \/ (w = 2 /\ 0 <= v <= 65535)) /\ lo <= v <= hi /\ fits tab vs
  | _, [] => True
  | [], _ => False
  end.
Fixpoint rels (a : alg) (done vs : list Z) : Prop :=
  match vs with [] => True | v :: r => related a (done ++ [v]) = true /\ rels a (done ++ [v]) r end.
Definition ws (tab : list (Z * Z * Z)) : list Z := map (fun t => fst (fst t)) tab.

Lemma num_at w lo hi v pre post i n : (w = 1 /\ 0 <= v <= 255) \/ (w = 2 /\ 0 <= v <= 65535) -> lo <= v <= hi -> i = zlen pre -> w <= n ->
  dec_num w (pre ++ (if w =? 1 then [v] else two v) ++ post) i n lo hi = Ok (Some v).
Proof.
  intros Hw Hv Hi Hn. unfold dec_num. destruct (n <? w) eqn:?; [lia|]. destruct Hw as [[-> Hw]|[-> Hw]]; cbn [Z.eqb Pos.eqb app].
  - rewrite rd_at by exact Hi. cbn [bind]. destruct (v <? lo) eqn:?, (hi <? v) eqn:?; try lia; reflexivity.
  - destruct (rd2_at pre v post i Hi) as [R1 R2]. unfold two in R1, R2. cbn [app] in R1, R2. unfold two. cbn [app]. rewrite R1. cbn [bind]. rewrite R2. cbn [bind].
    destruct (two_ok v Hw) as [_ ->]. destruct (v <? lo) eqn:?, (hi <? v) eqn:?; try lia; reflexivity.
Qed.

Lemma vals_at a tab : forall done vs pre post i n extra, fits tab vs -> rels a done vs -> i = zlen pre -> 0 <= extra ->
  ((length vs < length tab)%nat -> extra = 0) -> n = zlen (nums (ws tab) vs) + extra ->
  (forall w lo hi, In (w, lo, hi) tab -> 1 <= w) ->
  dec_vals a done tab (pre ++ nums (ws tab) vs ++ post) i n =
  Ok (Some (vs ++ repeat (-1) (length tab - length vs), zlen (nums (ws tab) vs), Nat.eqb (length vs) (length tab))).
Proof.
  induction tab as [|[[w lo] hi] tab IH]; intros done vs pre post i n extra Hf Hr Hi He Hx Hn Hw.
  - destruct vs; [reflexivity|contradiction].
  - destruct vs as [|v vs].
    + cbn [dec_vals]. assert (extra = 0) as -> by (apply Hx; cbn; lia). cbn [ws map nums] in *. change (zlen (@nil Z) + 0) with 0 in Hn. subst n.
      unfold dec_num. specialize (Hw w lo hi (or_introl eq_refl)). destruct (0 <? w) eqn:?; [|lia]. cbn [bind length app Nat.eqb]. rewrite Nat.sub_0_r. reflexivity.
    + cbn [fits rels] in Hf, Hr. destruct Hf as (Hv & Hl & Hf). destruct Hr as (Hr1 & Hr). cbn [dec_vals ws map nums fst] in *.
      assert (zlen (if w =? 1 then [v] else two v) = w) as Ew by (destruct Hv as [[-> _]|[-> _]]; reflexivity).
      pose proof (zlen_nonneg (nums (ws tab) vs)) as Hz. unfold ws in Hz. rewrite zlen_app in Hn.
      rewrite <- app_assoc. rewrite (num_at w lo hi v pre _ i n Hv Hl Hi) by lia. cbn [bind]. rewrite Hr1. cbn [negb].
      rewrite app_assoc. change (map (fun t : Z * Z * Z => fst (fst t)) tab) with (ws tab) in *.
      rewrite (IH (done ++ [v]) vs (pre ++ (if w =? 1 then [v] else two v)) post (i + w) (n - w) extra Hf Hr); [|rewrite zlen_app; lia|lia|intros; apply Hx; cbn [length]; lia|lia|intros; eapply Hw; right; eassumption].
      cbn [bind length app Nat.sub Nat.eqb]. rewrite zlen_app, Ew. reflexivity.
Qed.

Lemma prof_at vs : forall k pre post i n, (length vs <= k)%nat -> Forall (fun v => 0 <= v <= 65535) vs -> i = zlen pre -> n = 2 * zlen vs ->
  dec_prof k (pre ++ concat (map two vs) ++ post) i n = Ok (vs, 2 * zlen vs).
Proof.
  induction vs as [|v vs IH]; intros k pre post i n Hk F Hi Hn.
  - destruct k; [reflexivity|]. subst n. reflexivity.
  - destruct k as [|k]; [cbn in Hk; lia|]. inversion F as [|? ? Hv F']; subst. cbn [dec_prof map concat].
    rewrite <- app_assoc. pose proof (num_at 2 0 65535 v pre (concat (map two vs) ++ post) (zlen pre) (2 * zlen (v :: vs))) as N. cbn [Z.eqb Pos.eqb] in N.
    rewrite N; [|right; lia|lia|reflexivity|rewrite zlen_cons; pose proof (zlen_nonneg vs); lia]. cbn [bind].
    rewrite app_assoc. rewrite (IH k (pre ++ two v) post); [|cbn in Hk; lia|exact F'|rewrite zlen_app; reflexivity|rewrite zlen_cons; lia].
    cbn [bind fst snd]. rewrite zlen_cons. do 2 f_equal. lia.
Qed.

(** The octets and the tables agree. *)
Lemma ws_d a : ws (dtab a) = widths a.
Proof. destruct a; reflexivity. Qed.
Lemma ws_e a : ws (etab a) = widths a.
Proof. destruct a; reflexivity. Qed.
Lemma dtab_w a w lo hi : In (w, lo, hi) (dtab a) -> 1 <= w.
Proof. destruct a; cbn [dtab In]; intros H; repeat (destruct H as [H|H]; [injection H; lia|]); contradiction. Qed.
(** V.44: what the decoder wants in addition. *)
Definition not_small (x : xf) : Prop := x_alg x = V44 -> forall i, (i = 2 \/ i = 3)%nat -> (i < length (x_vals x))%nat -> 265 <= nth i (x_vals x) 0.
Lemma fits_d a vs : (exists rest, par_ok a (vs ++ rest)) -> (a = V44 -> forall i, (i = 2 \/ i = 3)%nat -> (i < length vs)%nat -> 265 <= nth i vs 0) ->
  fits (dtab a) vs /\ rels a [] vs /\ (length vs <= length (widths a))%nat.
Proof.
  intros [rest H] Hs.
  assert (Hs2 : a = V44 -> (2 < length vs)%nat -> 265 <= nth 2 vs 0) by (intros; apply Hs; auto).
  assert (Hs3 : a = V44 -> (3 < length vs)%nat -> 265 <= nth 3 vs 0) by (intros; apply Hs; auto). clear Hs.
  destruct vs as [|v0 [|v1 [|v2 [|v3 [|v4 [|v5 [|v6 vs]]]]]]]; cbn [app] in H;
    destruct a; cbn [par_ok] in H; try contradiction;
    destruct rest as [|r0 [|r1 [|r2 [|r3 [|r4 [|r5 [|r6 rest]]]]]]]; cbn [par_ok] in H; try contradiction;
    cbn [length nth] in Hs2, Hs3; try specialize (Hs2 eq_refl); try specialize (Hs3 eq_refl);
    cbn [dtab fits rels related app widths length]; repeat split; try lia.
Qed.
Lemma fits_e a vs : par_ok a vs -> fits (etab a) vs /\ rels a [] vs /\ length vs = length (widths a).
Proof.
  intros H. destruct vs as [|v0 [|v1 [|v2 [|v3 [|v4 [|v5 [|v6 vs]]]]]]]; destruct a; cbn [par_ok] in H; try contradiction;
    cbn [etab fits rels related app widths length]; repeat split; try lia.
Qed.
