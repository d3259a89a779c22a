(** Proofs about the model of session management: the results of single steps. *)
From Verif.Lib Require Import Base Outcome.
From Verif.Sm Require Import SmModel SmProofs SmProofs2 SmProofs3.

Lemma wp_eq {A} (m : M A) x x' o a : wp False m (fun y p b => y = x' /\ p = o /\ b = a) x -> m x = Ok (x', o, a).
Proof. unfold wp. destruct (m x) as [[[y p] b]| |]; try contradiction. intros [-> [-> ->]]. reflexivity. Qed.

(** The identities of a mobile; zeros for one that is not known. *)
Definition no_ids : ids := mkIds 0 0 0 [] [] [] [].
Definition ident (c : ctx) (i : Z) : ids := match find (by_id i) (mss c) with Some m => gid m | None => no_ids end.

Lemma ident_set nx l1 m' l2 : NoDup (map mid (l1 ++ m' :: l2)) -> ident (mkCtx nx (l1 ++ m' :: l2)) (mid m') = gid m'.
Proof. intros H. unfold ident. cbn [mss]. rewrite (find_at _ _ _ _ H), Z.eqb_refl. reflexivity. Qed.

Section Exec.
Context (P N : Z) (c : ctx) (Hc : cinv P N c).

Lemma mobile_at i n s : slots c i n = Some s -> exists l1 m l2,
  mss c = l1 ++ m :: l2 /\ mid m = i /\ nth n (pdp m) None = Some s /\ gid m = ident c i /\ Forall (fun x => by_id i x = false) l1.
Proof.
  intros H. destruct (slots_in _ _ _ _ H) as [m [Hm [Hi Hn]]].
  destruct (first_split (by_id i) (mss c) m Hm) as [l1 [m1 [l2 [E [A B]]]]]; [unfold by_id; lia|].
  pose proof (ci_nd _ _ _ Hc) as ND. rewrite E in ND. unfold by_id in A.
  assert (Hf : find (by_id i) (mss c) = Some m1) by (rewrite E, (find_at i _ _ _ ND), A; reflexivity).
  exists l1, m1, l2. split; [exact E|]. split; [lia|]. split; [unfold slots in H; rewrite Hf in H; exact H|].
  split; [unfold ident; rewrite Hf; reflexivity|exact B].
Qed.

(** A function of the entity in a slot. *)
Lemma set_exec l1 m l2 n s g s' :
  mss c = l1 ++ m :: l2 -> nth n (pdp m) None = Some s -> 
  let c' := mkCtx (next c) (l1 ++ mkMs (mid m) g (put n (Some s') (pdp m)) :: l2) in
  slots c' (mid m) n = Some s' /\ ident c' (mid m) = g /\ next c' = next c /\ (forall j k, (j, k) <> (mid m, n) -> slots c' j k = slots c j k).
Proof.
  intros E Hn c'. pose proof (ci_nd _ _ _ Hc) as ND. rewrite E in ND.
  assert (Hm : ms_ok P m). { apply (proj1 (Forall_forall _ _) (ci_ms _ _ _ Hc)). rewrite E. apply in_elt. }
  assert (Hlt : (n < length (pdp m))%nat).
  { destruct (Nat.lt_ge_cases n (length (pdp m))) as [K|K]; [exact K|]. rewrite nth_overflow in Hn by exact K. discriminate. }
  assert (ND' : NoDup (map mid (l1 ++ mkMs (mid m) g (put n (Some s') (pdp m)) :: l2))) by (rewrite map_app in *; exact ND).
  assert (Hsl : forall j k, slots c' j k = if (mid m =? j) then (if (k =? n)%nat then Some s' else nth k (pdp m) None) else slots c j k).
  { intros j k. unfold c'. rewrite (slots_set (next c) (next c) l1 m _ l2) by (try reflexivity; exact ND).
    rewrite <- E. cbn [pdp]. rewrite put_nth by exact Hlt. destruct c; reflexivity. }
  split; [rewrite Hsl, Z.eqb_refl, Nat.eqb_refl; reflexivity|]. split; [|split; [reflexivity|]].
  - apply (ident_set (next c) l1 (mkMs (mid m) g (put n (Some s') (pdp m))) l2 ND').
  - intros j k Hne. rewrite Hsl. destruct (mid m =? j) eqn:Ej; [|reflexivity]. assert (j = mid m) by lia. subst j.
    destruct (k =? n)%nat eqn:Ek; [exfalso; apply Hne; f_equal; apply Nat.eqb_eq; exact Ek|].
    symmetry. apply slots_mem; [apply Hc|]. rewrite E. apply in_elt.
Qed.

Definition moved (c' : ctx) (i : Z) (n : nat) (g : ids) (s' : option sme) : Prop :=
  slots c' i n = s' /\ ident c' i = g /\ next c' = next c /\ (forall j k, (j, k) <> (i, n) -> slots c' j k = slots c j k).

Lemma on_sess_exec i n s f none g' s' o z :
  N <= 2 ^ 32 -> slots c i n = Some s -> f i (ident c i, s) = Ok ((g', s'), o, z) ->
  exists c', on_sess (sess s) f none c = Ok (c', o, z) /\ moved c' i n g' (Some s').
Proof.
  intros HN Hs Hf. destruct (slots_in _ _ _ _ Hs) as [m0 [Hm0 [Hi0 Hn0]]].
  assert (Hh : has_sess (sess s) m0 = true).
  { unfold has_sess. destruct (slot_of (sess s) 0 (pdp m0)) as [k|] eqn:E; [reflexivity|]. exfalso. exact (slot_of_none _ _ _ E n s Hn0 eq_refl). }
  destruct (first_split _ _ _ Hm0 Hh) as [l1 [m [l2 [E [A B]]]]].
  unfold on_sess. rewrite E. rewrite (on_ms_at _ _ _ _ _ A B).
  unfold has_sess in A. destruct (slot_of (sess s) 0 (pdp m)) as [k|] eqn:Ek; [|discriminate].
  destruct (slot_of_spec _ _ _ _ Ek) as [s1 [Hs1 [Hse Hk]]]. rewrite Z.sub_0_r in Hs1.
  assert (Hs1' : slots c (mid m) (Z.to_nat k) = Some s1).
  { rewrite slots_mem; [exact Hs1|apply Hc|]. rewrite E. apply in_elt. }
  destruct (ci_uniq _ _ _ Hc HN _ _ _ _ _ _ Hs1' Hs Hse) as [Ei En]. subst n.
  rewrite Ei in Hs1'. rewrite Hs in Hs1'. injection Hs1' as <-.
  assert (Hg : gid m = ident c i).
  { unfold ident. pose proof (ci_nd _ _ _ Hc) as ND. rewrite E in ND |- *. rewrite (find_at i _ _ _ ND). replace (mid m =? i) with true by lia. reflexivity. }
  unfold on_slot. rewrite Hs1, Ei, Hg, Hf.
  eexists. split; [reflexivity|].
  destruct (set_exec l1 m l2 (Z.to_nat k) s g' s' E Hs1) as [D1 [D2 [D3 D4]]]. rewrite Ei in *.
  split; [exact D1|]. split; [exact D2|]. split; [exact D3|exact D4].
Qed.

Lemma on_sess_none i f none : (forall j k s, slots c j k = Some s -> sess s <> i) -> on_sess i f none c = Ok (c, [], none).
Proof.
  intros H. unfold on_sess. rewrite (proj2 (on_ms_none _ _ _)); [reflexivity|]. apply Forall_forall. intros m Hm. unfold has_sess.
  destruct (slot_of i 0 (pdp m)) as [k|] eqn:E; [|reflexivity]. exfalso.
  destruct (slot_of_spec _ _ _ _ E) as [s [Hs [Hi _]]]. apply (H (mid m) (Z.to_nat (k - 0)) s); [|exact Hi].
  rewrite slots_mem; [exact Hs|apply Hc|exact Hm].
Qed.

Lemma on_nsapi_exec t i n s f none g' s' o z :
  slots c i n = Some s -> (5 <= n)%nat ->
  tlli (ident c i) = t -> (forall m, In m (mss c) -> tlli (gid m) = t -> mid m = i) ->
  f i (ident c i, s) = Ok ((g', s'), o, z) ->
  exists c', on_nsapi (by_tlli t) (Z.of_nat n) f none c = Ok (c', o, z) /\ moved c' i n g' (Some s').
Proof.
  intros Hs Hn5 Ht Hu Hf. destruct (slots_ok _ _ _ _ _ _ Hc Hs) as [_ [_ Hlt]].
  destruct (mobile_at _ _ _ Hs) as [l1 [m [l2 [E [Hi [Hn [Hg Hb]]]]]]].
  assert (Hb' : Forall (fun x => by_tlli t x = false) l1).
  { apply Forall_forall. intros x Hx. pose proof (proj1 (Forall_forall _ _) Hb x Hx) as Hxi. unfold by_id in Hxi. unfold by_tlli.
    destruct (tlli (gid x) =? t) eqn:Ex; [|reflexivity]. assert (mid x = i); [|lia]. apply Hu; [rewrite E; apply in_or_app; left; exact Hx|lia]. }
  assert (Hbt : by_tlli t m = true) by (unfold by_tlli; rewrite Hg; lia).
  unfold on_nsapi. rewrite E. rewrite (on_ms_at _ _ _ _ _ Hbt Hb').
  replace ((5 <=? Z.of_nat n) && (Z.of_nat n <=? 15)) with true by lia.
  unfold on_slot. rewrite Nat2Z.id, Hn, Hi, Hg, Hf. eexists. split; [reflexivity|].
  destruct (set_exec l1 m l2 n s g' s' E Hn) as [D1 [D2 [D3 D4]]]. rewrite Hi in *.
  split; [exact D1|]. split; [exact D2|]. split; [exact D3|exact D4].
Qed.

Lemma expire_exec i n s g' s' o (b : bool) :
  slots c i n = Some s -> fon s = true -> timer_cb i (ident c i, s) = Ok ((g', s'), o, b) ->
  exists c', expire i (Z.of_nat n) c = Ok (c', o, 0) /\ moved c' i n g' (if b then None else Some s').
Proof.
  intros Hs Hon Hf. destruct (slots_ok _ _ _ _ _ _ Hc Hs) as [_ [_ Hlt]].
  destruct (mobile_at _ _ _ Hs) as [l1 [m [l2 [E [Hi [Hn [Hg Hb]]]]]]].
  assert (Hbi : by_id i m = true) by (unfold by_id; lia).
  unfold expire. rewrite E. rewrite (on_ms_at _ _ _ _ _ Hbi Hb). rewrite Nat2Z.id, Hn, Hon, Hi, Hg, Hf.
  eexists. split; [reflexivity|].
  pose proof (ci_nd _ _ _ Hc) as ND. rewrite E in ND.
  assert (Hl : (n < length (pdp m))%nat).
  { destruct (Nat.lt_ge_cases n (length (pdp m))) as [K|K]; [exact K|]. rewrite nth_overflow in Hn by exact K. discriminate. }
  set (v := if b then None else Some s').
  assert (ND' : NoDup (map mid (l1 ++ mkMs i g' (put n v (pdp m)) :: l2))) by (rewrite map_app in *; cbn [map] in *; cbn [mid]; rewrite Hi in ND; exact ND).
  assert (Hsl : forall j k, slots (mkCtx (next c) (l1 ++ mkMs i g' (put n v (pdp m)) :: l2)) j k = if (i =? j) then (if (k =? n)%nat then v else nth k (pdp m) None) else slots c j k).
  { intros j k. rewrite (slots_set (next c) (next c) l1 m _ l2) by (try exact ND; cbn [mid]; symmetry; exact Hi).
    rewrite <- E, Hi. cbn [pdp]. rewrite put_nth by exact Hl. destruct c; reflexivity. }
  split; [rewrite Hsl, Z.eqb_refl, Nat.eqb_refl; reflexivity|]. split; [|split; [reflexivity|]].
  - apply (ident_set (next c) l1 (mkMs i g' (put n v (pdp m))) l2 ND').
  - intros j k Hne. rewrite Hsl. destruct (i =? j) eqn:Ej; [|reflexivity]. assert (j = i) by lia. subst j.
    destruct (k =? n)%nat eqn:Ek; [exfalso; apply Hne; f_equal; apply Nat.eqb_eq; exact Ek|].
    symmetry. rewrite <- Hi. apply slots_mem; [apply Hc|]. rewrite E. apply in_elt.
Qed.

(** The entity and the identities after a request. *)
Definition sapi_of (q : actreq) : Z := if q_sapi q =? 0 then 3 else q_sapi q.
Definition entity_of (id : Z) (q : actreq) : sme :=
  mkSme id (q_nsapi q) (sapi_of q) (q_atype q) (q_v4 q) (q_v6 q) 0
    (overlay (slice 0 (Z.to_nat (q_qlen q)) (q_qos q)) (repeat 0 22)) (q_qlen q) (q_apn q)
    (overlay (slice 0 (Z.to_nat (q_plen q)) (q_pco q)) (repeat 0 255)) (q_plen q) 0 Pending 3380 true 0.
Definition ids_of (g : ids) (q : actreq) : ids :=
  mkIds (q_ptmsi q) (q_sig q) (tlli g) (match q_imsi q with [] => imsi g | l => l end) (match q_imei q with [] => imei g | l => l end)
    (match q_imeisv q with [] => imeisv g | l => l end) (q_rai q).

Lemma act_req_eq m q g id : req_typed q -> req_fits q ->
  act_req m q (g, new_sme id (q_nsapi q)) = Ok ((ids_of g q, entity_of id q), [est_out (ids_of g q) (entity_of id q)], 0).
Proof.
  intros [H1 H2 H3 H4 H5 H6 _] [F1 F2]. apply wp_eq. unfold act_req. do 6 wpstep. wpstep. apply wp_rdn; [right; lia|]. intros _ _ _.
  do 2 wpstep. wpstep. apply wp_rdn; [right; lia|]. intros _ _ _. do 4 wpstep. cbn [app].
  unfold dispatch. do 2 wpstep. cbn [snd]. cbn [st set_sapi set_atype set_v4 set_v6 set_apn set_qlen set_qos set_plen set_pco new_sme permitted action].
  wpstep. apply wp_chg_pending; [left; reflexivity|]. wpstep. repeat split; reflexivity.
Qed.

Lemma act_req_exec i q :
  req_typed q -> req_fits q -> 5 <= q_nsapi q <= 15 -> slots c i (Z.to_nat (q_nsapi q)) = None ->
  exists c', prim_act_req i q c = Ok (c', [est_out (ids_of (ident c i) q) (entity_of (next c) q)], 0)
    /\ slots c' i (Z.to_nat (q_nsapi q)) = Some (entity_of (next c) q) /\ ident c' i = ids_of (ident c i) q
    /\ next c' = (next c + 1) mod 2 ^ 32
    /\ (forall j k, (j, k) <> (i, Z.to_nat (q_nsapi q)) -> slots c' j k = slots c j k).
Proof.
  intros Hq [F1 F2] Hn Hnone. set (n := Z.to_nat (q_nsapi q)) in *.
  assert (Hlt : (n < 16)%nat) by (unfold n; lia).
  unfold prim_act_req, QOS_MAX, SME_PCO_MAX, MAXNSAPI. replace ((22 <? q_qlen q) || (255 <? q_plen q)) with false by lia.
  set (alloc := fun m : ms => if 16 <=? q_nsapi q then UB else _). cbv zeta.
  assert (Hal : forall m0, mid m0 = i -> gid m0 = ident c i -> length (pdp m0) = 16%nat ->
    alloc m0 = Ok (mkMs i (ids_of (ident c i) q) (put n (Some (entity_of (next c) q)) (pdp m0)), [est_out (ids_of (ident c i) q) (entity_of (next c) q)], 0)).
  { intros m0 Hi Hg Hl. unfold alloc. replace (16 <=? q_nsapi q) with false by lia. unfold on_slot. cbn [pdp gid mid]. fold n.
    rewrite put_nth by lia. rewrite Nat.eqb_refl, Hi, Hg. rewrite act_req_eq by (try assumption; split; assumption).
    do 3 f_equal. f_equal. generalize n (pdp m0). induction n0 as [|k IH]; intros [|y l]; cbn [put]; try reflexivity. rewrite IH. reflexivity. }
  assert (G : forall l1 m0 l2, (mss c = l1 ++ m0 :: l2 \/ (l1 = [] /\ mss c = l2 /\ m0 = new_ms i /\ find (by_id i) (mss c) = None)) -> mid m0 = i -> length (pdp m0) = 16%nat ->
     let c' := mkCtx ((next c + 1) mod 2 ^ 32) (l1 ++ mkMs i (ids_of (ident c i) q) (put n (Some (entity_of (next c) q)) (pdp m0)) :: l2) in
     slots c' i n = Some (entity_of (next c) q) /\ ident c' i = ids_of (ident c i) q /\ next c' = (next c + 1) mod 2 ^ 32 /\
     (forall j k, (j, k) <> (i, n) -> slots c' j k = slots c j k)).
  { intros l1 m0 l2 Hl Hi Hlen c'.
    assert (ND : NoDup (map mid (l1 ++ mkMs i (ids_of (ident c i) q) (put n (Some (entity_of (next c) q)) (pdp m0)) :: l2))).
    { pose proof (ci_nd _ _ _ Hc) as ND. destruct Hl as [El|[-> [El [_ Hf]]]].
      - rewrite El in ND. rewrite map_app in *. cbn [map mid] in *. rewrite Hi in ND. exact ND.
      - cbn [app map mid]. constructor; [|rewrite <- El; exact ND]. intros Hin. apply in_map_iff in Hin. destruct Hin as [y [Ey Hy]].
        rewrite <- El in Hy. apply (find_none _ _ Hf) in Hy. unfold by_id in Hy. lia. }
    assert (Hmm : forall k, slots c i k = nth k (pdp m0) None).
    { intros k. destruct Hl as [El|[-> [El [Em Hf]]]].
      - rewrite <- Hi. apply slots_mem; [apply Hc|]. rewrite El. apply in_elt.
      - unfold slots. rewrite Hf, Em. unfold new_ms. cbn [pdp]. symmetry. apply nth_repeat. }
    assert (Hsl : forall j k, slots c' j k = if (i =? j) then (if (k =? n)%nat then Some (entity_of (next c) q) else nth k (pdp m0) None) else slots c j k).
    { intros j k. unfold slots at 1. unfold c'. cbn [mss]. rewrite (find_at j _ _ _ ND). cbn [mid]. destruct (i =? j) eqn:E.
      - cbn [pdp]. apply put_nth. lia.
      - unfold slots. destruct Hl as [El|[-> [El _]]].
        + pose proof (ci_nd _ _ _ Hc) as ND2. rewrite El in *. rewrite (find_at j _ _ _ ND2), Hi, E. reflexivity.
        + rewrite El. reflexivity. }
    split; [rewrite Hsl, Z.eqb_refl, Nat.eqb_refl; reflexivity|]. split; [|split; [reflexivity|]].
    - apply (ident_set ((next c + 1) mod 2 ^ 32) l1 (mkMs i (ids_of (ident c i) q) (put n (Some (entity_of (next c) q)) (pdp m0))) l2 ND).
    - intros j k Hne. rewrite Hsl. destruct (i =? j) eqn:Ej; [|reflexivity]. assert (j = i) by lia. subst j. rewrite Hmm.
      destruct (k =? n)%nat eqn:Ek; [exfalso; apply Hne; f_equal; apply Nat.eqb_eq; exact Ek|reflexivity]. }
  destruct (find (by_id i) (mss c)) as [m|] eqn:Ef.
  - pose proof (find_some _ _ Ef) as [Hin Hid]. unfold by_id in Hid.
    replace ((5 <=? q_nsapi q) && (q_nsapi q <=? 15)) with true by lia. cbn [negb]. fold n.
    assert (Es : nth n (pdp m) None = None) by (unfold slots in Hnone; rewrite Ef in Hnone; exact Hnone). rewrite Es.
    destruct (first_split (by_id i) (mss c) m Hin ltac:(unfold by_id; lia)) as [l1 [m1 [l2 [E [A B]]]]].
    assert (m1 = m).
    { pose proof (ci_nd _ _ _ Hc) as ND. rewrite E in ND, Ef. rewrite (find_at i _ _ _ ND) in Ef. unfold by_id in A. rewrite A in Ef. congruence. }
    subst m1. rewrite E. rewrite (on_ms_at _ _ _ _ _ A B).
    assert (Hm : ms_ok P m) by exact (proj1 (Forall_forall _ _) (ci_ms _ _ _ Hc) m Hin).
    rewrite Hal; [|lia|unfold ident; rewrite Ef; reflexivity|apply Hm]. eexists. split; [reflexivity|].
    apply G; [left; exact E|lia|apply Hm].
  - change (exists c', match alloc (new_ms i) with Ok (m, o, z) => Ok (mkCtx ((next c + 1) mod 2 ^ 32) (m :: mss c), o, z) | Err e => Err e | UB => UB end
        = Ok (c', [est_out (ids_of (ident c i) q) (entity_of (next c) q)], 0) /\ slots c' i n = Some (entity_of (next c) q) /\ ident c' i = ids_of (ident c i) q
        /\ next c' = (next c + 1) mod 2 ^ 32 /\ (forall j k, (j, k) <> (i, n) -> slots c' j k = slots c j k)).
    rewrite Hal; [|reflexivity|unfold ident; rewrite Ef; reflexivity|reflexivity]. eexists. split; [reflexivity|].
    apply (G [] (new_ms i) (mss c)); [|reflexivity|reflexivity]. right. repeat split.
Qed.

Lemma act_req_refused i q s :
  0 <= q_qlen q <= 22 -> 0 <= q_plen q <= 255 -> 5 <= q_nsapi q <= 15 -> slots c i (Z.to_nat (q_nsapi q)) = Some s ->
  prim_act_req i q c = Ok (c, [], - EINVAL).
Proof.
  intros F1 F2 Hn Hs. unfold prim_act_req, QOS_MAX, SME_PCO_MAX. replace ((22 <? q_qlen q) || (255 <? q_plen q)) with false by lia.
  unfold slots in Hs. destruct (find (by_id i) (mss c)) as [m|]; [|discriminate].
  replace ((5 <=? q_nsapi q) && (q_nsapi q <=? 15)) with true by lia. cbn [negb]. rewrite Hs. reflexivity.
Qed.
End Exec.
