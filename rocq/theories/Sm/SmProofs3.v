(** Proofs about the model of session management: what every step keeps, for all mobiles at once. *)
From Verif.Lib Require Import Base Outcome.
From Verif.Sm Require Import SmModel SmProofs SmProofs2.

(** ** Lists of mobiles *)
Lemma on_ms_some p f l r : on_ms p f l = Some r ->
  exists l1 m l2, l = l1 ++ m :: l2 /\ p m = true /\ Forall (fun x => p x = false) l1 /\
    r = match f m with Ok (m', o, z) => Ok (l1 ++ m' :: l2, o, z) | Err e => Err e | UB => UB end.
Proof.
  revert r. induction l as [|m l IH]; intros r; cbn [on_ms]; [discriminate|]. destruct (p m) eqn:E.
  - intros [= <-]. exists [], m, l. repeat split; try assumption. constructor.
  - destruct (on_ms p f l) as [r'|] eqn:E2; [|discriminate].
    intros H. destruct (IH r' eq_refl) as [l1 [m0 [l2 [-> [Hp [Hf Hr]]]]]].
    exists (m :: l1), m0, l2. split; [reflexivity|]. split; [exact Hp|]. split; [constructor; assumption|].
    subst r'. destruct (f m0) as [[[m' o] z]| |]; injection H as <-; reflexivity.
Qed.
Lemma on_ms_at p f l1 m l2 : p m = true -> Forall (fun x => p x = false) l1 ->
  on_ms p f (l1 ++ m :: l2) = Some (match f m with Ok (m', o, z) => Ok (l1 ++ m' :: l2, o, z) | Err e => Err e | UB => UB end).
Proof.
  intros Hp H. induction H as [|x l1 Hx H IH]; cbn [app on_ms]; [rewrite Hp; reflexivity|].
  rewrite Hx, IH. destruct (f m) as [[[m' o] z]| |]; reflexivity.
Qed.
Lemma on_ms_none p f l : on_ms p f l = None <-> Forall (fun x => p x = false) l.
Proof.
  split.
  - induction l as [|m l IH]; cbn [on_ms]; [constructor|]. destruct (p m) eqn:E; [discriminate|].
    destruct (on_ms p f l) as [[[[? ?] ?]| |]|]; try discriminate. constructor; auto.
  - induction 1 as [|m l E H IH]; [reflexivity|]. cbn [on_ms]. rewrite E, IH. reflexivity.
Qed.
Lemma first_split (p : ms -> bool) l m : In m l -> p m = true ->
  exists l1 m1 l2, l = l1 ++ m1 :: l2 /\ p m1 = true /\ Forall (fun x => p x = false) l1.
Proof.
  induction l as [|x l IH]; [intros []|]. intros [H|H] Hp.
  - subst x. exists [], m, l. repeat split; [exact Hp|constructor].
  - destruct (p x) eqn:E; [exists [], x, l; repeat split; [exact E|constructor]|].
    destruct (IH H Hp) as [l1 [m1 [l2 [-> [A B]]]]]. exists (x :: l1), m1, l2. repeat split; [exact A|constructor; assumption].
Qed.

(** The entity of an NSAPI of a mobile. *)
Definition slots (c : ctx) (i : Z) (n : nat) : option sme :=
  match find (by_id i) (mss c) with Some m => nth n (pdp m) None | None => None end.

Lemma find_at i l1 m l2 : NoDup (map mid (l1 ++ m :: l2)) -> find (by_id i) (l1 ++ m :: l2) =
  if mid m =? i then Some m else find (by_id i) (l1 ++ l2).
Proof.
  induction l1 as [|x l1 IH]; intros H.
  - cbn [app find]. unfold by_id at 1. reflexivity.
  - cbn [app map] in H. inversion H as [|? ? Hx H']; subst. cbn [app find]. rewrite (IH H').
    unfold by_id at 1 3. destruct (mid x =? i) eqn:E; [|reflexivity].
    destruct (mid m =? i) eqn:E2; [|reflexivity]. exfalso. apply Hx. rewrite map_app. apply in_or_app. right. left. lia.
Qed.
Lemma slots_set nx nx' l1 m m' l2 i n :
  NoDup (map mid (l1 ++ m :: l2)) -> mid m' = mid m ->
  slots (mkCtx nx' (l1 ++ m' :: l2)) i n = if mid m =? i then nth n (pdp m') None else slots (mkCtx nx (l1 ++ m :: l2)) i n.
Proof.
  intros H E. assert (H' : NoDup (map mid (l1 ++ m' :: l2))) by (rewrite map_app in *; cbn [map] in *; rewrite E; exact H).
  unfold slots. cbn [mss]. rewrite (find_at i l1 m l2 H), (find_at i l1 m' l2 H'), E. destruct (mid m =? i); reflexivity.
Qed.
Lemma slots_in c i n s : slots c i n = Some s -> exists m, In m (mss c) /\ mid m = i /\ nth n (pdp m) None = Some s.
Proof.
  unfold slots. destruct (find (by_id i) (mss c)) as [m|] eqn:E; [|discriminate]. intros H. exists m.
  apply find_some in E. unfold by_id in E. split; [apply E|]. split; [lia|exact H].
Qed.
Lemma slots_mem c m n : NoDup (map mid (mss c)) -> In m (mss c) -> slots c (mid m) n = nth n (pdp m) None.
Proof.
  intros H Hi. apply in_split in Hi. destruct Hi as [l1 [l2 E]]. unfold slots. rewrite E in *. rewrite (find_at _ _ _ _ H).
  rewrite Z.eqb_refl. reflexivity.
Qed.

Lemma put_length {A} n (v : A) l : length (put n v l) = length l.
Proof. revert n. induction l as [|x l IH]; intros [|n]; cbn [put length]; try reflexivity. rewrite IH. reflexivity. Qed.
Lemma put_nth {A} n k (v d : A) l : (n < length l)%nat -> nth k (put n v l) d = if (k =? n)%nat then v else nth k l d.
Proof.
  revert n k. induction l as [|x l IH]; intros n k H; cbn [length] in H; [lia|].
  destruct n, k; cbn [put nth Nat.eqb]; try reflexivity. apply IH. lia.
Qed.

(** ** The invariant *)
Record ms_ok (P : Z) (m : ms) : Prop := mkMsOk {
  mo_len : length (pdp m) = 16%nat;
  mo_sme : forall n s, nth n (pdp m) None = Some s -> nsapi s = Z.of_nat n /\ sme_ok P s }.
(** [N] entities have been created so far. *)
Record cinv (P N : Z) (c : ctx) : Prop := mkCinv {
  ci_N : 0 <= N; ci_next : next c = N mod 2 ^ 32;
  ci_nd : NoDup (map mid (mss c));
  ci_ms : Forall (ms_ok P) (mss c);
  ci_fresh : N <= 2 ^ 32 -> forall i n s, slots c i n = Some s -> 0 <= sess s < N;
  ci_uniq : N <= 2 ^ 32 -> forall i n s i' n' s', slots c i n = Some s -> slots c i' n' = Some s' -> sess s = sess s' -> i = i' /\ n = n' }.

Lemma slots_ok P N c i n s : cinv P N c -> slots c i n = Some s -> sme_ok P s /\ nsapi s = Z.of_nat n /\ (n < 16)%nat.
Proof.
  intros Hc H. destruct (slots_in c i n s H) as [m [Hm [_ Hn]]].
  pose proof (proj1 (Forall_forall _ _) (ci_ms _ _ _ Hc) m Hm) as [Hl Hs].
  destruct (Hs n s Hn) as [A B]. split; [exact B|]. split; [exact A|].
  destruct (Nat.lt_ge_cases n 16) as [K|K]; [exact K|]. rewrite nth_overflow in Hn by lia. discriminate.
Qed.

(** What a step does to the entities. *)
Inductive effect (x : input) (c : ctx) (o : list out) (c' : ctx) : Prop :=
| ef_none : (forall j k, slots c' j k = slots c j k) -> cnfs o = 0 -> next c' = next c -> effect x c o c'
| ef_set i n s s' : slots c i n = Some s -> slots c' i n = Some s' -> kept i s o s' ->
    (forall j k, (j, k) <> (i, n) -> slots c' j k = slots c j k) -> next c' = next c -> effect x c o c'
| ef_free i n s : slots c i n = Some s -> st s = Inactive -> slots c' i n = None -> o = [] ->
    (forall j k, (j, k) <> (i, n) -> slots c' j k = slots c j k) -> next c' = next c -> effect x c o c'
| ef_new i q n s' : x = IActReq i q -> n = Z.to_nat (q_nsapi q) -> slots c i n = None -> slots c' i n = Some s' -> sess s' = next c -> st s' = Pending ->
    cnfs o = 0 -> (forall j k, (j, k) <> (i, n) -> slots c' j k = slots c j k) -> next c' = (next c + 1) mod 2 ^ 32 -> effect x c o c'.

Lemma slot_of_spec i k l r : slot_of i k l = Some r -> exists s, nth (Z.to_nat (r - k)) l None = Some s /\ sess s = i /\ k <= r < k + zlen l.
Proof.
  revert k. induction l as [|[s|] l IH]; intros k; cbn [slot_of]; [discriminate| |].
  - destruct (sess s =? i) eqn:E.
    + intros [= <-]. exists s. rewrite Z.sub_diag. split; [reflexivity|]. split; [lia|]. rewrite zlen_cons. pose proof (zlen_nonneg l). lia.
    + intros H. destruct (IH (k + 1) H) as [s' [A [B C]]]. exists s'. split; [|split; [exact B|rewrite zlen_cons; lia]].
      replace (Z.to_nat (r - k)) with (S (Z.to_nat (r - (k + 1)))) by lia. exact A.
  - intros H. destruct (IH (k + 1) H) as [s' [A [B C]]]. exists s'. split; [|split; [exact B|rewrite zlen_cons; lia]].
    replace (Z.to_nat (r - k)) with (S (Z.to_nat (r - (k + 1)))) by lia. exact A.
Qed.
Lemma slot_of_none i k l : slot_of i k l = None -> forall n s, nth n l None = Some s -> sess s <> i.
Proof.
  revert k. induction l as [|[s|] l IH]; intros k; cbn [slot_of]; intros H n s' Hn.
  - destruct n; discriminate.
  - destruct (sess s =? i) eqn:E; [discriminate|]. destruct n; cbn [nth] in Hn; [injection Hn as <-; lia|]. eapply IH; eassumption.
  - destruct n; cbn [nth] in Hn; [discriminate|]. eapply IH; eassumption.
Qed.

Section All.
Context (U : Prop) (P : Z).

(** One entity changes. *)
Lemma set_slot N c l1 m l2 n i' s' v :
  cinv P N c -> mss c = l1 ++ m :: l2 -> (n < 16)%nat ->
  (forall s0, v = Some s0 -> s0 = s' /\ sme_ok P s' /\ nsapi s' = Z.of_nat n) ->
  (v = None \/ exists s, nth n (pdp m) None = Some s /\ sess s' = sess s) ->
  let c' := mkCtx (next c) (l1 ++ mkMs (mid m) i' (put n v (pdp m)) :: l2) in
  cinv P N c' /\ slots c' (mid m) n = v /\ (forall j k, (j, k) <> (mid m, n) -> slots c' j k = slots c j k).
Proof.
  intros Hc El Hn Hv Hold c'. destruct Hc as [C1 C2 C3 C4 C5 C6].
  assert (Hm : ms_ok P m). { apply (proj1 (Forall_forall _ _) C4). rewrite El. apply in_elt. }
  assert (Hsl : forall j k, slots c' j k = if (mid m =? j) then (if (k =? n)%nat then v else nth k (pdp m) None) else slots c j k).
  { intros j k. unfold c'. rewrite (slots_set (next c) (next c) l1 m _ l2) by (try reflexivity; rewrite <- El; exact C3).
    rewrite <- El. cbn [pdp]. rewrite put_nth by (rewrite (mo_len _ _ Hm); exact Hn). destruct c; reflexivity. }
  assert (Hmm : forall k, slots c (mid m) k = nth k (pdp m) None).
  { intros k. apply slots_mem; [exact C3|]. rewrite El. apply in_elt. }
  assert (Hother : forall j k, (j, k) <> (mid m, n) -> slots c' j k = slots c j k).
  { intros j k Hne. rewrite Hsl. destruct (mid m =? j) eqn:E; [|reflexivity]. assert (j = mid m) by lia. subst j. rewrite Hmm.
    destruct (k =? n)%nat eqn:E2; [|reflexivity]. exfalso. apply Hne. f_equal. apply Nat.eqb_eq. exact E2. }
  assert (Hself : slots c' (mid m) n = v) by (rewrite Hsl, Z.eqb_refl, Nat.eqb_refl; reflexivity).
  assert (Hcase : forall j k s0, slots c' j k = Some s0 -> exists s, slots c j k = Some s /\ sess s0 = sess s).
  { intros j k s0 H0. destruct (Z.eq_dec j (mid m)) as [->|Hj]; [destruct (Nat.eq_dec k n) as [->|Hk]|].
    - rewrite Hself in H0. destruct Hold as [Hold|[s [A B]]]; [congruence|]. exists s. rewrite Hmm. split; [exact A|].
      destruct (Hv s0 H0) as [-> _]. exact B.
    - rewrite Hother in H0 by congruence. exists s0. split; [exact H0|reflexivity].
    - rewrite Hother in H0 by congruence. exists s0. split; [exact H0|reflexivity]. }
  split; [|split; assumption]. constructor; [exact C1|exact C2| | | |].
  - unfold c'. cbn [mss]. rewrite El in C3. rewrite map_app in *. exact C3.
  - unfold c'. cbn [mss]. rewrite El in C4. apply Forall_app in C4. destruct C4 as [D1 D2]. pose proof (Forall_inv D2) as D4. pose proof (Forall_inv_tail D2) as D3.
    apply Forall_app. split; [exact D1|]. constructor; [|assumption]. constructor; cbn [pdp].
    + rewrite put_length. apply Hm.
    + intros k s0. rewrite put_nth by (rewrite (mo_len _ _ Hm); exact Hn). destruct (k =? n)%nat eqn:E.
      * intros Ev. apply Nat.eqb_eq in E. subst k. destruct (Hv s0 Ev) as [-> [A B]]. split; assumption.
      * apply (mo_sme _ _ Hm).
  - intros HN j k s0 H0. destruct (Hcase j k s0 H0) as [s [A B]]. rewrite B. eapply C5; eassumption.
  - intros HN j k s0 j' k' s0' H0 H0' E. destruct (Hcase j k s0 H0) as [s [A B]]. destruct (Hcase j' k' s0' H0') as [s2 [A' B']].
    eapply (C6 HN); [exact A|exact A'|congruence].
Qed.

Lemma same_slots N c l1 m l2 i' :
  cinv P N c -> mss c = l1 ++ m :: l2 ->
  let c' := mkCtx (next c) (l1 ++ mkMs (mid m) i' (pdp m) :: l2) in
  cinv P N c' /\ (forall j k, slots c' j k = slots c j k).
Proof.
  intros [C1 C2 C3 C4 C5 C6] El c'.
  assert (Hsl : forall j k, slots c' j k = slots c j k).
  { intros j k. unfold c'. rewrite (slots_set (next c) (next c) l1 m _ l2) by (try reflexivity; rewrite <- El; exact C3).
    cbn [pdp]. rewrite <- El. destruct (mid m =? j) eqn:E.
    - assert (j = mid m) by lia. subst j. symmetry. apply slots_mem; [exact C3|]. rewrite El. apply in_elt.
    - destruct c; reflexivity. }
  split; [|exact Hsl]. constructor; [exact C1|exact C2| | | |].
  - unfold c'. cbn [mss]. rewrite El in C3. rewrite map_app in *. exact C3.
  - unfold c'. cbn [mss]. rewrite El in C4. apply Forall_app in C4. destruct C4 as [D1 D2]. pose proof (Forall_inv D2) as D4. pose proof (Forall_inv_tail D2) as D3.
    apply Forall_app. split; [exact D1|]. constructor; [|assumption]. destruct D4. constructor; assumption.
  - intros HN j k s0. rewrite Hsl. apply C5. exact HN.
  - intros HN j k s0 j' k' s0'. rewrite !Hsl. apply C6. exact HN.
Qed.

Definition stepped (N : Z) (x : input) (c : ctx) (r : res (ctx * list out * Z)) : Prop :=
  match r with
  | Ok (c', o, z) => exists N', N <= N' <= N + 1 /\ ((forall i q, x <> IActReq i q) -> N' = N) /\ cinv P N' c' /\ effect x c o c'
  | Err _ => False | UB => U end.

Lemma stepped_same N x c z : cinv P N c -> stepped N x c (Ok (c, [], z)).
Proof. intros Hc. exists N. split; [lia|]. split; [reflexivity|]. split; [exact Hc|]. apply ef_none; reflexivity. Qed.

(** One entity handles a function that keeps it. *)
Definition keeps (f : Z -> M Z) : Prop :=
  forall m i s, sme_ok P s -> wp U (f m) (fun x o _ => sme_ok P (snd x) /\ kept m s o (snd x)) (i, s).

Lemma slot_step N x c l1 m l2 n f s :
  cinv P N c -> mss c = l1 ++ m :: l2 -> keeps f -> nth (Z.to_nat n) (pdp m) None = Some s ->
  stepped N x c (match f (mid m) (gid m, s) with
     | Ok ((i, s'), o, z) => Ok (mkCtx (next c) (l1 ++ mkMs (mid m) i (put (Z.to_nat n) (Some s') (pdp m)) :: l2), o, z)
     | Err e => Err e | UB => UB end).
Proof.
  intros Hc El Hf Hn.
  assert (Hmm : slots c (mid m) (Z.to_nat n) = Some s).
  { rewrite slots_mem; [exact Hn|apply Hc|]. rewrite El. apply in_elt. }
  destruct (slots_ok _ _ _ _ _ _ Hc Hmm) as [Hok [Hns Hlt]].
  specialize (Hf (mid m) (gid m) s Hok). unfold wp in Hf.
  destruct (f (mid m) (gid m, s)) as [[[[i s'] o] z]| |]; cbn [stepped]; [|contradiction|exact Hf].
  destruct Hf as [A B]. cbn [snd] in A, B. exists N. split; [lia|]. split; [reflexivity|].
  destruct (set_slot N c l1 m l2 (Z.to_nat n) i s' (Some s') Hc El Hlt) as [D [E F]].
  - intros s0 [= <-]. split; [reflexivity|]. split; [exact A|]. rewrite (k_nsapi _ _ _ _ B). exact Hns.
  - right. exists s. split; [exact Hn|apply B].
  - split; [exact D|]. eapply ef_set; [exact Hmm|exact E|exact B|exact F|reflexivity].
Qed.

Lemma on_sess_step N x c i f none : cinv P N c -> keeps f -> stepped N x c (on_sess i f none c).
Proof.
  intros Hc Hf. unfold on_sess.
  destruct (on_ms (has_sess i) _ (mss c)) as [r|] eqn:E; [|apply stepped_same; exact Hc].
  apply on_ms_some in E. destruct E as [l1 [m [l2 [El [Hp [_ ->]]]]]]. unfold has_sess in Hp.
  destruct (slot_of i 0 (pdp m)) as [k|] eqn:Ek; [|discriminate].
  destruct (slot_of_spec _ _ _ _ Ek) as [s [Hn _]]. rewrite Z.sub_0_r in Hn.
  pose proof (slot_step N x c l1 m l2 k f s Hc El Hf Hn) as G.
  unfold on_slot. rewrite Hn. destruct (f (mid m) (gid m, s)) as [[[[i' s'] o] z]| |]; exact G.
Qed.
Lemma on_nsapi_step N x c p n f none : cinv P N c -> keeps f -> U \/ 5 <= n <= 15 -> stepped N x c (on_nsapi p n f none c).
Proof.
  intros Hc Hf HU. unfold on_nsapi.
  destruct (on_ms p _ (mss c)) as [r|] eqn:E; [|apply stepped_same; exact Hc].
  apply on_ms_some in E. destruct E as [l1 [m [l2 [El [Hp [_ ->]]]]]].
  destruct ((5 <=? n) && (n <=? 15)) eqn:En.
  2:{ cbn [stepped]. destruct HU; [assumption|lia]. }
  unfold on_slot. destruct (nth (Z.to_nat n) (pdp m) None) as [s|] eqn:Hn.
  - pose proof (slot_step N x c l1 m l2 n f s Hc El Hf Hn) as G.
    destruct (f (mid m) (gid m, s)) as [[[[i' s'] o] z]| |]; exact G.
  - replace (mkCtx (next c) (l1 ++ m :: l2)) with c by (rewrite <- El; destruct c; reflexivity). apply stepped_same. exact Hc.
Qed.

(** The inputs: their members have their C types, and those that cannot lead outside an object. *)
Definition typed (x : input) : Prop :=
  match x with
  | IActReq i q => req_typed q
  | IUnit i pdu => bytes pdu
  | IModify _ _ _ _ _ (Some l) => bytes l
  | _ => True end.
Definition input_ok (x : input) : Prop :=
  match x with
  | IActReq i q => req_fits q /\ 5 <= q_nsapi q <= 15
  | ISnAct _ n | ISnDeact _ n => 5 <= n <= 15
  | IUnit _ pdu => msg_ok pdu
  | ISmregOther | ISnOther => False
  | _ => True end.

Lemma cnfs_status status t l : cnfs (status_outs status t l) = 0.
Proof.
  induction l as [|[s|] l IH]; cbn [status_outs]; [reflexivity| |exact IH]. rewrite cnfs_app, IH.
  destruct (inactive_bit status (nsapi s)); reflexivity.
Qed.

Lemma new_slot N c l1 l2 m0 n g s' nx :
  cinv P N c -> (mss c = l1 ++ m0 :: l2 \/ (l1 = [] /\ mss c = l2 /\ m0 = new_ms (mid m0) /\ find (by_id (mid m0)) (mss c) = None)) ->
  ms_ok P m0 -> (n < 16)%nat -> nth n (pdp m0) None = None -> sme_ok P s' -> nsapi s' = Z.of_nat n -> sess s' = next c -> nx = (next c + 1) mod 2 ^ 32 ->
  let c' := mkCtx nx (l1 ++ mkMs (mid m0) g (put n (Some s') (pdp m0)) :: l2) in
  cinv P (N + 1) c' /\ slots c (mid m0) n = None /\ slots c' (mid m0) n = Some s' /\ (forall j k, (j, k) <> (mid m0, n) -> slots c' j k = slots c j k).
Proof.
  intros Hc Hl Hm Hn Hnone Hok Hns Hse Hnx c'. destruct Hc as [C1 C2 C3 C4 C5 C6].
  assert (Hnd : NoDup (map mid (l1 ++ mkMs (mid m0) g (put n (Some s') (pdp m0)) :: l2))).
  { destruct Hl as [El|[-> [El [_ Hf]]]].
    - rewrite El in C3. rewrite map_app in *. exact C3.
    - cbn [app map mid]. constructor; [|rewrite <- El; exact C3]. intros Hin. apply in_map_iff in Hin. destruct Hin as [y [Ey Hy]].
      rewrite <- El in Hy. apply (find_none _ _ Hf) in Hy. unfold by_id in Hy. lia. }
  assert (Hfm : Forall (ms_ok P) (l1 ++ mkMs (mid m0) g (put n (Some s') (pdp m0)) :: l2)).
  { assert (Hnew : ms_ok P (mkMs (mid m0) g (put n (Some s') (pdp m0)))).
    { constructor; cbn [pdp]; [rewrite put_length; apply Hm|]. intros k s0. rewrite put_nth by (rewrite (mo_len _ _ Hm); exact Hn).
      destruct (k =? n)%nat eqn:E; [|apply (mo_sme _ _ Hm)]. apply Nat.eqb_eq in E. subst k. intros [= <-]. split; assumption. }
    destruct Hl as [El|[-> [El _]]].
    - rewrite El in C4. apply Forall_app in C4. destruct C4 as [D1 D2]. pose proof (Forall_inv D2) as D4. pose proof (Forall_inv_tail D2) as D3. apply Forall_app. split; [exact D1|]. constructor; assumption.
    - cbn [app]. constructor; [exact Hnew|rewrite <- El; exact C4]. }
  assert (Hmm : forall k, slots c (mid m0) k = nth k (pdp m0) None).
  { intros k. destruct Hl as [El|[-> [El [Em Hf]]]].
    - apply slots_mem; [exact C3|]. rewrite El. apply in_elt.
    - unfold slots. rewrite Hf, Em. unfold new_ms. cbn [pdp mid]. symmetry. apply nth_repeat. }
  assert (Hsl : forall j k, slots c' j k = if (mid m0 =? j) then (if (k =? n)%nat then Some s' else nth k (pdp m0) None) else slots c j k).
  { intros j k. unfold slots at 1. unfold c'. cbn [mss]. rewrite (find_at j _ _ _ Hnd). cbn [mid]. destruct (mid m0 =? j) eqn:E.
    - cbn [pdp]. apply put_nth. rewrite (mo_len _ _ Hm). exact Hn.
    - unfold slots. destruct Hl as [El|[-> [El _]]].
      + rewrite El. rewrite El in C3. rewrite (find_at j _ _ _ C3), E. reflexivity.
      + rewrite El. reflexivity. }
  assert (Hother : forall j k, (j, k) <> (mid m0, n) -> slots c' j k = slots c j k).
  { intros j k Hne. rewrite Hsl. destruct (mid m0 =? j) eqn:E; [|reflexivity]. assert (j = mid m0) by lia. subst j. rewrite Hmm.
    destruct (k =? n)%nat eqn:E2; [|reflexivity]. exfalso. apply Hne. f_equal. apply Nat.eqb_eq. exact E2. }
  assert (Hself : slots c' (mid m0) n = Some s') by (rewrite Hsl, Z.eqb_refl, Nat.eqb_refl; reflexivity).
  split; [|split; [rewrite Hmm; exact Hnone|split; assumption]].
  constructor; [lia| |exact Hnd|exact Hfm| |].
  - unfold c'. cbn [next]. rewrite Hnx, C2. rewrite Zplus_mod_idemp_l. reflexivity.
  - intros HN j k s0 H0. assert (next c = N) by (rewrite C2; apply Z.mod_small; lia).
    destruct (Z.eq_dec j (mid m0)) as [->|Hj]; [destruct (Nat.eq_dec k n) as [->|Hk]|].
    + rewrite Hself in H0. injection H0 as <-. lia.
    + rewrite Hother in H0 by congruence. pose proof (C5 ltac:(lia) _ _ _ H0). lia.
    + rewrite Hother in H0 by congruence. pose proof (C5 ltac:(lia) _ _ _ H0). lia.
  - intros HN j k s0 j' k' s0' H0 H0' E. assert (next c = N) by (rewrite C2; apply Z.mod_small; lia).
    assert (G : forall a b x, slots c' a b = Some x -> (a = mid m0 /\ b = n /\ x = s') \/ (slots c a b = Some x /\ sess x < N)).
    { intros a b y Hy. destruct (Z.eq_dec a (mid m0)) as [->|Ha]; [destruct (Nat.eq_dec b n) as [->|Hb]|].
      - left. rewrite Hself in Hy. injection Hy as <-. repeat split.
      - right. rewrite Hother in Hy by congruence. split; [exact Hy|]. pose proof (C5 ltac:(lia) _ _ _ Hy). lia.
      - right. rewrite Hother in Hy by congruence. split; [exact Hy|]. pose proof (C5 ltac:(lia) _ _ _ Hy). lia. }
    destruct (G _ _ _ H0) as [[-> [-> ->]]|[A A1]]; destruct (G _ _ _ H0') as [[-> [-> ->]]|[B B1]].
    + split; reflexivity.
    + lia.
    + lia.
    + eapply (C6 ltac:(lia)); [exact A|exact B|exact E].
Qed.

Lemma new_ms_ok i : ms_ok P (new_ms i).
Proof. constructor; [reflexivity|]. intros n s. unfold new_ms. cbn [pdp]. rewrite nth_repeat. discriminate. Qed.

Lemma act_req_step N c i q :
  cinv P N c -> req_typed q -> 253 <= P <= 255 -> U \/ (req_fits q /\ 5 <= q_nsapi q <= 15) ->
  stepped N (IActReq i q) c (prim_act_req i q c).
Proof.
  intros Hc Hq HP HU. unfold prim_act_req, QOS_MAX, SME_PCO_MAX, MAXNSAPI.
  assert (Hn0 : 0 <= q_nsapi q) by apply Hq.
  destruct ((22 <? q_qlen q) || (255 <? q_plen q)) eqn:El.
  { cbn [stepped]. destruct HU as [HU|[[A B] _]]; [exact HU|lia]. }
  set (alloc := fun m : ms => if 16 <=? q_nsapi q then UB else _).
  assert (Hal : forall l1 m0 l2, (mss c = l1 ++ m0 :: l2 \/ (l1 = [] /\ mss c = l2 /\ m0 = new_ms (mid m0) /\ find (by_id (mid m0)) (mss c) = None)) ->
     mid m0 = i -> ms_ok P m0 -> nth (Z.to_nat (q_nsapi q)) (pdp m0) None = None ->
     stepped N (IActReq i q) c (match alloc m0 with Ok (m', o, z) => Ok (mkCtx ((next c + 1) mod 2 ^ 32) (l1 ++ m' :: l2), o, z) | Err e => Err e | UB => UB end)).
  { intros l1 m0 l2 Hl Hi Hm Hnone. unfold alloc. destruct (16 <=? q_nsapi q) eqn:E16.
    { cbn [stepped]. destruct HU as [HU|[_ B]]; [exact HU|lia]. }
    assert (Hn : (Z.to_nat (q_nsapi q) < 16)%nat) by lia.
    unfold on_slot. cbn [pdp gid mid]. rewrite put_nth by (rewrite (mo_len _ _ Hm); exact Hn). rewrite Nat.eqb_refl.
    pose proof (wp_act_req U P (mid m0) q (gid m0) (next c) (q_nsapi q) Hq ltac:(tauto) HP) as G. unfold wp in G.
    destruct (act_req (mid m0) q (gid m0, new_sme (next c) (q_nsapi q))) as [[[[g s'] o] z]| |]; [|contradiction|exact G].
    cbn [snd fst] in G. destruct G as [G1 [G2 [G3 [G4 [G5 [G6 G7]]]]]].
    assert (Epp : put (Z.to_nat (q_nsapi q)) (Some s') (put (Z.to_nat (q_nsapi q)) (Some (new_sme (next c) (q_nsapi q))) (pdp m0)) = put (Z.to_nat (q_nsapi q)) (Some s') (pdp m0)).
    { generalize (Z.to_nat (q_nsapi q)) (pdp m0). induction n as [|n IH]; intros [|y l]; cbn [put]; try reflexivity. rewrite IH. reflexivity. }
    rewrite Epp. cbn [stepped]. exists (N + 1). split; [lia|]. split; [intros H; exfalso; exact (H i q eq_refl)|].
    destruct (new_slot N c l1 l2 m0 (Z.to_nat (q_nsapi q)) g s' ((next c + 1) mod 2 ^ 32) Hc Hl Hm Hn Hnone G1 ltac:(lia) G2 eq_refl) as [D [E [F K]]].
    split; [exact D|]. rewrite Hi in *. eapply ef_new; [reflexivity|reflexivity|exact E|exact F|exact G2|exact G5|exact G4|exact K|reflexivity]. }
  destruct (find (by_id i) (mss c)) as [m|] eqn:Ef.
  - pose proof (find_some _ _ Ef) as [Hin Hid]. unfold by_id in Hid.
    destruct ((5 <=? q_nsapi q) && (q_nsapi q <=? 15)) eqn:En; cbn [negb].
    2:{ cbn [stepped]. destruct HU as [HU|[_ B]]; [exact HU|lia]. }
    destruct (nth (Z.to_nat (q_nsapi q)) (pdp m) None) as [s|] eqn:Es; [apply stepped_same; exact Hc|].
    destruct (on_ms (by_id i) alloc (mss c)) as [r|] eqn:Eo.
    + apply on_ms_some in Eo. destruct Eo as [l1 [m0 [l2 [El0 [Hp [Hfl ->]]]]]].
      assert (m0 = m).
      { pose proof (ci_nd _ _ _ Hc) as ND. rewrite El0 in ND, Ef. rewrite (find_at i _ _ _ ND) in Ef. unfold by_id in Hp. rewrite Hp in Ef. congruence. }
      subst m0. specialize (Hal l1 m l2 (or_introl El0) ltac:(lia)).
      assert (Hm : ms_ok P m) by exact (proj1 (Forall_forall _ _) (ci_ms _ _ _ Hc) m Hin).
      specialize (Hal Hm Es). destruct (alloc m) as [[[m' o] z]| |]; exact Hal.
    + apply on_ms_none in Eo. rewrite Forall_forall in Eo. specialize (Eo m Hin). unfold by_id in Eo. lia.
  - specialize (Hal [] (new_ms i) (mss c)). cbn [app] in Hal. apply Hal.
    + right. split; [reflexivity|]. split; [reflexivity|]. split; [reflexivity|]. exact Ef.
    + reflexivity.
    + apply new_ms_ok.
    + unfold new_ms. cbn [pdp]. apply nth_repeat.
Qed.

Lemma modify_step N c i t sig l r status : cinv P N c -> stepped N (IModify i t sig l r status) c (modify_ind i t sig l r status c).
Proof.
  intros Hc. unfold modify_ind.
  destruct (on_ms (has_sess i) _ (mss c)) as [x|] eqn:E; [|apply stepped_same; exact Hc].
  apply on_ms_some in E. destruct E as [l1 [m [l2 [El [Hp [_ ->]]]]]].
  cbv zeta. cbn [stepped]. exists N. split; [lia|]. split; [reflexivity|].
  destruct (same_slots N c l1 m l2 (mkIds (if t =? RESERVED_TMSI then ptmsi (gid m) else t) sig l (imsi (gid m)) (imei (gid m)) (imeisv (gid m)) r) Hc El) as [A B].
  split; [exact A|]. apply ef_none; [exact B| |reflexivity]. destruct status; [apply cnfs_status|reflexivity].
Qed.

Lemma expire_step N c i n : cinv P N c -> P <= 255 -> U \/ P <= 253 -> stepped N (IExpire i n) c (expire i n c).
Proof.
  intros Hc HP HU. unfold expire.
  destruct (on_ms (by_id i) _ (mss c)) as [x|] eqn:E; [|apply stepped_same; exact Hc].
  apply on_ms_some in E. destruct E as [l1 [m [l2 [El [Hp [_ ->]]]]]].
  assert (Hrefl : mkCtx (next c) (l1 ++ m :: l2) = c) by (rewrite <- El; destruct c; reflexivity).
  destruct (nth (Z.to_nat n) (pdp m) None) as [s|] eqn:Hn; [|rewrite Hrefl; apply stepped_same; exact Hc].
  destruct (fon s) eqn:Hon; [|rewrite Hrefl; apply stepped_same; exact Hc].
  assert (Hmm : slots c (mid m) (Z.to_nat n) = Some s).
  { rewrite slots_mem; [exact Hn|apply Hc|]. rewrite El. apply in_elt. }
  destruct (slots_ok _ _ _ _ _ _ Hc Hmm) as [Hok [Hns Hlt]].
  pose proof (wp_timer_cb U P (mid m) (gid m) s Hok Hon HP HU) as G. unfold wp in G.
  destruct (timer_cb (mid m) (gid m, s)) as [[[[g s'] o] free]| |]; cbn [stepped]; [|contradiction|exact G].
  cbn [fst snd] in G. destruct G as [-> G]. exists N. split; [lia|]. split; [reflexivity|]. destruct free.
  - destruct G as [G1 ->]. destruct (set_slot N c l1 m l2 (Z.to_nat n) (gid m) s None Hc El Hlt) as [D [E F]].
    + discriminate.
    + left. reflexivity.
    + split; [exact D|]. eapply ef_free; [exact Hmm|exact G1|exact E|reflexivity|exact F|reflexivity].
  - destruct G as [G1 G2]. destruct (set_slot N c l1 m l2 (Z.to_nat n) (gid m) s' (Some s') Hc El Hlt) as [D [E F]].
    + intros s0 [= <-]. split; [reflexivity|]. split; [exact G1|]. rewrite (k_nsapi _ _ _ _ G2). exact Hns.
    + right. exists s. split; [exact Hn|apply G2].
    + split; [exact D|]. eapply ef_set; [exact Hmm|exact E|exact G2|exact F|reflexivity].
Qed.

Lemma step_ok N c x : cinv P N c -> typed x -> UP U P (input_ok x) -> stepped N x c (step c x).
Proof.
  intros Hc Ht HU. destruct (UP_P _ _ _ HU) as [HP HU2].
  assert (H253 : 253 <= P <= 255) by (destruct HU as [[_ ->]|[-> _]]; lia).
  assert (HUi : U \/ input_ok x) by (destruct HU as [[H _]|[_ H]]; [left|right]; exact H).
  assert (Hd : forall e, ev_ok e -> keeps (fun m => dispatch m e)).
  { intros e He m i s Hok. eapply wp_weaken; [apply (dispatch_kept U m e P i s); assumption|]. intros y o z [_ [A [B _]]]. split; assumption. }
  destruct x; cbn [step].
  - apply act_req_step; assumption.
  - cbn [stepped]. destruct HUi as [H|[]]. exact H.
  - apply on_nsapi_step; [exact Hc|apply Hd; exact I|exact HUi].
  - apply on_nsapi_step; [exact Hc| |exact HUi]. intros m i s Hok.
    eapply wp_weaken; [exact (wp_sn_deact_rsp U P m i s Hok HP HU2)|]. intros y o z [_ [A B]]. split; assumption.
  - cbn [stepped]. destruct HUi as [H|[]]. exact H.
  - apply on_sess_step; [exact Hc|]. intros m i s Hok. apply wp_est_acc; assumption.
  - apply on_sess_step; [exact Hc|apply Hd; exact I].
  - apply on_sess_step; [exact Hc|apply Hd; exact I].
  - apply on_sess_step; [exact Hc|]. intros m i s Hok. eapply wp_weaken; [exact (wp_sm_rx U P m pdu i s Ht HU Hok)|].
    intros y o z [_ [A [B _]]]. split; assumption.
  - apply modify_step. exact Hc.
  - apply stepped_same. exact Hc.
  - apply expire_step; assumption.
Qed.
End All.
