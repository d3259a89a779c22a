(** States session management can be in, and what holds of all of them. *)
From Verif.Lib Require Import Base Outcome.
From Verif.Sm Require Import SmModel SmProofs SmProofs2 SmProofs3 SmExec.

Lemma run_cons c x l : run c (x :: l) =
  match step c x with
  | Ok (c1, o1, _) => match run c1 l with Ok (c2, o2) => Ok (c2, o1 ++ o2) | Err e => Err e | UB => UB end
  | Err e => Err e | UB => UB end.
Proof. reflexivity. Qed.

Lemma cinv0 P : cinv P 0 ctx0.
Proof.
  constructor; try (cbn; lia); try constructor.
  all: try (intros; discriminate).

Qed.

(** After fewer than 2^32 inputs whose members have their C types; [reached_ok]: inputs that cannot lead
    outside an object, as well. *)
Definition reached (c : ctx) : Prop :=
  exists l o, Forall typed l /\ run ctx0 l = Ok (c, o) /\ zlen l < 2 ^ 32.
Definition reached_ok (c : ctx) : Prop :=
  exists l o, Forall (fun x => typed x /\ input_ok x) l /\ run ctx0 l = Ok (c, o) /\ zlen l < 2 ^ 32.

Lemma run_inv l : forall N c c' o, cinv 255 N c -> Forall typed l -> run c l = Ok (c', o) -> exists N', N <= N' <= N + zlen l /\ cinv 255 N' c'.
Proof.
  induction l as [|x l IH]; intros N c c' o Hc Ht H.
  - injection H as <- <-. exists N. split; [cbn; lia|exact Hc].
  - inversion Ht as [|? ? Hx Hl]; subst. rewrite run_cons in H.
    pose proof (step_ok True 255 N c x Hc Hx (or_introl (conj I eq_refl))) as G.
    destruct (step c x) as [[[c1 o1] z]| |]; try discriminate. cbn [stepped] in G. destruct G as [N1 [HN [_ [Hc1 _]]]].
    destruct (run c1 l) as [[c2 o2]| |] eqn:E; try discriminate. injection H as <- <-.
    destruct (IH N1 c1 c2 o2 Hc1 Hl E) as [N2 [H2 Hc2]]. exists N2. rewrite zlen_cons. split; [lia|exact Hc2].
Qed.
Lemma run_inv_ok l : forall N c, cinv 253 N c -> Forall (fun x => typed x /\ input_ok x) l ->
  exists c' o N', run c l = Ok (c', o) /\ N <= N' <= N + zlen l /\ cinv 253 N' c'.
Proof.
  induction l as [|x l IH]; intros N c Hc Ht.
  - exists c, [], N. split; [reflexivity|]. split; [cbn; lia|exact Hc].
  - inversion Ht as [|? ? [Hx Hi] Hl]; subst. rewrite run_cons.
    pose proof (step_ok False 253 N c x Hc Hx (or_intror (conj eq_refl Hi))) as G.
    destruct (step c x) as [[[c1 o1] z]| |]; try contradiction. cbn [stepped] in G. destruct G as [N1 [HN [_ [Hc1 _]]]].
    destruct (IH N1 c1 Hc1 Hl) as [c2 [o2 [N2 [E [H2 Hc2]]]]]. rewrite E. exists c2, (o1 ++ o2), N2.
    split; [reflexivity|]. rewrite zlen_cons. split; [lia|exact Hc2].
Qed.
Lemma reached_inv c : reached c -> exists N, N < 2 ^ 32 /\ cinv 255 N c.
Proof. intros [l [o [Ht [Hr Hl]]]]. destruct (run_inv l 0 ctx0 c o (cinv0 255) Ht Hr) as [N [HN Hc]]. exists N. split; [lia|exact Hc]. Qed.
Lemma reached_ok_inv c : reached_ok c -> exists N, N < 2 ^ 32 /\ cinv 253 N c.
Proof.
  intros [l [o [Ht [Hr Hl]]]]. destruct (run_inv_ok l 0 ctx0 (cinv0 253) Ht) as [c' [o' [N [E [HN Hc]]]]].
  rewrite Hr in E. injection E as <- <-. exists N. split; [lia|exact Hc].
Qed.
Lemma reached_ok_reached c : reached_ok c -> reached c.
Proof. intros [l [o [Ht H]]]. exists l, o. split; [|exact H]. eapply Forall_impl; [|exact Ht]. intros a [A _]. exact A. Qed.
Lemma cinv_le N c : cinv 253 N c -> cinv 255 N c.
Proof.
  intros [C1 C2 C3 C4 C5 C6]. constructor; try assumption. eapply Forall_impl; [|exact C4].
  intros m [A B]. constructor; [exact A|]. intros n s Hs. destruct (B n s Hs) as [D [E1 E2 E3 E4 E5 E6 E7 E8]].
  split; [exact D|]. constructor; try assumption. lia.
Qed.

(** A connection for a pending context: the request goes out. *)
Lemma est_acc_exec P N c i n s t sig tl r :
  cinv P N c -> N <= 2 ^ 32 -> P <= 255 -> slots c i n = Some s -> st s = Pending ->
  let g := ident c i in let g' := mkIds (if t =? 0xffffffff then ptmsi g else t) sig tl (imsi g) (imei g) (imeisv g) r in
  exists c', step c (IEstAcc (sess s) t sig tl r) = Ok (c', [OUnitReq i (act_pdu s)], 0) /\ moved c c' i n g' (Some s).
Proof.
  intros Hc HN HP Hs Hst g g'. destruct (slots_ok _ _ _ _ _ _ Hc Hs) as [Hok _]. cbn [step].
  apply (on_sess_exec P N c Hc i n s _ _ g' s [OUnitReq i (act_pdu s)] 0 HN Hs).
  apply wp_eq. unfold est_acc. wpstep. wpstep. unfold dispatch. wpstep. wpstep. cbn [snd]. rewrite Hst. cbn [permitted action].
  wpstep. apply (wp_tx_act_req False i P); [exact (ok_pre _ _ Hok)|exact HP|]. wpstep. repeat split.
Qed.

(** No connection, or a release, for a pending context: it ends without a word. *)
Lemma est_rej_exec P N c i n s : cinv P N c -> N <= 2 ^ 32 -> slots c i n = Some s -> st s = Pending ->
  exists c', step c (IEstRej (sess s)) = Ok (c', [], 0) /\ moved c c' i n (ident c i) (Some (set_fT 0 (set_fon true (set_st Inactive s)))).
Proof.
  intros Hc HN Hs Hst. cbn [step].
  apply (on_sess_exec P N c Hc i n s _ _ (ident c i) (set_fT 0 (set_fon true (set_st Inactive s))) [] 0 HN Hs).
  apply wp_eq. unfold dispatch. wpstep. wpstep. cbn [snd]. rewrite Hst. cbn [permitted action].
  wpstep. apply wp_chg_inactive; [congruence|]. wpstep. repeat split.
Qed.
Lemma release_exec P N c i n s : cinv P N c -> N <= 2 ^ 32 -> slots c i n = Some s -> st s = Pending \/ st s = Active ->
  exists c', step c (IRelease (sess s)) = Ok (c', [], 0) /\ moved c c' i n (ident c i) (Some (set_fT 0 (set_fon true (set_st Inactive s)))).
Proof.
  intros Hc HN Hs Hst. cbn [step].
  apply (on_sess_exec P N c Hc i n s _ _ (ident c i) (set_fT 0 (set_fon true (set_st Inactive s))) [] 0 HN Hs).
  apply wp_eq. unfold dispatch. wpstep. wpstep. cbn [snd]. destruct Hst as [Hst|Hst]; rewrite Hst; cbn [permitted action];
  (wpstep; apply wp_chg_inactive; [congruence|]; wpstep; repeat split).
Qed.

(** The timer of a pending context. *)
Lemma t3380_exec P N c i n s :
  cinv P N c -> slots c i n = Some s -> st s = Pending -> tries s < 3 ->
  exists c', step c (IExpire i (Z.of_nat n)) = Ok (c', [est_out (ident c i) s], 0)
    /\ moved c c' i n (ident c i) (Some (set_tries (tries s + 1) s)).
Proof.
  intros Hc Hs Hst Ht. destruct (slots_ok _ _ _ _ _ _ Hc Hs) as [Hok _]. cbn [step].
  destruct (ok_st _ _ Hok) as [[S1 _]|[[S1 [S2 [S3 S4]]]|[S1 _]]]; try congruence.
  apply (expire_exec P N c Hc i n s (ident c i) (set_tries (tries s + 1) s) _ false Hs S3).
  apply wp_eq. unfold timer_cb. wpstep. wpstep. cbn [snd]. wpstep. wpstep. rewrite S2. change (3380 =? 0) with false. change (3380 =? 3380) with true. cbv iota.
  rewrite Z.mod_small by lia. wpstep. wpstep. rewrite S1. replace (tries s + 1 =? 4) with false by lia. wpstep.
  apply wp_chg_pending; [right; exact S1|]. wpstep. cbn [app]. split; [|split; reflexivity].
  f_equal. destruct s. cbn in S1, S2, S3 |- *. subst. reflexivity.
Qed.
Lemma t3380_last_exec P N c i n s :
  cinv P N c -> P <= 253 -> slots c i n = Some s -> st s = Pending -> tries s = 3 ->
  exists c' s', step c (IExpire i (Z.of_nat n)) = Ok (c', [OActCnf i (Z.of_nat n) (slice 0 (Z.to_nat (plen s)) (pco s)) (Rejected 34)], 0)
    /\ moved c c' i n (ident c i) (Some s') /\ st s' = Inactive.
Proof.
  intros Hc HP Hs Hst Ht. destruct (slots_ok _ _ _ _ _ _ Hc Hs) as [Hok [Hns _]]. cbn [step].
  destruct (ok_st _ _ Hok) as [[S1 _]|[[S1 [S2 [S3 S4]]]|[S1 _]]]; try congruence.
  destruct (expire_exec P N c Hc i n s (ident c i) (set_fT 0 (set_fon true (set_st Inactive (set_tries 4 (set_fon false s)))))
    [OActCnf i (Z.of_nat n) (slice 0 (Z.to_nat (plen s)) (pco s)) (Rejected 34)] false Hs S3) as [c' [E M]].
  2:{ exists c'. eexists. split; [exact E|]. split; [exact M|reflexivity]. }
  apply wp_eq. unfold timer_cb. wpstep. wpstep. cbn [snd]. wpstep. wpstep. rewrite S2. change (3380 =? 0) with false. change (3380 =? 3380) with true. cbv iota.
  rewrite Ht. change ((3 + 1) mod 256) with 4. wpstep. wpstep. rewrite S1. change (4 =? 4) with true. cbv iota.
  wpstep. unfold dispatch. wpstep. wpstep. cbn [snd set_tries set_fon st]. rewrite S1. cbn [permitted action].
  wpstep. wpstep. apply wp_chg_inactive; [cbn [set_tries set_fon st]; congruence|].
  assert (Hp' : sme_pre P (set_tries 4 (set_fon false s))) by (destruct Hok; constructor; assumption).
  apply (wp_act_cnf False i CAUSE_TEMP_OOO P); [exact (ok_pre _ _ (sme_ok_inactive P _ Hp'))|right; exact HP|].
  wpstep. wpstep. cbn [app]. split; [reflexivity|]. split; [|reflexivity]. rewrite <- Hns. reflexivity.
Qed.
(** The release of a context that has ended. *)
Lemma free_exec P N c i n s :
  cinv P N c -> slots c i n = Some s -> st s = Inactive ->
  exists c', step c (IExpire i (Z.of_nat n)) = Ok (c', [], 0) /\ moved c c' i n (ident c i) None.
Proof.
  intros Hc Hs Hst. destruct (slots_ok _ _ _ _ _ _ Hc Hs) as [Hok _]. cbn [step].
  destruct (ok_st _ _ Hok) as [[S1 [S2 S3]]|[[S1 _]|[S1 _]]]; try congruence.
  apply (expire_exec P N c Hc i n s (ident c i) (set_fon false s) [] true Hs S3).
  apply wp_eq. unfold timer_cb. wpstep. wpstep. cbn [snd]. wpstep. wpstep. rewrite S2. change (0 =? 0) with true. cbv iota. wpstep. repeat split.
Qed.

(** The invariant after a step that is known. *)
Lemma step_inv P N c x c' o z : cinv P N c -> typed x -> (P = 255 \/ (P = 253 /\ input_ok x)) -> step c x = Ok (c', o, z) ->
  exists N', N <= N' <= N + 1 /\ ((forall i q, x <> IActReq i q) -> N' = N) /\ cinv P N' c'.
Proof.
  intros Hc Ht HP E.
  assert (G : stepped True P N x c (step c x)).
  { destruct HP as [->|[-> Hi]]; apply step_ok; try assumption; [left; split; [exact I|reflexivity]|right; split; [reflexivity|exact Hi]]. }
  rewrite E in G. destruct G as [N' [A [B [C _]]]]. exists N'. split; [exact A|]. split; [exact B|exact C].
Qed.
