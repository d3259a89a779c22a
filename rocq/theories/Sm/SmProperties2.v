(** * Properties of session management: answers to requests, aborts, retransmissions, transaction identifiers. *)
From Verif.Lib Require Import Base Outcome.
From Verif.Sm Require Import SmModel SmProofs SmProofs2 SmProofs3 SmExec SmRun SmDemo SmEmits SmProperties.

Lemma run_app l1 l2 : forall c c1 o1 c2 o2, run c l1 = Ok (c1, o1) -> run c1 l2 = Ok (c2, o2) -> run c (l1 ++ l2) = Ok (c2, o1 ++ o2).
Proof.
  induction l1 as [|x l1 IH]; intros c c1 o1 c2 o2 H K.
  - injection H as <- <-. exact K.
  - cbn [app]. rewrite run_cons in *. destruct (step c x) as [[[ca oa] z]| |]; try discriminate.
    destruct (run ca l1) as [[cb ob]| |] eqn:E; try discriminate. injection H as <- <-.
    rewrite (IH _ _ _ _ _ E K). rewrite app_assoc. reflexivity.
Qed.
Lemma run_split l1 l2 : forall c c2 o, run c (l1 ++ l2) = Ok (c2, o) -> exists c1 o1 o2, run c l1 = Ok (c1, o1) /\ run c1 l2 = Ok (c2, o2) /\ o = o1 ++ o2.
Proof.
  induction l1 as [|x l1 IH]; intros c c2 o H.
  - exists c, [], o. split; [reflexivity|]. split; [exact H|reflexivity].
  - cbn [app] in H. rewrite run_cons in *. destruct (step c x) as [[[ca oa] z]| |]; try discriminate.
    destruct (run ca (l1 ++ l2)) as [[cb ob]| |] eqn:E; try discriminate. injection H as <- <-.
    destruct (IH _ _ _ E) as [c1 [o1 [o2 [A [B ->]]]]]. exists c1, (oa ++ o1), o2. rewrite A. split; [reflexivity|]. split; [exact B|apply app_assoc].
Qed.

(** ** C74 refuted: after 2^32 requests a session id is given twice *)


(** Mobile 1 keeps an active context with session 0; others come and go on NSAPI 5. *)
Definition lasting (c : ctx) : Prop := exists s, slots c 1 6 = Some s /\ sess s = 0 /\ st s = Active.
Lemma cycle N c : cinv 255 N c -> N < 2 ^ 32 -> lasting c -> slots c 1 5 = None ->
  exists c' o, run c [IActReq 1 (req 5); IEstRej N; IExpire 1 5] = Ok (c', o) /\ cinv 255 (N + 1) c' /\ lasting c' /\ slots c' 1 5 = None.
Proof.
  intros Hc HN [s0 [L1 L2]] H5. pose proof (ci_N _ _ _ Hc) as H0.
  destruct (act_req_exec 255 N c Hc 1 (req 5) (req_t 5 ltac:(lia)) (req_f 5) ltac:(cbn; lia) H5) as [c1 [E1 [S1 [_ [X1 M1]]]]].
  change (prim_act_req 1 (req 5) c) with (step c (IActReq 1 (req 5))) in E1. change (Z.to_nat (q_nsapi (req 5))) with 5%nat in *.
  destruct (step_inv 255 N c _ _ _ _ Hc (req_t 5 ltac:(lia) : typed (IActReq 1 (req 5))) (or_introl eq_refl) E1) as [N1 [HN1 [_ Hc1]]].
  assert (EN : next c = N) by (rewrite (ci_next _ _ _ Hc); apply Z.mod_small; lia).
  assert (HN1' : N1 <= 2 ^ 32) by lia.
  assert (N1 = N + 1).
  { pose proof (ci_fresh _ _ _ Hc1 HN1' _ _ _ S1) as F. change (sess (entity_of (next c) (req 5))) with (next c) in F. lia. }
  subst N1.
  destruct (est_rej_exec 255 (N + 1) c1 1 _ _ Hc1 ltac:(lia) S1 eq_refl) as [c2 [E2 [S2 [_ [X2 M2]]]]].
  change (sess (entity_of (next c) (req 5))) with (next c) in E2. rewrite EN in E2.
  destruct (step_inv 255 (N + 1) c1 _ _ _ _ Hc1 (I : typed (IEstRej N)) (or_introl eq_refl) E2) as [N2 [_ [D2 Hc2]]].
  rewrite (D2 ltac:(discriminate)) in Hc2.
  destruct (free_exec 255 (N + 1) c2 1 _ _ Hc2 S2 eq_refl) as [c3 [E3 [S3 [_ [X3 M3]]]]].
  destruct (step_inv 255 (N + 1) c2 _ _ _ _ Hc2 (I : typed (IExpire 1 5)) (or_introl eq_refl) E3) as [N3 [_ [D3 Hc3]]].
  rewrite (D3 ltac:(discriminate)) in Hc3.
  exists c3. eexists. split; [rewrite run_cons, E1, run_cons, E2, run_cons; change (IExpire 1 5) with (IExpire 1 (Z.of_nat 5)); rewrite E3; reflexivity|].
  split; [exact Hc3|]. split; [|exact S3]. exists s0. rewrite M3, M2, M1 by discriminate. split; assumption.
Qed.
Lemma cycles n : forall N c, cinv 255 N c -> N + Z.of_nat n <= 2 ^ 32 -> lasting c -> slots c 1 5 = None ->
  exists l c' o, run c l = Ok (c', o) /\ Forall typed l /\ cinv 255 (N + Z.of_nat n) c' /\ lasting c' /\ slots c' 1 5 = None.
Proof.
  induction n as [|n IH]; intros N c Hc Hn L H5.
  - exists [], c, []. split; [reflexivity|]. split; [constructor|]. change (Z.of_nat 0) with 0. rewrite Z.add_0_r. split; [exact Hc|]. split; assumption.
  - destruct (cycle N c Hc ltac:(lia) L H5) as [c1 [o1 [E1 [Hc1 [L1 H51]]]]].
    destruct (IH (N + 1) c1 Hc1 ltac:(lia) L1 H51) as [l [c2 [o2 [E2 [T2 [Hc2 [L2 H52]]]]]]].
    exists ([IActReq 1 (req 5); IEstRej N; IExpire 1 5] ++ l), c2, (o1 ++ o2). split; [exact (run_app _ _ _ _ _ _ _ E1 E2)|].
    split; [|replace (N + Z.of_nat (S n)) with (N + 1 + Z.of_nat n) by lia; split; [exact Hc2|split; assumption]].
    apply Forall_app. split; [|exact T2]. constructor; [apply (req_t 5); lia|]. constructor; [exact I|]. constructor; [exact I|constructor].
Qed.
(** Two contexts of one mobile, one of them active, share a session id. *)
Theorem C74_sessions_refuted : exists l c o s s',
  Forall typed l /\ run ctx0 l = Ok (c, o) /\ slots c 1 6 = Some s /\ slots c 1 5 = Some s' /\ sess s = sess s' /\ st s = Active /\ st s' = Pending.
Proof.
  set (l0 := [IActReq 1 (req 6); IEstAcc 0 0 0 7 [0]; IUnit 0 acc; ISnAct 7 6]).
  assert (T0 : Forall typed l0). { constructor; [apply (req_t 6); lia|]. constructor; [exact I|]. constructor; [exact acc_b|]. constructor; [exact I|constructor]. }
  assert (E0 : exists o, run ctx0 l0 = Ok (after l0, o)) by (eexists; vm_compute; reflexivity). destruct E0 as [o0 E0].
  destruct (run_inv l0 0 ctx0 _ o0 (cinv0 255) T0 E0) as [N [HN Hc]].
  assert (lasting (after l0)) as L by (eexists; split; [vm_compute; reflexivity|split; reflexivity]).
  assert (N1 : N = 1).
  { change (zlen l0) with 4 in HN. pose proof (ci_next _ _ _ Hc) as Q. change (next (after l0)) with 1 in Q. rewrite Z.mod_small in Q by lia. lia. }
  subst N.
  destruct (cycles (Z.to_nat (2 ^ 32 - 1)) 1 (after l0) Hc ltac:(rewrite Z2Nat.id by lia; lia) L eq_refl) as [l [c1 [o1 [E1 [T1 [Hc1 [[s [A1 [A2 A3]]] H5]]]]]]].
  rewrite Z2Nat.id in Hc1 by lia. replace (1 + (2 ^ 32 - 1)) with (2 ^ 32) in Hc1 by lia.
  assert (EN : next c1 = 0) by (rewrite (ci_next _ _ _ Hc1); apply Z.mod_same; lia).
  destruct (act_req_exec 255 _ c1 Hc1 1 (req 5) (req_t 5 ltac:(lia)) (req_f 5) ltac:(cbn; lia) H5) as [c2 [E2 [S2 [_ [_ M2]]]]].
  change (prim_act_req 1 (req 5) c1) with (step c1 (IActReq 1 (req 5))) in E2. change (Z.to_nat (q_nsapi (req 5))) with 5%nat in *.
  exists (l0 ++ l ++ [IActReq 1 (req 5)]), c2. eexists. exists s, (entity_of (next c1) (req 5)).
  split; [|split; [|split; [|split; [exact S2|split; [|split; [exact A3|reflexivity]]]]]].
  - apply Forall_app. split; [exact T0|]. apply Forall_app. split; [exact T1|]. constructor; [apply (req_t 5); lia|constructor].
  - eapply run_app; [exact E0|]. eapply run_app; [exact E1|]. rewrite run_cons, E2. reflexivity.
  - rewrite M2 by discriminate. exact A1.
  - change (sess (entity_of (next c1) (req 5))) with (next c1). congruence.
Qed.

(** ** C76: answers to a request *)

(** A context for which there is no connection, or which is released, ends without an answer. *)
Theorem C76_answered_refuted :
  (exists c, run ctx0 [IActReq 1 (req 5); IEstRej 0; IExpire 1 5] = Ok (c, [OEstReq 0 false 0 0 [49; 50] [] [] [0; 0; 0; 0; 0; 0]]) /\ slots c 1 5 = None) /\
  (exists c, run ctx0 [IActReq 1 (req 5); IRelease 0; IExpire 1 5] = Ok (c, [OEstReq 0 false 0 0 [49; 50] [] [] [0; 0; 0; 0; 0; 0]]) /\ slots c 1 5 = None) /\
  (exists c, run (after [IActReq 1 (req 5); IEstAcc 0 0 0 7 [0]; IUnit 0 acc; ISnAct 7 5]) [IRelease 0; IExpire 1 5] = Ok (c, []) /\ slots c 1 5 = None).
Proof. repeat split; eexists; split; vm_compute; reflexivity. Qed.

(** The general form: whatever the context, GMM's refusal ends a pending context, and a release any context, with nothing sent. *)
Theorem C76_silent c i n s :
  reached c -> slots c i n = Some s ->
  (st s = Pending -> exists c', run c [IEstRej (sess s); IExpire i (Z.of_nat n)] = Ok (c', []) /\ slots c' i n = None) /\
  (st s = Pending \/ st s = Active -> exists c', run c [IRelease (sess s); IExpire i (Z.of_nat n)] = Ok (c', []) /\ slots c' i n = None).
Proof.
  intros Hr Hs. destruct (reached_inv c Hr) as [N [HN Hc]]. split; intros Hst.
  - destruct (est_rej_exec 255 N c i n s Hc ltac:(lia) Hs Hst) as [c1 [E1 [S1 _]]].
    destruct (step_inv 255 N c _ _ _ _ Hc (I : typed (IEstRej (sess s))) (or_introl eq_refl) E1) as [N1 [_ [_ Hc1]]].
    destruct (free_exec 255 N1 c1 i n _ Hc1 S1 eq_refl) as [c2 [E2 [S2 _]]].
    exists c2. rewrite run_cons, E1, run_cons, E2. split; [reflexivity|exact S2].
  - destruct (release_exec 255 N c i n s Hc ltac:(lia) Hs Hst) as [c1 [E1 [S1 _]]].
    destruct (step_inv 255 N c _ _ _ _ Hc (I : typed (IRelease (sess s))) (or_introl eq_refl) E1) as [N1 [_ [_ Hc1]]].
    destruct (free_exec 255 N1 c1 i n _ Hc1 S1 eq_refl) as [c2 [E2 [S2 _]]].
    exists c2. rewrite run_cons, E1, run_cons, E2. split; [reflexivity|exact S2].
Qed.

(** ** C82: retransmissions *)

Definition est_of (c : ctx) (i : Z) (id : Z) : out :=
  let g := ident c i in OEstReq id (ptmsi g =? 0xffffffff) (ptmsi g) (psig g) (imsi g) (imei g) (imeisv g) (ra g).

(** With no answer at all: three more attempts to get a connection, then a rejection with cause 34, then the context is gone. *)
Theorem C82_retries_partial c i q :
  reached_ok c -> req_sound q -> slots c i (Z.to_nat (q_nsapi q)) = None ->
  exists c' e, run c (IActReq i q :: repeat (IExpire i (q_nsapi q)) 5) =
    Ok (c', [e; e; e; e; OActCnf i (q_nsapi q) (firstn (Z.to_nat (q_plen q)) (q_pco q)) (Rejected 34)]) /\
    slots c' i (Z.to_nat (q_nsapi q)) = None /\
    e = OEstReq (next c) (q_ptmsi q =? 0xffffffff) (q_ptmsi q) (q_sig q)
      (match q_imsi q with [] => imsi (ident c i) | l => l end) (match q_imei q with [] => imei (ident c i) | l => l end)
      (match q_imeisv q with [] => imeisv (ident c i) | l => l end) (q_rai q).
Proof.
  intros Hr Hq Hs. destruct (reached_ok_inv c Hr) as [N [HN Hc]]. pose proof Hq as (T & F & Hn & _).
  set (n := Z.to_nat (q_nsapi q)) in *. assert (Zn : q_nsapi q = Z.of_nat n) by (unfold n; lia).
  destruct (act_req_exec 253 N c Hc i q T F Hn Hs) as [c1 [E1 [S1 [G1 [X1 _]]]]]. fold n in S1.
  change (prim_act_req i q c) with (step c (IActReq i q)) in E1.
  destruct (step_inv 253 N c _ _ _ _ Hc (T : typed (IActReq i q)) (or_intror (conj eq_refl (conj F Hn))) E1) as [N1 [_ [_ Hc1]]].
  assert (Hx : forall M c0 c0' o z, cinv 253 M c0 -> step c0 (IExpire i (Z.of_nat n)) = Ok (c0', o, z) -> cinv 253 M c0').
  { intros M c0 c0' o z H0 E. destruct (step_inv 253 M c0 (IExpire i (Z.of_nat n)) c0' o z H0 I (or_intror (conj eq_refl I)) E) as [M' [_ [D H1]]].
    rewrite (D ltac:(discriminate)) in H1. exact H1. }
  destruct (t3380_exec 253 N1 c1 i n _ Hc1 S1 eq_refl ltac:(cbn; lia)) as [c2 [E2 [S2 [G2 _]]]]. pose proof (Hx _ _ _ _ _ Hc1 E2) as Hc2.
  destruct (t3380_exec 253 N1 c2 i n _ Hc2 S2 eq_refl ltac:(cbn; lia)) as [c3 [E3 [S3 [G3 _]]]]. pose proof (Hx _ _ _ _ _ Hc2 E3) as Hc3.
  destruct (t3380_exec 253 N1 c3 i n _ Hc3 S3 eq_refl ltac:(cbn; lia)) as [c4 [E4 [S4 [G4 _]]]]. pose proof (Hx _ _ _ _ _ Hc3 E4) as Hc4.
  destruct (t3380_last_exec 253 N1 c4 i n _ Hc4 ltac:(lia) S4 eq_refl eq_refl) as [c5 [s5 [E5 [[S5 _] St5]]]]. pose proof (Hx _ _ _ _ _ Hc4 E5) as Hc5.
  destruct (free_exec 253 N1 c5 i n _ Hc5 S5 St5) as [c6 [E6 [S6 _]]].
  exists c6. eexists. cbn [repeat]. rewrite Zn.
  split.
  - rewrite run_cons, E1, run_cons, E2, run_cons, E3, run_cons, E4, run_cons, E5, run_cons, E6. rewrite G3, G2, G1.
    cbn [run app]. unfold est_out. cbn [set_tries sess plen pco]. destruct (qos_read (next c) q T F) as [_ Ep].
    rewrite Ep. reflexivity.
  - split; [exact S6|]. reflexivity.
Qed.
(** 3GPP TS 24.008, 6.1.3.1.5, quoted beside the code: four retransmissions, given up on the fifth expiry. *)
Theorem C82_fifth_refuted :
  exists c o c' v, run ctx0 (IActReq 1 (req 5) :: repeat (IExpire 1 5) 3) = Ok (c, o) /\ step c (IExpire 1 5) = Ok (c', [OActCnf 1 5 [0] v], 0) /\ v = Rejected 34.
Proof. do 4 eexists. split; [vm_compute; reflexivity|]. split; vm_compute; reflexivity. Qed.

(** ** C77: what is reported follows from what was received *)

Definition accepted (o : out) : Prop := exists i n p a b c d e f g h j, o = OActCnf i n p (Accepted a b c d e f g h j).
Definition to_sndcp (o : out) : Prop := exists t n s p q, o = OSnAct t n s p q.
Lemma run_from P l : forall c c' o, run c l = Ok (c', o) -> (forall y, In y o -> P y -> exists l1 x l2 c1 o1 c2 o2 z, l = l1 ++ x :: l2 /\ run c l1 = Ok (c1, o1) /\ step c1 x = Ok (c2, o2, z) /\ In y o2 /\ out_of x y).
Proof.
  induction l as [|x l IH]; intros c c' o H y Hy HP.
  - injection H as <- <-. destruct Hy.
  - rewrite run_cons in H. destruct (step c x) as [[[c1 o1] z]| |] eqn:E; try discriminate.
    destruct (run c1 l) as [[c2 o2]| |] eqn:E2; try discriminate. injection H as <- <-. apply in_app_or in Hy. destruct Hy as [Hy|Hy].
    + exists [], x, l, c, [], c1, o1, z. split; [reflexivity|]. split; [reflexivity|]. split; [exact E|]. split; [exact Hy|].
      pose proof (step_emits c x) as G. rewrite E in G. exact (proj1 (Forall_forall _ _) G y Hy).
    + destruct (IH c1 c2 o2 E2 y Hy HP) as [l1 [x' [l2 [ca [oa [cb [ob [z' [A [B [C [D F]]]]]]]]]]]].
      exists (x :: l1), x', l2, ca, (o1 ++ oa), cb, ob, z'. subst l. split; [reflexivity|]. split; [rewrite run_cons, E, B; reflexivity|]. split; [exact C|]. split; [exact D|exact F].
Qed.
(** In any execution: SNDCP is asked to activate only on an ACTIVATE PDP CONTEXT ACCEPT; the user is told of success only
    on SNDCP's answer, or on a REJECT with cause 0. *)
Theorem C77_sndcp l c o y : run ctx0 l = Ok (c, o) -> In y o -> to_sndcp y -> exists s pdu, In (IUnit s pdu) l /\ nth 1 pdu 0 = 0x42.
Proof.
  intros H Hy [t [n [s [p [q ->]]]]]. destruct (run_from to_sndcp l _ _ _ H _ Hy ltac:(repeat eexists)) as [l1 [x [l2 [_ [_ [_ [_ [_ [-> [_ [_ [_ F]]]]]]]]]]]].
  destruct x; cbn [out_of is_est is_accepted is_deact is_unit] in F; try contradiction.
  - exists sess, pdu. split; [apply in_elt|]. destruct F as [[F _]|[F G]]; [exact F|]. destruct (nth 2 pdu 0 =? 0); contradiction.
  - destruct status; contradiction.
  - destruct F; contradiction.
Qed.
Theorem C77_accept_partial l c o y : run ctx0 l = Ok (c, o) -> In y o -> accepted y ->
  (exists t n, In (ISnAct t n) l) \/ (exists s pdu, In (IUnit s pdu) l /\ nth 1 pdu 0 = 0x43 /\ nth 2 pdu 0 = 0).
Proof.
  intros H Hy Ha. destruct (run_from accepted l _ _ _ H _ Hy Ha) as [l1 [x [l2 [_ [_ [_ [_ [_ [-> [_ [_ [_ F]]]]]]]]]]]].
  destruct Ha as [i [n [p [a [b [d [e [f [g [h [j [k ->]]]]]]]]]]]].
  destruct x; cbn [out_of is_est is_accepted is_deact is_unit] in F; try contradiction.
  - left. exists tlli, nsapi. apply in_elt.
  - right. exists sess, pdu. split; [apply in_elt|]. destruct F as [[_ F]|[F G]]; [contradiction|]. split; [exact F|].
    destruct (nth 2 pdu 0 =? 0) eqn:E; [lia|contradiction].
  - destruct status; contradiction.
  - destruct F; contradiction.
Qed.
(** So: if SNDCP answers only what it was asked, and no REJECT has cause 0, success means that the network accepted. *)
Theorem C77_network_partial l c o y :
  run ctx0 l = Ok (c, o) -> In y o -> accepted y ->
  (forall l1 t n l2, l = l1 ++ ISnAct t n :: l2 -> exists c1 o1 z, run ctx0 l1 = Ok (c1, o1) /\ In z o1 /\ to_sndcp z) ->
  (forall s pdu, In (IUnit s pdu) l -> nth 1 pdu 0 = 0x43 -> nth 2 pdu 0 <> 0) ->
  exists s pdu, In (IUnit s pdu) l /\ nth 1 pdu 0 = 0x42.
Proof.
  intros H Hy Ha Henv Hno. destruct (C77_accept_partial l c o y H Hy Ha) as [[t [n Hin]]|[s [pdu [A [B C]]]]]; [|exfalso; exact (Hno s pdu A B C)].
  apply in_split in Hin. destruct Hin as [l1 [l2 ->]]. destruct (Henv l1 t n l2 eq_refl) as [c1 [o1 [z [A [B C]]]]].
  destruct (C77_sndcp l1 c1 o1 z A B C) as [s [pdu [D E]]]. exists s, pdu. split; [apply in_or_app; left; exact D|exact E].
Qed.
(** A REJECT with cause 0 is confirmed as a success although the context is gone; so is SNDCP's word with no ACCEPT. *)
Theorem C77_accept_refuted :
  (exists c v, run ctx0 [IActReq 1 (req 5); IEstAcc 0 0 0 7 [0]; IUnit 0 [0x8a; 0x43; 0]; IExpire 1 5] = Ok (c, v) /\
     (exists y, In y v /\ accepted y) /\ slots c 1 5 = None) /\
  (exists c v s, run ctx0 [IActReq 1 (req 5); ISnAct 0 5] = Ok (c, v) /\ (exists y, In y v /\ accepted y) /\ slots c 1 5 = Some s /\ st s = Active).
Proof.
  split.
  - do 2 eexists. split; [vm_compute; reflexivity|]. split; [|reflexivity]. eexists. split; [right; right; left; reflexivity|]. repeat eexists.
  - do 3 eexists. split; [vm_compute; reflexivity|]. split; [|split; reflexivity]. eexists. split; [right; left; reflexivity|]. repeat eexists.
Qed.

(** ** C80: no assertion fails and nothing outside an object is touched *)

Theorem C80_no_abort_partial l : Forall (fun x => typed x /\ input_ok x) l -> exists c o, run ctx0 l = Ok (c, o).
Proof. intros H. destruct (run_inv_ok l 0 ctx0 (cinv0 253) H) as [c [o [N [E _]]]]. exists c, o. exact E. Qed.

Definition with_lens (ql pl : Z) : actreq := mkActreq 5 3 0x21 None None (repeat 0 22) ql [97] (repeat 0 253) pl 0 0 [49] [] [] [0; 0; 0; 0; 0; 0].
Theorem C80_abort_refuted :
  (* a request with NSAPI 16 for a new mobile; with NSAPI 4 for a known one *)
  run ctx0 [IActReq 1 (req 16)] = UB /\ run ctx0 [IActReq 1 (req 5); IActReq 1 (req 4)] = UB /\
  (* 23 octets of QoS, 254 of options *)
  run ctx0 [IActReq 1 (with_lens 23 0)] = UB /\ run ctx0 [IActReq 1 (with_lens 1 254)] = UB /\
  (* from the network: 254 octets of options; a PDP address of one octet at the end; type 0x8d with 16 octets *)
  run ctx0 [IActReq 1 (req 5); IUnit 0 ([0x8a; 0x42; 3; 1; 0; 4; 0x27; 254] ++ repeat 0 254); ISnAct 0 5] = UB /\
  run ctx0 [IActReq 1 (req 5); IUnit 0 ([0x8a; 0x43; 26; 0x27; 254] ++ repeat 0 254)] = UB /\
  run ctx0 [IActReq 1 (req 5); IUnit 0 [0x8a; 0x42; 3; 1; 0; 4; 0x2b; 1; 1]] = UB /\
  run ctx0 [IActReq 1 (req 5); IUnit 0 ([0x8a; 0x42; 3; 1; 0; 4; 0x2b; 18; 1; 0x8d] ++ repeat 7 16)] = UB /\
  (* SNDCP's answer with NSAPI 3; a primitive that is not supported *)
  run ctx0 [IActReq 1 (req 5); ISnAct 0 3] = UB /\ run ctx0 [ISmregOther] = UB /\ run ctx0 [ISnOther] = UB.
Proof. repeat split; vm_compute; reflexivity. Qed.

(** ** C86: transaction identifiers *)

(** Two contexts of one mobile ask with one transaction identifier; its flag says the network began the transaction. *)
Theorem C86_ti_refuted :
  exists c p1 p2 e1 e2, run ctx0 [IActReq 1 (req 5); IEstAcc 0 0 0 7 [0]; IActReq 1 (req 6); IEstAcc 1 0 0 7 [0]] = Ok (c, [e1; OUnitReq 1 p1; e2; OUnitReq 1 p2]) /\
    nth 0 p1 0 / 16 = 8 /\ nth 0 p2 0 / 16 = 8 /\ nth 2 p1 0 = 5 /\ nth 2 p2 0 = 6.
Proof. do 5 eexists. split; [vm_compute; reflexivity|]. repeat split; reflexivity. Qed.

Print Assumptions C74_sessions_refuted.
Print Assumptions C76_answered_refuted.
Print Assumptions C76_silent.
Print Assumptions C82_retries_partial.
Print Assumptions C82_fifth_refuted.
Print Assumptions C77_sndcp.
Print Assumptions C77_accept_partial.
Print Assumptions C77_network_partial.
Print Assumptions C77_accept_refuted.
Print Assumptions C80_no_abort_partial.
Print Assumptions C80_abort_refuted.
Print Assumptions C86_ti_refuted.
