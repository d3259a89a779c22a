(** * Properties of session management: parameters of an answer, deactivation, identities, the way through GMM. *)
From Verif.Lib Require Import Base Outcome.
From Verif.Sm Require Import SmModel SmProofs SmProofs2 SmProofs3 SmExec SmRun SmDemo SmEmits SmAccept SmProperties SmProperties2.

(** ** C78: the parameters of an ACTIVATE PDP CONTEXT ACCEPT *)

(** A well-formed ACCEPT: [es] are its optional elements. *)
Definition accept_ok (sap : Z) (qs : list Z) (pr : Z) (opts : list Z) (es : list (Z * list Z)) : Prop :=
  bytes (accept_pdu 0x8a sap qs pr opts) /\ zlen qs <= 22 /\ elements opts es /\
  (forall v, el_find 0x2b es = Some v -> addr_read v <> None) /\ (forall v, el_find 0x27 es = Some v -> zlen v <= 253).

(** SNDCP is told the LLC SAPI, the radio priority and the QoS of the ACCEPT, if the QoS is as long as the one asked for. *)
Theorem C78_sndcp_partial c i n s h sap qs pr opts es :
  reached_ok c -> slots c i n = Some s -> st s = Pending -> accept_ok sap qs pr opts es -> 0 <= h < 256 -> zlen qs = qlen s ->
  exists c' s', step c (IUnit (sess s) (accept_pdu h sap qs pr opts)) = Ok (c', [OSnAct (tlli (ident c i)) (Z.of_nat n) sap pr qs], 0) /\
    moved c c' i n (ident c i) (Some s') /\ st s' = Pending /\
    prio s' = pr /\ slice 0 (Z.to_nat (qlen s')) (qos s') = qs /\
    (match el_find 0x27 es with Some v => slice 0 (Z.to_nat (plen s')) (pco s') = v | None => pco s' = pco s /\ plen s' = plen s end) /\
    (match el_find 0x2b es with Some v => addr_read v = Some (atype s', v4 s', v6 s') | None => atype s' = atype s /\ v4 s' = v4 s /\ v6 s' = v6 s end).
Proof.
  intros Hr Hs Hst (Hb & Hq & He & Ha & Hp) Hh Hl. destruct (reached_ok_inv c Hr) as [N [HN Hc]].
  destruct (slots_ok _ _ _ _ _ _ Hc Hs) as [Hok [Hns _]].
  assert (Hb' : bytes (accept_pdu h sap qs pr opts)).
  { unfold accept_pdu, bytes in *. pose proof (Forall_inv_tail Hb) as T. constructor; [exact Hh|exact T]. }
  pose proof (ack_exec i h sap qs pr opts es (ident c i) s Hb' Hq He Ha Hp Hok Hst) as E.
  destruct (on_sess_exec 253 N c Hc i n s (fun m => sm_rx m (accept_pdu h sap qs pr opts)) (- EINVAL) _ _ _ _ ltac:(lia) Hs E) as [c' [E' M]].
  set (s' := accept_set sap qs pr es s) in *.
  assert (F : nsapi s' = nsapi s /\ sapi s' = sap /\ prio s' = pr /\ qlen s' = qlen s /\ qos s' = overlay qs (qos s) /\ st s' = st s).
  { unfold s', accept_set, pco_set, addr_set. destruct (el_find 0x2b es) as [v|]; [destruct (addr_read v) as [[[t a4] a6]|]|]; destruct (el_find 0x27 es); repeat split; reflexivity. }
  destruct F as [F1 [F2 [F3 [F4 [F5 F6]]]]].
  assert (Q : slice 0 (Z.to_nat (qlen s')) (qos s') = qs).
  { rewrite F4, F5, <- Hl. unfold slice, overlay. rewrite skipn_O. apply firstn_app_exact. unfold zlen. lia. }
  exists c', s'. split; [|split; [exact M|split; [congruence|split; [exact F3|split; [exact Q|]]]]].
  - cbn [step]. rewrite E'. unfold snact_out. rewrite Q, F1, F2, F3, Hns. reflexivity.
  - split.
    + unfold s', accept_set, pco_set. destruct (el_find 0x27 es) as [v|].
      * cbn [set_pco set_plen pco plen]. unfold slice, overlay. rewrite skipn_O. apply firstn_app_exact. unfold zlen. lia.
      * unfold addr_set. destruct (el_find 0x2b es) as [v|]; [destruct (addr_read v) as [[[t a4] a6]|]|]; split; reflexivity.
    + unfold s', accept_set, addr_set. destruct (el_find 0x2b es) as [v|] eqn:E2.
      * specialize (Ha v eq_refl). destruct (addr_read v) as [[[t a4] a6]|]; [|contradiction]. unfold pco_set. destruct (el_find 0x27 es); reflexivity.
      * unfold pco_set. destruct (el_find 0x27 es); repeat split; reflexivity.
Qed.
Lemma sn_act_exec N c i n s :
  cinv 253 N c -> slots c i n = Some s -> st s = Pending -> (5 <= n)%nat ->
  (forall m, In m (mss c) -> tlli (gid m) = tlli (ident c i) -> mid m = i) ->
  exists c' s', step c (ISnAct (tlli (ident c i)) (Z.of_nat n)) =
    Ok (c', [OActCnf i (Z.of_nat n) (slice 0 (Z.to_nat (plen s)) (pco s))
               (Accepted (atype s) (v4 s) (v6 s) (prio s) (slice 0 (Z.to_nat (qlen s)) (qos s))
                  (ptmsi (ident c i)) (psig (ident c i)) (tlli (ident c i)) (ra (ident c i)))], 0) /\
    moved c c' i n (ident c i) (Some s') /\ st s' = Active /\ fon s' = false.
Proof.
  intros Hc Hs Hst Hn Hu. destruct (slots_ok _ _ _ _ _ _ Hc Hs) as [Hok [Hns _]].
  destruct (on_nsapi_exec 253 N c Hc (tlli (ident c i)) i n s (fun m => dispatch m EvNsapi) (- ENOENT) (ident c i)
    (set_fT 0 (set_fon false (set_st Active s))) [cnf_out i 0 (ident c i) (set_fT 0 (set_fon false (set_st Active s)))] 0 Hs Hn eq_refl Hu) as [c' [E M]].
  { apply wp_eq. unfold dispatch. wpstep. wpstep. cbn [snd]. rewrite Hst. cbn [permitted action]. wpstep. wpstep.
    apply wp_chg_active; [exact Hst|].
    apply (wp_act_cnf False i 0 253); [destruct Hok; constructor; assumption|right; lia|]. wpstep. cbn [app]. repeat split. }
  exists c', (set_fT 0 (set_fon false (set_st Active s))). split; [|split; [exact M|split; reflexivity]].
  cbn [step]. rewrite E. unfold cnf_out. cbn [set_fT set_fon set_st nsapi plen pco atype v4 v6 prio qlen qos]. rewrite Hns. reflexivity.
Qed.

(** SNDCP's answer: the user is told what the entity holds, and the context is active. *)
Theorem C78_user c i n s :
  reached_ok c -> slots c i n = Some s -> st s = Pending -> (5 <= n)%nat ->
  (forall m, In m (mss c) -> tlli (gid m) = tlli (ident c i) -> mid m = i) ->
  exists c' s', step c (ISnAct (tlli (ident c i)) (Z.of_nat n)) =
    Ok (c', [OActCnf i (Z.of_nat n) (slice 0 (Z.to_nat (plen s)) (pco s))
               (Accepted (atype s) (v4 s) (v6 s) (prio s) (slice 0 (Z.to_nat (qlen s)) (qos s))
                  (ptmsi (ident c i)) (psig (ident c i)) (tlli (ident c i)) (ra (ident c i)))], 0) /\
    moved c c' i n (ident c i) (Some s') /\ st s' = Active /\ fon s' = false.
Proof. intros Hr. destruct (reached_ok_inv c Hr) as [N [_ Hc]]. exact (sn_act_exec N c i n s Hc). Qed.

(** If the lengths differ, SNDCP and the user get neither the QoS granted nor the one asked for. *)
Definition req_qos (q : list Z) : actreq := mkActreq 5 3 0x21 None None (q ++ repeat 0 (22 - length q)) (zlen q) [97] (repeat 0 253) 0 0 0 [49] [] [] [0; 0; 0; 0; 0; 0].
Theorem C78_qos_refuted :
  (* one octet asked for, four granted: one is passed on *)
  (exists c e, run ctx0 [IActReq 1 (req_qos [0]); IUnit 0 (accept_pdu 0x8a 3 [1; 2; 3; 4] 4 [])] = Ok (c, [e; OSnAct 0 5 3 4 [1]])) /\
  (* four asked for, two granted: a mixture *)
  (exists c e, run ctx0 [IActReq 1 (req_qos [9; 8; 7; 6]); IUnit 0 (accept_pdu 0x8a 3 [1; 2] 4 [])] = Ok (c, [e; OSnAct 0 5 3 4 [1; 2; 7; 6]])) /\
  (* none of the network's options: the user is given their own *)
  (exists c e1 e2 v, run ctx0 [IActReq 1 (with_lens 1 3); IUnit 0 (accept_pdu 0x8a 3 [1] 4 []); ISnAct 0 5] = Ok (c, [e1; e2; OActCnf 1 5 [0; 0; 0] v])).
Proof.
  split; [do 2 eexists; vm_compute; reflexivity|]. split; [do 2 eexists; vm_compute; reflexivity|]. do 4 eexists; vm_compute; reflexivity.
Qed.

(** ** C79: an address that is granted as asked for *)

Theorem C79_echo_partial q : req_sound q ->
  (q_atype q = 0x8d -> given (q_v6 q) <> [] -> given (q_v4 q) <> []) ->
  exists a4 a6, addr_read (1 :: q_atype q :: addr_of q) = Some (q_atype q, a4, a6) /\
    (forall l, a4 = Some l -> l = given (q_v4 q)) /\ (forall l, a6 = Some l -> l = given (q_v6 q)) /\
    (q_atype q <> 0x57 -> given (q_v4 q) <> [] -> a4 = Some (given (q_v4 q))) /\ (q_atype q <> 0x21 -> given (q_v6 q) <> [] -> a6 = Some (given (q_v6 q))).
Proof.
  intros (T & F & Hn & Hs & Ht & H4 & H6 & Hap) Hv.
  assert (G4 : given (q_v4 q) = [] \/ zlen (given (q_v4 q)) = 4).
  { unfold given. destruct (q_v4 q) as [l|]; [|left; reflexivity]. destruct (forallb _ l); [left; reflexivity|right; apply H4; reflexivity]. }
  assert (G6 : given (q_v6 q) = [] \/ zlen (given (q_v6 q)) = 16).
  { unfold given. destruct (q_v6 q) as [l|]; [|left; reflexivity]. destruct (forallb _ l); [left; reflexivity|right; apply H6; reflexivity]. }
  unfold addr_of. set (x4 := given (q_v4 q)) in *. set (x6 := given (q_v6 q)) in *. clearbody x4 x6. cbn [addr_read]. change (1 mod 16 =? 1) with true. cbv iota.
  destruct Ht as [E|[E|[E|[]]]]; rewrite <- E in *; cbn [Z.eqb Pos.eqb].
  - destruct G4 as [->|G4].
    + exists None, None. repeat split; try discriminate; intros; contradiction.
    + replace (zlen x4 =? 0) with false by lia. replace (zlen x4 =? 4) with true by lia. exists (Some x4), None.
      split; [reflexivity|]. split; [intros l [= <-]; reflexivity|]. split; [discriminate|]. split; [reflexivity|]. intros X. lia.
  - destruct G6 as [->|G6].
    + exists None, None. repeat split; try discriminate; intros; contradiction.
    + replace (zlen x6 =? 0) with false by lia. replace (zlen x6 =? 16) with true by lia. exists None, (Some x6).
      split; [reflexivity|]. split; [discriminate|]. split; [intros l [= <-]; reflexivity|]. split; [intros X; lia|]. reflexivity.
  - destruct G4 as [->|G4]; destruct G6 as [->|G6]; cbn [app].
    + exists None, None. repeat split; try discriminate; intros; contradiction.
    + exfalso. apply (Hv eq_refl); [|reflexivity]. intros ->. cbn in G6. lia.
    + rewrite app_nil_r. replace (zlen x4 =? 0) with false by lia. replace (zlen x4 =? 4) with true by lia. exists (Some x4), None.
      split; [reflexivity|]. split; [intros l [= <-]; reflexivity|]. split; [discriminate|]. split; [reflexivity|]. intros; contradiction.
    + rewrite zlen_app, G4, G6. change (4 + 16 =? 0) with false. change (4 + 16 =? 4) with false. change (4 + 16 =? 20) with true. cbv iota.
      rewrite firstn_app_exact, skipn_app_exact by (unfold zlen in G4; lia). exists (Some x4), (Some x6).
      split; [reflexivity|]. split; [intros l [= <-]; reflexivity|]. split; [intros l [= <-]; reflexivity|]. split; reflexivity.
Qed.
(** IPv4v6 with an IPv6 address alone, granted as asked for: another address is reported, made of the octets that follow. *)
Definition v6only : actreq := mkActreq 5 3 0x8d None (Some (repeat 7 16)) (repeat 0 22) 1 [97] (repeat 0 253) 0 0 0 [49] [] [] [0; 0; 0; 0; 0; 0].
Theorem C79_echo_refuted :
  exists c e p1 p2 e2 v, run ctx0 [IActReq 1 v6only; IEstAcc 0 0 0 7 [0]; IUnit 0 (accept_pdu 0x8a 3 [0] 4 ((0x2b :: 18 :: 1 :: 0x8d :: repeat 7 16) ++ [0x27; 2; 9; 9])); ISnAct 7 5]
    = Ok (c, [e; OUnitReq 1 p1; e2; OActCnf 1 5 p2 v]) /\
    (exists r, read_act_req p1 = Some r /\ r_type r = 0x8d /\ r_addr r = repeat 7 16) /\
    (exists pr q a b d f, v = Accepted 0x8d None (Some (repeat 7 12 ++ [0x27; 2; 9; 9])) pr q a b d f).
Proof. do 6 eexists. split; [vm_compute; reflexivity|]. split; [eexists; split; [vm_compute; reflexivity|split; reflexivity]|]. do 6 eexists. reflexivity. Qed.

(** ** C81: deactivation by the network's status of the contexts *)

(** Bit [n] of the PDP context status (3GPP TS 24.008, 10.5.7.1): the first octet has NSAPIs 0 to 7. *)
Definition status_bit (status : list Z) (n : nat) : bool :=
  if (n <? 8)%nat then Z.testbit (nth 0 status 0) (Z.of_nat n) else Z.testbit (nth 1 status 0) (Z.of_nat n - 8).
Definition live (c : ctx) (i : Z) (n : nat) : bool := match slots c i n with Some _ => true | None => false end.

Lemma status_outs_spec status t l : forall k, (forall j s, nth j l None = Some s -> nsapi s = Z.of_nat (k + j)) ->
  status_outs status t l = map (fun n => OSnDeact t (Z.of_nat n))
    (filter (fun n => (match nth (n - k) l None with Some _ => true | None => false end) && negb (status_bit status n)) (seq k (length l))).
Proof.
  induction l as [|o l IH]; intros k H; [reflexivity|]. cbn [length seq status_outs filter].
  assert (IH' := IH (S k) ltac:(intros j s Hj; rewrite (H (S j) s Hj); lia)).
  assert (Ef : filter (fun n => (match nth (n - k) (o :: l) None with Some _ => true | None => false end) && negb (status_bit status n)) (seq (S k) (length l))
             = filter (fun n => (match nth (n - S k) l None with Some _ => true | None => false end) && negb (status_bit status n)) (seq (S k) (length l))).
  { apply filter_ext_in. intros n Hn. apply in_seq in Hn. replace (n - k)%nat with (S (n - S k)) by lia. reflexivity. }
  rewrite Ef. replace (k - k)%nat with 0%nat by lia. cbn [nth].
  destruct o as [s|]; cbn [andb]; [|rewrite IH'; reflexivity].
  assert (Eb : inactive_bit status (nsapi s) = negb (status_bit status k)).
  { rewrite (H 0%nat s eq_refl), Nat.add_0_r. unfold inactive_bit, status_bit. destruct (k <? 8)%nat eqn:E; [replace (Z.of_nat k <? 8) with true|replace (Z.of_nat k <? 8) with false]; try reflexivity; [apply Nat.ltb_lt in E|apply Nat.ltb_ge in E]; lia. }
  rewrite Eb, IH', (H 0%nat s eq_refl), Nat.add_0_r. destruct (status_bit status k); reflexivity.
Qed.
Theorem C81_status c i n s t sig l r status :
  reached c -> slots c i n = Some s ->
  exists c', step c (IModify (sess s) t sig l r (Some status)) =
    Ok (c', map (fun k => OSnDeact l (Z.of_nat k)) (filter (fun k => live c i k && negb (status_bit status k)) (seq 0 16)), 0) /\
    (forall j k, slots c' j k = slots c j k).
Proof.
  intros Hr Hs. destruct (reached_inv c Hr) as [N [HN Hc]]. cbn [step].
  destruct (slots_in _ _ _ _ Hs) as [m0 [Hm0 [Hi0 Hn0]]].
  assert (Hh : has_sess (sess s) m0 = true).
  { unfold has_sess. destruct (slot_of (sess s) 0 (pdp m0)) as [k|] eqn:E; [reflexivity|]. exfalso. exact (slot_of_none _ _ _ E n s Hn0 eq_refl). }
  destruct (first_split _ _ _ Hm0 Hh) as [l1 [m [l2 [E [A B]]]]].
  assert (Hmi : mid m = i).
  { unfold has_sess in A. destruct (slot_of (sess s) 0 (pdp m)) as [k|] eqn:Ek; [|discriminate].
    destruct (slot_of_spec _ _ _ _ Ek) as [s1 [Hs1 [Hse Hk]]]. 
    assert (Hs1' : slots c (mid m) (Z.to_nat (k - 0)) = Some s1) by (rewrite slots_mem; [exact Hs1|apply Hc|rewrite E; apply in_elt]).
    exact (proj1 (ci_uniq _ _ _ Hc ltac:(lia) _ _ _ _ _ _ Hs1' Hs Hse)). }
  unfold modify_ind. rewrite E, (on_ms_at _ _ _ _ _ A B). eexists. split.
  - cbv zeta. f_equal. f_equal. f_equal. assert (Hms : ms_ok 255 m) by (apply (proj1 (Forall_forall _ _) (ci_ms _ _ _ Hc)); rewrite E; apply in_elt).
    rewrite (status_outs_spec status l (pdp m) 0) by (intros j s1 Hj; exact (proj1 (mo_sme _ _ Hms j s1 Hj))).
    rewrite (mo_len _ _ Hms). f_equal. apply filter_ext. intros k. rewrite Nat.sub_0_r. f_equal. unfold live. rewrite <- Hmi.
    rewrite slots_mem; [reflexivity|apply Hc|rewrite E; apply in_elt].
  - set (g' := mkIds _ _ _ _ _ _ _). exact (proj2 (same_slots 255 N c l1 m l2 g' Hc E)).
Qed.
(** SNDCP's answer: the user is told, and the context ends.  Without options the primitive says cause 39, no tear-down. *)
Theorem C81_deactivated_partial c i n s :
  reached_ok c -> slots c i n = Some s -> st s = Pending \/ st s = Active -> (5 <= n)%nat -> plen s = 0 ->
  (forall m, In m (mss c) -> tlli (gid m) = tlli (ident c i) -> mid m = i) ->
  exists c' s', step c (ISnDeact (tlli (ident c i)) (Z.of_nat n)) = Ok (c', [ODeactInd i (Z.of_nat n) 0 39 []], 0) /\
    moved c c' i n (ident c i) (Some s') /\ st s' = Inactive.
Proof.
  intros Hr Hs Hst Hn Hpl Hu. destruct (reached_ok_inv c Hr) as [N [HN Hc]]. destruct (slots_ok _ _ _ _ _ _ Hc Hs) as [Hok [Hns _]].
  destruct (on_nsapi_exec 253 N c Hc (tlli (ident c i)) i n s sn_deact_rsp (- ENOENT) (ident c i)
    (set_fT 0 (set_fon true (set_st Inactive s))) [ODeactInd i (nsapi s) 0 39 []] 0 Hs Hn eq_refl Hu) as [c' [E M]].
  { apply wp_eq. unfold sn_deact_rsp, submit_deact_ind. do 3 wpstep. cbn [snd]. rewrite Hpl. change (PCO_MAX <? 0) with false. cbv iota.
    wpstep. pose proof (ok_pco _ _ Hok). apply wp_rdn; [right; lia|]. intros _ _ _. wpstep. change (slice (Z.to_nat 0) (Z.to_nat 0) (pco s)) with (@nil Z).
    unfold dispatch. wpstep. wpstep. cbn [snd]. destruct Hst as [Hst|Hst]; rewrite Hst; cbn [permitted action];
    (wpstep; apply wp_chg_inactive; [congruence|]; wpstep; cbn [app]; split; [reflexivity|split; reflexivity]). }
  exists c', (set_fT 0 (set_fon true (set_st Inactive s))). split; [|split; [exact M|reflexivity]].
  cbn [step]. rewrite E, Hns. reflexivity.
Qed.
(** With options the first two of them stand where tear-down and cause should; the rest is shifted; and SNDCP's answer is passed on as
    often as it comes. *)
Definition with_pco (p : list Z) : actreq := mkActreq 5 3 0x21 None None (repeat 0 22) 1 [97] (p ++ repeat 0 (253 - length p)) (zlen p) 0 0 [49] [] [] [0; 0; 0; 0; 0; 0].
Theorem C81_deactivated_refuted :
  (exists c e, run ctx0 [IActReq 1 (with_pco [0x80; 7; 1; 2]); ISnDeact 0 5] = Ok (c, [e; ODeactInd 1 5 0x80 7 [1; 2; 0; 0]])) /\
  (exists c e d, run ctx0 [IActReq 1 (with_pco []); ISnDeact 0 5; ISnDeact 0 5] = Ok (c, [e; d; d]) /\ d = ODeactInd 1 5 0 39 []).
Proof. split; [do 2 eexists; vm_compute; reflexivity|]. do 3 eexists. split; [vm_compute; reflexivity|reflexivity]. Qed.

(** ** C83: an answer that is refused *)

Theorem C83_refused_partial c i n s pdu :
  reached_ok c -> slots c i n = Some s -> bytes pdu -> msg_ok pdu ->
  exists c' o z s', step c (IUnit (sess s) pdu) = Ok (c', o, z) /\ slots c' i n = Some s' /\ sess s' = sess s /\ nsapi s' = nsapi s /\
    (forall j k, (j, k) <> (i, n) -> slots c' j k = slots c j k) /\
    (z < 0 -> o = [] /\ st s' = st s /\ fT s' = fT s /\ fon s' = fon s /\ tries s' = tries s).
Proof.
  intros Hr Hs Hb Hm. destruct (reached_ok_inv c Hr) as [N [HN Hc]]. destruct (slots_ok _ _ _ _ _ _ Hc Hs) as [Hok _].
  pose proof (wp_sm_rx False 253 i pdu (ident c i) s Hb (or_intror (conj eq_refl Hm)) Hok) as W. unfold wp in W.
  destruct (sm_rx i pdu (ident c i, s)) as [[[[g' s'] o] z]| |] eqn:E; try contradiction. unfold rxpost in W. cbn [fst snd] in W.
  destruct W as [Hg [Hok' [K Hz]]].
  destruct (on_sess_exec 253 N c Hc i n s (fun m => sm_rx m pdu) (- EINVAL) _ _ _ _ ltac:(lia) Hs E) as [c' [E' [M1 [_ [_ M2]]]]].
  exists c', o, z, s'. split; [exact E'|]. split; [exact M1|]. split; [apply K|]. split; [apply K|]. split; [exact M2|].
  intros Hlt. destruct (Hz Hlt) as [Ho Hsame]. split; [exact Ho|]. destruct Hsame. repeat split; assumption.
Qed.

Print Assumptions C78_sndcp_partial.
Print Assumptions C78_user.
Print Assumptions C78_qos_refuted.
Print Assumptions C79_echo_partial.
Print Assumptions C79_echo_refuted.
Print Assumptions C81_status.
Print Assumptions C81_deactivated_partial.
Print Assumptions C81_deactivated_refuted.
Print Assumptions C83_refused_partial.
