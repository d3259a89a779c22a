(** * Properties of session management: the way through GMM, SNDCP's part, reuse of an NSAPI, transaction identifiers. *)
From Verif.Lib Require Import Base Outcome.
From Verif.Gmm Require GmmModel GmmExec GmmDemo GmmProperties GmmProperties3.
From Verif.Sndcp Require SndcpModel SndcpSpec SndcpTable SndcpProofs SndcpLift SndcpProperties.
From Verif.Sm Require Import SmModel SmProofs SmProofs2 SmProofs3 SmExec SmRun SmDemo SmEmits SmAccept SmIds SmProperties SmProperties2 SmProperties3.

(** ** C83: an answer that is refused *)

(** It is refused with -22 because of an element nobody knows, yet the SAPI, the QoS and the priority in it stay: the request that is
    sent again asks for SAPI 9 and not for the user's SAPI 3. *)
Theorem C83_refused_refuted : exists c1 c2 c3 c4 e pdu,
  step (after [IActReq 1 (req 5)]) (IUnit 0 (accept_pdu 0x8a 9 [1] 4 [0x99; 0x01])) = Ok (c1, [], -22) /\
  step c1 (IExpire 1 5) = Ok (c2, [e], 0) /\ step c2 (IEstAcc 0 1 2 3 [0; 0; 0; 0; 0; 0]) = Ok (c3, [OUnitReq 1 pdu], 0) /\ nth 3 pdu 0 = 9 /\
  step (after [IActReq 1 (req 5)]) (IExpire 1 5) = Ok (c4, [e], 0).
Proof. do 6 eexists. split; [vm_compute; reflexivity|]. split; [vm_compute; reflexivity|]. split; [vm_compute; reflexivity|]. split; [reflexivity|]. vm_compute. reflexivity. Qed.

(** ** C73: the request on its way through GMM *)

(** GMM has granted the connection of session [sess s] to the mobile with the entity [g], but SM names its own number of the mobile. *)
Theorem C73_lost c i n s t sig tl r E d :
  reached c -> slots c i n = Some s -> st s = Pending ->
  (forall x, In x (GmmModel.gmmes d) -> GmmModel.sess x <> i) ->
  exists c' pdu, step c (IEstAcc (sess s) t sig tl r) = Ok (c', [OUnitReq i pdu], 0) /\
    GmmModel.step E d (GmmModel.ESmUnit i pdu) = Ok (d, [], -2).
Proof.
  intros Hr Hs Hst Hd. destruct (reached_inv c Hr) as [N [HN Hc]].
  destruct (est_acc_exec 255 N c i n s t sig tl r Hc ltac:(lia) ltac:(lia) Hs Hst) as [c' [E1 _]].
  exists c'. eexists. split; [exact E1|]. apply GmmProperties3.C71_unknown. exact Hd.
Qed.
(** It is sent, under the TLLI of the mobile whose session has the number SM gave to the mobile: the right one if the two
    numbers are the same. *)
Theorem C73_sent_partial c i n s t sig tl r E d pre g post :
  reached c -> slots c i n = Some s -> st s = Pending -> sess s = i ->
  GmmExec.cb_ok E -> GmmModel.gmmes d = pre ++ g :: post -> GmmModel.sess g = sess s -> (forall x, In x pre -> GmmModel.sess x <> sess s) ->
  exists c' pdu z, step c (IEstAcc (sess s) t sig tl r) = Ok (c', [OUnitReq i pdu], 0) /\
    GmmModel.step E d (GmmModel.ESmUnit i pdu) = Ok (GmmModel.mkCtx (GmmModel.enabled d) (pre ++ g :: post), [GmmModel.OUnit (GmmModel.tlli g) pdu], z) /\ 0 <= z.
Proof.
  intros Hr Hs Hst Hi HE Hd Hg Hp. destruct (reached_inv c Hr) as [N [HN Hc]].
  destruct (est_acc_exec 255 N c i n s t sig tl r Hc ltac:(lia) ltac:(lia) Hs Hst) as [c' [E1 _]].
  destruct (GmmProperties3.C71_down E d pre g post i (act_pdu s) HE Hd) as [z [E2 Hz]]; [congruence|intros x Hx; rewrite <- Hi; apply Hp; exact Hx|].
  exists c', (act_pdu s), z. split; [exact E1|]. split; [exact E2|exact Hz].
Qed.
(** A mobile that is registered asks for the first context: GMM grants the connection and then drops the request.  The request of
    a mobile with number 1 goes out under the TLLI of whoever has session 1. *)
Definition est_req (t : Z) : GmmModel.attreq := GmmModel.mkAttreq 1 false t 0 [49; 50] [] [] [0; 0; 0; 0; 0; 0].
Definition act_as (t : Z) : actreq := mkActreq 5 3 0x21 None None (repeat 0 22) 3 [97; 112; 110] (repeat 0 253) 1 t 0 [49; 50] [] [] [0; 0; 0; 0; 0; 0].
Definition with_nsapi6 (t : Z) : actreq := mkActreq 6 3 0x21 None None (repeat 0 22) 3 [97; 112; 110] (repeat 0 253) 1 t 0 [49; 50] [] [] [0; 0; 0; 0; 0; 0].
Theorem C73_refuted :
  let up := GmmProperties.after GmmProperties.registered in
  exists c1 d1 c2 pdu,
    step ctx0 (IActReq 1 (act_as 0xea711b41)) = Ok (c1, [OEstReq 0 false 0xea711b41 0 [49; 50] [] [] [0; 0; 0; 0; 0; 0]], 0) /\
    GmmModel.step GmmDemo.demo up (GmmModel.EEstablish 0 (est_req 0xea711b41) []) =
      Ok (d1, [GmmModel.OEstAcc 0 0xea711b41 0 0xea711b41 [0x32; 0xf4; 0x07; 0x00; 0x05; 0x00]], 0) /\
    step c1 (IEstAcc 0 0xea711b41 0 0xea711b41 [0x32; 0xf4; 0x07; 0x00; 0x05; 0x00]) = Ok (c2, [OUnitReq 1 pdu], 0) /\
    GmmModel.step GmmDemo.demo d1 (GmmModel.ESmUnit 1 pdu) = Ok (d1, [], -2).
Proof. cbv zeta. do 4 eexists. split; [vm_compute; reflexivity|]. split; [vm_compute; reflexivity|]. split; [vm_compute; reflexivity|vm_compute; reflexivity]. Qed.

(** ** C84: SNDCP's part *)

(** sndcp_prim.c:667-677 with qos.c:91-117 and the layout of osmo_gprs_sm_qos_profile: what SNDCP makes of the QoS profile (which
    lies in an array of 22 octets); only its length can be wrong. *)
Definition sn_qos (q : list Z) : option (Z * Z) :=
  if existsb (Z.eqb (zlen q)) [3; 11; 12; 14; 16; 18; 20] then Some (nth 1 q 0 / 16, nth 0 q 0 mod 8) else None.
(** What SM gives SNDCP, and what SNDCP gives SM. *)
Definition sn_in (o : out) : option SndcpModel.event :=
  match o with
  | OSnAct t n a p q => Some (SndcpModel.SnsmActivate t n a (sn_qos q) p)
  | OSnDeact t n => Some (SndcpModel.SnsmDeactivate t n)
  | _ => None
  end.
Definition sn_out (o : SndcpModel.out) : option input :=
  match o with
  | SndcpModel.SnsmActivateRsp t n => Some (ISnAct t n)
  | SndcpModel.SnsmDeactivateRsp t n => Some (ISnDeact t n)
  | _ => None
  end.
Definition qos_len (q : list Z) : Prop := In (zlen q) [3; 11; 12; 14; 16; 18; 20].
Lemma sn_qos_ok q : qos_len q -> sn_qos q = Some (nth 1 q 0 / 16, nth 0 q 0 mod 8).
Proof.
  unfold qos_len, sn_qos. intros H. replace (existsb _ _) with true; [reflexivity|]. symmetry. apply existsb_exists. exists (zlen q).
  split; [exact H|apply Z.eqb_refl].
Qed.
Lemma sn_activate d t n sap q pk rl pr :
  SndcpSpec.reachable d -> SndcpModel.c_ms d = true -> 0 <= n < 16 -> (forall a, SndcpSpec.entity d t a n = None) -> 0 <= sap < 16 -> sn_qos q = Some (pk, rl) ->
  exists d1 e, SndcpModel.step d (SndcpModel.SnsmActivate t n sap (sn_qos q) pr) = Ok (d1, [SndcpModel.SnsmActivateRsp t n], 0) /\
    SndcpSpec.entity d1 t sap n = Some e /\ SndcpModel.e_peak e = pk /\ SndcpModel.e_rel e = rl /\ SndcpModel.e_prio e = pr.
Proof.
  intros HR Hm Hn HE Hs Hq. destruct (SndcpLift.reach_inv d HR) as [B HI]. cbn [SndcpModel.step]. rewrite SndcpTable.activate_act.
  destruct (SndcpTable.act_ctx d t) as [[c1 i] m] eqn:E1.
  destruct (SndcpTable.act_ctx_spec B d t c1 i m HI E1) as (HI1 & Ef & _ & HEq & _).
  destruct (SndcpTable.Inv_find _ _ _ _ _ HI1 Ef) as [L _].
  unfold SndcpModel.get_sne. replace ((0 <=? n) && (n <? 16)) with true by lia. cbn [bind].
  assert (EN : nth (Z.to_nat n) (SndcpModel.m_sne m) None = None).
  { destruct (nth (Z.to_nat n) (SndcpModel.m_sne m) None) as [e|] eqn:E2; [|reflexivity]. exfalso.
    specialize (HE (SndcpModel.e_sapi e)). rewrite <- HEq, (SndcpTable.entity_find _ _ _ _ _ _ Ef), (proj1 (SndcpTable.nth_nth_error _ _ _) E2), Z.eqb_refl in HE.
    discriminate. }
  rewrite EN. unfold SndcpModel.sne_alloc. replace ((0 <=? sap) && (sap <? 16)) with true by lia. cbn [bind]. rewrite Hm, Hq. cbn [negb].
  do 2 eexists. split; [reflexivity|]. split.
  - rewrite (SndcpTable.entity_put c1 t i m) by (assumption || lia). rewrite Z.eqb_refl, Nat.eqb_refl. cbn [andb SndcpModel.set_qos SndcpModel.e_sapi]. rewrite Z.eqb_refl. reflexivity.
  - repeat split; reflexivity.
Qed.
Lemma same_tlli l l' i t : map (fun m => (mid m, gid m)) l' = map (fun m => (mid m, gid m)) l ->
  (forall m, In m l -> tlli (gid m) = t -> mid m = i) -> forall m, In m l' -> tlli (gid m) = t -> mid m = i.
Proof.
  intros E H m Hm Ht. pose proof (in_map (fun m => (mid m, gid m)) _ _ Hm) as X. rewrite E in X. apply in_map_iff in X as [y [Y1 Y2]].
  injection Y1 as Y3 Y4. rewrite <- Y3. apply H; [exact Y2|]. congruence.
Qed.

Lemma accept_bytes h sap qs pr opts es : accept_ok sap qs pr opts es -> 0 <= h < 256 -> bytes (accept_pdu h sap qs pr opts).
Proof. intros (Hb & _) Hh. unfold accept_pdu, bytes in *. constructor; [exact Hh|exact (Forall_inv_tail Hb)]. Qed.
Lemma addr_read_len v : addr_read v <> None -> 2 <= zlen v /\ (nth 1 v 0 = 0x8d -> zlen v <> 18).
Proof.
  destruct v as [|o [|t l]]; [intros H; exfalso; apply H; reflexivity|intros H; exfalso; apply H; reflexivity|].
  intros H. rewrite !zlen_cons. split; [unfold zlen; lia|]. cbn [nth]. intros -> E. apply H. cbn [addr_read].
  destruct (_ =? 1); [|reflexivity]. change (0x8d =? 0x21) with false. change (0x8d =? 0x57) with false. change (0x8d =? 0x8d) with true. cbv iota.
  replace (zlen l =? 0) with false by lia. replace (zlen l =? 4) with false by lia. replace (zlen l =? 20) with false by lia. reflexivity.
Qed.
Lemma accept_msg_ok h sap qs pr opts es : accept_ok sap qs pr opts es -> msg_ok (accept_pdu h sap qs pr opts).
Proof.
  intros (Hb & Hq & He & Ha & Hp) l Hl.
  assert (E : opt_part (accept_pdu h sap qs pr opts) = opts).
  { unfold opt_part, accept_pdu. cbn [app nth]. change (0x42 =? 0x42) with true. cbv iota.
    replace (Z.to_nat (5 + zlen qs)) with (4 + length (qs ++ [pr]))%nat by (rewrite app_length; unfold zlen; cbn [length]; lia).
    cbn [Nat.add skipn]. replace (qs ++ pr :: opts) with ((qs ++ [pr]) ++ opts) by (rewrite <- app_assoc; reflexivity).
    rewrite skipn_app_exact; reflexivity. }
  rewrite E in Hl. rewrite (elements_fun _ _ Hl _ He). split; [exact Hp|]. intros v _ Hv. apply addr_read_len. exact (Ha v Hv).
Qed.

(** An ACCEPT, SNDCP's part in it and the confirmation: afterwards the context is active and SNDCP serves its NSAPI over the SAPI
    of the ACCEPT, with the throughput and reliability of its QoS and its radio priority. *)
Theorem C84_both_partial c i n s h sap qs pr opts es d :
  reached_ok c -> slots c i n = Some s -> st s = Pending -> (5 <= n)%nat -> accept_ok sap qs pr opts es -> 0 <= h < 256 -> zlen qs = qlen s ->
  (forall m, In m (mss c) -> tlli (gid m) = tlli (ident c i) -> mid m = i) ->
  SndcpSpec.reachable d -> SndcpModel.c_ms d = true -> (forall a, SndcpSpec.entity d (tlli (ident c i)) a (Z.of_nat n) = None) -> qos_len qs -> sap < 16 ->
  exists c1 o ev d1 r x c2 s' e p ty a4 a6,
    step c (IUnit (sess s) (accept_pdu h sap qs pr opts)) = Ok (c1, [o], 0) /\ sn_in o = Some ev /\
    SndcpModel.step d ev = Ok (d1, [r], 0) /\ sn_out r = Some x /\
    step c1 x = Ok (c2, [OActCnf i (Z.of_nat n) p (Accepted ty a4 a6 pr qs (ptmsi (ident c i)) (psig (ident c i)) (tlli (ident c i)) (ra (ident c i)))], 0) /\
    slots c2 i n = Some s' /\ st s' = Active /\
    SndcpSpec.entity d1 (tlli (ident c i)) sap (Z.of_nat n) = Some e /\
    SndcpModel.e_peak e = nth 1 qs 0 / 16 /\ SndcpModel.e_rel e = nth 0 qs 0 mod 8 /\ SndcpModel.e_prio e = pr.
Proof.
  intros Hr Hs Hst Hn Hok Hh Hl Hu HR Hm HE Hq Hsap. pose proof Hok as (Hb & Hq22 & He & Ha & Hp).
  destruct (reached_ok_inv c Hr) as [N [HN Hc]].
  assert (Hn16 : (n < 16)%nat) by (exact (proj2 (proj2 (slots_ok _ _ _ _ _ _ Hc Hs)))).
  assert (Hsap0 : 0 <= sap). { unfold accept_pdu, bytes in Hb. pose proof (Forall_inv (Forall_inv_tail (Forall_inv_tail Hb))) as X. unfold byte in X. lia. }
  destruct (C78_sndcp_partial c i n s h sap qs pr opts es Hr Hs Hst Hok Hh Hl) as (c1 & s1 & E1 & M1 & S1 & P1 & Q1 & _ & _).
  destruct (sn_activate d (tlli (ident c i)) (Z.of_nat n) sap qs _ _ pr HR Hm ltac:(lia) HE ltac:(lia) (sn_qos_ok qs Hq)) as (d1 & e & E2 & En & Ep & Er & Epr).
  destruct M1 as (M1 & M2 & M3 & M4).
  assert (Hin : input_ok (IUnit (sess s) (accept_pdu h sap qs pr opts))) by (exact (accept_msg_ok h sap qs pr opts es Hok)).
  destruct (step_inv 253 N c (IUnit (sess s) (accept_pdu h sap qs pr opts)) _ _ _ Hc (accept_bytes h sap qs pr opts es Hok Hh) (or_intror (conj eq_refl Hin)) E1) as [N1 [_ [_ Hc1]]].
  pose proof (same_tlli _ _ i (tlli (ident c i)) (unit_ids _ _ _ _ _ _ E1) Hu) as Hu1.
  rewrite <- M2 in Hu1.
  destruct (sn_act_exec N1 c1 i n s1 Hc1 M1 S1 Hn Hu1) as (c2 & s2 & E3 & M5 & S2 & _). rewrite M2, P1, Q1 in E3.
  exists c1. do 12 eexists.
  split; [exact E1|]. split; [reflexivity|]. split; [exact E2|]. split; [reflexivity|]. split; [exact E3|]. split; [exact (proj1 M5)|]. split; [exact S2|].
  split; [exact En|]. split; [exact Ep|]. split; [exact Er|exact Epr].
Qed.

(** What SNDCP does with what SM gives it, and SM with the answers. *)
Definition sn_step (d : SndcpModel.ctx) (l : list out) : res (SndcpModel.ctx * list SndcpModel.out) :=
  SndcpModel.run d (flat_map (fun o => match sn_in o with Some e => [e] | None => [] end) l).
Definition act3 : actreq := mkActreq 5 3 0x21 None None (repeat 0 22) 3 [97] (repeat 0 253) 1 7 0 [49] [] [] [0; 0; 0; 0; 0; 0].
(** A QoS of one octet was asked for and 14 granted: SNDCP is given one, refuses it, and the context never becomes active. *)
Theorem C84_qos_refuted : exists c o d s,
  run ctx0 [IActReq 1 (req 5); IEstAcc 0 7 0 9 [0; 0; 0; 0; 0; 0]; IUnit 0 acc] = Ok (c, o) /\
  sn_step (SndcpModel.init true) o = Ok (d, []) /\ slots c 1 5 = Some s /\ st s = Pending.
Proof. do 4 eexists. split; [vm_compute; reflexivity|]. split; [vm_compute; reflexivity|]. split; [vm_compute; reflexivity|vm_compute; reflexivity]. Qed.
(** GMM releases the mobile's connection: SNDCP is not told.  When the context is set up again over SAPI 5, it is reported active, while
    SNDCP serves the NSAPI over SAPI 3 only. *)
Theorem C84_stale_refuted : exists c1 o1 d1 c2 o2 d2,
  run ctx0 [IActReq 1 act3; IEstAcc 0 7 0 9 [0; 0; 0; 0; 0; 0]; IUnit 0 (accept_pdu 0x8a 3 [1; 2; 3] 4 [])] = Ok (c1, o1) /\
  sn_step (SndcpModel.init true) o1 = Ok (d1, [SndcpModel.SnsmActivateRsp 9 5]) /\
  run c1 [ISnAct 9 5; IRelease 0; IExpire 1 5; IActReq 1 act3; IEstAcc 1 7 0 9 [0; 0; 0; 0; 0; 0]; IUnit 1 (accept_pdu 0x8a 5 [1; 2; 3] 4 [])] = Ok (c2, o2) /\
  sn_step d1 o2 = Ok (d2, [SndcpModel.SnsmActivateRsp 9 5]) /\
  (exists c3 p ty a4 a6 pr q r1 r2 r3 r4, step c2 (ISnAct 9 5) = Ok (c3, [OActCnf 1 5 p (Accepted ty a4 a6 pr q r1 r2 r3 r4)], 0)) /\
  SndcpSpec.entity d2 9 5 5 = None /\ (exists e, SndcpSpec.entity d2 9 3 5 = Some e) /\
  SndcpModel.step d2 (SndcpModel.SnUnitdata 9 5 5 [1; 2; 3] None) = Ok (d2, [], -5).
Proof.
  do 6 eexists. split; [vm_compute; reflexivity|]. split; [vm_compute; reflexivity|]. split; [vm_compute; reflexivity|]. split; [vm_compute; reflexivity|].
  split; [do 11 eexists; vm_compute; reflexivity|]. split; [vm_compute; reflexivity|]. split; [eexists; vm_compute; reflexivity|]. vm_compute. reflexivity.
Qed.
(** The spare bits of the octet with the SAPI reach SNDCP, which reads beyond its table of SAPIs. *)
Theorem C84_sapi_refuted : exists c o,
  run ctx0 [IActReq 1 act3; IEstAcc 0 7 0 9 [0; 0; 0; 0; 0; 0]; IUnit 0 (accept_pdu 0x8a 0x13 [1; 2; 3] 4 [])] = Ok (c, o) /\
  sn_step (SndcpModel.init true) o = UB.
Proof. do 2 eexists. split; [vm_compute; reflexivity|vm_compute; reflexivity]. Qed.

(** ** C85: an NSAPI that is used again, and the identities of a mobile *)

(** Once the entity of a context that ended has been released, its NSAPI can be used again. *)
Theorem C85_again_partial c i q s :
  reached c -> req_sound q -> slots c i (Z.to_nat (q_nsapi q)) = Some s -> st s = Inactive ->
  exists c1 c2 s', step c (IExpire i (q_nsapi q)) = Ok (c1, [], 0) /\
    step c1 (IActReq i q) = Ok (c2, [OEstReq (next c) (q_ptmsi q =? 0xffffffff) (q_ptmsi q) (q_sig q)
          (match q_imsi q with [] => imsi (ident c i) | l => l end) (match q_imei q with [] => imei (ident c i) | l => l end)
          (match q_imeisv q with [] => imeisv (ident c i) | l => l end) (q_rai q)], 0) /\
    slots c2 i (Z.to_nat (q_nsapi q)) = Some s' /\ sess s' = next c /\ st s' = Pending.
Proof.
  intros Hr (T & F & Hn & _) Hs Hst. destruct (reached_inv c Hr) as [N [HN Hc]].
  destruct (free_exec 255 N c i _ s Hc Hs Hst) as [c1 [E1 M]]. rewrite Z2Nat.id in E1 by lia.
  destruct (step_inv 255 N c (IExpire i (q_nsapi q)) _ _ _ Hc I (or_introl eq_refl) E1) as [N1 [_ [_ Hc1]]].
  destruct M as (M1 & M2 & M3 & _).
  destruct (act_req_exec 255 N1 c1 Hc1 i q T F Hn M1) as [c2 [E2 [S2 _]]]. rewrite M2, M3 in E2. rewrite M3 in S2.
  exists c1, c2, (entity_of (next c) q). split; [exact E1|]. split; [exact E2|]. split; [exact S2|]. split; reflexivity.
Qed.
(** But not before: a user who asks again on being told of a rejection is refused, though the code says otherwise (sm_ms_fsm.c:48-52). *)
Theorem C85_again_refuted : exists c e p,
  run ctx0 [IActReq 1 (req 5); IEstAcc 0 7 0 9 [0; 0; 0; 0; 0; 0]; IUnit 0 (rej 33)] = Ok (c, [e; OUnitReq 1 p; OActCnf 1 5 [0] (Rejected 33)]) /\
  step c (IActReq 1 (req 5)) = Ok (c, [], -22).
Proof. do 3 eexists. split; [vm_compute; reflexivity|vm_compute; reflexivity]. Qed.
(** A second request of a mobile replaces its P-TMSI: the confirmation of the first then names the P-TMSI of the second. *)
Theorem C85_identity_refuted : exists c e1 u e2 sn p ty a4 a6 pr q sig tl r,
  run ctx0 [IActReq 1 (act_as 7); IEstAcc 0 7 0 9 [0; 0; 0; 0; 0; 0]; IActReq 1 (with_nsapi6 8); IUnit 0 (accept_pdu 0x8a 3 [1; 2; 3] 4 []); ISnAct 9 5]
  = Ok (c, [e1; u; e2; sn; OActCnf 1 5 p (Accepted ty a4 a6 pr q 8 sig tl r)]).
Proof. do 14 eexists. vm_compute. reflexivity. Qed.

(** ** C86: the transaction identifier of a message of the network *)

(** Whatever it is: the message is for the context of the session GMM names. *)
Theorem C86_ti_ignored c i a b r : bytes r -> step c (IUnit i (a :: r)) = step c (IUnit i (b :: r)).
Proof. apply unit_head. Qed.

Print Assumptions C83_refused_refuted.
Print Assumptions C73_lost.
Print Assumptions C73_sent_partial.
Print Assumptions C73_refuted.
Print Assumptions C84_both_partial.
Print Assumptions C84_qos_refuted.
Print Assumptions C84_stale_refuted.
Print Assumptions C84_sapi_refuted.
Print Assumptions C85_again_partial.
Print Assumptions C85_again_refuted.
Print Assumptions C85_identity_refuted.
Print Assumptions C86_ti_ignored.
