(** Proofs: one primitive at the API, in terms of the entity it addresses. *)
From Coq Require Import Permutation.
From Verif.Lib Require Import Base Outcome.
From Verif.Sndcp Require Import SndcpModel SndcpSpec SndcpProofs SndcpSend SndcpRuns SndcpTable.

Lemma reach_inv c : reachable c -> exists B, Inv B c.
Proof. intros (ms & evs & outs & H). exists (0 + octets evs). exact (proj1 (run_inv evs 0 _ _ _ (Inv_init ms) H)). Qed.

Lemma entity_ok B c t s n e : Inv B c -> 0 <= n -> entity c t s n = Some e ->
  sne_ok B (Z.to_nat n) e /\ e_sapi e = s /\ e_nsapi e = n /\ n < 16.
Proof.
  intros HI Hn He. unfold entity in He. fold (is_tlli t) in He.
  destruct (find (is_tlli t) (c_snme c)) as [m|] eqn:Ef; [|discriminate].
  apply find_some in Ef as [Hin Ht]. destruct HI as [_ HI]. destruct (HI m Hin) as [L HK].
  destruct (nth_error (m_sne m) (Z.to_nat n)) as [[x|]|] eqn:En; try discriminate.
  destruct (e_sapi x =? s) eqn:Es; [|discriminate]. inversion He; subst x.
  pose proof (HK _ _ En) as H. split; [exact H|]. split; [lia|]. destruct H as (H & _). split; [lia|].
  assert (Z.to_nat n < 16)%nat by (rewrite <- L; apply nth_error_Some; congruence). lia.
Qed.

Lemma entity_lookup B c t s n e : Inv B c -> 0 <= n -> entity c t s n = Some e ->
  exists i m, find_tlli (c_snme c) t = Some (i, m) /\ m_tlli m = t /\ length (m_sne m) = 16%nat /\
    by_dlci_nsapi c t s n = Ok (Some (i, m, e)).
Proof.
  intros HI Hn He. destruct (entity_ok B c t s n e HI Hn He) as (Hok & Hs & Hns & Hn16).
  destruct (find_tlli (c_snme c) t) as [[i m]|] eqn:Ef; [|rewrite entity_none in He by exact Ef; discriminate].
  exists i, m. split; [reflexivity|]. pose proof (find_tlli_some _ _ _ _ Ef) as (_ & Hm & _). split; [exact Hm|].
  split; [exact (proj1 (Inv_find _ _ _ _ _ HI Ef))|].
  rewrite (entity_find _ _ _ _ _ _ Ef) in He. unfold by_dlci_nsapi. rewrite Ef. unfold get_sne.
  destruct ((0 <=? n) && (n <? 16)) eqn:E; [|lia]. cbn [bind].
  destruct (nth_error (m_sne m) (Z.to_nat n)) as [[x|]|] eqn:En; try discriminate. apply nth_nth_error in En. rewrite En.
  destruct (e_sapi x =? s); [|discriminate]. inversion He; subst. reflexivity.
Qed.

Lemma down_map t s pk rl pr l : down (map (LlUnitdataReq t s pk rl pr) l) = l.
Proof. unfold down. induction l as [|p r IH]; cbn [map flat_map app]; [reflexivity|]. rewrite IH. reflexivity. Qed.

(** SN-UNITDATA.req to an existing entity. *)
Lemma step_send B c t s n e npdu refuse : Inv B c -> 0 <= n -> entity c t s n = Some e ->
  step c (SnUnitdata t s n npdu refuse) = 
  if zlen npdu =? 0 then UB else
  match sn_unitdata_req e npdu refuse with
  | Ok (e', pdus, rc) =>
      Ok (match find_tlli (c_snme c) t with Some (i, m) => put_sne c i m (Z.to_nat n) (Some e') | None => c end,
          map (LlUnitdataReq t s (e_peak e) (e_rel e) (e_prio e)) pdus, rc)
  | Err x => Err x
  | UB => UB
  end.
Proof.
  intros HI Hn He. cbn [step]. destruct (zlen npdu =? 0); [reflexivity|].
  destruct (entity_ok B c t s n e HI Hn He) as (_ & Hs & _).
  destruct (entity_lookup B c t s n e HI Hn He) as (i & m & Ef & Hm & _ & ->). cbn [bind]. rewrite Ef, Hm, Hs.
  destruct (sn_unitdata_req e npdu refuse) as [[[e' pdus] rc]|x|]; reflexivity.
Qed.

Lemma step_send_inv B c t s n e npdu refuse c' outs rc : Inv B c -> 0 <= n -> entity c t s n = Some e ->
  step c (SnUnitdata t s n npdu refuse) = Ok (c', outs, rc) ->
  npdu <> [] /\ exists e' pdus, sn_unitdata_req e npdu refuse = Ok (e', pdus, rc) /\
    outs = map (LlUnitdataReq t s (e_peak e) (e_rel e) (e_prio e)) pdus /\ entity c' t s n = Some e'.
Proof.
  intros HI Hn He H. rewrite (step_send B c t s n e npdu refuse HI Hn He) in H.
  destruct (zlen npdu =? 0) eqn:E; [discriminate|]. split; [intros ->; discriminate|].
  destruct (sn_unitdata_req e npdu refuse) as [[[e' pdus] rc']|x|] eqn:Er; [|discriminate|discriminate].
  inversion H; subst. exists e', pdus. split; [reflexivity|]. split; [reflexivity|].
  destruct (entity_ok B c t s n e HI Hn He) as ((A1 & A2 & A3 & A4 & A5) & Hs & _ & Hn16).
  destruct (entity_lookup B c t s n e HI Hn He) as (i & m & Ef & Hm & HL & _). rewrite Ef.
  rewrite (entity_put c t i m) by (assumption || lia). rewrite Z.eqb_refl, Nat.eqb_refl. cbn [andb].
  destruct (req_ok _ _ _ _ _ _ Er A3) as (_ & R2 & _). rewrite R2, Hs, Z.eqb_refl. reflexivity.
Qed.

(** Limits that a completed request implies. *)
Lemma req_limits e npdu refuse r : 0 <= e_n201u e <= 65535 -> sn_unitdata_req e npdu refuse = Ok r ->
  zlen npdu <= 65279 /\ (e_n201u e >= 4 -> zlen npdu > e_n201u e - 4 -> e_n201u e <= 65279).
Proof.
  intros Hn. unfold sn_unitdata_req, fits. destruct (zlen npdu + 256 <=? 65535) eqn:E; [|discriminate]. cbn [negb].
  intros H. split; [lia|]. intros H4 Hg. destruct (usub64 (e_n201u e) 4 <? zlen npdu) eqn:E2.
  - destruct (e_n201u e + 256 <=? 65535) eqn:E3; [lia|discriminate].
  - exfalso. unfold usub64 in E2. rewrite Z.mod_small in E2 by lia. lia.
Qed.

Lemma build_nth e xs : forall j i p, 0 <= j < 256 -> nth_error (build e j xs) i = Some p ->
  exists x, nth_error xs i = Some x /\ p = one_pdu e ((j + Z.of_nat i) mod 256) (S i <? length xs)%nat x.
Proof.
  induction xs as [|x r IH]; intros j i p Hj H; [destruct i; discriminate|]. cbn [build] in H. destruct i as [|i].
  - cbn [nth_error] in H. inversion H; subst. exists x. split; [reflexivity|]. rewrite Z.add_0_r, Z.mod_small by lia.
    destruct r; reflexivity.
  - cbn [nth_error] in H. destruct (IH ((j + 1) mod 256) i p ltac:(apply Z.mod_pos_bound; lia) H) as (y & Hy & ->).
    exists y. split; [exact Hy|]. f_equal.
    rewrite Zplus_mod_idemp_l. f_equal. lia.
Qed.

Lemma build_payload e xs : 0 <= e_tx e < 4096 -> 0 <= e_nsapi e < 16 -> forall j, map payload (build e j xs) = xs.
Proof.
  intros Ht Hs. induction xs as [|x r IH]; intros j; cbn [build map]; [reflexivity|]. f_equal; [|apply IH].
  destruct (one_pdu_fields e j (match r with [] => false | _ => true end) x Ht Hs) as (_ & _ & _ & _ & _ & _ & H). exact H.
Qed.

Lemma nth_error_firstn {A} (l : list A) k i p : nth_error (firstn k l) i = Some p -> nth_error l i = Some p.
Proof.
  revert k i. induction l as [|a r IH]; intros [|k] [|i]; cbn; intros H; try discriminate; [exact H|]. eapply IH; exact H.
Qed.

(** A transmitter's step gives what the receiver lemmas need. *)
Lemma sent_carries nsapi npdu pdus : sent_as nsapi npdu pdus -> exists X k, carries nsapi npdu pdus X k.
Proof.
  intros (c & t & s & e & c' & outs & rc & HR & He & Hn & H4 & HL & HS & <-).
  destruct (reach_inv c HR) as [B HI].
  destruct (entity_ok B c t s nsapi e HI ltac:(lia) He) as ((A1 & A2 & A3 & A4 & A5) & Hs & Hns & _).
  destruct (step_send_inv B c t s nsapi e npdu None c' outs rc HI ltac:(lia) He HS) as (Hne & e' & pdus & Hr & -> & _).
  rewrite down_map. destruct (req_limits _ _ _ _ A4 Hr) as [L1 L2]. rewrite <- Hns.
  destruct (Z_le_gt_dec (e_n201u e) 65279) as [Hb|Hb].
  - apply (send_carries e npdu e' pdus rc); try assumption; lia.
  - (* a larger N201-U only serves N-PDUs that need no segmentation *)
    assert (Hsmall : zlen npdu <= e_n201u e - 4) by lia.
    destruct (req_cases e npdu A4 Hne L1 L2) as (xs & Hc & Hch & _ & Hreq). specialize (Hch H4).
    rewrite Hreq in Hr. inversion Hr; subst pdus. clear Hr.
    assert (E1 : exists x, xs = [x]).
    { destruct xs as [|x [|y r]]; [destruct Hch|eauto|]. exfalso. cbn [chunked] in Hch. destruct Hch as [Hx Hch].
      unfold cap in Hx. change (0 =? 0) with true in Hx. cbv iota in Hx.
      assert (1 <= zlen y).
      { destruct r; cbn [chunked] in Hch; unfold cap in Hch; destruct ((0 + 1) mod 256 =? 0); lia. }
      rewrite <- Hc in Hsmall. cbn [concat] in Hsmall. rewrite !zlen_app in Hsmall.
      pose proof (zlen_nonneg (concat r)). lia. }
    destruct E1 as (x & ->). cbn [concat] in Hc. rewrite app_nil_r in Hc. subst x.
    exists (fun _ => npdu), 0. change (build e 0 [npdu]) with [one_pdu e 0 false npdu].
    destruct (one_pdu_fields e 0 false npdu ltac:(lia) ltac:(lia)) as (F1 & F2 & F3 & F4 & F5 & F6 & F7).
    constructor.
    + lia.
    + exists (one_pdu e 0 false npdu), []. split; [reflexivity|]. split; [|constructor].
      unfold first_pdu. rewrite F1, F2, F3, F5, F7, one_pdu_len. change (0 =? 0) with true. pose proof (zlen_nonneg npdu).
      repeat split; try reflexivity; lia.
    + cbn. apply app_nil_r.
    + split; [|lia]. destruct npdu; [congruence|]. rewrite zlen_cons. pose proof (zlen_nonneg npdu). lia.
    + constructor; [rewrite F4; reflexivity|constructor].
Qed.

Lemma carries_nsapi nsapi npdu pdus X k : carries nsapi npdu pdus X k -> Forall (fun p => nsapi_of p = nsapi /\ p <> []) pdus.
Proof.
  intros [Hk (q & r & Eq & Hf & Hr) Hc Hl Hs]. apply Forall_forall. intros p Hp.
  rewrite Forall_forall in Hs. split; [apply Hs; exact Hp|]. intros ->.
  subst pdus. destruct Hp as [->|Hp].
  - destruct Hf as (_ & Hf & _). discriminate Hf.
  - clear -Hr Hp. induction Hr as [|i p' is' r' H1 H2 IH]; [destruct Hp|]. destruct Hp as [->|Hp]; [|auto].
    destruct H1 as (_ & H1 & _). discriminate H1.
Qed.

(** The entity keeps its number unless the event renumbers it. *)
Lemma step_tx B c ev c' outs rc t s n e : Inv B c -> unique_tlli c -> 0 <= n < 16 -> entity c t s n = Some e ->
  step c ev = Ok (c', outs, rc) -> ~ renumbers ev t n -> exists e', entity c' t s n = Some e' /\ e_tx e' = e_tx e.
Proof.
  intros HI HU Hn He H HR.
  destruct (step_inv B c ev c' outs rc HI H) as (_ & _ & HF). specialize (HF HU t s n Hn).
  assert (D : concerns ev t n \/ ~ concerns ev t n).
  { destruct ev; cbn [concerns];
      repeat match goal with |- context [@eq Z ?a ?b] =>
        lazymatch goal with H : a = b |- _ => fail | H : a <> b |- _ => fail | _ => destruct (Z.eq_dec a b) end end; tauto. }
  destruct D as [D|D]; [|rewrite (HF D), He; eauto]. clear HF.
  destruct (entity_ok B c t s n e HI ltac:(lia) He) as (Hok & Hs & Hns & _).
  destruct (entity_lookup B c t s n e HI ltac:(lia) He) as (i & m & Ef & Hm & HL & Hb).
  pose proof He as He'. rewrite (entity_find _ _ _ _ _ _ Ef) in He'.
  destruct (nth_error (m_sne m) (Z.to_nat n)) as [[x|]|] eqn:En; try discriminate.
  destruct (e_sapi x =? s) eqn:Es; [|discriminate]. inversion He'; subst x. clear He'.
  destruct ev as [t0 s0 n0 npdu refuse|t0 s0 p|t0 s0 u i0|t0 t1|t0 s0|t0 n0 s0 q pr|t0 n0]; cbn [concerns renumbers] in *; try tauto.
  - destruct D as [-> Dn]. cbn [step] in H. destruct (zlen p =? 0); [discriminate|].
    destruct (rd p 0) as [h|er|] eqn:Eh; [|discriminate|discriminate]. cbn [bind] in H.
    apply rd_inv in Eh as [_ Eh]. assert (Eh' : nth 0 p 0 = h) by (symmetry; exact Eh). rewrite (h_nsapi_of p h Eh'), Dn in H.
    destruct (by_dlci_nsapi c t s0 n) as [o|er|] eqn:Eb; [|discriminate|discriminate]. cbn [bind] in H.
    apply by_dlci_spec in Eb. destruct o as [[[i1 m1] e1]|]; [|inversion H; subst; eauto].
    destruct Eb as (E1 & E2 & E3 & _). rewrite Ef in E1. inversion E1; subst i1 m1. rewrite En in E2. inversion E2; subst e1.
    destruct (unitdata_ind (e_df e) p) as [[[d o] rc']|er|]; [|discriminate|discriminate]. cbn [bind] in H. inversion H; subst.
    rewrite (entity_put c (m_tlli m) i m) by (assumption || lia). rewrite Z.eqb_refl, Nat.eqb_refl. cbn [andb set_df e_sapi].
    rewrite Es. eexists. split; reflexivity.
  - subst t0. cbn [step] in H. rewrite Ef in H. destruct (first_on s0 (m_sne m)) as [[k e1]|] eqn:E1; [|inversion H; subst; eauto].
    inversion H; subst. apply first_on_some in E1 as [E1 E2].
    assert (Hk : (k < length (m_sne m))%nat) by (apply nth_error_Some; congruence).
    rewrite (entity_put c (m_tlli m) i m) by (assumption || lia). rewrite Z.eqb_refl. cbn [andb].
    match goal with |- context [(?a =? k)%nat] => destruct (a =? k)%nat eqn:Ek end; [|eauto]. apply Nat.eqb_eq in Ek. subst k. rewrite En in E1. inversion E1; subst e1.
    cbn [set_n201 e_sapi]. rewrite Es. eexists. split; reflexivity.
  - destruct D as [-> ->]. cbn [step] in H. unfold activate in H. rewrite Ef in H. unfold get_sne in H.
    destruct ((0 <=? n) && (n <? 16)) eqn:En0; [|discriminate]. cbn [bind] in H. pose proof En as En'. apply nth_nth_error in En'.
    rewrite En' in H. cbn [bind] in H.
    assert (G : exists e', c' = put_sne c i m (Z.to_nat n) (Some e') /\ e_sapi e' = e_sapi e /\ e_tx e' = e_tx e).
    { destruct (negb (c_ms c)); [inversion H; subst; eauto|]. destruct q as [[pk rl]|]; inversion H; subst; [|eauto].
      eexists. split; [reflexivity|]. split; reflexivity. }
    destruct G as (e' & -> & G1 & G2). rewrite (entity_put c t i m) by (assumption || lia). rewrite Z.eqb_refl, Nat.eqb_refl.
    cbn [andb]. rewrite G1, Es. eauto.
Qed.

Lemma run_app evs1 : forall c evs2, run c (evs1 ++ evs2) =
  do x <- run c evs1; do y <- run (fst x) evs2; Ok (fst y, snd x ++ snd y).
Proof.
  induction evs1 as [|ev r IH]; intros c evs2; cbn [app run bind fst snd].
  - destruct (run c evs2) as [[c1 o]|er|]; reflexivity.
  - destruct (step c ev) as [[[c1 o] rc]|er|]; cbn [bind]; try reflexivity. rewrite IH.
    destruct (run c1 r) as [[c2 o2]|er|]; cbn [bind fst snd]; try reflexivity.
    destruct (run c2 evs2) as [[c3 o3]|er|]; cbn [bind fst snd]; try reflexivity. rewrite app_assoc. reflexivity.
Qed.

Lemma reach_step c ev c' outs rc : reachable c -> step c ev = Ok (c', outs, rc) -> reachable c'.
Proof.
  intros (ms & evs & o & H) HS. exists ms, (evs ++ [ev]), (o ++ outs). rewrite run_app, H. cbn [bind fst snd run].
  rewrite HS. cbn [bind fst snd]. rewrite app_nil_r. reflexivity.
Qed.

Lemma run_tx t s n : 0 <= n < 16 -> forall evs B c c' outs e, Inv B c -> unique_tlli c -> entity c t s n = Some e ->
  run c evs = Ok (c', outs) -> Forall (fun ev => ~ renumbers ev t n) evs ->
  exists e' B', Inv B' c' /\ entity c' t s n = Some e' /\ e_tx e' = e_tx e.
Proof.
  intros Hn. induction evs as [|ev r IH]; intros B c c' outs e HI HU He H HF; cbn [run] in H.
  - inversion H; subst. eauto.
  - inversion HF as [|? ? F1 F2]; subst. destruct (step c ev) as [[[c1 o] rc]|er|] eqn:E; [|discriminate|discriminate]. cbn [bind] in H.
    destruct (run c1 r) as [[c2 o2]|er|] eqn:E2; [|discriminate|discriminate]. cbn [bind fst snd] in H. inversion H; subst.
    destruct (step_tx B c ev c1 o rc t s n e HI HU Hn He E F1) as (e1 & He1 & T1).
    destruct (step_inv B c ev c1 o rc HI E) as (I1 & N1 & _).
    assert (U1 : unique_tlli c1) by (apply N1; [intros x y ->; apply F1; exact Logic.I|exact HU]).
    destruct (IH _ _ _ _ _ I1 U1 He1 E2 F2) as (e2 & B2 & I2 & He2 & T2). exists e2, B2. split; [exact I2|]. split; [exact He2|lia].
Qed.

(** Numbers of the SN-PDUs of one request, and the number afterwards. *)
Lemma send_number B c t s n e npdu refuse c' outs rc : Inv B c -> 0 <= n -> entity c t s n = Some e ->
  step c (SnUnitdata t s n npdu refuse) = Ok (c', outs, rc) ->
  Forall (fun p => npdu_nr p = e_tx e) (down outs) /\ down outs <> [] /\
  exists e', entity c' t s n = Some e' /\ (rc = 0 -> e_tx e' = (e_tx e + 1) mod 4095).
Proof.
  intros HI Hn He HS. destruct (entity_ok B c t s n e HI Hn He) as ((A1 & A2 & A3 & A4 & A5) & Hs & Hns & Hn16).
  destruct (step_send_inv B c t s n e npdu refuse c' outs rc HI Hn He HS) as (Hne & e' & pdus & Hr & -> & He').
  rewrite down_map. destruct (req_limits _ _ _ _ A4 Hr) as [L1 L2].
  destruct (req_cases e npdu A4 Hne L1 L2) as (xs & Hc & _ & _ & Hreq). rewrite Hreq in Hr.
  assert (HX : xs <> []) by (intros ->; cbn in Hc; congruence).
  assert (E : pdus = match refuse with None => build e 0 xs | Some k => firstn (S k) (build e 0 xs) end) by congruence.
  pose proof (build_nsapi e ltac:(lia) ltac:(lia) xs 0) as HB. rewrite Forall_forall in HB.
  split; [|split].
  - apply Forall_forall. intros p Hp. apply HB. rewrite E in Hp. destruct refuse as [k|]; [|exact Hp].
    apply In_nth_error in Hp as [i Hp]. apply nth_error_firstn in Hp. eapply nth_error_In; exact Hp.
  - rewrite E. destruct xs as [|x r]; [congruence|]. cbn [build]. destruct refuse; discriminate.
  - exists e'. split; [exact He'|]. intros ->. destruct refuse as [k|].
    + destruct (length xs <=? k)%nat eqn:Ek; [|discriminate Hr]. cbn [orb] in Hr.
      assert (e' = set_tx e ((e_tx e + 1) mod 4095)) by congruence. subst e'. reflexivity.
    + assert (e' = set_tx e ((e_tx e + 1) mod 4095)) by congruence. subst e'. reflexivity.
Qed.
