(** SNDCP: segmentation and reassembly (C30, C31), hostile input (C32), N-PDU numbers (C33), isolation of
    entities (C43), the negotiated N201-U (C44). *)
From Coq Require Import Permutation.
From Verif.Lib Require Import Base Outcome.
From Verif.Sndcp Require Import SndcpModel SndcpSpec SndcpProofs SndcpSend SndcpRuns SndcpTable SndcpLift.

(** *** Concrete states for the examples and refutations *)
Definition tl : Z := 3221225473.
Definition act (nsapi sapi : Z) : event := SnsmActivate tl nsapi sapi (Some (1, 3)) 0.
Definition after (evs : list event) : ctx := match run (init true) evs with Ok (c, _) => c | _ => init true end.
Definition xid (u : Z) : event := LlXid tl 3 u 1503.
Definition seqz (n : nat) : list Z := map (fun i => Z.of_nat i mod 251) (seq 0 n).
Definition c500 : ctx := after [act 5 3].
Definition c140 : ctx := after [act 5 3; xid 140].
Definition outs_of (c : ctx) (ev : event) : list out := match step c ev with Ok (_, o, _) => o | _ => [] end.
Definition ran (r : res (ctx * list out)) : option (list out) := match r with Ok (_, o) => Some o | _ => None end.

Lemma reach_after evs : reachable (after evs).
Proof.
  unfold after. destruct (run (init true) evs) as [[c o]|x|] eqn:E; [exists true, evs, o; exact E|exists true, [], []; reflexivity..].
Qed.

(** *** C30 *)
(** Every SN-PDU handed to LLC is at most N201-U octets long, whether or not LLC refuses one on the way. *)
Theorem C30_limit c t s n e npdu refuse c' outs rc :
  reachable c -> entity c t s n = Some e -> 0 <= n -> 4 <= e_n201u e ->
  step c (SnUnitdata t s n npdu refuse) = Ok (c', outs, rc) ->
  Forall (fun p => zlen p <= e_n201u e) (down outs).
Proof.
  intros HR He Hn H4 HS. destruct (reach_inv c HR) as [B HI].
  destruct (entity_ok B c t s n e HI Hn He) as ((A1 & A2 & A3 & A4 & A5) & Hs & Hns & _).
  destruct (step_send_inv B c t s n e npdu refuse c' outs rc HI Hn He HS) as (Hne & e' & pdus & Hr & -> & _).
  rewrite down_map. destruct (req_limits _ _ _ _ A4 Hr) as [L1 L2].
  destruct (req_cases e npdu A4 Hne L1 L2) as (xs & Hc & Hch & _ & Hreq).
  rewrite Hreq in Hr. pose proof (build_len e xs 0 (Hch H4)) as HB.
  
  assert (E : pdus = match refuse with None => build e 0 xs | Some k => firstn (S k) (build e 0 xs) end) by congruence.
  clear Hr. subst pdus. destruct refuse as [k|]; [|exact HB].
  apply Forall_forall. intros p Hp. rewrite Forall_forall in HB. apply HB.
  apply In_nth_error in Hp as [i Hp]. apply nth_error_firstn in Hp. eapply nth_error_In; exact Hp.
Qed.

(** All SN-PDUs of an N-PDU that LLC accepts: their headers, and that together they carry exactly the N-PDU.
    The segment counter of the sender has 8 bits, hence [i mod 256]. *)
Theorem C30_segments c t s n e npdu c' outs rc :
  reachable c -> entity c t s n = Some e -> 0 <= n -> 4 <= e_n201u e ->
  step c (SnUnitdata t s n npdu None) = Ok (c', outs, rc) ->
  rc = 0 /\ outs = map (LlUnitdataReq t s (e_peak e) (e_rel e) (e_prio e)) (down outs) /\
  concat (map payload (down outs)) = npdu /\
  forall i p, nth_error (down outs) i = Some p ->
    T_bit p = true /\ nsapi_of p = n /\ npdu_nr p = e_tx e /\ (5 <= e_n201u e -> payload p <> []) /\
    M_bit p = (S i <? length (down outs))%nat /\ F_bit p = (i mod 256 =? 0)%nat /\
    seg_of p = (Z.of_nat i mod 256) mod 15.
Proof.
  intros HR He Hn H4 HS. destruct (reach_inv c HR) as [B HI].
  destruct (entity_ok B c t s n e HI Hn He) as ((A1 & A2 & A3 & A4 & A5) & Hs & Hns & Hn16).
  destruct (step_send_inv B c t s n e npdu None c' outs rc HI Hn He HS) as (Hne & e' & pdus & Hr & -> & _).
  rewrite down_map. destruct (req_limits _ _ _ _ A4 Hr) as [L1 L2].
  destruct (req_cases e npdu A4 Hne L1 L2) as (xs & Hc & Hch & _ & Hreq). specialize (Hch H4).
  rewrite Hreq in Hr. inversion Hr; subst pdus rc. clear Hr Hreq.
  split; [reflexivity|]. split; [reflexivity|]. split; [rewrite build_payload by lia; exact Hc|].
  intros i p Hp. destruct (build_nth e xs 0 i p ltac:(lia) Hp) as (x & Hx & ->). rewrite Z.add_0_l.
  destruct (one_pdu_fields e (Z.of_nat i mod 256) (S i <? length xs)%nat x ltac:(lia) ltac:(lia)) as (F1 & F2 & F3 & F4 & F5 & F6 & F7).
  rewrite F1, F2, F3, F4, F5, F6, F7, build_length. split; [reflexivity|]. split; [exact Hns|]. split; [reflexivity|].
  split; [|split; [reflexivity|split; [|reflexivity]]].
  - intros H5. assert (G : forall ys j, 0 <= j -> chunked e j ys -> forall y, In y ys -> y <> []).
    { induction ys as [|y0 r IH]; intros j Hj Hy y; [intros []|]. intros Hin ->. cbn [chunked] in Hy. destruct Hin as [->|Hin].
      - change (zlen (@nil Z)) with 0 in Hy. unfold cap in Hy. destruct r, (j =? 0); lia.
      - destruct r as [|z r']; [destruct Hin|].
        eapply (IH ((j + 1) mod 256)); [apply Z.mod_pos_bound; lia|apply Hy|exact Hin|reflexivity]. }
    eapply (G xs 0); [lia|exact Hch|]. eapply nth_error_In; exact Hx.
  - destruct (i mod 256 =? 0)%nat eqn:E.
    + apply Nat.eqb_eq in E. apply Z.eqb_eq. change 256 with (Z.of_nat 256). rewrite <- Nat2Z.inj_mod. lia.
    + apply Nat.eqb_neq in E. apply Z.eqb_neq. change 256 with (Z.of_nat 256). rewrite <- Nat2Z.inj_mod. lia.
Qed.

(** N-PDUs of up to 65279 octets are accepted. *)
Theorem C30_accepts c t s n e npdu :
  reachable c -> entity c t s n = Some e -> 0 <= n -> 4 <= e_n201u e <= 65279 -> npdu <> [] -> zlen npdu <= 65279 ->
  exists c' outs, step c (SnUnitdata t s n npdu None) = Ok (c', outs, 0).
Proof.
  intros HR He Hn H4 Hne HL. destruct (reach_inv c HR) as [B HI].
  destruct (entity_ok B c t s n e HI Hn He) as ((A1 & A2 & A3 & A4 & A5) & Hs & Hns & Hn16).
  rewrite (step_send B c t s n e npdu None HI Hn He).
  destruct (zlen npdu =? 0) eqn:E; [destruct npdu; [congruence|rewrite zlen_cons in E; pose proof (zlen_nonneg npdu); lia]|].
  destruct (req_cases e npdu A4 Hne HL ltac:(lia)) as (xs & _ & _ & _ & ->). eexists _, _. reflexivity.
Qed.

(** A receiver that gets all SN-PDUs of an N-PDU, the first one first, delivers exactly the N-PDU, exactly
    once, when the last of them arrives.  Missing from the full claim: more than 15 segments, N201-U below 4. *)
Theorem C30_transfer_partial n npdu p0 rest sel c t s e :
  sent_as n npdu (p0 :: rest) -> reachable c -> entity c t s n = Some e -> Permutation sel rest ->
  exists c', run c (map (LlUnitdata t s) (p0 :: sel)) = Ok (c', [SnUnitdataInd t s n npdu]).
Proof.
  intros HS HR He HP. destruct (sent_carries _ _ _ HS) as (X & k & HC). destruct (reach_inv c HR) as [B HI].
  assert (Hn : 0 <= n < 16) by (destruct HS as (? & ? & ? & ? & ? & ? & ? & _ & _ & H & _); exact H).
  destruct (rx_whole n npdu p0 rest X k sel (e_df e) HC HP) as (d' & Hd & _).
  pose proof (carries_nsapi _ _ _ _ _ HC) as HF. inversion HF as [|? ? H1 H2]; subst.
  assert (HF' : Forall (fun p => nsapi_of p = n /\ p <> []) (p0 :: sel)).
  { constructor; [exact H1|]. apply Forall_forall. intros p Hp. rewrite Forall_forall in H2. apply H2.
    eapply Permutation_in; [exact HP|exact Hp]. }
  destruct (run_rx B t s n (p0 :: sel) c e d' [npdu] HI He Hn HF' Hd) as (c' & H & _).
  exists c'. exact H.
Qed.

(** Within the sizes of the standards (N201-U from 140 to 1520, N-PDUs up to 1503 octets) nothing is missing:
    the N-PDU is accepted, and it arrives, in whatever order the later segments come. *)
Theorem C30_standard_sizes c t s n e npdu cr tr sr er :
  reachable c -> entity c t s n = Some e -> 0 <= n -> 140 <= e_n201u e <= 1520 -> npdu <> [] -> zlen npdu <= 1503 ->
  reachable cr -> entity cr tr sr n = Some er ->
  exists c' outs p0 rest, step c (SnUnitdata t s n npdu None) = Ok (c', outs, 0) /\ down outs = p0 :: rest /\
    Forall (fun p => zlen p <= e_n201u e) (p0 :: rest) /\
    forall sel, Permutation sel rest ->
      exists cr', run cr (map (LlUnitdata tr sr) (p0 :: sel)) = Ok (cr', [SnUnitdataInd tr sr n npdu]).
Proof.
  intros HR He Hn H4 Hne HL HRr Her.
  destruct (C30_accepts c t s n e npdu HR He Hn ltac:(lia) Hne ltac:(lia)) as (c' & outs & HS).
  assert (Hn16 : n < 16) by (destruct (reach_inv c HR) as [B HI]; exact (proj2 (proj2 (proj2 (entity_ok B c t s n e HI Hn He))))).
  pose proof (C30_limit c t s n e npdu None c' outs 0 HR He Hn ltac:(lia) HS) as HLim.
  pose proof (C30_segments c t s n e npdu c' outs 0 HR He Hn ltac:(lia) HS) as (_ & _ & Hc & _).
  destruct (down outs) as [|p0 rest] eqn:Ed; [cbn in Hc; congruence|].
  exists c', outs, p0, rest. split; [exact HS|]. split; [exact Ed|]. split; [exact HLim|].
  intros sel HP. apply (C30_transfer_partial n npdu p0 rest sel cr tr sr er); try assumption.
  exists c, t, s, e, c', outs, 0. repeat split; try assumption; lia.
Qed.

(** Sixteen segments: segment numbers are taken modulo 15, so the sixteenth is numbered 0 again, and the
    receiver delivers an N-PDU of the right length with the wrong octets. *)
Theorem C30_sixteen_segments_refuted : exists c npdu x,
  reachable c /\ entity c tl 3 5 <> None /\ zlen npdu = 2055 /\
  length (down (outs_of c (SnUnitdata tl 3 5 npdu None))) = 16%nat /\
  ran (run c (map (LlUnitdata tl 3) (down (outs_of c (SnUnitdata tl 3 5 npdu None))))) = Some [SnUnitdataInd tl 3 5 x] /\
  x <> npdu.
Proof.
  exists c140, (seqz 2055), (nth 0 (map (fun o => match o with SnUnitdataInd _ _ _ x => x | _ => [] end)
    (match ran (run c140 (map (LlUnitdata tl 3) (down (outs_of c140 (SnUnitdata tl 3 5 (seqz 2055) None))))) with Some o => o | None => [] end)) []).
  split; [apply reach_after|].
  split; [vm_compute; discriminate|]. split; [vm_compute; reflexivity|]. split; [vm_compute; reflexivity|].
  split; [vm_compute; reflexivity|]. vm_compute. discriminate.
Qed.

(** On a SAPI for which there is no default N201-U the limit is 0, which the sender takes for no limit. *)
Theorem C30_no_default_refuted : exists c npdu p,
  reachable c /\ (exists e, entity c tl 4 5 = Some e /\ e_n201u e = 0) /\
  down (outs_of c (SnUnitdata tl 4 5 npdu None)) = [p] /\ zlen p = 3004.
Proof.
  exists (after [act 5 4]), (seqz 3000), (nth 0 (down (outs_of (after [act 5 4]) (SnUnitdata tl 4 5 (seqz 3000) None))) []).
  split; [apply reach_after|].
  split; [eexists; split; vm_compute; reflexivity|]. split; vm_compute; reflexivity.
Qed.

(** The 257th segment of one N-PDU carries the F bit again. *)
Theorem C30_first_bit_refuted : exists c npdu p,
  reachable c /\ entity c tl 3 5 <> None /\ zlen npdu = 300 /\
  nth_error (down (outs_of c (SnUnitdata tl 3 5 npdu None))) 256 = Some p /\ F_bit p = true.
Proof.
  exists (after [act 5 3; xid 4]), (seqz 300), (nth 256 (down (outs_of (after [act 5 3; xid 4]) (SnUnitdata tl 3 5 (seqz 300) None))) []).
  split; [apply reach_after|].
  split; [vm_compute; discriminate|]. split; [vm_compute; reflexivity|]. split; vm_compute; reflexivity.
Qed.

(** A concrete case: 1400 octets over the default N201-U of 500 make three segments. *)
Example C30_case :
  reachable c500 /\ (exists e, entity c500 tl 3 5 = Some e /\ e_n201u e = 500) /\
  map (@length Z) (down (outs_of c500 (SnUnitdata tl 3 5 (seqz 1400) None))) = [500%nat; 500%nat; 410%nat].
Proof.
  split; [apply reach_after|].
  split; [eexists; split; vm_compute; reflexivity|]. vm_compute. reflexivity.
Qed.

(** *** C31 *)
(** Whatever part of what reachable peers sent arrives, within the schedules of [SndcpSpec.schedule]: exactly
    the complete N-PDUs are delivered, in order, none is mixed.  Missing from the full claim: segments of an
    N-PDU whose first segment is lost while the N-PDU before it is incomplete, and repeated segments. *)
Theorem C31_partial n l arrivals delivered c t s e c' outs :
  Forall (fun x => sent_as n (fst x) (snd x)) l -> schedule l arrivals delivered ->
  Forall (fun p => nsapi_of p = n /\ p <> []) arrivals ->
  reachable c -> entity c t s n = Some e -> 0 <= n < 16 ->
  run c (map (LlUnitdata t s) arrivals) = Ok (c', outs) ->
  outs = map (SnUnitdataInd t s n) delivered.
Proof.
  intros HL HS HF HR He Hn H. destruct (reach_inv c HR) as [B HI].
  destruct (run_rx_inv B t s n arrivals c e c' outs HI He Hn HF H) as (d' & xs & Hx & ->). f_equal.
  eapply rx_schedule; [exact HS| |exact Hx]. eapply Forall_impl; [|exact HL]. intros x Hs. eapply sent_carries; exact Hs.
Qed.

(** SN-PDUs of N-PDUs [a] and [b] of three segments each, numbered 0 and 1. *)
Definition npdu_a : list Z := repeat 10 300.
Definition npdu_b : list Z := repeat 20 300.
Definition pdus_a : list (list Z) := down (outs_of c140 (SnUnitdata tl 3 5 npdu_a None)).
Definition c140_1 : ctx := after [act 5 3; xid 140; SnUnitdata tl 3 5 npdu_a None].
Definition pdus_b : list (list Z) := down (outs_of c140_1 (SnUnitdata tl 3 5 npdu_b None)).
Definition pick (l : list (list Z)) (i : nat) : list Z := nth i l [].

(** The first segment of [a] arrives, then only the later segments of [b]: an N-PDU starting with octets of
    [a] and ending with octets of [b] is delivered. *)
Theorem C31_mixed_refuted : exists x,
  reachable c140 /\ sent_as 5 npdu_a pdus_a /\ sent_as 5 npdu_b pdus_b /\
  ran (run c140 (map (LlUnitdata tl 3) [pick pdus_a 0; pick pdus_b 1; pick pdus_b 2])) = Some [SnUnitdataInd tl 3 5 x] /\
  nth 0 x 0 = 10 /\ nth 299 x 0 = 20 /\ x <> npdu_a /\ x <> npdu_b.
Proof.
  exists (repeat 10 136 ++ repeat 20 164).
  assert (R0 : reachable c140) by (apply reach_after).
  assert (R1 : reachable c140_1) by (apply reach_after).
  split; [exact R0|]. split.
  { eexists c140, tl, 3, _, _, _, _. split; [exact R0|]. split; [vm_compute; reflexivity|]. split; [lia|].
    split; [vm_compute; discriminate|]. split; [vm_compute; discriminate|]. split; vm_compute; reflexivity. }
  split.
  { eexists c140_1, tl, 3, _, _, _, _. split; [exact R1|]. split; [vm_compute; reflexivity|]. split; [lia|].
    split; [vm_compute; discriminate|]. split; [vm_compute; discriminate|]. split; vm_compute; reflexivity. }
  split; [vm_compute; reflexivity|]. split; [reflexivity|]. split; [reflexivity|]. split; vm_compute; discriminate.
Qed.

(** A repeated segment is counted twice, so zeros are appended to the N-PDU. *)
Theorem C31_repeated_refuted :
  reachable c140 /\ sent_as 5 npdu_a pdus_a /\
  ran (run c140 (map (LlUnitdata tl 3) [pick pdus_a 0; pick pdus_a 1; pick pdus_a 1; pick pdus_a 2])) =
  Some [SnUnitdataInd tl 3 5 (npdu_a ++ repeat 0 137)].
Proof.
  assert (R0 : reachable c140) by (apply reach_after).
  split; [exact R0|]. split.
  { eexists c140, tl, 3, _, _, _, _. split; [exact R0|]. split; [vm_compute; reflexivity|]. split; [lia|].
    split; [vm_compute; discriminate|]. split; [vm_compute; discriminate|]. split; vm_compute; reflexivity. }
  vm_compute. reflexivity.
Qed.

(** A concrete case: [a] loses its second segment, [b] comes in the order 1, 3, 2, and a late segment of [a]
    follows. *)
Example C31_case :
  schedule [(npdu_a, pdus_a); (npdu_b, pdus_b)]
    [pick pdus_a 0; pick pdus_a 2; pick pdus_b 0; pick pdus_b 2; pick pdus_b 1; pick pdus_a 1] [npdu_b] /\
  ran (run c140 (map (LlUnitdata tl 3) [pick pdus_a 0; pick pdus_a 2; pick pdus_b 0; pick pdus_b 2; pick pdus_b 1; pick pdus_a 1])) =
  Some [SnUnitdataInd tl 3 5 npdu_b].
Proof.
  split; [|vm_compute; reflexivity].
  change pdus_a with (pick pdus_a 0 :: [pick pdus_a 1; pick pdus_a 2]) at 1.
  change pdus_b with (pick pdus_b 0 :: [pick pdus_b 1; pick pdus_b 2]) at 1.
  apply (sch_part npdu_a (pick pdus_a 0) [pick pdus_a 1; pick pdus_a 2] [pick pdus_a 2] [pick pdus_a 1]
           [(npdu_b, pick pdus_b 0 :: [pick pdus_b 1; pick pdus_b 2])]
           [pick pdus_b 0; pick pdus_b 2; pick pdus_b 1; pick pdus_a 1] [npdu_b]); [apply perm_swap|discriminate|].
  apply (sch_whole npdu_b (pick pdus_b 0) [pick pdus_b 1; pick pdus_b 2] [pick pdus_b 2; pick pdus_b 1] [pick pdus_a 1] [] [] []).
  - apply perm_swap.
  - discriminate.
  - constructor; [split; [vm_compute; reflexivity|vm_compute; discriminate]|constructor].
  - apply sch_none.
Qed.

(** *** C32 *)
(** Any SN-PDU at any time is processed within its bounds, and when it is rejected nothing is delivered.
    Missing from the full claim: SN-PDUs of three octets with the F bit, and N-PDUs for which more than
    65279 octets are queued ([df_tot] counts them). *)
Theorem C32_partial ms evs c o t s p :
  run (init ms) evs = Ok (c, o) -> octets evs < 2 ^ 32 - zlen p -> p <> [] ->
  ~ (T_bit p = true /\ F_bit p = true /\ zlen p = 3) ->
  (forall e, entity c t s (nsapi_of p) = Some e -> F_bit p = false -> df_tot (e_df e) + zlen p <= 65279) ->
  exists c' outs rc, step c (LlUnitdata t s p) = Ok (c', outs, rc) /\ (rc < 0 -> outs = []) /\ (length outs <= 1)%nat.
Proof.
  intros HR HO Hne H3 HQ. destruct (run_inv evs 0 _ _ _ (Inv_init ms) HR) as [HI _]. rewrite Z.add_0_l in HI.
  pose proof (octets_nonneg evs) as HO0. pose proof (zlen_nonneg p) as Hz.
  destruct p as [|b q]; [congruence|]. set (p := b :: q) in *.
  assert (Hp : 1 <= zlen p) by (unfold p; rewrite zlen_cons; pose proof (zlen_nonneg q); lia).
  cbn [step]. destruct (zlen p =? 0) eqn:Ez; [lia|]. change (rd p 0) with (@Ok Z b). cbn [bind].
  rewrite (h_nsapi_of p b eq_refl).
  assert (Hn : 0 <= nsapi_of p < 16) by (unfold nsapi_of; apply Z.mod_pos_bound; lia).
  assert (HB : exists r, by_dlci_nsapi c t s (nsapi_of p) = Ok r).
  { unfold by_dlci_nsapi. destruct (find_tlli (c_snme c) t) as [[i m]|]; [|eauto]. unfold get_sne.
    destruct ((0 <=? nsapi_of p) && (nsapi_of p <? 16)) eqn:E; [|lia]. cbn [bind].
    destruct (nth (Z.to_nat (nsapi_of p)) (m_sne m) None) as [e|]; [destruct (e_sapi e =? s)|]; eauto. }
  destruct HB as (r & HB). rewrite HB. cbn [bind]. apply by_dlci_spec in HB.
  destruct r as [[[i m] e]|]; [|eexists _, _, _; split; [reflexivity|]; split; [reflexivity|cbn; lia]].
  destruct HB as (Ef & En & Es & _ & He). destruct (Inv_find _ _ _ _ _ HI Ef) as [L HK].
  destruct (HK _ _ En) as (A1 & A2 & A3 & A4 & A5).
  assert (G : exists d o rc, unitdata_ind (e_df e) p = Ok (d, o, rc) /\ (rc < 0 -> o = None)).
  { rewrite unitdata_ind_spec by discriminate. destruct (T_bit p) eqn:ET; cbn [negb]; [|eexists _, _, _; split; reflexivity].
    destruct (zlen p <? 3); [eexists _, _, _; split; reflexivity|].
    destruct (F_bit p) eqn:EF; cbn [andb].
    - destruct (zlen p =? 3) eqn:E3; [exfalso; apply H3; repeat split; lia|].
      destruct (M_bit p) eqn:EM; cbn [negb].
      + assert (N : df_nomore (absorb (e_df e) p) = false) by (unfold absorb; rewrite EF, EM; reflexivity).
        rewrite N. eexists _, _, _. split; reflexivity.
      + cbv zeta. destruct (zlen p =? 4); eexists _, _, _; (split; [reflexivity|]); [reflexivity|lia].
    - destruct (df_nomore (absorb (e_df e) p) && have_all (absorb (e_df e) p)); [|eexists _, _, _; split; reflexivity].
      destruct (A5 ltac:(lia)) as [B1 B2]. destruct (absorb_ok _ _ p A5 ltac:(lia)) as [B3 B4].
      assert (B5 : df_tot (absorb (e_df e) p) <= 65279).
      { specialize (HQ e He eq_refl). unfold absorb. rewrite EF.
        assert (df_tot (enqueue (e_df e) (seg_of p) (payload p)) <= 65279).
        { unfold enqueue. cbn [df_tot]. pose proof (payload_len p). pose proof (zlen_nonneg (payload p)).
          rewrite Z.mod_small by lia. lia. }
        destruct (M_bit p); assumption. }
      destruct (segments_ok _ B3 ltac:(lia)) as (d1 & o1 & rc1 & -> & _ & H1 & _). eauto 10. }
  destruct G as (d & x & rc & -> & Hrc). cbn [bind]. eexists _, _, _. split; [reflexivity|].
  split; [intros H; rewrite (Hrc H); reflexivity|destruct x; cbn; lia].
Qed.

(** A first segment of three octets: the N-PDU number is read from the octet behind it. *)
Theorem C32_short_first_refuted : reachable c500 /\ forall low,
  step c500 (LlUnitdata tl 3 [101; 0; low]) = UB /\ step c500 (LlUnitdata tl 3 [117; 0; low]) = UB.
Proof.
  split; [apply reach_after|]. intros low. split; vm_compute; reflexivity.
Qed.

(** Repeating a segment queues octets without end, and when the N-PDU is completed it does not fit a message:
    45 segments of 1500 octets are enough. *)
Theorem C32_queue_refuted : exists evs, reachable c500 /\
  Forall (fun ev => exists p, ev = LlUnitdata tl 3 p /\ zlen p <= 1503) evs /\ run c500 evs = UB.
Proof.
  exists (LlUnitdata tl 3 [117; 0; 0; 0; 1] ::
          repeat (LlUnitdata tl 3 (53 :: 16 :: 0 :: repeat 1 1500)) 44 ++ [LlUnitdata tl 3 [37; 32; 0; 1]]).
  split; [apply reach_after|]. split.
  - constructor; [eexists; split; [reflexivity|vm_compute; discriminate]|]. apply Forall_app. split.
    + apply Forall_forall. intros x Hx. apply repeat_spec in Hx. subst x. eexists. split; [reflexivity|]. vm_compute. discriminate.
    + constructor; [eexists; split; [reflexivity|vm_compute; discriminate]|constructor].
  - vm_compute. reflexivity.
Qed.

Example C32_case : exists c' outs rc,
  step c500 (LlUnitdata tl 3 [101; 0; 0; 7; 1; 2; 3]) = Ok (c', outs, rc) /\ outs = [SnUnitdataInd tl 3 5 [1; 2; 3]].
Proof. eexists _, _, _. split; vm_compute; reflexivity. Qed.

(** *** C33 *)
(** All SN-PDUs of an N-PDU that LLC accepted carry one number, and those of the next N-PDU of this TLLI and
    NSAPI, whatever happens in between to others or on the receiving side, carry the next number modulo 4095.
    Missing from the full claim: the number space of the protocol has 4096 numbers. *)
Theorem C33_partial c t s n e npdu refuse c1 o1 mid c2 o2 npdu' refuse' c3 o3 rc :
  reachable c -> unique_tlli c -> 0 <= n -> entity c t s n = Some e ->
  step c (SnUnitdata t s n npdu refuse) = Ok (c1, o1, 0) ->
  run c1 mid = Ok (c2, o2) -> Forall (fun ev => ~ renumbers ev t n) mid ->
  step c2 (SnUnitdata t s n npdu' refuse') = Ok (c3, o3, rc) ->
  exists x, 0 <= x < 4095 /\ down o1 <> [] /\ Forall (fun p => npdu_nr p = x) (down o1) /\
    down o3 <> [] /\ Forall (fun p => npdu_nr p = (x + 1) mod 4095) (down o3).
Proof.
  intros HR HU Hn He H1 H2 HF H3. destruct (reach_inv c HR) as [B HI].
  destruct (entity_ok B c t s n e HI Hn He) as ((A1 & A2 & A3 & A4 & A5) & Hs & Hns & Hn16).
  destruct (send_number B c t s n e npdu refuse c1 o1 0 HI Hn He H1) as (F1 & N1 & e1 & He1 & T1). specialize (T1 eq_refl).
  destruct (step_inv B c _ c1 o1 0 HI H1) as (I1 & U1 & _).
  assert (U : unique_tlli c1) by (apply U1; [intros x y; discriminate|exact HU]).
  destruct (run_tx t s n ltac:(lia) mid _ c1 c2 o2 e1 I1 U He1 H2 HF) as (e2 & B2 & I2 & He2 & T2).
  destruct (send_number B2 c2 t s n e2 npdu' refuse' c3 o3 rc I2 Hn He2 H3) as (F3 & N3 & _).
  exists (e_tx e). split; [lia|]. split; [exact N1|]. split; [exact F1|]. split; [exact N3|].
  eapply Forall_impl; [|exact F3]. intros p Hp. rewrite Hp, T2. exact T1.
Qed.

(** The state after [k] N-PDUs of one octet. *)
Lemma sends k : exists c o e, run (init true) (act 5 3 :: repeat (SnUnitdata tl 3 5 [1] None) k) = Ok (c, o) /\
  entity c tl 3 5 = Some e /\ e_n201u e = 500 /\ e_tx e = Z.of_nat k mod 4095.
Proof.
  induction k as [|k (c & o & e & HR & He & Hu & Ht)].
  - eexists _, _, _. split; [vm_compute; reflexivity|]. split; [vm_compute; reflexivity|]. split; reflexivity.
  - assert (R : reachable c) by (exists true; eexists _, _; exact HR). destruct (reach_inv c R) as [B HI].
    destruct (C30_accepts c tl 3 5 e [1] R He ltac:(lia) ltac:(lia) ltac:(discriminate) ltac:(vm_compute; discriminate)) as (c' & outs & HS).
    destruct (send_number B c tl 3 5 e [1] None c' outs 0 HI ltac:(lia) He HS) as (_ & _ & e' & He' & T). specialize (T eq_refl).
    destruct (step_send_inv B c tl 3 5 e [1] None c' outs 0 HI ltac:(lia) He HS) as (_ & e2 & ps & Hr & _ & He2).
    rewrite He' in He2. inversion He2; subst e2.
    destruct (entity_ok B c tl 3 5 e HI ltac:(lia) He) as ((_ & _ & A3 & _) & _).
    destruct (req_ok _ _ _ _ _ _ Hr A3) as (_ & _ & _ & Q & _).
    exists c', (o ++ outs), e'. split; [|split; [exact He'|split; [lia|]]].
    + change (act 5 3 :: repeat (SnUnitdata tl 3 5 [1] None) (S k)) with
        (act 5 3 :: SnUnitdata tl 3 5 [1] None :: repeat (SnUnitdata tl 3 5 [1] None) k).
      rewrite repeat_cons. rewrite app_comm_cons, run_app, HR. cbn [bind fst snd run]. rewrite HS. cbn [bind fst snd].
      rewrite app_nil_r. reflexivity.
    + rewrite T, Ht. rewrite Zplus_mod_idemp_l. f_equal. lia.
Qed.

Lemma sends_to z : 0 <= z < 4095 -> exists c e, reachable c /\ entity c tl 3 5 = Some e /\ e_n201u e = 500 /\ e_tx e = z.
Proof.
  intros Hz. destruct (sends (Z.to_nat z)) as (c & o & e & HR & He & Hu & Ht). exists c, e.
  split; [exists true; eexists _, _; exact HR|]. split; [exact He|]. split; [exact Hu|].
  rewrite Ht, Z2Nat.id by lia. apply Z.mod_small. lia.
Qed.

(** After number 4094 comes 0: number 4095 is left out. *)
Theorem C33_wrap_refuted : exists c c1 o1 c2 o2, reachable c /\
  step c (SnUnitdata tl 3 5 [1] None) = Ok (c1, o1, 0) /\ step c1 (SnUnitdata tl 3 5 [1] None) = Ok (c2, o2, 0) /\
  Forall (fun p => npdu_nr p = 4094) (down o1) /\ Forall (fun p => npdu_nr p = 0) (down o2) /\ down o1 <> [] /\ down o2 <> [].
Proof.
  destruct (sends_to 4094 ltac:(lia)) as (c & e & R & He & Hu & Ht). destruct (reach_inv c R) as [B HI].
  destruct (C30_accepts c tl 3 5 e [1] R He ltac:(lia) ltac:(lia) ltac:(discriminate) ltac:(vm_compute; discriminate)) as (c1 & o1 & H1).
  destruct (send_number B c tl 3 5 e [1] None c1 o1 0 HI ltac:(lia) He H1) as (F1 & N1 & e1 & He1 & T1). specialize (T1 eq_refl).
  destruct (step_send_inv B c tl 3 5 e [1] None c1 o1 0 HI ltac:(lia) He H1) as (_ & e2 & ps & Hr & _ & He2).
  rewrite He1 in He2. inversion He2; subst e2.
  destruct (entity_ok B c tl 3 5 e HI ltac:(lia) He) as ((_ & _ & A3 & _) & _).
  destruct (req_ok _ _ _ _ _ _ Hr A3) as (_ & _ & _ & Q & _).
  pose proof (reach_step _ _ _ _ _ R H1) as R1. destruct (reach_inv c1 R1) as [B1 I1].
  destruct (C30_accepts c1 tl 3 5 e1 [1] R1 He1 ltac:(lia) ltac:(lia) ltac:(discriminate) ltac:(vm_compute; discriminate)) as (c2 & o2 & H2).
  destruct (send_number B1 c1 tl 3 5 e1 [1] None c2 o2 0 I1 ltac:(lia) He1 H2) as (F2 & N2 & _).
  exists c, c1, o1, c2, o2. split; [exact R|]. split; [exact H1|]. split; [exact H2|].
  split; [rewrite <- Ht; exact F1|]. split; [|auto].
  rewrite Ht in T1. change ((4094 + 1) mod 4095) with 0 in T1. rewrite <- T1. exact F2.
Qed.

(** An N-PDU that LLC refuses uses up a number when it fits one SN-PDU, but not when it is segmented: then the
    next N-PDU has the same number as the segments already sent. *)
Theorem C33_refused_refuted :
  let big := SnUnitdata tl 3 5 (repeat 1 600) in let small := SnUnitdata tl 3 5 [1] in
  let numbers evs := match run c500 evs with Ok (_, o) => map npdu_nr (down o) | _ => [] end in
  reachable c500 /\
  numbers [small None; small (Some 0%nat); small None] = [0; 1; 2] /\
  numbers [small None; big (Some 1%nat); small None] = [0; 1; 1; 1].
Proof.
  cbv zeta. split; [apply reach_after|]. split; vm_compute; reflexivity.
Qed.

Example C33_case : unique_tlli c500 /\ exists e, entity c500 tl 3 5 = Some e /\
  match run c500 [SnUnitdata tl 3 5 (repeat 1 600) None; act 6 3; LlUnitdata tl 3 [101; 0; 0; 7; 1; 2; 3]; SnUnitdata tl 3 5 [9] None] with
  | Ok (_, o) => map npdu_nr (down o) = [0; 0; 1] | _ => False end.
Proof.
  split; [unfold unique_tlli; vm_compute; repeat constructor; intros []|]. eexists. split; vm_compute; reflexivity.
Qed.

(** *** C43 *)
(** An event leaves alone every entity of another TLLI or NSAPI. *)
Theorem C43_isolation c ev c' outs rc t s n :
  reachable c -> unique_tlli c -> step c ev = Ok (c', outs, rc) -> 0 <= n < 16 -> ~ concerns ev t n ->
  entity c' t s n = entity c t s n.
Proof.
  intros HR HU H Hn HC. destruct (reach_inv c HR) as [B HI].
  destruct (step_inv B c ev c' outs rc HI H) as (_ & _ & HF). apply HF; assumption.
Qed.

(** TLLIs stay unique as long as no TLLI is replaced. *)
Theorem C43_unique ms evs c o :
  run (init ms) evs = Ok (c, o) -> (forall t new, ~ In (LlAssign t new) evs) -> unique_tlli c.
Proof. intros H HA. destruct (run_inv evs 0 _ _ _ (Inv_init ms) H) as [_ HN]. apply HN; [exact HA|constructor]. Qed.

(** What an event causes is about the TLLI, SAPI and NSAPI the event is about. *)
Theorem C43_outputs c ev c' outs rc :
  reachable c -> step c ev = Ok (c', outs, rc) -> Forall (about c ev) outs.
Proof.
  intros HR H. destruct (reach_inv c HR) as [B HI].
  destruct ev as [t0 s0 n0 npdu refuse|t0 s0 p|t0 s0 u i0|t0 t1|t0 s0|t0 n0 s0 q pr|t0 n0].
  - destruct (entity c t0 s0 n0) as [e|] eqn:He.
    + assert (Hn : 0 <= n0).
      { cbn [step] in H. destruct (zlen npdu =? 0); [discriminate|].
        destruct (by_dlci_nsapi c t0 s0 n0) as [r|er|] eqn:E; [|discriminate|discriminate]. apply by_dlci_spec in E.
        destruct r as [[[i m] x]|]; [|congruence]. lia. }
      destruct (step_send_inv B c t0 s0 n0 e npdu refuse c' outs rc HI Hn He H) as (Hne & e' & pdus & Hr & -> & _).
      destruct (entity_ok B c t0 s0 n0 e HI Hn He) as ((A1 & A2 & A3 & A4 & A5) & Hs & Hns & Hn16).
      destruct (req_limits _ _ _ _ A4 Hr) as [L1 L2].
      destruct (req_cases e npdu A4 Hne L1 L2) as (xs & Hc & _ & _ & Hreq). rewrite Hreq in Hr.
      assert (E : pdus = match refuse with None => build e 0 xs | Some k => firstn (S k) (build e 0 xs) end) by congruence.
      pose proof (build_nsapi e ltac:(lia) ltac:(lia) xs 0) as HB. rewrite Forall_forall in HB.
      apply Forall_forall. intros o Ho. apply in_map_iff in Ho as (p & <- & Hp). cbn [about].
      split; [reflexivity|]. split; [reflexivity|]. rewrite <- Hns. apply HB. rewrite E in Hp.
      destruct refuse as [k|]; [|exact Hp]. apply In_nth_error in Hp as [i Hp]. apply nth_error_firstn in Hp.
      eapply nth_error_In; exact Hp.
    + cbn [step] in H. destruct (zlen npdu =? 0); [discriminate|].
      destruct (by_dlci_nsapi c t0 s0 n0) as [r|er|] eqn:E; [|discriminate|discriminate]. apply by_dlci_spec in E.
      destruct r as [[[i m] x]|]; [destruct E as (_ & _ & _ & _ & E); congruence|]. cbn [bind] in H. inversion H. constructor.
  - cbn [step] in H. destruct (zlen p =? 0); [discriminate|].
    destruct (rd p 0) as [h|er|] eqn:Eh; [|discriminate|discriminate]. cbn [bind] in H.
    apply rd_inv in Eh as [_ Eh]. assert (Eh' : nth 0 p 0 = h) by (symmetry; exact Eh). rewrite (h_nsapi_of p h Eh') in H.
    destruct (by_dlci_nsapi c t0 s0 (nsapi_of p)) as [r|er|] eqn:E; [|discriminate|discriminate]. cbn [bind] in H.
    apply by_dlci_spec in E. destruct r as [[[i m] e]|]; [|inversion H; constructor].
    destruct E as (Ef & En & Es & Hn & Ee). pose proof (find_tlli_some _ _ _ _ Ef) as (_ & Hm & _).
    destruct (Inv_find _ _ _ _ _ HI Ef) as [L HK]. destruct (HK _ _ En) as (A1 & _).
    destruct (unitdata_ind (e_df e) p) as [[[d x] rc']|er|]; [|discriminate|discriminate]. cbn [bind] in H. inversion H; subst.
    destruct x; constructor; [|constructor]. cbn [about]. split; [reflexivity|]. split; [reflexivity|lia].
  - cbn [step] in H. destruct (find_tlli (c_snme c) t0) as [[i m]|]; [|inversion H; constructor].
    destruct (first_on s0 (m_sne m)) as [[k e]|]; inversion H; constructor.
  - cbn [step] in H. destruct (find_tlli (c_snme c) t0) as [[i m]|]; inversion H; constructor.
  - cbn [step] in H. destruct (find_tlli (c_snme c) t0) as [[i m]|] eqn:Ef; [|inversion H; constructor].
    pose proof (find_tlli_some _ _ _ _ Ef) as (_ & Hm & _).
    destruct (first_on s0 (m_sne m)) as [[k e]|] eqn:E1; inversion H; subst; constructor; [|constructor].
    apply first_on_some in E1 as [E1 E2]. destruct (Inv_find _ _ _ _ _ HI Ef) as [L HK]. destruct (HK _ _ E1) as (A1 & _).
    cbn [about]. split; [reflexivity|]. rewrite (entity_find _ _ _ _ _ _ Ef), A1, Nat2Z.id, E1, E2, Z.eqb_refl. discriminate.
  - cbn [step] in H. rewrite activate_act in H. destruct (act_ctx c t0) as [[c1 i] m] eqn:EA.
    destruct (act_ctx_spec B c t0 c1 i m HI EA) as (HI1 & E & _).
    unfold get_sne in H. destruct ((0 <=? n0) && (n0 <? 16)) eqn:En0; [|discriminate]. cbn [bind] in H.
    destruct (Inv_find _ _ _ _ _ HI1 E) as [L HK].
    assert (X : exists e, match nth (Z.to_nat n0) (m_sne m) None with Some e => Ok e | None => sne_alloc s0 n0 end = Ok e /\
                e_nsapi e = n0).
    { destruct (nth (Z.to_nat n0) (m_sne m) None) as [e|] eqn:E1.
      - exists e. split; [reflexivity|]. apply nth_nth_error in E1. destruct (HK _ _ E1) as (A1 & _). lia.
      - destruct (sne_alloc s0 n0) as [e|er|] eqn:E2; [|discriminate|discriminate]. exists e. split; [reflexivity|].
        destruct (alloc_ok B s0 n0 e ltac:(apply HI) ltac:(lia) E2) as (A1 & _). lia. }
    destruct X as (e & Ee & He). rewrite Ee in H. cbn [bind] in H.
    destruct (negb (c_ms c)); [inversion H; constructor|]. destruct q as [[pk rl]|]; inversion H; [|constructor].
    constructor; [|constructor]. cbn [about]. split; [reflexivity|exact He].
  - cbn [step] in H. unfold deactivate in H. destruct (find_tlli (c_snme c) t0) as [[i m]|]; [|inversion H; constructor].
    destruct (get_sne m n0) as [[e|]|er|]; cbn [bind] in H; inversion H; constructor; [|constructor].
    cbn [about]. split; reflexivity.
Qed.

(** Data for an entity that does not exist is rejected without any effect. *)
Theorem C43_unknown c t s n :
  0 <= n < 16 -> entity c t s n = None ->
  (forall npdu refuse, npdu <> [] -> step c (SnUnitdata t s n npdu refuse) = Ok (c, [], - EIO)) /\
  (forall p, p <> [] -> nsapi_of p = n -> step c (LlUnitdata t s p) = Ok (c, [], - EIO)).
Proof.
  intros Hn He.
  assert (HB : by_dlci_nsapi c t s n = Ok None).
  { unfold by_dlci_nsapi. destruct (find_tlli (c_snme c) t) as [[i m]|] eqn:Ef; [|reflexivity]. unfold get_sne.
    destruct ((0 <=? n) && (n <? 16)) eqn:E; [|lia]. cbn [bind]. rewrite (entity_find _ _ _ _ _ _ Ef) in He.
    destruct (nth (Z.to_nat n) (m_sne m) None) as [e|] eqn:E1; [|reflexivity]. apply nth_nth_error in E1. rewrite E1 in He.
    destruct (e_sapi e =? s); [discriminate|reflexivity]. }
  split.
  - intros npdu refuse Hne. cbn [step].
    destruct (zlen npdu =? 0) eqn:Ez; [destruct npdu; [congruence|rewrite zlen_cons in Ez; pose proof (zlen_nonneg npdu); lia]|].
    rewrite HB. reflexivity.
  - intros p Hne Hp. cbn [step]. destruct p as [|b q]; [congruence|].
    destruct (zlen (b :: q) =? 0) eqn:Ez; [rewrite zlen_cons in Ez; pose proof (zlen_nonneg q); lia|].
    change (rd (b :: q) 0) with (@Ok Z b). cbn [bind]. rewrite (h_nsapi_of (b :: q) b eq_refl), Hp, HB. reflexivity.
Qed.

(** Replacing a TLLI by one already in use hides the entities that had it: what is then addressed to them goes
    to the entities of the other one. *)
Definition c_two : ctx := after [SnsmActivate 2 5 3 (Some (1, 3)) 0; SnsmActivate 1 5 3 (Some (1, 3)) 0; SnUnitdata 2 3 5 [1] None].
Theorem C43_assign_refuted : exists c' e e',
  reachable c_two /\ unique_tlli c_two /\ step c_two (LlAssign 1 2) = Ok (c', [], 0) /\ ~ unique_tlli c' /\
  entity c_two 2 3 5 = Some e /\ entity c' 2 3 5 = Some e' /\ e_tx e = 1 /\ e_tx e' = 0.
Proof.
  eexists _, _, _. split; [apply reach_after|].
  split; [unfold unique_tlli; vm_compute; repeat constructor; cbn; intuition discriminate|].
  split; [vm_compute; reflexivity|]. split.
  - unfold unique_tlli. vm_compute. intros H. inversion H as [|? ? H1 _]. apply H1. left. reflexivity.
  - split; [vm_compute; reflexivity|]. split; [vm_compute; reflexivity|]. split; reflexivity.
Qed.

Example C43_case : exists c' outs rc e,
  reachable c_two /\ unique_tlli c_two /\ step c_two (SnUnitdata 1 3 5 [7] None) = Ok (c', outs, rc) /\
  ~ concerns (SnUnitdata 1 3 5 [7] None) 2 5 /\ entity c_two 2 3 5 = Some e.
Proof.
  eexists _, _, _, _. split; [apply reach_after|].
  split; [unfold unique_tlli; vm_compute; repeat constructor; cbn; intuition discriminate|].
  split; [vm_compute; reflexivity|]. split; [cbn; lia|]. vm_compute. reflexivity.
Qed.

(** *** C44 *)
(** The N201-U that LLC negotiated bounds the SN-PDUs of the entity with the lowest NSAPI on the SAPI.  Missing
    from the full claim: the other entities on it. *)
Theorem C44_partial c t s n e u i c1 o1 rc1 npdu refuse c2 o2 rc2 :
  reachable c -> 0 <= n < 16 -> entity c t s n = Some e -> (forall k, 0 <= k < n -> entity c t s k = None) ->
  4 <= u <= 65535 -> step c (LlXid t s u i) = Ok (c1, o1, rc1) ->
  step c1 (SnUnitdata t s n npdu refuse) = Ok (c2, o2, rc2) ->
  Forall (fun p => zlen p <= u) (down o2).
Proof.
  intros HR Hn He HF Hu H1 H2. destruct (reach_inv c HR) as [B HI]. pose proof (reach_step _ _ _ _ _ HR H1) as HR1.
  destruct (entity_lookup B c t s n e HI ltac:(lia) He) as (j & m & Ef & Hm & HL & _).
  pose proof He as He'. rewrite (entity_find _ _ _ _ _ _ Ef) in He'.
  destruct (nth_error (m_sne m) (Z.to_nat n)) as [[x|]|] eqn:En; try discriminate.
  destruct (e_sapi x =? s) eqn:Es; [|discriminate]. inversion He'; subst x. clear He'.
  assert (HO : first_on s (m_sne m) = Some (Z.to_nat n, e)).
  { assert (HF' : forall k x, (k < Z.to_nat n)%nat -> nth_error (m_sne m) k = Some (Some x) -> e_sapi x <> s).
    { intros k x Hk Hx Hs. specialize (HF (Z.of_nat k) ltac:(lia)). rewrite (entity_find _ _ _ _ _ _ Ef), Nat2Z.id, Hx in HF.
      rewrite Hs, Z.eqb_refl in HF. discriminate. }
    clear -En Es HF'. revert En HF'. generalize (Z.to_nat n) as k. induction (m_sne m) as [|a r IH]; intros k En HF'; [destruct k; discriminate|].
    destruct k as [|k].
    - cbn in En. inversion En; subst. cbn [first_on]. rewrite Es. reflexivity.
    - cbn [first_on]. rewrite (IH k En) by (intros k' x Hk Hx; apply (HF' (S k')); [lia|exact Hx]).
      destruct a as [a|]; [|reflexivity]. destruct (e_sapi a =? s) eqn:Ea; [|reflexivity].
      exfalso. apply (HF' 0%nat a); [lia|reflexivity|lia]. }
  cbn [step] in H1. rewrite Ef, HO in H1. inversion H1; subst c1.
  assert (He1 : entity (put_sne c j m (Z.to_nat n) (Some (set_n201 e (u mod 65536) (i mod 65536)))) t s n =
                Some (set_n201 e (u mod 65536) (i mod 65536))).
  { rewrite (entity_put c t j m) by (assumption || lia). rewrite Z.eqb_refl, Nat.eqb_refl. cbn [andb set_n201 e_sapi].
    rewrite Es. reflexivity. }
  pose proof (C30_limit _ t s n _ npdu refuse c2 o2 rc2 HR1 He1 ltac:(lia)) as HC.
  cbn [set_n201 e_n201u] in HC. rewrite (Z.mod_small u) in HC by lia. apply HC; [lia|].
  rewrite (Z.mod_small u) in H2 by lia. exact H2.
Qed.

(** Until LLC negotiates something else, a newly activated NSAPI has the N201-U and N201-I that TS 44.064 table 9
    gives for its SAPI. *)
Theorem C44_default c t s n qos prio c' outs rc :
  reachable c -> 0 <= n < 16 -> (forall s', entity c t s' n = None) ->
  step c (SnsmActivate t n s qos prio) = Ok (c', outs, rc) ->
  exists e, entity c' t s n = Some e /\
  (s = 1 -> e_n201u e = 400 /\ e_n201i e = 0) /\
  (s = 2 \/ s = 7 \/ s = 8 -> e_n201u e = 270 /\ e_n201i e = 0) /\
  (s = 3 \/ s = 5 \/ s = 9 \/ s = 11 -> e_n201u e = 500 /\ e_n201i e = 1503).
Proof.
  intros HR Hn HE H. destruct (reach_inv c HR) as [B HI]. cbn [step] in H. unfold activate in H. fold (act_ctx c t) in H.
  destruct (act_ctx c t) as [[c1 i] m] eqn:E1.
  destruct (act_ctx_spec B c t c1 i m HI E1) as (HI1 & Ef & _ & HEq & _).
  destruct (Inv_find _ _ _ _ _ HI1 Ef) as [L _].
  unfold get_sne in H. replace ((0 <=? n) && (n <? 16)) with true in H by lia. cbn [bind] in H.
  assert (EN : nth (Z.to_nat n) (m_sne m) None = None).
  { destruct (nth (Z.to_nat n) (m_sne m) None) as [e|] eqn:E2; [|reflexivity]. exfalso.
    specialize (HE (e_sapi e)). rewrite <- HEq, (entity_find _ _ _ _ _ _ Ef), (proj1 (nth_nth_error _ _ _) E2), Z.eqb_refl in HE.
    discriminate. }
  rewrite EN in H. unfold sne_alloc in H. destruct ((0 <=? s) && (s <? 16)) eqn:Es; [|discriminate]. cbn [bind] in H.
  assert (G : exists e', c' = put_sne c1 i m (Z.to_nat n) (Some e') /\ e_sapi e' = s /\
    e_n201u e' = fst (default_n201 s) /\ e_n201i e' = snd (default_n201 s)).
  { destruct (negb (c_ms c)); [inversion H; subst; eexists; repeat split|]. destruct qos as [[pk rl]|]; inversion H; subst; eexists; repeat split. }
  destruct G as (e' & -> & Hs & Hu & Hi). exists e'. split.
  - rewrite (entity_put c1 t i m) by (assumption || lia). rewrite Z.eqb_refl, Nat.eqb_refl. cbn [andb]. rewrite Hs, Z.eqb_refl. reflexivity.
  - rewrite Hu, Hi. clear. split; [intros ->; split; reflexivity|]. split.
    + intros [->|[->| ->]]; split; reflexivity.
    + intros [->|[->|[->| ->]]]; split; reflexivity.
Qed.

(** NSAPI 6 shares SAPI 3 with NSAPI 5; after N201-U was negotiated to 140 it still sends 500 octets. *)
Definition c_shared : ctx := after [act 5 3; act 6 3; xid 140].
Theorem C44_refuted : exists p,
  reachable c_shared /\ In p (down (outs_of c_shared (SnUnitdata tl 3 6 (repeat 1 600) None))) /\ zlen p = 500.
Proof.
  exists (nth 0 (down (outs_of c_shared (SnUnitdata tl 3 6 (repeat 1 600) None))) []).
  split; [apply reach_after|]. split; [vm_compute; left; reflexivity|vm_compute; reflexivity].
Qed.

Example C44_default_case : exists c' outs rc,
  (forall s', entity c500 tl s' 6 = None) /\ step c500 (act 6 9) = Ok (c', outs, rc).
Proof.
  eexists _, _, _. split; [|vm_compute; reflexivity]. intros s'. vm_compute. reflexivity.
Qed.

Example C44_case : exists e c1 o1 rc1, reachable (after [act 5 3; act 6 3]) /\ entity (after [act 5 3; act 6 3]) tl 3 5 = Some e /\
  step (after [act 5 3; act 6 3]) (xid 140) = Ok (c1, o1, rc1) /\
  map (@length Z) (down (outs_of c1 (SnUnitdata tl 3 5 (repeat 1 200) None))) = [140%nat; 67%nat].
Proof.
  eexists _, _, _, _. split; [apply reach_after|]. split; [vm_compute; reflexivity|].
  split; [vm_compute; reflexivity|]. vm_compute. reflexivity.
Qed.

Print Assumptions C30_limit.
Print Assumptions C30_segments.
Print Assumptions C30_accepts.
Print Assumptions C30_transfer_partial.
Print Assumptions C30_standard_sizes.
Print Assumptions C30_sixteen_segments_refuted.
Print Assumptions C30_no_default_refuted.
Print Assumptions C30_first_bit_refuted.
Print Assumptions C31_partial.
Print Assumptions C31_mixed_refuted.
Print Assumptions C31_repeated_refuted.
Print Assumptions C32_partial.
Print Assumptions C32_short_first_refuted.
Print Assumptions C32_queue_refuted.
Print Assumptions C33_partial.
Print Assumptions C33_wrap_refuted.
Print Assumptions C33_refused_refuted.
Print Assumptions C43_isolation.
Print Assumptions C43_unique.
Print Assumptions C43_outputs.
Print Assumptions C43_unknown.
Print Assumptions C43_assign_refuted.
Print Assumptions C44_partial.
Print Assumptions C44_default.
Print Assumptions C44_refuted.
