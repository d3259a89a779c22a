(** Proofs about the model of session management: answers of the network in full. *)
From Verif.Lib Require Import Base Outcome.
From Verif.Sm Require Import SmModel SmProofs SmProofs2 SmProofs3 SmExec SmRun.

(** The PDP address of 3GPP TS 24.008, 10.5.6.4, IETF: type, IPv4 address, IPv6 address. *)
Definition addr_read (v : list Z) : option (Z * option (list Z) * option (list Z)) :=
  match v with
  | o :: t :: a =>
      if o mod 16 =? 1 then
        if t =? 0x21 then (if zlen a =? 0 then Some (t, None, None) else if zlen a =? 4 then Some (t, Some a, None) else None)
        else if t =? 0x57 then (if zlen a =? 0 then Some (t, None, None) else if zlen a =? 16 then Some (t, None, Some a) else None)
        else if t =? 0x8d then
          (if zlen a =? 0 then Some (t, None, None) else if zlen a =? 4 then Some (t, Some a, None)
           else if zlen a =? 20 then Some (t, Some (firstn 4 a), Some (skipn 4 a)) else None)
        else None
      else None
  | _ => None end.

Lemma land15 o : Z.land o 0x0f = o mod 16.
Proof. change 0x0f with (Z.ones 4). rewrite Z.land_ones by lia. reflexivity. Qed.
Lemma slice_split p a b (l : list Z) : slice p (a + b) l = slice p a l ++ slice (p + a) b l.
Proof. unfold slice. rewrite (Nat.add_comm p a), <- (skipn_skipn a p l). generalize (skipn p l). clear. intros l. revert l. induction a as [|a IH]; intros [|x l]; cbn; try reflexivity; [destruct b; reflexivity|f_equal; apply IH]. Qed.

Lemma addr_dec_exec pdu p n t a4 a6 i s :
  0 <= p -> 0 <= n <= 255 -> p + n <= zlen pdu -> addr_read (slice (Z.to_nat p) (Z.to_nat n) pdu) = Some (t, a4, a6) ->
  wp False (pdp_addr_dec pdu p n) (fun x o z => x = (i, set_atype t (set_v6 a6 (set_v4 a4 s))) /\ o = [] /\ z = 0) (i, s).
Proof.
  intros Hp Hn Hpn H.
  assert (Ln : zlen (slice (Z.to_nat p) (Z.to_nat n) pdu) = n) by (apply zlen_slice; lia).
  destruct (slice (Z.to_nat p) (Z.to_nat n) pdu) as [|o [|t0 a]] eqn:E; try discriminate H.
  rewrite !zlen_cons in Ln. pose proof (zlen_nonneg a) as La.
  assert (Eo : nth (Z.to_nat p) pdu 0 = o).
  { pose proof (nth_slice (Z.to_nat p) (Z.to_nat n) 0 pdu ltac:(lia)) as G. rewrite E, Nat.add_0_r in G. symmetry. exact G. }
  assert (Et : nth (Z.to_nat (p + 1)) pdu 0 = t0).
  { pose proof (nth_slice (Z.to_nat p) (Z.to_nat n) 1 pdu ltac:(lia)) as G. rewrite E in G. replace (Z.to_nat (p + 1)) with (Z.to_nat p + 1)%nat by lia. symmetry. exact G. }
  assert (Ea : slice (Z.to_nat (p + 2)) (Z.to_nat (n - 2)) pdu = a).
  { replace (Z.to_nat n) with (2 + Z.to_nat (n - 2))%nat in E by lia. rewrite slice_split in E.
    replace (Z.to_nat (p + 2)) with (Z.to_nat p + 2)%nat by lia.
    assert (length (slice (Z.to_nat p) 2 pdu) = 2%nat) as L2 by (apply slice_length; unfold zlen in Hpn; lia).
    destruct (slice (Z.to_nat p) 2 pdu) as [|x [|y [|]]]; try discriminate L2. cbn [app] in E. injection E as _ _ E. exact E. }
  cbn [addr_read] in H. destruct (o mod 16 =? 1) eqn:Eo1; [|discriminate].
  assert (Fin : forall s1 s2, set_atype t0 s1 = s2 -> wp False (upd (set_atype t0) ;; ret 0) (fun x o z => x = (i, s2) /\ o = [] /\ z = 0) (i, s1)).
  { intros s1 s2 <-. wpstep. wpstep. wpstep. repeat split. }
  unfold pdp_addr_dec, T_IPV4, T_IPV6, T_IPV4V6. wpstep. wpstep. wpstep. apply wp_rd; [right; lia|]. intros _. rewrite Eo, land15, Eo1. cbn [negb].
  wpstep. apply wp_rd; [right; lia|]. intros _. rewrite Et. rewrite (Z.mod_small (n - 2)) by lia. replace (n - 2) with (zlen a) by lia.
  assert (G16 : zlen a = 16 -> slice (Z.to_nat (p + 2)) (Z.to_nat 16) pdu = a) by (intros K; rewrite <- Ea; f_equal; lia).
  assert (G4 : zlen a = 4 -> slice (Z.to_nat (p + 2)) (Z.to_nat 4) pdu = a) by (intros K; rewrite <- Ea; f_equal; lia).
  remember (firstn 4 a) as f4 eqn:Ef4. remember (skipn 4 a) as s4 eqn:Es4.
  destruct (t0 =? 0x21) eqn:T1; [|destruct (t0 =? 0x57) eqn:T2; [|destruct (t0 =? 0x8d) eqn:T3; [|discriminate]]].
  - destruct (zlen a =? 0) eqn:L0; [|destruct (zlen a =? 4) eqn:L4; [|discriminate]]; injection H as <- <- <-.
    + replace (zlen a =? 4) with false by lia. cbn [negb app]. apply Fin. destruct s; reflexivity.
    + wpstep. apply wp_rdn; [right; lia|]. intros _ _ _. rewrite G4 by lia. wpstep. wpstep. apply Fin. destruct s; reflexivity.
  - destruct (zlen a =? 0) eqn:L0; [|destruct (zlen a =? 16) eqn:L4; [|discriminate]]; injection H as <- <- <-.
    + replace (zlen a =? 16) with false by lia. cbn [negb app]. apply Fin. destruct s; reflexivity.
    + wpstep. apply wp_rdn; [right; lia|]. intros _ _ _. rewrite G16 by lia. wpstep. wpstep. apply Fin. destruct s; reflexivity.
  - destruct (zlen a =? 0) eqn:L0; [|destruct (zlen a =? 4) eqn:L4; [|destruct (zlen a =? 20) eqn:L20; [|discriminate]]]; injection H as <- <- <-.
    + replace (zlen a =? 4) with false by lia. replace (zlen a =? 16) with false by lia. replace (zlen a =? 20) with false by lia. cbn [negb app]. apply Fin. destruct s; reflexivity.
    + wpstep. apply wp_rdn; [right; lia|]. intros _ _ _. rewrite G4 by lia. wpstep. wpstep. apply Fin. destruct s; reflexivity.
    + replace (zlen a =? 16) with false by lia.
      assert (E20 : slice (Z.to_nat (p + 2)) 4 pdu ++ slice (Z.to_nat (p + 2) + 4) 16 pdu = a).
      { rewrite <- slice_split. rewrite <- Ea. f_equal. lia. }
      assert (L4' : length (slice (Z.to_nat (p + 2)) 4 pdu) = 4%nat) by (apply slice_length; unfold zlen in Hpn; lia).
      wpstep. apply wp_rdn; [right; lia|]. intros _ _ _. wpstep. wpstep. wpstep. apply wp_rdn; [right; lia|]. intros _ _ _. wpstep. wpstep. apply Fin.
      replace (Z.to_nat (p + 6)) with (Z.to_nat (p + 2) + 4)%nat by lia. change (Z.to_nat 4) with 4%nat. change (Z.to_nat 16) with 16%nat.
      rewrite <- E20, firstn_app_exact in Ef4 by (symmetry; exact L4'). rewrite <- E20, skipn_app_exact in Es4 by (symmetry; exact L4'). rewrite Ef4, Es4. destruct s; reflexivity.
Qed.

(** An ACTIVATE PDP CONTEXT ACCEPT, and what it leaves in the entity. *)
Definition accept_pdu (h sap : Z) (qs : list Z) (pr : Z) (opts : list Z) : list Z := [h; 0x42; sap; zlen qs] ++ qs ++ pr :: opts.
Definition addr_set (es : list (Z * list Z)) (s : sme) : sme :=
  match el_find 0x2b es with
  | Some v => match addr_read v with Some (t, a4, a6) => set_atype t (set_v6 a6 (set_v4 a4 s)) | None => s end
  | None => s end.
Definition pco_set (es : list (Z * list Z)) (s : sme) : sme :=
  match el_find 0x27 es with Some v => set_pco (overlay v (pco s)) (set_plen (zlen v) s) | None => s end.
Definition accept_set (sap : Z) (qs : list Z) (pr : Z) (es : list (Z * list Z)) (s : sme) : sme :=
  pco_set es (addr_set es (set_prio pr (set_qos (overlay qs (qos s)) (set_sapi sap s)))).

Lemma rx_pco_exec pdu L i s v :
  bytes pdu -> Forall (in_pdu pdu) L -> (forall v, el_find 0x27 (map (value_of pdu) L) = Some v -> zlen v <= 253) -> v = map (value_of pdu) L ->
  wp False (rx_pco pdu L) (fun x o b => x = (i, pco_set v s) /\ o = [] /\ b = true) (i, s).
Proof.
  intros Hb HL Hv ->. unfold rx_pco, pco_set, IE_PCO, SME_PCO_MAX. rewrite el_find_map in *.
  destruct (tlv_find 0x27 L) as [[p n]|] eqn:E.
  - change (tlv_find 39 L) with (tlv_find 0x27 L). destruct (tlv_find_in pdu 0x27 L p n HL E) as [A [B C]].
    assert (Ln : zlen (slice (Z.to_nat p) (Z.to_nat n) pdu) = n) by (apply zlen_slice; lia).
    specialize (Hv _ eq_refl). replace (255 <? n) with false by lia. wpstep. apply wp_rdn; [right; lia|]. intros _ _ _. wpstep. wpstep. wpstep.
    rewrite Ln. repeat split.
  - wpstep. repeat split.
Qed.

Lemma ack_exec m h sap qs pr opts es i s :
  bytes (accept_pdu h sap qs pr opts) -> zlen qs <= 22 -> elements opts es ->
  (forall v, el_find 0x2b es = Some v -> addr_read v <> None) -> (forall v, el_find 0x27 es = Some v -> zlen v <= 253) ->
  sme_ok 253 s -> st s = Pending ->
  sm_rx m (accept_pdu h sap qs pr opts) (i, s) = Ok ((i, accept_set sap qs pr es s), [snact_out i (accept_set sap qs pr es s)], 0).
Proof.
  intros Hb Hq He Ha Hpc Hok Hst. set (pdu := accept_pdu h sap qs pr opts) in *.
  pose proof (zlen_nonneg qs) as Lq0. pose proof (zlen_nonneg opts) as Lo0.
  assert (Lp : zlen pdu = 5 + zlen qs + zlen opts) by (unfold pdu, accept_pdu; rewrite zlen_app, zlen_app, !zlen_cons; cbn [zlen length]; unfold zlen; cbn [length]; lia).
  assert (N1 : nth (Z.to_nat 1) pdu 0 = 0x42) by reflexivity.
  assert (N2 : nth (Z.to_nat 2) pdu 0 = sap) by reflexivity.
  assert (N3 : nth (Z.to_nat 3) pdu 0 = zlen qs) by reflexivity.
  assert (Sq : slice (Z.to_nat 4) (Z.to_nat (zlen qs)) pdu = qs).
  { unfold slice, pdu, accept_pdu. change (Z.to_nat 4) with 4%nat. cbn [skipn app]. apply firstn_app_exact. unfold zlen. lia. }
  assert (N4 : nth (Z.to_nat (4 + zlen qs)) pdu 0 = pr).
  { unfold pdu, accept_pdu. rewrite app_nth2; cbn [length]; [|lia]. replace (Z.to_nat (4 + zlen qs) - 4)%nat with (length qs) by (unfold zlen; lia).
    rewrite app_nth2 by lia. rewrite Nat.sub_diag. reflexivity. }
  assert (So : skipn (Z.to_nat (5 + zlen qs)) pdu = opts).
  { replace (Z.to_nat (5 + zlen qs)) with (5 + length qs)%nat by (unfold zlen; lia). unfold pdu, accept_pdu. cbn [app].
    change (skipn (5 + length qs) (h :: 0x42 :: sap :: zlen qs :: qs ++ pr :: opts)) with (skipn (1 + length qs) (qs ++ pr :: opts)).
    rewrite <- (skipn_skipn 1 (length qs)). rewrite skipn_app_exact by reflexivity. reflexivity. }
  apply wp_eq. unfold sm_rx, MT_ACT_ACK. replace (zlen pdu <? 2) with false by lia. wpstep. apply wp_rd; [right; lia|]. intros _. rewrite N1.
  change (0x42 =? 66) with true. cbv iota. unfold rx_act_ack, QOS_MAX. replace (zlen pdu <? 4) with false by lia.
  wpstep. apply wp_rd; [right; lia|]. intros _. rewrite N2. wpstep. wpstep. wpstep. apply wp_rd; [right; lia|]. intros _. rewrite N3.
  replace (22 <? zlen qs) with false by lia. replace (zlen pdu <? 4 + zlen qs) with false by lia.
  wpstep. apply wp_rdn; [right; lia|]. intros _ _ _. rewrite Sq. wpstep. wpstep. replace (zlen pdu <? 5 + zlen qs) with false by lia.
  wpstep. apply wp_rd; [right; lia|]. intros _. rewrite N4. wpstep. wpstep.
  change (qos (set_sapi sap s)) with (qos s). set (s1 := set_prio pr (set_qos (overlay qs (qos s)) (set_sapi sap s))).
  assert (Fin : forall s2, s2 = accept_set sap qs pr es s -> wp False (if negb true then ret (- EINVAL) else let* rc := dispatch m EvRxAcc in if rc <? 0 then ret (- EINVAL) else ret rc)
     (fun x o z => x = (i, accept_set sap qs pr es s) /\ o = [snact_out i (accept_set sap qs pr es s)] /\ z = 0) (i, s2)).
  { intros s2 ->. cbn [negb]. wpstep. unfold dispatch. wpstep. wpstep. cbn [snd].
    assert (Hs1 : sme_ok 253 s1).
    { destruct Hok. constructor; try assumption.
      - unfold s1. cbn [set_prio set_qos set_sapi qos]. rewrite overlay_len by lia. assumption.
      - unfold s1. cbn [set_prio set_qos set_sapi qos]. apply overlay_bytes; [|assumption]. rewrite <- Sq. apply bytes_slice. exact Hb. }
    assert (Hs2 : sme_ok 253 (addr_set es s1)).
    { unfold addr_set. destruct (el_find 0x2b es) as [v|]; [|exact Hs1]. destruct (addr_read v) as [[[t a4] a6]|]; [|exact Hs1]. destruct Hs1. constructor; assumption. }
    assert (Hs3 : sme_ok 253 (accept_set sap qs pr es s)).
    { unfold accept_set. fold s1. unfold pco_set. destruct (el_find 0x27 es) as [v|] eqn:Ev; [|exact Hs2]. specialize (Hpc v eq_refl).
      assert (Hvb : bytes v).
      { destruct (tlv_complete (length pdu) pdu (5 + zlen qs) es Hb ltac:(lia) ltac:(unfold zlen; lia) ltac:(rewrite So; exact He)) as [L [EL EM]].
        rewrite <- EM, el_find_map in Ev. destruct (tlv_find 0x27 L) as [[p n]|]; [|discriminate]. injection Ev as <-. apply bytes_slice. exact Hb. }
      destruct Hs2. pose proof (zlen_nonneg v). constructor; try assumption; cbn [set_pco set_plen pco plen].
      - rewrite overlay_len by lia. assumption.
      - apply overlay_bytes; assumption.
      - lia. }
    assert (Hst3 : st (accept_set sap qs pr es s) = Pending).
    { unfold accept_set, pco_set, addr_set. destruct (el_find 0x2b es) as [v|]; [destruct (addr_read v) as [[[t a4] a6]|]|]; destruct (el_find 0x27 es); exact Hst. }
    rewrite Hst3. cbn [permitted action]. wpstep. apply (wp_sn_act False 253); [exact (ok_pre _ _ Hs3)|]. wpstep.
    change (0 <? 0) with false. cbv iota. wpstep. cbn [app]. repeat split. }
  wpstep. destruct (5 + zlen qs <? zlen pdu) eqn:Lo.
  - destruct (tlv_complete (length pdu) pdu (5 + zlen qs) es Hb ltac:(lia) ltac:(unfold zlen; lia) ltac:(rewrite So; exact He)) as [L [EL EM]].
    destruct (tlv_sound (length pdu) pdu (5 + zlen qs) L Hb ltac:(lia) ltac:(unfold zlen; lia) EL) as [_ HL].
    rewrite EL. wpstep. unfold IE_PDP_ADDR. change (tlv_find 43 L) with (tlv_find 0x2b L).
    assert (Hend : wp False (rx_pco pdu L) (fun x o b => x = (i, accept_set sap qs pr es s) /\ o = [] /\ b = true) (i, addr_set es s1)).
    { unfold accept_set. fold s1. apply rx_pco_exec; [exact Hb|exact HL|rewrite EM; exact Hpc|symmetry; exact EM]. }
    assert (Hfull : wp False (rx_pco pdu L) (fun x o b => wp False (if negb b then ret (- EINVAL) else let* rc := dispatch m EvRxAcc in if rc <? 0 then ret (- EINVAL) else ret rc)
       (fun y p z => y = (i, accept_set sap qs pr es s) /\ o ++ p = [snact_out i (accept_set sap qs pr es s)] /\ z = 0) x) (i, addr_set es s1)).
    { eapply wp_weaken; [exact Hend|]. intros y p b [-> [-> ->]]. cbn [app]. apply Fin. reflexivity. }
    unfold addr_set in Hfull at 1. destruct (tlv_find 0x2b L) as [[p n]|] eqn:Ef.
    + assert (Hf : el_find 0x2b es = Some (slice (Z.to_nat p) (Z.to_nat n) pdu)) by (rewrite <- EM, el_find_map, Ef; reflexivity).
      destruct (tlv_find_in pdu 0x2b L p n HL Ef) as [A [B C]].
      specialize (Ha _ Hf). rewrite Hf in Hfull. destruct (addr_read (slice (Z.to_nat p) (Z.to_nat n) pdu)) as [[[t a4] a6]|] eqn:Ear; [|contradiction].
      assert (Hn : n <= 255).
      { assert (Ln : zlen (slice (Z.to_nat p) (Z.to_nat n) pdu) = n) by (apply zlen_slice; lia).
        destruct (slice (Z.to_nat p) (Z.to_nat n) pdu) as [|o1 [|t1 a1]]; try discriminate Ear. cbn [addr_read] in Ear. rewrite !zlen_cons in Ln.
        destruct (o1 mod 16 =? 1); [|discriminate].
        destruct (zlen a1 =? 0) eqn:A0; [lia|]. destruct (zlen a1 =? 4) eqn:A4; [lia|]. destruct (zlen a1 =? 16) eqn:A16; [lia|]. destruct (zlen a1 =? 20) eqn:A20; [lia|].
        destruct (t1 =? 0x21); [discriminate|]. destruct (t1 =? 0x57); [discriminate|]. destruct (t1 =? 0x8d); discriminate. }
      eapply wp_weaken; [apply (addr_dec_exec pdu p n t a4 a6 i s1); try assumption; lia|].
      intros y o z [-> [-> ->]]. cbn [app]. change (0 <? 0) with false. cbv iota. exact Hfull.
    + assert (Hf : el_find 0x2b es = None) by (rewrite <- EM, el_find_map, Ef; reflexivity).
      rewrite Hf in Hfull. wpstep. cbn [app]. change (0 <? 0) with false. cbv iota. exact Hfull.
  - wpstep. cbn [app]. assert (Eo : opts = []) by (apply length_zero_iff_nil; unfold zlen in *; lia).
    assert (Ee : es = []) by (rewrite Eo in He; inversion He; reflexivity).
    apply Fin. unfold accept_set, pco_set, addr_set. rewrite Ee. reflexivity.
Qed.
