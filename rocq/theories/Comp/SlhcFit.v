(** Proofs about slhc.c: a packet that fits into the memory of the receiver, however little that is. *)
From Verif.Lib Require Import Base Outcome.
From Verif.Comp Require Import SlhcModel SlhcSpec SlhcProofs SlhcDelta SlhcHop SlhcHop2 SlhcHop3 SlhcRing SlhcRecv SlhcLink SlhcLink2.

Lemma hop_fit C D tr p : J C D tr -> ipv4 p -> (steady p -> exact p) ->
  (forall q l x, In (q, l, x) tr -> steady q -> steady p -> conn q = conn p -> follows q p) ->
  (steady p -> in_step (conn p) tr) ->
  exists C' d len idx, rfc1144_compress C p = Ok (C', d, len, idx) /\ length d = length p /\ 0 <= len <= zlen p /\ (idx = 0 \/ idx = 1 \/ idx = 2) /\ (idx <> 2 -> len = zlen p) /\ (idx = 2 -> steady p /\ zlen p - Z.of_nat (hip p + htcp p) + 4 <= len) /\ bytes (firstn (Z.to_nat len) d) /\
    forall room, zlen p <= len + zlen room ->
    exists D' buf, rfc1144_expand D (firstn (Z.to_nat len) d ++ room) len idx = Ok (D', buf, zlen p) /\ firstn (length p) buf = p /\ J C' D' ((p, false, idx) :: tr).
Proof.
  intros HJ H4 Hx Hfol Hin. pose proof (tx_nonempty _ _ _ HJ) as Hne. pose proof (zlen_nonneg p) as Np. destruct (steady_dec p) as [Hst|Hst].
  2: { exists C, p, (zlen p), 0. rewrite (send_other C p Hne H4 Hst). split; [reflexivity|]. split; [reflexivity|]. split; [lia|]. split; [auto|]. split; [reflexivity|]. split; [discriminate|]. split; [apply Forall_firstn, H4|]. intros room _.
    assert (J C D ((p, false, 0) :: tr)) as HJ'.
    { destruct HJ as [A1 A2 A3 A4 A5 A6]. constructor; try assumption. intros i Hi. destruct (A5 i Hi) as [F|(q & Gq & Kq & (l & x & Iq) & Sq)]; [left; exact F|right].
      exists q. split; [exact Gq|]. split; [exact Kq|]. split; [exists l, x; right; exact Iq|]. intros Hs. apply Sq. apply step_other in Hs; [exact Hs|tauto]. }
    exists D, (p ++ room). unfold rfc1144_expand. change (0 =? 1) with false. change (0 =? 2) with false. cbv iota.
    assert (firstn (Z.to_nat (zlen p)) p = p) as -> by (unfold zlen; rewrite Nat2Z.id; apply firstn_all).
    split; [reflexivity|]. split; [apply firstn_app_exact; reflexivity|exact HJ']. }
  assert (good p) as G by (split; [exact H4|split; [exact Hst|apply Hx, Hst]]).
  destruct (J_ord _ _ _ HJ) as [ord Hring]. pose proof (J_1 _ _ _ HJ) as H1. pose proof (J_n _ _ _ HJ) as Hn.
  assert (forall c', exists b lcs cs l1 l2, search 256 C (conn p) (oldest C) (ix 0 (nxt C) (oldest C)) = Some (b, lcs, cs) /\ ord = l1 ++ cs :: l2 /\
    (forall i, In i l1 -> hitb C (conn p) i = false) /\ hitb C (conn p) cs = b /\ (b = false -> l2 = []) /\ 0 <= cs < zlen (tx C) /\
    ring (after_tx C p b lcs cs c') (cs :: l1 ++ l2)) as Hse.
  { intros c'. destruct (search_ring C ord (conn p) (tx C) 0 Hring ltac:(lia) eq_refl) as (b & lcs & cs & l1 & l2 & S1 & S2 & S3 & S4 & S5 & S6 & _).
    destruct (search_ring C ord (conn p) (upd (tx C) cs c') cs Hring ltac:(lia) (upd_length _ _ _ S6)) as (b' & lcs' & cs' & l1' & l2' & S1' & S2' & S3' & S4' & S5' & S6' & S7').
    rewrite S1 in S1'. injection S1' as <- <- <-. exists b, lcs, cs, l1', l2'. split; [exact S1|]. split; [exact S2'|]. split; [exact S3'|]. split; [exact S4|]. split; [exact S5'|]. split; [exact S6|]. apply S7'. }
  destruct (Hse cst0) as (b & lcs & cs & l1 & l2 & S1 & S2 & S3 & S4 & S5 & S6 & _).
  assert (forall c', exists od, ring (after_tx C p b lcs cs c') od) as Hrg.
  { intros c'. destruct (Hse c') as (b' & lcs' & cs' & l1' & l2' & S1' & _ & _ & _ & _ & _ & S7'). rewrite S1 in S1'. injection S1' as <- <- <-. eexists. exact S7'. }
  clear Hse.
  assert (hitb C (conn p) cs = true \/ forall i, 0 <= i < zlen (tx C) -> hitb C (conn p) i = false) as Hhit.
  { destruct b; [left; exact S4|right]. intros i Hi. apply (R_in _ _ Hring) in Hi. rewrite S2, (S5 eq_refl) in Hi. apply in_app_or in Hi as [Hi|[<-|[]]]; [apply S3, Hi|exact S4]. }
  assert (0 <= cs < zlen (rx D)) as Hcr by lia.
  assert (shape (ix cst0 (rx D) cs)) as Hshc by (apply (J_sh _ _ _ HJ); exact Hcr).
  assert (forall c', shape c' -> zlen (rx (after_rx D cs c')) = zlen (rx D) /\ (forall i, 0 <= i < zlen (rx D) -> shape (ix cst0 (rx (after_rx D cs c')) i)) /\
    (forall i, 0 <= i < zlen (rx D) -> i <> cs -> ix cst0 (rx (after_rx D cs c')) i = ix cst0 (rx D) i) /\ ix cst0 (rx (after_rx D cs c')) cs = c') as Hrx.
  { intros c' Hs. cbn [after_rx rx]. split; [apply upd_zlen, Hcr|]. split; [|split].
    - intros i Hi. destruct (Z.eq_dec i cs) as [->|Ne]; [rewrite ix_upd_same by exact Hcr; exact Hs|rewrite ix_upd_other by (try exact Hcr; lia)]. apply (J_sh _ _ _ HJ), Hi.
    - intros i Hi Ne. apply ix_upd_other; [exact Hcr|lia|congruence].
    - apply ix_upd_same, Hcr. }
  specialize (Hin Hst).
  destruct (if b then delta (ix cst0 (tx C) cs) (pip p) (pio p) (pth p) (pto p) (Z.of_nat (hip p + htcp p)) else None) as [[ch seq]|] eqn:Ed.
  - destruct b; [|discriminate]. destruct (send_cmp C p lcs cs ch seq Hne H4 Hst S1 Ed) as (d & E1 & E2 & E3 & E4).
    pose proof (zlen_nonneg (cmp_octets p ch cs seq)) as Nc. do 4 eexists. split; [exact E1|]. split; [exact E4|]. split; [lia|]. split; [auto|]. split; [congruence|].
    split; [intros _; split; [exact Hst|]; unfold cmp_octets; rewrite !zlen_app; pose proof (zlen_nonneg seq); destruct (good_lens p G) as (_ & L2 & _); unfold zlen; unfold slice; rewrite firstn_length, skipn_length, L2; unfold pdt; rewrite skipn_length; cbn [length]; lia|].
    assert (firstn (Z.to_nat (zlen (cmp_octets p ch cs seq))) d = cmp_octets p ch cs seq) as -> by (unfold zlen; rewrite Nat2Z.id; exact E2).
    split.
    { destruct (delta_seq _ _ _ _ _ _ _ _ Ed) as (_ & Bs & u & w & a & s & i & ps & Ech & _). destruct (mask_bits u w a s i ps true) as (_ & _ & _ & _ & _ & _ & _ & _ & M & _). cbv zeta in M.
      destruct (good_lens p G) as (_ & _ & _ & _ & _ & B2). unfold cmp_octets. rewrite !bytes_app. split; [|split; [unfold slice; apply Forall_firstn, Forall_skipn, B2|split; [exact Bs|unfold pdt; apply Forall_skipn, H4]]].
      constructor; [rewrite Ech; unfold byte; change (if true then 64 else 0) with 64 in M; lia|]. constructor; [unfold byte; lia|constructor]. }
    intros room Hr.
    destruct (Hrg (new_cmp C p cs)) as [od Hod]. unfold after_tx in Hod |- *. pose proof (kept_cmp C p cs ch seq _ Ed) as Kp.
    destruct (J_sl _ _ _ HJ cs S6) as [F|(q & Gq & Kq & (l & x & Iq) & Sq)]; [exfalso; apply hitb_iff in S4; apply (good_addr p G); rewrite S4; exact F|].
    apply hitb_iff in S4. assert (conn q = conn p) as Ec by (rewrite <- (kept_key _ q Gq Kq); symmetry; exact S4). rewrite Ec in Sq.
    destruct (recv_cmp C D cs p q ch seq room G Gq Ec) as (c2 & buf2 & G1 & G2 & G3 & G4); try assumption; [apply (Hfol q l x Iq); [apply Gq|exact Hst|exact Ec]|apply Sq, Hin|rewrite zlen_app; exact Hr|].
    destruct (Hrx c2 G4) as (X1 & X2 & X3 & X4). eexists _, buf2. split; [exact G1|]. split; [exact G2|].
    apply (J_after C D tr p false 2 cs _ (after_rx D cs c2) od); try assumption. intros _. rewrite X4. exact G3.
  - do 4 eexists. split; [exact (send_unc C p b lcs cs Hne H4 Hst S1 Ed)|].
    assert (length (ow p 9 [cs]) = length p) as Hl by (apply ow_length; destruct H4 as (_ & _ & ? & _); cbn [length]; lia).
    split; [exact Hl|]. split; [lia|]. split; [auto|]. split; [reflexivity|]. split; [discriminate|].
    split; [apply Forall_firstn; unfold ow; rewrite !bytes_app; split; [apply Forall_firstn, H4|split; [constructor; [unfold byte; lia|constructor]|apply Forall_skipn, H4]]|]. intros room _.
    destruct (Hrg (new_unc C p cs)) as [od Hod]. unfold after_tx in Hod |- *. pose proof (kept_unc C p cs) as Kp.
    assert (firstn (Z.to_nat (zlen p)) (ow p 9 [cs]) = ow p 9 [cs]) as -> by (unfold zlen; rewrite Nat2Z.id, <- Hl; apply firstn_all).
    rewrite (recv_unc D p cs room H4 Hst (Hx Hst) Hcr).
    destruct (Hrx (rem_cst D p cs) (rem_shape D p cs G Hshc)) as (X1 & X2 & X3 & X4).
    eexists _, _. split; [reflexivity|]. split; [apply firstn_app_exact; reflexivity|].
    apply (J_after C D tr p false 1 cs _ (after_rx D cs (rem_cst D p cs)) od); try assumption. intros _. rewrite X4. apply rem_keptr, G.
Qed.

(** ** The two directions *)
Lemma J_ext C D C' D' tr : tx C' = tx C -> nxt C' = nxt C -> oldest C' = oldest C -> rx D' = rx D -> J C D tr -> J C' D' tr.
Proof.
  intros E1 E2 E3 E4 [A1 A2 A3 A4 A5 A6]. constructor; rewrite ?E1, ?E4; try assumption.
  destruct A1 as [ord [R1 R2 R3 R4 R5 R6 R7]]. exists ord. constructor; rewrite ?E1, ?E2, ?E3; assumption.
Qed.
Lemma compress_rx s p s' d len idx : rfc1144_compress s p = Ok (s', d, len, idx) -> rx s' = rx s.
Proof.
  unfold rfc1144_compress. destruct (slhc_compress s p p false) as [[[[s1 o] l] cp]| |] eqn:E; cbn [bind]; try discriminate.
  assert (rx s1 = rx s) as Hr.
  { unfold slhc_compress in E. destruct (tx s); [discriminate|]. destruct (_ <? 20); [injection E as <- _ _ _; reflexivity|]. cbv zeta in E.
    destruct (_ || _) in E; [injection E as <- _ _ _; reflexivity|]. destruct (rd p _) as [b12| |] in E; cbn [bind] in E; try discriminate. destruct (_ <? _) in E; [injection E as <- _ _ _; reflexivity|].
    destruct (rd p _) as [fl| |] in E; cbn [bind] in E; try discriminate. destruct (_ || _) in E; [injection E as <- _ _ _; reflexivity|].
    destruct (rdn p _ 20) as [th| |] in E; cbn [bind] in E; try discriminate. destruct (search _ _ _ _ _) as [[[fo lcs] cs]|] in E; [|discriminate].
    destruct (relink s fo lcs cs) as [nx ol]. destruct (if fo then _ else _) as [[ch seq]|] in E.
    - destruct (wr _ _ _) as [o'| |] in E; cbn [bind] in E; try discriminate. injection E as <- _ _ _. reflexivity.
    - destruct (wr _ _ _) as [o'| |] in E; cbn [bind] in E; try discriminate. injection E as <- _ _ _. reflexivity. }
  destruct (rd o 0) as [b| |]; cbn [bind]; try discriminate. destruct (tst b SL_CMP); [|destruct (Z.land b SL_UNC =? SL_UNC)].
  - destruct (rdn _ 0 l) as [src| |]; cbn [bind]; try discriminate. destruct (wr p 0 src) as [x| |]; cbn [bind]; try discriminate. intros H. injection H as <- _ _ _. exact Hr.
  - destruct (rdn _ 0 l) as [src| |]; cbn [bind]; try discriminate. destruct (wr p 0 src) as [x| |]; cbn [bind]; try discriminate. intros H. injection H as <- _ _ _. exact Hr.
  - intros H. injection H as <- _ _ _. exact Hr.
Qed.
Definition same_tx (s' s : slc) : Prop := tx s' = tx s /\ nxt s' = nxt s /\ oldest s' = oldest s.
Lemma expand_tx s buf len idx s' b n : rfc1144_expand s buf len idx = Ok (s', b, n) -> same_tx s' s.
Proof.
  assert (same_tx s s) as R by (split; [|split]; reflexivity). assert (same_tx (slhc_toss s) s) as R' by (split; [|split]; reflexivity).
  unfold rfc1144_expand. destruct (idx =? 1); [|destruct (idx =? 2)].
  - destruct (rd buf 0) as [x| |]; cbn [bind]; try discriminate. unfold slhc_remember. destruct (len <? 20); [intros H; injection H as <- _ _; exact R'|].
    destruct (rd _ 0) as [b0| |]; cbn [bind]; try discriminate. cbv zeta. destruct (_ <? 5); [intros H; injection H as <- _ _; exact R'|].
    destruct (rd _ 9) as [i| |]; cbn [bind]; try discriminate. destruct (wr _ 9 _) as [b1| |]; cbn [bind]; try discriminate. destruct (rdn b1 0 _) as [h| |]; cbn [bind]; try discriminate.
    destruct (negb _); [intros H; injection H as <- _ _; exact R'|]. destruct (_ <? i); [intros H; injection H as <- _ _; exact R'|]. destruct (_ <=? i); [discriminate|].
    destruct (rdn b1 0 20) as [ip| |]; cbn [bind]; try discriminate. destruct (rdn b1 _ 20) as [th| |]; cbn [bind]; try discriminate. destruct (rdn b1 20 _) as [io| |]; cbn [bind]; try discriminate.
    destruct (if 5 <? doff th then _ else _) as [to| |]; cbn [bind]; try discriminate. intros H. injection H as <- _ _. exact R.
  - unfold slhc_uncompress. destruct (len <? 3); [intros H; injection H as <- _ _; exact R|]. destruct (rd buf 0) as [ch| |]; cbn [bind]; try discriminate.
    assert (forall r, (if tst ch NEW_C then do x <- rd buf 1; if Z.max 0 (zlen (rx s) - 1) <? x then Ok None else Ok (Some (mkSlc (tx s) (nxt s) (rx s) (oldest s) (xcur s) x false, 2)) else Ok (Some (s, 1))) = Ok (Some r) -> same_tx (fst r) s) as Q.
    { intros r. destruct (tst ch NEW_C); [destruct (rd buf 1) as [x| |]; cbn [bind]; try discriminate; destruct (_ <? x); [discriminate|]|]; intros H; injection H as <-; cbn [fst]; exact R. }
    destruct (if tst ch NEW_C then _ else _) as [[[s1 i]|]| |]; cbn [bind]; try discriminate; [|intros H; injection H as <- _ _; exact R'].
    specialize (Q _ eq_refl). cbn [fst] in Q. destruct (toss s1); [intros H; injection H as <- _ _; exact Q|]. destruct (_ || _); [discriminate|]. cbv zeta.
    destruct (rdn buf i 2) as [ck| |]; cbn [bind]; try discriminate. destruct (un_tcp _ _ _ _ _ _) as [a| |]; cbn [bind]; try discriminate.
    destruct (if tst ch NEW_I then _ else _) as [d| |]; cbn [bind]; try discriminate. destruct (_ <? 0); [intros H; injection H as <- _ _; exact Q|].
    repeat (match goal with |- (do x <- ?m; _) = _ -> _ => destruct m as [?| |]; cbn [bind]; try discriminate end). intros H. injection H as <- _ _. exact Q.
  - intros H. injection H as <- _ _. exact R.
Qed.
