(** Proofs about slhc.c: the invariant of a link. *)
From Verif.Lib Require Import Base Outcome.
From Verif.Comp Require Import SlhcModel SlhcSpec SlhcProofs SlhcDelta SlhcHop SlhcHop2 SlhcHop3 SlhcRing SlhcRecv.

Lemma conn_parts p : (hip p >= 20)%nat -> conn p = (slice 12 8 (pip p), slice 0 4 (pth p)).
Proof.
  intros H. unfold conn, pip, pth, slice. f_equal.
  - rewrite skipn_firstn_comm. rewrite firstn_firstn. f_equal.
  - cbn [skipn]. rewrite firstn_firstn. f_equal.
Qed.
Lemma steady_dec p : {steady p} + {~ steady p}.
Proof.
  unfold steady, is_tcp. destruct (Z.eq_dec (oct p 9) 6), (Z.eq_dec (num16 p 6 mod 16384) 0), (Z.eq_dec (flags p mod 8) 0), (Z.eq_dec (flags p / 16 mod 2) 1); try (right; intuition; fail). left. auto.
Qed.
Lemma conn_dec (a b : list Z * list Z) : {a = b} + {a <> b}.
Proof. decide equality; apply list_eq_dec, Z.eq_dec. Qed.
Lemma step_other k q lost idx tr : in_step k ((q, lost, idx) :: tr) -> ~ (steady q /\ conn q = k) -> in_step k tr.
Proof. intros H N. inversion H; subst; try assumption. exfalso. apply N. split; [assumption|reflexivity]. Qed.
Lemma step_same k q lost idx tr : in_step k ((q, lost, idx) :: tr) -> steady q -> conn q = k -> lost = false /\ (idx = 1 \/ in_step k tr).
Proof. intros H S C. inversion H; subst; [exfalso; auto|auto|auto]. Qed.

Definition kept (c : cst) (q : list Z) : Prop := keeps c (pip q) (pio q) (pth q) (pto q).
Definition keptr (c : cst) (q : list Z) : Prop := keepr c (pip q) (pio q) (pth q) (pto q).
Definition good (q : list Z) : Prop := ipv4 q /\ steady q /\ exact q.
Definition key (c : cst) : list Z * list Z := (slice 12 8 (c_ip c), slice 0 4 (c_tcp c)).
Definition fresh (c : cst) : Prop := slice 12 8 (c_ip c) = repeat 0 8.

Record J (C D : slc) (tr : list (list Z * bool * Z)) : Prop := mkJ {
  J_ord : exists ord, ring C ord; J_n : zlen (tx C) = zlen (rx D); J_1 : 1 <= zlen (tx C) <= 255;
  J_sh : forall i, 0 <= i < zlen (rx D) -> shape (ix cst0 (rx D) i);
  J_sl : forall i, 0 <= i < zlen (tx C) -> fresh (ix cst0 (tx C) i) \/
      exists q, good q /\ kept (ix cst0 (tx C) i) q /\ (exists l x, In (q, l, x) tr) /\ (in_step (conn q) tr -> keptr (ix cst0 (rx D) i) q);
  J_di : forall i j, 0 <= i < zlen (tx C) -> 0 <= j < zlen (tx C) -> ~ fresh (ix cst0 (tx C) i) -> key (ix cst0 (tx C) i) = key (ix cst0 (tx C) j) -> i = j }.

Lemma good_hip q : good q -> (20 <= hip q)%nat.
Proof. intros ((_ & _ & H & _) & _). lia. Qed.
Lemma kept_key c q : good q -> kept c q -> key c = conn q.
Proof. intros G (H1 & H2 & _). rewrite conn_parts by (apply good_hip in G; lia). unfold key. rewrite H1, H2. reflexivity. Qed.
Lemma good_addr q : good q -> fst (conn q) <> repeat 0 8.
Proof. intros (_ & _ & (_ & _ & _ & _ & H)). exact H. Qed.
Lemma kept_used c q : good q -> kept c q -> ~ fresh c.
Proof. intros G K F. apply (good_addr q G). rewrite <- (kept_key c q G K). exact F. Qed.

Lemma firstn_ow0 l s : firstn (length s) (ow l 0 s) = s.
Proof. unfold ow. cbn [firstn app]. apply firstn_app_exact. reflexivity. Qed.
Lemma kept_unc C p cs : kept (new_unc C p cs) p.
Proof. unfold kept, keeps, new_unc. cbn [c_ip c_tcp c_ipopt c_tcpopt]. rewrite !firstn_ow0. auto. Qed.
Lemma kept_cmp C p cs ch seq h : delta (ix cst0 (tx C) cs) (pip p) (pio p) (pth p) (pto p) h = Some (ch, seq) -> kept (new_cmp C p cs) p.
Proof.
  intros H. apply delta_inv in H as (H & _). apply unchanged_inv in H as (_ & _ & _ & _ & _ & _ & H1 & H2).
  unfold kept, keeps, new_cmp. cbn [c_ip c_tcp c_ipopt c_tcpopt]. split; [reflexivity|]. split; [reflexivity|]. split; symmetry; assumption.
Qed.
Lemma good_lens p : good p -> length (pip p) = 20%nat /\ length (pth p) = 20%nat /\ (length (pio p) <= 40)%nat /\ (length (pto p) <= 40)%nat /\ bytes (pip p) /\ bytes (pth p).
Proof.
  intros (H4 & S & _). pose proof (parts_of p H4 S) as P. pose proof (P_b _ _ _ _ _ _ P) as B. rewrite (P_eq _ _ _ _ _ _ P) in B. rewrite !bytes_app in B.
  destruct P as [_ _ L1 L2 L3 L4 _ _ _ _ _]. unfold zlen in *. assert (ihl (pip p) < 16) by (unfold ihl; apply Z.mod_pos_bound; lia).
  assert (doff (pth p) < 16). { unfold doff. pose proof (at8_bytes (pth p) 12 ltac:(tauto) L2 ltac:(lia)) as H12. unfold byte in H12. lia. }
  split; [exact L1|]. split; [exact L2|]. split; [lia|]. split; [lia|]. tauto.
Qed.
Lemma ow_skip_length l s : (length s <= length l)%nat -> length (ow l 0 s) = length l.
Proof. intros H. apply ow_length. lia. Qed.
Lemma rem_shape D p cs : good p -> shape (ix cst0 (rx D) cs) -> shape (rem_cst D p cs).
Proof.
  intros G (S1 & S2 & S3 & S4 & S5 & S6). destruct (good_lens p G) as (L1 & L2 & L3 & L4 & B1 & B2). unfold rem_cst, shape. cbn [c_ip c_tcp c_ipopt c_tcpopt].
  rewrite !ow_skip_length by lia. repeat split; assumption.
Qed.
Lemma ow_self l : length l = 20%nat -> ow l 10 (slice 10 2 l) = l.
Proof. intros L. destruct (len20 l L) as (n0&n1&n2&n3&n4&n5&n6&n7&n8&n9&n10&n11&n12&n13&n14&n15&n16&n17&n18&n19&->). reflexivity. Qed.
Lemma rem_keptr D p cs : good p -> keptr (rem_cst D p cs) p.
Proof.
  intros G. destruct (good_lens p G) as (L1 & L2 & L3 & L4 & B1 & B2). unfold keptr, keepr, rem_cst. cbn [c_ip c_tcp c_ipopt c_tcpopt]. rewrite !firstn_ow0.
  split; [|auto]. exists (slice 10 2 (pip p)). split; [unfold slice; rewrite firstn_length, skipn_length; lia|]. split; [unfold slice; apply Forall_firstn, Forall_skipn, B1|]. symmetry. apply ow_self, L1.
Qed.

Lemma sum_head p : ipv4 p -> steady p -> firstn (hip p) p = pip p ++ pio p.
Proof.
  intros H4 S. destruct H4 as (_ & _ & H & _). unfold pip, pio, slice. rewrite firstn_skipn_comm. replace (20 + (hip p - 20))%nat with (hip p) by lia.
  transitivity (firstn 20 (firstn (hip p) p) ++ skipn 20 (firstn (hip p) p)); [symmetry; apply firstn_skipn|]. rewrite firstn_firstn. f_equal. f_equal. lia.
Qed.
Lemma isurg_iff p : bytes p -> isurg (pth p) = true <-> urgent p.
Proof. intros B. unfold isurg, urgent, flags. rewrite at_pth by lia. pose proof (nonneg_oct p (hip p + 13) B). rewrite urg_bit. lia. Qed.

Lemma recv_cmp C D cs p q ch seq room : good p -> good q -> conn q = conn p -> follows q p ->
  kept (ix cst0 (tx C) cs) q -> keptr (ix cst0 (rx D) cs) q -> shape (ix cst0 (rx D) cs) -> 0 <= cs < zlen (rx D) -> zlen p <= zlen (cmp_octets p ch cs seq ++ room) ->
  delta (ix cst0 (tx C) cs) (pip p) (pio p) (pth p) (pto p) (Z.of_nat (hip p + htcp p)) = Some (ch, seq) ->
  exists c' buf', rfc1144_expand D (cmp_octets p ch cs seq ++ room) (zlen (cmp_octets p ch cs seq)) 2 = Ok (after_rx D cs c', buf', zlen p) /\
    firstn (length p) buf' = p /\ keptr c' p /\ shape c'.
Proof.
  intros Gp Gq HC (HU & HW) K R S Hcs Hroom HD. pose proof (good_hip p Gp) as Hp. pose proof (good_hip q Gq) as Hq.
  rewrite (conn_parts p), (conn_parts q) in HC by lia. injection HC as C1 C2.
  destruct Gp as (P4 & PS & (X1 & X2 & X3 & X4 & X5)), Gq as (Q4 & QS & (Z1 & Z2 & _)).
  pose proof (parts_of p P4 PS) as P. pose proof (parts_of q Q4 QS) as Q. unfold unsent in HU. injection HU as U1 U2 U3.
  assert (Z.of_nat (hip p + htcp p) = zlen (pip p ++ pio p ++ pth p ++ pto p)) as Hh.
  { destruct P4 as (_ & _ & Hl & Ht). destruct (Ht (proj1 PS)) as [T1 T2]. rewrite !zlen_app. unfold pip, pio, pth, pto, slice, zlen. rewrite !firstn_length, !skipn_length. lia. }
  rewrite Hh in HD.
  apply (recv_parts (ix cst0 (tx C) cs) (ix cst0 (rx D) cs) D cs p (pip p) (pio p) (pth p) (pto p) (pdt p) q (pip q) (pio q) (pth q) (pto q) (pdt q) ch seq room P Q); try assumption; try reflexivity; try (symmetry; assumption).
  - rewrite !at_pip by lia. lia.
  - rewrite !at_pth by lia. lia.
  - rewrite !at_pth by lia. unfold flags in U3. lia.
  - rewrite !isurg_iff by (apply P_b with (1 := P) || apply P_b with (1 := Q)). exact HW.
  - rewrite at16_pip by lia. exact X1.
  - rewrite at16_pip by lia. lia.
  - rewrite <- sum_head by assumption. exact X3.
  - rewrite at16_pip by lia. exact X4.
Qed.

Lemma upd_zlen {A} (l : list A) i v : 0 <= i < zlen l -> zlen (upd l i v) = zlen l.
Proof. intros H. unfold zlen. rewrite upd_length by exact H. reflexivity. Qed.

(** The headers have at most 120 octets. *)
Lemma room_128 p ch cs seq room : good p -> 128 <= zlen room -> zlen p <= zlen (cmp_octets p ch cs seq ++ room).
Proof.
  intros ((B & _ & Hl & Ht) & (S & _) & _) R. destruct (Ht S) as [_ T2]. rewrite zlen_app. unfold cmp_octets. rewrite !zlen_app. unfold pdt.
  assert (zlen (skipn (hip p + htcp p) p) = zlen p - Z.of_nat (hip p + htcp p)) as -> by (unfold zlen; rewrite skipn_length; lia).
  pose proof (zlen_nonneg seq). pose proof (zlen_nonneg (slice 16 2 (pth p))). pose proof (zlen_nonneg [Z.lor ch 64; cs]). pose proof (nonneg_oct p (hip p + 12) B).
  assert (hip p <= 60)%nat by (unfold hip; lia). assert (htcp p <= 60)%nat by (unfold htcp; lia). lia.
Qed.
(** One packet. *)
Lemma tx_nonempty C D tr : J C D tr -> tx C <> [].
Proof. intros HJ E. pose proof (J_1 _ _ _ HJ) as H. rewrite E in H. cbn in H. lia. Qed.

(** The states after a packet of connection [conn p] in place [cs]. *)
Lemma J_after C D tr p lost idx cs c' D' ord nx ol xc to rc : J C D tr -> good p -> 0 <= cs < zlen (tx C) ->
  (hitb C (conn p) cs = true \/ forall i, 0 <= i < zlen (tx C) -> hitb C (conn p) i = false) ->
  ring (mkSlc (upd (tx C) cs c') nx (rx C) ol xc rc to) ord -> kept c' p ->
  zlen (rx D') = zlen (rx D) -> (forall i, 0 <= i < zlen (rx D) -> shape (ix cst0 (rx D') i)) ->
  (forall i, 0 <= i < zlen (rx D) -> i <> cs -> ix cst0 (rx D') i = ix cst0 (rx D) i) ->
  (in_step (conn p) ((p, lost, idx) :: tr) -> keptr (ix cst0 (rx D') cs) p) ->
  J (mkSlc (upd (tx C) cs c') nx (rx C) ol xc rc to) D' ((p, lost, idx) :: tr).
Proof.
  intros HJ G Hcs Hhit Hr K Hz Hsh Hoth Hst. pose proof (J_n _ _ _ HJ) as Hn.
  assert (forall i, 0 <= i < zlen (tx C) -> i <> cs -> ~ fresh (ix cst0 (tx C) i) -> key (ix cst0 (tx C) i) <> conn p) as Hno.
  { intros i Hi Hne Hfr E. destruct Hhit as [Hh|Hh].
    - apply hitb_iff in Hh. apply Hne. apply (J_di _ _ _ HJ i cs Hi Hcs Hfr). rewrite E, Hh. reflexivity.
    - assert (hitb C (conn p) i = true) as X by (apply hitb_iff; rewrite <- E; reflexivity). rewrite (Hh i Hi) in X. discriminate. }
  constructor.
  - exists ord. exact Hr.
  - cbn [tx]. rewrite upd_zlen by exact Hcs. lia.
  - cbn [tx]. rewrite upd_zlen by exact Hcs. apply (J_1 _ _ _ HJ).
  - rewrite Hz. exact Hsh.
  - cbn [tx]. rewrite upd_zlen by exact Hcs. intros i Hi. destruct (Z.eq_dec i cs) as [->|Ne].
    + right. exists p. rewrite ix_upd_same by exact Hcs. split; [exact G|]. split; [exact K|]. split; [exists lost, idx; left; reflexivity|exact Hst].
    + rewrite ix_upd_other by (try exact Hcs; lia). destruct (J_sl _ _ _ HJ i Hi) as [F|(q & Gq & Kq & (l & x & Iq) & Sq)]; [left; exact F|right].
      exists q. split; [exact Gq|]. split; [exact Kq|]. split; [exists l, x; right; exact Iq|]. intros Hs. rewrite Hoth by lia. apply Sq.
      apply step_other in Hs; [exact Hs|]. intros [_ Ec]. apply (Hno i Hi Ne (kept_used _ _ Gq Kq)). rewrite (kept_key _ q Gq Kq). symmetry. exact Ec.
  - cbn [tx]. rewrite upd_zlen by exact Hcs. intros i j Hi Hj Hf E.
    assert (key c' = conn p) as Kc by (apply kept_key; assumption).
    destruct (Z.eq_dec i cs) as [->|Ni], (Z.eq_dec j cs) as [->|Nj]; [reflexivity| | |].
    + rewrite ix_upd_same in * by exact Hcs. rewrite ix_upd_other in E by (try exact Hcs; lia). exfalso.
      apply (Hno j Hj Nj); [|rewrite <- E; exact Kc]. intros F. apply (good_addr p G). rewrite <- Kc, E. exact F.
    + rewrite ix_upd_same in * by exact Hcs. rewrite ix_upd_other in E, Hf by (try exact Hcs; lia). exfalso. apply (Hno i Hi Ni Hf). rewrite E. exact Kc.
    + rewrite ix_upd_other in E, Hf by (try exact Hcs; lia). rewrite ix_upd_other in E by (try exact Hcs; lia). apply (J_di _ _ _ HJ i j Hi Hj Hf E).
Qed.

Lemma hop_ok C D tr p lost room : J C D tr -> 128 <= zlen room -> ipv4 p -> (steady p -> exact p) ->
  (forall q l x, In (q, l, x) tr -> steady q -> steady p -> conn q = conn p -> follows q p) ->
  exists C' D' idx o, hop room C D p lost = Ok (C', D', (idx, o)) /\ J C' D' ((p, lost, idx) :: tr) /\
    (lost = true -> o = None) /\ (lost = false -> exists x, o = Some x) /\ (lost = false -> (steady p -> in_step (conn p) ((p, lost, idx) :: tr)) -> o = Some p) /\
    (idx = 0 <-> ~ steady p) /\ 0 <= idx <= 2.
Proof.
  intros HJ Hroom H4 Hx Hfol. pose proof (tx_nonempty _ _ _ HJ) as Hne. unfold hop. destruct (steady_dec p) as [Hst|Hst].
  2: { rewrite (send_other C p Hne H4 Hst). cbn [bind].
    assert (J C D ((p, lost, 0) :: tr)) as HJ'.
    { destruct HJ as [A1 A2 A3 A4 A5 A6]. constructor; try assumption. intros i Hi. destruct (A5 i Hi) as [F|(q & Gq & Kq & (l & x & Iq) & Sq)]; [left; exact F|right].
      exists q. split; [exact Gq|]. split; [exact Kq|]. split; [exists l, x; right; exact Iq|]. intros Hs. apply Sq. apply step_other in Hs; [exact Hs|tauto]. }
    destruct lost.
    - exists C, D, 0, None. split; [reflexivity|]. split; [exact HJ'|]. split; [reflexivity|]. split; [discriminate|]. split; [discriminate|]. split; [tauto|lia].
    - assert (firstn (Z.to_nat (zlen p)) p = p) as E1 by (unfold zlen; rewrite Nat2Z.id; apply firstn_all). rewrite E1.
      unfold rfc1144_expand. change (0 =? 1) with false. change (0 =? 2) with false. cbv iota. cbn [bind].
      assert (firstn (Z.to_nat (zlen p)) (p ++ room) = p) as E2 by (unfold zlen; rewrite Nat2Z.id; apply firstn_app_exact; reflexivity). rewrite E2.
      exists C, D, 0, (Some p). split; [reflexivity|]. split; [exact HJ'|]. split; [discriminate|]. split; [eexists; reflexivity|]. split; [reflexivity|]. split; [tauto|lia]. }
  assert (good p) as G by (split; [exact H4|split; [exact Hst|apply Hx, Hst]]).
  destruct (J_ord _ _ _ HJ) as [ord Hring]. pose proof (J_1 _ _ _ HJ) as H1. pose proof (J_n _ _ _ HJ) as Hn.
  assert (forall c', exists b lcs cs l1 l2, search 256 C (conn p) (oldest C) (ix 0 (nxt C) (oldest C)) = Some (b, lcs, cs) /\ ord = l1 ++ cs :: l2 /\
    (forall i, In i l1 -> hitb C (conn p) i = false) /\ hitb C (conn p) cs = b /\ (b = false -> l2 = []) /\ 0 <= cs < zlen (tx C) /\
    ring (after_tx C p b lcs cs c') (cs :: l1 ++ l2)) as Hse.
  { intros c'. destruct (search_ring C ord (conn p) (tx C) 0 Hring ltac:(lia) eq_refl) as (b & lcs & cs & l1 & l2 & S1 & S2 & S3 & S4 & S5 & S6 & _).
    destruct (search_ring C ord (conn p) (upd (tx C) cs c') cs Hring ltac:(lia) (upd_length _ _ _ S6)) as (b' & lcs' & cs' & l1' & l2' & S1' & S2' & S3' & S4' & S5' & S6' & S7').
    rewrite S1 in S1'. injection S1' as <- <- <-. exists b, lcs, cs, l1', l2'. split; [exact S1|]. split; [exact S2'|]. split; [exact S3'|]. split; [exact S4|]. split; [exact S5'|]. split; [exact S6|]. apply S7'. }
  destruct (Hse cst0) as (b & lcs & cs & l1 & l2 & S1 & S2 & S3 & S4 & S5 & S6 & _).
  assert (forall c', exists od, ring (after_tx C p b lcs cs c') od) as Hrg.
  { intros c'. destruct (Hse c') as (b' & lcs' & cs' & l1' & l2' & S1' & _ & _ & _ & _ & _ & S7'). rewrite S1 in S1'. injection S1' as <- <- <-. eexists. exact S7'. }
  clear Hse.
  assert (hitb C (conn p) cs = true \/ forall i, 0 <= i < zlen (tx C) -> hitb C (conn p) i = false) as Hhit.
  { destruct b; [left; exact S4|right]. intros i Hi. apply (R_in _ _ Hring) in Hi. rewrite S2, (S5 eq_refl) in Hi. apply in_app_or in Hi as [Hi|[<-|[]]]; [apply S3, Hi|exact S4]. }
  assert (0 <= cs < zlen (rx D)) as Hcr by lia.
  assert (shape (ix cst0 (rx D) cs)) as Hshc by (apply (J_sh _ _ _ HJ); exact Hcr).
  (* the receiver's table after a packet *)
  assert (forall c', shape c' -> zlen (rx (after_rx D cs c')) = zlen (rx D) /\ (forall i, 0 <= i < zlen (rx D) -> shape (ix cst0 (rx (after_rx D cs c')) i)) /\
    (forall i, 0 <= i < zlen (rx D) -> i <> cs -> ix cst0 (rx (after_rx D cs c')) i = ix cst0 (rx D) i) /\ ix cst0 (rx (after_rx D cs c')) cs = c') as Hrx.
  { intros c' Hs. cbn [after_rx rx]. split; [apply upd_zlen, Hcr|]. split; [|split].
    - intros i Hi. destruct (Z.eq_dec i cs) as [->|Ne]; [rewrite ix_upd_same by exact Hcr; exact Hs|rewrite ix_upd_other by (try exact Hcr; lia)]. apply (J_sh _ _ _ HJ), Hi.
    - intros i Hi Ne. apply ix_upd_other; [exact Hcr|lia|congruence].
    - apply ix_upd_same, Hcr. }
  destruct (if b then delta (ix cst0 (tx C) cs) (pip p) (pio p) (pth p) (pto p) (Z.of_nat (hip p + htcp p)) else None) as [[ch seq]|] eqn:Ed.
  - (* compressed *)
    destruct b; [|discriminate]. destruct (send_cmp C p lcs cs ch seq Hne H4 Hst S1 Ed) as (d & E1 & E2 & E3 & E4). rewrite E1. cbn [bind].
    destruct (Hrg (new_cmp C p cs)) as [od Hod]. unfold after_tx in Hod |- *. pose proof (kept_cmp C p cs ch seq _ Ed) as Kp.
    destruct (good_lens p G) as (L1 & L2 & L3 & L4 & B1 & B2).
    destruct lost.
    + exists (after_tx C p true lcs cs (new_cmp C p cs)), D, 2, None. split; [reflexivity|]. split; [|split; [reflexivity|split; [discriminate|split; [discriminate|split; [split; [lia|tauto]|lia]]]]].
      apply (J_after C D tr p true 2 cs _ D od); try assumption; try reflexivity; [exact (J_sh _ _ _ HJ)|]. intros Hs. apply step_same in Hs as [? _]; [discriminate|exact Hst|reflexivity].
    + assert (firstn (Z.to_nat (zlen (cmp_octets p ch cs seq))) d = cmp_octets p ch cs seq) as -> by (unfold zlen; rewrite Nat2Z.id; exact E2).
      destruct (recv_any (ix cst0 (tx C) cs) D cs (pip p) (pio p) (pth p) (pto p) _ (pdt p) ch seq room Hshc Hcr Hroom L2 B2 Ed) as (c' & buf' & n & F1 & F2). cbv zeta in F1.
      change ([Z.lor ch 64; cs] ++ slice 16 2 (pth p) ++ seq ++ pdt p) with (cmp_octets p ch cs seq) in F1.
      rewrite F1. cbn [bind]. destruct (Hrx c' F2) as (X1 & X2 & X3 & X4).
      (* in step *)
      assert (in_step (conn p) tr -> n = zlen p /\ firstn (length p) buf' = p /\ keptr c' p) as Hin.
      { intros Hs. destruct (J_sl _ _ _ HJ cs S6) as [F|(q & Gq & Kq & (l & x & Iq) & Sq)].
        - exfalso. apply hitb_iff in S4. apply (good_addr p G). rewrite S4. exact F.
        - apply hitb_iff in S4. assert (conn q = conn p) as Ec by (rewrite <- (kept_key _ q Gq Kq); symmetry; exact S4).
          rewrite Ec in Sq. destruct (recv_cmp C D cs p q ch seq room G Gq Ec) as (c2 & buf2 & G1 & G2 & G3 & G4); try assumption; [apply (Hfol q l x Iq); [apply Gq|exact Hst|exact Ec]|apply Sq, Hs|apply room_128; assumption|].
          rewrite F1 in G1. injection G1 as Ha Hb Hc. assert (c' = c2) as Hcc. { rewrite <- X4. cbn [after_rx rx]. rewrite Ha. apply ix_upd_same, Hcr. }
          subst. auto. }
      exists (after_tx C p true lcs cs (new_cmp C p cs)), (after_rx D cs c'), 2, (Some (firstn (Z.to_nat n) buf')). split; [reflexivity|].
      split; [|split; [discriminate|split; [eexists; reflexivity|split; [|split; [split; [lia|tauto]|lia]]]]].
      * apply (J_after C D tr p false 2 cs _ (after_rx D cs c') od); try assumption. intros Hs. apply step_same in Hs as [_ [Hs|Hs]]; [discriminate| |exact Hst|reflexivity].
        rewrite X4. apply Hin, Hs.
      * intros _ Hs. specialize (Hs Hst). apply step_same in Hs as [_ [Hs|Hs]]; [discriminate| |exact Hst|reflexivity].
        destruct (Hin Hs) as (-> & Hf & _). f_equal. unfold zlen. rewrite Nat2Z.id. exact Hf.
  - (* not compressed *)
    rewrite (send_unc C p b lcs cs Hne H4 Hst S1 Ed). cbn [bind].
    destruct (Hrg (new_unc C p cs)) as [od Hod]. unfold after_tx in Hod |- *. pose proof (kept_unc C p cs) as Kp.
    destruct lost.
    + exists (after_tx C p b lcs cs (new_unc C p cs)), D, 1, None. split; [reflexivity|]. split; [|split; [reflexivity|split; [discriminate|split; [discriminate|split; [split; [lia|tauto]|lia]]]]].
      apply (J_after C D tr p true 1 cs _ D od); try assumption; try reflexivity; [exact (J_sh _ _ _ HJ)|]. intros Hs. apply step_same in Hs as [? _]; [discriminate|exact Hst|reflexivity].
    + assert (length (ow p 9 [cs]) = length p) as Hl by (apply ow_length; destruct H4 as (_ & _ & ? & _); cbn [length]; lia).
      assert (firstn (Z.to_nat (zlen p)) (ow p 9 [cs]) = ow p 9 [cs]) as -> by (unfold zlen; rewrite Nat2Z.id, <- Hl; apply firstn_all).
      rewrite (recv_unc D p cs room H4 Hst (Hx Hst) Hcr). cbn [bind].
      destruct (Hrx (rem_cst D p cs) (rem_shape D p cs G Hshc)) as (X1 & X2 & X3 & X4).
      assert (firstn (Z.to_nat (zlen p)) (p ++ room) = p) as -> by (unfold zlen; rewrite Nat2Z.id; apply firstn_app_exact; reflexivity).
      exists (after_tx C p b lcs cs (new_unc C p cs)), (after_rx D cs (rem_cst D p cs)), 1, (Some p). split; [reflexivity|].
      split; [|split; [discriminate|split; [eexists; reflexivity|split; [reflexivity|split; [split; [lia|tauto]|lia]]]]].
      apply (J_after C D tr p false 1 cs _ (after_rx D cs (rem_cst D p cs)) od); try assumption. intros _. rewrite X4. apply rem_keptr, G.
Qed.
