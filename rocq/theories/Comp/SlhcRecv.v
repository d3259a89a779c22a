(** Proofs about slhc.c: a compressed packet is restored, if the receiver has the header of the packet before. *)
From Verif.Lib Require Import Base Outcome.
From Verif.Comp Require Import SlhcModel SlhcSpec SlhcProofs SlhcDelta SlhcHop SlhcHop2 SlhcHop3.

Lemma unchanged_inv c ip io th to : unchanged c ip io th to = true ->
  at8 ip 0 / 16 = at8 (c_ip c) 0 / 16 /\ ihl ip = ihl (c_ip c) /\ at8 ip 1 = at8 (c_ip c) 1 /\
  Z.land (at16 ip 6) 0x4000 = Z.land (at16 (c_ip c) 6) 0x4000 /\ at8 ip 8 = at8 (c_ip c) 8 /\ doff th = doff (c_tcp c) /\
  io = firstn (length io) (c_ipopt c) /\ to = firstn (length to) (c_tcpopt c).
Proof.
  unfold unchanged. rewrite !andb_true_iff, !Z.eqb_eq. destruct (list_eq_dec Z.eq_dec io _) as [E|]; [|intros; exfalso; intuition discriminate].
  destruct (list_eq_dec Z.eq_dec to _) as [F|]; [|intros; exfalso; intuition discriminate]. intuition.
Qed.

(** The IP header restored. *)
Lemma ip_restored ip ip0 ck len d :
  length ip = 20%nat -> length ip0 = 20%nat -> length ck = 2%nat -> bytes ip -> bytes ip0 ->
  at8 ip 0 = at8 ip0 0 -> at8 ip 1 = at8 ip0 1 -> at8 ip 6 = at8 ip0 6 -> at8 ip 7 = at8 ip0 7 -> at8 ip 8 = at8 ip0 8 -> at8 ip 9 = at8 ip0 9 ->
  slice 12 8 ip = slice 12 8 ip0 -> at16 ip 2 = len -> (at16 ip 4 - at16 ip0 4 - d) mod 65536 = 0 ->
  ow (ow (ow (ow ip0 10 ck) 4 (be16 (at16 (ow ip0 10 ck) 4 + d))) 2 (be16 len)) 10 [0; 0] = ow ip 10 [0; 0].
Proof.
  intros L L0 Lk B B0 H0 H1 H6 H7 H8 H9 HS HL HD.
  destruct (len20 ip L) as (n0&n1&n2&n3&n4&n5&n6&n7&n8&n9&n10&n11&n12&n13&n14&n15&n16&n17&n18&n19&->).
  destruct (len20 ip0 L0) as (t0&t1&t2&t3&t4&t5&t6&t7&t8&t9&t10&t11&t12&t13&t14&t15&t16&t17&t18&t19&->).
  destruct ck as [|k0 [|k1 [|]]]; try discriminate. cbn [slice skipn firstn] in HS. unfold at16, at8 in *. cbn [nth Nat.add] in *. injection HS as <- <- <- <- <- <- <- <-.
  cbn [ow firstn skipn app length Nat.add nth]. bytes20 B. bytes20 B0.
  rewrite (be16_at n4 n5 (t4 * 256 + t5 + d)); [|assumption|assumption|unfold byte in *; lia].
  rewrite (be16_at n2 n3 (n2 * 256 + n3)); [|assumption|assumption|unfold byte in *; lia]. cbn [app]. reflexivity.
Qed.

Lemma at8_bytes l i : bytes l -> length l = 20%nat -> (i < 20)%nat -> byte (at8 l i).
Proof. intros H L Hi. unfold at8. unfold bytes in H. rewrite Forall_forall in H. apply H. apply nth_In. lia. Qed.
Lemma at16_ow_other l ck i : length l = 20%nat -> length ck = 2%nat -> (i + 1 < 10)%nat -> at16 (ow l 10 ck) i = at16 l i.
Proof. intros L Lk Hi. unfold at16. rewrite !at8_ow20 by (rewrite ?Lk; lia). reflexivity. Qed.

Lemma tcp_in_eq c m ck th0 th : c_tcp c = th0 -> ck = slice 16 2 th -> tst m TCP_PUSH = ispsh th ->
  tcp_in c m ck = (let t1 := ow th0 16 (slice 16 2 th) in ow t1 13 [if ispsh th then Z.lor (at8 t1 13) 8 else Z.land (at8 t1 13) 0xf7]).
Proof. intros <- -> E. unfold tcp_in. rewrite E. reflexivity. Qed.

Lemma recv_parts c cr D cs p ip io th to dt q ip0 io0 th0 to0 dt0 ch seq room :
  parts p ip io th to dt -> parts q ip0 io0 th0 to0 dt0 ->
  slice 12 8 ip = slice 12 8 ip0 -> slice 0 4 th = slice 0 4 th0 -> at8 ip 6 / 128 = at8 ip0 6 / 128 ->
  at8 th 12 mod 16 = at8 th0 12 mod 16 -> at8 th 13 / 64 = at8 th0 13 / 64 -> (isurg th0 = true -> isurg th = true) ->
  at16 ip 2 = zlen p -> zlen p <= 32767 -> at16 ip0 2 <= 32767 ->
  sum16 (ip ++ io) mod 65535 = 0 -> at16 ip 10 <> 65535 ->
  keeps c ip0 io0 th0 to0 -> keepr cr ip0 io0 th0 to0 -> shape cr -> ix cst0 (rx D) cs = cr -> 0 <= cs < zlen (rx D) ->
  delta c ip io th to (zlen (ip ++ io ++ th ++ to)) = Some (ch, seq) ->
  let o := [Z.lor ch 64; cs] ++ slice 16 2 th ++ seq ++ dt in zlen p <= zlen (o ++ room) ->
  exists c' buf', rfc1144_expand D (o ++ room) (zlen o) 2 = Ok (after_rx D cs c', buf', zlen p) /\ (@firstn Z (length p) buf') = p /\ keepr c' ip io th to /\ shape c'.
Proof.
  intros P Q HA HP HF HR HE HU HT HL HT0 HS HC (K1 & K2 & K3 & K4) ((ck0 & Lk0 & Bk0 & R1) & R2 & R3 & R4) Hsh Hcr Hcs HD o Hroom.
  pose proof (delta_inv _ _ _ _ _ _ _ _ HD) as (HN & _). apply unchanged_inv in HN as (U0 & U1 & U2 & U3 & U4 & U5 & U6 & U7). rewrite K1, K2 in *.
  assert (bytes ip /\ bytes io /\ bytes th /\ bytes to /\ bytes dt) as (B1 & B2 & B3 & B4 & B5). { pose proof (P_b _ _ _ _ _ _ P) as X. rewrite (P_eq _ _ _ _ _ _ P) in X. rewrite !bytes_app in X. exact X. }
  assert (bytes ip0 /\ bytes th0) as (B10 & B30). { pose proof (P_b _ _ _ _ _ _ Q) as X. rewrite (P_eq _ _ _ _ _ _ Q) in X. rewrite !bytes_app in X. tauto. }
  destruct P as [Pe Pb Pip Pth Pio Pto Pv Pp Pf Pf1 Pf2], Q as [Qe Qb Qip Qth Qio Qto Qv Qp Qf Qf1 Qf2].
  assert (length io = length io0) as Lio by (unfold zlen in *; lia). assert (length to = length to0) as Lto by (unfold zlen in *; lia).
  assert (io = io0) as Eio by (rewrite U6, Lio; exact K3). assert (to = to0) as Eto by (rewrite U7, Lto; exact K4). clear U6 U7 K3 K4.
  subst io0 to0.
  pose proof (at8_bytes ip 0 B1 Pip ltac:(lia)) as Y0. pose proof (at8_bytes ip0 0 B10 Qip ltac:(lia)) as Y1.
  pose proof (at8_bytes ip 6 B1 Pip ltac:(lia)) as Y2. pose proof (at8_bytes ip0 6 B10 Qip ltac:(lia)) as Y3.
  pose proof (at8_bytes ip 7 B1 Pip ltac:(lia)) as Y4. pose proof (at8_bytes ip0 7 B10 Qip ltac:(lia)) as Y5.
  pose proof (at8_bytes th 12 B3 Pth ltac:(lia)) as Y6.
  assert (at8 ip 0 = at8 ip0 0) as E0 by (unfold ihl, byte in *; lia).
  destruct (frag_same _ _ _ _ Y2 Y4 Y3 Y5 Pf Qf U3 HF) as [E6 E7].
  assert (hl cr = zlen (ip ++ io ++ th ++ to)) as Hhl.
  { unfold hl. rewrite R1, R2. unfold ihl at 1. rewrite at8_ow20 by (rewrite ?Lk0; lia). fold (ihl ip0). rewrite !zlen_app. unfold zlen in *. rewrite Pip, Pth. lia. }
  assert (5 <= ihl ip) as I5 by (pose proof (zlen_nonneg io); lia). assert (5 <= doff th) as D5 by (pose proof (zlen_nonneg to); lia).
  destruct (delta_seq _ _ _ _ _ _ _ _ HD) as (_ & Bs & u & w & a & s & i & ps & Ech & Ei & Eps).
  destruct (mask_bits u w a s i ps true) as (_ & _ & _ & _ & M5 & M6 & M7 & _). cbv zeta in *.
  set (m := Z.lor ch 64) in *.
  assert (length (slice 16 2 th) = 2%nat) as Lck by (unfold slice; rewrite firstn_length, skipn_length; lia).
  destruct (tcp_restored c ip io th to (zlen (ip ++ io ++ th ++ to)) ch seq true ([m; cs] ++ slice 16 2 th) (dt ++ room) (c_ip cr) th0) as (s0 & Es & Hun); try assumption.
  { rewrite R1, K1. apply at16_ow_other; [exact Qip|exact Lk0|lia]. }
  { rewrite K1. pose proof (zlen_nonneg (ip ++ io ++ th ++ to)). lia. }
  cbv zeta in Hun.
  assert (tst m TCP_PUSH = ispsh th) as Mp by (unfold m; rewrite Ech, <- Eps; exact M6).
  pose proof (tcp_in_eq cr m (slice 16 2 th) th0 th R2 eq_refl Mp) as Etc. cbv zeta in Etc. rewrite <- Etc in Hun.
  change (if true then 64 else 0) with 64 in Hun. fold m in Hun.
  rewrite Es in Hun. rewrite <- !app_assoc in Hun. rewrite <- Ei in *.
  destruct (un_eval D cs m (slice 16 2 th) s0 (dI c ip) i dt room cr th Hcs Hcr Hsh) as (buf' & E1 & E2); try assumption.
  { unfold m. rewrite Ech. exact M7. } { unfold m. rewrite Ech. exact M5. }
  { unfold o in Hroom. rewrite Es in Hroom. rewrite R1, R2. unfold ihl. rewrite at8_ow20 by (rewrite ?Lk0; lia). fold (ihl ip0).
    rewrite <- U5, <- U1, !Z.max_id. rewrite (Z.max_r 5 (ihl ip)), (Z.max_r 5 (doff th)) by lia.
    etransitivity; [|etransitivity; [exact Hroom|]]; [rewrite Pe, !zlen_app; unfold zlen in *; rewrite Pip, Pth; lia|]. rewrite !zlen_app. lia. }
  { rewrite Hhl. rewrite <- !app_assoc in *. exact Hun. }
  rewrite <- R2 in U5. specialize (E2 ltac:(rewrite R1; unfold ihl; rewrite at8_ow20 by (rewrite ?Lk0; lia); fold (ihl ip0); lia) ltac:(lia) U5).
  set (ip2 := ip_new cr (if i then dI c ip mod 65536 else 1) (zlen dt + hl cr)) in *.
  assert (zlen dt + hl cr = zlen p) as Hlen by (rewrite Hhl, Pe, !zlen_app; lia).
  assert (ip2 = ow ip 10 [0; 0]) as Eip.
  { unfold ip2, ip_new. rewrite R1, Hlen. apply ip_restored; try assumption; try lia. unfold dI in *. rewrite K1 in *. destruct i; [|lia].
    set (x := at16 ip 4 - at16 ip0 4). rewrite Zminus_mod_idemp_r. rewrite Z.sub_diag. reflexivity. }
  exists (mkCst ip2 th (c_ipopt cr) (c_tcpopt cr)), buf'.
  assert (ipo cr = io) as Eipo. { unfold ipo. rewrite R1. unfold ihl. rewrite at8_ow20 by (rewrite ?Lk0; lia). fold (ihl ip0). transitivity (firstn (length io) (c_ipopt cr)); [f_equal; clear - Qio; unfold zlen in *; lia|exact R3]. }
  assert (tco cr = to) as Etco. { unfold tco. rewrite R2. transitivity (firstn (length to) (c_tcpopt cr)); [f_equal; clear - Qto; unfold zlen in *; lia|exact R4]. }
  split; [|split; [|split]].
  - unfold rfc1144_expand. change (2 =? 1) with false. change (2 =? 2) with true. cbv iota. unfold o. rewrite Es. rewrite <- !app_assoc. rewrite <- !app_assoc in E1. rewrite E1, Hlen. reflexivity.
  - rewrite Hlen in E2. unfold zlen in E2. rewrite Nat2Z.id in E2. rewrite E2, Eipo, Etco, Eip.
    destruct (len20 ip Pip) as (n0&n1&n2&n3&n4&n5&n6&n7&n8&n9&n10&n11&n12&n13&n14&n15&n16&n17&n18&n19&Eq).
    transitivity (ip ++ io ++ th ++ to ++ dt); [f_equal|symmetry; exact Pe]. rewrite Eq in *. cbn [ow firstn skipn app length Nat.add].
    unfold at16, at8 in HC. cbn [nth Nat.add] in HC.
    pose proof (ip_csum_restore [n0;n1;n2;n3;n4;n5;n6;n7;n8;n9] n10 n11 ([n12;n13;n14;n15;n16;n17;n18;n19] ++ io)) as CR. cbn [app] in CR. rewrite CR; [reflexivity|reflexivity| |exact HS|exact HC].
    change (bytes ([n0;n1;n2;n3;n4;n5;n6;n7;n8;n9;n10;n11;n12;n13;n14;n15;n16;n17;n18;n19] ++ io)). rewrite bytes_app. split; assumption.
  - split; [exists [0; 0]; split; [reflexivity|split; [repeat constructor; unfold byte; lia|exact Eip]]|]. split; [reflexivity|]. split; assumption.
  - destruct Hsh as (S1 & S2 & S3 & S4 & S5 & S6). split; [cbn [c_ip]; unfold ip2; apply ip_new_length; repeat split; assumption|]. split; [exact Pth|]. split; [exact S3|]. split; [exact S4|]. split; [|exact B3]. cbn [c_ip]. apply ip_new_bytes. repeat split; assumption.
Qed.

(** Any state of the receiver: something is handed up, and no octet outside the buffer is touched. *)
Lemma recv_any c D cs ip io th to hlen dt ch seq room : shape (ix cst0 (rx D) cs) -> 0 <= cs < zlen (rx D) -> 128 <= zlen room -> length th = 20%nat -> bytes th ->
  delta c ip io th to hlen = Some (ch, seq) ->
  let o := [Z.lor ch 64; cs] ++ slice 16 2 th ++ seq ++ dt in
  exists c' buf' n, rfc1144_expand D (o ++ room) (zlen o) 2 = Ok (after_rx D cs c', buf', n) /\ shape c'.
Proof.
  intros Hsh Hcs Hroom Pth Bth HD o. remember (ix cst0 (rx D) cs) as cr eqn:Ecr.
  assert (length (slice 16 2 th) = 2%nat) as Lck by (unfold slice; rewrite firstn_length, skipn_length; lia).
  assert (bytes (slice 16 2 th)) as Bck by (unfold slice; apply Forall_firstn, Forall_skipn, Bth).
  destruct (delta_seq _ _ _ _ _ _ _ _ HD) as (_ & Bs & u & w & a & s & i & ps & Ech & Ei & Eps).
  destruct (mask_bits u w a s i ps true) as (_ & _ & _ & _ & M5 & M6 & M7 & _). cbv zeta in *.
  set (m := Z.lor ch 64) in *.
  destruct (un_tcp_any c ip io th to hlen ch seq ([m; cs] ++ slice 16 2 th) (dt ++ room) (c_ip cr) (tcp_in cr m (slice 16 2 th)) (hl cr)) as (s0 & th2 & Es & Hun & L2 & B2); try assumption.
  { apply tcp_in_length; assumption. } { apply tcp_in_bytes; assumption. }
  fold m in Hun. rewrite Es in Hun. rewrite <- !app_assoc in Hun. rewrite <- Ei in *.
  destruct (un_eval D cs m (slice 16 2 th) s0 (dI c ip) i dt room cr th2 Hcs (eq_sym Ecr) Hsh) as (buf' & E1 & _); try assumption.
  { unfold m. rewrite Ech. exact M7. } { unfold m. rewrite Ech. exact M5. }
  { destruct Hsh as (_ & L2' & _ & _ & _ & B2'). assert (0 <= ihl (c_ip cr) < 16) as Q1 by (unfold ihl; lia).
    assert (forall t, length t = 20%nat -> bytes t -> 0 <= doff t < 16) as Q2 by (intros t Lt Bt; unfold doff; pose proof (at8_byte t 12 Bt ltac:(lia)) as Hb; unfold byte in Hb; lia).
    pose proof (Q2 _ L2' B2'). pose proof (Q2 _ L2 B2). rewrite !zlen_app. pose proof (zlen_nonneg s0). pose proof (zlen_nonneg (oenc i (dI c ip))). pose proof (zlen_nonneg (slice 16 2 th)). pose proof (zlen_nonneg [m; cs]). lia. }
  eexists _, buf', _. split.
  - unfold rfc1144_expand. change (2 =? 1) with false. change (2 =? 2) with true. cbv iota. unfold o. rewrite Es. rewrite <- !app_assoc. rewrite <- !app_assoc in E1. rewrite E1. reflexivity.
  - destruct Hsh as (S1 & S2 & S3 & S4 & S5 & S6). split; [cbn [c_ip]; apply ip_new_length; repeat split; assumption|]. split; [exact L2|]. split; [exact S3|]. split; [exact S4|]. split; [|exact B2]. cbn [c_ip]. apply ip_new_bytes. repeat split; assumption.
Qed.
