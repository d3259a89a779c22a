(** Proofs about slhc.c: the decompressor. *)
From Verif.Lib Require Import Base Outcome.
From Verif.Comp Require Import SlhcModel SlhcSpec SlhcProofs SlhcDelta SlhcHop SlhcHop2.

Lemma be16_bytes n : bytes (be16 n).
Proof. unfold be16, bytes. repeat constructor; unfold byte; lia. Qed.
Lemma be32_bytes n : bytes (be32 n).
Proof. apply bytes_app. split; apply be16_bytes. Qed.
Lemma lor_byte a b : byte a -> byte b -> byte (Z.lor a b).
Proof.
  unfold byte. intros Ha Hb. split; [apply Z.lor_nonneg; lia|]. destruct (Z.eq_dec (Z.lor a b) 0) as [->|N]; [lia|].
  change 256 with (2 ^ 8). apply Z.log2_lt_pow2; [pose proof (proj2 (Z.lor_nonneg a b)); lia|]. rewrite Z.log2_lor by lia.
  assert (forall x, 0 <= x < 256 -> Z.log2 x < 8) as H. { intros x Hx. destruct (Z.eq_dec x 0) as [->|]; [cbn; lia|]. apply Z.log2_lt_pow2; lia. }
  pose proof (H a Ha). pose proof (H b Hb). lia.
Qed.
Lemma land_byte a b : byte a -> 0 <= b -> byte (Z.land a b).
Proof.
  unfold byte. intros Ha Hb. split; [apply Z.land_nonneg; lia|]. destruct (Z.eq_dec (Z.land a b) 0) as [->|N]; [lia|].
  change 256 with (2 ^ 8). apply Z.log2_lt_pow2; [pose proof (proj2 (Z.land_nonneg a b)); lia|].
  pose proof (Z.log2_land a b ltac:(lia) Hb). assert (Z.log2 a < 8); [|lia]. destruct (Z.eq_dec a 0) as [->|]; [cbn; lia|]. apply Z.log2_lt_pow2; lia.
Qed.
Lemma at8_ow l off src i : (off + length src <= length l)%nat -> (i < off \/ off + length src <= i)%nat -> at8 (ow l off src) i = at8 l i.
Proof.
  intros H Hi. unfold at8, ow. destruct Hi as [Hi|Hi].
  - rewrite app_nth1 by (rewrite firstn_length; lia). apply nth_firstn. exact Hi.
  - rewrite app_nth2; rewrite firstn_length; [|lia]. rewrite app_nth2 by lia. rewrite nth_skipn. f_equal. lia.
Qed.

Lemma ow20 l off src : length l = 20%nat -> (off + length src <= 20)%nat -> length (ow l off src) = 20%nat.
Proof. intros H1 H2. rewrite ow_length; lia. Qed.
Lemma at8_ow20 l off src i : length l = 20%nat -> (off + length src <= 20)%nat -> (i < off \/ off + length src <= i)%nat -> at8 (ow l off src) i = at8 l i.
Proof. intros H1 H2 H3. apply at8_ow; lia. Qed.
Ltac o20 := repeat (apply ow20; [|cbn [length be16]; lia]).

Definition ip_new (c : cst) (d len : Z) : list Z := ow (ow (ow (c_ip c) 4 (be16 (at16 (c_ip c) 4 + d))) 2 (be16 len)) 10 [0; 0].
Definition ipo (c : cst) : list Z := firstn (Z.to_nat ((ihl (c_ip c) - 5) * 4)) (c_ipopt c).
Definition tco (c : cst) : list Z := firstn (Z.to_nat ((doff (c_tcp c) - 5) * 4)) (c_tcpopt c).
Definition hl (c : cst) : Z := ihl (c_ip c) * 4 + doff (c_tcp c) * 4.
Definition tcp_in (c : cst) (m : Z) (ck : list Z) : list Z :=
  let t1 := ow (c_tcp c) 16 ck in ow t1 13 [if tst m TCP_PUSH then Z.lor (at8 t1 13) 8 else Z.land (at8 t1 13) 0xf7].

Lemma ip_new_length c d len : shape c -> length (ip_new c d len) = 20%nat.
Proof. intros (H & _). unfold ip_new. o20. exact H. Qed.
Lemma ip_new_bytes c d len : shape c -> bytes (ip_new c d len).
Proof. intros (_ & _ & _ & _ & H & _). unfold ip_new. apply ow_bytes; [|repeat constructor; unfold byte; lia]. apply ow_bytes; [|apply be16_bytes]. apply ow_bytes; [exact H|apply be16_bytes]. Qed.
Lemma ip_new_ihl c d len : shape c -> ihl (ip_new c d len) = ihl (c_ip c).
Proof. intros (H & _). unfold ihl, ip_new. f_equal. rewrite !at8_ow20; try reflexivity; try (cbn [length be16]; lia); o20; exact H. Qed.
Lemma tcp_in_length c m ck : shape c -> length ck = 2%nat -> length (tcp_in c m ck) = 20%nat.
Proof. intros (_ & H & _) Hk. unfold tcp_in. cbv zeta. apply ow20; [|cbn; lia]. apply ow20; [exact H|lia]. Qed.
Lemma tcp_in_doff c m ck : shape c -> length ck = 2%nat -> doff (tcp_in c m ck) = doff (c_tcp c).
Proof. intros (_ & H & _) Hk. unfold doff, tcp_in. cbv zeta. f_equal. rewrite at8_ow20; [|apply ow20; [exact H|lia]|cbn; lia|cbn; lia]. apply at8_ow20; [exact H|lia|lia]. Qed.
Lemma tcp_in_bytes c m ck : shape c -> bytes ck -> length ck = 2%nat -> bytes (tcp_in c m ck).
Proof.
  intros (_ & Hl & _ & _ & _ & H) Hk Lk. unfold tcp_in. assert (bytes (ow (c_tcp c) 16 ck)) as H1 by (apply ow_bytes; assumption). apply ow_bytes; [exact H1|].
  assert (byte (at8 (ow (c_tcp c) 16 ck) 13)) as H2 by (apply at8_byte; [exact H1|rewrite ow_length; lia]).
  constructor; [|constructor]. destruct (tst m TCP_PUSH); [apply lor_byte; [exact H2|unfold byte; lia]|apply land_byte; [exact H2|lia]].
Qed.

Lemma split_len {A} (l : list A) n : (n <= length l)%nat -> exists a b, l = a ++ b /\ length a = n /\ length b = (length l - n)%nat.
Proof. intros H. exists (firstn n l), (skipn n l). split; [symmetry; apply firstn_skipn|]. rewrite firstn_length, skipn_length. lia. Qed.

Lemma un_eval s cs m ck s0 D (i : bool) data room c th2 :
  0 <= cs < zlen (rx s) -> ix cst0 (rx s) cs = c -> shape c -> tst m NEW_C = true -> tst m NEW_I = i -> length ck = 2%nat ->
  let pre := [m; cs] ++ ck in
  zlen data + Z.max 5 (ihl (c_ip c)) * 4 + Z.max 5 (Z.max (doff (c_tcp c)) (doff th2)) * 4 <= zlen (pre ++ s0 ++ oenc i D ++ data ++ room) ->
  un_tcp m (c_ip c) (tcp_in c m ck) (hl c) (pre ++ s0 ++ oenc i D ++ data ++ room) (zlen pre) = Ok (th2, zlen (pre ++ s0)) -> length th2 = 20%nat -> bytes th2 ->
  let ip2 := ip_new c (if i then D mod 65536 else 1) (zlen data + hl c) in
  exists buf', slhc_uncompress s (pre ++ s0 ++ oenc i D ++ data ++ room) (zlen (pre ++ s0 ++ oenc i D ++ data)) =
      Ok (after_rx s cs (mkCst ip2 th2 (c_ipopt c) (c_tcpopt c)), buf', zlen data + hl c) /\
    (5 <= ihl (c_ip c) -> 5 <= doff (c_tcp c) -> doff th2 = doff (c_tcp c) ->
     firstn (Z.to_nat (zlen data + hl c)) buf' = ow ip2 10 (be16 (ip_csum (ip2 ++ ipo c))) ++ ipo c ++ th2 ++ tco c ++ data).
Proof.
  intros Hcs Hc Hsh MC MI Lk pre Hbuf Hun Lt Bt ip2. unfold slhc_uncompress.
  pose proof (zlen_nonneg data) as Nd. pose proof (zlen_nonneg s0) as Ns. pose proof (zlen_nonneg (oenc i D)) as No.
  assert (zlen pre = 4) as Lp. { unfold pre. rewrite zlen_app. unfold zlen. rewrite Lk. reflexivity. }
  replace (zlen (pre ++ s0 ++ oenc i D ++ data) <? 3) with false by (rewrite !zlen_app; lia).
  set (buf := pre ++ s0 ++ oenc i D ++ data ++ room) in *.
  assert (rd buf 0 = Ok m) as ->. { unfold buf, pre. rewrite <- !app_assoc. apply (rd_app_at []). reflexivity. }
  cbn [bind]. rewrite MC.
  assert (rd buf 1 = Ok cs) as ->. { unfold buf, pre. rewrite <- !app_assoc. apply (rd_app_at [m]). reflexivity. }
  cbn [bind]. replace (Z.max 0 (zlen (rx s) - 1) <? cs) with false by lia. cbn [bind toss rcur rx].
  replace ((cs <? 0) || (zlen (rx s) <=? cs)) with false by lia. cbv zeta.
  assert (rdn buf 2 2 = Ok ck) as ->. { unfold buf, pre. rewrite <- !app_assoc. apply (rdn_app [m; cs]); [reflexivity|unfold zlen; rewrite Lk; reflexivity]. }
  cbn [bind tx nxt rx oldest xcur rcur toss]. rewrite Hc. cbn [c_tcp c_ip c_ipopt c_tcpopt].
  change (ow (ow (c_tcp c) 16 ck) 13 [if tst m TCP_PUSH then Z.lor (at8 (ow (c_tcp c) 16 ck) 13) 8 else Z.land (at8 (ow (c_tcp c) 16 ck) 13) 247]) with (tcp_in c m ck).
  rewrite tcp_in_doff by assumption. fold (hl c). change (2 + 2) with 4. rewrite Lp in Hun. rewrite Hun. cbn [bind fst snd]. rewrite MI.
  assert ((if i then do x <- decode buf (zlen (pre ++ s0)); Ok x else Ok (1, zlen (pre ++ s0))) = Ok (if i then D mod 65536 else 1, zlen (pre ++ s0 ++ oenc i D))) as ->.
  { destruct i; cbn [oenc]; [|rewrite app_nil_r; reflexivity]. unfold buf. rewrite app_assoc. cbn [oenc]. rewrite (decode_encode (pre ++ s0) D _ _ eq_refl). cbn [bind]. rewrite !zlen_app. do 2 f_equal. lia. }
  cbn [bind fst snd].
  assert (zlen (pre ++ s0 ++ oenc i D ++ data) - zlen (pre ++ s0 ++ oenc i D) = zlen data) as Ed by (rewrite !zlen_app; lia).
  rewrite !Ed. replace (zlen data <? 0) with false by lia.
  fold (ip_new c (if i then D mod 65536 else 1) (zlen data + hl c)). fold ip2.
  assert (rdn buf (zlen (pre ++ s0 ++ oenc i D)) (zlen data) = Ok data) as ->. { unfold buf. rewrite !app_assoc. rewrite <- (app_assoc _ data room). apply rdn_app; [rewrite <- app_assoc; reflexivity|reflexivity]. }
  cbn [bind].
  pose proof Hsh as (L1 & L2 & L3 & L4 & B1 & B2).
  assert (0 <= ihl (c_ip c) < 16) as Hi by (unfold ihl; lia).
  assert (0 <= doff (c_tcp c) < 16) as Hd. { unfold doff. pose proof (at8_byte (c_tcp c) 12 B2 ltac:(lia)) as Hb. unfold byte in Hb. lia. }
  assert (0 <= doff th2 < 16) as Hd2. { unfold doff. pose proof (at8_byte th2 12 Bt ltac:(lia)) as Hb. unfold byte in Hb. lia. }
  clearbody buf. clear Hun.
  assert (length ip2 = 20%nat) as Lip by (apply ip_new_length; exact Hsh).
  assert (ihl ip2 = ihl (c_ip c)) as Eih by (apply ip_new_ihl; exact Hsh). rewrite !Eih. fold (ipo c).
  assert (length (ipo c) = Z.to_nat ((ihl (c_ip c) - 5) * 4)) as Lio by (unfold ipo; rewrite firstn_length; lia).
  set (tco2 := firstn (Z.to_nat ((doff th2 - 5) * 4)) (c_tcpopt c)).
  assert (length tco2 = Z.to_nat ((doff th2 - 5) * 4)) as Lto by (unfold tco2; rewrite firstn_length; lia).
  unfold hl in *.
  rewrite wr_ok; [|lia|lia]. cbn [bind]. assert (length (ow buf (Z.to_nat (ihl (c_ip c) * 4 + doff (c_tcp c) * 4)) data) = length buf) as W1 by (apply ow_length; unfold zlen in *; lia).
  set (b1 := ow buf _ data) in *.
  rewrite wr_ok; [|lia|unfold zlen in *; rewrite W1, Lip; lia]. cbn [bind]. change (Z.to_nat 0) with 0%nat.
  assert (length (ow b1 0 ip2) = length buf) as W2 by (rewrite ow_length; unfold zlen in *; lia). set (b2 := ow b1 0 ip2) in *.
  rewrite wr_ok; [|lia|unfold zlen in *; rewrite W2, Lio; lia]. cbn [bind]. change (Z.to_nat 20) with 20%nat.
  assert (length (ow b2 20 (ipo c)) = length buf) as W3 by (rewrite ow_length; unfold zlen in *; lia). set (b3 := ow b2 20 (ipo c)) in *.
  rewrite rdn_ok; [|lia|lia|unfold zlen in *; rewrite W3; lia]. cbn [bind].
  set (hdr := slice (Z.to_nat 0) (Z.to_nat (ihl (c_ip c) * 4)) b3).
  rewrite wr_ok; [|lia|unfold zlen in *; rewrite W3; cbn [length be16]; lia]. cbn [bind]. change (Z.to_nat 10) with 10%nat.
  assert (length (ow b3 10 (be16 (ip_csum hdr))) = length buf) as W4 by (rewrite ow_length; cbn [length be16]; unfold zlen in *; lia). set (b4 := ow b3 10 _) in *.
  rewrite wr_ok; [|unfold zlen; lia|unfold zlen in *; rewrite W4, Lio, Lt; lia]. cbn [bind].
  assert (length (ow b4 (Z.to_nat (20 + zlen (ipo c))) th2) = length buf) as W5 by (rewrite ow_length; unfold zlen in *; rewrite ?Lio, ?Lt; lia). set (b5 := ow b4 _ th2) in *.
  rewrite wr_ok; [|unfold zlen; lia|unfold zlen in *; rewrite W5, Lio, Lto; lia]. cbn [bind].
  eexists. split; [reflexivity|]. intros I5 D5 ED.
  assert (tco2 = tco c) as E2 by (unfold tco2, tco; rewrite ED; reflexivity). rewrite E2 in *. clearbody tco2. subst tco2.
  assert (ow ip2 10 [0; 0] = ip2) as Ez.
  { unfold ip2, ip_new. set (l := ow (ow _ _ _) 2 _). assert (length l = 20%nat) as Ll by (unfold l; o20; exact L1).
    destruct (len20 l Ll) as (?&?&?&?&?&?&?&?&?&?&?&?&?&?&?&?&?&?&?&?& ->). reflexivity. }
  (* the buffer in pieces *)
  assert (length buf = length buf) as _ by reflexivity.
  assert (exists A Zt, b1 = A ++ data ++ Zt /\ length A = (20 + length (ipo c) + 20 + length (tco c))%nat) as (A & Zt & EA & LA).
  { exists (firstn (Z.to_nat (ihl (c_ip c) * 4 + doff (c_tcp c) * 4)) buf). eexists. split; [reflexivity|]. rewrite firstn_length, Lio, Lto, ED. unfold zlen in Hbuf. lia. }
  destruct (split_len A 20) as (A1 & R1 & -> & LA1 & LR1); [lia|]. rewrite app_length in LA, LR1.
  destruct (split_len R1 (length (ipo c))) as (A2 & R2 & -> & LA2 & LR2); [lia|]. rewrite app_length in LA, LR1, LR2.
  destruct (split_len R2 20) as (A3 & A4 & -> & LA3 & LA4); [lia|]. rewrite app_length in LA, LR1, LR2, LA4.
  assert (b2 = ip2 ++ A2 ++ A3 ++ A4 ++ data ++ Zt) as Eb2. { unfold b2. rewrite EA, <- !app_assoc. rewrite ow_0 by lia. reflexivity. }
  assert (b3 = ip2 ++ ipo c ++ A3 ++ A4 ++ data ++ Zt) as Eb3. { unfold b3. rewrite Eb2. rewrite <- Lip at 1. rewrite ow_app by lia. reflexivity. }
  assert (hdr = ip2 ++ ipo c) as Eh. { unfold hdr. rewrite Eb3. unfold slice. cbn [Z.to_nat skipn]. rewrite app_assoc. apply firstn_app_exact. rewrite app_length. lia. }
  assert (b4 = ow ip2 10 (be16 (ip_csum (ip2 ++ ipo c))) ++ ipo c ++ A3 ++ A4 ++ data ++ Zt) as Eb4.
  { unfold b4. rewrite Eh, Eb3. generalize (ip_csum (ip2 ++ ipo c)). intros z. destruct (len20 ip2 Lip) as (?&?&?&?&?&?&?&?&?&?&?&?&?&?&?&?&?&?&?&?& ->). reflexivity. }
  set (ipf := ow ip2 10 (be16 (ip_csum (ip2 ++ ipo c)))) in *. assert (length ipf = 20%nat) as Lf by (unfold ipf; rewrite ow_length; cbn [length be16]; lia).
  assert (b5 = (ipf ++ ipo c) ++ th2 ++ A4 ++ data ++ Zt) as Eb5.
  { unfold b5. rewrite Eb4. replace (Z.to_nat (20 + zlen (ipo c))) with (length (ipf ++ ipo c)) by (rewrite app_length; unfold zlen; lia). rewrite app_assoc. apply ow_app. lia. }
  rewrite Eb5. rewrite app_assoc. replace (Z.to_nat (40 + zlen (ipo c))) with (length ((ipf ++ ipo c) ++ th2)) by (rewrite !app_length; unfold zlen; lia).
  rewrite ow_app by lia. rewrite !app_assoc. rewrite firstn_app_exact; [rewrite <- !app_assoc; reflexivity|]. rewrite !app_length. unfold zlen. lia.
Qed.

(** Whatever the state of the place is, a compressed packet is not read beyond its end, and nothing else changes. *)
Lemma un_tcp_any c ip ipopt th topt hlen ch seq pre post ip' th0 hl' :
  delta c ip ipopt th topt hlen = Some (ch, seq) -> length th0 = 20%nat -> bytes th0 ->
  exists s0 th2, seq = s0 ++ oenc (negb (dI c ip =? 1)) (dI c ip) /\
  un_tcp (Z.lor ch 64) ip' th0 hl' (pre ++ seq ++ post) (zlen pre) = Ok (th2, zlen (pre ++ s0)) /\ length th2 = 20%nat /\ bytes th2.
Proof.
  intros HD L B.
  assert (forall l off n, length l = 20%nat -> (off + length n <= 20)%nat -> bytes l -> bytes n -> length (ow l off n) = 20%nat /\ bytes (ow l off n)) as OW.
  { intros l off n H1 H2 H3 H4. split; [rewrite ow_length; lia|apply ow_bytes; assumption]. }
  apply delta_inv in HD as (_ & _ & _ & _ & [(-> & -> & N1 & N2)|[(_ & _ & _ & _ & -> & ->)|(_ & _ & _ & _ & -> & ->)]]).
  - do 2 eexists. split; [rewrite !app_assoc; reflexivity|]. rewrite <- !app_assoc. rewrite (un_tcp_normal _ _ _ _ _ _ true); [|exact N1|exact N2].
    split; [rewrite <- !app_assoc; reflexivity|]. clear N1 N2.
    generalize (at16 th 18 mod 65536) (dW c th mod 65536) (dA c th mod 65536) (dS c th mod 65536). intros U W A S0.
    assert (length (set_u (isurg th) U th0) = 20%nat /\ bytes (set_u (isurg th) U th0)) as [L1 B1].
    { unfold set_u. pose proof (at8_byte th0 13 B ltac:(lia)) as H13. destruct (isurg th).
      - destruct (OW th0 13%nat [Z.lor (at8 th0 13) 32] L) as [L1 B1]; [cbn; lia|exact B|constructor; [apply lor_byte; [exact H13|unfold byte; lia]|constructor]|]. apply OW; [exact L1|cbn; lia|exact B1|apply be16_bytes].
      - apply OW; [exact L|cbn; lia|exact B|constructor; [apply land_byte; [exact H13|lia]|constructor]]. }
    set (x1 := set_u _ _ _) in *. clearbody x1.
    assert (length (set_w (negb (dW c th =? 0)) W x1) = 20%nat /\ bytes (set_w (negb (dW c th =? 0)) W x1)) as [L2 B2]
      by (unfold set_w; destruct (negb _); [apply OW; [exact L1|cbn; lia|exact B1|apply be16_bytes]|split; assumption]). set (x2 := set_w _ _ _) in *. clearbody x2.
    assert (length (set_a (negb (dA c th =? 0)) A x2) = 20%nat /\ bytes (set_a (negb (dA c th =? 0)) A x2)) as [L3 B3]
      by (unfold set_a; destruct (negb _); [apply OW; [exact L2|cbn; lia|exact B2|apply be32_bytes]|split; assumption]). set (x3 := set_a _ _ _) in *. clearbody x3.
    unfold set_s. destruct (negb (dS c th =? 0)); [apply OW; [exact L3|cbn; lia|exact B3|apply be32_bytes]|split; assumption].
  - do 2 eexists. split; [symmetry; apply app_nil_l|]. rewrite app_nil_r. unfold un_tcp.
    destruct (mask_bits true true false true (negb (dI c ip =? 1)) (ispsh th) true) as (_ & _ & _ & _ & _ & _ & _ & M & _). cbv zeta in *.
    unfold SPECIALS_MASK. rewrite M. change (b2z true * 1 + b2z true * 2 + b2z false * 4 + b2z true * 8 =? SPECIAL_I) with true. cbv iota. split; [reflexivity|].
    match goal with |- context [ow (ow th0 8 ?x) _ _] => destruct (OW th0 8%nat x L) as [L1 B1]; [cbn; lia|exact B|apply be32_bytes|] end. apply OW; [exact L1|cbn; lia|exact B1|apply be32_bytes].
  - do 2 eexists. split; [symmetry; apply app_nil_l|]. rewrite app_nil_r. unfold un_tcp.
    destruct (mask_bits true true true true (negb (dI c ip =? 1)) (ispsh th) true) as (_ & _ & _ & _ & _ & _ & _ & M & _). cbv zeta in *.
    unfold SPECIALS_MASK. rewrite M. change (b2z true * 1 + b2z true * 2 + b2z true * 4 + b2z true * 8 =? SPECIAL_I) with false.
    change (b2z true * 1 + b2z true * 2 + b2z true * 4 + b2z true * 8 =? SPECIAL_D) with true. cbv iota. split; [reflexivity|]. apply OW; [exact L|cbn; lia|exact B|apply be32_bytes].
Qed.
