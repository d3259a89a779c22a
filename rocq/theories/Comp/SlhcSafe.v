(** Proofs about slhc.c: any octets from the peer; and the two directions. *)
From Verif.Lib Require Import Base Outcome.
From Verif.Comp Require Import SlhcModel SlhcSpec SlhcProofs SlhcDelta SlhcHop SlhcHop2 SlhcHop3 SlhcRing SlhcRecv SlhcLink SlhcLink2.

(** The decompressor's part of the state. *)
Definition rxok (s : slc) : Prop :=
  1 <= zlen (rx s) <= 256 /\ (forall i, 0 <= i < zlen (rx s) -> shape (ix cst0 (rx s) i)) /\ (toss s = false -> 0 <= rcur s < zlen (rx s)).

Lemma decode_ok buf i n : bytes buf -> 0 <= i -> i + 3 <= n -> n <= zlen buf -> exists x j, decode buf i = Ok (x, j) /\ i + 1 <= j <= i + 3 /\ 0 <= x < 65536.
Proof.
  intros B H0 H1 H2. unfold decode. rewrite rd_ok by lia. cbn [bind].
  assert (forall k, 0 <= k < zlen buf -> byte (nth (Z.to_nat k) buf 0)) as NB. { intros k Hk. unfold bytes in B. rewrite Forall_forall in B. apply B, nth_In. unfold zlen in Hk. lia. }
  pose proof (NB i ltac:(lia)) as B0. pose proof (NB (i + 1) ltac:(lia)) as B1. pose proof (NB (i + 2) ltac:(lia)) as B2. unfold byte in *.
  destruct (_ =? 0); [rewrite !rd_ok by lia; cbn [bind]|]; do 2 eexists; (split; [reflexivity|]); lia.
Qed.
Lemma ow_keep l off src : length l = 20%nat -> bytes l -> bytes src -> (off + length src <= 20)%nat -> length (ow l off src) = 20%nat /\ bytes (ow l off src).
Proof. intros H1 H2 H3 H4. split; [apply ow20; assumption|apply ow_bytes; assumption]. Qed.

Lemma un_tcp_safe ch ip th h buf i : bytes buf -> length th = 20%nat -> bytes th -> 0 <= i -> i + 12 <= zlen buf ->
  exists th2 j, un_tcp ch ip th h buf i = Ok (th2, j) /\ length th2 = 20%nat /\ bytes th2 /\ i <= j <= i + 12.
Proof.
  intros B L T H0 H1. unfold un_tcp. destruct (_ =? SPECIAL_I).
  { do 2 eexists. split; [reflexivity|]. destruct (ow_keep th 8 (be32 (at32 th 8 + short (at16 ip 2 - h))) L T (be32_bytes _)) as [L1 B1]; [cbn; lia|].
    destruct (ow_keep _ 4 (be32 (at32 th 4 + short (at16 ip 2 - h))) L1 B1 (be32_bytes _)) as [L2 B2]; [cbn; lia|]. split; [exact L2|]. split; [exact B2|lia]. }
  destruct (_ =? SPECIAL_D).
  { do 2 eexists. split; [reflexivity|]. destruct (ow_keep th 4 (be32 (at32 th 4 + at16 ip 2 - h)) L T (be32_bytes _)) as [L1 B1]; [cbn; lia|]. split; [exact L1|]. split; [exact B1|lia]. }
  assert (exists t1 i1, (if tst ch NEW_U then do x <- decode buf i; Ok (ow (ow th 13 [Z.lor (at8 th 13) 0x20]) 18 (be16 (fst x)), snd x) else Ok (ow th 13 [Z.land (at8 th 13) 0xdf], i)) = Ok (t1, i1)
    /\ length t1 = 20%nat /\ bytes t1 /\ i <= i1 <= i + 3) as (t1 & i1 & -> & L1 & B1 & I1).
  { pose proof (at8_bytes th 13 T L ltac:(lia)) as H13. destruct (tst ch NEW_U).
    - destruct (decode_ok buf i (zlen buf) B H0 ltac:(lia) ltac:(lia)) as (x & j & -> & Hj & Hx). cbn [bind fst snd]. do 2 eexists. split; [reflexivity|].
      destruct (ow_keep th 13 [Z.lor (at8 th 13) 32] L T) as [L1 B1]; [constructor; [apply lor_byte; [exact H13|unfold byte; lia]|constructor]|cbn; lia|].
      destruct (ow_keep _ 18 (be16 x) L1 B1 (be16_bytes _)) as [L2 B2]; [cbn; lia|]. split; [exact L2|]. split; [exact B2|lia].
    - do 2 eexists. split; [reflexivity|]. destruct (ow_keep th 13 [Z.land (at8 th 13) 0xdf] L T) as [L1 B1]; [constructor; [apply land_byte; [exact H13|lia]|constructor]|cbn; lia|]. split; [exact L1|]. split; [exact B1|lia]. }
  cbn [bind fst snd].
  assert (forall (bit : bool) t k off (f : Z -> list Z), length t = 20%nat -> bytes t -> i <= k -> k + 3 <= zlen buf -> (forall x, bytes (f x) /\ (off + length (f x) <= 20)%nat) ->
    exists t2 k2, (if bit then do x <- decode buf k; Ok (ow t off (f (fst x)), snd x) else Ok (t, k)) = Ok (t2, k2) /\ length t2 = 20%nat /\ bytes t2 /\ k <= k2 <= k + 3) as ST.
  { intros bit t k off f Lt Bt K1 K2 Hf. destruct bit; [|do 2 eexists; split; [reflexivity|]; repeat split; try assumption; lia].
    destruct (decode_ok buf k (zlen buf) B ltac:(lia) K2 ltac:(lia)) as (x & j & -> & Hj & Hx). cbn [bind fst snd]. do 2 eexists. split; [reflexivity|].
    destruct (Hf x) as [Hf1 Hf2]. destruct (ow_keep t off (f x) Lt Bt Hf1 Hf2) as [L2 B2]. repeat split; try assumption; lia. }
  destruct (ST (tst ch NEW_W) t1 i1 14%nat (fun x => be16 (at16 t1 14 + x)) L1 B1 ltac:(lia) ltac:(lia)) as (t2 & i2 & -> & L2 & B2 & I2). { intros x. split; [apply be16_bytes|cbn; lia]. }
  cbn [bind fst snd].
  destruct (ST (tst ch NEW_A) t2 i2 8%nat (fun x => be32 (at32 t2 8 + x)) L2 B2 ltac:(lia) ltac:(lia)) as (t3 & i3 & -> & L3 & B3 & I3). { intros x. split; [apply be32_bytes|cbn; lia]. }
  cbn [bind fst snd].
  destruct (ST (tst ch NEW_S) t3 i3 4%nat (fun x => be32 (at32 t3 4 + x)) L3 B3 ltac:(lia) ltac:(lia)) as (t4 & i4 & -> & L4 & B4 & I4). { intros x. split; [apply be32_bytes|cbn; lia]. }
  do 2 eexists. split; [reflexivity|]. split; [exact L4|]. split; [exact B4|lia].
Qed.

Lemma zlen_wr b off s b' : wr b off s = Ok b' -> zlen b' = zlen b.
Proof. unfold wr. destruct (_ && _) eqn:E; [|discriminate]. intros H. injection H as <-. unfold zlen. rewrite ow_length; [reflexivity|]. unfold zlen in E. lia. Qed.
Lemma wr_fits b off s : 0 <= off -> off + zlen s <= zlen b -> exists b', wr b off s = Ok b' /\ zlen b' = zlen b.
Proof. intros H1 H2. destruct (wr b off s) eqn:E; try (exfalso; unfold wr in E; destruct (_ && _) eqn:F; [discriminate|lia]). eexists. split; [reflexivity|]. apply (zlen_wr _ _ _ _ E). Qed.
Lemma wr_bytes b off s b' : bytes b -> bytes s -> wr b off s = Ok b' -> bytes b'.
Proof. unfold wr. destruct (_ && _) eqn:E; [|discriminate]. intros B1 B2 H. injection H as <-. apply ow_bytes; assumption. Qed.

Lemma rx_upd (s : slc) i c t o x to n : rxok s -> 0 <= i < zlen (rx s) -> shape c -> rxok (mkSlc t n (upd (rx s) i c) o x i to).
Proof.
  intros (H1 & H2 & H3) Hi Hc. unfold rxok. cbn [rx toss rcur]. rewrite upd_zlen by exact Hi. split; [exact H1|]. split; [|auto].
  intros j Hj. destruct (Z.eq_dec j i) as [->|Ne]; [rewrite ix_upd_same by exact Hi; exact Hc|rewrite ix_upd_other by (try exact Hi; lia)]. apply H2, Hj.
Qed.

Lemma ihl_lt16 ip : ihl ip < 16.
Proof. unfold ihl. apply Z.mod_pos_bound. lia. Qed.
Lemma uncompress_safe s pkt room : rxok s -> bytes pkt -> bytes room -> 128 <= zlen room ->
  exists s' buf n, slhc_uncompress s (pkt ++ room) (zlen pkt) = Ok (s', buf, n) /\ rxok s' /\ 0 <= n <= zlen buf /\ zlen buf = zlen (pkt ++ room).
Proof.
  intros R Bp Br Hr. unfold slhc_uncompress. pose proof (zlen_nonneg pkt) as Np.
  assert (zlen (pkt ++ room) = zlen pkt + zlen room) as Hz by apply zlen_app.
  destruct (zlen pkt <? 3) eqn:E3; [exists s, (pkt ++ room), 0; split; [reflexivity|]; split; [exact R|]; split; [rewrite Hz; lia|reflexivity]|].
  set (buf := pkt ++ room) in *. assert (bytes buf) as Bb by (unfold buf; rewrite bytes_app; split; assumption).
  rewrite rd_ok by lia. cbn [bind]. set (ch := nth (Z.to_nat 0) buf 0).
  assert (forall k, 0 <= k < zlen buf -> byte (nth (Z.to_nat k) buf 0)) as NB. { intros k Hk. unfold bytes in Bb. rewrite Forall_forall in Bb. apply Bb, nth_In. unfold zlen in Hk. lia. }
  assert (exists a, (if tst ch NEW_C then do x <- rd buf 1; if Z.max 0 (zlen (rx s) - 1) <? x then Ok None else Ok (Some (mkSlc (tx s) (nxt s) (rx s) (oldest s) (xcur s) x false, 2)) else Ok (Some (s, 1))) = Ok a /\
    match a with None => True | Some (s1, i) => rxok s1 /\ zlen (rx s1) = zlen (rx s) /\ 1 <= i <= 2 end) as (a & -> & Ha).
  { destruct (tst ch NEW_C).
    - rewrite rd_ok by lia. cbn [bind]. pose proof (NB 1 ltac:(lia)) as B1. unfold byte in B1. destruct (Z.max 0 (zlen (rx s) - 1) <? nth (Z.to_nat 1) buf 0) eqn:E; eexists; (split; [reflexivity|]); [exact I|]. cbn [rx]. split; [|split; [reflexivity|lia]].
      destruct R as (R1 & R2 & R3). split; [exact R1|]. split; [exact R2|]. cbn [toss rcur rx]. lia.
    - eexists. split; [reflexivity|]. split; [exact R|]. split; [reflexivity|lia]. }
  cbn [bind]. destruct a as [[s1 i]|]; [|exists (slhc_toss s), buf, 0; split; [reflexivity|]; split; [destruct R as (R1 & R2 & R3); split; [exact R1|split; [exact R2|discriminate]]|split; [lia|reflexivity]]].
  destruct Ha as (R' & Ez & Hi). destruct (toss s1) eqn:Et; [exists s1, buf, 0; split; [reflexivity|]; split; [exact R'|split; [lia|reflexivity]]|].
  pose proof R' as (R1 & R2 & R3). specialize (R3 Et).
  replace ((rcur s1 <? 0) || (zlen (rx s1) <=? rcur s1)) with false by lia.
  set (c := ix cst0 (rx s1) (rcur s1)). assert (shape c) as Hsh by (apply R2, R3). pose proof Hsh as (S1 & S2 & S3 & S4 & S5 & S6).
  rewrite rdn_ok by lia. cbn [bind]. set (ck := slice (Z.to_nat i) (Z.to_nat 2) buf).
  assert (length ck = 2%nat /\ bytes ck) as [Lck Bck]. { split; [unfold ck, slice; rewrite firstn_length, skipn_length; unfold zlen in *; lia|unfold ck, slice; apply Forall_firstn, Forall_skipn, Bb]. }
  set (t0 := ow (c_tcp c) 16 ck). destruct (ow_keep (c_tcp c) 16 ck S2 S6 Bck ltac:(lia)) as [L0 B0]. fold t0 in L0, B0.
  set (t1 := ow t0 13 [if tst ch TCP_PUSH then Z.lor (at8 t0 13) 8 else Z.land (at8 t0 13) 247]).
  pose proof (at8_bytes t0 13 B0 L0 ltac:(lia)) as H13.
  destruct (ow_keep t0 13 [if tst ch TCP_PUSH then Z.lor (at8 t0 13) 8 else Z.land (at8 t0 13) 247] L0 B0) as [L1 B1].
  { constructor; [|constructor]. destruct (tst ch TCP_PUSH); [apply lor_byte; [exact H13|unfold byte; lia]|apply land_byte; [exact H13|lia]]. } { cbn; lia. }
  fold t1 in L1, B1. cbv zeta.
  assert (0 <= doff t1 < 16) as Hdo. { pose proof (at8_bytes t1 12 B1 L1 ltac:(lia)) as H12. unfold doff, byte in *. lia. }
  assert (0 <= ihl (c_ip c) < 16) as Hih by (unfold ihl; lia).
  destruct (un_tcp_safe ch (c_ip c) t1 (ihl (c_ip c) * 4 + doff t1 * 4) buf (i + 2) Bb L1 B1 ltac:(lia) ltac:(lia)) as (t2 & j & -> & L2 & B2 & Hj). cbn [bind fst snd].
  assert (exists d, (if tst ch NEW_I then do x <- decode buf j; Ok x else Ok (1, j)) = Ok d /\ j <= snd d <= j + 3) as (d & -> & Hd).
  { destruct (tst ch NEW_I); [|eexists; split; [reflexivity|cbn [snd]; lia]]. destruct (decode_ok buf j (zlen buf) Bb ltac:(lia) ltac:(lia) ltac:(lia)) as (x & k & -> & Hk & _). cbn [bind]. eexists. split; [reflexivity|cbn [snd]; lia]. }
  cbn [bind]. set (hdl := ihl (c_ip c) * 4 + doff t1 * 4) in *. assert (0 <= hdl <= 120) as Hhdl by (unfold hdl; lia). clearbody hdl.
  set (ip1 := ow (c_ip c) 4 (be16 (at16 (c_ip c) 4 + fst d))). destruct (ow_keep (c_ip c) 4 (be16 (at16 (c_ip c) 4 + fst d)) S1 S5 (be16_bytes _)) as [Li1 Bi1]; [cbn; lia|]. fold ip1 in Li1, Bi1.
  set (i' := snd d) in *. clearbody i'.
  assert (forall ip', length ip' = 20%nat -> bytes ip' -> shape (mkCst ip' t2 (c_ipopt c) (c_tcpopt c))) as Hkeep by (intros ip' A1 A2; repeat split; assumption).
  destruct (zlen pkt - i' <? 0) eqn:El.
  { eexists _, buf, 0. split; [reflexivity|]. split; [|split; [lia|reflexivity]]. unfold slhc_toss. cbn [tx nxt rx oldest xcur rcur]. apply rx_upd; [exact R'|exact R3|apply Hkeep; assumption]. }
  set (len := zlen pkt - i') in *.
  set (ip2 := ow (ow ip1 2 (be16 (len + hdl))) 10 [0; 0]).
  destruct (ow_keep ip1 2 (be16 (len + hdl)) Li1 Bi1 (be16_bytes _)) as [Lx Bx]; [cbn; lia|]. destruct (ow_keep _ 10 [0; 0] Lx Bx) as [L3 B3]; [repeat constructor; unfold byte; lia|cbn; lia|]. fold ip2 in L3, B3.
  rewrite rdn_ok by lia. cbn [bind]. set (data := slice (Z.to_nat i') (Z.to_nat len) buf).
  assert (zlen data = len) as Ld by (unfold data, slice, zlen; rewrite firstn_length, skipn_length; unfold zlen in *; lia).
  destruct (wr_fits buf hdl data ltac:(lia) ltac:(lia)) as (b1 & -> & Z1). cbn [bind].
  destruct (wr_fits b1 0 ip2 ltac:(lia)) as (b2 & -> & Z2); [unfold zlen at 1; lia|]. cbn [bind].
  pose proof (ihl_lt16 ip2) as Hih2. set (io := firstn (Z.to_nat ((ihl ip2 - 5) * 4)) (c_ipopt c)).
  assert (0 <= zlen io <= 40) as Lio by (unfold io, zlen; rewrite firstn_length; lia). assert (0 <= ihl ip2) as Hih3 by (unfold ihl; lia).
  destruct (wr_fits b2 20 io ltac:(lia) ltac:(lia)) as (b3 & -> & Z3). cbn [bind].
  rewrite rdn_ok by lia. cbn [bind].
  match goal with |- context [wr b3 10 ?x] => destruct (wr_fits b3 10 x ltac:(lia)) as (b4 & -> & Z4); [unfold zlen at 1; cbn [be16 length]; lia|] end. cbn [bind].
  destruct (wr_fits b4 (20 + zlen io) t2 ltac:(lia)) as (b5 & -> & Z5); [unfold zlen at 2; lia|]. cbn [bind].
  assert (0 <= doff t2 < 16) as Hdo2. { pose proof (at8_bytes t2 12 B2 L2 ltac:(lia)) as H12. unfold doff, byte in *. lia. }
  match goal with |- context [wr b5 _ ?x] => destruct (wr_fits b5 (40 + zlen io) x ltac:(lia)) as (b6 & -> & Z6); [unfold zlen at 2; rewrite firstn_length; lia|] end. cbn [bind].
  eexists _, b6, _. split; [reflexivity|]. split; [apply rx_upd; [exact R'|exact R3|apply Hkeep; assumption]|]. split; [lia|lia].
Qed.

Lemma remember_safe s pkt room : rxok s -> bytes pkt -> bytes room -> 128 <= zlen room ->
  exists s' buf n, slhc_remember s (pkt ++ room) (zlen pkt) = Ok (s', buf, n) /\ rxok s' /\ 0 <= n <= zlen buf /\ zlen buf = zlen (pkt ++ room).
Proof.
  intros R Bp Br Hr. unfold slhc_remember. pose proof (zlen_nonneg pkt) as Np. assert (zlen (pkt ++ room) = zlen pkt + zlen room) as Hz by apply zlen_app.
  assert (rxok (slhc_toss s)) as RT by (destruct R as (R1 & R2 & R3); split; [exact R1|split; [exact R2|discriminate]]).
  set (buf := pkt ++ room) in *. assert (bytes buf) as Bb by (unfold buf; rewrite bytes_app; split; assumption).
  assert (forall b : list Z, zlen b = zlen buf -> exists s' bf n, Ok (slhc_toss s, b, 0) = Ok (s', bf, n) /\ rxok s' /\ 0 <= n <= zlen bf /\ zlen bf = zlen buf) as TO.
  { intros b Hb. exists (slhc_toss s), b, 0. split; [reflexivity|]. split; [exact RT|]. split; [lia|exact Hb]. }
  destruct (zlen pkt <? 20) eqn:E; [apply TO; reflexivity|].
  rewrite rd_ok by lia. cbn [bind]. cbv zeta. set (h := nth (Z.to_nat 0) buf 0 mod 16). assert (0 <= h < 16) as Hh by (unfold h; lia).
  destruct (h <? 5) eqn:E5h; [apply TO; reflexivity|]. rewrite rd_ok by lia. cbn [bind]. set (index := nth (Z.to_nat 9) buf 0).
  assert (byte index) as Bi. { unfold index, bytes in *. rewrite Forall_forall in Bb. apply Bb, nth_In. unfold zlen in *. lia. }
  destruct (wr_fits buf 9 [IPPROTO_TCP] ltac:(lia)) as (b & Eb & Zb); [cbn; lia|]. assert (bytes b) as Bb' by (apply (wr_bytes buf 9 [IPPROTO_TCP] b Bb); [repeat constructor; unfold byte, IPPROTO_TCP; lia|exact Eb]). rewrite Eb. cbn [bind].
  rewrite rdn_ok by lia. cbn [bind]. destruct (negb _); [apply TO; exact Zb|]. destruct (_ <? index) eqn:Ei; [apply TO; exact Zb|].
  pose proof R as (R1 & R2 & R3). unfold byte in Bi. replace (zlen (rx s) <=? index) with false by lia.
  rewrite !rdn_ok by lia. cbn [bind]. set (ip := slice (Z.to_nat 0) (Z.to_nat 20) b). set (th := slice (Z.to_nat (h * 4)) (Z.to_nat 20) b).
  assert (length ip = 20%nat /\ length th = 20%nat /\ bytes ip /\ bytes th) as (L1 & L2 & B1 & B2).
  { unfold ip, th, slice. rewrite !firstn_length, !skipn_length. unfold zlen in *. repeat split; try lia; apply Forall_firstn, Forall_skipn, Bb'. }
  assert (0 <= doff th < 16) as Hdo. { pose proof (at8_bytes th 12 B2 L2 ltac:(lia)) as H12. unfold doff, byte in *. lia. }
  destruct (R2 index ltac:(lia)) as (S1 & S2 & S3 & S4 & S5 & S6).
  set (io := slice (Z.to_nat 20) (Z.to_nat ((h - 5) * 4)) b). assert (length io <= 40)%nat as Lio by (unfold io, slice; rewrite firstn_length; lia).
  assert (exists to, (if 5 <? doff th then rdn b (h * 4 + 20) ((doff th - 5) * 4) else Ok []) = Ok to /\ (length to <= 40)%nat) as (to & -> & Lto).
  { destruct (5 <? doff th) eqn:E5; [rewrite rdn_ok by lia|]; eexists; (split; [reflexivity|]); [unfold slice; rewrite firstn_length; lia|cbn; lia]. }
  cbn [bind]. eexists _, b, _. split; [reflexivity|]. split; [|split; [lia|exact Zb]].
  apply rx_upd; [exact R|lia|]. unfold shape. cbn [c_ip c_tcp c_ipopt c_tcpopt]. rewrite !ow_skip_length by lia. repeat split; assumption.
Qed.

(** [rfc1144_expand] on any octets. *)
Lemma expand_safe s pkt room idx : rxok s -> bytes pkt -> bytes room -> 128 <= zlen room ->
  exists s' buf n, rfc1144_expand s (pkt ++ room) (zlen pkt) idx = Ok (s', buf, n) /\ rxok s' /\ 0 <= n <= zlen buf /\ zlen buf = zlen (pkt ++ room).
Proof.
  intros R Bp Br Hr. unfold rfc1144_expand. pose proof (zlen_nonneg pkt) as Np. pose proof (zlen_app pkt room) as Hz. destruct (idx =? 1).
  - rewrite rd_ok by lia. cbn [bind]. change (Z.to_nat 0) with 0%nat. set (x := Z.land (nth 0 (pkt ++ room) 0) 79).
    destruct pkt as [|a pkt].
    + destruct room as [|a room]; [cbn in Hr; lia|]. unfold slhc_remember. change (zlen [] <? 20) with true. cbv iota. eexists _, _, 0. split; [reflexivity|]. split; [destruct R as (R1 & R2 & R3); split; [exact R1|split; [exact R2|discriminate]]|].
      rewrite ow_first by (cbn; lia). cbn [app tl]. split; [|reflexivity]. pose proof (zlen_nonneg (x :: room)). lia.
    + assert (ow ((a :: pkt) ++ room) 0 [x] = (x :: pkt) ++ room) as -> by (rewrite ow_first by (cbn; lia); reflexivity).
      assert (byte x). { unfold x. cbn [app nth]. inversion Bp; subst. apply land_byte; [assumption|lia]. }
      destruct (remember_safe s (x :: pkt) room R) as (s' & buf & n & E1 & E2 & E3 & E4); [inversion Bp; subst; constructor; assumption|exact Br|exact Hr|].
      exists s', buf, n. split; [exact E1|]. split; [exact E2|]. split; [exact E3|]. exact E4.
  - destruct (idx =? 2); [apply uncompress_safe; assumption|]. exists s, (pkt ++ room), (zlen pkt). split; [reflexivity|]. split; [exact R|]. split; [lia|reflexivity].
Qed.

Lemma rxok_init n m D : 1 <= n <= 255 -> slhc_init n m = Some D -> rxok D.
Proof.
  intros Hn. unfold slhc_init. destruct (_ || _); [discriminate|]. intros H. injection H as <-. unfold rxok. cbn [rx toss rcur]. unfold zlen. rewrite repeat_length.
  split; [lia|]. split; [|discriminate]. intros i Hi. rewrite ix_repeat. exact shape0.
Qed.

(** ** The two directions *)
Definition with_rx (s : slc) (r : list cst) (c : Z) (t : bool) : slc := mkSlc (tx s) (nxt s) r (oldest s) (xcur s) c t.
Definition with_tx (s : slc) (t : list cst) (n : list Z) (o x : Z) : slc := mkSlc t n (rx s) o x (rcur s) (toss s).
Lemma search_with_rx f s r c t : forall k l cs, search f (with_rx s r c t) k l cs = search f s k l cs.
Proof. induction f as [|f IH]; intros k l cs; [reflexivity|]. cbn [search with_rx tx nxt oldest]. rewrite IH. reflexivity. Qed.
Lemma compress_frame s r c t p : rfc1144_compress (with_rx s r c t) p =
  (do x <- rfc1144_compress s p; let '(s', d, n, i) := x in Ok (with_rx s' r c t, d, n, i)).
Proof.
  unfold rfc1144_compress.
  assert (slhc_compress (with_rx s r c t) p p false = (do x <- slhc_compress s p p false; let '(s', o, n, b) := x in Ok (with_rx s' r c t, o, n, b))) as ->.
  { unfold slhc_compress. change (relink (with_rx s r c t)) with (relink s). cbn [tx nxt oldest xcur].
    change (tx (with_rx s r c t)) with (tx s). change (nxt (with_rx s r c t)) with (nxt s). change (oldest (with_rx s r c t)) with (oldest s). change (xcur (with_rx s r c t)) with (xcur s).
    destruct (tx s) eqn:Et; [reflexivity|]. rewrite <- Et in *.
    repeat match goal with
    | |- context [search ?a (with_rx ?x1 ?x2 ?x3 ?x4) ?d ?e ?f] => rewrite (search_with_rx a x1 x2 x3 x4 d e f)
    | |- context [if ?b then _ else _] => let E := fresh "E" in destruct b eqn:E; try reflexivity
    | |- context [bind (rd ?a ?b) _] => destruct (rd a b); cbn [bind]; try reflexivity
    | |- context [bind (rdn ?a ?b ?d) _] => destruct (rdn a b d); cbn [bind]; try reflexivity
    | |- context [match search ?a ?b ?d ?e ?f with _ => _ end] => destruct (search a b d e f) as [[[? ?] ?]|]; try reflexivity
    | |- context [match relink ?a ?b ?d ?e with _ => _ end] => destruct (relink a b d e)
    | |- context [match delta ?a ?b ?d ?e ?f ?g with _ => _ end] => destruct (delta a b d e f g) as [[? ?]|]
    | |- context [bind (wr ?a ?b ?d) _] => destruct (wr a b d); cbn [bind]; try reflexivity
    end. }
  destruct (slhc_compress s p p false) as [[[[s' o] n] b]| |]; cbn [bind]; try reflexivity.
  destruct (rd o 0); cbn [bind]; try reflexivity. destruct (tst _ SL_CMP); [|destruct (Z.land _ _ =? _); [|reflexivity]].
  all: destruct (rdn _ 0 n); cbn [bind]; try reflexivity; destruct (wr _ 0 _); reflexivity.
Qed.
Lemma expand_frame s t n o x buf len idx : rfc1144_expand (with_tx s t n o x) buf len idx =
  (do y <- rfc1144_expand s buf len idx; let '(s', d, k) := y in Ok (with_tx s' t n o x, d, k)).
Proof.
  unfold rfc1144_expand. destruct (idx =? 1); [|destruct (idx =? 2); [|reflexivity]].
  - destruct (rd buf 0); cbn [bind]; try reflexivity. unfold slhc_remember, slhc_toss. cbn [with_tx rx tx nxt oldest xcur rcur toss].
    repeat match goal with
    | |- context [if ?b then _ else _] => let E := fresh "E" in destruct b eqn:E; try reflexivity
    | |- context [bind (rd ?a ?b) _] => destruct (rd a b); cbn [bind]; try reflexivity
    | |- context [bind (rdn ?a ?b ?d) _] => destruct (rdn a b d); cbn [bind]; try reflexivity
    | |- context [bind (wr ?a ?b ?d) _] => destruct (wr a b d); cbn [bind]; try reflexivity
    end.
  - unfold slhc_uncompress, slhc_toss. destruct (len <? 3); [reflexivity|]. destruct (rd buf 0) as [ch| |]; cbn [bind]; try reflexivity. cbn [with_tx rx tx nxt oldest xcur rcur toss].
    destruct (tst ch NEW_C).
    + destruct (rd buf 1) as [y| |]; cbn [bind]; try reflexivity. destruct (_ <? y); cbn [bind]; [reflexivity|]. cbn [rx tx nxt oldest xcur rcur toss].
      repeat match goal with
      | |- context [if ?b then _ else _] => let E := fresh "E" in destruct b eqn:E; try reflexivity
      | |- context [bind (rdn ?a ?b ?d) _] => destruct (rdn a b d); cbn [bind]; try reflexivity
      | |- context [bind (un_tcp ?a ?b ?c ?d ?e ?f) _] => destruct (un_tcp a b c d e f); cbn [bind]; try reflexivity
      | |- context [bind (decode ?a ?b) _] => destruct (decode a b); cbn [bind]; try reflexivity
      | |- context [bind (wr ?a ?b ?d) _] => destruct (wr a b d); cbn [bind]; try reflexivity
      end.
    + cbn [bind rx tx nxt oldest xcur rcur toss with_tx].
      repeat match goal with
      | |- context [if ?b then _ else _] => let E := fresh "E" in destruct b eqn:E; try reflexivity
      | |- context [bind (rdn ?a ?b ?d) _] => destruct (rdn a b d); cbn [bind]; try reflexivity
      | |- context [bind (un_tcp ?a ?b ?c ?d ?e ?f) _] => destruct (un_tcp a b c d e f); cbn [bind]; try reflexivity
      | |- context [bind (decode ?a ?b) _] => destruct (decode a b); cbn [bind]; try reflexivity
      | |- context [bind (wr ?a ?b ?d) _] => destruct (wr a b d); cbn [bind]; try reflexivity
      end.
Qed.
