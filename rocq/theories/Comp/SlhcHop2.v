(** Proofs about slhc.c: one packet through compressor and decompressor (continued). *)
From Verif.Lib Require Import Base Outcome.
From Verif.Comp Require Import SlhcModel SlhcSpec SlhcProofs SlhcDelta SlhcHop.

(** ** Sending *)
Lemma first4 b : byte b -> b / 16 = 4 -> tst b SL_CMP = false /\ (Z.land b SL_UNC =? SL_UNC) = false /\ Z.land b 0x4f = b /\
  tst (Z.lor b SL_UNC) SL_CMP = false /\ (Z.land (Z.lor b SL_UNC) SL_UNC =? SL_UNC) = true /\ Z.land (Z.lor b SL_UNC) 0x4f = b.
Proof.
  intros B V. set (P := fun b => negb (b / 16 =? 4) || (negb (tst b SL_CMP) && negb (Z.land b SL_UNC =? SL_UNC) && (Z.land b 0x4f =? b) &&
    negb (tst (Z.lor b SL_UNC) SL_CMP) && (Z.land (Z.lor b SL_UNC) SL_UNC =? SL_UNC) && (Z.land (Z.lor b SL_UNC) 0x4f =? b))).
  assert (P b = true) as H by (apply (byte_sweep P); [vm_compute; reflexivity|exact B]). unfold P in H.
  rewrite V in H. change (negb (4 =? 4)) with false in H. cbn [orb] in H. rewrite !andb_true_iff, !negb_true_iff in H. destruct H as (((((H1 & H2) & H3) & H4) & H5) & H6).
  repeat split; try assumption; apply Z.eqb_eq; assumption.
Qed.
Lemma send_other s p : tx s <> [] -> ipv4 p -> ~ steady p -> rfc1144_compress s p = Ok (s, p, zlen p, 0).
Proof.
  intros Hs H4 Hn. unfold rfc1144_compress. rewrite (compress_other s p p false Hs H4 Hn). cbn [bind].
  destruct H4 as (B & V & Hh & _). rewrite rd_ok by (unfold zlen; lia). cbn [bind]. fold (oct p 0). change (Z.to_nat 0) with 0%nat. fold (oct p 0).
  destruct (first4 (oct p 0) (nonneg_oct p 0 B) V) as (-> & -> & _). reflexivity.
Qed.

(** The state of the sender after the packet took place [cs]. *)
Definition after_tx (s : slc) (p : list Z) (found : bool) (lcs cs : Z) (c : cst) : slc :=
  mkSlc (upd (tx s) cs c) (fst (relink s found lcs cs)) (rx s) (snd (relink s found lcs cs)) cs (rcur s) (toss s).
Definition new_unc (s : slc) (p : list Z) (cs : Z) : cst :=
  mkCst (pip p) (pth p) (ow (c_ipopt (ix cst0 (tx s) cs)) 0 (pio p)) (ow (c_tcpopt (ix cst0 (tx s) cs)) 0 (pto p)).
Definition new_cmp (s : slc) (p : list Z) (cs : Z) : cst :=
  mkCst (pip p) (pth p) (c_ipopt (ix cst0 (tx s) cs)) (c_tcpopt (ix cst0 (tx s) cs)).

Lemma ow_first l x : (1 <= length l)%nat -> ow l 0 [x] = x :: tl l.
Proof. destruct l; [cbn; lia|reflexivity]. Qed.
Lemma ow_all l src : length src = length l -> ow l 0 src = src.
Proof. intros H. unfold ow. cbn [firstn app Nat.add]. rewrite H, skipn_all. apply app_nil_r. Qed.
Lemma rdn_all l n : n = zlen l -> rdn l 0 n = Ok l.
Proof. intros ->. rewrite rdn_ok; [|lia|apply zlen_nonneg|lia]. f_equal. unfold slice. cbn [skipn]. unfold zlen. rewrite Nat2Z.id. apply firstn_all. Qed.
Lemma nth0_ow9 p cs : (10 <= length p)%nat -> nth 0 (ow p 9 [cs]) 0 = nth 0 p 0.
Proof. intros H. unfold ow. destruct p; [cbn in H; lia|reflexivity]. Qed.

Lemma send_unc s p found lcs cs : tx s <> [] -> ipv4 p -> steady p ->
  search 256 s (conn p) (oldest s) (ix 0 (nxt s) (oldest s)) = Some (found, lcs, cs) ->
  (if found then delta (ix cst0 (tx s) cs) (pip p) (pio p) (pth p) (pto p) (Z.of_nat (hip p + htcp p)) else None) = None ->
  rfc1144_compress s p = Ok (after_tx s p found lcs cs (new_unc s p cs), ow p 9 [cs], zlen p, 1).
Proof.
  intros Hs H4 Hst Hse Hd. unfold rfc1144_compress. rewrite (compress_steady s p p false Hs H4 Hst), Hse. unfold after_tx, new_unc.
  destruct (relink s found lcs cs) as [nx ol]. cbv zeta. rewrite Hd. destruct H4 as (B & V & Hh & _).
  assert (length (ow (ow p 9 [cs]) 0 [Z.lor (at8 p 0) SL_UNC]) = length p) as Hl by (rewrite !ow_length; cbn [length]; rewrite ?ow_length; cbn [length]; lia).
  rewrite wr_ok; [|lia|unfold zlen; rewrite Hl; lia]. change (Z.to_nat 0) with 0%nat. rewrite ow_all by exact Hl. cbn [bind].
  rewrite ow_first by (rewrite ow_length; cbn [length]; lia). rewrite rd_ok by (rewrite zlen_cons; pose proof (zlen_nonneg (tl (ow p 9 [cs]))); lia). cbn [bind nth].
  change (Z.to_nat 0) with 0%nat. cbn [nth].
  destruct (first4 (oct p 0) (nonneg_oct p 0 B) V) as (_ & _ & _ & F1 & F2 & F3). change (at8 p 0) with (oct p 0). rewrite F1, F2, F3.
  rewrite ow_first by (cbn [length]; lia). cbn [tl].
  assert (oct p 0 :: tl (ow p 9 [cs]) = ow p 9 [cs]) as ->. { unfold oct. rewrite <- (nth0_ow9 p cs) by lia. assert (length (ow p 9 [cs]) = length p) as L9 by (apply ow_length; cbn [length]; lia). destruct (ow p 9 [cs]); [cbn in L9; lia|reflexivity]. }
  rewrite rdn_all by (unfold zlen; rewrite ow_length; cbn [length]; lia). cbn [bind].
  rewrite wr_ok; [|lia|unfold zlen; rewrite ow_length; cbn [length]; lia]. cbn [bind]. change (Z.to_nat 0) with 0%nat. rewrite (ow_all p (ow p 9 [cs])); [reflexivity|apply ow_length; cbn [length]; lia].
Qed.

Lemma oenc_length c n : (length (oenc c n) <= 3)%nat.
Proof. destruct c; cbn [oenc]; [apply encode_length|cbn; lia]. Qed.
Lemma oenc_bytes c n : bytes (oenc c n).
Proof. destruct c; [apply encode_bytes|constructor]. Qed.
Lemma delta_seq c ip ipopt th topt hlen ch seq : delta c ip ipopt th topt hlen = Some (ch, seq) ->
  (length seq <= 15)%nat /\ bytes seq /\ exists u w a s i p, ch = mask u w a s i p /\ i = negb (dI c ip =? 1) /\ p = ispsh th.
Proof.
  intros H. apply delta_inv in H as (_ & _ & _ & _ & [(-> & -> & _)|[(_ & _ & _ & _ & -> & ->)|(_ & _ & _ & _ & -> & ->)]]); (split; [|split]).
  1: rewrite !app_length.
  all: repeat match goal with |- context [length (oenc ?c ?n)] => pose proof (oenc_length c n); generalize dependent (length (oenc c n)); intros end; try lia.
  all: try (do 6 eexists; split; [reflexivity|split; reflexivity]).
  all: rewrite ?bytes_app; repeat split; apply oenc_bytes.
Qed.

Definition cmp_octets (p : list Z) (ch cs : Z) (seq : list Z) : list Z := [Z.lor ch 64; cs] ++ slice 16 2 (pth p) ++ seq ++ pdt p.
Lemma send_cmp s p lcs cs ch seq : tx s <> [] -> ipv4 p -> steady p ->
  search 256 s (conn p) (oldest s) (ix 0 (nxt s) (oldest s)) = Some (true, lcs, cs) ->
  delta (ix cst0 (tx s) cs) (pip p) (pio p) (pth p) (pto p) (Z.of_nat (hip p + htcp p)) = Some (ch, seq) ->
  exists d, rfc1144_compress s p = Ok (after_tx s p true lcs cs (new_cmp s p cs), d, zlen (cmp_octets p ch cs seq), 2) /\
    firstn (length (cmp_octets p ch cs seq)) d = cmp_octets p ch cs seq /\ zlen (cmp_octets p ch cs seq) + 21 <= zlen p /\ length d = length p.
Proof.
  intros Hs H4 Hst Hse Hd. unfold rfc1144_compress. rewrite (compress_steady s p p false Hs H4 Hst), Hse. unfold after_tx, new_cmp.
  destruct (relink s true lcs cs) as [nx ol]. cbv zeta. rewrite Hd. cbn [negb orb]. unfold NEW_C.
  pose proof (parts_of p H4 Hst) as PP.
  destruct H4 as (B & V & Hh & Ht). destruct Hst as (T & F1 & F2). destruct (Ht T) as [H1 H2].
  change ((([Z.lor ch 64; cs] ++ slice 16 2 (pth p)) ++ seq ++ pdt p)) with (cmp_octets p ch cs seq).
  set (out := cmp_octets p ch cs seq).
  destruct (delta_seq _ _ _ _ _ _ _ _ Hd) as (L & Bs & u & w & a & s' & i & q & Hm & _).
  assert (length out = 4 + length seq + (length p - (hip p + htcp p)))%nat as Hlo.
  { unfold out, cmp_octets. rewrite !app_length. rewrite slice_length by (rewrite (P_th _ _ _ _ _ _ PP); lia). unfold pdt. rewrite skipn_length. cbn [length]. lia. }
  assert (zlen out + 21 <= zlen p) as Hle by (unfold zlen; lia).
  destruct (mask_bits u w a s' i q true) as (_ & _ & _ & _ & _ & _ & _ & _ & M1 & M2 & M3). cbv zeta in M1, M2, M3. rewrite <- Hm in M1, M2, M3.
  change (at8 out 0) with (Z.lor ch 64). unfold SL_CMP. rewrite M2.
  rewrite wr_ok; [|lia|rewrite zlen_cons; unfold out, cmp_octets in *; cbn [tl app] in *; rewrite zlen_cons in Hle; lia]. cbn [bind]. change (Z.to_nat 0) with 0%nat.
  set (r := Z.lor ch 64 + 128) in *. assert (ow p 0 (r :: tl out) = (r :: tl out) ++ skipn (length out) p) as Eo.
  { unfold ow. cbn [firstn app Nat.add length]. reflexivity. }
  rewrite Eo. cbn [app]. rewrite rd_ok by (rewrite zlen_cons; pose proof (zlen_nonneg (tl out ++ skipn (length out) p)); lia). cbn [bind]. change (Z.to_nat 0) with 0%nat. cbn [nth].
  assert (tst r 128 = true) as ->. { unfold r. rewrite Hm. destruct u, w, a, s', i, q; reflexivity. }
  rewrite M3. rewrite ow_first by (cbn [length]; lia). cbn [tl].
  assert (Z.lor ch 64 :: tl out ++ skipn (length out) p = [] ++ out ++ skipn (length out) p) as -> by reflexivity.
  rewrite rdn_app by reflexivity. cbn [bind]. rewrite wr_ok; [|lia|pose proof (zlen_nonneg p); lia]. cbn [bind]. change (Z.to_nat 0) with 0%nat.
  eexists. split; [reflexivity|]. split; [|split; [exact Hle|]].
  - unfold ow. cbn [firstn app]. apply firstn_app_exact. reflexivity.
  - rewrite ow_length; [reflexivity|unfold zlen in Hle; lia].
Qed.

(** ** Receiving *)
(** A state of the right shape. *)
Definition shape (c : cst) : Prop :=
  length (c_ip c) = 20%nat /\ length (c_tcp c) = 20%nat /\ length (c_ipopt c) = 64%nat /\ length (c_tcpopt c) = 64%nat /\ bytes (c_ip c) /\ bytes (c_tcp c).
Definition after_rx (s : slc) (cs : Z) (c : cst) : slc := mkSlc (tx s) (nxt s) (upd (rx s) cs c) (oldest s) (xcur s) cs false.
Definition rem_cst (s : slc) (p : list Z) (cs : Z) : cst :=
  mkCst (pip p) (pth p) (ow (c_ipopt (ix cst0 (rx s) cs)) 0 (pio p)) (ow (c_tcpopt (ix cst0 (rx s) cs)) 0 (pto p)).

Lemma recv_unc s p cs room : ipv4 p -> steady p -> exact p -> 0 <= cs < zlen (rx s) ->
  rfc1144_expand s (ow p 9 [cs] ++ room) (zlen p) 1 = Ok (after_rx s cs (rem_cst s p cs), p ++ room, zlen p).
Proof.
  intros H4 Hst Hx Hcs. pose proof (parts_of p H4 Hst) as PP. destruct H4 as (B & V & Hh & Ht). destruct Hst as (T & F1 & F2). destruct (Ht T) as [H1 H2].
  destruct Hx as (_ & _ & X & _).
  unfold rfc1144_expand. change (1 =? 1) with true. cbv iota.
  assert (length (ow p 9 [cs]) = length p) as Hl by (apply ow_length; cbn [length]; lia).
  rewrite rd_ok by (rewrite zlen_app; unfold zlen; rewrite Hl; lia). cbn [bind]. change (Z.to_nat 0) with 0%nat.
  rewrite app_nth1 by lia. rewrite nth0_ow9 by lia. fold (oct p 0).
  destruct (first4 (oct p 0) (nonneg_oct p 0 B) V) as (_ & _ & F4 & _). rewrite F4.
  assert (ow (ow p 9 [cs] ++ room) 0 [oct p 0] = ow p 9 [cs] ++ room) as ->.
  { rewrite ow_first by (rewrite app_length; lia). unfold oct. rewrite <- (nth0_ow9 p cs) by lia. destruct (ow p 9 [cs]); [cbn in Hl; lia|reflexivity]. }
  unfold slhc_remember. replace (zlen p <? 20) with false by (unfold zlen; lia).
  rewrite rd_ok by (rewrite zlen_app; unfold zlen; rewrite Hl; lia). cbn [bind]. change (Z.to_nat 0) with 0%nat.
  rewrite app_nth1 by lia. rewrite nth0_ow9 by lia. fold (oct p 0). cbv zeta.
  pose proof (nonneg_oct p 0 B) as N0. assert (Z.of_nat (hip p) = oct p 0 mod 16 * 4) as Hz by (unfold hip; lia).
  replace (oct p 0 mod 16 <? 5) with false by lia.
  rewrite rd_ok by (rewrite zlen_app; unfold zlen; rewrite Hl; lia). cbn [bind]. change (Z.to_nat 9) with 9%nat. rewrite app_nth1 by lia.
  assert (nth 9 (ow p 9 [cs]) 0 = cs) as ->. { unfold ow. rewrite app_nth2; rewrite firstn_length; [|lia]. replace (_ - _)%nat with 0%nat by lia. reflexivity. }
  rewrite wr_ok; [|lia|rewrite zlen_app; unfold zlen; rewrite Hl; cbn [length]; lia]. cbn [bind]. change (Z.to_nat 9) with 9%nat.
  assert (ow (ow p 9 [cs] ++ room) 9 [IPPROTO_TCP] = p ++ room) as ->.
  { assert (p = firstn 9 p ++ [6] ++ skipn 10 p) as Ep. { rewrite <- (firstn_skipn 9 p) at 1. f_equal. destruct T as [T1 _]. unfold oct in T1.
      rewrite <- (firstn_skipn 9 p) in T1 at 1. rewrite app_nth2 in T1; rewrite firstn_length in *; [|lia]. replace (9 - _)%nat with 0%nat in T1 by lia.
      change 10%nat with (9 + 1)%nat. rewrite <- skipn_skipn. destruct (skipn 9 p) eqn:E; [apply (f_equal (@length Z)) in E; rewrite skipn_length in E; cbn [length] in E; lia|]. cbn [nth] in T1. subst. reflexivity. }
    assert (length (firstn 9 p) = 9)%nat as L9 by (rewrite firstn_length; lia).
    assert (ow p 9 [cs] = firstn 9 p ++ [cs] ++ skipn 10 p) as -> by reflexivity.
    rewrite <- !app_assoc. transitivity (ow (firstn 9 p ++ [cs] ++ (skipn 10 p ++ room)) (length (firstn 9 p)) [IPPROTO_TCP]); [rewrite L9; reflexivity|]. rewrite ow_app by reflexivity. rewrite Ep at 3. unfold IPPROTO_TCP. rewrite <- !app_assoc. reflexivity. }
  rewrite <- Hz. rewrite rdn_ok; [|lia|lia|rewrite zlen_app; unfold zlen; lia]. cbn [bind].
  assert (slice (Z.to_nat 0) (Z.to_nat (Z.of_nat (hip p))) (p ++ room) = firstn (hip p) p) as ->.
  { rewrite Nat2Z.id. unfold slice. cbn [skipn Z.to_nat]. rewrite firstn_app. replace (hip p - length p)%nat with 0%nat by lia. rewrite firstn_O. apply app_nil_r. }
  rewrite (proj2 (ip_csum_valid _ (Forall_firstn _ _ _ B)) X). change (negb (0 =? 0)) with false. cbv iota.
  replace (Z.max 0 (zlen (rx s) - 1) <? cs) with false by lia. replace (zlen (rx s) <=? cs) with false by lia.
  assert (forall off n, (off + n <= length p)%nat -> slice off n (p ++ room) = slice off n p) as SL.
  { intros off n Hon. unfold slice. rewrite skipn_app, firstn_app, skipn_length. replace (n - _)%nat with 0%nat by lia. rewrite firstn_O. apply app_nil_r. }
  rewrite rdn_ok; [|lia|lia|rewrite zlen_app; unfold zlen; lia]. cbn [bind]. change (Z.to_nat 0) with 0%nat. change (Z.to_nat 20) with 20%nat. rewrite SL by lia.
  change (slice 0 20 p) with (pip p).
  rewrite rdn_ok; [|lia|lia|rewrite zlen_app; unfold zlen; lia]. cbn [bind]. rewrite Nat2Z.id. change (Z.to_nat 20) with 20%nat. rewrite SL by lia. fold (pth p).
  rewrite rdn_ok; [|lia|lia|rewrite zlen_app; unfold zlen; lia]. cbn [bind]. replace (Z.to_nat ((oct p 0 mod 16 - 5) * 4)) with (hip p - 20)%nat by lia. change (Z.to_nat 20) with 20%nat. rewrite SL by lia. fold (pio p).
  pose proof (nonneg_oct p (hip p + 12) B) as N12.
  assert (Z.of_nat (htcp p) = oct p (hip p + 12) / 16 * 4) as Hz2 by (unfold htcp; lia).
  assert ((if 5 <? doff (pth p) then rdn (p ++ room) (Z.of_nat (hip p) + 20) ((doff (pth p) - 5) * 4) else Ok []) = Ok (pto p)) as ->.
  { rewrite doff_pth. destruct (5 <? oct p (hip p + 12) / 16) eqn:E.
    - rewrite rdn_ok; [|lia|lia|rewrite zlen_app; unfold zlen; lia]. f_equal. replace (Z.to_nat (Z.of_nat (hip p) + 20)) with (hip p + 20)%nat by lia.
      replace (Z.to_nat _) with (htcp p - 20)%nat by lia. apply SL. lia.
    - unfold pto. replace (htcp p - 20)%nat with 0%nat by lia. reflexivity. }
  cbn [bind]. reflexivity.
Qed.
