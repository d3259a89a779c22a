(** Proofs about slhc.c: one packet through compressor and decompressor. *)
From Verif.Lib Require Import Base Outcome.
From Verif.Comp Require Import SlhcModel SlhcSpec SlhcProofs SlhcDelta.

(** The pieces of a packet. *)
Definition pip (p : list Z) : list Z := firstn 20 p.
Definition pio (p : list Z) : list Z := slice 20 (hip p - 20) p.
Definition pth (p : list Z) : list Z := slice (hip p) 20 p.
Definition pto (p : list Z) : list Z := slice (hip p + 20) (htcp p - 20) p.
Definition pdt (p : list Z) : list Z := skipn (hip p + htcp p) p.

Lemma nth_firstn {A} (d : A) n i l : (i < n)%nat -> nth i (firstn n l) d = nth i l d.
Proof. revert i l. induction n; intros i l H; [lia|]. destruct l; [rewrite firstn_nil; reflexivity|]. destruct i; cbn; [reflexivity|apply IHn; lia]. Qed.
Lemma nth_skipn {A} (d : A) n i l : nth i (skipn n l) d = nth (n + i) l d.
Proof. revert l. induction n; intros l; [reflexivity|]. destruct l; [cbn; destruct i; reflexivity|]. cbn. apply IHn. Qed.
Lemma at_pip p i : (i < 20)%nat -> at8 (pip p) i = oct p i.
Proof. intros H. apply nth_firstn. exact H. Qed.
Lemma at_pth p i : (i < 20)%nat -> at8 (pth p) i = oct p (hip p + i).
Proof. intros H. unfold at8, pth, slice. rewrite nth_firstn by exact H. apply nth_skipn. Qed.
Lemma at16_pip p i : (i < 19)%nat -> at16 (pip p) i = num16 p i.
Proof. intros H. unfold at16, num16. rewrite !at_pip by lia. reflexivity. Qed.
Lemma ihl_pip p : ihl (pip p) = oct p 0 mod 16.
Proof. unfold ihl. rewrite at_pip by lia. reflexivity. Qed.
Lemma doff_pth p : doff (pth p) = oct p (hip p + 12) / 16.
Proof. unfold doff. rewrite at_pth by lia. reflexivity. Qed.

Lemma split_at {A} n (l : list A) : l = firstn n l ++ skipn n l.
Proof. symmetry. apply firstn_skipn. Qed.
Lemma skipn_skipn {A} a b (l : list A) : skipn a (skipn b l) = skipn (b + a) l.
Proof. revert l. induction b; intros l; [reflexivity|]. destruct l; [rewrite !skipn_nil; reflexivity|]. cbn. apply IHb. Qed.
Lemma slice_then {A} off n (l : list A) : skipn off l = slice off n l ++ skipn (off + n) l.
Proof. unfold slice. rewrite <- skipn_skipn. apply split_at. Qed.

Lemma nonneg_oct p i : bytes p -> 0 <= oct p i < 256.
Proof.
  intros H. destruct (Nat.lt_ge_cases i (length p)); [apply (at8_byte p i H H0)|]. unfold oct. rewrite nth_overflow by exact H0. lia.
Qed.

Lemma parts_of p : ipv4 p -> steady p -> parts p (pip p) (pio p) (pth p) (pto p) (pdt p).
Proof.
  intros (B & V & Hh & Ht) (T & F1 & F2). specialize (Ht T). destruct T as [T1 T2].
  pose proof (nonneg_oct p 0 B) as N0. pose proof (nonneg_oct p (hip p + 12) B) as N12.
  constructor.
  - rewrite (split_at 20 p) at 1. fold (pip p). f_equal. rewrite (slice_then 20 (hip p - 20)). fold (pio p). f_equal. replace (20 + (hip p - 20))%nat with (hip p) by lia.
    rewrite (slice_then (hip p) 20). fold (pth p). f_equal. rewrite (slice_then (hip p + 20) (htcp p - 20)). fold (pto p). f_equal. unfold pdt. f_equal. lia.
  - exact B.
  - unfold pip. rewrite firstn_length. lia.
  - unfold pth. apply slice_length. lia.
  - unfold pio, zlen. rewrite slice_length by lia. rewrite ihl_pip. unfold hip in *. lia.
  - unfold pto, zlen. rewrite slice_length by lia. rewrite doff_pth. unfold htcp in *. lia.
  - rewrite at_pip by lia. exact V.
  - rewrite at_pip by lia. exact T1.
  - rewrite at16_pip by lia. exact T2.
  - rewrite at_pth by lia. exact F1.
  - rewrite at_pth by lia. exact F2.
Qed.

Lemma flagtest f : byte f -> (tst f 2 || tst f 1 || tst f 4 || negb (tst f 0x10)) = negb ((f mod 8 =? 0) && (f / 16 mod 2 =? 1)).
Proof.
  intros Hb. set (P := fun f => Bool.eqb (tst f 2 || tst f 1 || tst f 4 || negb (tst f 0x10)) (negb ((f mod 8 =? 0) && (f / 16 mod 2 =? 1)))).
  apply Bool.eqb_prop. apply (byte_sweep P); [vm_compute; reflexivity|exact Hb].
Qed.
Lemma fragmask x : Z.land x 0x3fff = x mod 0x4000.
Proof. exact (land_ones_mod x 14 ltac:(lia)). Qed.

(** ** The compressor *)
Lemma compress_other s p o cid : tx s <> [] -> ipv4 p -> ~ steady p -> slhc_compress s p o cid = Ok (s, o, zlen p, false).
Proof.
  intros Hs (B & V & Hh & Ht) Hn. unfold slhc_compress. destruct (tx s) eqn:Es; [congruence|]. cbv zeta.
  replace (zlen p <? 20) with false by (unfold zlen; lia).
  fold (pip p). rewrite at_pip, at16_pip, fragmask, ihl_pip by lia. unfold IPPROTO_TCP.
  destruct (oct p 9 =? 6) eqn:E1; [|reflexivity]. destruct (num16 p 6 mod 16384 =? 0) eqn:E2; [|reflexivity]. cbn [negb orb].
  assert (is_tcp p) as T by (split; lia). destruct (Ht T) as [H1 H2]. pose proof (nonneg_oct p 0 B) as N0. pose proof (nonneg_oct p (hip p + 12) B) as N12.
  assert (Z.of_nat (hip p) = oct p 0 mod 16 * 4) as Hz by (unfold hip; lia).
  assert (Z.of_nat (htcp p) = oct p (hip p + 12) / 16 * 4) as Hz2 by (unfold htcp; lia).
  rewrite rd_ok by (unfold zlen; lia). cbn [bind]. rewrite <- Hz. replace (Z.to_nat (Z.of_nat (hip p) + 12)) with (hip p + 12)%nat by lia. fold (oct p (hip p + 12)). rewrite <- Hz2.
  replace (zlen p <? _) with false by (unfold zlen; lia).
  rewrite rd_ok by (unfold zlen; lia). cbn [bind]. replace (Z.to_nat (Z.of_nat (hip p) + 13)) with (hip p + 13)%nat by lia. fold (oct p (hip p + 13)). fold (flags p).
  rewrite flagtest by (apply nonneg_oct; exact B).
  destruct ((flags p mod 8 =? 0) && (flags p / 16 mod 2 =? 1)) eqn:E3; [|reflexivity]. exfalso. apply Hn. split; [exact T|]. lia.
Qed.

Lemma compress_steady s p o cid : tx s <> [] -> ipv4 p -> steady p ->
  slhc_compress s p o cid =
    match search 256 s (conn p) (oldest s) (ix 0 (nxt s) (oldest s)) with
    | None => UB
    | Some (found, lcs, cs) =>
      let '(nxt', oldest') := relink s found lcs cs in
      let c := ix cst0 (tx s) cs in
      match (if found then delta c (pip p) (pio p) (pth p) (pto p) (Z.of_nat (hip p + htcp p)) else None) with
      | Some (ch, seq) =>
        let hdr := (if negb cid || negb (xcur s =? cs) then [Z.lor ch NEW_C; cs] else [ch]) ++ slice 16 2 (pth p) in
        let xcur' := if negb cid || negb (xcur s =? cs) then cs else xcur s in
        let out := hdr ++ seq ++ pdt p in
        do o' <- wr o 0 (Z.lor (at8 out 0) SL_CMP :: tl out);
        Ok (mkSlc (upd (tx s) cs (mkCst (pip p) (pth p) (c_ipopt c) (c_tcpopt c))) nxt' (rx s) oldest' xcur' (rcur s) (toss s),
            o', zlen out, true)
      | None =>
        do o' <- wr o 0 (ow (ow p 9 [cs]) 0 [Z.lor (at8 p 0) SL_UNC]);
        Ok (mkSlc (upd (tx s) cs (mkCst (pip p) (pth p) (ow (c_ipopt c) 0 (pio p)) (ow (c_tcpopt c) 0 (pto p)))) nxt' (rx s) oldest' cs
              (rcur s) (toss s), o', zlen p, true)
      end
    end.
Proof.
  intros Hs (B & V & Hh & Ht) (T & F1 & F2). destruct (Ht T) as [H1 H2]. unfold slhc_compress. destruct (tx s) eqn:Es; [congruence|]. rewrite <- Es. cbv zeta. clear Es.
  replace (zlen p <? 20) with false by (unfold zlen; lia).
  fold (pip p). rewrite at_pip, at16_pip, fragmask, !ihl_pip by lia. unfold IPPROTO_TCP. destruct T as [T1 T2]. rewrite T1, T2. change (negb (6 =? 6) || negb (0 =? 0)) with false. cbv iota.
  pose proof (nonneg_oct p 0 B) as N0. pose proof (nonneg_oct p (hip p + 12) B) as N12.
  assert (Z.of_nat (hip p) = oct p 0 mod 16 * 4) as Hz by (unfold hip; lia).
  assert (Z.of_nat (htcp p) = oct p (hip p + 12) / 16 * 4) as Hz2 by (unfold htcp; lia).
  rewrite rd_ok by (unfold zlen; lia). cbn [bind]. rewrite <- Hz. replace (Z.to_nat (Z.of_nat (hip p) + 12)) with (hip p + 12)%nat by lia. fold (oct p (hip p + 12)). rewrite <- Hz2.
  replace (zlen p <? _) with false by (unfold zlen; lia).
  rewrite rd_ok by (unfold zlen; lia). cbn [bind]. replace (Z.to_nat (Z.of_nat (hip p) + 13)) with (hip p + 13)%nat by lia. fold (oct p (hip p + 13)). fold (flags p).
  rewrite flagtest by (apply nonneg_oct; exact B). replace ((flags p mod 8 =? 0) && (flags p / 16 mod 2 =? 1)) with true by lia. cbn [negb].
  rewrite rdn_ok by (unfold zlen; lia). cbn [bind]. rewrite !Nat2Z.id. change (Z.to_nat 20) with 20%nat. fold (pth p).
  assert (slice 12 8 (pip p) = slice 12 8 p) as K1. { unfold pip, slice. rewrite <- (firstn_skipn 20 p) at 2. rewrite skipn_app, firstn_app, skipn_length, firstn_length. replace (8 - _)%nat with 0%nat by lia. rewrite firstn_O, app_nil_r. reflexivity. }
  assert (slice 0 4 (pth p) = slice (hip p) 4 p) as K2. { unfold pth, slice. cbn [skipn]. rewrite firstn_firstn. reflexivity. }
  rewrite K1, K2. fold (conn p).
  assert (Z.to_nat ((oct p 0 mod 16 - 5) * 4) = hip p - 20)%nat as -> by lia. fold (pio p).
  assert (Z.to_nat (Z.of_nat (hip p) + 20) = hip p + 20)%nat as -> by lia.
  assert (Z.to_nat ((doff (pth p) - 5) * 4) = htcp p - 20)%nat as -> by (rewrite doff_pth; lia). fold (pto p).
  rewrite <- Nat2Z.inj_add, Nat2Z.id. fold (pdt p). reflexivity.
Qed.
