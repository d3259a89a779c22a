(** Proofs about slhc.c: octets, checksum, change list. *)
From Verif.Lib Require Import Base Outcome.
From Verif.Comp Require Import SlhcModel SlhcSpec.

(** ** Lists *)
Lemma ow_length l off src : (off + length src <= length l)%nat -> length (ow l off src) = length l.
Proof. intros H. unfold ow. rewrite !app_length, firstn_length, skipn_length. lia. Qed.
Lemma ow_bytes l off src : bytes l -> bytes src -> bytes (ow l off src).
Proof. intros H1 H2. unfold ow, bytes. apply Forall_app. split; [apply Forall_firstn; exact H1|]. apply Forall_app. split; [exact H2|apply Forall_skipn; exact H1]. Qed.
Lemma wr_ok buf off src : 0 <= off -> off + zlen src <= zlen buf -> wr buf off src = Ok (ow buf (Z.to_nat off) src).
Proof. intros H1 H2. unfold wr. replace ((0 <=? off) && (off + zlen src <=? zlen buf)) with true by lia. reflexivity. Qed.
Lemma ow_app a b c src : length src = length b -> ow (a ++ b ++ c) (length a) src = a ++ src ++ c.
Proof.
  intros H. unfold ow. rewrite (firstn_app_exact a (b ++ c) _ eq_refl). do 2 f_equal. rewrite app_assoc. apply skipn_app_exact. rewrite app_length. lia.
Qed.
Lemma ow_0 b c src : length src = length b -> ow (b ++ c) 0 src = src ++ c.
Proof. intros H. apply (ow_app [] b c src H). Qed.
Lemma bytes_app a b : bytes (a ++ b) <-> bytes a /\ bytes b.
Proof. unfold bytes. apply Forall_app. Qed.
Lemma at8_byte l i : bytes l -> (i < length l)%nat -> byte (at8 l i).
Proof. intros H Hi. unfold at8. unfold bytes in H. rewrite Forall_forall in H. apply H, nth_In, Hi. Qed.
Lemma upd_length {A} (l : list A) i v : 0 <= i < zlen l -> length (upd l i v) = length l.
Proof. unfold zlen. intros H. unfold upd. rewrite app_length. cbn [length]. rewrite firstn_length, skipn_length. lia. Qed.
Lemma ix_upd_same {A} (d : A) l i v : 0 <= i < zlen l -> ix d (upd l i v) i = v.
Proof. unfold zlen. intros H. unfold ix, upd. rewrite app_nth2; rewrite firstn_length; [|lia]. replace (_ - _)%nat with 0%nat by lia. reflexivity. Qed.
Lemma ix_upd_other {A} (d : A) l i j v : 0 <= i < zlen l -> 0 <= j -> i <> j -> ix d (upd l i v) j = ix d l j.
Proof.
  unfold zlen. intros H Hj Hn. unfold ix, upd.
  destruct (Z.lt_ge_cases j i).
  - rewrite app_nth1; [|rewrite firstn_length; lia].
    rewrite <- (firstn_skipn (Z.to_nat i) l) at 2. rewrite app_nth1; [reflexivity|rewrite firstn_length; lia].
  - rewrite app_nth2; rewrite firstn_length; [|lia].
    replace (Z.to_nat j - Nat.min (Z.to_nat i) (length l))%nat with (S (Z.to_nat j - S (Z.to_nat i))) by lia. cbn [nth].
    rewrite <- (firstn_skipn (S (Z.to_nat i)) l) at 2. rewrite app_nth2; rewrite firstn_length; [|lia]. f_equal. lia.
Qed.

(** ** Numbers *)
Lemma be16_at a b n : byte a -> byte b -> n mod 65536 = a * 256 + b -> be16 n = [a; b].
Proof. unfold byte, be16. intros Ha Hb H. f_equal; [lia|f_equal; lia]. Qed.
Lemma be32_at a b c d n : byte a -> byte b -> byte c -> byte d -> n mod 2 ^ 32 = (a * 256 + b) * 65536 + (c * 256 + d) -> be32 n = [a; b; c; d].
Proof.
  intros Ha Hb Hc Hd H. unfold be32. change (2 ^ 32) with 4294967296 in H. unfold byte in *.
  rewrite (be16_at a b), (be16_at c d); [reflexivity|try assumption..]; unfold byte; try lia.
Qed.
Lemma encode_length n : (1 <= length (encode n) <= 3)%nat.
Proof. unfold encode. destruct (_ || _); cbn; lia. Qed.
Lemma encode_bytes n : bytes (encode n).
Proof.
  unfold encode, be16, bytes. cbv zeta. assert (0 <= n mod 65536 < 65536) by (apply Z.mod_pos_bound; lia). set (m := n mod 65536) in *.
  destruct ((256 <=? m) || (m =? 0)) eqn:E; repeat constructor; unfold byte; lia.
Qed.
Lemma rd_app pre x post : rd (pre ++ x :: post) (zlen pre) = Ok x.
Proof. rewrite rd_ok; [|rewrite zlen_app, zlen_cons; pose proof (zlen_nonneg pre); pose proof (zlen_nonneg post); lia]. unfold zlen. rewrite Nat2Z.id, nth_middle. reflexivity. Qed.
Lemma rd_app_at pre x post i : i = zlen pre -> rd (pre ++ x :: post) i = Ok x.
Proof. intros ->. apply rd_app. Qed.
Lemma rdn_app pre m post i n : i = zlen pre -> n = zlen m -> rdn (pre ++ m ++ post) i n = Ok m.
Proof.
  intros -> ->. rewrite rdn_ok; [|pose proof (zlen_nonneg pre); lia|pose proof (zlen_nonneg m); lia|rewrite !zlen_app; pose proof (zlen_nonneg post); lia].
  f_equal. unfold slice, zlen. rewrite !Nat2Z.id, (skipn_app_exact pre (m ++ post) _ eq_refl). apply firstn_app_exact. reflexivity.
Qed.
Lemma app1 {A} (pre : list A) x post : pre ++ x :: post = (pre ++ [x]) ++ post.
Proof. rewrite <- app_assoc. reflexivity. Qed.
Lemma decode_encode pre n post i : i = zlen pre -> decode (pre ++ encode n ++ post) i = Ok (n mod 65536, i + zlen (encode n)).
Proof.
  intros ->. unfold encode. cbv zeta. assert (0 <= n mod 65536 < 65536) by (apply Z.mod_pos_bound; lia). set (m := n mod 65536) in *.
  destruct ((256 <=? m) || (m =? 0)) eqn:E; unfold decode.
  - unfold be16. cbn [app]. rewrite rd_app. cbn [bind]. change (0 =? 0) with true. cbv iota.
    rewrite app1. rewrite (rd_app_at (pre ++ [0])); [|rewrite zlen_app; reflexivity]. cbn [bind].
    rewrite app1. rewrite (rd_app_at ((pre ++ [0]) ++ [_])); [|rewrite !zlen_app, <- Z.add_assoc; reflexivity]. cbn [bind].
    f_equal. f_equal. lia.
  - cbn [app]. rewrite rd_app. cbn [bind]. replace (m =? 0) with false by lia. reflexivity.
Qed.
(** The same with an optional number. *)
Definition oenc (c : bool) (n : Z) : list Z := if c then encode n else [].

(** ** Checksum *)
Lemma csum_acc_spec n : forall l acc, (length l <= n)%nat -> bytes l -> 1 <= acc <= 65535 ->
  1 <= csum_acc acc l <= 65535 /\ csum_acc acc l mod 65535 = (acc + sum16 l) mod 65535.
Proof.
  induction n as [|n IH]; intros l acc Hn Hb Ha.
  - destruct l; [|cbn in Hn; lia]. cbn. rewrite Z.add_0_r. auto.
  - destruct l as [|a [|b r]]; cbn [csum_acc sum16]; [rewrite Z.add_0_r; auto..|].
    inversion Hb as [|? ? Ha1 Hb1]; subst. inversion Hb1 as [|? ? Hb2 Hb3]; subst. unfold byte in Ha1, Hb2. cbn [length] in Hn.
    destruct (65535 <? acc + (a * 256 + b)) eqn:E; cbv zeta; rewrite ?E.
    + destruct (IH r ((acc + (a * 256 + b) + 1) mod 65536)) as [I1 I2]; [lia|exact Hb3|lia|]. split; [exact I1|]. rewrite I2.
      replace ((acc + (a * 256 + b) + 1) mod 65536) with (acc + (a * 256 + b) - 65535) by lia.
      rewrite <- (Z_mod_plus_full (acc + (a * 256 + b) - 65535 + sum16 r) 1 65535). f_equal. lia.
    + destruct (IH r (acc + (a * 256 + b))) as [I1 I2]; [lia|exact Hb3|lia|]. split; [exact I1|]. rewrite I2. f_equal. lia.
Qed.
Lemma ip_csum_spec l : bytes l -> 0 <= ip_csum l <= 65534 /\ (ip_csum l + sum16 l) mod 65535 = 0.
Proof.
  intros Hb. destruct (csum_acc_spec (length l) l 65535) as [H1 H2]; [lia|exact Hb|lia|]. unfold ip_csum.
  replace ((-1 - csum_acc 65535 l) mod 65536) with (65535 - csum_acc 65535 l) by lia. split; [lia|].
  set (x := csum_acc 65535 l) in *. lia.
Qed.
Lemma ip_csum_valid l : bytes l -> (ip_csum l = 0 <-> sum16 l mod 65535 = 0).
Proof. intros Hb. destruct (ip_csum_spec l Hb). lia. Qed.
Lemma sum16_app a b : Nat.even (length a) = true -> sum16 (a ++ b) = sum16 a + sum16 b.
Proof.
  remember (length a) as n eqn:E. revert a E. induction n as [n IH] using lt_wf_ind. intros a E He.
  destruct a as [|x [|y r]]; cbn [app sum16]; [lia|subst; discriminate|].
  rewrite (IH (length r)); [lia|subst; cbn; lia|reflexivity|]. subst n. cbn [length] in He. exact He.
Qed.
(** The checksum recomputed with zeros in its place is the one that was there. *)
Lemma ip_csum_restore pre a b post : length pre = 10%nat -> bytes (pre ++ [a; b] ++ post) ->
  sum16 (pre ++ [a; b] ++ post) mod 65535 = 0 -> a * 256 + b <> 65535 -> be16 (ip_csum (pre ++ [0; 0] ++ post)) = [a; b].
Proof.
  intros Hl Hb Hs Hn. apply bytes_app in Hb as [Hb1 Hb2]. apply bytes_app in Hb2 as [Hb2 Hb3].
  inversion Hb2 as [|? ? Ba Hc]; subst. inversion Hc as [|? ? Bb _]; subst.
  assert (bytes (pre ++ [0; 0] ++ post)) as Hz. { apply bytes_app. split; [exact Hb1|]. apply bytes_app. split; [|exact Hb3]. repeat constructor; unfold byte; lia. }
  destruct (ip_csum_spec _ Hz) as [H1 H2]. rewrite !sum16_app in * by (rewrite ?Hl; reflexivity). cbn [sum16] in *.
  apply be16_at; [exact Ba|exact Bb|]. unfold byte in *. set (x := ip_csum _) in *. lia.
Qed.

(** ** Masks *)
Definition mask (u w a s i p : bool) : Z := b2z u * 1 + b2z w * 2 + b2z a * 4 + b2z s * 8 + (if i then 32 else 0) + (if p then 16 else 0).
Lemma mask_bits u w a s i p c : let m := Z.lor (mask u w a s i p) (if c : bool then 64 else 0) in
  tst m NEW_U = u /\ tst m NEW_W = w /\ tst m NEW_A = a /\ tst m NEW_S = s /\ tst m NEW_I = i /\ tst m TCP_PUSH = p /\ tst m NEW_C = c /\
  Z.land m 15 = b2z u * 1 + b2z w * 2 + b2z a * 4 + b2z s * 8 /\ 0 <= m < 128 /\ Z.lor m 128 = m + 128 /\ Z.land (m + 128) 127 = m.
Proof. destruct u, w, a, s, i, p, c; cbv; repeat split; discriminate || reflexivity. Qed.
