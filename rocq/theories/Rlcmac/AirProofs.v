(** Proofs about the octets of RLC data blocks. *)
From Verif.Lib Require Import Base Outcome.
From Verif.Rlcmac Require Import CsModel AirModel AirSpec.
From Verif.Rlcmac Require RlcDataModel RlcDataSpec.

Lemma bits_app a b : bits (a ++ b) = bits a ++ bits b.
Proof. apply flat_map_app. Qed.
Lemma bits_cons o l : bits (o :: l) = obits o ++ bits l.
Proof. reflexivity. Qed.
Lemma bits_length l : length (bits l) = (8 * length l)%nat.
Proof. induction l as [|o r IH]; [reflexivity|]. rewrite bits_cons, app_length, IH. cbn [length obits map]. lia. Qed.

Lemma bit_high a n : byte a -> 8 <= n -> Z.testbit a n = false.
Proof. intros Ha Hn. apply (testbit_high a 8); [exact Ha|exact Hn]. Qed.

Lemma join_octet a c y : byte a -> byte c -> 1 <= y <= 7 ->
  obits (Z.lor (Z.shiftr a y) (Z.land (Z.shiftl c (8 - y)) 255)) = skipn (Z.to_nat y) (obits a) ++ firstn (Z.to_nat y) (obits c).
Proof.
  intros Ha Hc Hy.
  assert (y = 1 \/ y = 2 \/ y = 3 \/ y = 4 \/ y = 5 \/ y = 6 \/ y = 7) as D by lia.
  destruct D as [->|[->|[->|[->|[->|[->| ->]]]]]]; unfold obits;
    match goal with |- context [Z.to_nat ?k] => let v := eval vm_compute in (Z.to_nat k) in change (Z.to_nat k) with v end;
    match goal with |- context [8 - ?k] => let v := eval vm_compute in (8 - k) in change (8 - k) with v end;
    cbn [map skipn firstn app]; repeat (apply (f_equal2 (@cons bool)); [|]); try reflexivity;
    rewrite Z.lor_spec, Z.land_spec, Z.shiftr_spec, Z.shiftl_spec by lia;
    repeat match goal with |- context [Z.testbit 255 ?k] => let v := eval vm_compute in (Z.testbit 255 k) in change (Z.testbit 255 k) with v end;
    repeat match goal with
    | |- context [?i + ?k] => let v := eval vm_compute in (i + k) in change (i + k) with v
    | |- context [?i - ?k] => let v := eval vm_compute in (i - k) in change (i - k) with v
    end;
    rewrite ?(bit_high a) by (assumption || lia); rewrite ?andb_true_r;
    repeat match goal with |- context [Z.testbit c (Zneg ?p)] => rewrite (Z.testbit_neg_r c (Zneg p)) by lia end;
    rewrite ?orb_false_r, ?orb_false_l; reflexivity.
Qed.

(** The low bits of an octet shifted up. *)
Lemma up_octet d x : byte d -> 1 <= x <= 7 -> skipn (Z.to_nat (8 - x)) (obits (Z.land (Z.shiftl d (8 - x)) 255)) = firstn (Z.to_nat x) (obits d).
Proof.
  intros Hd Hx. assert (x = 1 \/ x = 2 \/ x = 3 \/ x = 4 \/ x = 5 \/ x = 6 \/ x = 7) as D by lia.
  destruct D as [->|[->|[->|[->|[->|[->| ->]]]]]]; unfold obits;
    repeat match goal with |- context [8 - ?k] => let v := eval vm_compute in (8 - k) in change (8 - k) with v end;
    repeat match goal with |- context [Z.to_nat ?k] => let v := eval vm_compute in (Z.to_nat k) in change (Z.to_nat k) with v end;
    cbn [map skipn firstn app]; repeat (apply (f_equal2 (@cons bool)); [|]); try reflexivity;
    rewrite Z.land_spec, Z.shiftl_spec by lia;
    repeat match goal with |- context [Z.testbit 255 ?k] => let v := eval vm_compute in (Z.testbit 255 k) in change (Z.testbit 255 k) with v end;
    repeat match goal with |- context [?i - ?k] => let v := eval vm_compute in (i - k) in change (i - k) with v end;
    rewrite andb_true_r; reflexivity.
Qed.
(** The last octet: its high bits stay. *)
Lemma low_octet o a x : byte o -> byte a -> 1 <= x <= 7 ->
  obits (Z.lor (Z.land o (Z.shiftl 255 x)) (Z.shiftr a (8 - x))) = skipn (Z.to_nat (8 - x)) (obits a) ++ skipn (Z.to_nat x) (obits o).
Proof.
  intros Ho Ha Hx. assert (x = 1 \/ x = 2 \/ x = 3 \/ x = 4 \/ x = 5 \/ x = 6 \/ x = 7) as D by lia.
  destruct D as [->|[->|[->|[->|[->|[->| ->]]]]]]; unfold obits;
    repeat match goal with |- context [8 - ?k] => let v := eval vm_compute in (8 - k) in change (8 - k) with v end;
    repeat match goal with |- context [Z.to_nat ?k] => let v := eval vm_compute in (Z.to_nat k) in change (Z.to_nat k) with v end;
    repeat match goal with |- context [Z.shiftl 255 ?k] => let v := eval vm_compute in (Z.shiftl 255 k) in change (Z.shiftl 255 k) with v end;
    cbn [map skipn firstn app]; repeat (apply (f_equal2 (@cons bool)); [|]); try reflexivity;
    rewrite Z.lor_spec, Z.land_spec, Z.shiftr_spec by lia;
    repeat match goal with |- context [Z.testbit (Zpos ?q) ?k] => let v := eval vm_compute in (Z.testbit (Zpos q) k) in change (Z.testbit (Zpos q) k) with v end;
    repeat match goal with |- context [?i + ?k] => let v := eval vm_compute in (i + k) in change (i + k) with v end;
    rewrite ?(bit_high a) by (assumption || lia);
    rewrite ?andb_true_r, ?andb_false_r, ?orb_false_r, ?orb_false_l; reflexivity.
Qed.

Lemma byte_lor a b : byte a -> byte b -> byte (Z.lor a b).
Proof.
  unfold byte. intros Ha Hb. split; [apply Z.lor_nonneg; lia|].
  destruct (Z.eq_dec (Z.lor a b) 0) as [->|N]; [lia|]. assert (0 < Z.lor a b) by (pose proof (proj2 (Z.lor_nonneg a b) (conj (proj1 Ha) (proj1 Hb))); lia).
  apply (Z.log2_lt_pow2 _ 8); [assumption|]. rewrite Z.log2_lor by lia.
  assert (forall v, 0 <= v < 256 -> Z.log2 v < 8) as L.
  { intros v Hv. destruct (Z.eq_dec v 0) as [->|]; [cbn; lia|]. apply Z.log2_lt_pow2; lia. }
  pose proof (L a Ha). pose proof (L b Hb). lia.
Qed.
Lemma byte_shr a k : byte a -> 0 <= k -> byte (Z.shiftr a k).
Proof.
  unfold byte. intros Ha Hk. rewrite Z.shiftr_div_pow2 by lia. assert (0 < 2 ^ k) by (apply Z.pow_pos_nonneg; lia).
  split; [apply Z.div_pos; lia|]. apply Z.le_lt_trans with a; [|lia]. apply Z.div_le_upper_bound; nia.
Qed.
Lemma byte_land a : byte (Z.land a 255).
Proof. rewrite land_255. unfold byte. apply Z.mod_pos_bound. lia. Qed.
Lemma byte_land2 a b : byte a -> 0 <= b -> byte (Z.land a b).
Proof.
  unfold byte. intros Ha Hb. split; [apply Z.land_nonneg; lia|]. 
  destruct (Z.eq_dec (Z.land a b) 0) as [->|N]; [lia|]. assert (0 < Z.land a b) by (pose proof (proj2 (Z.land_nonneg a b) (or_introl (proj1 Ha))); lia).
  apply (Z.log2_lt_pow2 _ 8); [assumption|]. eapply Z.le_lt_trans; [apply Z.log2_land; lia|].
  apply Z.min_lt_iff. left. apply Z.log2_lt_pow2; [|lia]. destruct (Z.eq_dec a 0) as [->|]; [rewrite Z.land_0_l in N; lia|lia].
Qed.

Lemma to_loop_length y s : forall c, length (to_loop y s c) = length s.
Proof. induction s as [|o r IH]; intros c; [reflexivity|]. cbn [to_loop length]. rewrite IH. reflexivity. Qed.
Lemma to_loop_bytes y s : 0 <= y -> bytes s -> forall c, byte c -> bytes (to_loop y s c).
Proof.
  intros Hy H. induction H as [|o r Ho Hr IH]; intros c Hc; [constructor|]. cbn [to_loop]. constructor; [|apply IH, Ho].
  apply byte_lor; [apply byte_shr; assumption|apply byte_land].
Qed.
Lemma last_byte s : bytes s -> forall c, byte c -> byte (last s c).
Proof.
  intros H. induction H as [|o r Ho Hr IH]; intros c Hc; [exact Hc|]. cbn [last]. destruct r; [exact Ho|apply IH, Hc].
Qed.
Lemma last_cons (o : Z) r c : last (o :: r) c = last r o.
Proof. revert o c. induction r as [|p q IH]; intros o c; [reflexivity|]. cbn [last]. destruct q as [|z w]; [reflexivity|]. cbn [last] in IH |- *. destruct w; [reflexivity|]. apply (IH o c). Qed.
Lemma to_loop_bits y s : 1 <= y <= 7 -> bytes s -> forall c, byte c ->
  bits (to_loop y s c) ++ skipn (Z.to_nat y) (obits (last s c)) = skipn (Z.to_nat y) (obits c) ++ bits s.
Proof.
  intros Hy H. induction H as [|o r Ho Hr IH]; intros c Hc; [cbn [to_loop bits flat_map last app]; rewrite app_nil_r; reflexivity|].
  cbn [to_loop]. rewrite !bits_cons, last_cons, <- app_assoc, IH by exact Ho. rewrite join_octet by assumption. rewrite <- !app_assoc. f_equal.
  rewrite app_assoc, firstn_skipn. reflexivity.
Qed.

Lemma put_ok pre mid post s : length mid = length s -> RlcDataModel.put (pre ++ mid ++ post) (zlen pre) s = Ok (pre ++ s ++ post).
Proof.
  intros L. unfold RlcDataModel.put. rewrite !zlen_app. pose proof (zlen_nonneg pre). pose proof (zlen_nonneg post).
  assert (zlen mid = zlen s) by (unfold zlen; lia).
  replace ((0 <=? zlen pre) && (zlen pre + zlen s <=? zlen pre + (zlen mid + zlen post))) with true by (symmetry; apply andb_true_iff; split; lia).
  rewrite firstn_app_exact by (unfold zlen; lia). unfold zlen. rewrite Nat2Z.id.
  rewrite (app_assoc pre mid post), (skipn_app_exact (pre ++ mid) post) by (rewrite app_length; lia). reflexivity.
Qed.
Lemma from_loop_ok x s : forall pre mid post c, length mid = length s ->
  from_loop x (pre ++ mid ++ post) (zlen pre) s c = Ok (pre ++ to_loop (8 - x) s c ++ post, last s c).
Proof.
  induction s as [|o r IH]; intros pre mid post c L; destruct mid as [|m mid]; try discriminate L; [reflexivity|].
  cbn [from_loop to_loop]. replace (8 - (8 - x)) with x by lia. set (w := Z.lor (Z.shiftr c (8 - x)) (Z.land (Z.shiftl o x) 255)).
  replace (pre ++ (m :: mid) ++ post) with (pre ++ [m] ++ (mid ++ post)) by reflexivity. rewrite put_ok by reflexivity. cbn [bind]. rewrite last_cons.
  specialize (IH (pre ++ [w]) mid post o ltac:(cbn [length] in L; lia)). rewrite zlen_app in IH. change (zlen [w]) with 1 in IH. rewrite <- !app_assoc in IH. exact IH.
Qed.

Lemma cut (l : list Z) n : (n <= length l)%nat -> l = firstn n l ++ skipn n l /\ length (firstn n l) = n.
Proof. intros H. split; [symmetry; apply firstn_skipn|apply firstn_length_le, H]. Qed.
Lemma bytes_app a b : bytes a -> bytes b -> bytes (a ++ b).
Proof. intros Ha Hb. apply Forall_app. split; assumption. Qed.
Lemma firstn_bits n l : firstn (8 * n) (bits l) = bits (firstn n l).
Proof.
  revert l. induction n as [|n IH]; intros [|o r].
  - reflexivity.
  - reflexivity.
  - cbn [firstn]. apply firstn_nil.
  - replace (8 * S n)%nat with (8 + 8 * n)%nat by lia. rewrite firstn_cons, !bits_cons, <- IH. reflexivity.
Qed.
Lemma skipn_bits n l : skipn (8 * n) (bits l) = bits (skipn n l).
Proof.
  revert l. induction n as [|n IH]; intros [|o r].
  - reflexivity.
  - reflexivity.
  - cbn [skipn]. apply skipn_nil.
  - replace (8 * S n)%nat with (8 + 8 * n)%nat by lia. rewrite skipn_cons, bits_cons, <- IH. reflexivity.
Qed.
Lemma rd_at pre o post : rd (pre ++ o :: post) (zlen pre) = Ok o.
Proof.
  rewrite rd_ok by (rewrite zlen_app, zlen_cons; pose proof (zlen_nonneg pre); pose proof (zlen_nonneg post); lia).
  unfold zlen. rewrite Nat2Z.id, app_nth2, Nat.sub_diag by lia. reflexivity.
Qed.

(** Copying into a message: exactly the bits meant to are replaced. *)
Lemma copy_from_ok offs len dst buffer : 0 <= offs -> 0 <= len -> offs + 8 * len <= 8 * zlen dst -> len <= zlen buffer -> bytes dst -> bytes buffer ->
  exists m, copy_from offs len dst buffer = Ok m /\ bytes m /\ zlen m = zlen dst /\
    bits m = firstn (Z.to_nat offs) (bits dst) ++ bits (firstn (Z.to_nat len) buffer) ++ skipn (Z.to_nat (offs + 8 * len)) (bits dst).
Proof.
  intros Ho Hl Hfit Hb Bd Bb. unfold copy_from. rewrite rdn_ok by lia. cbn [bind]. change (slice (Z.to_nat 0) (Z.to_nat len) buffer) with (firstn (Z.to_nat len) buffer).
  set (s := firstn (Z.to_nat len) buffer). assert (length s = Z.to_nat len) as Ls by (apply firstn_length_le; unfold zlen in *; lia).
  assert (bytes s) as Bs by (apply Forall_firstn, Bb).
  pose proof (Z.div_mod offs 8 ltac:(lia)) as D. pose proof (Z.mod_pos_bound offs 8 ltac:(lia)) as M.
  set (hdr := offs / 8) in *. set (x := offs mod 8) in *. assert (0 <= hdr) by (subst hdr; apply Z.div_pos; lia).
  assert (hdr + len <= zlen dst) as Hd by lia.
  destruct (cut dst (Z.to_nat hdr) ltac:(unfold zlen in *; lia)) as [E1 L1]. set (pre := firstn (Z.to_nat hdr) dst) in *. set (rest := skipn (Z.to_nat hdr) dst) in *.
  assert (length rest = (length dst - Z.to_nat hdr)%nat) as Lr by (subst rest; apply skipn_length).
  destruct (cut rest (Z.to_nat len) ltac:(unfold zlen in *; lia)) as [E2 L2]. set (mid := firstn (Z.to_nat len) rest) in *. set (post := skipn (Z.to_nat len) rest) in *.
  assert (zlen pre = hdr) as Zp by (unfold zlen; lia).
  assert (bytes pre) by (apply Forall_firstn, Bd). assert (bytes rest) as Br by (apply Forall_skipn, Bd). assert (bytes post) as Bp by (apply Forall_skipn, Br).
  assert (firstn (Z.to_nat (8 * hdr)) (bits dst) = bits pre) as F by (replace (Z.to_nat (8 * hdr)) with (8 * Z.to_nat hdr)%nat by lia; apply firstn_bits).
  assert (bits dst = bits pre ++ bits rest) as Ebd by (rewrite E1 at 1; apply bits_app).
  assert (bits rest = bits mid ++ bits post) as Ebr by (rewrite E2 at 1; apply bits_app).
  assert (length (bits pre) = Z.to_nat (8 * hdr)) as Lbp by (rewrite bits_length; lia).
  assert (length (bits mid) = Z.to_nat (8 * len)) as Lbm by (rewrite bits_length; lia).
  destruct (x =? 0) eqn:Ex.
  - assert (x = 0) as X0 by lia. rewrite E1, E2, <- Zp, put_ok by lia. eexists. split; [reflexivity|]. split; [repeat apply bytes_app; assumption|].
    split; [rewrite !zlen_app; unfold zlen; lia|]. rewrite !bits_app. f_equal; [|f_equal].
    + replace (Z.to_nat offs) with (length (bits pre)) by lia. rewrite firstn_app_exact by reflexivity. reflexivity.
    + rewrite app_assoc, skipn_app_exact by (rewrite app_length; lia). reflexivity.
  - assert (1 <= x <= 7) as Hx by lia. clearbody mid post rest pre s hdr x. destruct post as [|o pst]; [exfalso; rewrite app_nil_r in E2; unfold zlen in *; assert (length rest = Z.to_nat len) by (rewrite E2; exact L2); lia|].
    assert (exists d0 t, rest = d0 :: t) as (d0 & t & Ert). { destruct rest as [|d0 t]; [exfalso; destruct mid; discriminate E2|eauto]. }
    assert (rd dst hdr = Ok d0) as R by (rewrite E1, Ert, <- Zp; apply rd_at). rewrite R. cbn [bind].
    assert (byte d0) as B0 by (rewrite Ert in Br; inversion Br; assumption).
    rewrite E1, E2, <- Zp. rewrite from_loop_ok by lia. cbn [bind].
    set (c0 := Z.land (Z.shiftl d0 (8 - x)) 255). assert (byte c0) as Bc by apply byte_land.
    set (w := to_loop (8 - x) s c0). assert (length w = length s) as Lw by apply to_loop_length. assert (bytes w) as Bw by (apply to_loop_bytes; [lia|assumption|assumption]).
    replace (zlen pre + len) with (zlen (pre ++ w)) by (rewrite zlen_app; unfold zlen; lia).
    rewrite app_assoc, rd_at. cbn [bind]. assert (byte o) as Bo by (inversion Bp; assumption). assert (bytes pst) as Bpo by (inversion Bp; assumption).
    set (lc := last s c0). assert (byte lc) as Bl by (apply last_byte; assumption).
    change (o :: pst) with ([o] ++ pst). rewrite put_ok by reflexivity. eexists. split; [reflexivity|]. split.
    { repeat apply bytes_app; try assumption. constructor; [|constructor]. apply byte_lor; [apply byte_land2; [assumption|apply Z.shiftl_nonneg; lia]|apply byte_shr; [assumption|lia]]. }
    split; [rewrite !zlen_app; unfold zlen; cbn [length]; lia|].
    rewrite !bits_app, <- !app_assoc. change (bits [Z.lor (Z.land o (Z.shiftl 255 x)) (Z.shiftr lc (8 - x))]) with (obits (Z.lor (Z.land o (Z.shiftl 255 x)) (Z.shiftr lc (8 - x))) ++ []).
    rewrite app_nil_r, low_octet by assumption.
    change (bits [o]) with (obits o ++ []). rewrite app_nil_r.
    transitivity (bits pre ++ (bits w ++ skipn (Z.to_nat (8 - x)) (obits lc)) ++ skipn (Z.to_nat x) (obits o) ++ bits pst); [rewrite <- !app_assoc; reflexivity|].
    subst w lc. rewrite to_loop_bits by (assumption || lia). subst c0. rewrite up_octet by assumption. rewrite <- !app_assoc.
    assert (length (obits d0) = 8%nat) as L8 by reflexivity. assert (length (obits o) = 8%nat) as L8o by reflexivity.
    assert (bits mid ++ obits o ++ bits pst = obits d0 ++ bits t) as Emix. { rewrite <- bits_cons, <- bits_app, <- E2, Ert, bits_cons. reflexivity. }
    rewrite Emix.
    transitivity ((bits pre ++ firstn (Z.to_nat x) (obits d0)) ++ bits s ++ skipn (Z.to_nat x) (obits o) ++ bits pst); [rewrite <- !app_assoc; reflexivity|]. f_equal.
    { rewrite (firstn_app _ (bits pre)), (firstn_all2 (bits pre)) by lia. f_equal. rewrite (firstn_app _ (obits d0)). replace (Z.to_nat offs - length (bits pre))%nat with (Z.to_nat x) by lia.
      replace (Z.to_nat x - length (obits d0))%nat with 0%nat by lia. rewrite firstn_O, app_nil_r. reflexivity. }
    f_equal. rewrite <- Emix. rewrite (skipn_app _ (bits pre)), (skipn_all2 (bits pre)) by lia. cbn [app]. rewrite (skipn_app _ (bits mid)), (skipn_all2 (bits mid)) by lia. cbn [app]. rewrite (skipn_app _ (obits o)).
    replace (Z.to_nat (offs + 8 * len) - length (bits pre) - length (bits mid))%nat with (Z.to_nat x) by lia.
    replace (Z.to_nat x - length (obits o))%nat with 0%nat by lia. reflexivity.
Qed.

Lemma skip_skip {A} n : forall m (l : list A), skipn n (skipn m l) = skipn (m + n) l.
Proof. induction m as [|m IH]; intros l; [reflexivity|]. destruct l; [cbn [skipn Nat.add]; apply skipn_nil|]. cbn [skipn Nat.add]. apply IH. Qed.

(** Copying out of a message: exactly the bits meant to. *)
Lemma copy_to_ok offs len src : 0 <= offs -> 0 <= len -> offs + 8 * len <= 8 * zlen src -> bytes src ->
  exists d, copy_to offs len src = Ok d /\ bytes d /\ zlen d = len /\ bits d = firstn (Z.to_nat (8 * len)) (skipn (Z.to_nat offs) (bits src)).
Proof.
  intros Ho Hl Hfit Bs. unfold copy_to. rewrite Z.shiftr_div_pow2 by lia. change (2 ^ 3) with 8. rewrite land_7.
  pose proof (Z.div_mod offs 8 ltac:(lia)) as D. pose proof (Z.mod_pos_bound offs 8 ltac:(lia)) as M.
  set (hdr := offs / 8) in *. set (x := offs mod 8) in *. assert (0 <= hdr) by (subst hdr; apply Z.div_pos; lia).
  destruct (x =? 0) eqn:Ex.
  - rewrite rdn_ok by lia. eexists. split; [reflexivity|]. split; [apply bytes_slice, Bs|]. split; [unfold zlen in *; rewrite slice_length by lia; lia|].
    unfold slice. replace (Z.to_nat (8 * len)) with (8 * Z.to_nat len)%nat by lia. replace (Z.to_nat offs) with (8 * Z.to_nat hdr)%nat by lia. rewrite skipn_bits, firstn_bits. reflexivity.
  - assert (1 <= x <= 7) as Hx by lia. assert (hdr + 1 + len <= zlen src) by lia. rewrite rd_ok by lia. cbn [bind]. rewrite rdn_ok by lia. cbn [bind].
    set (c0 := nth (Z.to_nat hdr) src 0). set (s := slice (Z.to_nat (hdr + 1)) (Z.to_nat len) src).
    assert (bytes s) as Bss by apply bytes_slice, Bs. assert (byte c0) as Bc by (apply nth_byte; [exact Bs|lia]).
    assert (length s = Z.to_nat len) as Ls by (apply slice_length; unfold zlen in *; lia).
    eexists. split; [reflexivity|]. split; [apply to_loop_bytes; [lia|assumption|assumption]|]. split; [unfold zlen; rewrite to_loop_length; lia|].
    pose proof (to_loop_bits x s Hx Bss c0 Bc) as T.
    assert (length (bits (to_loop x s c0)) = Z.to_nat (8 * len)) as Lt by (rewrite bits_length, to_loop_length; lia).
    transitivity (firstn (Z.to_nat (8 * len)) (skipn (Z.to_nat x) (obits c0) ++ bits s)); [rewrite <- T, firstn_app_exact by lia; reflexivity|].
    assert (skipn (Z.to_nat hdr) src = c0 :: skipn (Z.to_nat (hdr + 1)) src) as Esk.
    { replace (Z.to_nat (hdr + 1)) with (S (Z.to_nat hdr)) by lia. subst c0. assert (Z.to_nat hdr < length src)%nat as L by (unfold zlen in *; lia). clear -L.
      revert L. generalize (Z.to_nat hdr). induction src as [|o r IH]; intros [|n] L; cbn [length] in L; try lia; [reflexivity|]. cbn [skipn nth]. apply IH. lia. }
    replace (skipn (Z.to_nat offs) (bits src)) with (skipn (Z.to_nat x) (bits (skipn (Z.to_nat hdr) src))).
    2:{ rewrite <- skipn_bits, skip_skip. f_equal. lia. }
    rewrite Esk, bits_cons, skipn_app. replace (Z.to_nat x - length (obits c0))%nat with 0%nat by (cbn [obits map length]; lia). cbn [skipn].
    subst s. unfold slice. rewrite <- firstn_bits. rewrite !firstn_app, firstn_firstn. f_equal. f_equal. cbn [obits map skipn]. rewrite skipn_length. cbn [length]. lia.
Qed.

(** Octets are determined by their bits. *)
Lemma obits_inj a b : byte a -> byte b -> obits a = obits b -> a = b.
Proof.
  intros Ha Hb H. apply Z.bits_inj'. intros n Hn. destruct (Z_lt_le_dec n 8) as [L|L]; [|rewrite !bit_high by assumption; reflexivity].
  unfold obits in H. cbn [map] in H. injection H as H0 H1 H2 H3 H4 H5 H6 H7.
  assert (n = 0 \/ n = 1 \/ n = 2 \/ n = 3 \/ n = 4 \/ n = 5 \/ n = 6 \/ n = 7) as D by lia.
  destruct D as [->|[->|[->|[->|[->|[->|[->| ->]]]]]]]; assumption.
Qed.
Lemma bits_inj a : forall b, bytes a -> bytes b -> bits a = bits b -> a = b.
Proof.
  induction a as [|o r IH]; intros [|p q] Ha Hb H; [reflexivity|exfalso; rewrite bits_cons in H; discriminate H|exfalso; rewrite bits_cons in H; discriminate H|].
  rewrite !bits_cons in H. apply app_eq_app in H as (l & [[E1 E2]|[E1 E2]]); assert (l = []) by (destruct l; [reflexivity|apply (f_equal (@length bool)) in E1; rewrite app_length in E1; cbn [obits map length] in E1; lia]); subst l;
    rewrite app_nil_r in E1; cbn [app] in E2; inversion Ha; inversion Hb; subst; f_equal; [apply obits_inj; auto| apply IH; auto| apply obits_inj; auto| apply IH; auto].
Qed.
