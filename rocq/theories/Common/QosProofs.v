(** Proofs on the quality of service profile. *)
From Verif.Lib Require Import Base Outcome.
From Verif.Common Require Import QosModel QosSpec.

(** ** The octets of one rate *)

Ltac brk := repeat match goal with
  | |- context [?a =? ?b] => destruct (Z.eqb_spec a b); try lia
  | |- context [?a <=? ?b] => destruct (Z.leb_spec a b); try lia
  | |- context [?a <? ?b] => destruct (Z.ltb_spec a b); try lia end.

Lemma some_inj {A} (a b : A) : Some a = Some b -> b = a. Proof. congruence. Qed.
(** All values of the table, by kind. *)
Lemma rate_kinds b x y v : byte b -> byte x -> byte y -> rate_means b (Some x) (Some y) = Some v ->
  v = 0 \/ (1 <= v <= 63) \/ (exists k, 0 <= k <= 63 /\ v = 64 + k * 8) \/ (exists k, 0 <= k <= 126 /\ v = 576 + k * 64)
  \/ (exists k, 1 <= k <= 74 /\ v = 8600 + k * 100) \/ (exists k, 1 <= k <= 112 /\ v = (16 + k) * 1000)
  \/ (exists k, 1 <= k <= 64 /\ v = (128 + k * 2) * 1000) \/ (exists k, 1 <= k <= 61 /\ v = (256 + k * 4) * 1000)
  \/ (exists k, 1 <= k <= 100 /\ v = (500 + k * 10) * 1000) \/ (exists k, 1 <= k <= 85 /\ v = (1500 + k * 100) * 1000).
Proof.
  unfold byte, rate_means. intros Hb Hx Hy.
  destruct (Z.eqb_spec b 0); [discriminate|].
  destruct (Z.leb_spec b 63); [intros E; apply some_inj in E as ->; right; left; lia|].
  destruct (Z.leb_spec b 127); [intros E; apply some_inj in E as ->; right; right; left; exists (b - 64); lia|].
  destruct (Z.leb_spec b 253); [intros E; apply some_inj in E as ->; do 3 right; left; exists (b - 128); lia|].
  destruct (Z.eqb_spec b 255); [intros E; apply some_inj in E as ->; left; lia|].
  destruct (Z.eqb_spec x 0); [intros E; apply some_inj in E as ->; do 3 right; left; exists 126; lia|].
  destruct (Z.leb_spec x 74); [intros E; apply some_inj in E as ->; do 4 right; left; exists x; lia|].
  destruct (Z.leb_spec x 186); [intros E; apply some_inj in E as ->; do 5 right; left; exists (x - 74); lia|].
  destruct (Z.leb_spec x 249); [intros E; apply some_inj in E as ->; do 6 right; left; exists (x - 186); lia|].
  destruct (Z.eqb_spec x 250); [|discriminate].
  destruct (Z.eqb_spec y 0); [intros E; apply some_inj in E as ->; do 6 right; left; exists 64; lia|].
  destruct (Z.leb_spec y 61); [intros E; apply some_inj in E as ->; do 7 right; left; exists y; lia|].
  destruct (Z.leb_spec y 161); [intros E; apply some_inj in E as ->; do 8 right; left; exists (y - 61); lia|].
  destruct (Z.leb_spec y 246); [intros E; apply some_inj in E as ->; do 9 right; exists (y - 161); lia|discriminate].
Qed.

(** The value the octets of [enc_mbr_kbps] mean. *)
Definition level_ok (n : Z) (x1 x2 : Z) : Prop :=
  (n = 0 /\ x1 = 0 /\ x2 = 0) \/ (n = 1 /\ x2 = 0) \/ n = 2.

Lemma enc_rate r : 0 <= r ->
  ~ (16100 <= r < 17000 \/ 129000 <= r < 130000 \/ 258000 <= r < 260000 \/ 504000 <= r < 1600000) ->
  exists n b x y v, enc_mbr_kbps r = (n, (b, x, y)) /\ byte b /\ byte x /\ byte y /\ level_ok n x y /\
    rate_means b (Some x) (Some y) = Some v /\ best_rate r v /\
    (n = 0 <-> r < 8700) /\ (n <= 1 <-> r < 260000) /\ 0 <= n <= 2 /\ (1 <= n -> b = 254) /\ (n = 2 -> x = 250) /\
    (1 <= r < 576 -> 1 <= b < 128) /\ (576 <= r < 8640 -> 128 <= b <= 253) /\ (8640 <= r -> b = 254) /\ (r = 0 -> b = 255).
Proof.
  intros Hr Hno.
  assert (HB : forall b x y v, byte b -> byte x -> byte y -> rate_means b (Some x) (Some y) = Some v ->
    v <= r -> (forall v', (v' = 0 \/ (1 <= v' <= 63) \/ (exists k, 0 <= k <= 63 /\ v' = 64 + k * 8) \/ (exists k, 0 <= k <= 126 /\ v' = 576 + k * 64)
  \/ (exists k, 1 <= k <= 74 /\ v' = 8600 + k * 100) \/ (exists k, 1 <= k <= 112 /\ v' = (16 + k) * 1000)
  \/ (exists k, 1 <= k <= 64 /\ v' = (128 + k * 2) * 1000) \/ (exists k, 1 <= k <= 61 /\ v' = (256 + k * 4) * 1000)
  \/ (exists k, 1 <= k <= 100 /\ v' = (500 + k * 10) * 1000) \/ (exists k, 1 <= k <= 85 /\ v' = (1500 + k * 100) * 1000)) -> v' <= r -> v' <= v) ->
    best_rate r v).
  { intros b x y v Hb Hx Hy Hm Hle Hall. split; [exact Hle|]. split; [exists b, x, y; auto|].
    intros b' x' y' v' Hb' Hx' Hy' Hm' Hle'. apply Hall; [|exact Hle']. exact (rate_kinds b' x' y' v' Hb' Hx' Hy' Hm'). }
  unfold enc_mbr_kbps.
  assert (Hgo : forall n b x y v, byte b -> byte x -> byte y -> level_ok n x y ->
    rate_means b (Some x) (Some y) = Some v -> v <= r ->
    (forall v', (v' = 0 \/ (1 <= v' <= 63) \/ (exists k, 0 <= k <= 63 /\ v' = 64 + k * 8) \/ (exists k, 0 <= k <= 126 /\ v' = 576 + k * 64)
  \/ (exists k, 1 <= k <= 74 /\ v' = 8600 + k * 100) \/ (exists k, 1 <= k <= 112 /\ v' = (16 + k) * 1000)
  \/ (exists k, 1 <= k <= 64 /\ v' = (128 + k * 2) * 1000) \/ (exists k, 1 <= k <= 61 /\ v' = (256 + k * 4) * 1000)
  \/ (exists k, 1 <= k <= 100 /\ v' = (500 + k * 10) * 1000) \/ (exists k, 1 <= k <= 85 /\ v' = (1500 + k * 100) * 1000)) -> v' <= r -> v' <= v) ->
    ((n = 0 <-> r < 8700) /\ (n <= 1 <-> r < 260000) /\ 0 <= n <= 2 /\ (1 <= n -> b = 254) /\ (n = 2 -> x = 250) /\
    (1 <= r < 576 -> 1 <= b < 128) /\ (576 <= r < 8640 -> 128 <= b <= 253) /\ (8640 <= r -> b = 254) /\ (r = 0 -> b = 255)) ->
    exists n' b' x' y' v', (n, (b, x, y)) = (n', (b', x', y')) /\ byte b' /\ byte x' /\ byte y' /\ level_ok n' x' y' /\
    rate_means b' (Some x') (Some y') = Some v' /\ best_rate r v' /\
    (n' = 0 <-> r < 8700) /\ (n' <= 1 <-> r < 260000) /\ 0 <= n' <= 2 /\ (1 <= n' -> b' = 254) /\ (n' = 2 -> x' = 250) /\
    (1 <= r < 576 -> 1 <= b' < 128) /\ (576 <= r < 8640 -> 128 <= b' <= 253) /\ (8640 <= r -> b' = 254) /\ (r = 0 -> b' = 255)).
  { intros n b x y v Hb Hx Hy Hl Hm Hle Hall Hrest. exists n, b, x, y, v. repeat (split; [first [reflexivity|assumption]|]).
    split; [exact (HB b x y v Hb Hx Hy Hm Hle Hall)|exact Hrest]. }
  clear HB.
  Local Ltac kinds := let H := fresh in intros ? H ?;
    repeat match type of H with _ \/ _ => destruct H as [H|H] end; try lia;
    destruct H as (? & ? & ?); lia.
  destruct (Z.ltb_spec (10 * 1000 * 1000) r).
  { apply (Hgo _ _ _ _ 10000000); try (unfold byte, level_ok; lia); [reflexivity|kinds]. }
  destruct (Z.leb_spec (1600 * 1000) r).
  { set (k := (r - 1500 * 1000) / (100 * 1000)). assert (1 <= k <= 85) by (subst k; lia).
    replace ((0xa1 + k) mod 256) with (0xa1 + k) by lia.
    apply (Hgo _ _ _ _ ((1500 + k * 100) * 1000)); try (unfold byte, level_ok; subst k; lia).
    - unfold rate_means. cbn [Z.eqb Z.leb Z.compare Pos.compare Pos.compare_cont Pos.eqb]. brk. f_equal. lia.
    - subst k. kinds. }
  destruct (Z.leb_spec (510 * 1000) r); [lia|].
  destruct (Z.leb_spec (260 * 1000) r).
  { set (k := (r - 256 * 1000) / (4 * 1000)). assert (1 <= k <= 61) by (subst k; lia).
    replace ((0x00 + k) mod 256) with k by lia.
    apply (Hgo _ _ _ _ ((256 + k * 4) * 1000)); try (unfold byte, level_ok; subst k; lia).
    - unfold rate_means. cbn [Z.eqb Z.leb Z.compare Pos.compare Pos.compare_cont Pos.eqb]. brk. reflexivity.
    - subst k. kinds. }
  destruct (Z.leb_spec (130 * 1000) r).
  { set (k := (r - 128 * 1000) / (2 * 1000)). assert (1 <= k <= 64) by (subst k; lia).
    replace ((0xba + k) mod 256) with (0xba + k) by lia.
    apply (Hgo _ _ _ _ ((128 + k * 2) * 1000)); try (unfold byte, level_ok; subst k; lia).
    - unfold rate_means. cbn [Z.eqb Z.leb Z.compare Pos.compare Pos.compare_cont Pos.eqb]. brk; f_equal; lia.
    - subst k. kinds. }
  destruct (Z.leb_spec (17 * 1000) r).
  { set (k := (r - 16 * 1000) / (1 * 1000)). assert (1 <= k <= 112) by (subst k; lia).
    replace ((0x4a + k) mod 256) with (0x4a + k) by lia.
    apply (Hgo _ _ _ _ ((16 + k) * 1000)); try (unfold byte, level_ok; subst k; lia).
    - unfold rate_means. cbn [Z.eqb Z.leb Z.compare Pos.compare Pos.compare_cont Pos.eqb]. brk; f_equal; lia.
    - subst k. kinds. }
  destruct (Z.leb_spec 8700 r).
  { set (k := (r - 8600) / 100). assert (1 <= k <= 74) by (subst k; lia).
    replace ((0x00 + k) mod 256) with k by lia.
    apply (Hgo _ _ _ _ (8600 + k * 100)); try (unfold byte, level_ok; subst k; lia).
    - unfold rate_means. cbn [Z.eqb Z.leb Z.compare Pos.compare Pos.compare_cont Pos.eqb]. brk. reflexivity.
    - subst k. kinds. }
  destruct (Z.leb_spec 576 r).
  { set (k := (r - 576) / 64). assert (0 <= k <= 126) by (subst k; lia).
    replace ((0x80 + k) mod 256) with (0x80 + k) by lia.
    apply (Hgo _ _ _ _ (576 + k * 64)); try (unfold byte, level_ok; subst k; lia).
    - unfold rate_means. brk; f_equal; lia.
    - subst k. kinds. }
  destruct (Z.leb_spec 64 r).
  { set (k := (r - 64) / 8). assert (0 <= k <= 63) by (subst k; lia).
    replace ((0x40 + k) mod 256) with (0x40 + k) by lia.
    apply (Hgo _ _ _ _ (64 + k * 8)); try (unfold byte, level_ok; subst k; lia).
    - unfold rate_means. brk; f_equal; lia.
    - subst k. kinds. }
  destruct (Z.ltb_spec 0 r).
  { replace (r mod 256) with r by lia.
    apply (Hgo _ _ _ _ r); try (unfold byte, level_ok; lia).
    unfold rate_means; brk; f_equal; lia. }
  apply (Hgo _ _ _ _ 0); try (unfold byte, level_ok; lia). reflexivity.
Qed.

(** ** Transfer delay *)
Lemma delay_kinds d v : 0 <= d < 64 -> delay_means d = Some v ->
  (exists k, 1 <= k <= 15 /\ v = k * 10) \/ (exists k, 0 <= k <= 15 /\ v = 200 + k * 50) \/ (exists k, 0 <= k <= 30 /\ v = 1000 + k * 100).
Proof.
  intros Hd. unfold delay_means. destruct ((d =? 0) || (d =? 63)) eqn:E; [discriminate|].
  destruct (Z.leb_spec d 15). { intros X; apply some_inj in X as ->. left. exists d. lia. }
  destruct (Z.leb_spec d 31). { intros X; apply some_inj in X as ->. right; left. exists (d - 16). lia. }
  intros X; apply some_inj in X as ->. right; right. exists (d - 32). lia.
Qed.

Lemma enc_delay r : 10 <= r -> exists v, 0 <= enc_transfer_delay_ms r < 64 /\
  delay_means (enc_transfer_delay_ms r) = Some v /\ best_delay r v /\ (200 <= r -> 16 <= enc_transfer_delay_ms r).
Proof.
  intros Hr.
  assert (HB : forall d v, 0 <= d < 64 -> delay_means d = Some v -> v <= r ->
    (forall v', ((exists k, 1 <= k <= 15 /\ v' = k * 10) \/ (exists k, 0 <= k <= 15 /\ v' = 200 + k * 50) \/ (exists k, 0 <= k <= 30 /\ v' = 1000 + k * 100)) -> v' <= r -> v' <= v) ->
    (200 <= r -> 16 <= d) ->
    exists v, 0 <= d < 64 /\ delay_means d = Some v /\ best_delay r v /\ (200 <= r -> 16 <= d)).
  { intros d v Hd Hm Hle Hall H2. exists v. split; [exact Hd|]. split; [exact Hm|]. split; [|exact H2]. split; [exact Hle|]. split; [exists d; auto|].
    intros d' v' Hd' Hm' Hle'. apply Hall; [|exact Hle']. exact (delay_kinds d' v' Hd' Hm'). }
  Local Ltac kinds2 := let H := fresh in intros ? H ?; destruct H as [(? & ? & ?)|[(? & ? & ?)|(? & ? & ?)]]; lia.
  unfold enc_transfer_delay_ms.
  destruct (Z.leb_spec 4000 r). { apply (HB _ 4000); try lia; [reflexivity|kinds2]. }
  destruct (Z.leb_spec 1000 r).
  { apply (HB _ (1000 + (r - 1000) / 100 * 100)); try lia; [|kinds2]. unfold delay_means.
    destruct ((0x20 + (r - 1000) / 100 =? 0) || (0x20 + (r - 1000) / 100 =? 63)) eqn:?; [lia|]. brk. f_equal. lia. }
  destruct (Z.leb_spec 200 r).
  { apply (HB _ (200 + (r - 200) / 50 * 50)); try lia; [|kinds2]. unfold delay_means.
    destruct ((0x10 + (r - 200) / 50 =? 0) || (0x10 + (r - 200) / 50 =? 63)) eqn:?; [lia|]. brk. f_equal. lia. }
  destruct (Z.ltb_spec 150 r). { cbn [Z.leb Z.compare Pos.compare Pos.compare_cont]. change (150 / 10) with 15. apply (HB _ 150); try lia; [reflexivity|kinds2]. }
  destruct (Z.leb_spec 10 r); [|lia].
  apply (HB _ (r / 10 * 10)); try lia; [|kinds2]. unfold delay_means.
  destruct ((r / 10 =? 0) || (r / 10 =? 63)) eqn:?; [lia|]. brk. reflexivity.
Qed.

(** ** The whole profile *)
Lemma list20 {A} (l : list A) : length l = 20%nat -> exists a0 a1 a2 a3 a4 a5 a6 a7 a8 a9 b0 b1 b2 b3 b4 b5 b6 b7 b8 b9,
  l = [a0; a1; a2; a3; a4; a5; a6; a7; a8; a9; b0; b1; b2; b3; b4; b5; b6; b7; b8; b9].
Proof.
  intros H. do 20 (destruct l as [|? l]; [discriminate H|]). destruct l; [|discriminate H].
  repeat eexists.
Qed.

(** Number of octets sent for given extension levels. *)
Definition sent_len (ul dl : Z) (o14 o6 : bool) : Z :=
  if ul =? 2 then 20 else if dl =? 2 then 18 else if ul =? 1 then 16 else if dl =? 1 then 14
  else if o14 then 12 else if o6 then 11 else 5.

Lemma build_shape d a0 a1 a2 a3 a4 a5 a6 a7 a8 a9 b0 b1 b2 b3 b4 b5 b6 b7 b8 b9
  n1 x1 y1 z1 n2 x2 y2 z2 n3 x3 y3 z3 n4 x4 y4 z4 :
  q_prof d = [a0; a1; a2; a3; a4; a5; a6; a7; a8; a9; b0; b1; b2; b3; b4; b5; b6; b7; b8; b9] ->
  enc_mbr_kbps (q_mbr_dl d) = (n1, (x1, y1, z1)) -> enc_mbr_kbps (q_mbr_ul d) = (n2, (x2, y2, z2)) ->
  enc_mbr_kbps (q_gbr_dl d) = (n3, (x3, y3, z3)) -> enc_mbr_kbps (q_gbr_ul d) = (n4, (x4, y4, z4)) ->
  build d = firstn (Z.to_nat (sent_len (Z.max n2 n4) (Z.max n1 n3) (q_14 d) (q_6_13 d)))
    [a0; a1; a2; a3; a4; x2; x1; a7;
     (if q_6_13 d then Z.land (enc_transfer_delay_ms (q_delay d)) 0x3f else Z.shiftr a8 2) * 4 + (if Z.land a8 3 =? 0 then 1 else Z.land a8 3);
     x4; x3; b1; y2; y4; y1; y3; z2; z4; z1; z3].
Proof.
  intros Hp E1 E2 E3 E4. unfold build. rewrite Hp, E1, E2, E3, E4. reflexivity.
Qed.

(** The octets of a rate, by the number of extended octets. *)
Lemma enc_rate' r : 0 <= r ->
  ~ (16100 <= r < 17000 \/ 129000 <= r < 130000 \/ 258000 <= r < 260000 \/ 504000 <= r < 1600000) ->
  exists n b x y v, enc_mbr_kbps r = (n, (b, x, y)) /\ rate_means b (Some x) (Some y) = Some v /\ best_rate r v /\
    ((r < 8700 /\ n = 0 /\ x = 0 /\ y = 0) \/ (8700 <= r < 260000 /\ n = 1 /\ y = 0) \/ (260000 <= r /\ n = 2)).
Proof.
  intros Hr Hg. destruct (enc_rate r Hr Hg) as (n&b&x&y&v&E&_&_&_&L&M&B&N0&N1&N2&_).
  exists n, b, x, y, v. split; [exact E|]. split; [exact M|]. split; [exact B|]. clear E M B.
  unfold level_ok in L. lia.
Qed.

Lemma levels r1 n1 y1 z1 r2 n2 y2 z2 :
  ((r1 < 8700 /\ n1 = 0 /\ y1 = 0 /\ z1 = 0) \/ (8700 <= r1 < 260000 /\ n1 = 1 /\ z1 = 0) \/ (260000 <= r1 /\ n1 = 2)) ->
  ((r2 < 8700 /\ n2 = 0 /\ y2 = 0 /\ z2 = 0) \/ (8700 <= r2 < 260000 /\ n2 = 1 /\ z2 = 0) \/ (260000 <= r2 /\ n2 = 2)) ->
  (Z.max r1 r2 < 8700 /\ Z.max n1 n2 = 0 /\ y1 = 0 /\ z1 = 0 /\ y2 = 0 /\ z2 = 0) \/
  (8700 <= Z.max r1 r2 < 260000 /\ Z.max n1 n2 = 1 /\ z1 = 0 /\ z2 = 0) \/ (260000 <= Z.max r1 r2 /\ Z.max n1 n2 = 2).
Proof. intros [A|[A|A]] [B|[B|B]]; lia. Qed.

Lemma nth_error_firstn_lt {A} (l : list A) n i : (i < n)%nat -> nth_error (firstn n l) i = nth_error l i.
Proof. revert n i; induction l; intros [|n] [|i] H; try lia; cbn [firstn nth_error]; auto. apply IHl. lia. Qed.

Lemma rate_no_ext b y : rate_means b (Some 0) (Some y) = rate_means b None None.
Proof. reflexivity. Qed.
Lemma rate_no_ext2 b x : rate_means b (Some x) (Some 0) = rate_means b (Some x) None.
Proof. unfold rate_means. destruct (x =? 250); reflexivity. Qed.

(** How many extended octets are in use. *)
Lemma levels2 r1 n1 y1 z1 r2 n2 y2 z2 r3 n3 y3 z3 r4 n4 y4 z4 :
  ((r1 < 8700 /\ n1 = 0 /\ y1 = 0 /\ z1 = 0) \/ (8700 <= r1 < 260000 /\ n1 = 1 /\ z1 = 0) \/ (260000 <= r1 /\ n1 = 2)) ->
  ((r2 < 8700 /\ n2 = 0 /\ y2 = 0 /\ z2 = 0) \/ (8700 <= r2 < 260000 /\ n2 = 1 /\ z2 = 0) \/ (260000 <= r2 /\ n2 = 2)) ->
  ((r3 < 8700 /\ n3 = 0 /\ y3 = 0 /\ z3 = 0) \/ (8700 <= r3 < 260000 /\ n3 = 1 /\ z3 = 0) \/ (260000 <= r3 /\ n3 = 2)) ->
  ((r4 < 8700 /\ n4 = 0 /\ y4 = 0 /\ z4 = 0) \/ (8700 <= r4 < 260000 /\ n4 = 1 /\ z4 = 0) \/ (260000 <= r4 /\ n4 = 2)) ->
  (8700 <= Z.max r1 r3 -> 8700 <= Z.max r2 r4) -> (260000 <= Z.max r1 r3 -> 260000 <= Z.max r2 r4) ->
  Z.max n2 n4 = 2 \/ (Z.max n2 n4 = 1 /\ Z.max n1 n3 <= 1 /\ z1 = 0 /\ z2 = 0 /\ z3 = 0 /\ z4 = 0) \/
    (Z.max n2 n4 = 0 /\ Z.max n1 n3 = 0 /\ y1 = 0 /\ y2 = 0 /\ y3 = 0 /\ y4 = 0).
Proof.
  intros L1 L2 L3 L4 G1 G2.
  pose proof (levels _ _ _ _ _ _ _ _ L1 L3) as LD. pose proof (levels _ _ _ _ _ _ _ _ L2 L4) as LU.
  clear - LD LU G1 G2. destruct LU as [LU|[LU|LU]]; destruct LD as [LD|[LD|LD]]; lia.
Qed.
