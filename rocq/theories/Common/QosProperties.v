(** C58, C59: the quality of service profile, written and read. *)
From Verif.Lib Require Import Base Outcome.
From Verif.Common Require Import QosModel QosSpec QosProofs.

(** The rate of the decoded structure. *)
Definition asked (d : decoded) (w : which) : Z :=
  match w with MaxDl => q_mbr_dl d | MaxUl => q_mbr_ul d | GuarDl => q_gbr_dl d | GuarUl => q_gbr_ul d end.

(** ** C58: what is written *)

(** Rates below 8700 kbit/s: a reader of TS 24.008 finds, for each of the four, the largest rate of the
    coding that does not exceed the one asked for. *)
Theorem C58_rates_partial : forall d, length (q_prof d) = 20%nat -> q_6_13 d = true ->
  (forall w, 0 <= asked d w < 8700) ->
  length (build d) = (if q_14 d then 12 else 11)%nat /\
  forall w, exists v, rate_at ts_offsets w (build d) = Some v /\ best_rate (asked d w) v.
Proof.
  intros d Hl H6 Hr.
  destruct (list20 _ Hl) as (a0&a1&a2&a3&a4&a5&a6&a7&a8&a9&b0&b1&b2&b3&b4&b5&b6&b7&b8&b9&Hp).
  destruct (enc_rate' (q_mbr_dl d)) as (n1&x1&y1&z1&v1&E1&M1&B1&L1); [apply (Hr MaxDl)|pose proof (Hr MaxDl) as T; cbn [asked] in T; lia|].
  destruct (enc_rate' (q_mbr_ul d)) as (n2&x2&y2&z2&v2&E2&M2&B2&L2); [apply (Hr MaxUl)|pose proof (Hr MaxUl) as T; cbn [asked] in T; lia|].
  destruct (enc_rate' (q_gbr_dl d)) as (n3&x3&y3&z3&v3&E3&M3&B3&L3); [apply (Hr GuarDl)|pose proof (Hr GuarDl) as T; cbn [asked] in T; lia|].
  destruct (enc_rate' (q_gbr_ul d)) as (n4&x4&y4&z4&v4&E4&M4&B4&L4); [apply (Hr GuarUl)|pose proof (Hr GuarUl) as T; cbn [asked] in T; lia|].
  rewrite (build_shape d _ _ _ _ _ _ _ _ _ _ _ _ _ _ _ _ _ _ _ _ _ _ _ _ _ _ _ _ _ _ _ _ _ _ _ _ Hp E1 E2 E3 E4).
  pose proof (Hr MaxDl) as T1. pose proof (Hr MaxUl) as T2. pose proof (Hr GuarDl) as T3. pose proof (Hr GuarUl) as T4.
  cbn [asked] in T1, T2, T3, T4.
  assert (HL1 : n1 = 0 /\ y1 = 0) by lia. assert (HL2 : n2 = 0 /\ y2 = 0) by lia.
  assert (HL3 : n3 = 0 /\ y3 = 0) by lia. assert (HL4 : n4 = 0 /\ y4 = 0) by lia.
  destruct HL1 as [-> ->], HL2 as [-> ->], HL3 as [-> ->], HL4 as [-> ->].
  unfold sent_len. rewrite H6. cbn [Z.max Z.eqb Z.compare].
  split; [destruct (q_14 d); reflexivity|].
  intros []; cbn [asked]; [exists v1|exists v2|exists v3|exists v4]; (split; [|assumption]);
    destruct (q_14 d); cbv [Z.to_nat Pos.to_nat Pos.iter_op Nat.add rate_at ts_offsets oct firstn nth_error]; erewrite <- rate_no_ext; eassumption.
Qed.

(** A rate that one of the stretches of [enc_mbr_kbps] gets wrong: there the octet runs into the next
    stretch of the table, or is computed from a wrong base. *)
Definition gap (r : Z) : Prop :=
  16100 <= r < 17000 \/ 129000 <= r < 130000 \/ 258000 <= r < 260000 \/ 504000 <= r < 1600000.

(** All rates outside these gaps: a reader that takes the extended octets in this library's order (uplink
    first) finds the largest rate not exceeding the one asked for, provided that the uplink needs at least
    as many extended octets as the downlink. *)
Theorem C58_extended_partial : forall d, length (q_prof d) = 20%nat -> q_6_13 d = true ->
  (forall w, 0 <= asked d w /\ ~ gap (asked d w)) ->
  (8700 <= Z.max (asked d MaxDl) (asked d GuarDl) -> 8700 <= Z.max (asked d MaxUl) (asked d GuarUl)) ->
  (260000 <= Z.max (asked d MaxDl) (asked d GuarDl) -> 260000 <= Z.max (asked d MaxUl) (asked d GuarUl)) ->
  forall w, exists v, rate_at lib_offsets w (build d) = Some v /\ best_rate (asked d w) v.
Proof.
  intros d Hl H6 Hr G1 G2. unfold gap in Hr.
  destruct (list20 _ Hl) as (a0&a1&a2&a3&a4&a5&a6&a7&a8&a9&b0&b1&b2&b3&b4&b5&b6&b7&b8&b9&Hp).
  destruct (enc_rate' (q_mbr_dl d)) as (n1&x1&y1&z1&v1&E1&M1&B1&L1); [apply (Hr MaxDl)|pose proof (Hr MaxDl) as T; cbn [asked] in T; lia|].
  destruct (enc_rate' (q_mbr_ul d)) as (n2&x2&y2&z2&v2&E2&M2&B2&L2); [apply (Hr MaxUl)|pose proof (Hr MaxUl) as T; cbn [asked] in T; lia|].
  destruct (enc_rate' (q_gbr_dl d)) as (n3&x3&y3&z3&v3&E3&M3&B3&L3); [apply (Hr GuarDl)|pose proof (Hr GuarDl) as T; cbn [asked] in T; lia|].
  destruct (enc_rate' (q_gbr_ul d)) as (n4&x4&y4&z4&v4&E4&M4&B4&L4); [apply (Hr GuarUl)|pose proof (Hr GuarUl) as T; cbn [asked] in T; lia|].
  rewrite (build_shape d _ _ _ _ _ _ _ _ _ _ _ _ _ _ _ _ _ _ _ _ _ _ _ _ _ _ _ _ _ _ _ _ _ _ _ _ Hp E1 E2 E3 E4).
  cbn [asked] in G1, G2.
  pose proof (levels2 _ _ _ _ _ _ _ _ _ _ _ _ _ _ _ _ L1 L2 L3 L4 G1 G2) as HU.
  unfold sent_len. rewrite H6.
  destruct HU as [-> | [(-> & HD & -> & -> & -> & ->) | (-> & -> & -> & -> & -> & ->)]]; cbn [Z.eqb Pos.eqb].
  - intros []; cbn [asked]; [exists v1|exists v2|exists v3|exists v4]; (split; [|assumption]);
      cbv [Z.to_nat Pos.to_nat Pos.iter_op Nat.add rate_at lib_offsets oct firstn nth_error]; assumption.
  - destruct (Z.eqb_spec (Z.max n1 n3) 2); [lia|].
    intros []; cbn [asked]; [exists v1|exists v2|exists v3|exists v4]; (split; [|assumption]);
      cbv [Z.to_nat Pos.to_nat Pos.iter_op Nat.add rate_at lib_offsets oct firstn nth_error]; rewrite <- rate_no_ext2; assumption.
  - intros []; cbn [asked]; [exists v1|exists v2|exists v3|exists v4]; (split; [|assumption]);
      destruct (q_14 d); cbv [Z.to_nat Pos.to_nat Pos.iter_op Nat.add rate_at lib_offsets oct firstn nth_error]; erewrite <- rate_no_ext; eassumption.
Qed.

(** The transfer delay, from 10 ms on (less is sent as 10 ms). *)
Theorem C58_delay : forall d, length (q_prof d) = 20%nat -> q_6_13 d = true ->
  10 <= q_delay d ->
  exists v, delay_at (build d) = Some v /\ best_delay (q_delay d) v.
Proof.
  intros d Hl H6 Hd.
  destruct (list20 _ Hl) as (a0&a1&a2&a3&a4&a5&a6&a7&a8&a9&b0&b1&b2&b3&b4&b5&b6&b7&b8&b9&Hp).
  destruct (enc_mbr_kbps (q_mbr_dl d)) as [n1 [[x1 y1] z1]] eqn:E1.
  destruct (enc_mbr_kbps (q_mbr_ul d)) as [n2 [[x2 y2] z2]] eqn:E2.
  destruct (enc_mbr_kbps (q_gbr_dl d)) as [n3 [[x3 y3] z3]] eqn:E3.
  destruct (enc_mbr_kbps (q_gbr_ul d)) as [n4 [[x4 y4] z4]] eqn:E4.
  rewrite (build_shape d _ _ _ _ _ _ _ _ _ _ _ _ _ _ _ _ _ _ _ _ _ _ _ _ _ _ _ _ _ _ _ _ _ _ _ _ Hp E1 E2 E3 E4).
  destruct (enc_delay (q_delay d) Hd) as (v & He & Hm & Hb & _).
  exists v. split; [|exact Hb].
  assert (Hlen : (11 <= Z.to_nat (sent_len (Z.max n2 n4) (Z.max n1 n3) (q_14 d) (q_6_13 d)))%nat).
  { unfold sent_len. rewrite H6. repeat match goal with |- context [if ?c then _ else _] => destruct c end; lia. }
  unfold delay_at, oct. change (Z.to_nat 8) with 8%nat.
  rewrite nth_error_firstn_lt by lia. cbn [nth_error]. rewrite H6.
  change 0x3f with 63. rewrite land_63, (Z.mod_small _ 64) by exact He. rewrite land_3.
  match goal with |- delay_means (?a / 4) = _ => replace (a / 4) with (enc_transfer_delay_ms (q_delay d)) end; [exact Hm|].
  destruct (Z.eqb_spec (a8 mod 4) 0); lia.
Qed.

(** The octets that are not computed are those of the profile. *)
Theorem C58_kept : forall d o, length (q_prof d) = 20%nat -> In o [0; 1; 2; 3; 4; 7; 11] ->
  o < zlen (build d) -> oct (build d) o = oct (q_prof d) o.
Proof.
  intros d o Hl Ho Hlen.
  destruct (list20 _ Hl) as (a0&a1&a2&a3&a4&a5&a6&a7&a8&a9&b0&b1&b2&b3&b4&b5&b6&b7&b8&b9&Hp).
  destruct (enc_mbr_kbps (q_mbr_dl d)) as [n1 [[x1 y1] z1]] eqn:E1.
  destruct (enc_mbr_kbps (q_mbr_ul d)) as [n2 [[x2 y2] z2]] eqn:E2.
  destruct (enc_mbr_kbps (q_gbr_dl d)) as [n3 [[x3 y3] z3]] eqn:E3.
  destruct (enc_mbr_kbps (q_gbr_ul d)) as [n4 [[x4 y4] z4]] eqn:E4.
  rewrite (build_shape d _ _ _ _ _ _ _ _ _ _ _ _ _ _ _ _ _ _ _ _ _ _ _ _ _ _ _ _ _ _ _ _ _ _ _ _ Hp E1 E2 E3 E4) in *.
  unfold oct. rewrite nth_error_firstn_lt.
  - rewrite Hp. cbn [In] in Ho. destruct Ho as [<-|[<-|[<-|[<-|[<-|[<-|[<-|[]]]]]]]]; reflexivity.
  - unfold zlen in Hlen. rewrite firstn_length in Hlen. assert (0 <= o) by (cbn [In] in Ho; lia). lia.
Qed.

(** *** Refutations *)
Definition prof0 : list Z := repeat 0 20.
Definition dec0 (mdl mul gdl gul delay : Z) : decoded := mkDecoded prof0 true true false false false false delay mdl mul gdl gul.

Lemma not_best r v w : best_rate r v -> v <> w -> (exists b x y, byte b /\ byte x /\ byte y /\ rate_means b (Some x) (Some y) = Some w /\ v < w <= r) -> False.
Proof. intros (_ & _ & H) _ (b & x & y & Hb & Hx & Hy & Hm & Hlt). specialize (H b x y w Hb Hx Hy Hm). lia. Qed.

(** 10 Mbit/s down and 1 Mbit/s up: 14 octets are sent, the octet holding the downlink's extension is
    after them, and the peer understands 8640 kbit/s.  10 Mbit/s up and down: sent in full.  10 Mbit/s up
    and 12 Mbit/s down: a reader of TS 24.008 has uplink and downlink exchanged. *)
Theorem C58_order_refuted :
  zlen (build (dec0 10000 1000 0 0 100)) = 14 /\
  rate_at ts_offsets MaxDl (build (dec0 10000 1000 0 0 100)) = Some 8640 /\
  ~ best_rate 10000 8640 /\
  rate_at ts_offsets MaxDl (build (dec0 12000 10000 0 0 100)) = Some 10000 /\
  rate_at ts_offsets MaxUl (build (dec0 12000 10000 0 0 100)) = Some 12000.
Proof.
  repeat split; try reflexivity.
  intros H. apply (not_best _ _ 10000 H); [lia|]. exists 254, 14, 0. unfold byte. repeat split; try lia.
Qed.

(** Rates in the gaps are not rounded down: 16.5 Mbit/s is sent as 21 Mbit/s, 129 as 130, 506 as 510, and
    800 Mbit/s as 640 Mbit/s, whichever order the extended octets have; 259 Mbit/s has no meaning at all. *)
Theorem C58_gaps_refuted :
  rate_at lib_offsets MaxUl (build (dec0 0 16500 0 0 100)) = Some 21000 /\
  rate_at lib_offsets MaxUl (build (dec0 0 129000 0 0 100)) = Some 130000 /\
  rate_at lib_offsets MaxUl (build (dec0 0 259000 0 0 100)) = None /\
  rate_at lib_offsets MaxUl (build (dec0 0 506000 0 0 100)) = Some 510000 /\
  rate_at lib_offsets MaxUl (build (dec0 0 800000 0 0 100)) = Some 640000.
Proof. repeat split. Qed.

Example C58_nonvacuous :
  let d := dec0 8000 512 100 0 300 in
  length (q_prof d) = 20%nat /\ (forall w, 0 <= asked d w < 8700) /\
  rate_at ts_offsets MaxDl (build d) = Some 8000 /\ rate_at ts_offsets GuarDl (build d) = Some 96 /\ rate_at ts_offsets GuarUl (build d) = Some 0 /\
  delay_at (build d) = Some 300 /\
  let d := dec0 150000 300000 9000 0 300 in
  (forall w, 0 <= asked d w /\ ~ gap (asked d w)) /\ zlen (build d) = 20 /\
  rate_at lib_offsets MaxDl (build d) = Some 150000 /\ rate_at lib_offsets MaxUl (build d) = Some 300000.
Proof.
  cbv zeta. repeat split; try reflexivity; try (destruct w; cbn; lia).
  intros H; destruct w; unfold gap in H; cbn in H; lia.
Qed.

(** ** C59: what is read *)

(** Lengths other than those of the specification's variants are refused. *)
Theorem C59_lengths : forall data, ~ In (zlen data) [3; 11; 12; 14; 16; 18; 20] -> exists e, parse data = Err e.
Proof.
  intros data H. unfold parse. cbn [In] in H.
  match goal with |- exists e, (if ?c then _ else _) = _ => replace c with true by lia end. eexists. reflexivity.
Qed.

(** Every profile of 14 or 18 octets is read past its end: the downlink's extended octets are looked up in
    the places of the uplink's, two octets further. *)
Theorem C59_overread_refuted : forall data, zlen data = 14 \/ zlen data = 18 -> parse data = UB.
Proof.
  intros data H. unfold parse, rate, rd_if.
  destruct H as [H|H]; rewrite H; cbn [Z.eqb Pos.eqb orb negb];
    rewrite (rd_ok data O_DELAY), (rd_ok data O_MBR_DL) by (rewrite H; cbv; split; congruence); cbn [bind];
    unfold rd; rewrite H; reflexivity.
Qed.

(** The other lengths are read inside the buffer; the rates are those of the table, in this library's
    order of the extended octets, except for 576 to 8576 kbit/s and for 0 kbit/s; the subscribed rate
    (octet 0) is reported as 0; the delay is right from 200 ms on. *)
Theorem C59_reading_partial : forall data, bytes data -> In (zlen data) [11; 12; 16; 20] ->
  exists d, parse data = Ok d /\ firstn (length data) (q_prof d) = data /\
  (forall w v b, oct data (fst (fst (lib_offsets w))) = Some b -> ~ (128 <= b <= 253) -> b <> 255 ->
     rate_at lib_offsets w data = Some v -> asked d w = v) /\
  (forall w, oct data (fst (fst (lib_offsets w))) = Some 0 -> asked d w = 0) /\
  (forall v, delay_at data = Some v -> 200 <= v -> q_delay d = v).
Proof.
  intros data Hb Hl.
  assert (HR : forall b x y v, byte b -> ~ (128 <= b <= 253) -> b <> 255 -> rate_means b x y = Some v -> dec_mbr_kbps b x y = v).
  { clear. intros b x y v Hb H1 H2. unfold rate_means, dec_mbr_kbps, byte in *.
    destruct (Z.eqb_spec b 0); [discriminate|].
    change 0xff with 255. change 0xfe with 254. change 0x80 with 128. change 0x40 with 64. bits2arith.
    destruct (Z.eqb_spec b 255); [lia|].
    destruct (Z.leb_spec b 63).
    { destruct (Z.eqb_spec b 254); [lia|].
      destruct (Z.eqb_spec (b / 128 mod 2 * 128) 0); [|lia]. destruct (Z.eqb_spec (b / 64 mod 2 * 64) 0); [|lia]. cbn [negb].
      intros E; apply some_inj in E; lia. }
    destruct (Z.leb_spec b 127).
    { destruct (Z.eqb_spec b 254); [lia|].
      destruct (Z.eqb_spec (b / 128 mod 2 * 128) 0); [|lia]. destruct (Z.eqb_spec (b / 64 mod 2 * 64) 0); [lia|]. cbn [negb].
      intros E; apply some_inj in E; lia. }
    destruct (Z.leb_spec b 253); [lia|]. destruct (Z.eqb_spec b 254); [|lia].
    destruct x as [x|]; [|cbn [Z.eqb]; intros E; apply some_inj in E; lia].
    change 0xfa with 250. change 0xbb with 187. change 0xba with 186. change 0x4b with 75.
    destruct (Z.eqb_spec x 0); [intros E; apply some_inj in E; lia|].
    destruct (Z.leb_spec x 74).
    { destruct (Z.eqb_spec x 250); [lia|].
      destruct (Z.leb_spec 187 x); [lia|]. destruct (Z.leb_spec 75 x); [lia|]. cbn [andb].
      intros E; apply some_inj in E; lia. }
    destruct (Z.leb_spec x 186).
    { destruct (Z.eqb_spec x 250); [lia|].
      destruct (Z.leb_spec 187 x); [lia|]. destruct (Z.leb_spec 75 x); [|lia]. cbn [andb].
      intros E; apply some_inj in E; lia. }
    destruct (Z.leb_spec x 249).
    { destruct (Z.eqb_spec x 250); [lia|].
      destruct (Z.leb_spec 187 x); [|lia]. destruct (Z.leb_spec x 250); [|lia]. cbn [andb].
      intros E; apply some_inj in E; lia. }
    destruct (Z.eqb_spec x 250); [|discriminate].
    change 0xf6 with 246. change 0xa2 with 162. change 0xa1 with 161. change 0x3e with 62.
    destruct y as [y|]; [|cbn [Z.eqb]; intros E; apply some_inj in E; lia].
    destruct (Z.eqb_spec y 0); [intros E; apply some_inj in E; lia|].
    destruct (Z.eqb_spec y 246); [subst y; cbn [Z.leb Z.compare Pos.compare Pos.compare_cont]; intros E; apply some_inj in E; lia|].
    destruct (Z.leb_spec y 61).
    { destruct (Z.leb_spec 162 y); [lia|]. destruct (Z.leb_spec 62 y); [lia|]. cbn [andb]. intros E; apply some_inj in E; lia. }
    destruct (Z.leb_spec y 161).
    { destruct (Z.leb_spec 162 y); [lia|]. destruct (Z.leb_spec 62 y); [|lia]. cbn [andb]. intros E; apply some_inj in E; lia. }
    destruct (Z.leb_spec y 246); [|discriminate].
    destruct (Z.leb_spec 162 y); [|lia]. cbn [andb]. intros E; apply some_inj in E; lia. }
  assert (HD : forall b v, byte b -> delay_means (b / 4) = Some v -> 200 <= v -> dec_transfer_delay_ms (Z.shiftr b 2) = v).
  { clear. intros b v Hb. unfold dec_transfer_delay_ms, delay_means, byte in *. change 0x3f with 63. change 0x0f with 15. change 0x1f with 31. bits2arith.
    replace ((b / 4) mod 64) with (b / 4) by lia.
    destruct ((b / 4 =? 0) || (b / 4 =? 63)); [discriminate|].
    destruct (Z.leb_spec (b / 4) 15); [intros E; apply some_inj in E; lia|].
    destruct (Z.leb_spec (b / 4) 31); intros E; apply some_inj in E; lia. }
  assert (Hnb : forall i b, nth_error data i = Some b -> byte b).
  { intros i b Hi. unfold bytes in Hb. rewrite Forall_forall in Hb. exact (Hb b (nth_error_In _ _ Hi)). }
  assert (Hrd : forall o, 0 <= o < zlen data -> exists b, rd data o = Ok b /\ oct data o = Some b /\ byte b).
  { intros o Ho. destruct (nth_error data (Z.to_nat o)) as [b|] eqn:E.
    - exists b. unfold oct. rewrite (rd_ok data o Ho). rewrite (nth_error_nth _ _ 0 E). eauto.
    - apply nth_error_None in E. unfold zlen in Ho. lia. }
  assert (Hrn : forall o, zlen data <= o -> oct data o = None).
  { intros o Ho. unfold oct. apply nth_error_None. unfold zlen in Ho. lia. }
  assert (HP : forall n, firstn (length data) (data ++ repeat 0 n) = data) by (intros n; apply firstn_app_exact; reflexivity).
  assert (HK : forall x1 x2 o o1 o2, 0 <= o < zlen data ->
    (if x1 : bool then 0 <= o1 < zlen data else zlen data <= o1) -> (if x2 : bool then 0 <= o2 < zlen data else zlen data <= o2) ->
    exists b, rate data x1 x2 o o1 o2 = Ok (dec_mbr_kbps b (oct data o1) (oct data o2)) /\ oct data o = Some b /\ byte b).
  { intros x1 x2 o o1 o2 Ho H1 H2. unfold rate, rd_if. destruct (Hrd o Ho) as (b & -> & Hob & Hbb). cbn [bind].
    exists b. split; [|auto].
    destruct x1.
    - destruct (Hrd o1 H1) as (b1 & -> & -> & _). cbn [bind]. destruct x2.
      + destruct (Hrd o2 H2) as (b2 & -> & -> & _). reflexivity.
      + rewrite (Hrn o2 H2). reflexivity.
    - rewrite (Hrn o1 H1). cbn [bind]. destruct x2.
      + destruct (Hrd o2 H2) as (b2 & -> & -> & _). reflexivity.
      + rewrite (Hrn o2 H2). reflexivity. }
  unfold parse.
  assert (Hgo : forall dl1 ul1 dl2 ul2 o14,
    (if dl1 : bool then 16 <= zlen data else zlen data <= 14) -> (if ul1 : bool then 14 <= zlen data else zlen data <= 12) ->
    (if dl2 : bool then 20 <= zlen data else zlen data <= 18) -> (if ul2 : bool then 18 <= zlen data else zlen data <= 16) -> 11 <= zlen data ->
    exists d,
      (do d <- rd data O_DELAY;
      do mdl <- rate data dl1 dl2 O_MBR_DL O_X1_MBR_DL O_X2_MBR_DL;
      do mul <- rate data ul1 ul2 O_MBR_UL O_X1_MBR_UL O_X2_MBR_UL;
      do gdl <- rate data dl1 dl2 O_GBR_DL O_X1_GBR_DL O_X2_GBR_DL;
      do gul <- rate data ul1 ul2 O_GBR_UL O_X1_GBR_UL O_X2_GBR_UL;
      Ok (mkDecoded (data ++ repeat 0 (Z.to_nat (SZ_PROFILE - zlen data))) true o14 dl1 ul1 dl2 ul2 (dec_transfer_delay_ms (Z.shiftr d 2)) mdl mul gdl gul)) = Ok d /\
      firstn (length data) (q_prof d) = data /\
      (forall w v b, oct data (fst (fst (lib_offsets w))) = Some b -> ~ (128 <= b <= 253) -> b <> 255 ->
         rate_at lib_offsets w data = Some v -> asked d w = v) /\
      (forall w, oct data (fst (fst (lib_offsets w))) = Some 0 -> asked d w = 0) /\
      (forall v, delay_at data = Some v -> 200 <= v -> q_delay d = v)).
  { intros dl1 ul1 dl2 ul2 o14 A1 A2 A3 A4 A5.
    unfold O_DELAY, O_MBR_DL, O_X1_MBR_DL, O_X2_MBR_DL, O_MBR_UL, O_X1_MBR_UL, O_X2_MBR_UL, O_GBR_DL, O_X1_GBR_DL, O_X2_GBR_DL, O_GBR_UL, O_X1_GBR_UL, O_X2_GBR_UL.
    destruct (Hrd 8) as (b8 & -> & Hd8 & Hb8); [lia|]. cbn [bind].
    destruct (HK dl1 dl2 6 14 18) as (b6 & -> & Hd6 & Hb6); [lia|destruct dl1; lia|destruct dl2; lia|]. cbn [bind].
    destruct (HK ul1 ul2 5 12 16) as (b5 & -> & Hd5 & Hb5); [lia|destruct ul1; lia|destruct ul2; lia|]. cbn [bind].
    destruct (HK dl1 dl2 10 15 19) as (b10 & -> & Hd10 & Hb10); [lia|destruct dl1; lia|destruct dl2; lia|]. cbn [bind].
    destruct (HK ul1 ul2 9 13 17) as (b9 & -> & Hd9 & Hb9); [lia|destruct ul1; lia|destruct ul2; lia|]. cbn [bind].
    eexists. split; [reflexivity|]. cbn [q_prof q_delay]. split; [apply HP|]. split; [|split].
    - intros w v b Hob Hn1 Hn2 Hra. destruct w; cbn [lib_offsets fst] in Hob; cbn [asked q_mbr_dl q_mbr_ul q_gbr_dl q_gbr_ul];
        unfold rate_at, lib_offsets in Hra; rewrite Hob in Hra.
      + rewrite Hd6 in Hob. apply some_inj in Hob as ->. apply HR; assumption.
      + rewrite Hd5 in Hob. apply some_inj in Hob as ->. apply HR; assumption.
      + rewrite Hd10 in Hob. apply some_inj in Hob as ->. apply HR; assumption.
      + rewrite Hd9 in Hob. apply some_inj in Hob as ->. apply HR; assumption.
    - intros w Hob. destruct w; cbn [lib_offsets fst] in Hob; cbn [asked q_mbr_dl q_mbr_ul q_gbr_dl q_gbr_ul].
      + rewrite Hd6 in Hob. apply some_inj in Hob. rewrite <- Hob. reflexivity.
      + rewrite Hd5 in Hob. apply some_inj in Hob. rewrite <- Hob. reflexivity.
      + rewrite Hd10 in Hob. apply some_inj in Hob. rewrite <- Hob. reflexivity.
      + rewrite Hd9 in Hob. apply some_inj in Hob. rewrite <- Hob. reflexivity.
    - intros v Hv H2. unfold delay_at in Hv. rewrite Hd8 in Hv. apply HD; assumption. }
  cbn [In] in Hl.
  destruct Hl as [Hl|[Hl|[Hl|[Hl|[]]]]]; rewrite <- Hl; cbn [Z.eqb Pos.eqb orb negb]; rewrite Hl; apply Hgo; rewrite <- Hl; lia.
Qed.

(** 576 kbit/s is read as 8768, 0 kbit/s as 4294967295, a delay of 100 ms as 10 ms. *)
Theorem C59_values_refuted :
  let octets b d := [0; 0; 0; 0; 0; b; b; 0; d * 4 + 1; b; b] in
  (rate_at ts_offsets MaxUl (octets 128 10) = Some 576 /\ exists d, parse (octets 128 10) = Ok d /\ q_mbr_ul d = 8768) /\
  (rate_at ts_offsets MaxUl (octets 255 10) = Some 0 /\ exists d, parse (octets 255 10) = Ok d /\ q_mbr_ul d = 4294967295) /\
  (delay_at (octets 128 10) = Some 100 /\ exists d, parse (octets 128 10) = Ok d /\ q_delay d = 10).
Proof. cbv zeta. repeat split; try reflexivity; eexists; split; reflexivity. Qed.

(** A profile with neither octets 6 to 13 nor extended rates is written as five octets, which the reader
    refuses. *)
Theorem C59_roundtrip_refuted : forall p, length p = 20%nat ->
  let d := mkDecoded p false false false false false false 0 0 0 0 0 in
  length (build d) = 5%nat /\ exists e, parse (build d) = Err e.
Proof.
  intros p Hl. destruct (list20 _ Hl) as (a0&a1&a2&a3&a4&a5&a6&a7&a8&a9&b0&b1&b2&b3&b4&b5&b6&b7&b8&b9&->).
  split; [reflexivity|]. eexists. reflexivity.
Qed.

Example C59_nonvacuous :
  let data := [0x0b; 0x92; 0x1f; 0x72; 0x97; 0x74; 0x7f; 0x74; 0x42; 0x00; 0x40; 0x00] in
  bytes data /\ In (zlen data) [11; 12; 16; 20] /\ rate_at lib_offsets MaxDl data = Some 568 /\ rate_at lib_offsets MaxUl data = Some 480 /\
  delay_at data = Some 200 /\ exists d, parse data = Ok d /\ q_mbr_dl d = 568 /\ q_delay d = 200.
Proof.
  cbv zeta. split; [apply bytesb_ok; reflexivity|]. split; [cbn; auto|]. repeat split. eexists. repeat split.
Qed.

Print Assumptions C58_rates_partial.
Print Assumptions C58_extended_partial.
Print Assumptions C58_delay.
Print Assumptions C58_kept.
Print Assumptions C58_order_refuted.
Print Assumptions C58_gaps_refuted.
Print Assumptions C59_lengths.
Print Assumptions C59_overread_refuted.
Print Assumptions C59_reading_partial.
Print Assumptions C59_values_refuted.
Print Assumptions C59_roundtrip_refuted.
