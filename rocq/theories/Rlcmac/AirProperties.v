(** The octets of RLC data blocks on the air. *)
From Verif.Lib Require Import Base Outcome.
From Verif.Rlcmac Require Import CsModel AirModel AirSpec AirProofs AirProofs2.
From Verif.Rlcmac Require RlcDataModel RlcDataSpec CsProperties PdchModel CountdownModel.
From Verif.Csn1 Require Csn1DlModel.

(** *** C111: what is sent for an uplink block of CS-1 to CS-4 is the block TS 44.060 has for it, and the block stays as it is in the store. *)
Theorem C111_uplink_block : forall s tfi bsn,
  1 <= a_cur (s bsn) <= 4 -> 1 <= a_init (s bsn) <= 4 -> data_octets (a_cur (s bsn)) <= zlen (a_buf (s bsn)) ->
  0 <= tfi < 32 -> 0 <= bsn < 128 -> 0 <= a_cv (s bsn) -> 0 <= a_ti (s bsn) <= 1 -> 0 <= a_e (s bsn) <= 1 ->
  exists s' m, acked_block s tfi bsn None = Ok (s', m, [], None, a_cv (s bsn) =? 0) /\
    zlen m = msg_octets (a_cur (s bsn)) /\
    u_pt m = 0 /\ u_cv m = a_cv (s bsn) mod 16 /\ u_si m = 0 /\ u_r m = 0 /\ u_spare m = 0 /\ u_pi m = 0 /\
    u_tfi m = tfi /\ u_ti m = a_ti (s bsn) /\ u_bsn m = bsn /\ u_e m = a_e (s bsn) /\
    u_data m = firstn (Z.to_nat (data_octets (a_cur (s bsn)))) (a_buf (s bsn)) /\
    Forall (fun o => o = 0) (skipn (3 + Z.to_nat (data_octets (a_cur (s bsn)))) m) /\
    (forall j, a_buf (s' j) = a_buf (s j) /\ a_ti (s' j) = a_ti (s j) /\ a_e (s' j) = a_e (s j) /\ a_cv (s' j) = a_cv (s j) /\
               a_cur (s' j) = a_cur (s j) /\ a_init (s' j) = a_init (s j)).
Proof.
  intros s tfi bsn Hc Hi Hb Ht Hn Hv H1 H2.
  assert (is_gprs (a_cur (s bsn)) = true) as Gc by (unfold is_gprs; lia). assert (is_gprs (a_init (s bsn)) = true) as Gi by (unfold is_gprs; lia).
  eexists. eexists. split; [apply acked_ok; assumption|]. set (cs := a_cur (s bsn)) in *. set (b := s bsn) in *. set (h := mkulh 0 0 (a_cv b) (a_ti b) tfi (a_e b) bsn).
  unfold ul_message. set (d := firstn (Z.to_nat (data_octets cs)) (a_buf b)). set (t := repeat 0 (Z.to_nat (msg_octets cs - 3 - data_octets cs))).
  assert (20 <= data_octets cs /\ 3 + data_octets cs <= msg_octets cs) as [P Q] by (destruct (gprs_cases _ Gc) as [D|[D|[D|D]]]; rewrite D; cbv; split; discriminate).
  assert (length d = Z.to_nat (data_octets cs)) as Ld by (apply firstn_length_le; unfold zlen in *; lia).
  assert (zlen (ul_octets h ++ d ++ t) = msg_octets cs) as Zm by (unfold zlen; rewrite !app_length, Ld; subst t; rewrite repeat_length; cbn [ul_octets length]; lia).
  destruct (ul_head h d t) as (E1 & E2 & E3 & E4 & E5 & E6 & E7 & E8 & E9 & E10); subst h; cbn [uh_cv uh_tfi uh_bsn uh_ti uh_e uh_r uh_si]; try lia.
  cbn [uh_cv uh_tfi uh_bsn uh_ti uh_e uh_r uh_si] in *.
  split; [exact Zm|]. split; [exact E1|]. split; [exact E2|]. split; [exact E3|]. split; [exact E4|]. split; [exact E5|]. split; [exact E6|]. split; [exact E7|].
  split; [exact E8|]. split; [exact E9|]. split; [exact E10|]. split; [|split].
  - unfold u_data. rewrite Zm. set (n := if msg_octets cs =? 23 then _ else _). assert (n = length d) as -> by (rewrite Ld; subst n; destruct (gprs_cases _ Gc) as [D|[D|[D|D]]]; rewrite D; reflexivity).
    rewrite (skipn_app_exact (ul_octets _)) by reflexivity. apply firstn_app_exact. reflexivity.
  - rewrite app_assoc, skipn_app_exact by (rewrite app_length, Ld; reflexivity). subst t. apply Forall_forall. intros o Ho. apply repeat_spec in Ho. exact Ho.
  - intros j. unfold sset. destruct (j =? bsn) eqn:E; [|auto 10]. apply Z.eqb_eq in E as ->. subst b cs. cbn [a_buf a_ti a_e a_cv a_cur a_init]. auto 10.
Qed.
Print Assumptions C111_uplink_block.

(** Whatever is sent in between, a block is sent with the same octets again (blocks [n] of which are in the store). *)
Theorem C111_again : forall s tfi n l,
  Forall (fun j => 0 <= j < 128 /\ 1 <= a_cur (s j) <= 4 /\ 1 <= a_init (s j) <= 4 /\ data_octets (a_cur (s j)) <= zlen (a_buf (s j))) (n :: l) ->
  exists s' m ms, send_all s tfi (n :: l ++ [n]) = Ok (s', m :: ms ++ [m]) /\ length ms = length l.
Proof.
  intros s tfi n l H.
  pose (ok := fun (s : store) j => 0 <= j < 128 /\ 1 <= a_cur (s j) <= 4 /\ 1 <= a_init (s j) <= 4 /\ data_octets (a_cur (s j)) <= zlen (a_buf (s j))).
  pose (same := fun (s s' : store) => forall j, a_buf (s' j) = a_buf (s j) /\ a_ti (s' j) = a_ti (s j) /\ a_e (s' j) = a_e (s j) /\ a_cv (s' j) = a_cv (s j) /\
               a_cur (s' j) = a_cur (s j) /\ a_init (s' j) = a_init (s j)).
  pose (octs := fun (s : store) j => ul_message (a_cur (s j)) (mkulh 0 0 (a_cv (s j)) (a_ti (s j)) tfi (a_e (s j)) j) (a_buf (s j))).
  assert (forall s j, ok s j -> exists s', acked_block s tfi j None = Ok (s', octs s j, [], None, a_cv (s j) =? 0) /\ same s s') as One.
  { intros s0 j (Hj & Hc & Hi & Hb). eexists. split; [apply acked_ok; [unfold is_gprs; lia|unfold is_gprs; lia|exact Hb]|].
    intros i. unfold sset. destruct (i =? j) eqn:E; [|auto 10]. apply Z.eqb_eq in E as ->. cbn [a_buf a_ti a_e a_cv a_cur a_init]. auto 10. }
  assert (forall s s' j, same s s' -> ok s j -> ok s' j) as Keep. { intros s0 s' j S0 (Hj & Hc & Hi & Hb). destruct (S0 j) as (A & _ & _ & _ & C & D). unfold ok. rewrite A, C, D. auto. }
  assert (forall s s' j, same s s' -> octs s' j = octs s j) as Oct. { intros s0 s' j S0. destruct (S0 j) as (A & B & C & D & E & _). unfold octs. rewrite A, B, C, D, E. reflexivity. }
  assert (forall s1 s2 s3, same s1 s2 -> same s2 s3 -> same s1 s3) as Tr.
  { intros s1 s2 s3 A B j. destruct (A j) as (A1 & A2 & A3 & A4 & A5 & A6), (B j) as (B1 & B2 & B3 & B4 & B5 & B6). rewrite B1, B2, B3, B4, B5, B6. auto 10. }
  assert (forall r s0, Forall (ok s0) r -> exists s', send_all s0 tfi r = Ok (s', map (octs s0) r) /\ same s0 s') as All.
  { induction r as [|j r IH]; intros s0 Hr; [exists s0; split; [reflexivity|intros i; auto 10]|]. inversion Hr as [|x y Hx Hy]; subst x y.
    destruct (One s0 j Hx) as (s1 & E1 & S1). destruct (IH s1) as (s2 & E2 & S2). { eapply Forall_impl; [|exact Hy]. intros i Hi. eapply Keep; eassumption. }
    exists s2. split; [|eapply Tr; eassumption]. cbn [send_all]. rewrite E1. cbn [bind]. rewrite E2. cbn [bind fst snd map]. do 3 f_equal. apply map_ext. intros i. apply Oct, S1. }
  destruct (All (n :: l ++ [n]) s) as (s' & E & _).
  { inversion H; subst. constructor; [assumption|]. apply Forall_app. split; [assumption|constructor; [assumption|constructor]]. }
  exists s', (octs s n), (map (octs s) l). split; [|apply map_length]. rewrite E. cbn [map]. rewrite map_app. reflexivity.
Qed.
Print Assumptions C111_again.

(** The network hears the blocks that are in the store. *)
Theorem C111_network_hears : forall tfi blks ms, 0 <= tfi < 32 -> Forall2 (sent_as tfi) blks ms -> map heard ms = blks.
Proof.
  intros tfi blks ms Ht H. induction H as [|u m us ms (s & bsn & s' & k & c & f & Hn & (Hc & Hi & Hz & (rest & Hb) & Hti & He & Hcv & Hf) & E) _ IH]; [reflexivity|]. cbn [map]. rewrite IH. f_equal.
  pose proof (zlen_nonneg rest).
  assert (0 <= (if RlcDataSpec.u_ti u then 1 else 0) <= 1) as R1 by (destruct (RlcDataSpec.u_ti u); lia). assert (0 <= (if RlcDataSpec.u_e u then 1 else 0) <= 1) as R2 by (destruct (RlcDataSpec.u_e u); lia).
  destruct (C111_uplink_block s tfi bsn Hc Hi) as (s2 & m2 & E2 & P1 & P2 & P3 & P4 & P5 & P6 & P7 & P8 & P9 & P10 & P11 & P12 & P13 & _); try lia; [rewrite Hb, zlen_app; lia|].
  rewrite E in E2. injection E2 as <- <- _ _ _. unfold heard. rewrite P3, P9, P11, P12, Hti, He, Hb.
  rewrite firstn_app_exact by (unfold zlen in Hz; lia). destruct u as [ti fi e oct]. cbn [RlcDataSpec.u_ti RlcDataSpec.u_final RlcDataSpec.u_e RlcDataSpec.u_oct] in *. f_equal.
  - destruct ti; reflexivity.
  - rewrite Hf. destruct Hcv as [Hcv|Hcv]; [rewrite Z.mod_small by lia; reflexivity|rewrite Hcv; reflexivity].
  - destruct e; reflexivity.
Qed.
Print Assumptions C111_network_hears.

(** A transfer of one frame of 30 octets with CS-1: the first block, BSN 5, with a countdown value of 1 and, some time later, again. *)
Definition frame30 : list Z := map Z.of_nat (seq 100 30).
Definition built : list (Z * Z * list Z) := match CountdownModel.run (CountdownModel.start 20 false 1 15 0) [CountdownModel.Queue [frame30]; CountdownModel.Block; CountdownModel.Block] with Ok (_, o) => o | _ => [] end.
Definition stored (j : Z) : ablk :=
  match nth (Z.to_nat (j - 5)) built (0, 0, []) with (cv, e, o) => mkablk (o ++ repeat 0 54) 0 e cv 1 1 1 0 0 end.
Example C111_case : send_all stored 9 [5; 6; 5] = Ok (fst (match send_all stored 9 [5; 6; 5] with Ok x => x | _ => (stored, []) end),
  [[4; 18; 11] ++ firstn 20 frame30; [0; 18; 12; 41] ++ skipn 20 frame30 ++ repeat 43 9; [4; 18; 11] ++ firstn 20 frame30]).
Proof. vm_compute. reflexivity. Qed.

(** *** C112: downlink.  A block put together by the network is taken for an RLC data block, and found in it is what the network has put in. *)
Theorem C112_downlink_block : forall rfn past sys who tn fn cs tfi bsn f b,
  1 <= cs <= 4 -> 0 <= tfi < 32 -> 0 <= bsn < 128 -> df_ok f -> zlen (RlcDataSpec.n_octets b) = data_octets cs -> fn mod 104 <> 12 ->
  PdchModel.pdch_data_ind rfn past sys who tn fn (dl_message cs tfi bsn f b) = PdchModel.PData cs /\
  exists h, dl_data cs (dl_message cs tfi bsn f b) = Ok (h, RlcDataSpec.n_stored b) /\
    dh_tfi h = tfi /\ dh_bsn h = bsn /\ dh_sp h = f_sp f /\ dh_rrbp h = f_rrbp f /\ dh_usf h = f_usf f /\ dh_pr h = f_pr f.
Proof.
  intros rfn past sys who tn fn cs tfi bsn f b Hc Ht Hn Hf Hz Hfn. assert (is_gprs cs = true) as Gc by (unfold is_gprs; lia). split.
  - unfold PdchModel.pdch_data_ind, PdchModel.dl_block.
    assert (zlen (dl_message cs tfi bsn f b) = msg_octets cs) as Zm by (unfold dl_message; rewrite !zlen_app, Hz; destruct (gprs_cases _ Gc) as [D|[D|[D|D]]]; rewrite D; reflexivity).
    rewrite Zm. replace (msg_octets cs =? 0) with false by (destruct (gprs_cases _ Gc) as [D|[D|[D|D]]]; rewrite D; reflexivity).
    replace (get_by_size (msg_octets cs)) with cs by (destruct (gprs_cases _ Gc) as [D|[D|[D|D]]]; rewrite D; reflexivity). cbv zeta.
    replace (cs =? 0) with false by lia. replace (fn mod 104 =? 12) with false by lia. rewrite Gc. unfold dl_message. cbn [app nth_error].
    destruct Hf as (F1 & F2 & F3 & F4 & F5). replace ((f_rrbp f * 16 + f_sp f * 8 + f_usf f) / 64 mod 4) with 0 by (Z.to_euclidean_division_equations; lia). reflexivity.
  - eexists. split; [apply dl_head; assumption|]. cbn [dh_tfi dh_bsn dh_sp dh_rrbp dh_usf dh_pr]. auto 10.
Qed.
Print Assumptions C112_downlink_block.

Lemma pbind_not_data {A} (r : res A) f cs : (forall a, f a <> PdchModel.PData cs) -> PdchModel.pbind r f <> PdchModel.PData cs.
Proof. intros H. destruct r; cbn [PdchModel.pbind]; [apply H|discriminate|discriminate]. Qed.
Lemma ctrl_not_data rfn past sys who tn fn blk cs : PdchModel.ctrl_block rfn past sys who tn fn blk <> PdchModel.PData cs.
Proof.
  unfold PdchModel.ctrl_block. destruct (Csn1DlModel.decode_downlink _ _ _ _) as [h [d|c|]]; try discriminate.
  repeat match goal with |- context [if ?b then _ else _] => destruct b end; try discriminate;
    unfold PdchModel.handle_pkt_dl_ass, PdchModel.handle_pkt_ul_ack_nack, PdchModel.handle_pkt_ul_ass;
    repeat first [discriminate | apply pbind_not_data; intros ? | match goal with |- match ?x with _ => _ end <> _ => destruct x end].
Qed.

(** Whatever octets arrive: only blocks of the right size and payload type are taken for RLC data blocks, nothing outside of them is
    read, and all fields are those of TS 44.060. *)
Theorem C112_any_octets : forall rfn past sys who tn fn cs m, bytes m ->
  PdchModel.pdch_data_ind rfn past sys who tn fn m = PdchModel.PData cs ->
  1 <= cs <= 4 /\ zlen m = msg_octets cs /\ field m 0 6 2 = 0 /\ fn mod 104 <> 12 /\
  dl_data cs m = Ok (mkdlh (field m 0 0 3) (field m 0 3 1) (field m 0 4 2) (field m 1 0 1) (field m 1 1 5) (field m 1 6 2) (field m 2 0 1) (field m 2 1 7),
    RlcDataModel.mkrblk (field m 2 0 1 =? 1) (field m 1 0 1 =? 1) false (firstn (Z.to_nat (data_octets cs)) (skipn 3 m))).
Proof.
  intros rfn past sys who tn fn cs m Bm H. unfold PdchModel.pdch_data_ind in H. destruct (zlen m =? 0) eqn:E0; [discriminate H|]. cbv zeta in H.
  destruct (get_by_size (zlen m) =? 0) eqn:E1; [discriminate H|]. destruct (fn mod 104 =? 12) eqn:E2; [discriminate H|].
  destruct (is_gprs (get_by_size (zlen m))) eqn:Gc; [|destruct (is_edge (get_by_size (zlen m))); discriminate H].
  assert (zlen m = msg_octets (get_by_size (zlen m))) as Zm.
  { clear -Gc. revert Gc. generalize (zlen m). intros z Gc. unfold get_by_size in *.
    repeat match goal with |- context [z =? ?k] => destruct (z =? k) eqn:Q; [apply Z.eqb_eq in Q; subst z; first [reflexivity|discriminate Gc]|clear Q] end. discriminate Gc. }
  unfold PdchModel.dl_block in H. destruct m as [|o0 m']; [discriminate E0|]. cbn [nth_error] in H.
  destruct (o0 / 64 mod 4 =? 0) eqn:Ep.
  2:{ exfalso. destruct (o0 / 64 mod 4 =? 3); [discriminate H|]. destruct (length (o0 :: m') <? 23)%nat; [discriminate H|]. exact (ctrl_not_data _ _ _ _ _ _ _ _ H). }
  injection H as <-. set (cs := get_by_size (zlen (o0 :: m'))) in *.
  assert (20 <= data_octets cs /\ 3 + data_octets cs <= msg_octets cs) as [P Q] by (destruct (gprs_cases _ Gc) as [D|[D|[D|D]]]; rewrite D; cbv; split; discriminate).
  split; [unfold is_gprs in Gc; lia|]. split; [exact Zm|]. split; [unfold field; cbn [nth]; change (2 ^ 6) with 64; change (2 ^ 2) with 4; lia|]. split; [lia|].
  unfold dl_data, parse_dl.
  replace (info cs) with (Ok (nth (Z.to_nat cs) mcs_info (mkmcs 0 0 0 0 0 0 0 0))) by (destruct (gprs_cases _ Gc) as [D|[D|[D|D]]]; rewrite D; reflexivity).
  cbn [bind]. replace (data_hdr (nth (Z.to_nat cs) mcs_info (mkmcs 0 0 0 0 0 0 0 0)) =? HT_GPRS) with true by (destruct (gprs_cases _ Gc) as [D|[D|[D|D]]]; rewrite D; reflexivity).
  unfold parse_dl_gprs. rewrite !rd_ok by lia. cbn [bind].
  replace (data_offs_bits cs false false 0) with (@Ok Z 24) by (destruct (gprs_cases _ Gc) as [D|[D|[D|D]]]; rewrite D; reflexivity).
  replace (block_data_len cs false) with (Ok (data_octets cs)) by (destruct (gprs_cases _ Gc) as [D|[D|[D|D]]]; rewrite D; reflexivity).
  cbn [bind]. unfold copy_to. change (Z.land 24 7 =? 0) with true. change (Z.shiftr 24 3) with 3. cbv iota. rewrite rdn_ok by lia. cbn [bind dh_e dh_fbi].
  change (Z.to_nat 0) with 0%nat. change (Z.to_nat 1) with 1%nat. change (Z.to_nat 2) with 2%nat. change (Z.to_nat 3) with 3%nat. unfold field, slice.
  rewrite land_7, !land_1, !land_3, land_31, land_127. rewrite !Z.shiftr_div_pow2 by lia. rewrite !Z.pow_0_r, !Z.div_1_r. reflexivity.
Qed.
Print Assumptions C112_any_octets.

(** A CS-2 block with the end of one frame and the beginning of another; a poll in it. *)
Definition nb30 : RlcDataSpec.nblk := RlcDataSpec.mknblk false [[7; 8; 9; 10; 11]] (RlcDataSpec.TCont (map Z.of_nat (seq 50 24))).
Example C112_case : dl_message 2 17 100 (mkdf 5 1 2 0 43) nb30 = [45; 34; 200; 23; 7; 8; 9; 10; 11] ++ map Z.of_nat (seq 50 24) ++ [43] /\
  dl_data 2 (dl_message 2 17 100 (mkdf 5 1 2 0 43) nb30) = Ok (mkdlh 5 1 2 0 17 0 0 100, RlcDataModel.mkrblk false false false ([23; 7; 8; 9; 10; 11] ++ map Z.of_nat (seq 50 24))).
Proof. vm_compute. auto. Qed.

(** *** C113: data that start anywhere in an octet.  Exactly the bits of the data are replaced, and nothing outside the message is
    touched; copied back they are the same octets. *)
Theorem C113_copy_from : forall offs len dst buffer, 0 <= offs -> 0 <= len -> offs + 8 * len <= 8 * zlen dst -> len <= zlen buffer -> bytes dst -> bytes buffer ->
  exists m, copy_from offs len dst buffer = Ok m /\ bytes m /\ zlen m = zlen dst /\
    bits m = firstn (Z.to_nat offs) (bits dst) ++ bits (firstn (Z.to_nat len) buffer) ++ skipn (Z.to_nat (offs + 8 * len)) (bits dst) /\
    copy_to offs len m = Ok (firstn (Z.to_nat len) buffer).
Proof.
  intros offs len dst buffer H1 H2 H3 H4 H5 H6. destruct (copy_from_ok offs len dst buffer H1 H2 H3 H4 H5 H6) as (m & E & B & Zm & S). exists m.
  split; [exact E|]. split; [exact B|]. split; [exact Zm|]. split; [exact S|]. eapply back_ok; [| | | | | |exact E]; assumption.
Qed.
Print Assumptions C113_copy_from.
Theorem C113_copy_to : forall offs len src, 0 <= offs -> 0 <= len -> offs + 8 * len <= 8 * zlen src -> bytes src ->
  exists d, copy_to offs len src = Ok d /\ bytes d /\ zlen d = len /\ bits d = firstn (Z.to_nat (8 * len)) (skipn (Z.to_nat offs) (bits src)).
Proof. exact copy_to_ok. Qed.
Print Assumptions C113_copy_to.

(** For every coding scheme both data blocks lie inside the message and neither touches the other nor the headers. *)
Theorem C113_blocks : forall cs ul pad n msg d0 d1, is_valid cs = true -> (if ul : bool then size_ul cs else size_dl cs) = Ok n ->
  bytes msg -> zlen msg = n -> bytes d0 -> bytes d1 -> zlen d0 = 74 -> zlen d1 = 74 ->
  exists num len o0, num_data_blocks cs = Ok num /\ block_data_len cs pad = Ok len /\ data_offs_bits cs pad ul 0 = Ok o0 /\
    exists m0, copy_from o0 len msg d0 = Ok m0 /\ copy_to o0 len m0 = Ok (firstn (Z.to_nat len) d0) /\
    (num = 2 -> exists o1 m1, data_offs_bits cs pad ul 1 = Ok o1 /\ copy_from o1 len m0 d1 = Ok m1 /\
      copy_to o0 len m1 = Ok (firstn (Z.to_nat len) d0) /\ copy_to o1 len m1 = Ok (firstn (Z.to_nat len) d1) /\
      forall i, (i < Z.to_nat o0 \/ Z.to_nat (o0 + 8 * len) <= i < Z.to_nat o1 \/ Z.to_nat (o1 + 8 * len) <= i)%nat -> nth_error (bits m1) i = nth_error (bits msg) i).
Proof.
  intros cs ul pad n msg d0 d1 Hv Hn Bm Zm B0 B1 Z0 Z1.
  destruct (CsProperties.C21_layout_exact cs Hv ul pad) as (len & num & o0 & total & _ & En & El & Et & plen & Ep & [Hp1 Hp2] & Eo & Ho & K1 & K2).
  assert (total <= 8 * n /\ len <= 74 /\ (num = 1 \/ num = 2)) as (T1 & T2 & T3).
  { unfold is_valid in Hv. assert (cs = 1 \/ cs = 2 \/ cs = 3 \/ cs = 4 \/ cs = 5 \/ cs = 6 \/ cs = 7 \/ cs = 8 \/ cs = 9 \/ cs = 10 \/ cs = 11 \/ cs = 12 \/ cs = 13) as D by lia.
    repeat (destruct D as [D|D]; [subst cs; destruct ul; vm_compute in Hn, Et, En, El; injection Hn as <-; injection Et as <-; injection En as <-; injection El as <-; lia|]).
    subst cs; destruct ul; vm_compute in Hn, Et, En, El; injection Hn as <-; injection Et as <-; injection En as <-; injection El as <-; lia. }
  exists num, plen, o0. split; [exact En|]. split; [exact Ep|]. split; [exact Eo|]. destruct T3 as [T3|T3].
  - specialize (K1 T3). destruct (C113_copy_from o0 plen msg d0) as (m0 & E & _ & _ & _ & R); try assumption; try lia. exists m0. split; [exact E|]. split; [exact R|]. lia.
  - destruct (K2 T3) as (o1 & E1 & L1 & L2). destruct (two_ok o0 o1 plen msg d0 d1) as (m0 & m1 & F0 & F1 & _ & _ & G0 & G1 & G2); try assumption; try lia.
    exists m0. split; [exact F0|]. split; [eapply back_ok; [| | | | | |exact F0]; try assumption; lia|]. intros _. exists o1, m1. auto.
Qed.
Print Assumptions C113_blocks.

(** The second block of MCS-9 starts at bit 642, the third bit of octet 80. *)
Example C113_case : match copy_from 642 2 (repeat 255 154) [0xa5; 0x01] with
  | Ok m => slice 79 5 m = [255; 0x97; 0x06; 0xfc; 255] /\ copy_to 642 2 m = Ok [0xa5; 0x01] | _ => False end.
Proof. vm_compute. auto. Qed.
