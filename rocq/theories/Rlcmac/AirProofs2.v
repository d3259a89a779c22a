(** Proofs about whole RLC data blocks. *)
From Verif.Lib Require Import Base Outcome.
From Verif.Rlcmac Require Import CsModel AirModel AirSpec AirProofs.
From Verif.Rlcmac Require RlcDataModel RlcDataSpec.

(** What is copied out is determined by the bits it is copied from. *)
Lemma copy_to_is offs len src d : 0 <= offs -> 0 <= len -> offs + 8 * len <= 8 * zlen src -> bytes src -> bytes d ->
  bits d = firstn (Z.to_nat (8 * len)) (skipn (Z.to_nat offs) (bits src)) -> copy_to offs len src = Ok d.
Proof.
  intros Ho Hl Hf Bs Bd H. destruct (copy_to_ok offs len src Ho Hl Hf Bs) as (d' & E & B' & _ & H'). rewrite E. f_equal. apply bits_inj; [assumption|assumption|congruence].
Qed.

Lemma back_ok offs len dst buffer m : 0 <= offs -> 0 <= len -> offs + 8 * len <= 8 * zlen dst -> len <= zlen buffer -> bytes dst -> bytes buffer ->
  copy_from offs len dst buffer = Ok m -> copy_to offs len m = Ok (firstn (Z.to_nat len) buffer).
Proof.
  intros Ho Hl Hf Hb Bd Bb E. destruct (copy_from_ok offs len dst buffer Ho Hl Hf Hb Bd Bb) as (m' & E' & Bm & Zm & H). rewrite E in E'. injection E' as <-.
  apply copy_to_is; [assumption|assumption|lia|assumption|apply Forall_firstn, Bb|]. rewrite H.
  assert (length (bits (firstn (Z.to_nat len) buffer)) = Z.to_nat (8 * len)) as L by (rewrite bits_length, firstn_length_le by (unfold zlen in *; lia); lia).
  rewrite skipn_app_exact by (rewrite firstn_length_le by (rewrite bits_length; unfold zlen in *; lia); reflexivity). rewrite firstn_app_exact by lia. reflexivity.
Qed.

(** Two blocks in one message. *)
Lemma two_ok o0 o1 len msg d0 d1 : 0 <= o0 -> 0 <= len -> o0 + 8 * len <= o1 -> o1 + 8 * len <= 8 * zlen msg -> len <= zlen d0 -> len <= zlen d1 -> bytes msg -> bytes d0 -> bytes d1 ->
  exists m0 m1, copy_from o0 len msg d0 = Ok m0 /\ copy_from o1 len m0 d1 = Ok m1 /\ bytes m1 /\ zlen m1 = zlen msg /\
    copy_to o0 len m1 = Ok (firstn (Z.to_nat len) d0) /\ copy_to o1 len m1 = Ok (firstn (Z.to_nat len) d1) /\
    forall i, (i < Z.to_nat o0 \/ Z.to_nat (o0 + 8 * len) <= i < Z.to_nat o1 \/ Z.to_nat (o1 + 8 * len) <= i)%nat -> nth_error (bits m1) i = nth_error (bits msg) i.
Proof.
  intros H0 Hl H1 H2 L0 L1 Bm B0 B1.
  destruct (copy_from_ok o0 len msg d0 H0 Hl ltac:(lia) L0 Bm B0) as (m0 & E0 & C0 & Z0 & S0).
  destruct (copy_from_ok o1 len m0 d1 ltac:(lia) Hl ltac:(lia) L1 C0 B1) as (m1 & E1 & C1 & Z1 & S1).
  exists m0, m1. split; [exact E0|]. split; [exact E1|]. split; [exact C1|]. split; [lia|].
  assert (length (bits msg) = Z.to_nat (8 * zlen msg)) as Lm by (rewrite bits_length; unfold zlen; lia).
  assert (length (bits m0) = Z.to_nat (8 * zlen msg)) as Lm0 by (rewrite bits_length; unfold zlen in *; lia).
  assert (forall d, len <= zlen d -> length (bits (firstn (Z.to_nat len) d)) = Z.to_nat (8 * len)) as Ld by (intros d Hd; rewrite bits_length, firstn_length_le by (unfold zlen in *; lia); lia).
  pose proof (Ld d0 L0) as Ld0. pose proof (Ld d1 L1) as Ld1.
  split; [|split; [apply (back_ok o1 len m0 d1 m1); try assumption; lia|]].
  - apply copy_to_is; [assumption|assumption|lia|assumption|apply Forall_firstn, B0|]. rewrite S1, S0.
    set (F0 := bits (firstn (Z.to_nat len) d0)) in *. set (F1 := bits (firstn (Z.to_nat len) d1)) in *. set (M := bits msg) in *.
    rewrite firstn_app. rewrite (firstn_all2 (firstn (Z.to_nat o0) M)) by (rewrite firstn_length_le; lia). rewrite (firstn_length_le M) by lia.
    rewrite firstn_app, (firstn_all2 F0) by lia. rewrite <- !app_assoc. rewrite skipn_app_exact by (rewrite firstn_length_le; lia). rewrite firstn_app_exact by lia. reflexivity.
  - intros i Hi. rewrite S1.
    assert (forall (l : list bool) a F n, (a <= length l)%nat -> n = length F -> (i < a \/ a + n <= i)%nat -> nth_error (firstn a l ++ F ++ skipn (a + n) l) i = nth_error l i) as K.
    { intros l a F n Ha Hn HH. rewrite <- (firstn_skipn a l) at 3. destruct HH as [HH|HH].
      - rewrite !nth_error_app1 by (rewrite firstn_length_le; lia). reflexivity.
      - rewrite (nth_error_app2 (firstn a l) (F ++ _)), (nth_error_app2 (firstn a l) (skipn a l)) by (rewrite firstn_length_le; lia). rewrite firstn_length_le by lia. rewrite nth_error_app2 by lia. rewrite <- skip_skip.
        rewrite <- (firstn_skipn n (skipn a l)) at 2. destruct (le_lt_dec n (length (skipn a l))) as [Q|Q].
        + rewrite nth_error_app2 by (rewrite firstn_length_le; lia). rewrite firstn_length_le by lia. f_equal. lia.
        + rewrite skipn_all2 by lia. rewrite app_nil_r. rewrite (firstn_all2 (skipn a l)) by lia. rewrite (proj2 (nth_error_None (skipn a l) _)) by lia. apply nth_error_None. cbn [length]. lia. }
    replace (Z.to_nat (o1 + 8 * len)) with (Z.to_nat o1 + Z.to_nat (8 * len))%nat in * by lia. rewrite K by lia. rewrite S0.
    replace (Z.to_nat (o0 + 8 * len)) with (Z.to_nat o0 + Z.to_nat (8 * len))%nat in * by lia. rewrite K by lia. reflexivity.
Qed.

(** *** Uplink *)
Lemma gprs_cases cs : is_gprs cs = true -> cs = 1 \/ cs = 2 \/ cs = 3 \/ cs = 4.
Proof. unfold is_gprs. lia. Qed.

(** A block of CS-1 to CS-4. *)
Lemma one_gprs s cs bsn msg : is_gprs cs = true -> a_cur (s bsn) = cs -> is_gprs (a_init (s bsn)) = true ->
  one_block s cs SPB_NO bsn 0 false msg =
    do m <- copy_from 24 (data_octets cs) msg (a_buf (s bsn));
    let ps := get_punct (a_ps (s bsn)) (a_last (s bsn)) cs SPB_NO in
    Ok (sset s bsn (mkablk (a_buf (s bsn)) (a_ti (s bsn)) (a_e (s bsn)) (a_cv (s bsn)) cs cs (a_init (s bsn)) ps SEG_DEFAULT), m, ps, false,
        mkulh 0 0 (a_cv (s bsn)) (a_ti (s bsn)) 0 (a_e (s bsn)) bsn).
Proof.
  intros Hg Hc Hi. unfold one_block, get_data, header_type. rewrite Hc.
  destruct (gprs_cases _ Hg) as [D|[D|[D|D]]]; subst cs; rewrite D; destruct (gprs_cases _ Hi) as [I|[I|[I|I]]]; rewrite I; reflexivity.
Qed.

Lemma acked_eval s tfi bsn : is_gprs (a_cur (s bsn)) = true -> is_gprs (a_init (s bsn)) = true ->
  acked_block s tfi bsn None =
    do m <- copy_from 24 (data_octets (a_cur (s bsn))) (repeat 0 (Z.to_nat (msg_octets (a_cur (s bsn))))) (a_buf (s bsn));
    do w <- RlcDataModel.put m 0 (ul_octets (mkulh 0 0 (a_cv (s bsn)) (a_ti (s bsn)) tfi (a_e (s bsn)) bsn));
    Ok (sset s bsn (mkablk (a_buf (s bsn)) (a_ti (s bsn)) (a_e (s bsn)) (a_cv (s bsn)) (a_cur (s bsn)) (a_cur (s bsn)) (a_init (s bsn))
          (get_punct (a_ps (s bsn)) (a_last (s bsn)) (a_cur (s bsn)) SPB_NO) SEG_DEFAULT), w, [], None, a_cv (s bsn) =? 0).
Proof.
  intros Hg Hi. unfold acked_block, choose_cs.
  assert (get_spb (s bsn) = Ok SPB_NO) as Es.
  { unfold get_spb, header_type. destruct (gprs_cases _ Hg) as [D|[D|[D|D]]]; rewrite D; destruct (gprs_cases _ Hi) as [I|[I|[I|I]]]; rewrite I; reflexivity. }
  replace (a_init (s bsn) =? 12) with false by (unfold is_gprs in Hi; lia). replace (a_cur (s bsn) =? 12) with false by (unfold is_gprs in Hg; lia). cbn [andb negb].
  replace (dec_to_single_block (a_cur (s bsn))) with (a_cur (s bsn), false) by (unfold dec_to_single_block, is_gprs in *; destruct (gprs_cases _ Hg) as [D|[D|[D|D]]]; rewrite D; reflexivity).
  rewrite Es. cbn [bind]. 
  replace (num_data_blocks (a_cur (s bsn))) with (@Ok Z 1) by (destruct (gprs_cases _ Hg) as [D|[D|[D|D]]]; rewrite D; reflexivity).
  replace (size_ul (a_cur (s bsn))) with (Ok (msg_octets (a_cur (s bsn)))) by (destruct (gprs_cases _ Hg) as [D|[D|[D|D]]]; rewrite D; reflexivity).
  cbn [bind]. change (negb ((0 <? 1) && (1 <=? 2))) with false. cbv iota.
  rewrite one_gprs by (assumption || reflexivity).
  destruct (copy_from 24 (data_octets (a_cur (s bsn))) (repeat 0 (Z.to_nat (msg_octets (a_cur (s bsn))))) (a_buf (s bsn))) as [m| |]; [|reflexivity|reflexivity].
  cbn [bind]. change (1 =? 2) with false. cbn [bind uh_cv uh_ti uh_e uh_bsn]. unfold write_ul_header.
  replace (is_edge (a_cur (s bsn))) with false by (unfold is_edge, is_gprs in *; lia).
  replace (info (a_cur (s bsn))) with (Ok (nth (Z.to_nat (a_cur (s bsn))) mcs_info (mkmcs 0 0 0 0 0 0 0 0))) by (destruct (gprs_cases _ Hg) as [D|[D|[D|D]]]; rewrite D; reflexivity).
  cbn [bind]. replace (data_hdr (nth (Z.to_nat (a_cur (s bsn))) mcs_info (mkmcs 0 0 0 0 0 0 0 0)) =? HT_GPRS) with true by (destruct (gprs_cases _ Hg) as [D|[D|[D|D]]]; rewrite D; reflexivity).
  destruct (RlcDataModel.put m 0 _); [|reflexivity|reflexivity]. cbn [bind]. rewrite orb_false_r. reflexivity.
Qed.

Lemma copy_plain len dst buffer : 0 <= len -> 3 + len <= zlen dst -> len <= zlen buffer ->
  copy_from 24 len dst buffer = Ok (firstn 3 dst ++ firstn (Z.to_nat len) buffer ++ skipn (3 + Z.to_nat len) dst).
Proof.
  intros Hl Hd Hb. unfold copy_from. rewrite rdn_ok by lia. cbn [bind]. change (24 / 8) with 3. change (24 mod 8 =? 0) with true. cbv iota.
  change (slice (Z.to_nat 0) (Z.to_nat len) buffer) with (firstn (Z.to_nat len) buffer). unfold RlcDataModel.put.
  assert (length (firstn (Z.to_nat len) buffer) = Z.to_nat len) as L by (apply firstn_length_le; unfold zlen in *; lia).
  assert (zlen (firstn (Z.to_nat len) buffer) = len) as ZL by (unfold zlen; lia).
  rewrite ZL. replace ((0 <=? 3) && (3 + len <=? zlen dst)) with true by (symmetry; apply andb_true_iff; split; lia). rewrite L. reflexivity.
Qed.

(** The message of an uplink block. *)
Definition ul_message (cs : Z) (h : ulh) (buf : list Z) : list Z :=
  ul_octets h ++ firstn (Z.to_nat (data_octets cs)) buf ++ repeat 0 (Z.to_nat (msg_octets cs - 3 - data_octets cs)).
Lemma acked_ok s tfi bsn : is_gprs (a_cur (s bsn)) = true -> is_gprs (a_init (s bsn)) = true -> data_octets (a_cur (s bsn)) <= zlen (a_buf (s bsn)) ->
  acked_block s tfi bsn None =
    Ok (sset s bsn (mkablk (a_buf (s bsn)) (a_ti (s bsn)) (a_e (s bsn)) (a_cv (s bsn)) (a_cur (s bsn)) (a_cur (s bsn)) (a_init (s bsn))
          (get_punct (a_ps (s bsn)) (a_last (s bsn)) (a_cur (s bsn)) SPB_NO) SEG_DEFAULT),
        ul_message (a_cur (s bsn)) (mkulh 0 0 (a_cv (s bsn)) (a_ti (s bsn)) tfi (a_e (s bsn)) bsn) (a_buf (s bsn)), [], None, a_cv (s bsn) =? 0).
Proof.
  intros Hg Hi Hb. rewrite acked_eval by assumption. set (b := s bsn) in *. set (cs := a_cur b) in *.
  assert (0 <= data_octets cs /\ 3 + data_octets cs <= msg_octets cs) as [P Q] by (destruct (gprs_cases _ Hg) as [D|[D|[D|D]]]; rewrite D; cbv; split; discriminate).
  rewrite copy_plain by (unfold zlen in *; rewrite ?repeat_length; lia). cbn [bind].
  replace (repeat 0 (Z.to_nat (msg_octets cs))) with (repeat 0 3 ++ repeat 0 (Z.to_nat (data_octets cs)) ++ repeat 0 (Z.to_nat (msg_octets cs - 3 - data_octets cs))) by (rewrite <- !repeat_app; f_equal; lia).
  rewrite firstn_app_exact by reflexivity. rewrite (app_assoc (repeat 0 3) (repeat 0 (Z.to_nat (data_octets cs)))), (skipn_app_exact (repeat 0 3 ++ repeat 0 (Z.to_nat (data_octets cs)))) by (rewrite app_length, !repeat_length; lia).
  pose proof (put_ok [] (repeat 0 3) (firstn (Z.to_nat (data_octets cs)) (a_buf b) ++ repeat 0 (Z.to_nat (msg_octets cs - 3 - data_octets cs)))
    (ul_octets (mkulh 0 0 (a_cv b) (a_ti b) tfi (a_e b) bsn)) eq_refl) as K.
  cbn [app] in K. change (zlen (@nil Z)) with 0 in K. change (repeat 0 3) with [0; 0; 0] in *. rewrite K. reflexivity.
Qed.

Lemma ul_head h d t : 0 <= uh_cv h -> 0 <= uh_tfi h < 32 -> 0 <= uh_bsn h < 128 -> 0 <= uh_ti h <= 1 -> 0 <= uh_e h <= 1 -> 0 <= uh_r h <= 1 -> 0 <= uh_si h <= 1 ->
  let m := ul_octets h ++ d ++ t in
  u_pt m = 0 /\ u_cv m = uh_cv h mod 16 /\ u_si m = uh_si h /\ u_r m = uh_r h /\ u_spare m = 0 /\ u_pi m = 0 /\ u_tfi m = uh_tfi h /\ u_ti m = uh_ti h /\ u_bsn m = uh_bsn h /\ u_e m = uh_e h.
Proof.
  intros H1 H2 H3 H4 H5 H6 H7 m. subst m. unfold u_pt, u_cv, u_si, u_r, u_spare, u_pi, u_tfi, u_ti, u_bsn, u_e, field, ul_octets. cbn [app nth].
  rewrite !land_1, land_15, land_31, land_127.
  change (2 ^ 6) with 64. change (2 ^ 7) with 128. change (2 ^ 2) with 4. change (2 ^ 1) with 2. change (2 ^ 4) with 16. change (2 ^ 0) with 1. change (2 ^ 5) with 32.
  rewrite (Z.mod_small (uh_tfi h)), (Z.mod_small (uh_bsn h)), (Z.mod_small (uh_r h)), (Z.mod_small (uh_si h)), (Z.mod_small (uh_e h)), (Z.mod_small (uh_ti h)) by lia.
  pose proof (Z.mod_pos_bound (uh_cv h) 16 ltac:(lia)). set (c := uh_cv h mod 16) in *. clearbody c.
  repeat match goal with |- _ /\ _ => split end; Z.to_euclidean_division_equations; lia.
Qed.

(** *** Downlink *)
Lemma dl_head cs tfi bsn f b : df_ok f -> 0 <= tfi < 32 -> 0 <= bsn < 128 -> is_gprs cs = true -> zlen (RlcDataSpec.n_octets b) = data_octets cs ->
  dl_data cs (dl_message cs tfi bsn f b) =
    Ok (mkdlh (f_usf f) (f_sp f) (f_rrbp f) (if RlcDataSpec.n_last b then 1 else 0) tfi (f_pr f) (if RlcDataSpec.e_bit (RlcDataSpec.n_segs b) (RlcDataSpec.n_tail b) then 1 else 0) bsn,
        RlcDataSpec.n_stored b).
Proof.
  intros (F1 & F2 & F3 & F4 & F5) Ht Hs Hg Zb. unfold dl_data, parse_dl.
  replace (info cs) with (Ok (nth (Z.to_nat cs) mcs_info (mkmcs 0 0 0 0 0 0 0 0))) by (destruct (gprs_cases _ Hg) as [D|[D|[D|D]]]; rewrite D; reflexivity).
  cbn [bind]. replace (data_hdr (nth (Z.to_nat cs) mcs_info (mkmcs 0 0 0 0 0 0 0 0)) =? HT_GPRS) with true by (destruct (gprs_cases _ Hg) as [D|[D|[D|D]]]; rewrite D; reflexivity).
  unfold parse_dl_gprs. set (m := dl_message cs tfi bsn f b).
  assert (zlen m = msg_octets cs) as Zm.
  { subst m. unfold dl_message. rewrite !zlen_app, Zb. destruct (gprs_cases _ Hg) as [D|[D|[D|D]]]; rewrite D; reflexivity. }
  assert (23 <= zlen m) as Zge by (rewrite Zm; destruct (gprs_cases _ Hg) as [D|[D|[D|D]]]; rewrite D; cbv; discriminate).
  rewrite !rd_ok by lia. cbn [bind]. subst m. unfold dl_message. 
  change (Z.to_nat 0) with 0%nat. change (Z.to_nat 1) with 1%nat. change (Z.to_nat 2) with 2%nat. cbn [app nth].
  rewrite land_7, !land_1, !land_3, land_31, land_127. rewrite !Z.shiftr_div_pow2 by lia. change (2 ^ 3) with 8. change (2 ^ 4) with 16. change (2 ^ 1) with 2. change (2 ^ 6) with 64.
  replace (data_offs_bits cs false false 0) with (@Ok Z 24) by (destruct (gprs_cases _ Hg) as [D|[D|[D|D]]]; rewrite D; reflexivity).
  replace (block_data_len cs false) with (Ok (data_octets cs)) by (destruct (gprs_cases _ Hg) as [D|[D|[D|D]]]; rewrite D; reflexivity).
  cbn [bind].
  match goal with |- context [copy_to 24 (data_octets cs) ?l] => replace (copy_to 24 (data_octets cs) l) with (Ok (RlcDataSpec.n_octets b)) end.
  2:{ unfold copy_to. change (Z.land 24 7 =? 0) with true. change (Z.shiftr 24 3) with 3. cbv iota. pose proof (zlen_nonneg (RlcDataSpec.n_octets b)).
      rewrite rdn_ok; [|lia|lia|rewrite !zlen_cons, zlen_app; pose proof (zlen_nonneg (if cs =? 1 then [] else [f_fill f])); lia].
      change (Z.to_nat 3) with 3%nat. unfold slice. cbn [skipn]. rewrite firstn_app_exact by (unfold zlen in Zb; lia). reflexivity. }
  cbn [bind dh_e dh_fbi].
  set (l := RlcDataSpec.n_last b) in *. set (e := RlcDataSpec.e_bit (RlcDataSpec.n_segs b) (RlcDataSpec.n_tail b)).
  assert (forall x : bool, 0 <= (if x then 1 else 0) <= 1) as BX by (intros []; lia). pose proof (BX l) as BL. pose proof (BX e) as BE.
  f_equal. apply f_equal2.
  - f_equal; Z.to_euclidean_division_equations; lia.
  - unfold RlcDataSpec.n_stored. fold l e. 
    replace ((f_pr f * 64 + tfi * 2 + (if l then 1 else 0)) mod 2) with (if l then 1 else 0) by (Z.to_euclidean_division_equations; lia).
    replace ((bsn * 2 + (if e then 1 else 0)) mod 2) with (if e then 1 else 0) by (Z.to_euclidean_division_equations; lia).
    f_equal; [destruct e; reflexivity|destruct l; reflexivity].
Qed.
