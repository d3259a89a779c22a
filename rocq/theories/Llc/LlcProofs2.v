(** Proofs about the LLC entity model: receiving, TLLI management, suspension. *)
From Verif.Lib Require Import Base Outcome.
From Verif.Llc Require Import Crc24Model Crc24Proofs PduModel PduSpec PduProofs XidModel XidSpec XidProofs LlcModel LlcSpec LlcProofs.

Lemma user_assigned s : user_sapi s -> assigned_sapi s /\ deliverable s = true /\ 0 <= s < 16.
Proof.
  unfold user_sapi, assigned_sapi. cbn [In]. intros H.
  repeat destruct H as [<-|H]; try (destruct H); (split; [intuition|split; [reflexivity|lia]]).
Qed.

Lemma decode_plain_ui sapi n data pdu : user_sapi sapi -> plain_ui sapi n data pdu ->
  exists d, pdu_decode pdu = Ok d /\ h_func (d_hdr d) = UI /\ h_sapi (d_hdr d) = sapi /\ h_ns (d_hdr d) = n /\
    f_enc (d_hdr d) = false /\ payload pdu d = data /\ 0 <= n < 512.
Proof.
  intros Hu (a & c0 & c1 & f & Hp & Hf & Hb & Ha & Hs & H0 & H1 & Hn).
  destruct f as [|f0 [|f1 [|f2 [|]]]]; try discriminate.
  assert (Hl : zlen pdu = zlen data + 6) by (rewrite Hp, !zlen_app; change (zlen [a; c0; c1]) with 3; change (zlen [f0; f1; f2]) with 3; lia).
  pose proof (zlen_nonneg data) as Hd0.
  assert (Bc : byte a /\ byte c0 /\ byte c1).
  { rewrite Hp in Hb. cbn [app] in Hb. inversion Hb as [|? ? Ba Hb1]; subst.
    inversion Hb1 as [|? ? B0 Hb2]; subst. inversion Hb2; subst. auto. }
  destruct Bc as (Ba & B0 & B1). unfold byte in Ba, B0, B1.
  destruct (rd_tail ([a; c0; c1] ++ data) f0 f1 f2) as (R0 & R1 & R2).
  rewrite <- app_assoc in R0, R1, R2. rewrite <- Hp in R0, R1, R2.
  assert (Q0 : rd pdu 0 = Ok a) by (rewrite rd_ok by lia; rewrite Hp; reflexivity).
  assert (Q1 : rd pdu 1 = Ok c0) by (rewrite rd_ok by lia; rewrite Hp; reflexivity).
  assert (Q2 : rd pdu 2 = Ok c1) by (rewrite rd_ok by lia; rewrite Hp; reflexivity).
  unfold pdu_decode.
  replace (zlen pdu <? 3) with false by lia. rewrite R0, R1, R2. cbn [bind].
  replace (zlen pdu - 3 <? 1) with false by lia. rewrite Q0. cbn [bind].
  assert (T : tst a 128 = false) by (unfold tst; rewrite land_128; lia). rewrite T. rewrite land_15.
  rewrite Hs. destruct (user_assigned sapi Hu) as (Hassd & _ & Hrng).
  rewrite (proj2 (sapi_cases sapi Hassd)).
  replace (zlen pdu - 3 - 1 <? 1) with false by lia. rewrite Q1. cbn [bind].
  rewrite land_128, land_192, land_224.
  replace (c0 / 128 mod 2 * 128 =? 0) with false by lia.
  replace (c0 / 64 mod 4 * 64 =? 128) with false by lia.
  replace (c0 / 32 mod 8 * 32 =? 192) with true by lia.
  replace (zlen pdu - 3 - 1 <? 2) with false by lia. rewrite Q2. cbn [bind].
  assert (T2 : tst c0 16 = false) by (unfold tst; rewrite land_16; lia). rewrite T2.
  eexists. split; [reflexivity|]. cbn [d_hdr h_func h_sapi h_ns f_enc].
  split; [reflexivity|]. split; [reflexivity|].
  assert (Hns : Z.lor (Z.shiftl (Z.land c0 7) 6) (Z.shiftr c1 2) = n).
  { bits2arith. rewrite (lor_add _ _ 6) by (change (2 ^ 6) with 64; lia). lia. }
  split; [exact Hns|]. split; [unfold tst; rewrite land_2; lia|].
  split; [|lia].
  unfold payload. cbn [d_data]. rewrite Hp.
  change (Z.to_nat 3) with (length [a; c0; c1] + 0)%nat. rewrite slice_app_r.
  unfold slice. cbn [skipn]. apply firstn_app_exact. rewrite <- Hp. unfold zlen in *. lia.
Qed.

(** The state change of an accepted UI frame. *)
Lemma rx_ui_new l n : 0 <= n < 512 -> 0 <= vu_recv l < 512 -> ~ (1 <= (vu_recv l - n) mod 512 <= 31) ->
  exists l', rx_ui l n = (l', true) /\ vu_recv l' = (n + 1) mod 512 /\ vu_last l' = vu_last l /\ vu_dup l' = vu_dup l /\
    oc_recv l' = (if n =? 511 then (oc_recv l + 512) mod 2 ^ 32 else oc_recv l) /\
    l_sapi l' = l_sapi l.
Proof.
  intros Hn Hv Hd. unfold rx_ui, is_retransmit. rewrite land_511.
  replace ((0 <? (vu_recv l - n) mod 512) && ((vu_recv l - n) mod 512 <? 32)) with false by lia.
  eexists. split; [reflexivity|]. cbn [vu_recv vu_last vu_dup oc_recv l_sapi set_rx].
  repeat split. destruct (Z.eqb_spec n 511); destruct (Z.eqb_spec ((n + 1) / 512) 0); try reflexivity; lia.
Qed.

Definition ui_result (s : st) (i : nat) (m : llme) (sapi : Z) (l' : lle) : st := upd s i (set_lle m sapi l').

Lemma rx_plain_ui e s t sapi n data pdu i m : user_sapi sapi -> plain_ui sapi n data pdu -> fcs_good pdu ->
  zlen pdu < 65539 -> data <> [] -> e_tlli_ok e t = true -> find_llme s t = Some (i, m) ->
  step e s (RxPdu t pdu) =
    let '(l', ok) := rx_ui (get_lle m sapi) n in
    Ok (upd s i (set_lle m sapi l'), if ok then [UpUnitdata (m_tlli m) sapi data] else [], if ok then 0 else - EIO).
Proof.
  intros Hu Hp Hg Hl Hne Ht Hf.
  destruct (decode_plain_ui sapi n data pdu Hu Hp) as (d & Hd & D1 & D2 & D3 & D4 & D5 & D6).
  assert (Hb : bytes pdu) by (destruct Hp as (? & ? & ? & ? & _ & _ & Hb & _); exact Hb).
  cbn [step]. rewrite Hd, Ht. cbn [negb]. unfold lle_for_rx. rewrite Hf, D2.
  unfold lle_rx. rewrite D4.
  rewrite (proj2 (fcs_check_good pdu d Hb Hl Hd) Hg). cbn [negb].
  unfold hdr_rx. rewrite D1, D3. destruct (rx_ui (get_lle m sapi) n) as [l' ok].
  cbn [bind]. destruct ok; cbn [negb]; [|reflexivity].
  rewrite D5. destruct data as [|x r]; [congruence|]. rewrite D2.
  destruct (user_assigned sapi Hu) as (_ & -> & _). reflexivity.
Qed.

Lemma lle_length_upd m sapi l : length (m_lle (set_lle m sapi l)) = length (m_lle m).
Proof. cbn. apply upd_length. Qed.

Lemma find_upd s t i m m' : find_llme s t = Some (i, m) -> m_tlli m' = m_tlli m -> m_old m' = m_old m ->
  find_llme (upd s i m') t = Some (i, m').
Proof.
  intros Hf Ht Ho. revert i Hf. induction s as [|x s IH]; intros i; cbn [find_llme]; [discriminate|].
  destruct (llme_has t x) eqn:E.
  - intros H; injection H as <- <-. cbn [upd find_llme]. unfold llme_has in *. rewrite Ht, Ho, E. reflexivity.
  - destruct (find_llme s t) as [[j y]|] eqn:Ef; [|discriminate]. intros H; injection H as <- <-.
    cbn [upd find_llme]. rewrite E. rewrite (IH j eq_refl). reflexivity.
Qed.

(** ** End-to-end transfer *)
Lemma tx_one e s t sapi v n data p : 0 <= sapi < 16 -> tx_ready s t sapi v n -> zlen data <= n ->
  exists s' t', step e s (LlUnitdata t sapi data p) =
    Ok (s', [Down t' sapi p (frame_of (hdr_ui (e_loc e) sapi v) (ui_ctrl v) data)], 0) /\
    tx_ready s' t sapi ((v + 1) mod 512) n.
Proof.
  intros Hs (i & m & Hf & Hsu & Hl & H1 & H2 & H3) Hd. cbn [step].
  replace (negb ((0 <=? sapi) && (sapi <? 16))) with false by lia. rewrite Hf, Hsu. cbn [andb].
  destruct (tx_ui_cases e m (get_lle m sapi) data p) as [[H ->]|[H ->]]; [lia|].
  rewrite H1, H2. do 2 eexists. split; [reflexivity|].
  exists i, (set_lle m sapi (after_tx_ui (get_lle m sapi))). split; [apply (find_upd s t i m); auto|].
  split; [exact Hsu|]. split; [rewrite lle_length_upd; exact Hl|].
  rewrite get_set_lle by assumption. rewrite Z.eqb_refl.
  unfold after_tx_ui, set_tx. cbn [l_sapi vu_send n201_u]. rewrite H2. auto.
Qed.

Lemma ui_frame_plain loc sapi v data : user_sapi sapi -> 0 <= v < 512 -> bytes data -> zlen data <= 60000 ->
  let pdu := frame_of (hdr_ui loc sapi v) (ui_ctrl v) data in
  plain_ui sapi v data pdu /\ fcs_good pdu /\ zlen pdu < 65539.
Proof.
  intros Hu Hv Hb Hl pdu. destruct (user_assigned sapi Hu) as (Ha & _ & Hr).
  assert (Hctrl : ui_ctrl v = [192 + v / 64; v mod 64 * 4 + 1]).
  { unfold ui_ctrl. bits2arith. rewrite (lor_add 192 _ 3) by (change (2 ^ 3) with 8; lia).
    rewrite (lor_add (v mod 64 * 4) 1 2) by (change (2 ^ 2) with 4; lia). f_equal. lia. }
  assert (Bc : bytes (ui_ctrl v)) by (rewrite Hctrl; repeat constructor; unfold byte; lia).
  assert (Hpb : bytes pdu) by (apply frame_bytes; assumption).
  assert (Haddr : byte (enc_addr (hdr_ui loc sapi v)) /\ enc_addr (hdr_ui loc sapi v) < 128 /\ enc_addr (hdr_ui loc sapi v) mod 16 = sapi).
  { destruct (addr_decodes (hdr_ui loc sapi v) Ha) as (A1 & A2 & _ & A4 & _). rewrite land_15 in A4.
    unfold tst in A2. rewrite land_128 in A2. unfold byte in *. cbn [hdr_ui h_sapi] in A4. lia. }
  destruct Haddr as (A1 & A2 & A3).
  set (body := enc_addr (hdr_ui loc sapi v) :: ui_ctrl v ++ data).
  assert (Hbody : zlen body = zlen data + 3).
  { unfold body. rewrite zlen_cons, zlen_app. rewrite Hctrl. change (zlen [192 + v / 64; v mod 64 * 4 + 1]) with 2. lia. }
  assert (Hpdu : pdu = body ++ fcs_octets (gprs_llc_fcs (firstn (Z.to_nat (fcs_cover true (zlen body))) body))) by reflexivity.
  assert (Hplen : zlen pdu = zlen data + 6) by (rewrite Hpdu, zlen_app, Hbody; change (zlen (fcs_octets _)) with 3; lia).
  assert (Hplain : plain_ui sapi v data pdu).
  { exists (enc_addr (hdr_ui loc sapi v)), (192 + v / 64), (v mod 64 * 4 + 1),
      (fcs_octets (gprs_llc_fcs (firstn (Z.to_nat (fcs_cover true (zlen body))) body))).
    split; [rewrite Hpdu; unfold body; rewrite Hctrl; cbn [app]; reflexivity|].
    split; [reflexivity|]. split; [exact Hpb|]. split; [exact A2|]. split; [exact A3|]. lia. }
  split; [exact Hplain|]. split; [|lia].
  destruct (decode_plain_ui sapi v data pdu Hu Hplain) as (d & Hd & _).
  unfold fcs_good.
  assert (Hup : unprotected_ui pdu = false).
  { rewrite Hpdu. unfold body. rewrite Hctrl. cbn [app]. unfold unprotected_ui. lia. }
  rewrite Hup.
  assert (Hn : (length pdu - 3)%nat = length body) by (unfold zlen in *; lia). rewrite Hn.
  rewrite Hpdu. rewrite skipn_app_exact, firstn_app_exact by reflexivity.
  assert (Hfn : firstn (Z.to_nat (fcs_cover true (zlen body))) body = body) by (apply firstn_all2; unfold fcs_cover, zlen; lia).
  rewrite Hfn.
  assert (Hbb : bytes body). { unfold body. constructor; [exact A1|]. apply Forall_app; split; assumption. }
  pose proof (gprs_fcs_range body Hbb) as Hrng. change (2 ^ 24) with 16777216 in Hrng.
  unfold fcs_octets. bits2arith. f_equal. f_equal. f_equal. lia.
Qed.

Lemma rx_one e s t sapi v n data pdu : user_sapi sapi -> rx_ready s t sapi v -> e_tlli_ok e t = true ->
  plain_ui sapi n data pdu -> fcs_good pdu -> zlen pdu < 65539 -> data <> [] -> 0 <= n < 512 -> 0 <= v < 512 ->
  ~ (1 <= (v - n) mod 512 <= 31) ->
  exists s', step e s (RxPdu t pdu) = Ok (s', [UpUnitdata t sapi data], 0) /\ rx_ready s' t sapi ((n + 1) mod 512).
Proof.
  intros Hu (i & m & Hf & Htl & Hl & Hv) Ht Hp Hg Hpl Hne Hn Hvr Hd.
  rewrite (rx_plain_ui e s t sapi n data pdu i m) by assumption.
  destruct (rx_ui_new (get_lle m sapi) n) as (l' & -> & R1 & _); [assumption|lia|rewrite Hv; assumption|].
  rewrite Htl. eexists. split; [reflexivity|].
  exists i, (set_lle m sapi l'). split; [apply (find_upd s t i m); auto|]. split; [exact Htl|].
  split; [rewrite lle_length_upd; exact Hl|].
  rewrite get_set_lle by (try assumption; apply user_assigned, Hu). rewrite Z.eqb_refl. exact R1.
Qed.

Lemma transfer es er t sapi n p : user_sapi sapi -> n <= 60000 -> e_tlli_ok er t = true ->
  forall datas keep c v ss sr,
  Forall (fun d => bytes d /\ 1 <= zlen d <= n) datas -> length keep = length datas -> losses_below 480 c keep ->
  0 <= v < 512 ->
  tx_ready ss t sapi v n -> rx_ready sr t sapi ((v - Z.of_nat c) mod 512) ->
  exists ss' so sr' ro,
    run es ss (map (fun d => LlUnitdata t sapi d p) datas) = Ok (ss', so) /\ length (frames so) = length datas /\
    run er sr (map (RxPdu t) (kept keep (frames so))) = Ok (sr', ro) /\
    delivered ro = map (fun d => (t, sapi, d)) (kept keep datas).
Proof.
  intros Hu Hn60 Hok. destruct (user_assigned sapi Hu) as (_ & _ & Hrs).
  induction datas as [|d datas IH]; intros keep c v ss sr Hd Hk Hlo Hv Htx Hrx.
  - destruct keep; [|discriminate]. exists ss, [], sr, []. repeat split.
  - destruct keep as [|k keep]; [discriminate|]. inversion Hd as [|? ? [Hb Hlen] Hd']; subst.
    destruct (tx_one es ss t sapi v n d p Hrs Htx ltac:(lia)) as (ss1 & t' & Hstep & Htx1).
    destruct (ui_frame_plain (e_loc es) sapi v d Hu Hv Hb ltac:(lia)) as (P1 & P2 & P3).
    set (pdu := frame_of _ _ d) in *.
    assert (Hv1 : 0 <= (v + 1) mod 512 < 512) by lia.
    cbn [map run]. rewrite Hstep. cbn [bind].
    destruct k; cbn [losses_below] in Hlo.
    + destruct Hlo as [Hc Hlo].
      destruct (rx_one er sr t sapi _ v d pdu Hu Hrx Hok P1 P2 P3) as (sr1 & Hrstep & Hrx1).
      { destruct d; [cbn in Hlen; lia|discriminate]. }
      { exact Hv. } { apply Z.mod_pos_bound; lia. } { lia. }
      destruct (IH keep 0%nat ((v + 1) mod 512) ss1 sr1) as (ss' & so & sr' & ro & E1 & E2 & E3 & E4); auto.
      { replace ((v + 1) mod 512 - Z.of_nat 0) with ((v + 1) mod 512) by lia. rewrite Z.mod_mod by lia. exact Hrx1. }
      rewrite E1. cbn [bind]. do 4 eexists. split; [reflexivity|].
      cbn [frames flat_map app length kept map run]. fold (frames so). split; [f_equal; exact E2|].
      rewrite Hrstep. cbn [bind]. rewrite E3. cbn [bind]. split; [reflexivity|].
      cbn [delivered flat_map app map]. fold (delivered ro). f_equal. exact E4.
    + destruct (IH keep (S c) ((v + 1) mod 512) ss1 sr) as (ss' & so & sr' & ro & E1 & E2 & E3 & E4); auto.
      { replace (((v + 1) mod 512 - Z.of_nat (S c)) mod 512) with ((v - Z.of_nat c) mod 512) by lia. exact Hrx. }
      rewrite E1. cbn [bind]. do 4 eexists. split; [reflexivity|].
      cbn [frames flat_map app length kept map run]. fold (frames so). split; [f_equal; exact E2|].
      split; [exact E3|exact E4].
Qed.

(** ** Overflow counters *)

Lemma sender_spec n sapi : vu_send (sender n (lle_init sapi)) = Z.of_nat n mod 512 /\
  oc_send (sender n (lle_init sapi)) = 512 * ((Z.of_nat n + 1) / 512) mod 2 ^ 32.
Proof.
  induction n as [|n [IH1 IH2]]; [split; reflexivity|].
  cbn [sender]. set (l := sender n (lle_init sapi)) in *. clearbody l.
  unfold after_tx_ui. cbn [vu_send oc_send set_tx]. rewrite IH1, IH2. split; [lia|].
  change (2 ^ 32) with 4294967296.
  destruct (Z.eqb_spec (((Z.of_nat n mod 512 + 1) mod 512 + 1) / 512) 0) as [E|E].
  - replace ((Z.of_nat (S n) + 1) / 512) with ((Z.of_nat n + 1) / 512) by lia. reflexivity.
  - replace ((Z.of_nat (S n) + 1) / 512) with ((Z.of_nat n + 1) / 512 + 1) by lia.
    rewrite Zplus_mod_idemp_l. f_equal. lia.
Qed.

Lemma receiver_spec n sapi : vu_recv (receiver n (lle_init sapi)) = Z.of_nat n mod 512 /\
  oc_recv (receiver n (lle_init sapi)) = 512 * (Z.of_nat n / 512) mod 2 ^ 32.
Proof.
  induction n as [|n [IH1 IH2]]; [split; reflexivity|].
  cbn [receiver]. set (l := receiver n (lle_init sapi)) in *. clearbody l.
  destruct (rx_ui_new l (Z.of_nat n mod 512)) as (l' & -> & R1 & _ & _ & R2 & _); [lia|rewrite IH1; lia|rewrite IH1; lia|].
  cbn [fst]. rewrite R1, R2, IH2. split; [lia|]. change (2 ^ 32) with 4294967296.
  destruct (Z.eqb_spec (Z.of_nat n mod 512) 511).
  - rewrite Zplus_mod_idemp_l. f_equal. lia.
  - f_equal. lia.
Qed.

(** ** Unknown TLLIs *)
Lemma unknown_rx e s t pdu s' o rc : step e s (RxPdu t pdu) = Ok (s', o, rc) ->
  (forall i m, nth_error s i = Some m -> ~ names t m) -> bytes pdu ->
  (s' = s /\ o = []) \/
  exists m a c0 rest, s' = m :: s /\ m_tlli m = t /\ e_tlli_ok e t = true /\
    pdu = a :: c0 :: rest /\ a mod 16 = 1 /\ (c0 / 32 = 6 \/ (c0 / 32 = 7 /\ c0 mod 16 = 11)).
Proof.
  intros Hstep Hunk Hb. cbn [step] in Hstep.
  destruct (pdu_decode pdu) as [d|er|] eqn:Ed; [| |discriminate].
  2:{ injection Hstep as <- <- <-. auto. }
  destruct (e_tlli_ok e t) eqn:Etl; cbn [negb] in Hstep; [|injection Hstep as <- <- <-; auto].
  destruct (lle_for_rx s t _ _) as [[[s1 i] m]|] eqn:Ef; [|injection Hstep as <- <- <-; auto].
  apply lle_for_rx_cases in Ef as (Hn & Hnm & [->|(Hnone & -> & -> & -> & Hs1 & Hfunc)]).
  { exfalso. exact (Hunk i m Hn Hnm). }
  destruct (lle_rx _ _ _ _ _) as [[[l' o1] rc1]| |] eqn:Er; try discriminate. cbn [bind upd] in Hstep.
  injection Hstep as <- <- <-. right.
  destruct (decode_check_facts pdu d Hb Ed) as (H5 & _ & _).
  destruct pdu as [|a [|c0 rest]]; [discriminate..|]. 
  exists (set_lle (llme_alloc t) (h_sapi (d_hdr d)) l'), a, c0, rest.
  do 2 (split; [reflexivity|]). split; [reflexivity|]. split; [reflexivity|].
  assert (Ba : byte a) by (inversion Hb; assumption).
  assert (B0 : byte c0) by (inversion Hb as [|? ? ? Hb']; inversion Hb'; assumption).
  unfold byte in Ba, B0.
  clear Er. revert Ed Hs1 Hfunc. unfold pdu_decode. 
  set (bs := a :: c0 :: rest) in *.
  destruct (zlen bs <? 3); [discriminate|].
  destruct (rd bs (zlen bs - 3)), (rd bs (zlen bs - 2)), (rd bs (zlen bs - 1)); try discriminate. cbn [bind].
  destruct (zlen bs - 3 <? 1); [discriminate|].
  assert (Q0 : rd bs 0 = Ok a) by (rewrite rd_ok by lia; reflexivity).
  assert (Q1 : rd bs 1 = Ok c0) by (rewrite rd_ok by lia; reflexivity).
  rewrite Q0. cbn [bind]. destruct (tst a 128); [discriminate|].
  destruct (reserved_sapi _); [discriminate|]. destruct (zlen bs - 3 - 1 <? 1); [discriminate|].
  rewrite Q1. cbn [bind]. rewrite land_128, land_192, land_224.
  destruct (c0 / 128 mod 2 * 128 =? 0) eqn:F0.
  { destruct (zlen bs - 3 - 1 <? 3); [discriminate|].
    destruct (rd bs 2); try discriminate. cbn [bind]. destruct (rd bs 3); try discriminate. cbn [bind].
    destruct (dec_func _) eqn:Edf;
      try (intros H; injection H as <-; cbn [d_hdr h_func]; intros _ [?|?]; try discriminate;
           unfold dec_func in Edf; repeat (match type of Edf with (if ?x then _ else _) = _ => destruct x end); discriminate).
    destruct (zlen bs - 3 - 1 - 3 <? 1); [discriminate|]. destruct (rd bs 4); try discriminate. cbn [bind].
    match goal with |- (if ?x then _ else _) = _ -> _ => destruct x; [discriminate|] end.
    destruct (dec_sack _ _ _); try discriminate. cbn [bind].
    intros H; injection H as <-; cbn [d_hdr h_func]; intros _ [?|?]; discriminate. }
  destruct (c0 / 64 mod 4 * 64 =? 128) eqn:F1.
  { destruct (zlen bs - 3 - 1 <? 2); [discriminate|].
    destruct (rd bs 2); try discriminate. cbn [bind].
    destruct (dec_func _) eqn:Edf;
      try (intros H; injection H as <-; cbn [d_hdr h_func]; intros _ [?|?]; try discriminate;
           unfold dec_func in Edf; repeat (match type of Edf with (if ?x then _ else _) = _ => destruct x end); discriminate).
    destruct (zlen bs - 3 - 1 - 2 <? 1); [discriminate|].
    destruct (dec_sack _ _ _); try discriminate. cbn [bind].
    intros H; injection H as <-; cbn [d_hdr h_func]; intros _ [?|?]; discriminate. }
  destruct (c0 / 32 mod 8 * 32 =? 192) eqn:F2.
  { destruct (zlen bs - 3 - 1 <? 2); [discriminate|]. destruct (rd bs 2); try discriminate. cbn [bind].
    destruct (tst c0 16).
    - destruct (zlen bs - 3 - 1 - 2 <? 4); [discriminate|]. destruct (rdn _ _ _); try discriminate. cbn [bind].
      intros H; injection H as <-; cbn [d_hdr h_func h_sapi]. rewrite land_15. intros Hs _. split; [exact Hs|]. left. lia.
    - intros H; injection H as <-; cbn [d_hdr h_func h_sapi]. rewrite land_15. intros Hs _. split; [exact Hs|]. left. lia. }
  unfold dec_ufunc. rewrite land_15.
  repeat (match goal with |- context [c0 mod 16 =? ?k] => destruct (c0 mod 16 =? k) eqn:? end;
          [try (intros H; injection H as <-; cbn [d_hdr h_func]; intros _ [?|?]; discriminate)|]).
  - intros H; injection H as <-; cbn [d_hdr h_func h_sapi]. rewrite land_15. intros Hs _. split; [exact Hs|]. right. lia.
  - discriminate.
Qed.
