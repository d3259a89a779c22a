(** Proofs about the LLC frame codec model. *)
From Verif.Lib Require Import Base Outcome.
From Verif.Llc Require Import Crc24Model Crc24Proofs PduModel PduSpec.

Lemma rd_tail body f0 f1 f2 :
  let bs := body ++ [f0; f1; f2] in
  rd bs (zlen bs - 3) = Ok f0 /\ rd bs (zlen bs - 2) = Ok f1 /\ rd bs (zlen bs - 1) = Ok f2.
Proof.
  cbv zeta. assert (Hl : zlen (body ++ [f0; f1; f2]) = zlen body + 3) by (rewrite zlen_app; reflexivity).
  pose proof (zlen_nonneg body) as Hn.
  rewrite !rd_ok by lia. rewrite Hl.
  unfold zlen in *.
  repeat split; f_equal; rewrite app_nth2 by lia.
  - replace (Z.to_nat _ - length body)%nat with 0%nat by lia; reflexivity.
  - replace (Z.to_nat _ - length body)%nat with 1%nat by lia; reflexivity.
  - replace (Z.to_nat _ - length body)%nat with 2%nat by lia; reflexivity.
Qed.

Lemma fcs_octets_join fcs : 0 <= fcs < 2 ^ 24 ->
  match fcs_octets fcs with
  | [a; b; c] => Z.lor (Z.lor a (Z.shiftl b 8)) (Z.shiftl c 16) = fcs
  | _ => False
  end.
Proof.
  intros H. unfold fcs_octets. bits2arith. change (2 ^ 24) with 16777216 in H.
  rewrite (Z.lor_comm (fcs mod 256)).
  rewrite (lor_add (fcs / 256 mod 256 * 256) _ 8) by (change (2 ^ 8) with 256; lia).
  rewrite (Z.lor_comm _ (fcs / 65536 mod 256 * 65536)).
  rewrite (lor_add _ _ 16) by (change (2 ^ 16) with 65536; lia). lia.
Qed.

Lemma gprs_fcs_range l : bytes l -> 0 <= gprs_llc_fcs l < 2 ^ 24.
Proof. apply fcs_range. Qed.

Lemma sapi_cases s : assigned_sapi s -> 0 <= s < 16 /\ reserved_sapi s = false.
Proof. unfold assigned_sapi. cbn [In]. intros H. repeat destruct H as [<-|H]; try (split; [lia|reflexivity]). destruct H. Qed.

Lemma addr_decodes h : assigned_sapi (h_sapi h) ->
  byte (enc_addr h) /\ tst (enc_addr h) 128 = false /\ tst (enc_addr h) 64 = f_cr h /\
  Z.land (enc_addr h) 15 = h_sapi h /\ reserved_sapi (h_sapi h) = false.
Proof.
  intros H. unfold enc_addr. unfold assigned_sapi in H. cbn [In] in H. unfold byte.
  repeat destruct H as [<-|H]; try (destruct (f_cr h); cbn; repeat split; lia).
Qed.

(** The part of decoding that does not depend on the format: a frame made of an address octet, control
    octets, data and the FCS octets. *)
Definition frame_of (h : hdr) (ctrl data : list Z) : list Z :=
  let body := enc_addr h :: ctrl ++ data in
  body ++ fcs_octets (gprs_llc_fcs (firstn (Z.to_nat (fcs_cover (f_prot h) (zlen body))) body)).

Lemma encode_frame h data ctrl : f_mac h = false -> enc_ctrl h = Ok ctrl ->
  pdu_encode h data = Ok (frame_of h ctrl data).
Proof. intros Hm He. unfold pdu_encode. rewrite He. cbn [bind]. rewrite Hm. reflexivity. Qed.

Lemma fcs_octets_bytes fcs : bytes (fcs_octets fcs).
Proof. unfold fcs_octets, bytes, byte. repeat constructor; bits2arith; lia. Qed.

Lemma frame_bytes h ctrl data : assigned_sapi (h_sapi h) -> bytes ctrl -> bytes data -> bytes (frame_of h ctrl data).
Proof.
  intros Hs Hc Hd. unfold frame_of. apply Forall_app. split; [|apply fcs_octets_bytes].
  constructor; [apply addr_decodes, Hs|]. apply Forall_app; split; assumption.
Qed.

Lemma frame_check h ctrl data hd : assigned_sapi (h_sapi h) -> bytes ctrl -> bytes data ->
  zlen ctrl + zlen data < 65000 ->
  f_prot hd = f_prot h ->
  (let body := enc_addr h :: ctrl ++ data in
   h_fcs hd = gprs_llc_fcs (firstn (Z.to_nat (fcs_cover (f_prot h) (zlen body))) body)) ->
  fcs_check (frame_of h ctrl data) hd = true.
Proof.
  cbv zeta. intros Hs Hc Hd Hl Hp Hf. unfold fcs_check. rewrite Hp, Hf.
  apply Z.eqb_eq. f_equal. unfold frame_of.
  set (body := enc_addr h :: ctrl ++ data) in *.
  assert (Hb : zlen body = 1 + zlen ctrl + zlen data) by (unfold body; rewrite zlen_cons, zlen_app; lia).
  pose proof (zlen_nonneg ctrl). pose proof (zlen_nonneg data).
  rewrite zlen_app. change (zlen (fcs_octets _)) with 3.
  replace ((zlen body + 3 - 3) mod 65536) with (zlen body) by lia.
  rewrite firstn_app.
  assert (Hk : (Z.to_nat (fcs_cover (f_prot h) (zlen body)) <= length body)%nat).
  { unfold fcs_cover. unfold zlen in *. destruct (f_prot h); lia. }
  replace (Z.to_nat _ - length body)%nat with 0%nat by lia.
  cbn [firstn]. rewrite app_nil_r. reflexivity.
Qed.

(** What the decoder reads at the fixed positions of such a frame. *)
Lemma decode_prefix h c0 crest data :
  assigned_sapi (h_sapi h) -> bytes (c0 :: crest) -> bytes data ->
  let bs := frame_of h (c0 :: crest) data in
  let body := enc_addr h :: c0 :: crest ++ data in
  let fcs := gprs_llc_fcs (firstn (Z.to_nat (fcs_cover (f_prot h) (zlen body))) body) in
  zlen bs = 5 + zlen crest + zlen data /\
  rd bs 0 = Ok (enc_addr h) /\ rd bs 1 = Ok c0 /\
  exists f0 f1 f2,
  rd bs (zlen bs - 3) = Ok f0 /\ rd bs (zlen bs - 2) = Ok f1 /\ rd bs (zlen bs - 1) = Ok f2 /\
  Z.lor (Z.lor f0 (Z.shiftl f1 8)) (Z.shiftl f2 16) = fcs.
Proof.
  intros Hs Hc Hd. cbv zeta. unfold frame_of.
  change (enc_addr h :: (c0 :: crest) ++ data) with (enc_addr h :: c0 :: crest ++ data).
  set (body := enc_addr h :: c0 :: crest ++ data).
  set (fcs := gprs_llc_fcs _).
  assert (Hb : zlen body = 2 + zlen crest + zlen data) by (unfold body; rewrite !zlen_cons, zlen_app; lia).
  pose proof (zlen_nonneg crest) as Hn1. pose proof (zlen_nonneg data) as Hn2.
  destruct (rd_tail body (Z.land fcs 255) (Z.land (Z.shiftr fcs 8) 255) (Z.land (Z.shiftr fcs 16) 255)) as (H0 & H1 & H2).
  assert (Hl : zlen (body ++ fcs_octets fcs) = 5 + zlen crest + zlen data).
  { rewrite zlen_app, Hb. change (zlen (fcs_octets fcs)) with 3. lia. }
  split; [exact Hl|]. split; [|split].
  - rewrite rd_ok by lia. reflexivity.
  - rewrite rd_ok by lia. reflexivity.
  - exists (Z.land fcs 255), (Z.land (Z.shiftr fcs 8) 255), (Z.land (Z.shiftr fcs 16) 255).
    split; [exact H0|]. split; [exact H1|]. split; [exact H2|].
    apply (fcs_octets_join fcs). unfold fcs. apply gprs_fcs_range. apply Forall_firstn.
    unfold body. constructor; [apply addr_decodes, Hs|].
    change (c0 :: crest ++ data) with ((c0 :: crest) ++ data). apply Forall_app. split; assumption.
Qed.

Lemma payload_app (pre data tail : list Z) : 
  slice (length pre) (length data) (pre ++ data ++ tail) = data.
Proof. unfold slice. rewrite skipn_app, skipn_all, Nat.sub_diag. cbn [app skipn].
  rewrite firstn_app, firstn_all, Nat.sub_diag. cbn [firstn]. apply app_nil_r. Qed.

Lemma frame_payload h ctrl data hd :
  payload (frame_of h ctrl data) (mkdec hd (Some (1 + zlen ctrl, zlen data))) = data.
Proof.
  unfold payload, frame_of. cbn [d_data].
  replace (enc_addr h :: ctrl ++ data) with ((enc_addr h :: ctrl) ++ data) by reflexivity.
  rewrite <- app_assoc.
  replace (Z.to_nat (1 + zlen ctrl)) with (length (enc_addr h :: ctrl)) by (unfold zlen; cbn [length]; lia).
  replace (Z.to_nat (zlen data)) with (length data) by (unfold zlen; lia).
  apply payload_app.
Qed.

(** Reads of the later control octets. *)
Lemma rd_frame h ctrl data i : 0 <= i < zlen ctrl ->
  rd (frame_of h ctrl data) (1 + i) = Ok (nth (Z.to_nat i) ctrl 0).
Proof.
  intros Hi. assert (Hl : zlen (frame_of h ctrl data) = 1 + zlen ctrl + zlen data + 3).
  { unfold frame_of. rewrite zlen_app, zlen_cons, zlen_app. change (zlen (fcs_octets _)) with 3. lia. }
  pose proof (zlen_nonneg data).
  rewrite rd_ok by lia. f_equal. unfold frame_of.
  replace (Z.to_nat (1 + i)) with (S (Z.to_nat i)) by lia.
  cbn [app nth]. rewrite <- app_assoc. apply app_nth1. unfold zlen in Hi. lia.
Qed.

(** Destructuring of the decoder on an encoder-made frame, up to the format switch. *)
Ltac start_decode h c0 crest data Hs Hc Hd :=
  let Hl := fresh "Hl" in let R0 := fresh "R0" in let R1 := fresh "R1" in
  let T0 := fresh "T0" in let T1 := fresh "T1" in let T2 := fresh "T2" in let Hf := fresh "Hf" in
  let A0 := fresh "A0" in let A1 := fresh "A1" in let A2 := fresh "A2" in let A3 := fresh "A3" in
  let A4 := fresh "A4" in
  destruct (decode_prefix h c0 crest data Hs Hc Hd) as (Hl & R0 & R1 & f0 & f1 & f2 & T0 & T1 & T2 & Hf);
  destruct (addr_decodes h Hs) as (A0 & A1 & A2 & A3 & A4);
  pose proof (zlen_nonneg data);
  unfold pdu_decode; rewrite T0, T1, T2, R0, R1; cbn [bind]; rewrite Hf, A1, A2, A3, A4;
  rewrite Hl; cbn [zlen length Z.of_nat] in *.

Ltac finish_decode data :=
  match goal with |- Ok (mkdec _ (Some (_, ?x))) = _ => replace x with (zlen data) by (unfold zlen in *; cbn [length]; lia) end;
  reflexivity.

Lemma if_lt_false {A} a b (x y : A) : b <= a -> (if a <? b then x else y) = y.
Proof. intros H. destruct (a <? b) eqn:E; [lia|reflexivity]. Qed.

Definition fcs_of (h : hdr) (ctrl data : list Z) : Z :=
  let body := enc_addr h :: ctrl ++ data in
  gprs_llc_fcs (firstn (Z.to_nat (fcs_cover (f_prot h) (zlen body))) body).

(** UI frames. *)
Lemma ui_ctrl_facts ns enc prot : 0 <= ns < 512 ->
  let c0 := Z.lor 192 (Z.land (Z.shiftr ns 6) 7) in
  let c1 := or_if prot (or_if enc (Z.shiftl (Z.land ns 63) 2) 2) 1 in
  byte c0 /\ byte c1 /\ (Z.land c0 128 =? 0) = false /\ (Z.land c0 192 =? 128) = false /\
  (Z.land c0 224 =? 192) = true /\ tst c0 16 = false /\ tst c1 2 = enc /\ tst c1 1 = prot /\
  Z.lor (Z.shiftl (Z.land c0 7) 6) (Z.shiftr c1 2) = ns.
Proof.
  intros Hn. cbv zeta.
  assert (E0 : Z.lor 192 (Z.land (Z.shiftr ns 6) 7) = 192 + ns / 64).
  { bits2arith. rewrite (lor_add 192 _ 6) by (change (2 ^ 6) with 64; lia). lia. }
  assert (E1 : or_if prot (or_if enc (Z.shiftl (Z.land ns 63) 2) 2) 1 = ns mod 64 * 4 + b2z enc * 2 + b2z prot).
  { bits2arith. unfold or_if, b2z. destruct enc, prot;
      rewrite ?(lor_add (ns mod 64 * 4) 2 2), ?(lor_add (ns mod 64 * 4) 1 2) by (change (2 ^ 2) with 4; lia);
      rewrite ?(lor_add (ns mod 64 * 4 + 2) 1 1) by (change (2 ^ 1) with 2; lia); lia. }
  rewrite E0, E1. unfold byte. bits2arith.
  rewrite (lor_add _ _ 6) by (change (2 ^ 6) with 64; destruct enc, prot; cbn [b2z]; lia).
  destruct enc, prot; cbn [b2z]; repeat split; lia.
Qed.

Lemma ui_round_trip h data : wf_ui h data -> round_trips h data.
Proof.
  intros ((Hs & Hd & Hlen & Hm & Hmac & Hfcs) & Hfmt & Hfn & Hpf & Hack & Hnr & Hns & Hsk).
  destruct (ui_ctrl_facts (h_ns h) (f_enc h) (f_prot h) Hns) as (B0 & B1 & C0 & C1 & C2 & C3 & C4 & C5 & C6).
  set (c0 := Z.lor 192 (Z.land (Z.shiftr (h_ns h) 6) 7)) in *.
  set (c1 := or_if (f_prot h) (or_if (f_enc h) (Z.shiftl (Z.land (h_ns h) 63) 2) 2) 1) in *.
  assert (Hctl : enc_ctrl h = Ok [c0; c1]) by (unfold enc_ctrl; rewrite Hfmt, Hm; reflexivity).
  assert (Hcb : bytes [c0; c1]) by (repeat constructor; apply B0 || apply B1).
  exists (frame_of h [c0; c1] data).
  exists (mkdec (mkhdr (h_sapi h) FMT_UI UI (f_cr h) false false false (f_enc h) (f_prot h) 0 (h_ns h)
                   (fcs_of h [c0; c1] data) 0 []) (Some (3, zlen data))).
  split; [apply encode_frame; assumption|].
  split; [apply frame_bytes; assumption|].
  split; [|split; [|split]].
  - pose proof (rd_frame h [c0; c1] data 1) as R2. change (1 + 1) with 2 in R2.
    start_decode h c0 [c1] data Hs Hcb Hd.
    rewrite C0, C1, C2, C3.
    rewrite !if_lt_false by (unfold zlen in *; lia).
    rewrite R2 by (cbn; lia). cbn [bind].
    change (nth (Z.to_nat 1) [c0; c1] 0) with c1.
    rewrite C4, C5, C6. finish_decode data.
  - unfold same_frame. cbn [d_hdr h_sapi h_fmt h_func f_cr f_pf f_ack f_mac f_enc f_prot h_nr h_ns h_mac h_sack].
    repeat split; assumption.
  - apply (frame_payload h [c0; c1] data).
  - apply frame_check; try assumption; try reflexivity. change (zlen [c0; c1]) with 2. lia.
Qed.

(** U frames. *)
Definition uc0 (h : hdr) (u : Z) : Z := Z.lor (or_if (f_pf h) 224 16) u.

Lemma u_round_trip h data : wf_u h data -> round_trips h data.
Proof.
  intros ((Hs & Hd & Hlen & Hm & Hmac & Hfcs) & Hfmt & Hfn & Hnodata & Hack & Henc & Hprot & Hnr & Hns & Hsk).
  assert (Hu : exists u, u_code (h_func h) = Some u /\ byte (uc0 h u) /\
    (Z.land (uc0 h u) 128 =? 0) = false /\ (Z.land (uc0 h u) 192 =? 128) = false /\
    (Z.land (uc0 h u) 224 =? 192) = false /\ tst (uc0 h u) 16 = f_pf h /\
    dec_ufunc (Z.land (uc0 h u) 15) = Some (h_func h)).
  { unfold byte, uc0. cbn [In] in Hfn.
    repeat destruct Hfn as [<-|Hfn]; [..|destruct Hfn]; eexists; (split; [reflexivity|]);
      destruct (f_pf h); vm_compute; repeat split; discriminate. }
  destruct Hu as (u & Hu & Hb & C0 & C1 & C2 & C3 & C4).
  set (c0 := uc0 h u) in *.
  assert (Hctl : enc_ctrl h = Ok [c0]) by (unfold enc_ctrl; rewrite Hfmt, Hu; reflexivity).
  assert (Hcb : bytes [c0]) by (repeat constructor; apply Hb).
  exists (frame_of h [c0] data).
  exists (mkdec (mkhdr (h_sapi h) FMT_U (h_func h) (f_cr h) (f_pf h) false false false true 0 0
                   (fcs_of h [c0] data) 0 []) (match h_func h with XID => Some (2, zlen data) | _ => None end)).
  split; [apply encode_frame; assumption|].
  split; [apply frame_bytes; assumption|].
  split; [|split; [|split]].
  - start_decode h c0 (@nil Z) data Hs Hcb Hd.
    rewrite C0, C1, C2, C3, C4.
    rewrite !if_lt_false by (unfold zlen in *; lia).
    replace (5 + 0 + zlen data - 3 - 1 - 1) with (zlen data) by lia.
    destruct (h_func h); reflexivity || (cbn [In] in Hfn; exfalso; intuition discriminate).
  - unfold same_frame. cbn [d_hdr h_sapi h_fmt h_func f_cr f_pf f_ack f_mac f_enc f_prot h_nr h_ns h_mac h_sack].
    repeat split; assumption.
  - destruct (h_func h) eqn:E; try (rewrite Hnodata by discriminate; reflexivity).
    apply (frame_payload h [c0] data).
  - apply frame_check; try assumption; try reflexivity. { change (zlen [c0]) with 1. lia. }
    cbn. now rewrite Hprot.
Qed.

(** I frames announcing RR or ACK. *)
Lemma i_ctrl_facts ns nr a b : 0 <= ns < 512 -> 0 <= nr < 512 -> 0 <= b < 2 ->
  let c0 := Z.lor (or_if a 0 64) (Z.land (Z.shiftr ns 4) 31) in
  let c1 := Z.lor (Z.shiftl (Z.land ns 15) 4) (Z.land (Z.shiftr nr 6) 7) in
  let c2 := Z.lor (Z.shiftl (Z.land nr 63) 2) (Z.land b 3) in
  byte c0 /\ byte c1 /\ byte c2 /\ (Z.land c0 128 =? 0) = true /\ tst c0 64 = a /\
  Z.lor (Z.shiftl (Z.land c0 31) 4) (Z.shiftr c1 4) = ns /\
  Z.lor (Z.shiftl (Z.land c1 7) 6) (Z.shiftr c2 2) = nr /\ Z.land c2 3 = b.
Proof.
  intros Hs Hr Hb. cbv zeta.
  assert (E0 : Z.lor (or_if a 0 64) (Z.land (Z.shiftr ns 4) 31) = 64 * b2z a + ns / 16).
  { bits2arith. unfold or_if, b2z. destruct a; [change (Z.lor 0 64) with 64|];
    [rewrite (lor_add 64 _ 6) by (change (2 ^ 6) with 64; lia)|rewrite Z.lor_0_l]; lia. }
  assert (E1 : Z.lor (Z.shiftl (Z.land ns 15) 4) (Z.land (Z.shiftr nr 6) 7) = ns mod 16 * 16 + nr / 64).
  { bits2arith. rewrite (lor_add _ _ 4) by (change (2 ^ 4) with 16; lia). lia. }
  assert (E2 : Z.lor (Z.shiftl (Z.land nr 63) 2) (Z.land b 3) = nr mod 64 * 4 + b).
  { bits2arith. rewrite (lor_add _ _ 2) by (change (2 ^ 2) with 4; lia). lia. }
  rewrite E0, E1, E2. unfold byte. bits2arith.
  rewrite (lor_add _ _ 4) by (change (2 ^ 4) with 16; destruct a; cbn [b2z]; lia).
  rewrite (lor_add _ _ 6) by (change (2 ^ 6) with 64; lia).
  destruct a; cbn [b2z]; repeat split; lia.
Qed.

Lemma i_round_trip h data : wf_i h data -> (h_func h = RR \/ h_func h = ACK) -> round_trips h data.
Proof.
  intros ((Hs & Hd & Hlen & Hm & Hmac & Hfcs) & Hfmt & Hfn & (Hskb & Hsk) & Hpf & Henc & Hprot & Hnr & Hns) Hcase.
  assert (Hb : 0 <= func_num (h_func h) - 9 < 2) by (destruct Hcase as [-> | ->]; cbn; lia).
  destruct (i_ctrl_facts (h_ns h) (h_nr h) (f_ack h) _ Hns Hnr Hb) as (B0 & B1 & B2 & C0 & C1 & C2 & C3 & C4).
  set (c0 := Z.lor (or_if (f_ack h) 0 64) (Z.land (Z.shiftr (h_ns h) 4) 31)) in *.
  set (c1 := Z.lor (Z.shiftl (Z.land (h_ns h) 15) 4) (Z.land (Z.shiftr (h_nr h) 6) 7)) in *.
  set (c2 := Z.lor (Z.shiftl (Z.land (h_nr h) 63) 2) (Z.land (func_num (h_func h) - 9) 3)) in *.
  assert (Hctl : enc_ctrl h = Ok [c0; c1; c2])
    by (unfold enc_ctrl; rewrite Hfmt; fold c0 c1 c2; destruct Hcase as [-> | ->]; reflexivity).
  assert (Hcb : bytes [c0; c1; c2]) by (repeat constructor; apply B0 || apply B1 || apply B2).
  assert (Hdf : dec_func (func_num (h_func h) - 9) = h_func h) by (destruct Hcase as [-> | ->]; reflexivity).
  assert (Hsk0 : h_sack h = []) by (destruct Hcase as [E | E]; rewrite E in Hsk; exact Hsk).
  exists (frame_of h [c0; c1; c2] data).
  exists (mkdec (mkhdr (h_sapi h) FMT_I (h_func h) (f_cr h) false (f_ack h) false false true (h_nr h) (h_ns h)
                   (fcs_of h [c0; c1; c2] data) 0 []) (Some (4, zlen data))).
  split; [apply encode_frame; assumption|].
  split; [apply frame_bytes; assumption|].
  split; [|split; [|split]].
  - pose proof (rd_frame h [c0; c1; c2] data 1) as R2. change (1 + 1) with 2 in R2.
    pose proof (rd_frame h [c0; c1; c2] data 2) as R3. change (1 + 2) with 3 in R3.
    start_decode h c0 [c1; c2] data Hs Hcb Hd.
    rewrite C0.
    rewrite !if_lt_false by (unfold zlen in *; lia).
    rewrite R2, R3 by (cbn; lia). cbn [bind].
    change (nth (Z.to_nat 1) [c0; c1; c2] 0) with c1. change (nth (Z.to_nat 2) [c0; c1; c2] 0) with c2.
    rewrite C1, C2, C3, C4, Hdf.
    destruct Hcase as [-> | ->]; finish_decode data.
  - unfold same_frame. cbn [d_hdr h_sapi h_fmt h_func f_cr f_pf f_ack f_mac f_enc f_prot h_nr h_ns h_mac h_sack].
    repeat split; assumption.
  - apply (frame_payload h [c0; c1; c2] data).
  - apply frame_check; try assumption; try reflexivity. { change (zlen [c0; c1; c2]) with 3. lia. }
    cbn. now rewrite Hprot.
Qed.

(** S frames announcing RR or ACK with the A bit clear. *)
Lemma s_ctrl_facts nr b : 0 <= nr < 512 -> 0 <= b < 2 ->
  let c0 := Z.lor 128 (Z.land (Z.shiftr nr 6) 7) in
  let c1 := Z.lor (Z.lor (or_if false 0 32) (Z.shiftl (Z.land nr 63) 2)) (Z.land b 3) in
  byte c0 /\ byte c1 /\ (Z.land c0 128 =? 0) = false /\ (Z.land c0 192 =? 128) = true /\ tst c0 32 = false /\
  Z.lor (Z.shiftl (Z.land c0 7) 6) (Z.shiftr c1 2) = nr /\ Z.land c1 3 = b.
Proof.
  intros Hr Hb. cbv zeta. unfold or_if. rewrite Z.lor_0_l.
  assert (E0 : Z.lor 128 (Z.land (Z.shiftr nr 6) 7) = 128 + nr / 64).
  { bits2arith. rewrite (lor_add 128 _ 6) by (change (2 ^ 6) with 64; lia). lia. }
  assert (E2 : Z.lor (Z.shiftl (Z.land nr 63) 2) (Z.land b 3) = nr mod 64 * 4 + b).
  { bits2arith. rewrite (lor_add _ _ 2) by (change (2 ^ 2) with 4; lia). lia. }
  rewrite E0, E2. unfold byte. bits2arith.
  rewrite (lor_add _ _ 6) by (change (2 ^ 6) with 64; lia).
  repeat split; lia.
Qed.

Lemma s_round_trip h data : wf_s h data -> (h_func h = RR \/ h_func h = ACK) -> f_ack h = false -> round_trips h data.
Proof.
  intros ((Hs & Hd & Hlen & Hm & Hmac & Hfcs) & -> & Hfmt & Hfn & (Hskb & Hsk) & Hpf & Henc & Hprot & Hnr & Hns) Hcase Hack.
  assert (Hb : 0 <= func_num (h_func h) - 9 < 2) by (destruct Hcase as [-> | ->]; cbn; lia).
  destruct (s_ctrl_facts (h_nr h) _ Hnr Hb) as (B0 & B1 & C0 & C1 & C2 & C3 & C4).
  rewrite <- Hack in B1, C3, C4 at 1.
  set (c0 := Z.lor 128 (Z.land (Z.shiftr (h_nr h) 6) 7)) in *.
  set (c1 := Z.lor (Z.lor (or_if (f_ack h) 0 32) (Z.shiftl (Z.land (h_nr h) 63) 2))
                      (Z.land (func_num (h_func h) - 9) 3)) in *.
  assert (Hctl : enc_ctrl h = Ok [c0; c1])
    by (unfold enc_ctrl; rewrite Hfmt; fold c0 c1; destruct Hcase as [-> | ->]; reflexivity).
  assert (Hcb : bytes [c0; c1]) by (repeat constructor; apply B0 || apply B1).
  assert (Hdf : dec_func (func_num (h_func h) - 9) = h_func h) by (destruct Hcase as [-> | ->]; reflexivity).
  assert (Hsk0 : h_sack h = []) by (destruct Hcase as [E | E]; rewrite E in Hsk; exact Hsk).
  exists (frame_of h [c0; c1] []).
  exists (mkdec (mkhdr (h_sapi h) FMT_S (h_func h) (f_cr h) false false false false true (h_nr h) 0
                   (fcs_of h [c0; c1] []) 0 []) None).
  split; [apply encode_frame; assumption|].
  split; [apply frame_bytes; assumption|].
  split; [|split; [|split]].
  - pose proof (rd_frame h [c0; c1] [] 1) as R2. change (1 + 1) with 2 in R2.
    start_decode h c0 [c1] (@nil Z) Hs Hcb Hd.
    rewrite C0, C1.
    rewrite !if_lt_false by (unfold zlen in *; lia).
    rewrite R2 by (cbn; lia). cbn [bind].
    change (nth (Z.to_nat 1) [c0; c1] 0) with c1.
    rewrite C2, C3, C4, Hdf. destruct Hcase as [-> | ->]; reflexivity.
  - unfold same_frame. cbn [d_hdr h_sapi h_fmt h_func f_cr f_pf f_ack f_mac f_enc f_prot h_nr h_ns h_mac h_sack].
    repeat split; assumption.
  - reflexivity.
  - apply frame_check; try assumption; try reflexivity.
    cbn. now rewrite Hprot.
Qed.

(** ** Memory safety of the decoder *)

Lemma reserved_assigned s : 0 <= s < 16 -> reserved_sapi s = false -> assigned_sapi s.
Proof.
  intros Hs. unfold reserved_sapi, assigned_sapi. cbn [In]. intros H.
  rewrite !orb_false_iff in H. lia.
Qed.

Lemma lor_bound a b k : 0 <= k -> 0 <= a < 2 ^ k -> 0 <= b < 2 ^ k -> 0 <= Z.lor a b < 2 ^ k.
Proof.
  intros Hk Ha Hb. split; [apply Z.lor_nonneg; lia|].
  destruct (Z.eq_dec (Z.lor a b) 0) as [->|Hne]; [lia|].
  apply Z.log2_lt_pow2; [assert (0 <= Z.lor a b) by (apply Z.lor_nonneg; lia); lia|].
  rewrite Z.log2_lor by lia.
  apply Z.max_lub_lt.
  - destruct (Z.eq_dec a 0) as [->|]; [|apply Z.log2_lt_pow2; lia].
    cbn. destruct (Z.eq_dec k 0) as [->|]; [|lia]. exfalso. apply Hne. assert (b = 0) as -> by (cbn in Hb; lia). reflexivity.
  - destruct (Z.eq_dec b 0) as [->|]; [|apply Z.log2_lt_pow2; lia].
    cbn. destruct (Z.eq_dec k 0) as [->|]; [|lia]. exfalso. apply Hne. assert (a = 0) as -> by (cbn in Ha; lia). reflexivity.
Qed.

Lemma nine_bits a b : byte a -> byte b -> 0 <= Z.lor (Z.shiftl (Z.land a 7) 6) (Z.shiftr b 2) < 512.
Proof.
  unfold byte. intros Ha Hb. apply (lor_bound _ _ 9); [lia|..]; bits2arith; change (2 ^ 9) with 512; lia.
Qed.

Lemma nine_bits' a b : byte a -> byte b -> 0 <= Z.lor (Z.shiftl (Z.land a 31) 4) (Z.shiftr b 4) < 512.
Proof.
  unfold byte. intros Ha Hb. apply (lor_bound _ _ 9); [lia|..]; bits2arith; change (2 ^ 9) with 512; lia.
Qed.

Lemma fcs_bits a b c : byte a -> byte b -> byte c ->
  0 <= Z.lor (Z.lor a (Z.shiftl b 8)) (Z.shiftl c 16) < 2 ^ 24.
Proof.
  unfold byte. intros Ha Hb Hc.
  apply lor_bound; [lia| apply lor_bound; [lia|..] |]; bits2arith; change (2 ^ 24) with 16777216; lia.
Qed.

Definition decode_good (bs : list Z) (r : res decoded) : Prop :=
  match r with
  | UB => s_sack_oversized bs
  | Err e => e = - EINVAL \/ e = - ENOTSUP
  | Ok d => fields_ok (d_hdr d) /\ (slice_inside bs d \/ i_sack_truncated bs)
  end.

Lemma bytes_nth_byte l i : bytes l -> byte (nth i l 0).
Proof.
  intros H. destruct (Nat.lt_ge_cases i (length l)) as [Hi|Hi].
  - unfold bytes in H. rewrite Forall_forall in H. apply H, nth_In, Hi.
  - rewrite nth_overflow by exact Hi. unfold byte; lia.
Qed.

Lemma decode_safe bs : bytes bs -> decode_good bs (pdu_decode bs).
Proof.
  intros Hb. unfold pdu_decode.
  destruct (zlen bs <? 3) eqn:E0; [left; reflexivity|].
  rewrite (rd_ok bs (zlen bs - 3)), (rd_ok bs (zlen bs - 2)), (rd_ok bs (zlen bs - 1)) by lia. cbn [bind].
  pose proof (fcs_bits _ _ _ (nth_byte bs (zlen bs - 3) Hb ltac:(lia)) (nth_byte bs (zlen bs - 2) Hb ltac:(lia))
    (nth_byte bs (zlen bs - 1) Hb ltac:(lia))) as Hfcs.
  set (fcs := Z.lor _ _) in *.
  destruct (zlen bs - 3 <? 1) eqn:E1; [left; reflexivity|].
  rewrite (rd_ok bs 0) by lia. cbn [bind].
  set (addr := nth (Z.to_nat 0) bs 0).
  destruct (tst addr 128); [left; reflexivity|].
  destruct (reserved_sapi (Z.land addr 15)) eqn:E2; [left; reflexivity|].
  assert (Hsapi : assigned_sapi (Z.land addr 15)) by (apply reserved_assigned; [bits2arith; lia|exact E2]).
  destruct (zlen bs - 3 - 1 <? 1) eqn:E3; [left; reflexivity|].
  rewrite (rd_ok bs 1) by lia. cbn [bind].
  pose proof (nth_byte bs 1 Hb ltac:(lia)) as Hc0. set (c0 := nth (Z.to_nat 1) bs 0) in *.
  assert (R1 : rd bs 1 = Ok c0) by (apply rd_ok; lia).
  destruct (Z.land c0 128 =? 0) eqn:F0.
  { (* I *)
    destruct (zlen bs - 3 - 1 <? 3) eqn:E4; [left; reflexivity|].
    rewrite (rd_ok bs 2), (rd_ok bs 3) by lia. cbn [bind].
    pose proof (nth_byte bs 2 Hb ltac:(lia)) as Hc1. set (c1 := nth (Z.to_nat 2) bs 0) in *.
    pose proof (nth_byte bs 3 Hb ltac:(lia)) as Hc2. set (c2 := nth (Z.to_nat 3) bs 0) in *.
    assert (R3 : rd bs 3 = Ok c2) by (apply rd_ok; lia).
    pose proof (nine_bits c1 c2 Hc1 Hc2). pose proof (nine_bits' c0 c1 Hc0 Hc1).
    destruct (dec_func (Z.land c2 3)) eqn:Ef;
      try (split; [unfold fields_ok; cbn [d_hdr h_sapi h_nr h_ns h_fcs h_mac h_sack];
                   repeat split; try assumption; try lia; try (cbn; lia); constructor
                  |left; unfold slice_inside; cbn [d_data]; lia]).
    destruct (zlen bs - 3 - 1 - 3 <? 1) eqn:E5; [left; reflexivity|].
    rewrite (rd_ok bs 4) by lia. cbn [bind].
    pose proof (nth_byte bs 4 Hb ltac:(lia)) as Hk. set (k := nth (Z.to_nat 4) bs 0) in *.
    assert (R4 : rd bs 4 = Ok k) by (apply rd_ok; lia).
    set (slen := Z.land k 31 + 1).
    assert (Hslen : 1 <= slen <= 32) by (unfold slen; bits2arith; lia).
    destruct (zlen bs - 3 - 1 - 3 <? slen) eqn:E6; [left; reflexivity|].
    unfold dec_sack. destruct (32 <? slen) eqn:E7; [lia|].
    rewrite rdn_ok by lia. cbn [bind]. split.
    - unfold fields_ok; cbn [d_hdr h_sapi h_nr h_ns h_fcs h_mac h_sack].
      assert (Hsl : zlen (slice (Z.to_nat 5) (Z.to_nat slen) bs) <= 32).
      { unfold zlen, slice. rewrite firstn_length. lia. }
      repeat split; try assumption; try lia. apply bytes_slice; assumption.
    - unfold slice_inside. cbn [d_data]. unfold usub64.
      destruct (Z.eq_dec (zlen bs - 3 - 1 - 3) slen) as [Heq|Hne].
      + right. exists c0, c2, k. repeat split; try assumption.
        * unfold byte in Hc0. rewrite land_128 in F0. lia.
        * unfold dec_func in Ef. bits2arith.
          destruct (c2 mod 4 =? 0) eqn:?; [discriminate|]. destruct (c2 mod 4 =? 1) eqn:?; [discriminate|].
          destruct (c2 mod 4 =? 2) eqn:?; [discriminate|]. lia.
        * unfold slen in Heq. rewrite land_31 in Heq. lia.
      + left. destruct (Z.lt_ge_cases (zlen bs) (2 ^ 64)) as [Hlt|Hge].
        * rewrite Z.mod_small by lia. lia.
        * pose proof (Z.mod_le (zlen bs - 3 - 1 - 3 - (1 + slen)) (2 ^ 64) ltac:(lia) ltac:(lia)).
          pose proof (Z.mod_pos_bound (zlen bs - 3 - 1 - 3 - (1 + slen)) (2 ^ 64) ltac:(lia)). lia. }
  destruct (Z.land c0 192 =? 128) eqn:F1.
  { (* S *)
    destruct (zlen bs - 3 - 1 <? 2) eqn:E4; [left; reflexivity|].
    rewrite (rd_ok bs 2) by lia. cbn [bind].
    pose proof (nth_byte bs 2 Hb ltac:(lia)) as Hc1. set (c1 := nth (Z.to_nat 2) bs 0) in *.
    assert (R2 : rd bs 2 = Ok c1) by (apply rd_ok; lia).
    pose proof (nine_bits c0 c1 Hc0 Hc1).
    destruct (dec_func (Z.land c1 3)) eqn:Ef;
      try (split; [unfold fields_ok; cbn [d_hdr h_sapi h_nr h_ns h_fcs h_mac h_sack];
                   repeat split; try assumption; try lia; try (cbn; lia); constructor
                  |left; exact I]).
    destruct (zlen bs - 3 - 1 - 2 <? 1) eqn:E5; [left; reflexivity|].
    unfold dec_sack. destruct (32 <? (zlen bs - 3 - 1 - 2) mod 256) eqn:E6.
    - cbn [bind]. exists c0, c1. repeat split; try assumption.
      + unfold byte in Hc0. rewrite land_192 in F1. lia.
      + unfold dec_func in Ef. rewrite land_3 in Ef.
          destruct (c1 mod 4 =? 0) eqn:?; [discriminate|]. destruct (c1 mod 4 =? 1) eqn:?; [discriminate|].
          destruct (c1 mod 4 =? 2) eqn:?; [discriminate|]. lia.
      + replace (zlen bs - 6) with (zlen bs - 3 - 1 - 2) by lia. lia.
    - rewrite rdn_ok by lia. cbn [bind]. split; [|left; exact I].
      unfold fields_ok; cbn [d_hdr h_sapi h_nr h_ns h_fcs h_mac h_sack].
      set (sl := (zlen bs - 3 - 1 - 2) mod 256) in *.
      assert (Hsl : zlen (slice (Z.to_nat 3) (Z.to_nat sl) bs) <= 32).
      { unfold zlen, slice. rewrite firstn_length. lia. }
      repeat split; try assumption; try lia. apply bytes_slice; assumption. }
  destruct (Z.land c0 224 =? 192) eqn:F2.
  { (* UI *)
    destruct (zlen bs - 3 - 1 <? 2) eqn:E4; [left; reflexivity|].
    rewrite (rd_ok bs 2) by lia. cbn [bind].
    pose proof (nth_byte bs 2 Hb ltac:(lia)) as Hc1. set (c1 := nth (Z.to_nat 2) bs 0) in *.
    pose proof (nine_bits c0 c1 Hc0 Hc1).
    destruct (tst c0 16).
    - destruct (zlen bs - 3 - 1 - 2 <? 4) eqn:E5; [left; reflexivity|].
      rewrite rdn_ok by lia. cbn [bind]. split; [|left; unfold slice_inside; cbn [d_data]; lia].
      set (m := slice _ _ bs). assert (Hm : bytes m) by (apply bytes_slice, Hb).
      pose proof (bytes_nth_byte m 0 Hm). pose proof (bytes_nth_byte m 1 Hm).
      pose proof (bytes_nth_byte m 2 Hm). pose proof (bytes_nth_byte m 3 Hm). unfold byte in *.
      unfold fields_ok; cbn [d_hdr h_sapi h_nr h_ns h_fcs h_mac h_sack].
      change (2 ^ 32) with 4294967296.
      repeat split; try assumption; try lia; try (cbn; lia). constructor.
    - split; [|left; unfold slice_inside; cbn [d_data]; lia].
      unfold fields_ok; cbn [d_hdr h_sapi h_nr h_ns h_fcs h_mac h_sack].
      repeat split; try assumption; try lia; try (cbn; lia). constructor. }
  destruct (dec_ufunc (Z.land c0 15)) as [f|]; [|right; reflexivity].
  destruct f; (split; [unfold fields_ok; cbn [d_hdr h_sapi h_nr h_ns h_fcs h_mac h_sack];
                   repeat split; try assumption; try lia; try (cbn; lia); constructor
                  |left; unfold slice_inside; cbn [d_data]; try lia; exact I]).
Qed.
