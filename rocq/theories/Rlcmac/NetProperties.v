(** C122: what a network puts into the structures of three downlink messages arrives at the mobile. *)
From Coq Require Import ZArith List Bool Lia.
From Verif Require Import Lib.Base Csn1.Csn1Model Csn1.Csn1Tables Csn1.Csn1DlModel Csn1.Csn1UlModel Csn1.Csn1Layout Csn1.Csn1Step Csn1.Csn1DnModel Csn1.Csn1Properties.
From Verif Require Import Rlcmac.FnProperties Rlcmac.UlTbfModel Rlcmac.SchedModel Rlcmac.CcchSpec Rlcmac.CcchModel Rlcmac.CcchProperties
  Rlcmac.PdchModel Rlcmac.PdchSpec Rlcmac.PdchProperties Rlcmac.NetSpec Rlcmac.NetMsgs.
Import ListNotations.
Open Scope Z_scope.

Lemma header_size rrbp sp usf o : In (size (header rrbp sp usf o)) [8; 16; 24; 32].
Proof. destruct o as [[rbsn rti fs [[[? ?] ?]|] [[[? ?] ?]|]]|]; cbn; auto. Qed.
Lemma header_16 rrbp sp usf o : size (header rrbp sp usf o) + (184 - size (header rrbp sp usf o)) = 184.
Proof. lia. Qed.
Ltac fits := repeat (apply Forall_app; split); repeat (apply Forall_cons; [cbn [item_ok]; first [exact Logic.I | change (2 ^ Z.of_nat 1) with 2; change (2 ^ Z.of_nat 2) with 4; change (2 ^ Z.of_nat 3) with 8; change (2 ^ Z.of_nat 4) with 16; change (2 ^ Z.of_nat 5) with 32; change (2 ^ Z.of_nat 6) with 64; change (2 ^ Z.of_nat 7) with 128; change (2 ^ Z.of_nat 8) with 256; change (2 ^ Z.of_nat 10) with 1024; change (2 ^ Z.of_nat 13) with (2 ^ 13); change (2 ^ Z.of_nat 32) with (2 ^ 32); lia] |]); try apply Forall_nil.

(** Packet Uplink Ack/Nack: the TBF with the TFI gets the channel coding, the final indication, the report, TBF_EST and the block
    for the answer that the network set in the structure, whatever optional octets the header has. *)
Theorem C122_ack_nack_arrives :
  forall rfn2fn past s who tn fn rrbp sp usf o mode tfi ccc final ssn bm tlli est g,
  (forall x, o = Some x -> opt_ok x) -> items_ok (header rrbp sp usf o) ->
  0 <= mode < 4 -> 0 <= tfi < 32 -> 0 <= ccc < 4 -> 0 <= final < 2 -> 0 <= ssn < 128 -> length bm = 8%nat -> Forall (fun b => 0 <= b < 256) bm ->
  maybe (fun t => 0 <= t < 2 ^ 32) tlli -> maybe (fun e => 0 <= e < 2) est ->
  block_start fn -> In g (gres s) -> has_ul_tfi tfi g ->
  exists blk poll, create_dl (net_header rrbp sp usf o) (net_ack mode tfi ccc final ssn bm tlli est) = Some blk /\ answer_at fn sp rrbp poll /\
    pdch_data_ind rfn2fn past s who tn fn blk =
      PAck (UlAckNack tn tfi poll (final =? 1) (match est with Some e => e =? 1 | None => false end) ccc) (final =? 1) ssn bm.
Proof.
  intros until g. intros O H Hm Ht Hc Hf Hs L B Tl Te S I U.
  destruct (enc_ack (size (header rrbp sp usf o)) mode tfi ccc final ssn bm tlli est (header_size _ _ _ _) L) as (more & E & Sz).
  { intros t ->. exact Tl. }
  destruct (net_block rrbp sp usf o (net_ack mode tfi ccc final ssn bm tlli est) Packet_Uplink_Ack_Nack_t sz_Packet_Uplink_Ack_Nack_t
    (ul_ack_nack mode tfi ccc final ssn bm tlli None None None 0 (ack_add est more)) O) as (blk & C & K).
  - apply Forall_app. split; [exact H|]. unfold ul_ack_nack. destruct tlli as [t|], est as [e|]; cbn [opt additions ack_add fst snd maybe] in *; fits;
      apply Forall_map; eapply Forall_impl; [|exact B| |exact B| |exact B| |exact B]; intros b Hb; cbn [item_ok]; change (2 ^ Z.of_nat 8) with 256; exact Hb.
  - destruct tlli, est; reflexivity.
  - lia.
  - exact E.
  - destruct (C54_ack_nack_from_the_bits_partial rfn2fn past s who tn fn blk rrbp sp usf o _ _ _ _ _ _ _ _ _ _ _ _ g K) as (poll & A & D); try assumption.
    { split; [exact L|]. split; discriminate. }
    exists blk, poll. split; [exact C|]. split; [exact A|]. rewrite D. destruct est; reflexivity.
Qed.
Print Assumptions C122_ack_nack_arrives.

(** Packet Downlink Assignment: the first entity it is meant for gets the TFI, the timeslots, the starting time, CONTROL_ACK and the
    block for the answer. *)
Theorem C122_downlink_assignment_arrives :
  forall rfn2fn past s who tn fn rrbp sp usf o mode whom mac rlc ack slots ta freq tfi start g,
  (forall x, o = Some x -> opt_ok x) -> items_ok (header rrbp sp usf o) ->
  0 <= mode < 4 -> id_fits whom -> 0 <= mac < 4 -> 0 <= rlc < 2 -> 0 <= ack < 2 -> 0 <= slots < 256 -> maybe (fun v => 0 <= v < 64) ta ->
  freq_fits freq -> maybe (fun t => 0 <= t < 32) tfi -> start_fits start -> frame_ok start ->
  0 <= fn < 2715648 -> block_start fn -> first_of (meant who whom) (gres s) g ->
  exists blk poll st, create_dl (net_header rrbp sp usf o) (net_dl_ass mode whom mac rlc ack slots ta freq tfi start) = Some blk /\
    answer_at fn sp rrbp poll /\ begins rfn2fn fn start st /\
    pdch_data_ind rfn2fn past s who tn fn blk = PEvent (DlPktAss (g_id g) tn fn poll tfi st (number slots 8) (ack =? 1)).
Proof.
  intros until g. intros O H Hm Hw Hc Hr Ha Hs Hta Hfr Htf Hst Fo Rf S W.
  destruct (enc_dl_ass (size (header rrbp sp usf o)) mode whom mac rlc ack slots ta freq tfi start (header_size _ _ _ _)) as (more & E & Sz).
  { intros t ->. exact Hw. } { intros k ->. cbn [start_fits] in Hst. lia. } { intros f ->. destruct f as [tsc f]. cbn [freq_fits snd] in *. lia. }
  destruct (net_block rrbp sp usf o (net_dl_ass mode whom mac rlc ack slots ta freq tfi start) Packet_Downlink_Assignment_t sz_Packet_Downlink_Assignment_t
    (dl_assignment mode None whom mac rlc ack slots (ta, None) None (option_map freq_of freq) tfi None start None (inl (Some more))) O) as (blk & C & K).
  - apply Forall_app. split; [exact H|]. unfold dl_assignment, timing_advance.
    destruct whom as [[?|?]|?], ta, freq as [[? ?]|], tfi, start as [[[[? ?] ?]|?]|];
      cbn [opt additions fst snd maybe option_map addressee global_tfi starting_frame starting_time freq_of freq_items id_fits start_fits freq_fits app] in *; fits.
  - destruct whom as [[?|?]|?], ta, freq as [[? ?]|], tfi, start as [[[[? ?] ?]|?]|]; reflexivity.
  - lia.
  - exact E.
  - destruct (C56_downlink_assignment_from_the_bits rfn2fn past s who tn fn blk rrbp sp usf o _ _ _ _ _ _ _ _ _ _ _ _ _ _ _ g K) as (poll & st & A & Bg & D);
      try assumption; try discriminate.
    { intros x Ex. destruct freq; [|discriminate]. injection Ex as <-. exact Logic.I. }
    exists blk, poll, st. split; [exact C|]. split; [exact A|]. split; [exact Bg|]. exact D.
Qed.
Print Assumptions C122_downlink_assignment_arrives.

(** Packet Uplink Assignment, dynamic allocation of one timeslot: the first entity it is meant for, when it has an uplink TBF. *)
Theorem C122_uplink_assignment_arrives_partial :
  forall rfn2fn past s who tn fn rrbp sp usf o mode whom ccc tbcc freq tfi start slot u g,
  (forall x, o = Some x -> opt_ok x) -> items_ok (header rrbp sp usf o) ->
  0 <= mode < 4 -> id_fits whom -> 0 <= ccc < 4 -> 0 <= tbcc < 2 -> freq_fits freq -> 0 <= tfi < 32 -> start_fits start -> frame_ok start ->
  (slot < 8)%nat -> 0 <= u < 8 -> 0 <= fn < 2715648 -> block_start fn -> first_of (meant who whom) (gres s) g -> g_ul g <> None ->
  exists blk poll st slots, create_dl (net_header rrbp sp usf o) (net_ul_ass mode whom ccc tbcc freq tfi start slot u) = Some blk /\
    answer_at fn sp rrbp poll /\ begins rfn2fn fn start st /\
    length slots = 8%nat /\ nth_error slots slot = Some (Some u) /\ (forall i, (i < 8)%nat -> i <> slot -> nth_error slots i = Some None) /\
    pdch_data_ind rfn2fn past s who tn fn blk = PEvent (UlPktAss (g_id g) tn fn poll (PuaDynamic (Some tfi) ccc st slots)).
Proof.
  intros until g. intros O H Hm Hw Hc Hb Hfr Htf Hst Fo Hsl Hu Rf S W U.
  destruct (enc_ul_ass (size (header rrbp sp usf o)) mode whom ccc tbcc freq tfi start slot u (header_size _ _ _ _) Hsl) as (more & E & Sz).
  { intros t ->. exact Hw. } { intros k ->. cbn [start_fits] in Hst. lia. } { intros f ->. destruct f as [tsc f]. cbn [freq_fits snd] in *. lia. }
  destruct (net_block rrbp sp usf o (net_ul_ass mode whom ccc tbcc freq tfi start slot u) Packet_Uplink_Assignment_t sz_Packet_Uplink_Assignment_t
    (ul_assignment mode None whom ccc tbcc (None, None) (option_map freq_of freq) 0 None 0 (Some tfi) None start (inl (NetMsgs.one_slot slot u)) (inl (Some more))) O) as (blk & C & K).
  - apply Forall_app. split; [exact H|]. unfold ul_assignment, timing_advance.
    assert (G : items_ok (slot_items (inl (NetMsgs.one_slot slot u)))).
    { clear - Hsl Hu. do 8 (destruct slot as [|slot]; [unfold NetMsgs.one_slot; cbn [slot_items seq map Nat.eqb flat_map opt app]; unfold items_ok; fits|]). lia. }
    destruct whom as [[?|?]|?], freq as [[? ?]|], start as [[[[? ?] ?]|?]|];
      cbn [opt additions fst snd maybe option_map addressee global_tfi starting_frame starting_time freq_of freq_items id_fits start_fits freq_fits app] in *;
      repeat (apply Forall_cons; [cbn [item_ok]; first [exact Logic.I | change (2 ^ Z.of_nat 1) with 2; change (2 ^ Z.of_nat 2) with 4; change (2 ^ Z.of_nat 3) with 8; change (2 ^ Z.of_nat 5) with 32; change (2 ^ Z.of_nat 6) with 64; change (2 ^ Z.of_nat 10) with 1024; change (2 ^ Z.of_nat 13) with (2 ^ 13); change (2 ^ Z.of_nat 32) with (2 ^ 32); lia] |]);
      (apply Forall_app; split; [first [exact G|exact (Forall_inv_tail G)]|]); fits.
  - do 8 (destruct slot as [|slot]; [destruct whom as [[?|?]|?], freq as [[? ?]|], start as [[[[? ?] ?]|?]|]; reflexivity|]). lia.
  - lia.
  - exact E.
  - destruct (C55_uplink_assignment_from_the_bits rfn2fn past s who tn fn blk rrbp sp usf o _ _ _ _ _ _ _ _ _ _ _ _ _ _ _ g K) as (poll & st & A & Bg & D);
      try assumption; try discriminate.
    { intros x Ex. destruct freq; [|discriminate]. injection Ex as <-. exact Logic.I. }
    { cbn [usf_of]. unfold NetMsgs.one_slot. rewrite map_length. reflexivity. }
    cbn [usf_of] in D. exists blk, poll, st, (NetMsgs.one_slot slot u). split; [exact C|]. split; [exact A|]. split; [exact Bg|].
    split; [unfold NetMsgs.one_slot; rewrite map_length; reflexivity|].
    split; [clear - Hsl; do 8 (destruct slot as [|slot]; [reflexivity|]); lia|]. split; [|exact D].
    intros i Hi Ni. unfold NetMsgs.one_slot. erewrite map_nth_error by (instantiate (1 := i); clear - Hi; do 8 (destruct i as [|i]; [reflexivity|]); lia).
    destruct (Nat.eqb_spec i slot); [contradiction|reflexivity].
Qed.
Print Assumptions C122_uplink_assignment_arrives_partial.

(** *** The hypotheses can be met: the TBF with TFI 5 of C54's example, a header with all optional octets. *)
Definition full_opt : opt_octets := mkOpt 1 7 0 (Some (1, 5, 0)) (Some (2, 1, 0)).
Example C122_ack_meets :
  (forall x, Some full_opt = Some x -> opt_ok x) /\ items_ok (header 1 1 3 (Some full_opt)) /\ block_start 2715643 /\
  (exists g, In g (gres two_tbfs) /\ has_ul_tfi 5 g) /\
  match create_dl (net_header 1 1 3 (Some full_opt)) (net_ack 0 5 2 1 3 [0; 0; 0; 0; 0; 0; 0; 7] (Some 0xc0001234) (Some 1)) with
  | Some blk => pdch_data_ind no_rfn no_past two_tbfs ids 4 2715643 blk = PAck (UlAckNack 4 5 (Some 13) true true 2) true 3 [0; 0; 0; 0; 0; 0; 0; 7]
  | None => False
  end.
Proof.
  split; [intros x [= <-]; split; [discriminate|split; reflexivity]|]. split; [unfold items_ok, header, full_opt; cbn [o_rbsn o_rti o_fs o_ac o_ext app]; fits|].
  split; [unfold block_start; lia|]. split; [|vm_compute; reflexivity].
  destruct ul5_there as (a & b & E & H & _). eexists. split; [rewrite E; apply in_or_app; right; left; reflexivity|exact H].
Qed.
Example C122_assignments_meet :
  (exists g, first_of (meant ids (inl (inr 7))) (gres two_tbfs) g) /\ start_fits (Some (inl (13, 40, 21))) /\ frame_ok (Some (inl (13, 40, 21))) /\
  match create_dl (net_header 2 1 0 None) (net_dl_ass 0 (inl (inr 7)) 0 0 1 0x18 (Some 3) (Some (2, 871)) (Some 12) (Some (inl (13, 40, 21)))) with
  | Some blk => pdch_data_ind no_rfn no_past two_tbfs ids 4 0 blk =
      PEvent (DlPktAss 1 4 0 (Some 21) (Some 12) (Some 18247) [false; false; false; true; true; false; false; false] true)
  | None => False
  end /\
  match create_dl (net_header 0 0 0 None) (net_ul_ass 0 (inr 0xc0001234) 3 1 (Some (2, 871)) 9 (Some (inr 5)) 6 4) with
  | Some blk => pdch_data_ind no_rfn no_past two_tbfs ids 6 2715643 blk =
      PEvent (UlPktAss 1 6 2715643 None (PuaDynamic (Some 9) 3 (Some 21) [None; None; None; None; None; None; Some 4; None]))
  | None => False
  end.
Proof.
  split; [|split; [cbn; lia|split; [cbn; lia|split; vm_compute; reflexivity]]].
  eexists. exists [mkGre 8 None None None false], []. split; [reflexivity|]. split; [eexists; split; reflexivity|].
  constructor; [|constructor]. intros (d & [=] & _).
Qed.
