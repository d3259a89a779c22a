(** C130: after LLGMM-RESET both ends of the GMM link are in step. *)
From Coq Require Import Bool.
From Verif.Lib Require Import Base Outcome.
From Verif.Llc Require Import Crc24Model PduModel PduProofs XidModel XidSpec XidProofs XidProperties LlcModel LlcSpec LlcProofs LlcProperties.

(** C130 (refuted): the SGSN sends five messages, resets the link and sends one more; the MS gets every frame, in order and undamaged, but the
    message after the reset is not delivered: it is taken for a repetition of the first. *)
Theorem C130_in_step_refuted : exists t before rnd data s1 o s2 o', 
  run (ex_env LOC_SGSN) [] (map (fun d => LlUnitdata t 1 d 1) before ++ [GmmReset t rnd; LlUnitdata t 1 data 1]) = Ok (s1, o) /\
  zlen (frames o) = zlen before + 2 /\
  run (ex_env LOC_MS) [] (map (RxPdu t) (frames o)) = Ok (s2, o') /\
  delivered o' = map (fun d => (t, 1, d)) before /\ ~ In (t, 1, data) (delivered o').
Proof.
  exists 3221225473, [[1]; [2]; [3]; [4]; [5]], 7, [6]. do 4 eexists.
  split; [vm_compute; reflexivity|]. split; [vm_compute; reflexivity|]. split; [vm_compute; reflexivity|].
  split; [vm_compute; reflexivity|]. vm_compute. intuition discriminate.
Qed.

Lemma land_ui c : byte c -> Z.land c 224 = 192 -> c / 32 = 6.
Proof.
  intros B H. assert (G : forallb (fun n => negb (Z.land (Z.of_nat n) 224 =? 192) || (Z.of_nat n / 32 =? 6)) (seq 0 256) = true) by (vm_compute; reflexivity).
  rewrite forallb_forall in G. unfold byte in B. specialize (G (Z.to_nat c)). rewrite Z2Nat.id in G by lia.
  rewrite H in G. rewrite Z.eqb_refl in G. cbn [negb orb] in G. apply Z.eqb_eq, G. apply in_seq. lia.
Qed.
(** What decodes as a UI frame has an N(U). *)
Lemma dec_ui pdu d : bytes pdu -> pdu_decode pdu = Ok d -> h_func (d_hdr d) = UI -> ui_number pdu <> None.
Proof.
  intros B H F. unfold pdu_decode in H. destruct (Z.ltb_spec (zlen pdu) 3) as [L|L]; [discriminate|].
  destruct pdu as [|a [|c0 [|c1 r]]]; try (cbn in L; lia).
  assert (R1 : rd (a :: c0 :: c1 :: r) 1 = Ok c0) by (rewrite rd_ok by lia; reflexivity).
  assert (Bc : byte c0) by (inversion B as [|? ? _ B']; inversion B'; assumption).
  destruct (rd _ (_ - 3)) as [f0| |]; cbn [bind] in H; try discriminate. destruct (rd _ (_ - 2)) as [f1| |]; cbn [bind] in H; try discriminate.
  destruct (rd _ (_ - 1)) as [f2| |]; cbn [bind] in H; try discriminate. cbv zeta in H.
  destruct (_ <? 1); try discriminate. destruct (rd _ 0) as [ad| |]; cbn [bind] in H; try discriminate.
  destruct (tst ad 128); try discriminate. destruct (reserved_sapi _); try discriminate. destruct (_ <? 1); try discriminate.
  rewrite R1 in H. cbn [bind] in H. unfold ui_number.
  destruct (Z.land c0 128 =? 0).
  { exfalso. destruct (_ <? 3); try discriminate. destruct (rd _ 2) as [x2| |]; cbn [bind] in H; try discriminate.
    destruct (rd _ 3) as [x3| |]; cbn [bind] in H; try discriminate. unfold dec_func in H.
    repeat (destruct (_ =? _) in H; [injection H as <-; discriminate F|]).
    destruct (_ <? 1); try discriminate. destruct (rd _ 4) as [x4| |]; cbn [bind] in H; try discriminate. destruct (_ <? _); try discriminate.
    destruct (dec_sack _ _ _) as [x5| |]; cbn [bind] in H; try discriminate. injection H as <-. discriminate F. }
  destruct (Z.land c0 192 =? 128).
  { exfalso. destruct (_ <? 2); try discriminate. destruct (rd _ 2) as [x2| |]; cbn [bind] in H; try discriminate. unfold dec_func in H.
    repeat (destruct (_ =? _) in H; [injection H as <-; discriminate F|]).
    destruct (_ <? 1); try discriminate. destruct (dec_sack _ _ _) as [x5| |]; cbn [bind] in H; try discriminate. injection H as <-. discriminate F. }
  destruct (Z.eqb_spec (Z.land c0 224) 192) as [E|E].
  { rewrite (land_ui c0 Bc E). discriminate. }
  exfalso. unfold dec_ufunc in H.
  repeat (destruct (_ =? _) in H; [injection H as <-; discriminate F|]). discriminate.
Qed.

Lemma nth_upd_same {A} (l : list A) k x d : (k < length l)%nat -> nth k (upd l k x) d = x.
Proof. revert k. induction l as [|y l IH]; intros [|k] H; cbn in *; try lia; auto. apply IH. lia. Qed.
Lemma nth_upd_other {A} (l : list A) j k x d : j <> k -> nth j (upd l k x) d = nth j l d.
Proof. revert j k. induction l as [|y l IH]; intros [|j] [|k] H; cbn; auto; try congruence. Qed.
Lemma nth_error_upd {A} (l : list A) k x y : nth_error l k = Some y -> nth_error (upd l k x) k = Some x.
Proof. revert k. induction l as [|z l IH]; intros [|k] H; cbn in *; try discriminate; auto. Qed.

Lemma tx_xid_resp_vr e m l l3 l' o rc : tx_xid_resp e m l l3 = Ok (l', o, rc) -> vu_recv l' = vu_recv l.
Proof.
  unfold tx_xid_resp. destruct (xid_encode _ _) as [b|er|]; try discriminate.
  - destruct (tx_xid_ok e m l b) as (p & -> & _). cbn [bind]. intros H. injection H as <- _ _. reflexivity.
  - intros H. injection H as <- _ _. reflexivity.
Qed.
Lemma hdr_rx_vr e m l pdu d l' o go : h_func (d_hdr d) <> UI -> hdr_rx e m l pdu d = Ok (l', o, go) -> vu_recv l' = vu_recv l.
Proof.
  intros N H. unfold hdr_rx in H. destruct (h_func (d_hdr d)); try congruence;
    try (destruct (tx_dm_ok m l) as (p & E & _); rewrite E in H; cbn [bind] in H); try (injection H as <- _ _; reflexivity).
  destruct (cr_is_cmd _ _).
  - unfold process_xid_ind in H. destruct (xid_decode _ 16) as [fs|er|]; try discriminate; [|injection H as <- _ _; reflexivity].
    destruct (xid_ind_scan l fs) as [[[nu ni] ch] l3]. destruct l3 as [x|]; [injection H as <- _ _; reflexivity|].
    destruct (tx_xid_resp _ _ _ _) as [[[l2 o2] rc]| |] eqn:T; cbn [bind] in H; try discriminate.
    apply tx_xid_resp_vr in T. injection H as <- _ _. exact T.
  - unfold process_xid_conf in H. destruct (xid_decode _ 16) as [fs|er|]; try discriminate; injection H as <- _ _; reflexivity.
Qed.

(** C130: why: V(UR) of every link stays what it was whenever anything but a UI frame is received, so also when an XID frame with the Reset
    parameter is. *)
Theorem C130_reset_ignored_partial : forall e s t pdu s' o rc i m, bytes pdu -> ui_number pdu = None ->
  find_llme s t = Some (i, m) -> nth_error s i = Some m -> step e s (RxPdu t pdu) = Ok (s', o, rc) ->
  exists m', nth_error s' i = Some m' /\ forall k, vu_recv (get_lle m' k) = vu_recv (get_lle m k).
Proof.
  intros e s t pdu s' o rc i m B U Hf Hn H. cbn [step] in H. destruct (pdu_decode pdu) as [d|er|] eqn:D; try discriminate.
  2:{ injection H as <- _ _. eauto. }
  destruct (negb _); [injection H as <- _ _; eauto|]. unfold lle_for_rx in H. rewrite Hf in H.
  destruct (lle_rx _ _ _ _ _) as [[[l' o'] rc']| |] eqn:L; cbn [bind] in H; try discriminate. injection H as <- _ _.
  exists (set_lle m (h_sapi (d_hdr d)) l'). split; [eapply nth_error_upd, Hn|].
  assert (V : vu_recv l' = vu_recv (get_lle m (h_sapi (d_hdr d)))).
  { assert (N : h_func (d_hdr d) <> UI) by (intros F; exact (dec_ui _ _ B D F U)).
    unfold lle_rx in L. destruct (f_enc _); [injection L as <- _ _; reflexivity|]. destruct (negb _).
    - destruct (6 <=? zlen pdu); [injection L as <- _ _; reflexivity|].
      destruct (memcmp_dummy _ _ _) as [b| |]; cbn [bind] in L; try discriminate. injection L as <- _ _. reflexivity.
    - destruct (hdr_rx _ _ _ _ _) as [[[l1 o1] go]| |] eqn:R; cbn [bind] in L; try discriminate.
      apply (hdr_rx_vr _ _ _ _ _ _ _ _ N) in R. destruct (negb go); [injection L as <- _ _; exact R|].
      destruct (h_func (d_hdr d)); try congruence; injection L as <- _ _; exact R. }
  intros k. unfold get_lle, set_lle, set_lles in *. cbn [m_lle].
  destruct (Nat.eq_dec (Z.to_nat k) (Z.to_nat (h_sapi (d_hdr d)))) as [E|E]; [|rewrite nth_upd_other by exact E; reflexivity].
  rewrite E. destruct (Nat.ltb_spec (Z.to_nat (h_sapi (d_hdr d))) (length (m_lle m))) as [Q|Q].
  - rewrite nth_upd_same by exact Q. rewrite V. f_equal. apply nth_indep, Q.
  - assert (UN : upd (m_lle m) (Z.to_nat (h_sapi (d_hdr d))) l' = m_lle m).
    { clear - Q. revert Q. generalize (m_lle m) (Z.to_nat (h_sapi (d_hdr d))). induction l as [|y l IH]; intros [|n] Q; cbn in *; auto; try lia. rewrite IH by lia. reflexivity. }
    rewrite UN. reflexivity.
Qed.

(** C130 (partial): the end that resets does its part: its numbers start anew on the GMM link and stay as they were on every other, and it sends
    one XID frame, whose fields are Reset and the new IOV-UI.  Missing for the full claim: the other end. *)
Theorem C130_reset_sent_partial : forall e s t rnd i m, find_llme s t = Some (i, m) -> nth_error s i = Some m -> length (m_lle m) = 16%nat ->
  exists m' pdu a info f, step e s (GmmReset t rnd) = Ok (upd s i m', [Down (m_tlli m) (l_sapi (get_lle m 1)) 1 pdu], 0) /\
    vu_send (get_lle m' 1) = 0 /\ vu_recv (get_lle m' 1) = 0 /\ oc_send (get_lle m' 1) = 0 /\ oc_recv (get_lle m' 1) = 0 /\
    m_iov m' = rnd mod 2 ^ 32 /\ (forall k, 0 <= k < 16 -> k <> 1 -> get_lle m' k = get_lle m k) /\
    pdu = a :: 0xfb :: info ++ f /\ length f = 3%nat /\ xid_decode info 16 = Ok [mkx 12 0 []; mkx 1 (rnd mod 2 ^ 32) []].
Proof.
  intros e s t rnd i m Hf Hn L. cbn [step]. unfold reset_req. rewrite Hf. cbv zeta.
  assert (V : Forall valid_field [mkx T_RESET 0 []; mkx 1 (rnd mod 2 ^ 32) []]).
  { pose proof (Z.mod_pos_bound rnd (2 ^ 32) ltac:(lia)).
    constructor; [right; split; [constructor|reflexivity]|]. constructor; [right; split; [constructor; cbn [x_val]; lia|reflexivity]|constructor]. }
  destruct (xid_round_trip [mkx T_RESET 0 []; mkx 1 (rnd mod 2 ^ 32) []] 1024 16 V) as (b & E & _ & _ & D).
  { vm_compute; discriminate. }
  { vm_compute; discriminate. }
  rewrite E. unfold tx_xid. rewrite (send_ok _ _ _ _ _ [Z.lor 240 11]) by reflexivity. cbn [bind].
  set (fs := [mkx T_RESET 0 []; mkx 1 (rnd mod 2 ^ 32) []]) in *.
  match goal with |- context [Down _ _ _ (frame_of ?h [Z.lor 240 11] b)] => set (hh := h); remember (frame_of hh [Z.lor 240 11] b) as pdu eqn:P; clearbody hh end.
  set (m1 := mkllme (m_tlli m) (m_old m) (m_assigned m) (m_susp m) (rnd mod 2 ^ 32) (m_lle m)).
  assert (G : get_lle (set_lle m1 1 (reset_lle (get_lle m1 1) fs)) 1 = reset_lle (get_lle m1 1) fs).
  { unfold get_lle at 1, set_lle, set_lles. cbn [m_lle]. apply nth_upd_same. unfold m1. cbn [m_lle]. rewrite L. apply Nat.ltb_lt. reflexivity. }
  assert (P' : exists f, pdu = enc_addr hh :: 0xfb :: b ++ f /\ length f = 3%nat).
  { rewrite P. unfold frame_of. eexists. change (Z.lor 240 11) with 0xfb. cbn [app]. rewrite <- ?app_assoc. split; reflexivity. }
  destruct P' as (f & P1 & P2). clear P.
  exists (set_lle m1 1 (reset_lle (get_lle m1 1) fs)), pdu, (enc_addr hh), b, f.
  split; [reflexivity|]. rewrite !G. unfold reset_lle at 1 2 3 4. cbn [vu_send vu_recv oc_send oc_recv]. do 4 (split; [reflexivity|]).
  split; [reflexivity|]. split.
  { intros k K K1. unfold get_lle, set_lle, set_lles. cbn [m_lle]. rewrite nth_upd_other; [reflexivity|]. change (Z.to_nat 1) with 1%nat. lia. }
  split; [exact P1|]. split; [exact P2|exact D].
Qed.

(** Non-vacuity. *)
Example C130_case : exists s o, run (ex_env LOC_SGSN) [] [LlUnitdata 3221225473 1 [1] 1] = Ok (s, o) /\
  exists i m, find_llme s 3221225473 = Some (i, m) /\ nth_error s i = Some m /\ length (m_lle m) = 16%nat /\ vu_send (get_lle m 1) = 1.
Proof. do 2 eexists. split; [vm_compute; reflexivity|]. do 2 eexists. repeat split; vm_compute; reflexivity. Qed.

Print Assumptions C130_in_step_refuted.
Print Assumptions C130_reset_ignored_partial.
Print Assumptions C130_reset_sent_partial.
