(** Property theorems about the LLC entities: C04, C07-C12, C35, C36. *)
From Verif.Lib Require Import Base Outcome.
From Verif.Llc Require Import Crc24Model PduModel PduSpec XidModel LlcModel LlcSpec LlcProofs LlcProofs2 LlcProofs3.

Definition ex_env (loc : location) : env := mkenv loc (fun _ => true).
(** The frame for a UI transmission, and a history in which the SGSN sends and the MS receives. *)
Definition ex_ui_frames (ds : list (list Z)) : list (list Z) :=
  match run (ex_env LOC_SGSN) [] (map (fun d => LlUnitdata 3221225473 3 d 1) ds) with
  | Ok (_, o) => frames o
  | _ => []
  end.

(** *** C04: a frame whose check sequence does not match produces no primitive at all and leaves every
    existing entity as it was.  (An entity may be created for the TLLI: lookup precedes the check.)
    Frames of 64 KiB and more cannot reach the layer through a message buffer. *)
Theorem C04_bad_fcs_has_no_effect : forall e s t pdu s' o rc,
  bytes pdu -> zlen pdu < 65539 -> ~ fcs_good pdu ->
  step e s (RxPdu t pdu) = Ok (s', o, rc) ->
  o = [] /\
  (s' = s \/ exists m, fresh_llme t m /\ s' = m :: s /\ forall i m', nth_error s i = Some m' -> ~ names t m').
Proof. intros e s t pdu s' o rc Hb Hl Hbad. exact (bad_fcs_step e s t pdu Hb Hl Hbad s' o rc). Qed.
Print Assumptions C04_bad_fcs_has_no_effect.

Example C04_nonvacuous :
  let good := nth 0 (ex_ui_frames [[1; 2; 3]]) [] in
  let bad := match good with a :: b :: c :: x :: r => a :: b :: c :: x + 4 :: r | l => l end in
  fcs_good good /\ bytes bad /\ ~ fcs_good bad /\
  (exists s', step (ex_env LOC_MS) [llme_alloc 3221225473] (RxPdu 3221225473 bad) = Ok (s', [], 0)) /\
  exists s', step (ex_env LOC_MS) [llme_alloc 3221225473] (RxPdu 3221225473 good) = Ok (s', [UpUnitdata 3221225473 3 [1; 2; 3]], 0).
Proof.
  cbv zeta. split; [vm_compute; reflexivity|]. split; [apply bytesb_ok; vm_compute; reflexivity|].
  split; [vm_compute; discriminate|]. split; eexists; vm_compute; reflexivity.
Qed.

(** *** C07: in every history of primitives and received frames that contains no TLLI change and no reset,
    the UI frames sent for a TLLI and SAPI are numbered 0, 1, 2, ... modulo 512 in order. *)
Theorem C07_ui_numbering : forall e evs s' o,
  Forall keeps_numbering evs -> run e [] evs = Ok (s', o) ->
  forall t sapi, 0 <= sapi < 16 ->
  exists n, ui_sent t sapi o = map (fun i => Z.of_nat i mod 512) (seq 0 n).
Proof.
  intros e evs s' o Hk Hr t sapi Hs. exists (length (ui_sent t sapi o)).
  assert (Hi : num_inv []) by (split; [constructor|split; constructor]).
  exact (proj1 (run_numbering e evs Hk [] s' o Hi Hr t sapi Hs)).
Qed.
Print Assumptions C07_ui_numbering.

(** A request above N201-U is refused and changes nothing on a known subscriber; one within N201-U is
    accepted and sends exactly one frame, that carries the data. *)
Theorem C07_n201_u : forall e s t sapi data p i m,
  reachable e s -> 0 <= sapi < 16 -> find_llme s t = Some (i, m) -> (m_susp m = false \/ sapi = 1) ->
  let l := nth (Z.to_nat sapi) (m_lle m) (lle_init sapi) in
  (n201_u l < zlen data -> step e s (LlUnitdata t sapi data p) = Ok (s, [], - EFBIG)) /\
  (zlen data <= n201_u l -> exists s' a c0 c1 f,
     step e s (LlUnitdata t sapi data p) = Ok (s', [Down (m_tlli m) sapi p ([a; c0; c1] ++ data ++ f)], 0) /\
     c0 / 16 = 12 /\ length f = 3%nat).
Proof.
  intros e s t sapi data p i m Hr Hs Hf Hsu l. 
  destruct (reachable_inv e s Hr) as [_ Hg].
  destruct (proj2 (good_at s i m Hg (proj1 (find_spec s t i m Hf))) sapi Hs) as [G1 G2].
  cbn [step]. replace (negb ((0 <=? sapi) && (sapi <? 16))) with false by lia. rewrite Hf.
  assert (Esu : m_susp m && negb (sapi =? 1) = false) by (destruct Hsu as [->| ->]; [reflexivity|apply andb_false_r]).
  rewrite Esu. change (get_lle m sapi) with l in *.
  destruct (tx_ui_cases e m l data p) as [[H ->]|[H ->]]; split; intros H2; try lia; [reflexivity|].
  rewrite G1. eexists. eexists. eexists. eexists. eexists.
  split; [|split]; [unfold PduProofs.frame_of, ui_ctrl; cbn [app]; reflexivity| |reflexivity].
  bits2arith. rewrite (lor_add 192 _ 3) by (change (2 ^ 3) with 8; lia). lia.
Qed.
Print Assumptions C07_n201_u.

Example C07_nonvacuous :
  let evs := [LlUnitdata 3221225473 1 [1; 2] 1; RxPdu 3221225473 [3]; LlUnitdata 3221225473 3 (repeat 0 501) 1;
              LlUnitdata 3221225473 3 [7] 1; GmmAssign 4294967295 3221225473; LlUnitdata 3221225473 1 [4] 1; LlUnitdata 3221225473 3 [8] 1] in
  Forall keeps_numbering evs /\
  exists s o, run (ex_env LOC_MS) [] evs = Ok (s, o) /\ ui_sent 3221225473 1 o = [0; 1] /\ ui_sent 3221225473 3 o = [0; 1].
Proof.
  cbv zeta. split.
  - rewrite Forall_forall. intros ev Hin. cbn [In] in Hin.
    repeat (destruct Hin as [<-|Hin]; [exact I || reflexivity || (apply bytesb_ok; reflexivity)|]). destruct Hin.
  - eexists. eexists. split; [vm_compute; reflexivity|]. split; vm_compute; reflexivity.
Qed.

(** *** C08.  Full statement: a UI frame whose N(U) is one of the 32 values before V(UR) is not delivered,
    any other valid UI frame is delivered once and advances V(UR).  False: see the refutations.  What
    holds is the second half outside the 31 values before V(UR), and that an immediate second
    and third repetition of a number already seen twice is dropped. *)
Theorem C08_new_ui_delivered_partial : forall e s t sapi n data pdu i m,
  user_sapi sapi -> plain_ui sapi n data pdu -> fcs_good pdu -> zlen pdu < 65539 -> data <> [] ->
  e_tlli_ok e t = true -> find_llme s t = Some (i, m) -> length (m_lle m) = 16%nat ->
  let vur := vu_recv (nth (Z.to_nat sapi) (m_lle m) (lle_init sapi)) in
  0 <= vur < 512 -> ~ (1 <= (vur - n) mod 512 <= 31) ->
  exists s' m', step e s (RxPdu t pdu) = Ok (s', [UpUnitdata (m_tlli m) sapi data], 0) /\
    find_llme s' t = Some (i, m') /\ vu_recv (nth (Z.to_nat sapi) (m_lle m') (lle_init sapi)) = (n + 1) mod 512.
Proof.
  intros e s t sapi n data pdu i m Hu Hp Hg Hl Hne Ht Hf Hl16 vur Hv Hd.
  destruct (decode_plain_ui sapi n data pdu Hu Hp) as (d & _ & _ & _ & _ & _ & _ & Hn).
  rewrite (rx_plain_ui e s t sapi n data pdu i m) by assumption.
  destruct (rx_ui_new (get_lle m sapi) n Hn Hv Hd) as (l' & -> & R1 & _).
  exists (upd s i (set_lle m sapi l')), (set_lle m sapi l'). split; [reflexivity|].
  split; [apply (find_upd s t i m); auto|].
  change (nth _ _ _) with (get_lle (set_lle m sapi l') sapi).
  assert (Hs : 0 <= sapi < 16) by apply (user_assigned sapi Hu).
  rewrite get_set_lle by assumption. rewrite Z.eqb_refl. exact R1.
Qed.
Print Assumptions C08_new_ui_delivered_partial.

Theorem C08_repeat_dropped_partial : forall e s t sapi n data pdu i m,
  user_sapi sapi -> plain_ui sapi n data pdu -> fcs_good pdu -> zlen pdu < 65539 -> data <> [] ->
  e_tlli_ok e t = true -> find_llme s t = Some (i, m) ->
  let l := nth (Z.to_nat sapi) (m_lle m) (lle_init sapi) in
  1 <= (vu_recv l - n) mod 512 <= 31 -> vu_last l = n -> 0 <= vu_dup l < 2 ->
  exists s', step e s (RxPdu t pdu) = Ok (s', [], - EIO).
Proof.
  intros e s t sapi n data pdu i m Hu Hp Hg Hl Hne Ht Hf l Hd Hla Hdup.
  rewrite (rx_plain_ui e s t sapi n data pdu i m) by assumption. change (get_lle m sapi) with l.
  unfold rx_ui, is_retransmit. rewrite land_511.
  replace ((0 <? (vu_recv l - n) mod 512) && ((vu_recv l - n) mod 512 <? 32)) with true by lia.
  replace (n =? vu_last l) with true by lia. cbn [negb].
  replace ((vu_dup l + 1) mod 65536 <? 3) with true by lia. eexists; reflexivity.
Qed.
Print Assumptions C08_repeat_dropped_partial.

(** A repeated frame is delivered a second time. *)
Theorem C08_repeat_delivered_refuted : exists e s pdu data,
  plain_ui 3 1 data pdu /\ fcs_good pdu /\ e_loc e = LOC_MS /\
  exists s' o, run e s [RxPdu 3221225473 (nth 0 (ex_ui_frames [[5]]) []); RxPdu 3221225473 pdu; RxPdu 3221225473 pdu] = Ok (s', o) /\
    delivered o = [(3221225473, 3, [5]); (3221225473, 3, data); (3221225473, 3, data)].
Proof.
  exists (ex_env LOC_MS), [llme_alloc 3221225473], (nth 1 (ex_ui_frames [[5]; [6; 7]]) []), [6; 7].
  split. { do 4 eexists. split; [vm_compute; reflexivity|]. split; [reflexivity|]. split; [apply bytesb_ok; reflexivity|]. repeat split; reflexivity. }
  split; [vm_compute; reflexivity|]. split; [reflexivity|].
  eexists. eexists. split; vm_compute; reflexivity.
Qed.
Print Assumptions C08_repeat_delivered_refuted.

(** A frame exactly 32 numbers back is taken for a new one. *)
Theorem C08_window_off_by_one_refuted : exists l, vu_recv l = 32 /\ exists l', rx_ui l 0 = (l', true) /\ vu_recv l' = 1.
Proof. exists (set_rx (lle_init 3) 32 7 0 0). split; [reflexivity|]. eexists. split; reflexivity. Qed.
Print Assumptions C08_window_off_by_one_refuted.

(** *** C09.  Full statement: for every n, the overflow counter the sender has when it sends frame n equals
    the one the receiver has when it gets it.  False for every frame with N(U) = 511; true for all others. *)
Theorem C09_ui_overflow_partial : forall n sapi, Z.of_nat n mod 512 <> 511 ->
  vu_send (sender n (lle_init sapi)) = vu_recv (receiver n (lle_init sapi)) /\
  oc_send (sender n (lle_init sapi)) = oc_recv (receiver n (lle_init sapi)).
Proof.
  intros n sapi H. destruct (sender_spec n sapi) as [-> ->]. destruct (receiver_spec n sapi) as [-> ->].
  split; [reflexivity|]. f_equal. lia.
Qed.
Print Assumptions C09_ui_overflow_partial.
Theorem C09_ui_overflow_refuted : forall n sapi, Z.of_nat n mod 512 = 511 ->
  oc_send (sender n (lle_init sapi)) <> oc_recv (receiver n (lle_init sapi)).
Proof.
  intros n sapi H. destruct (sender_spec n sapi) as [_ ->]. destruct (receiver_spec n sapi) as [_ ->].
  change (2 ^ 32) with 4294967296. lia.
Qed.
Print Assumptions C09_ui_overflow_refuted.
Example C09_nonvacuous : Z.of_nat 511 mod 512 = 511 /\ Z.of_nat 600 mod 512 <> 511. Proof. split; [reflexivity|discriminate]. Qed.

(** *** C10.  In every reachable state a TLLI (other than all-ones) finds an entity exactly when it is the
    entity's current or old TLLI. *)
Theorem C10_lookup_exact_partial : forall e s t i m, reachable e s -> t <> 4294967295 ->
  find_llme s t = Some (i, m) <-> (nth_error s i = Some m /\ (m_tlli m = t \/ m_old m = t)).
Proof. intros e s t i m Hr Ht. apply find_exact; [exact (proj1 (reachable_inv e s Hr))|exact Ht]. Qed.
Print Assumptions C10_lookup_exact_partial.

(** The four kinds of assignment, each with its complete effect. *)
Theorem C10_assign_effects : forall e s, reachable e s ->
  (forall i m old new, old <> 4294967295 -> new <> 4294967295 -> nth_error s i = Some m -> names old m ->
     exists m', step e s (GmmAssign old new) = Ok (upd s i m', if old =? new then [] else [UpAssign old new], 0) /\
       m_tlli m' = new /\ m_old m' = old /\ m_lle m' = m_lle m /\ m_susp m' = m_susp m) /\
  (forall i m new, new <> 4294967295 -> nth_error s i = Some m -> names new m ->
     exists m', step e s (GmmAssign 4294967295 new) = Ok (upd s i m', [], 0) /\
       m_tlli m' = new /\ m_old m' = 4294967295 /\ m_susp m' = m_susp m /\
       (m_old m = 4294967295 -> m_assigned m' = true)) /\
  (forall i m old, old <> 4294967295 -> nth_error s i = Some m -> names old m ->
     step e s (GmmAssign old 4294967295) = Ok (firstn i s ++ skipn (S i) s, [], 0)) /\
  (forall old new, (forall i m, nth_error s i = Some m -> ~ names (if old =? 4294967295 then new else old) m) ->
     exists rc, rc < 0 /\ step e s (GmmAssign old new) = Ok (s, [], rc)).
Proof.
  intros e s Hr. pose proof (proj1 (reachable_inv e s Hr)) as Hd. split; [|split; [|split]].
  - intros i m old new Ho Hn Hi Hnm. exact (assign_change e s i m old new Hd Ho Hn Hi Hnm).
  - intros i m new Hn Hi Hnm. exact (assign_confirm e s i m new Hd Hn Hi Hnm).
  - intros i m old Ho Hi Hnm. exact (assign_release e s i m old Hd Ho Hi Hnm).
  - intros old new H. exact (assign_unknown e s old new H).
Qed.
Print Assumptions C10_assign_effects.

(** Everything a primitive or frame causes, in either direction, carries the current TLLI of the entity. *)
Definition tlli_of (o : out) : Z :=
  match o with Down t _ _ _ | UpUnitdata t _ _ | UpXidInd t _ _ _ _ | UpXidCnf t _ _ _ _ => t | UpAssign _ n => n end.
Theorem C10_outputs_use_current_tlli : forall e s ev s' o rc i m,
  reachable e s -> admissible s ev -> is_assign ev = false -> step e s ev = Ok (s', o, rc) ->
  ev_tlli ev <> 4294967295 -> nth_error s i = Some m -> names (ev_tlli ev) m ->
  Forall (fun x => tlli_of x = m_tlli m) o.
Proof.
  intros e s ev s' o rc i m Hr Ha Hna Hstep Ht Hi Hnm. destruct (reachable_inv e s Hr) as [Hd Hg].
  assert (H1 : one_entity s s' o ev).
  { apply (nonassign_step e s ev s' o rc); auto. destruct ev; auto. }
  destruct H1 as (s1 & Hgr & [[_ ->]|(j & x & x' & Hj & _ & Hnx & _ & _ & _ & _ & Hout)]); [constructor|].
  assert (Hs1 : s1 = s).
  { destruct Hgr as [->|[Hnone _]]; [reflexivity|]. exfalso. exact (proj1 (find_none s _) Hnone i m Hi Hnm). }
  subst s1. assert (i = j) by (apply (Hd i j m x (ev_tlli ev)); assumption). subst j.
  assert (x = m) by congruence. subst x.
  eapply Forall_impl; [|exact Hout]. intros []; cbn; tauto.
Qed.
Print Assumptions C10_outputs_use_current_tlli.

(** A frame that arrives with TLLI all-ones is taken for a frame of whatever subscriber heads the list. *)
Theorem C10_all_ones_refuted : exists e s m pdu s' data,
  reachable e s /\ s = [m] /\ m_tlli m = 3221225473 /\ plain_ui 3 0 data pdu /\ fcs_good pdu /\
  step e s (RxPdu 4294967295 pdu) = Ok (s', [UpUnitdata 3221225473 3 data], 0).
Proof.
  exists (ex_env LOC_SGSN). eexists. eexists. exists (nth 0 (ex_ui_frames [[5; 5]]) []). eexists. exists [5; 5].
  split. { eapply (reach_step _ [] (LlUnitdata 3221225473 1 [1] 1)); [constructor|exact I|vm_compute; reflexivity]. }
  split; [reflexivity|]. split; [reflexivity|].
  split. { do 4 eexists. split; [vm_compute; reflexivity|]. split; [reflexivity|]. split; [apply bytesb_ok; reflexivity|]. repeat split; reflexivity. }
  split; vm_compute; reflexivity.
Qed.
Print Assumptions C10_all_ones_refuted.

Example C10_nonvacuous : exists s, reachable (ex_env LOC_MS) s /\ exists m, s = [m] /\ m_tlli m = 3221225474 /\ m_old m = 2147483649.
Proof.
  assert (H : exists m, reachable (ex_env LOC_MS) [m] /\ m_tlli m = 2147483649 /\ m_old m = 4294967295).
  { eexists. split; [eapply (reach_step _ [] (LlUnitdata 2147483649 1 [1] 1)); [constructor|exact I|vm_compute; reflexivity]|].
    split; reflexivity. }
  destruct H as (m & Hr & Ht & Ho).
  destruct (proj1 (C10_assign_effects _ _ Hr) 0%nat m 2147483649 3221225474) as (m' & Hs & Ht' & Ho' & _);
    [discriminate|discriminate|reflexivity|left; exact Ht|].
  exists [m']. split; [|exists m'; auto].
  eapply reach_step; [exact Hr| |exact Hs]. right. right.
  intros [|[|i]] x H; try discriminate. injection H as <-. intros _. left. exact Ht.
Qed.

(** *** C11: a frame from an unknown TLLI changes something only if it is addressed to the GMM SAPI and is
    a UI or an XID frame, and then it only adds one entity for that TLLI.  (The same on either side.) *)
Theorem C11_unknown_tlli : forall e s t pdu s' o rc,
  step e s (RxPdu t pdu) = Ok (s', o, rc) ->
  (forall i m, nth_error s i = Some m -> ~ names t m) -> bytes pdu ->
  (s' = s /\ o = []) \/
  exists m a c0 rest, s' = m :: s /\ m_tlli m = t /\ e_tlli_ok e t = true /\
    pdu = a :: c0 :: rest /\ a mod 16 = 1 /\ (c0 / 32 = 6 \/ (c0 / 32 = 7 /\ c0 mod 16 = 11)).
Proof. exact unknown_rx. Qed.
Print Assumptions C11_unknown_tlli.
Example C11_nonvacuous :
  (exists m o, step (ex_env LOC_SGSN) [] (RxPdu 7 [1; 192; 1; 9; 9; 9; 9]) = Ok ([m], o, 0)) /\
  step (ex_env LOC_SGSN) [] (RxPdu 7 (nth 0 (ex_ui_frames [[5]]) [])) = Ok ([], [], 0).
Proof. split; [eexists; eexists|]; vm_compute; reflexivity. Qed.

(** *** C12.  Full statement: between suspend and resume no user data flows in either direction while GMM
    signalling does.  The transmit direction holds over every interleaving; the receive direction does not. *)
Theorem C12_suspended_sends_only_signalling_partial : forall e s0 i m t ot evs s' o,
  reachable e s0 -> nth_error s0 i = Some m -> m_tlli m = t -> m_old m = ot -> t <> 4294967295 ->
  Forall (while_suspended t ot) evs -> run e s0 (GmmSuspend t :: evs) = Ok (s', o) ->
  forall sapi p pdu n, In (Down t sapi p pdu) o -> ui_number pdu = Some n -> sapi = 1.
Proof. exact suspended_run. Qed.
Print Assumptions C12_suspended_sends_only_signalling_partial.

Theorem C12_signalling_flows : forall e s t i m data p, find_llme s t = Some (i, m) ->
  zlen data <= n201_u (nth 1 (m_lle m) (lle_init 1)) ->
  exists s' pdu, step e s (LlUnitdata t 1 data p) = Ok (s', [Down (m_tlli m) (l_sapi (nth 1 (m_lle m) (lle_init 1))) p pdu], 0).
Proof. exact gmm_flows. Qed.
Print Assumptions C12_signalling_flows.

Theorem C12_suspended_receives_refuted : exists e s s' o,
  reachable e s /\ run e s [GmmSuspend 3221225473; RxPdu 3221225473 (nth 0 (ex_ui_frames [[5; 6]]) [])] = Ok (s', o) /\
  delivered o = [(3221225473, 3, [5; 6])].
Proof.
  exists (ex_env LOC_MS). do 3 eexists.
  split. { eapply (reach_step _ [] (LlUnitdata 3221225473 1 [1] 1)); [constructor|exact I|vm_compute; reflexivity]. }
  split; vm_compute; reflexivity.
Qed.
Print Assumptions C12_suspended_receives_refuted.

Example C12_nonvacuous :
  let evs := [LlUnitdata 3221225473 3 [7; 8] 1; LlUnitdata 3221225473 1 [9] 1; GmmResume 5; GmmTrigger 3221225473 false] in
  Forall (while_suspended 3221225473 4294967295) evs /\
  exists s s' o, reachable (ex_env LOC_MS) s /\ run (ex_env LOC_MS) s (GmmSuspend 3221225473 :: evs) = Ok (s', o) /\
    ui_sent 3221225473 3 o = [] /\ ui_sent 3221225473 1 o = [1; 2].
Proof.
  cbv zeta. split.
  { rewrite Forall_forall. intros ev Hin. cbn [In] in Hin.
    repeat (destruct Hin as [<-|Hin]; [exact I || (split; discriminate)|]). destruct Hin. }
  do 3 eexists.
  split. { eapply (reach_step _ [] (LlUnitdata 3221225473 1 [1] 1)); [constructor|exact I|vm_compute; reflexivity]. }
  split; [vm_compute; reflexivity|]. split; vm_compute; reflexivity.
Qed.

(** *** C35: what one end sends is what the other end delivers, once and in order, even if frames are lost,
    as long as no more than 480 in a row are.  [tx_ready] and [rx_ready] (LlcSpec): both ends know the
    TLLI, the sender is not suspended, N201-U is [n], and V(U) of the sender equals V(UR) of the receiver. *)
Theorem C35_ui_transfer : forall es er t sapi n p datas keep v ss sr,
  user_sapi sapi -> n <= 60000 -> e_tlli_ok er t = true ->
  Forall (fun d => bytes d /\ 1 <= zlen d <= n) datas -> length keep = length datas -> losses_below 480 0 keep ->
  0 <= v < 512 -> tx_ready ss t sapi v n -> rx_ready sr t sapi v ->
  exists ss' so sr' ro,
    run es ss (map (fun d => LlUnitdata t sapi d p) datas) = Ok (ss', so) /\ length (frames so) = length datas /\
    run er sr (map (RxPdu t) (kept keep (frames so))) = Ok (sr', ro) /\
    delivered ro = map (fun d => (t, sapi, d)) (kept keep datas).
Proof.
  intros es er t sapi n p datas keep v ss sr Hu Hn Ht Hd Hk Hlo Hv Htx Hrx.
  apply (transfer es er t sapi n p Hu Hn Ht datas keep 0%nat v ss sr); auto.
  replace ((v - Z.of_nat 0) mod 512) with v by lia. exact Hrx.
Qed.
Print Assumptions C35_ui_transfer.
Example C35_nonvacuous :
  tx_ready [llme_alloc 3221225473] 3221225473 5 0 500 /\ rx_ready [llme_alloc 3221225473] 3221225473 5 0 /\
  losses_below 480 0 [true; false; false; true; true].
Proof.
  split; [exists 0%nat; eexists; vm_compute; auto 10|]. split; [exists 0%nat; eexists; vm_compute; auto 10|].
  cbn. lia.
Qed.

(** *** C36: the only received frames on which the layer misbehaves are S frames with an oversized SACK
    bitmap (see C03); every other octet string, in every state, is processed within bounds. *)
Theorem C36_receive_is_safe_partial : forall e s t pdu, bytes pdu ->
  step e s (RxPdu t pdu) = UB -> s_sack_oversized pdu.
Proof. exact rx_defined. Qed.
Print Assumptions C36_receive_is_safe_partial.
Theorem C36_oversized_sack_refuted : exists e pdu, bytes pdu /\ step e [] (RxPdu 3221225473 pdu) = UB.
Proof. exists (ex_env LOC_MS), (1 :: 128 :: 3 :: repeat 0 37). split; [apply bytesb_ok; reflexivity|vm_compute; reflexivity]. Qed.
Print Assumptions C36_oversized_sack_refuted.
