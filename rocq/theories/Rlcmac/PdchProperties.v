(** Theorems about the blocks received on a PDCH (C54, C55, C56, C57). *)
From Coq Require Import ZArith List Bool Lia.
From Verif Require Import Lib.Base Lib.Outcome Csn1.Csn1Model Csn1.Csn1Tables Csn1.Csn1DlModel Csn1.Csn1EncModel Csn1.Csn1Properties Csn1.Csn1Layout Csn1.Csn1Step
  Csn1.Csn1Check Csn1.Csn1Safe Csn1.Csn1Lax Csn1.Csn1Values
  Rlcmac.FnModel Rlcmac.FnProperties Rlcmac.CsModel Rlcmac.UlTbfModel Rlcmac.SchedModel Rlcmac.CcchSpec Rlcmac.CcchModel Rlcmac.CcchDec Rlcmac.CcchMsg Rlcmac.CcchProperties
  Rlcmac.PdchModel Rlcmac.PdchSpec Rlcmac.PdchStep Rlcmac.PdchDec Rlcmac.PdchMsg Rlcmac.PdchBlock Rlcmac.PdchSafe.
Import ListNotations.
Open Scope Z_scope.

(** *** What the messages ask for *)
(** The block for the answer: none without S/P; else the first one 13, 17, 21 or 26 frames or more after the block. *)
Definition answer_at (fn sp rrbp : Z) (poll : option Z) : Prop :=
  sp = 0 /\ poll = None \/
  sp = 1 /\ exists p d, poll = Some p /\ nth_error [13; 17; 21; 26] (Z.to_nat rrbp) = Some d /\ first_block_from fn d p.
(** The starting time: none; an absolute one, for the frame number modulo 42432 with the remainders sent; k + 1 blocks after
    this one. *)
Definition begins (rfn2fn : Z -> Z -> Z) (fn : Z) (sent : option (Z * Z * Z + Z)) (st : option Z) : Prop :=
  match sent with
  | None => st = None
  | Some (inl t) => exists r, rfn_of t r /\ st = Some (rfn2fn r fn)
  | Some (inr k) => exists p, blocks_after (Z.to_nat k + 1) fn p /\ st = Some p
  end.
Definition frame_ok (f : option (Z * Z * Z + Z)) : Prop := match f with Some (inl t) => time_ok t | _ => True end.
(** The first entity with [P]. *)
Definition first_of (P : gre -> Prop) (l : list gre) (g : gre) : Prop := exists a b, l = a ++ g :: b /\ P g /\ Forall (fun x => ~ P x) a.
Definition has_ul_tfi (t : Z) (g : gre) : Prop := exists i b, g_ul g = Some (i, b) /\ ul_tfi (cur b) = t.
Definition has_dl_tfi (t : Z) (g : gre) : Prop := exists d, g_dl g = Some d /\ d_tfi d = t.
Definition has_tlli (who : Z -> ent) (t : Z) (g : gre) : Prop := e_tlli (who (g_id g)) = t \/ e_old_tlli (who (g_id g)) = t.
Definition meant (who : Z -> ent) (a : (Z + Z) + Z) : gre -> Prop :=
  match a with inl (inl u) => has_ul_tfi u | inl (inr d) => has_dl_tfi d | inr t => has_tlli who t end.

(** *** Proofs *)
Lemma find_first (P : gre -> Prop) f l : (forall g, f g = true <-> P g) ->
  match find f l with Some g => first_of P l g | None => forall g, In g l -> ~ P g end.
Proof.
  intros E. induction l as [|x l IH]; cbn [find]; [intros g []|]. destruct (f x) eqn:F.
  - exists [], l. split; [reflexivity|]. split; [apply E; exact F|constructor].
  - assert (N : ~ P x) by (intros X; apply E in X; congruence). destruct (find f l) as [g|].
    + destruct IH as (a & b & -> & H & A). exists (x :: a), b. split; [reflexivity|]. split; [exact H|constructor; assumption].
    + intros g [<-|I]; [exact N|apply IH; exact I].
Qed.
Lemma first_unique P l g h : first_of P l g -> first_of P l h -> g = h.
Proof.
  intros (a & b & E1 & H1 & A1) (c & d & E2 & H2 & A2). subst l. revert c E2 A2. induction a as [|x a IH]; intros [|y c] E2 A2; cbn [app] in *; injection E2 as E E2; subst; auto.
  - inversion A2; contradiction.
  - inversion A1; contradiction.
  - inversion A1; inversion A2; subst. eauto.
Qed.
Lemma find_found (P : gre -> Prop) f l g : (forall g, f g = true <-> P g) -> first_of P l g -> find f l = Some g.
Proof.
  intros E H. pose proof (find_first P f l E) as X. destruct (find f l) as [h|]; [rewrite (first_unique _ _ _ _ X H); reflexivity|].
  destruct H as (a & b & -> & H & _). destruct (X g); [apply in_or_app; right; left; reflexivity|exact H].
Qed.
Lemma find_none (P : gre -> Prop) f l : (forall g, f g = true <-> P g) -> (forall g, In g l -> ~ P g) -> find f l = None.
Proof.
  intros E H. pose proof (find_first P f l E) as X. destruct (find f l) as [h|]; [|reflexivity]. destruct X as (a & b & -> & X & _).
  destruct (H h); [apply in_or_app; right; left; reflexivity|exact X].
Qed.
Lemma ul_is t g : match g_ul g with Some (_, b) => ul_tfi (cur b) =? t | None => false end = true <-> has_ul_tfi t g.
Proof.
  unfold has_ul_tfi. destruct (g_ul g) as [[i b]|].
  - rewrite Z.eqb_eq. split; [intros; exists i, b; auto|intros (i' & b' & [= <- <-] & H); exact H].
  - split; [discriminate|intros (i & b & [=] & _)].
Qed.
Lemma dl_is t g : match g_dl g with Some d => d_tfi d =? t | None => false end = true <-> has_dl_tfi t g.
Proof.
  unfold has_dl_tfi. destruct (g_dl g) as [d|].
  - rewrite Z.eqb_eq. split; [intros; exists d; auto|intros (d' & [= <-] & H); exact H].
  - split; [discriminate|intros (d & [=] & _)].
Qed.
Lemma tlli_is who t g : (e_tlli (who (g_id g)) =? t) || (e_old_tlli (who (g_id g)) =? t) = true <-> has_tlli who t g.
Proof. unfold has_tlli. rewrite orb_true_iff, !Z.eqb_eq. reflexivity. Qed.
Definition lookup (s : sys) (who : Z -> ent) (a : (Z + Z) + Z) : option gre :=
  match a with inl (inl u) => by_ul_tfi s u | inl (inr d) => by_dl_tfi s d | inr t => gre_by_tlli s who t end.
Lemma lookup_found s who a g : first_of (meant who a) (gres s) g -> lookup s who a = Some g.
Proof.
  destruct a as [[u|d]|t]; cbn [meant lookup]; [apply find_found; apply ul_is|apply find_found; apply dl_is|apply find_found; apply tlli_is].
Qed.
Lemma lookup_none s who a : (forall g, In g (gres s) -> ~ meant who a g) -> lookup s who a = None.
Proof.
  destruct a as [[u|d]|t]; cbn [meant lookup]; [apply find_none; apply ul_is|apply find_none; apply dl_is|apply find_none; apply tlli_is].
Qed.

Lemma poll_is h fn sp rrbp : h_rrbp h = rrbp -> h_sp h = sp -> sp = 0 \/ sp = 1 -> 0 <= rrbp < 4 -> block_start fn ->
  exists poll, opt_poll h fn = Ok poll /\ answer_at fn sp rrbp poll.
Proof.
  intros E1 E2 [S|S] R B; unfold opt_poll, answer_at; rewrite E2, S; cbn [Z.eqb].
  - eexists. split; [reflexivity|]. auto.
  - destruct (C22_poll_frame fn rrbp B R) as (p & d & E & N & F). rewrite E1, E. cbn [bind]. eexists. split; [reflexivity|]. right. eauto 6.
Qed.
Lemma begin_is rfn2fn m a fn f : 0 <= fn < 2715648 -> block_start fn -> items_ok (opt starting_frame f) -> frame_ok f ->
  (forall x, f = Some x -> frame_at m a x) ->
  exists st, opt_start rfn2fn (negb (there f =? 0)) m a fn = Ok st /\ begins rfn2fn fn f st.
Proof.
  intros R B K T F. destruct f as [f|]; cbn [there opt] in *; [|cbn; eauto]. specialize (F f eq_refl). unfold opt_start, start_frame. cbn [Z.eqb negb].
  destruct f as [[[t1 t3] t2]|k]; cbn [frame_at frame_ok begins starting_frame starting_time] in *; oks.
  - destruct F as [-> F]. cbn [Z.eqb]. destruct (time_starts rfn2fn m (a + 2) fn t1 t3 t2) as (r & Rr & E); try assumption.
    rewrite E. cbn [bind]. eexists. split; [reflexivity|]. exists r. auto.
  - destruct F as [-> F]. cbn [Z.eqb]. rewrite F. assert (Kk : 0 <= k) by (match goal with H : item_ok (U 13 k) |- _ => cbn in H; lia end).
    destruct (C40_relative_start k fn Kk R B) as (p & E & A). rewrite E. cbn [bind]. eexists. split; [reflexivity|]. exists p. auto.
Qed.
Lemma start_not12 fn : block_start fn -> fn mod 104 =? 12 = false.
Proof. unfold block_start. lia. Qed.
(** A control block gets to its handler. *)
Lemma to_ctrl rfn2fn past s who tn fn blk rrbp sp usf o c : block blk rrbp sp usf o c -> block_start fn ->
  pdch_data_ind rfn2fn past s who tn fn blk = ctrl_block rfn2fn past s who tn fn blk /\ (sp = 0 \/ sp = 1) /\ 0 <= rrbp < 4.
Proof.
  intros [O M] B. pose proof M as M'. destruct M as (L & Oc & _ & K & C).
  unfold pdch_data_ind. unfold zlen. rewrite L. change (Z.of_nat 23 =? 0) with false. cbv zeta iota. change (get_by_size (Z.of_nat 23)) with 1. cbn [Z.eqb].
  rewrite start_not12 by exact B. change (is_gprs 1) with true. cbv iota. unfold dl_block. destruct blk as [|b blk]; [discriminate|]. cbn [nth_error].
  pose proof (carried_here _ 0 _ L ltac:(cbn; lia) C) as H. change (skipn 0 (b :: blk)) with (b :: blk) in H. change (8 * (23 - Z.of_nat 0)) with 184 in H.
  assert (N1 : (length (b :: blk) <? 23)%nat = false) by (rewrite L; reflexivity). rewrite N1. clear N1. rewrite firstn_all2 by lia.
  inversion Oc as [|x y Hb Hr]; subst x y.
  assert (F2 : field (msg_bits (b :: blk)) 0 2 = b / 64 mod 4).
  { change (field (msg_bits (b :: blk)) 0 2) with (Z.b2z (Z.testbit b 7) * 2 + (Z.b2z (Z.testbit b 6) * 1 + 0)).
    rewrite !Z.testbit_spec' by lia. change (2 ^ 7) with 128. change (2 ^ 6) with 64. lia. }
  assert (P : exists pt c', header rrbp sp usf o ++ c = U 2 pt :: U 2 rrbp :: U 1 sp :: c' /\ (pt = 1 \/ pt = 2)).
  { destruct o as [o|]; cbn [header app]; eauto 6. }
  destruct P as (pt & c' & Ec & Pt). rewrite Ec in *. unfold items_ok in K. apply Forall_cons_iff in K as [K1 K]. apply Forall_cons_iff in K as [K2 K]. apply Forall_cons_iff in K as [K3 K].
  destruct (fld_U no_past _ _ _ _ _ H K1) as [F _]. rewrite F2 in F. rewrite F. split; [destruct Pt as [-> | ->]; reflexivity|].
  split; [exact (bit_cases _ K3)|]. cbn in K2. lia.
Qed.

(** *** C54: Packet Uplink Ack/Nack.  Of a block that carries one for a TFI of an uplink TBF, that TBF gets the block for the
    answer, FINAL_ACK_INDICATION, TBF_EST, the channel coding command and the report (C13-C16 say what the window does with
    it) as sent.  [rfn2fn], [past]: any behaviour of libosmocore; [who]: the identities of the entities. *)
Theorem C54_ack_nack_from_the_bits_partial :
  forall rfn2fn past s who tn fn blk rrbp sp usf o mode tfi ccc final ssn bm tlli ta power ext dummy add g,
  block blk rrbp sp usf o (ul_ack_nack mode tfi ccc final ssn bm tlli ta power ext dummy add) -> ack_lengths bm power ext ->
  block_start fn -> In g (gres s) -> has_ul_tfi tfi g ->
  exists poll, answer_at fn sp rrbp poll /\
    pdch_data_ind rfn2fn past s who tn fn blk = PAck (UlAckNack tn tfi poll (final =? 1) (tbf_est add) ccc) (final =? 1) ssn bm.
Proof.
  intros until g. intros B N S I U. destruct (to_ctrl rfn2fn past s who tn fn _ _ _ _ _ _ B S) as (-> & Sp & Rr).
  assert (R : forall bits p, items_ok (ul_ack_nack mode tfi ccc final ssn bm tlli ta power ext dummy add) ->
    runs bits 184 past sz_dl_union 0 Packet_Uplink_Ack_Nack_t run_mode p (ul_ack_nack mode tfi ccc final ssn bm tlli ta power ext dummy add) (upd1 (fun _ => 0) 0 9)
      (fun s => s_mem s 0 = 9 /\ ack_mem (s_mem s) tfi ccc final ssn bm add)) by (intros bits p K; apply (ack_dec bits 184 past); assumption).
  assert (K : items_ok (ul_ack_nack mode tfi ccc final ssn bm tlli ta power ext dummy add)) by (destruct B as [_ (_ & _ & _ & K & _)]; apply Forall_app in K as [_ K]; exact K).
  destruct (block_dec past blk rrbp sp usf o 9 _ _ _ _ B eq_refl R) as (h & d & E & (F0 & F2 & F4 & F5 & F6 & F7 & F20 & F29) & E1 & E2).
  destruct (poll_is h fn sp rrbp E1 E2 Sp Rr S) as (poll & Ep & A). exists poll. split; [exact A|].
  unfold ctrl_block. rewrite E, F0. cbn [Z.eqb Pos.eqb]. unfold handle_pkt_ul_ack_nack, ua_tfi, ua_ccc, ua_final, ua_ssn, ua_rbb, ua_r99, ua_tbf_est. rewrite F2, F4, F5, F6, Ep.
  cbn [pbind]. assert (Lk : exists g', by_ul_tfi s tfi = Some g').
  { pose proof (find_first (has_ul_tfi tfi) _ (gres s) (ul_is tfi)) as X. unfold by_ul_tfi. destruct (find _ _); [eauto|]. destruct (X g I U). }
  destruct Lk as (g' & ->). destruct N as (N1 & _ & _). unfold ul_ack_nack in K. oks.
  assert (Ff : final = 0 \/ final = 1) by (eapply bit_cases; eassumption). 
  assert (Eb : map (fun i => s_mem d (7 + Z.of_nat i)) (seq 0 8) = bm).
  { rewrite (map_ext_in _ (fun i => nth i bm 0)) by (intros i Hi; apply in_seq in Hi; apply F7; lia).
    do 8 (destruct bm as [|? bm]; [discriminate N1|]). destruct bm; [reflexivity|discriminate N1]. }
  rewrite Eb. assert (Ef : negb (final =? 0) = (final =? 1)) by (destruct Ff as [-> | ->]; reflexivity). rewrite Ef. f_equal.
  assert (Et : negb (rdle (s_mem d) 20 4 =? 0) && negb (s_mem d 29 =? 0) = tbf_est add).
  { rewrite F20. destruct add as [x|[[e t] more]]; [reflexivity|]. rewrite (F29 _ _ eq_refl). cbn [tbf_est snd Z.eqb negb andb additions] in *. oks. cbn [fst snd] in *.
    assert (Tt : t = 0 \/ t = 1) by (eapply bit_cases; eassumption). destruct Tt as [-> | ->]; reflexivity. }
  rewrite Et. reflexivity.
Qed.
Print Assumptions C54_ack_nack_from_the_bits_partial.
(** Nobody with that TFI: nothing happens. *)
Theorem C54_other_tfi_ignored :
  forall rfn2fn past s who tn fn blk rrbp sp usf o mode tfi ccc final ssn bm tlli ta power ext dummy add,
  block blk rrbp sp usf o (ul_ack_nack mode tfi ccc final ssn bm tlli ta power ext dummy add) -> ack_lengths bm power ext ->
  block_start fn -> (forall g, In g (gres s) -> ~ has_ul_tfi tfi g) ->
  pdch_data_ind rfn2fn past s who tn fn blk = PDone (-2).
Proof.
  intros until add. intros B N S U. destruct (to_ctrl rfn2fn past s who tn fn _ _ _ _ _ _ B S) as (-> & _ & _).
  assert (R : forall bits p, items_ok (ul_ack_nack mode tfi ccc final ssn bm tlli ta power ext dummy add) ->
    runs bits 184 past sz_dl_union 0 Packet_Uplink_Ack_Nack_t run_mode p (ul_ack_nack mode tfi ccc final ssn bm tlli ta power ext dummy add) (upd1 (fun _ => 0) 0 9)
      (fun s => s_mem s 0 = 9 /\ ack_mem (s_mem s) tfi ccc final ssn bm add)) by (intros bits p K; apply (ack_dec bits 184 past); assumption).
  destruct (block_dec past blk rrbp sp usf o 9 _ _ _ _ B eq_refl R) as (h & d & E & (F0 & F2 & _) & _).
  unfold ctrl_block. rewrite E, F0. cbn [Z.eqb Pos.eqb]. unfold handle_pkt_ul_ack_nack, ua_tfi. rewrite F2.
  unfold by_ul_tfi. rewrite (find_none _ _ _ (ul_is tfi) U). reflexivity.
Qed.
Print Assumptions C54_other_tfi_ignored.

(** *** C55: Packet Uplink Assignment (GPRS mode, dynamic allocation). *)
Lemma slots_are m slots : length (usf_of slots) = 8%nat -> slots_mem m pu_slots slots -> ul_slots m = usf_of slots.
Proof.
  intros N H. unfold ul_slots.
  assert (G : forall a n l, length l = 8%nat -> slots_at m a n l ->
    map (fun i => if m (a + n * Z.of_nat i) =? 0 then None else Some (m (a + n * Z.of_nat i + 1))) (seq 0 8) = l).
  { intros a n l L F.
    assert (E : forall i o, nth_error l i = Some o -> (if m (a + n * Z.of_nat i) =? 0 then None else Some (m (a + n * Z.of_nat i + 1))) = o).
    { intros i o E. destruct (F i o E) as [F1 F2]. rewrite F1. destruct o as [u|]; cbn [there Z.eqb]; [rewrite (F2 u eq_refl)|]; reflexivity. }
    clear F. do 8 (destruct l as [|? l]; [discriminate|]). destruct l; [|discriminate]. cbn [map seq].
    rewrite (E 0%nat _ eq_refl), (E 1%nat _ eq_refl), (E 2%nat _ eq_refl), (E 3%nat _ eq_refl), (E 4%nat _ eq_refl), (E 5%nat _ eq_refl), (E 6%nat _ eq_refl), (E 7%nat _ eq_refl). reflexivity. }
  destruct slots as [l|[alpha l]]; cbn [slots_mem usf_of] in *; destruct H as [E F]; rewrite E; cbn [Z.eqb]; apply G; assumption.
Qed.
Lemma id_lookup s who m a w : id_at m a w ->
  (if m a =? 0 then by_global_tfi s m (a + 4) else if m a =? 1 then Ok (gre_by_tlli s who (rdle m (a + 4) 4)) else Ok None) = Ok (lookup s who w) /\
  (if m a =? 0 then by_global_tfi s m (a + 4) else if m a =? 1 then Ok (gre_by_tlli s who (rdle m (a + 4) 4)) else UB) = Ok (lookup s who w).
Proof.
  destruct w as [[u|d]|t]; cbn [id_at lookup]; unfold by_global_tfi.
  - intros (-> & -> & E). replace (a + 4 + 1) with (a + 5) by lia. rewrite E. auto.
  - intros (-> & -> & E). replace (a + 4 + 1) with (a + 5) by lia. rewrite E. auto.
  - intros (-> & ->). auto.
Qed.
Lemma pua_runs past mode pers whom ccc tbcc ta freq ext p0 gran tfi granted start slots add :
  (forall x, pers = Some x -> length x = 4%nat) -> (forall x, freq = Some x -> freq_ok x) -> length (usf_of slots) = 8%nat ->
  forall bits p, items_ok (ul_assignment mode pers whom ccc tbcc ta freq ext p0 gran tfi granted start slots add) ->
    runs bits 184 past sz_dl_union 0 Packet_Uplink_Assignment_t run_mode p (ul_assignment mode pers whom ccc tbcc ta freq ext p0 gran tfi granted start slots add) (upd1 (fun _ => 0) 0 10)
      (fun s => s_mem s 0 = 10 /\ pua_mem (s_mem s) whom ccc tfi start slots).
Proof. intros N1 N2 N3 bits p K. apply (pua_dec bits 184 past); assumption. Qed.
Theorem C55_uplink_assignment_from_the_bits :
  forall rfn2fn past s who tn fn blk rrbp sp usf o mode pers whom ccc tbcc ta freq ext p0 gran tfi granted start slots add g,
  block blk rrbp sp usf o (ul_assignment mode pers whom ccc tbcc ta freq ext p0 gran tfi granted start slots add) ->
  (forall x, pers = Some x -> length x = 4%nat) -> (forall x, freq = Some x -> freq_ok x) -> length (usf_of slots) = 8%nat -> frame_ok start ->
  0 <= fn < 2715648 -> block_start fn -> first_of (meant who whom) (gres s) g -> g_ul g <> None ->
  exists poll st, answer_at fn sp rrbp poll /\ begins rfn2fn fn start st /\
    pdch_data_ind rfn2fn past s who tn fn blk = PEvent (UlPktAss (g_id g) tn fn poll (PuaDynamic tfi ccc st (usf_of slots))).
Proof.
  intros until g. intros B N1 N2 N3 Fo Rf S W U. destruct (to_ctrl rfn2fn past s who tn fn _ _ _ _ _ _ B S) as (-> & Sp & Rr).
  assert (K : items_ok (ul_assignment mode pers whom ccc tbcc ta freq ext p0 gran tfi granted start slots add)) by (destruct B as [_ (_ & _ & _ & K & _)]; apply Forall_app in K as [_ K]; exact K).
  destruct (block_dec past blk rrbp sp usf o 10 _ _ _ _ B eq_refl (pua_runs past mode pers whom ccc tbcc ta freq ext p0 gran tfi granted start slots add N1 N2 N3))
    as (h & d & E & (F0 & I8 & F16 & F20 & F56 & D1 & D2 & D3 & D4 & D5) & E1 & E2).
  destruct (poll_is h fn sp rrbp E1 E2 Sp Rr S) as (poll & Ep & A).
  assert (Ks : items_ok (opt starting_frame start)) by (unfold ul_assignment in K; unfold items_ok in *; rewrite !Forall_app in K; tauto).
  destruct (begin_is rfn2fn (s_mem d) pu_start fn start Rf S Ks Fo D4) as (st & Es & Ab). exists poll, st. split; [exact A|]. split; [exact Ab|].
  unfold ctrl_block. rewrite E, F0. cbn [Z.eqb Pos.eqb]. unfold PdchModel.handle_pkt_ul_ass. destruct (id_lookup s who _ _ _ I8) as [El _].
  change (8 + 4) with pu_id_u in El. change 8 with pu_id in El. rewrite El, (lookup_found _ _ _ _ W). cbn [pbind].
  destruct (g_ul g) as [x|]; [clear U|destruct (U eq_refl)]. unfold pua_contents, pu_type, pu_alloc, pu_ccc. rewrite F16, F20, F56. cbn [Z.eqb Pos.eqb].
  change (58 + 5) with pu_tfi_ex in D1. change (58 + 6) with pu_tfi in D2. change (58 + 9) with pu_start_ex in D3. change (58 + 16) with pu_slots in D5.
  rewrite D3, Es. cbn [bind pbind]. rewrite Ep. cbn [pbind]. rewrite (slots_are _ _ N3 D5), D1. destruct tfi as [t|]; cbn [there Z.eqb]; [rewrite (D2 t eq_refl)|]; reflexivity.
Qed.
Print Assumptions C55_uplink_assignment_from_the_bits.
(** Nobody it is meant for, or no uplink TBF there: nothing happens. *)
Theorem C55_others_ignored :
  forall rfn2fn past s who tn fn blk rrbp sp usf o mode pers whom ccc tbcc ta freq ext p0 gran tfi granted start slots add,
  block blk rrbp sp usf o (ul_assignment mode pers whom ccc tbcc ta freq ext p0 gran tfi granted start slots add) ->
  (forall x, pers = Some x -> length x = 4%nat) -> (forall x, freq = Some x -> freq_ok x) -> length (usf_of slots) = 8%nat ->
  block_start fn -> (forall g, In g (gres s) -> ~ meant who whom g) \/ (exists g, first_of (meant who whom) (gres s) g /\ g_ul g = None) ->
  pdch_data_ind rfn2fn past s who tn fn blk = PDone (-2).
Proof.
  intros until add. intros B N1 N2 N3 S W. destruct (to_ctrl rfn2fn past s who tn fn _ _ _ _ _ _ B S) as (-> & _ & _).
  destruct (block_dec past blk rrbp sp usf o 10 _ _ _ _ B eq_refl (pua_runs past mode pers whom ccc tbcc ta freq ext p0 gran tfi granted start slots add N1 N2 N3))
    as (h & d & E & (F0 & I8 & _) & _).
  unfold ctrl_block. rewrite E, F0. cbn [Z.eqb Pos.eqb]. unfold PdchModel.handle_pkt_ul_ass. destruct (id_lookup s who _ _ _ I8) as [El _].
  change (8 + 4) with pu_id_u in El. change 8 with pu_id in El. rewrite El.
  destruct W as [W|(g & W & U)]; [rewrite (lookup_none _ _ _ W)|rewrite (lookup_found _ _ _ _ W); cbn [pbind]; rewrite U]; reflexivity.
Qed.
Print Assumptions C55_others_ignored.

(** *** C56: Packet Downlink Assignment. *)
Lemma pda_runs past mode pers whom mac rlc ack slots ta p0 freq tfi power start meas add :
  (forall x, pers = Some x -> length x = 4%nat) -> (forall x, freq = Some x -> freq_ok x) -> (forall x, power = Some x -> length (snd x) = 8%nat) ->
  forall bits p, items_ok (dl_assignment mode pers whom mac rlc ack slots ta p0 freq tfi power start meas add) ->
    runs bits 184 past sz_dl_union 0 Packet_Downlink_Assignment_t run_mode p (dl_assignment mode pers whom mac rlc ack slots ta p0 freq tfi power start meas add) (upd1 (fun _ => 0) 0 2)
      (fun s => s_mem s 0 = 2 /\ pda_mem (s_mem s) whom ack slots tfi start).
Proof. intros N1 N2 N3 bits p K. apply (pda_dec bits 184 past); assumption. Qed.
(** The timeslots: TIMESLOT_ALLOCATION is one bit for each, the first bit sent for timeslot 0. *)
Definition sent_slots (v : Z) : list bool := number v 8.
Theorem C56_downlink_assignment_from_the_bits :
  forall rfn2fn past s who tn fn blk rrbp sp usf o mode pers whom mac rlc ack slots ta p0 freq tfi power start meas add g,
  block blk rrbp sp usf o (dl_assignment mode pers whom mac rlc ack slots ta p0 freq tfi power start meas add) ->
  (forall x, pers = Some x -> length x = 4%nat) -> (forall x, freq = Some x -> freq_ok x) -> (forall x, power = Some x -> length (snd x) = 8%nat) -> frame_ok start ->
  0 <= fn < 2715648 -> block_start fn -> first_of (meant who whom) (gres s) g ->
  exists poll st, answer_at fn sp rrbp poll /\ begins rfn2fn fn start st /\
    pdch_data_ind rfn2fn past s who tn fn blk = PEvent (DlPktAss (g_id g) tn fn poll tfi st (sent_slots slots) (ack =? 1)).
Proof.
  intros until g. intros B N1 N2 N3 Fo Rf S W. destruct (to_ctrl rfn2fn past s who tn fn _ _ _ _ _ _ B S) as (-> & Sp & Rr).
  assert (K : items_ok (dl_assignment mode pers whom mac rlc ack slots ta p0 freq tfi power start meas add)) by (destruct B as [_ (_ & _ & _ & K & _)]; apply Forall_app in K as [_ K]; exact K).
  destruct (block_dec past blk rrbp sp usf o 2 _ _ _ _ B eq_refl (pda_runs past mode pers whom mac rlc ack slots ta p0 freq tfi power start meas add N1 N2 N3))
    as (h & d & E & (F0 & I12 & F22 & F23 & F72 & F76 & F104 & F108) & E1 & E2).
  destruct (poll_is h fn sp rrbp E1 E2 Sp Rr S) as (poll & Ep & A).
  assert (Ks : items_ok (opt starting_frame start)) by (unfold dl_assignment in K; unfold items_ok in *; rewrite !Forall_app in K; tauto).
  destruct (begin_is rfn2fn (s_mem d) da_start fn start Rf S Ks Fo F108) as (st & Es & Ab). exists poll, st. split; [exact A|]. split; [exact Ab|].
  unfold ctrl_block. rewrite E, F0. cbn [Z.eqb Pos.eqb]. unfold handle_pkt_dl_ass. destruct (id_lookup s who _ _ _ I12) as [_ El].
  change (12 + 4) with da_id_u in El. change 12 with da_id in El. rewrite El, (lookup_found _ _ _ _ W). cbn [pbind].
  unfold da_start_ex, da_tfi_ex, da_tfi, da_slots, da_ctrl_ack. rewrite F104, Es, F72, F23, F22. cbn [pbind]. rewrite Ep. cbn [pbind].
  unfold dl_assignment in K. oks. assert (Fa : ack = 0 \/ ack = 1) by (eapply bit_cases; eassumption).
  replace (negb (ack =? 0)) with (ack =? 1) by (destruct Fa as [-> | ->]; reflexivity).
  replace (dl_slots slots) with (sent_slots slots).
  - destruct tfi as [t|]; cbn [there Z.eqb]; [rewrite (F76 t eq_refl)|]; reflexivity.
  - reflexivity.
Qed.
Print Assumptions C56_downlink_assignment_from_the_bits.
Theorem C56_others_ignored :
  forall rfn2fn past s who tn fn blk rrbp sp usf o mode pers whom mac rlc ack slots ta p0 freq tfi power start meas add,
  block blk rrbp sp usf o (dl_assignment mode pers whom mac rlc ack slots ta p0 freq tfi power start meas add) ->
  (forall x, pers = Some x -> length x = 4%nat) -> (forall x, freq = Some x -> freq_ok x) -> (forall x, power = Some x -> length (snd x) = 8%nat) ->
  block_start fn -> (forall g, In g (gres s) -> ~ meant who whom g) ->
  pdch_data_ind rfn2fn past s who tn fn blk = PDone (-2).
Proof.
  intros until add. intros B N1 N2 N3 S W. destruct (to_ctrl rfn2fn past s who tn fn _ _ _ _ _ _ B S) as (-> & _ & _).
  destruct (block_dec past blk rrbp sp usf o 2 _ _ _ _ B eq_refl (pda_runs past mode pers whom mac rlc ack slots ta p0 freq tfi power start meas add N1 N2 N3))
    as (h & d & E & (F0 & I12 & _) & _).
  unfold ctrl_block. rewrite E, F0. cbn [Z.eqb Pos.eqb]. unfold handle_pkt_dl_ass. destruct (id_lookup s who _ _ _ I12) as [_ El].
  change (12 + 4) with da_id_u in El. change 12 with da_id in El. rewrite El, (lookup_none _ _ _ W). reflexivity.
Qed.
Print Assumptions C56_others_ignored.

(** *** C57: no block, whatever its length and its octets, makes the process abort or read outside of it. *)
Lemma rd16 m a : octets m -> 0 <= rdle m a 2.
Proof. intros O. cbn [rdle]. pose proof (O a). pose proof (O (a + 1)). lia. Qed.
Lemma start_ok rfn2fn m a fn (ex : bool) : octets m -> 0 <= fn < 2715648 -> block_start fn -> (ex = true -> 0 <= m a <= 1) -> exists st, opt_start rfn2fn ex m a fn = Ok st.
Proof.
  intros O R B H. unfold opt_start, start_frame. destruct ex; [|eauto]. specialize (H eq_refl). destruct (Z.eqb_spec (m a) 0); [cbn; eauto|].
  destruct (Z.eqb_spec (m a) 1); [|lia]. destruct (C40_relative_start _ fn (rd16 m (a + 2) O) R B) as (p & -> & _). cbn. eauto.
Qed.
Lemma poll_ok h fn : 0 <= h_rrbp h < 4 -> block_start fn -> exists p, opt_poll h fn = Ok p.
Proof. intros R B. unfold opt_poll. destruct (_ =? 0); [eauto|]. destruct (C22_poll_frame fn _ B R) as (p & d & -> & _). cbn. eauto. Qed.
Lemma octets0 past bits mt o : any_past past -> mt = field bits o 6 -> octets (upd1 (fun _ => 0) 0 mt).
Proof. intros Hp ->. pose proof (field_lt past bits Hp o 6) as B. change (2 ^ Z.of_nat 6) with 64 in B. intros x. unfold upd1. destruct (x =? 0); lia. Qed.
Lemma da_values past bits o s : any_past past -> 2 = field bits o 6 -> 8 <= o <= 32 ->
  decode false bits 184 past sz_dl_union Packet_Downlink_Assignment_t (184 - o) o o (upd1 (fun _ => 0) 0 2) = DOk s ->
  0 <= s_mem s 12 <= 1 /\ (s_mem s 12 = 1 \/ 0 <= s_mem s 16 <= 1) /\ 0 <= s_mem s 108 <= 1.
Proof.
  intros Hp F O E. pose proof da_worlds as D. apply andb_prop in D as [D D3]. apply andb_prop in D as [D1 D2].
  destruct (decode_world bits 184 past da_cells da_subs 28 _ _ 176 (184 - o) _ _ _ (zeros da_cells) s Hp D1 D2 ltac:(lia) ltac:(lia) (octets0 past bits 2 o Hp F)
    ltac:(apply zero_holds; cbn; lia) E) as (w & I & H).
  rewrite forallb_forall in D3. specialize (D3 _ I). unfold da_world in D3. apply andb_prop in D3 as [D3 X3]. apply andb_prop in D3 as [X1 X2]. apply orb_prop in X2.
  split; [eapply bnd_ok; eassumption|]. split; [|eapply bnd_ok; eassumption].
  destruct X2 as [X2|X2]; [left|right; eapply bnd_ok; eassumption]. pose proof (bnd_ok _ _ _ _ _ H X2). lia.
Qed.
Lemma pu_values past bits o s : any_past past -> 10 = field bits o 6 -> 8 <= o <= 32 ->
  decode false bits 184 past sz_dl_union Packet_Uplink_Assignment_t (184 - o) o o (upd1 (fun _ => 0) 0 10) = DOk s ->
  (1 <= s_mem s 8 \/ 0 <= s_mem s 12 <= 1) /\ 0 <= s_mem s 16 <= 1 /\
  (s_mem s 16 = 1 \/ s_mem s 56 <> 1 \/ s_mem s 67 = 0 \/ 0 <= s_mem s 68 <= 1).
Proof.
  intros Hp F O E. pose proof pi_worlds as D. apply andb_prop in D as [D D3]. apply andb_prop in D as [D1 D2].
  destruct (decode_world bits 184 past pi_cells pi_subs 28 _ _ 176 (184 - o) _ _ _ (zeros pi_cells) s Hp D1 D2 ltac:(lia) ltac:(lia) (octets0 past bits 10 o Hp F)
    ltac:(apply zero_holds; cbn; lia) E) as (w & I & H).
  rewrite forallb_forall in D3. specialize (D3 _ I). unfold pi_world in D3. apply andb_prop in D3 as [X1 X2]. apply orb_prop in X1.
  split; [destruct X1 as [X1|X1]; pose proof (bnd_ok _ _ _ _ _ H X1); lia|]. split; [eapply bnd_ok; eassumption|]. clear X1 X2 I H w.
  destruct (decode_world bits 184 past ps_cells ps_subs 28 _ _ 176 (184 - o) _ _ _ (zeros ps_cells) s Hp D1 D2 ltac:(lia) ltac:(lia) (octets0 past bits 10 o Hp F)
    ltac:(apply zero_holds; cbn; lia) E) as (w & I & H).
  pose proof ps_worlds as P. rewrite forallb_forall in P. specialize (P _ I). unfold ps_world in P.
  repeat (apply orb_prop in P as [P|P]); pose proof (bnd_ok _ _ _ _ _ H P); lia.
Qed.
Theorem C57_no_abort :
  forall rfn2fn past s who tn fn msg,
  any_past past -> Forall (fun b => 0 <= b < 256) msg -> 0 <= fn < 2715648 -> block_start fn ->
  pdch_data_ind rfn2fn past s who tn fn msg <> PBad.
Proof.
  intros rfn2fn past s who tn fn msg Hp Hm Rf S. unfold pdch_data_ind. destruct (zlen msg =? 0) eqn:Z0; [discriminate|]. cbv zeta.
  destruct (get_by_size (zlen msg) =? 0) eqn:Z1; [discriminate|]. rewrite start_not12 by exact S.
  assert (L : (23 <= length msg)%nat /\ (is_gprs (get_by_size (zlen msg)) = true \/ is_edge (get_by_size (zlen msg)) = true)).
  { revert Z1. unfold get_by_size. repeat match goal with |- context [zlen msg =? ?k] => destruct (Z.eqb_spec (zlen msg) k) as [L|_]; [intros _; unfold zlen in L; split; [lia|cbn; auto]|] end.
    intros X; discriminate X. }
  destruct L as [L K]. destruct (is_gprs _) eqn:G; [|destruct K as [K|K]; [discriminate K|rewrite K; discriminate]]. clear K G Z0 Z1.
  unfold dl_block. destruct (nth_error msg 0) as [b|] eqn:Nb; [|apply nth_error_None in Nb; lia]. cbv zeta. destruct (_ =? 0); [discriminate|]. destruct (_ =? 3); [discriminate|].
  replace (length msg <? 23)%nat with false by (symmetry; apply Nat.ltb_ge; exact L). unfold ctrl_block. set (bits := msg_bits (firstn 23 msg)).
  pose proof (C47_control_block_contained past bits (fun _ => 0) Hp) as C.
  destruct (decode_downlink false past bits (fun _ => 0)) as [h [d|c|]] eqn:E; [|discriminate|].
  2: { specialize (C ltac:(intros x; lia)). exact (fun _ => C). }
  clear C. destruct (decoded past bits Hp h d E) as ((Hr & Hs) & O & mt & t & sz & o & T & F & Ho & D).
  pose proof (kept_type past bits Hp mt t sz o d T F Ho D) as M. destruct (poll_ok h fn Hr S) as (poll & Ep).
  destruct (Z.eqb_spec (s_mem d 0) 2) as [E2|_]; [|destruct (Z.eqb_spec (s_mem d 0) 9) as [E9|_]; [|destruct (Z.eqb_spec (s_mem d 0) 10) as [E10|_]; [|discriminate]]].
  - rewrite M in E2. subst mt. rewrite E2 in *. injection T as <- <-. destruct (da_values past bits o d Hp (eq_sym E2) Ho D) as (V1 & V2 & V3).
    unfold handle_pkt_dl_ass, by_global_tfi, da_id, da_id_u.
    assert (X : exists g, (if s_mem d 12 =? 0 then (if s_mem d 16 =? 0 then Ok (by_ul_tfi s (s_mem d (16 + 1))) else if s_mem d 16 =? 1 then Ok (by_dl_tfi s (s_mem d (16 + 1))) else UB)
      else if s_mem d 12 =? 1 then Ok (gre_by_tlli s who (rdle (s_mem d) 16 4)) else UB) = Ok g).
    { destruct (Z.eqb_spec (s_mem d 12) 0); [|destruct (Z.eqb_spec (s_mem d 12) 1); [eauto|lia]].
      destruct (Z.eqb_spec (s_mem d 16) 0); [eauto|]. destruct (Z.eqb_spec (s_mem d 16) 1); [eauto|lia]. }
    destruct X as (g & ->). cbn [pbind]. destruct g as [g|]; [|discriminate].
    destruct (start_ok rfn2fn (s_mem d) da_start fn (negb (rdle (s_mem d) da_start_ex 4 =? 0)) O Rf S (fun _ => V3)) as (st & ->). cbn [pbind]. rewrite Ep. discriminate.
  - unfold handle_pkt_ul_ack_nack. destruct (by_ul_tfi _ _); [|discriminate]. rewrite Ep. discriminate.
  - rewrite M in E10. subst mt. rewrite E10 in *. injection T as <- <-. destruct (pu_values past bits o d Hp (eq_sym E10) Ho D) as (V1 & V2 & V3).
    unfold PdchModel.handle_pkt_ul_ass, by_global_tfi, pu_id, pu_id_u.
    assert (X : exists g, (if s_mem d 8 =? 0 then (if s_mem d 12 =? 0 then Ok (by_ul_tfi s (s_mem d (12 + 1))) else if s_mem d 12 =? 1 then Ok (by_dl_tfi s (s_mem d (12 + 1))) else UB)
      else if s_mem d 8 =? 1 then Ok (gre_by_tlli s who (rdle (s_mem d) 12 4)) else Ok None) = Ok g).
    { destruct (Z.eqb_spec (s_mem d 8) 0); [|destruct (_ =? 1); eauto].
      destruct (Z.eqb_spec (s_mem d 12) 0); [eauto|]. destruct (Z.eqb_spec (s_mem d 12) 1); [eauto|lia]. }
    destruct X as (g & ->). cbn [pbind]. destruct g as [g|]; [|discriminate]. destruct (g_ul g); [|discriminate].
    assert (X : exists c, pua_contents rfn2fn (s_mem d) fn = Ok c).
    { unfold pua_contents, pu_type, pu_alloc. destruct (Z.eqb_spec (s_mem d 16) 0); [|destruct (Z.eqb_spec (s_mem d 16) 1); [eauto|lia]].
      destruct (Z.eqb_spec (s_mem d 56) 1); [|eauto].
      destruct (start_ok rfn2fn (s_mem d) pu_start fn (negb (s_mem d pu_start_ex =? 0)) O Rf S) as (st & ->); [|cbn; eauto].
      unfold pu_start_ex, pu_start. destruct (Z.eqb_spec (s_mem d 67) 0); [discriminate|]. intros _. lia. }
    destruct X as (c & ->). cbn [pbind]. rewrite Ep. discriminate.
Qed.
Print Assumptions C57_no_abort.

(** *** Examples and counterexamples *)
Definition last_bits (blk : list Z) (n : nat) : list bool := skipn (184 - n) (map (bit_at blk) (seq 0 184)).
Ltac block_ok := split; [let x := fresh "x" in let E := fresh "E" in intros x E; try discriminate E; injection E as <-; unfold opt_ok; cbn; intuition discriminate|msg_ok].
(** An uplink TBF (TFI 5, one phase, waiting for the contention to be resolved) and a downlink TBF (TFI 7) of one entity with
    the TLLI 0xc0001234. *)
Definition ul5 : tbf :=
  mkTbf FLOW 3166 true 0 0 false 0 0 1 (mkAlloc 5 1 (one_slot 4 3)) false false 2 UlTbfModel.IDLE false false alloc0 alloc0 false 0 false false 0.
Definition two_tbfs : sys :=
  mkSys [mkGre 8 None None None false; mkGre 1 (Some (2, ul5)) (Some (mkDl 3 false 7 (dl_slots 0x10) true false)) None false] (ulc sys0) 4.
Definition ids (g : Z) : ent := if g =? 1 then mkEnt 0xc0001234 0xffffffff 0xffffffff [] else mkEnt 0xc0005678 0xffffffff 0xffffffff [].
Lemma ul5_there : first_of (has_ul_tfi 5) (gres two_tbfs) (mkGre 1 (Some (2, ul5)) (Some (mkDl 3 false 7 (dl_slots 0x10) true false)) None false).
Proof.
  exists [mkGre 8 None None None false], []. split; [reflexivity|]. split; [exists 2, ul5; split; reflexivity|]. constructor; [|constructor]. intros (i & b & [=] & _).
Qed.

Definition ack_block : list Z := [0x58; 0x24; 0xa; 0xa0; 0xc0; 0x0; 0x0; 0x0; 0x0; 0x0; 0x0; 0x1; 0xf8; 0x0; 0x2; 0x46; 0x80; 0xab; 0x2b; 0x2b; 0x2b; 0x2b; 0x2b].
Lemma ack_block_is : block ack_block 1 1 0 None
  (ul_ack_nack 0 5 2 1 3 [0; 0; 0; 0; 0; 0; 0; 7] (Some 0xc0001234) None None None 0 (inr ((None, 1), last_bits ack_block 45))).
Proof. block_ok. Qed.
Example C54_nonvacuous :
  block ack_block 1 1 0 None (ul_ack_nack 0 5 2 1 3 [0; 0; 0; 0; 0; 0; 0; 7] (Some 0xc0001234) None None None 0 (inr ((None, 1), last_bits ack_block 45))) /\
  ack_lengths [0; 0; 0; 0; 0; 0; 0; 7] None None /\ (exists g, In g (gres two_tbfs) /\ has_ul_tfi 5 g) /\
  pdch_data_ind no_rfn no_past two_tbfs ids 4 2715643 ack_block = PAck (UlAckNack 4 5 (Some 13) true true 2) true 3 [0; 0; 0; 0; 0; 0; 0; 7] /\
  pdch_data_ind no_rfn no_past sys0 ids 4 2715643 ack_block = PDone (-2).
Proof.
  split; [exact ack_block_is|]. split; [split; [reflexivity|split; discriminate]|]. split; [|split; lazy; reflexivity].
  destruct ul5_there as (a & b & E & H & _). eexists. split; [rewrite E; apply in_or_app; right; left; reflexivity|exact H].
Qed.

(** C54 in full would say that the contention is resolved only by a message with the TLLI of this mobile (44.060, 7.1.2.3);
    but the TLLI in the message is never looked at: an acknowledgement that resolves the contention in favour of another
    mobile leaves this TBF running on the resources of the other. *)
Definition ack_other : list Z := [0x40; 0x24; 0xa; 0x8d; 0x40; 0x0; 0x0; 0x0; 0x0; 0x0; 0x0; 0x1; 0xfb; 0xd5; 0xb7; 0xdd; 0xe0; 0x8b; 0x2b; 0x2b; 0x2b; 0x2b; 0x2b].
Theorem C54_contention_refuted :
  exists blk tlli rest b' o, (forall g, tlli <> e_tlli (ids g) /\ tlli <> e_old_tlli (ids g)) /\
    block blk 0 0 0 None (ul_ack_nack 0 5 2 0 53 [0; 0; 0; 0; 0; 0; 0; 7] (Some tlli) None None None 0 rest) /\
    in_contention ul5 = true /\
    pdch_data_ind no_rfn no_past two_tbfs ids 4 0 blk = PAck (UlAckNack 4 5 None false false 2) false 53 [0; 0; 0; 0; 0; 0; 0; 7] /\
    step 15 ul5 (UlAck 4 5 None false false 2) = Ok (Some b', o) /\ in_contention b' = false /\ u b' = FLOW.
Proof.
  exists ack_other, 0xdeadbeef, (inr ((None, 0), last_bits ack_other 45)). eexists. eexists.
  split; [intros g; unfold ids; destruct (g =? 1); split; discriminate|]. split; [block_ok|]. split; [reflexivity|]. split; [lazy; reflexivity|].
  split; [reflexivity|]. split; reflexivity.
Qed.
Print Assumptions C54_contention_refuted.

(** C54 is for GPRS TBF mode.  The EGPRS format (11.2.28: TFI, 1, 00, then the channel coding command in four bits, the flags
    for resegmentation, preemptive transmission and the two retransmission requests, and the rest) is taken for a report in
    GPRS format, whose members overlap: here the blocks reported as received are the channel coding command. *)
Definition egprs_ack_nack mode tfi mcs flags more : list item := [U 6 9; U 2 mode; U 2 0; U 5 tfi; U 1 1; U 2 0; U 4 mcs; U 4 flags; Any more].
Theorem C54_egprs_format_refuted :
  exists blk1 blk2 mcs1 mcs2 more, block blk1 0 0 0 None (egprs_ack_nack 0 5 mcs1 0 more) /\ block blk2 0 0 0 None (egprs_ack_nack 0 5 mcs2 0 more) /\
    pdch_data_ind no_rfn no_past two_tbfs ids 4 0 blk1 = PAck (UlAckNack 4 5 None false false 0) false 0 [0; mcs1; 0; 0; 0; 0; 0; 0] /\
    pdch_data_ind no_rfn no_past two_tbfs ids 4 0 blk2 = PAck (UlAckNack 4 5 None false false 0) false 0 [0; mcs2; 0; 0; 0; 0; 0; 0] /\ mcs1 <> mcs2.
Proof.
  exists (0x40 :: 0x24 :: 0x0b :: 0x14 :: 0x00 :: repeat 0x2b 18), (0x40 :: 0x24 :: 0x0b :: 0x20 :: 0x00 :: repeat 0x2b 18), 5, 8, (last_bits (0x40 :: 0x24 :: 0x0b :: 0x14 :: 0x00 :: repeat 0x2b 18) 150).
  split; [block_ok|]. split; [block_ok|]. split; [lazy; reflexivity|]. split; [lazy; reflexivity|discriminate].
Qed.
Print Assumptions C54_egprs_format_refuted.

Definition pua_block : list Z := [0x40; 0x28; 0x58; 0x00; 0x02; 0x46; 0x8f; 0x50; 0x45; 0x2c; 0x00; 0xa0; 0xa7; 0x0b] ++ repeat 0x2b 9.
Definition pua_slots : list (option Z) := [None; None; None; None; Some 2; None; Some 6; None].
Example C55_nonvacuous :
  block pua_block 0 0 0 None (ul_assignment 0 None (inr 0xc0001234) 3 1 (Some 20, None) None 0 None 0 (Some 9) None (Some (inr 5)) (inl pua_slots) (inl (Some (last_bits pua_block 77)))) /\
  (exists g, first_of (meant ids (inr 0xc0001234)) (gres two_tbfs) g /\ g_ul g <> None) /\
  pdch_data_ind no_rfn no_past two_tbfs ids 6 2715643 pua_block = PEvent (UlPktAss 1 6 2715643 None (PuaDynamic (Some 9) 3 (Some 21) pua_slots)).
Proof.
  split; [block_ok|]. split; [|lazy; reflexivity]. eexists. split; [exists [mkGre 8 None None None false], []; split; [reflexivity|]; split; [left; reflexivity|]|discriminate].
  constructor; [|constructor]. intros [H|H]; discriminate H.
Qed.
Definition pda_block : list Z := [0xa8; 0x0f; 0x0f; 0x08; 0x27; 0x08; 0xc0; 0x58; 0x9b; 0x45; 0x4b] ++ repeat 0x2b 12.
Definition pda_opt : opt_octets := mkOpt 0 3 1 (Some (0, 7, 1)) None.
Example C56_nonvacuous :
  block pda_block 2 1 0 (Some pda_opt) (dl_assignment 0 None (inl (inr 7)) 0 0 1 0x18 (None, None) None None (Some 12) None (Some (inl (13, 40, 21))) None (inl (Some (last_bits pda_block 100)))) /\
  frame_ok (Some (inl (13, 40, 21))) /\ (exists g, first_of (meant ids (inl (inr 7))) (gres two_tbfs) g) /\
  pdch_data_ind no_rfn no_past two_tbfs ids 4 0 pda_block =
    PEvent (DlPktAss 1 4 0 (Some 21) (Some 12) (Some 18247) [false; false; false; true; true; false; false; false] true).
Proof.
  split; [block_ok|]. split; [cbn; lia|]. split; [|lazy; reflexivity].
  eexists. exists [mkGre 8 None None None false], []. split; [reflexivity|]. split; [eexists; split; reflexivity|].
  constructor; [|constructor]. intros (d & [=] & _).
Qed.
(** C57 has no hypothesis but on the ranges of frame numbers and octets: all three messages, data blocks and blocks of
    other sizes go through [pdch_data_ind]. *)
Example C57_nonvacuous :
  any_past no_past /\ Forall (fun b => 0 <= b < 256) pda_block /\ block_start 0 /\
  pdch_data_ind no_rfn no_past two_tbfs ids 4 0 (repeat 0 34) = PData 2 /\
  pdch_data_ind no_rfn no_past two_tbfs ids 4 0 (repeat 0xff 23) = PDone 0 /\
  pdch_data_ind no_rfn no_past two_tbfs ids 4 0 (repeat 0x40 23) <> PBad /\
  pdch_data_ind no_rfn no_past two_tbfs ids 4 0 [1; 2] = PDone (-22).
Proof.
  split; [intros a n Hn; cbn; pose proof (Z.pow_pos_nonneg 2 n); lia|]. split; [apply octets_dec; reflexivity|]. split; [left; reflexivity|].
  split; [lazy; reflexivity|]. split; [lazy; reflexivity|]. split; [lazy; discriminate|lazy; reflexivity].
Qed.
