(** Proofs about the LLC entity model: TLLI management and suspension. *)
From Verif.Lib Require Import Base Outcome.
From Verif.Llc Require Import Crc24Model Crc24Proofs PduModel PduSpec PduProofs XidModel XidSpec XidProofs LlcModel LlcSpec LlcProofs LlcProofs2.

Definition good_out (m : llme) (o : out) : Prop :=
  match o with
  | Down t sapi _ pdu => t = m_tlli m /\ (ui_number pdu <> None -> sapi = 1 \/ m_susp m = false)
  | UpUnitdata t _ _ | UpXidInd t _ _ _ _ | UpXidCnf t _ _ _ _ => t = m_tlli m
  | UpAssign _ _ => False
  end.
Lemma quiet_good m o : Forall (quiet_for (m_tlli m)) o -> Forall (good_out m) o.
Proof. apply Forall_impl. intros []; cbn; tauto. Qed.

Definition grows (s s1 : st) (t : Z) : Prop := s1 = s \/ (find_llme s t = None /\ s1 = llme_alloc t :: s).

(** What an event other than an assignment may do: possibly a new entity for its TLLI, then at most one
    entity, named by the TLLI, changes; all outputs carry that entity's current TLLI. *)
Definition one_entity (s s' : st) (o : list out) (ev : event) : Prop :=
  exists s1, grows s s1 (ev_tlli ev) /\
    ((s' = s1 /\ o = []) \/
     exists i m m', nth_error s1 i = Some m /\ s' = upd s1 i m' /\ names (ev_tlli ev) m /\
       m_tlli m' = m_tlli m /\ m_old m' = m_old m /\ good_llme m' /\
       (m_susp m' = m_susp m \/ m_susp m' = true \/ ev = GmmResume (ev_tlli ev)) /\
       Forall (good_out m) o).

Lemma one_same s ev : one_entity s s [] ev.
Proof. exists s. split; [left; reflexivity|left; split; reflexivity]. Qed.

Lemma one_upd s s1 i m m' o ev : grows s s1 (ev_tlli ev) -> nth_error s1 i = Some m -> names (ev_tlli ev) m ->
  m_tlli m' = m_tlli m -> m_old m' = m_old m -> good_llme m' ->
  (m_susp m' = m_susp m \/ m_susp m' = true \/ ev = GmmResume (ev_tlli ev)) -> Forall (good_out m) o ->
  one_entity s (upd s1 i m') o ev.
Proof. intros. exists s1. split; [assumption|]. right. exists i, m, m'. auto 10. Qed.

Lemma good_grows s s1 t : Forall good_llme s -> grows s s1 t -> Forall good_llme s1.
Proof. intros H [->|[_ ->]]; [exact H|]. constructor; [apply good_alloc|exact H]. Qed.
Lemma good_at s i m : Forall good_llme s -> nth_error s i = Some m -> good_llme m.
Proof. intros H Hn. rewrite Forall_forall in H. eapply H, nth_error_In, Hn. Qed.

Lemma nonassign_step e s ev s' o rc : Forall good_llme s -> is_assign ev = false ->
  (match ev with RxPdu _ pdu => bytes pdu | _ => True end) ->
  step e s ev = Ok (s', o, rc) -> one_entity s s' o ev.
Proof.
  intros Hg Hna Hb. destruct ev as [t pdu|t sapi data p|t sapi l3|t sapi l3|t sapi|old new|t rnd|t nul|t|t]; cbn [step].
  - pose proof (decode_safe pdu Hb) as Hsafe.
    destruct (pdu_decode pdu) as [d|er|]; [| |discriminate].
    2:{ intros H; injection H as <- <- <-. apply one_same. }
    destruct (negb _); [intros H; injection H as <- <- <-; apply one_same|].
    destruct (lle_for_rx s t _ _) as [[[s1 i] m]|] eqn:Ef; [|intros H; injection H as <- <- <-; apply one_same].
    destruct (lle_rx e m _ pdu d) as [[[l' o1] rc1]| |] eqn:Er; try discriminate. cbn [bind].
    intros H; injection H as <- <- <-. apply lle_rx_cases in Er as [(T1 & T2 & T3) Hq].
    apply lle_for_rx_cases in Ef as (Hn & Hnm & Hc).
    assert (Hgr : grows s s1 t) by (destruct Hc as [->|(Hnone & -> & _)]; [left|right]; auto).
    assert (Hsapi : 0 <= h_sapi (d_hdr d) < 16) by (apply fields_sapi; apply Hsafe).
    pose proof (good_at s1 i m (good_grows s s1 t Hg Hgr) Hn) as Gm.
    apply (one_upd s s1 i m); auto; [|apply quiet_good, Hq].
    destruct (proj2 Gm _ Hsapi) as [G1 G2]. apply good_set_lle; auto; [congruence|lia].
  - destruct (negb _) eqn:Es; [discriminate|]. assert (Hs : 0 <= sapi < 16) by lia.
    assert (Haux : forall s1 i m, grows s s1 t -> nth_error s1 i = Some m -> names t m ->
      (if m_susp m && negb (sapi =? 1) then Ok (s1, [], 0) else
       match tx_ui e m (get_lle m sapi) data p with
       | Ok (l', o0) => Ok (upd s1 i (set_lle m sapi l'), o0, 0)
       | Err er => Ok (s1, [], er) | UB => UB end) = Ok (s', o, rc) -> one_entity s s' o (LlUnitdata t sapi data p)).
    { intros s1 i m Hgr Hn Hnm. pose proof (good_at s1 i m (good_grows s s1 t Hg Hgr) Hn) as Gm.
      destruct (m_susp m && _) eqn:Esu;
        [intros H; injection H as <- <- <-; exists s1; split; [exact Hgr|left; split; reflexivity]|].
      destruct (proj2 Gm sapi Hs) as [G1 G2].
      destruct (tx_ui_cases e m (get_lle m sapi) data p) as [[_ ->]|[_ ->]]; intros H; injection H as <- <- <-.
      - exists s1; split; [exact Hgr|left; split; reflexivity].
      - apply (one_upd s s1 i m); auto.
        + apply good_set_lle; auto. unfold after_tx_ui, set_tx. cbn [vu_send]. apply Z.mod_pos_bound. lia.
        + constructor; [|constructor]. cbn. split; [reflexivity|]. intros _. rewrite G1. destruct (m_susp m); [left; lia|auto]. }
    destruct (find_llme s t) as [[i m]|] eqn:Ef.
    + apply find_spec in Ef as [Hn Hnm]. apply Haux; auto. left; reflexivity.
    + apply Haux; [right; auto|reflexivity|left; reflexivity].
  - unfold with_lle. destruct (find_llme s t) as [[i m]|] eqn:Ef; [|intros H; injection H as <- <- <-; apply one_same].
    destruct (_ && _) eqn:Es; [|discriminate]. assert (Hs : 0 <= sapi < 16) by lia.
    destruct (tx_xid_req _ _ _ _) as [[[l' o1] rc1]| |] eqn:Er; try discriminate. cbn [bind].
    intros H; injection H as <- <- <-. apply tx_xid_req_cases in Er as [(T1 & T2 & T3) Hq].
    apply find_spec in Ef as [Hn Hnm]. pose proof (good_at s i m Hg Hn) as Gm.
    apply (one_upd s s i m); auto; [left; reflexivity| |apply quiet_good, Hq].
    destruct (proj2 Gm _ Hs) as [G1 G2]. apply good_set_lle; auto; [congruence|lia].
  - unfold with_lle. destruct (find_llme s t) as [[i m]|] eqn:Ef; [|intros H; injection H as <- <- <-; apply one_same].
    destruct (_ && _) eqn:Es; [|discriminate]. assert (Hs : 0 <= sapi < 16) by lia.
    destruct (tx_xid_resp _ _ _ _) as [[[l' o1] rc1]| |] eqn:Er; try discriminate. cbn [bind].
    intros H; injection H as <- <- <-. apply tx_xid_resp_cases in Er as [(T1 & T2 & T3) Hq].
    apply find_spec in Ef as [Hn Hnm]. pose proof (good_at s i m Hg Hn) as Gm.
    apply (one_upd s s i m); auto; [left; reflexivity| |apply quiet_good, Hq].
    destruct (proj2 Gm _ Hs) as [G1 G2]. apply good_set_lle; auto; [congruence|lia].
  - unfold with_lle. destruct (find_llme s t) as [[i m]|] eqn:Ef; [|intros H; injection H as <- <- <-; apply one_same].
    destruct (_ && _); [|discriminate]. intros H; injection H as <- <- <-; apply one_same.
  - discriminate.
  - unfold reset_req. destruct (find_llme s t) as [[i m]|] eqn:Ef; [|intros H; injection H as <- <- <-; apply one_same].
    apply find_spec in Ef as [Hn Hnm]. pose proof (good_at s i m Hg Hn) as Gm.
    set (m1 := mkllme _ _ _ _ _ _).
    assert (Gm1 : good_llme m1) by exact Gm.
    destruct (xid_encode _ _) as [b| |]; [| |discriminate].
    + destruct (tx_xid_ok e m1 (reset_lle (get_lle m1 1) [mkx T_RESET 0 []; mkx 1 (rnd mod 2 ^ 32) []]) b) as (p & -> & Hp). cbn [bind].
      intros H; injection H as <- <- <-. apply (one_upd s s i m); auto; [left; reflexivity| |].
      * destruct (proj2 Gm1 1 ltac:(lia)) as [G1 G2]. apply good_set_lle; auto; [lia|cbn; lia].
      * constructor; [|constructor]. split; [reflexivity|congruence].
    + intros H; injection H as <- <- <-. apply (one_upd s s i m); auto. left; reflexivity.
  - destruct (find_llme s t) as [[i m]|] eqn:Ef; [|intros H; injection H as <- <- <-; apply one_same].
    apply find_spec in Ef as [Hn Hnm]. pose proof (good_at s i m Hg Hn) as Gm. destruct nul.
    + destruct (tx_null_ok m (get_lle m 1)) as (p & -> & Hp). cbn [bind].
      intros H; injection H as <- <- <-. rewrite <- (upd_same s i m Hn) at 2.
      apply (one_upd s s i m); auto; [left; reflexivity|].
      constructor; [|constructor]. split; [reflexivity|congruence].
    + destruct (proj2 Gm 1 ltac:(lia)) as [G1 G2].
      destruct (tx_ui_cases e m (get_lle m 1) [] 1) as [[_ ->]|[_ ->]]; intros H; injection H as <- <- <-.
      * apply one_same.
      * apply (one_upd s s i m); auto; [left; reflexivity| |].
        -- apply good_set_lle; auto; [lia|]. unfold after_tx_ui, set_tx. cbn [vu_send]. apply Z.mod_pos_bound. lia.
        -- constructor; [|constructor]. cbn. split; [reflexivity|]. intros _. left. exact G1.
  - destruct (find_llme s t) as [[i m]|] eqn:Ef; [|intros H; injection H as <- <- <-; apply one_same].
    apply find_spec in Ef as [Hn Hnm]. pose proof (good_at s i m Hg Hn) as Gm.
    intros H; injection H as <- <- <-. apply (one_upd s s i m); auto; try (left; reflexivity). 
  - destruct (find_llme s t) as [[i m]|] eqn:Ef; [|intros H; injection H as <- <- <-; apply one_same].
    apply find_spec in Ef as [Hn Hnm]. pose proof (good_at s i m Hg Hn) as Gm.
    intros H; injection H as <- <- <-. apply (one_upd s s i m); auto; try (left; reflexivity).
Qed.

(** ** TLLIs *)
Definition tls (s : st) : list (Z * Z) := map (fun m => (m_tlli m, m_old m)) s.
Definition disj (l : list (Z * Z)) : Prop :=
  forall i j a b t, nth_error l i = Some a -> nth_error l j = Some b -> (fst a = t \/ snd a = t) -> (fst b = t \/ snd b = t) ->
    t <> TLLI_UNASSIGNED -> i = j.
Lemma disj_iff s : disjoint_tllis s <-> disj (tls s).
Proof.
  unfold disjoint_tllis, disj, tls, names. split.
  - intros H i j a b t Ha Hb Na Nb Ht. rewrite nth_error_map in Ha, Hb.
    destruct (nth_error s i) as [x|] eqn:Ei; [|discriminate]. destruct (nth_error s j) as [y|] eqn:Ej; [|discriminate].
    injection Ha as <-. injection Hb as <-. apply (H i j x y t); auto.
  - intros H i j a b t Ha Hb Na Nb Ht.
    apply (H i j (m_tlli a, m_old a) (m_tlli b, m_old b) t); auto; rewrite nth_error_map, ?Ha, ?Hb; reflexivity.
Qed.

Lemma disj_grows s s1 t : disjoint_tllis s -> grows s s1 t -> disjoint_tllis s1.
Proof.
  intros Hd [->|[Hn ->]]; [exact Hd|]. pose proof (proj1 (find_none s t) Hn) as Hnone.
  intros i j a b x Ha Hb Na Nb Hx.
  assert (K : forall k c, nth_error s k = Some c -> names x c -> names x (llme_alloc t) -> False).
  { intros k c Hc Nc [Hal|Hal]; cbn in Hal.
    - subst x. exact (Hnone k c Hc Nc).
    - apply Hx. symmetry. exact Hal. }
  destruct i as [|i], j as [|j]; cbn in Ha, Hb; [reflexivity| | |].
  - injection Ha as <-. destruct (K j b Hb Nb Na).
  - injection Hb as <-. destruct (K i a Ha Na Nb).
  - f_equal. apply (Hd i j a b x); assumption.
Qed.

Lemma one_entity_disj s s' o ev : disjoint_tllis s -> one_entity s s' o ev -> disjoint_tllis s'.
Proof.
  intros Hd (s1 & Hgr & H). pose proof (disj_grows s s1 _ Hd Hgr) as Hd1.
  destruct H as [[-> _]|(i & m & m' & Hn & -> & _ & Ht & Ho & _)]; [exact Hd1|].
  apply disj_iff. unfold tls. rewrite (map_upd_same _ s1 i m m' Hn) by congruence. apply disj_iff, Hd1.
Qed.
Lemma one_entity_good s s' o ev : Forall good_llme s -> one_entity s s' o ev -> Forall good_llme s'.
Proof.
  intros Hd (s1 & Hgr & H). pose proof (good_grows s s1 _ Hd Hgr) as Hd1.
  destruct H as [[-> _]|(i & m & m' & Hn & -> & _ & Ht & Ho & Hg & _)]; [exact Hd1|].
  apply Forall_upd; assumption.
Qed.

Lemma Forall_del {A} (P : A -> Prop) l i : Forall P l -> Forall P (del l i).
Proof. intros H. revert i. induction H; intros [|i]; cbn; auto. Qed.
Lemma nth_error_del {A} (l : list A) i j : nth_error (del l i) j = nth_error l (if Nat.ltb j i then j else S j).
Proof.
  revert i j; induction l as [|x l IH]; intros i j.
  - assert (E : forall k, nth_error (@nil A) k = None) by (intros [|k]; reflexivity).
    destruct i; cbn [del]; rewrite !E; reflexivity.
  - destruct i as [|i], j as [|j]; try reflexivity. cbn [del nth_error].
    rewrite IH. change (Nat.ltb (S j) (S i)) with (Nat.ltb j i). destruct (Nat.ltb j i); reflexivity.
Qed.

Lemma disj_upd s i m m' : disjoint_tllis s -> nth_error s i = Some m ->
  (forall t, t <> TLLI_UNASSIGNED -> names t m' -> names t m \/ forall j b, nth_error s j = Some b -> names t b -> i = j) ->
  disjoint_tllis (upd s i m').
Proof.
  intros Hd Hn Hnew. 
  assert (K : forall j b t, i <> j -> nth_error s j = Some b -> names t m' -> names t b -> t <> TLLI_UNASSIGNED -> False).
  { intros j b t Hij Hb Nm Nb Ht. destruct (Hnew t Ht Nm) as [N|N].
    - apply Hij. apply (Hd i j m b t); assumption.
    - apply Hij. exact (N j b Hb Nb). }
  intros a b x y t Ha Hb Na Nb Ht. rewrite nth_error_upd in Ha, Hb. rewrite Hn in Ha, Hb.
  destruct (Nat.eqb_spec i a) as [<-|Hia], (Nat.eqb_spec i b) as [<-|Hib]; auto.
  - injection Ha as <-. destruct (K b y t Hib Hb Na Nb Ht).
  - injection Hb as <-. destruct (K a x t Hia Ha Nb Na Ht).
  - apply (Hd a b x y t); assumption.
Qed.

Lemma assign_step_inv e s old new s' o rc : disjoint_tllis s -> Forall good_llme s -> admissible s (GmmAssign old new) ->
  step e s (GmmAssign old new) = Ok (s', o, rc) -> disjoint_tllis s' /\ Forall good_llme s'.
Proof.
  intros Hd Hg Hadm. cbn [step]. unfold assign_req.
  destruct (_ && _) eqn:Eb; [intros H; injection H as <- <- <-; auto|].
  destruct (find_llme s _) as [[i m]|] eqn:Ef; [|intros H; injection H as <- <- <-; auto].
  apply find_spec in Ef as [Hn Hnm]. pose proof (good_at s i m Hg Hn) as Gm.
  destruct (old =? TLLI_UNASSIGNED) eqn:Eo.
  - destruct (negb (m_old m =? TLLI_UNASSIGNED)).
    + intros H; injection H as <- <- <-. split; [|apply Forall_upd; auto].
      apply (disj_upd s i m); auto. intros t Ht [Hx|Hx]; cbn in Hx; [left; subst t; exact Hnm|congruence].
    + intros H; injection H as <- <- <-. split.
      * apply (disj_upd s i m); auto. intros t Ht [Hx|Hx]; cbn in Hx; [left; subst t; exact Hnm|congruence].
      * apply Forall_upd; [auto|]. destruct Gm as [G1 G2]. split; [cbn; rewrite map_length; exact G1|].
        intros x Hx. unfold get_lle. cbn [m_lle].
        set (r := negb _).
        rewrite (nth_indep _ _ (assign_lle r (lle_init x))) by (rewrite map_length; lia). rewrite map_nth.
        destruct (G2 x Hx) as [E1 E2]. unfold get_lle in E1, E2. unfold assign_lle. cbn [l_sapi vu_send].
        split; [exact E1|]. destruct r; [lia|exact E2].
  - destruct (negb (new =? TLLI_UNASSIGNED)) eqn:En.
    + intros H; injection H as <- <- <-. split; [|apply Forall_upd; auto].
      apply (disj_upd s i m); auto. intros t Ht [Hx|Hx]; cbn in Hx; [|left; subst t; exact Hnm].
      right. subst t. intros j b Hb Nb. destruct Hadm as [Hold|[Hnew|Hadm]].
      * change 4294967295 with TLLI_UNASSIGNED in Hold. lia.
      * change 4294967295 with TLLI_UNASSIGNED in Hnew. lia.
      * apply (Hd i j m b old); auto; [apply (Hadm j b Hb Nb)|change 4294967295 with TLLI_UNASSIGNED; lia].
    + intros H; injection H as <- <- <-. split; [|apply Forall_del; auto].
      intros a b x y t Ha Hb Na Nb Ht. rewrite nth_error_del in Ha, Hb.
      pose proof (Hd _ _ x y t Ha Hb Na Nb Ht) as He.
      destruct (Nat.ltb_spec a i), (Nat.ltb_spec b i); lia.
Qed.

Lemma reachable_inv e s : reachable e s -> disjoint_tllis s /\ Forall good_llme s.
Proof.
  induction 1 as [|s ev s' o rc Hr [IH1 IH2] Hadm Hstep].
  - split; [|constructor]. intros [|i] j a b t Ha; discriminate.
  - destruct (is_assign ev) eqn:Ea.
    + destruct ev; try discriminate. exact (assign_step_inv e s _ _ s' o rc IH1 IH2 Hadm Hstep).
    + assert (H1 : one_entity s s' o ev).
      { apply (nonassign_step e s ev s' o rc); auto. destruct ev; auto. }
      split; [eapply one_entity_disj|eapply one_entity_good]; eassumption.
Qed.

Lemma find_exact s t i m : disjoint_tllis s -> t <> TLLI_UNASSIGNED ->
  find_llme s t = Some (i, m) <-> (nth_error s i = Some m /\ names t m).
Proof.
  intros Hd Ht. split; [apply find_spec|]. intros [Hn Hnm].
  destruct (find_llme s t) as [[j x]|] eqn:E.
  - apply find_spec in E as [Hj Hx]. assert (i = j) by (apply (Hd i j m x t); assumption). subst j. congruence.
  - exfalso. exact (proj1 (find_none s t) E i m Hn Hnm).
Qed.

(** Effects of the four assign cases. *)
Lemma assign_change e s i m old new : disjoint_tllis s -> old <> TLLI_UNASSIGNED -> new <> TLLI_UNASSIGNED ->
  nth_error s i = Some m -> names old m ->
  exists m', step e s (GmmAssign old new) = Ok (upd s i m', if old =? new then [] else [UpAssign old new], 0) /\
    m_tlli m' = new /\ m_old m' = old /\ m_lle m' = m_lle m /\ m_susp m' = m_susp m.
Proof.
  intros Hd Ho Hn Hi Hnm. cbn [step]. unfold assign_req.
  replace (old =? TLLI_UNASSIGNED) with false by lia. cbn [andb].
  rewrite (proj2 (find_exact s old i m Hd Ho) (conj Hi Hnm)).
  replace (negb (new =? TLLI_UNASSIGNED)) with true by lia.
  eexists. split; [reflexivity|]. auto.
Qed.
Lemma assign_confirm e s i m new : disjoint_tllis s -> new <> TLLI_UNASSIGNED ->
  nth_error s i = Some m -> names new m ->
  exists m', step e s (GmmAssign TLLI_UNASSIGNED new) = Ok (upd s i m', [], 0) /\
    m_tlli m' = new /\ m_old m' = TLLI_UNASSIGNED /\ m_susp m' = m_susp m /\
    (m_old m = TLLI_UNASSIGNED -> m_assigned m' = true).
Proof.
  intros Hd Hn Hi Hnm. cbn [step]. unfold assign_req.
  replace (new =? TLLI_UNASSIGNED) with false by lia. rewrite Z.eqb_refl. cbn [andb].
  rewrite (proj2 (find_exact s new i m Hd Hn) (conj Hi Hnm)).
  destruct (Z.eqb_spec (m_old m) TLLI_UNASSIGNED); cbn [negb]; eexists; (split; [reflexivity|]); repeat split; auto; intros; congruence.
Qed.
Lemma del_spec {A} (l : list A) i : del l i = firstn i l ++ skipn (S i) l.
Proof. revert i; induction l as [|x l IH]; intros [|i]; cbn; auto. f_equal. apply IH. Qed.
Lemma assign_release e s i m old : disjoint_tllis s -> old <> TLLI_UNASSIGNED ->
  nth_error s i = Some m -> names old m ->
  step e s (GmmAssign old TLLI_UNASSIGNED) = Ok (firstn i s ++ skipn (S i) s, [], 0).
Proof.
  intros Hd Ho Hi Hnm. cbn [step]. unfold assign_req.
  replace (old =? TLLI_UNASSIGNED) with false by lia. cbn [andb].
  rewrite (proj2 (find_exact s old i m Hd Ho) (conj Hi Hnm)). rewrite Z.eqb_refl. cbn [negb].
  rewrite del_spec. reflexivity.
Qed.
Lemma assign_unknown e s old new : (forall i m, nth_error s i = Some m -> ~ names (if old =? TLLI_UNASSIGNED then new else old) m) ->
  exists rc, rc < 0 /\ step e s (GmmAssign old new) = Ok (s, [], rc).
Proof.
  intros H. apply find_none in H. cbn [step]. unfold assign_req. rewrite H.
  destruct (_ && _); eexists; (split; [|reflexivity]); reflexivity.
Qed.

(** ** Suspension *)
Definition susp_inv (t ot : Z) (s : st) : Prop :=
  Forall good_llme s /\ (exists m, In m s /\ m_tlli m = t) /\
  forall m, In m s -> m_tlli m = t -> m_susp m = true /\ m_old m = ot.

Lemma In_upd {A} (l : list A) i x y : In y (upd l i x) -> y = x \/ In y l.
Proof. revert i; induction l as [|z l IH]; intros [|i]; cbn; try tauto; [intuition|]. intros [H|H]; [tauto|]. apply IH in H. tauto. Qed.
Lemma upd_In {A} (l : list A) i x y : nth_error l i = Some y -> In x (upd l i x).
Proof. revert i; induction l as [|z l IH]; intros [|i]; cbn; try discriminate; [tauto|]. intros H. right. apply (IH i H). Qed.
Lemma In_upd_other {A} (l : list A) i x y z : nth_error l i = Some y -> In z l -> z = y \/ In z (upd l i x).
Proof.
  revert i; induction l as [|w l IH]; intros [|i]; cbn; try discriminate.
  - intros H [->|Hz]; [left; congruence|right; right; exact Hz].
  - intros H [->|Hz]; [right; left; reflexivity|]. destruct (IH i H Hz); tauto.
Qed.

Lemma susp_step e t ot s ev s' o rc : susp_inv t ot s -> while_suspended t ot ev -> step e s ev = Ok (s', o, rc) ->
  susp_inv t ot s' /\ forall sapi p pdu n, In (Down t sapi p pdu) o -> ui_number pdu = Some n -> sapi = 1.
Proof.
  intros (Hg & (m0 & Hin0 & Ht0) & Hall) Hw Hstep.
  assert (Ho : one_entity s s' o ev).
  { apply (nonassign_step e s ev s' o rc); auto; [destruct ev; cbn in Hw; auto; destruct Hw|].
    destruct ev; auto. }
  split.
  - destruct Ho as (s1 & Hgr & H).
    assert (I1 : susp_inv t ot s1).
    { split; [eapply good_grows; eassumption|]. destruct Hgr as [->|[Hnone ->]].
      - split; [exists m0; auto|exact Hall].
      - split; [exists m0; cbn; auto|]. intros m [<-|Hm] Hmt; [|apply Hall; assumption].
        cbn in Hmt. exfalso. apply In_nth_error in Hin0 as [k Hk].
        apply (proj1 (find_none s _) Hnone k m0 Hk). left. congruence. }
    destruct H as [[-> _]|(i & m & m' & Hn & -> & Hnm & Et & Eo & Gm & Hs & _)]; [exact I1|].
    destruct I1 as (G1 & (mm & Hmin & Hmt) & Hall1).
    split; [apply Forall_upd; assumption|]. split.
    + destruct (In_upd_other s1 i m' m mm Hn Hmin) as [->|Hin]; [|exists mm; auto].
      exists m'. split; [eapply upd_In; eassumption|congruence].
    + intros x Hx Hxt. apply In_upd in Hx as [->|Hx]; [|apply Hall1; assumption].
      assert (Hmi : In m s1) by (eapply nth_error_In; eassumption).
      destruct (Hall1 m Hmi ltac:(congruence)) as [S1 S2]. split; [|congruence].
      destruct Hs as [->|[->|Hev]]; auto. rewrite Hev in Hw. cbn in Hw.
      destruct Hnm as [Hnm|Hnm]; [|]; exfalso; destruct Hw; congruence.
  - intros sapi p pdu n Hin Hnum. destruct Ho as (s1 & Hgr & H).
    destruct H as [[_ ->]|(i & m & m' & Hn & _ & Hnm & Et & Eo & Gm & Hs & Hout)]; [destruct Hin|].
    rewrite Forall_forall in Hout. apply Hout in Hin as [Hmt Hui]. 
    destruct Hui as [Hui|Hui]; [rewrite Hnum; discriminate|exact Hui|]. exfalso.
    assert (Hmi : In m s1) by (eapply nth_error_In; eassumption).
    destruct Hgr as [->|[Hnone ->]].
    + destruct (Hall m Hmi (eq_sym Hmt)). congruence.
    + destruct Hmi as [<-|Hmi]; [|destruct (Hall m Hmi (eq_sym Hmt)); congruence].
      cbn in Hmt. apply In_nth_error in Hin0 as [k Hk].
      apply (proj1 (find_none s _) Hnone k m0 Hk). left. congruence.
Qed.

Lemma susp_run e t ot evs : Forall (while_suspended t ot) evs -> forall s s' o, susp_inv t ot s -> run e s evs = Ok (s', o) ->
  forall sapi p pdu n, In (Down t sapi p pdu) o -> ui_number pdu = Some n -> sapi = 1.
Proof.
  induction 1 as [|ev evs Hw _ IH]; intros s s' o Hi; cbn [run].
  - intros H; injection H as <- <-. intros sapi p pdu n [].
  - destruct (step e s ev) as [[[s1 o1] rc]| |] eqn:Es; try discriminate. cbn [bind].
    destruct (run e s1 evs) as [[s2 o2]| |] eqn:Er; try discriminate. cbn [bind].
    intros H; injection H as <- <-. destruct (susp_step e t ot s ev s1 o1 rc Hi Hw Es) as [Hi1 Ho].
    intros sapi p pdu n Hin. apply in_app_or in Hin as [Hin|Hin]; [apply (Ho sapi p pdu n Hin)|].
    apply (IH s1 s2 o2 Hi1 Er sapi p pdu n Hin).
Qed.

Lemma suspended_run e s0 i m t ot evs s' o : reachable e s0 -> nth_error s0 i = Some m -> m_tlli m = t -> m_old m = ot ->
  t <> TLLI_UNASSIGNED -> Forall (while_suspended t ot) evs -> run e s0 (GmmSuspend t :: evs) = Ok (s', o) ->
  forall sapi p pdu n, In (Down t sapi p pdu) o -> ui_number pdu = Some n -> sapi = 1.
Proof.
  intros Hr Hn Ht Ho Htu Hw. apply reachable_inv in Hr as [Hd Hg].
  cbn [run step]. rewrite (proj2 (find_exact s0 t i m Hd Htu) (conj Hn (or_introl Ht))).
  cbn [bind]. set (m' := mkllme _ _ _ true _ _).
  destruct (run e (upd s0 i m') evs) as [[s2 o2]| |] eqn:Er; try discriminate. cbn [bind app].
  intros H; injection H as <- <-. apply (susp_run e t ot evs Hw (upd s0 i m') s2 o2); [|exact Er].
  split; [apply Forall_upd; [exact Hg|exact (good_at s0 i m Hg Hn)]|]. split.
  - exists m'. split; [eapply upd_In; eassumption|exact Ht].
  - intros x Hx Hxt. apply In_nth_error in Hx as [j Hj]. rewrite nth_error_upd, Hn in Hj.
    destruct (Nat.eqb_spec i j) as [Hij|Hij].
    + injection Hj as <-. split; [reflexivity|exact Ho].
    + exfalso. apply Hij. apply (Hd i j m x t); auto; left; assumption.
Qed.

(** GMM signalling does not depend on suspension. *)
Lemma gmm_flows e s t i m data p : find_llme s t = Some (i, m) -> zlen data <= n201_u (get_lle m 1) ->
  exists s' pdu, step e s (LlUnitdata t 1 data p) = Ok (s', [Down (m_tlli m) (l_sapi (get_lle m 1)) p pdu], 0).
Proof.
  intros Hf Hl. cbn [step]. change (negb ((0 <=? 1) && (1 <? 16))) with false. cbv iota. rewrite Hf.
  rewrite andb_false_r. destruct (tx_ui_cases e m (get_lle m 1) data p) as [[H ->]|[_ ->]]; [lia|].
  do 2 eexists. reflexivity.
Qed.

(** ** Received frames cannot crash the layer *)
Lemma payload_bytes pdu d : bytes pdu -> bytes (payload pdu d).
Proof. intros H. unfold payload. destruct (d_data d) as [[o n]|]; [apply bytes_slice, H|constructor]. Qed.
Lemma valid_type f : valid_field f -> 0 <= x_type f.
Proof. intros H. apply valid_cases in H. lia. Qed.

Lemma tx_xid_resp_defined e m l l3 : Forall (fun f => 0 <= x_type f) (l_rxxid l) -> tx_xid_resp e m l l3 <> UB.
Proof.
  intros H. unfold tx_xid_resp.
  assert (Hr : Forall (fun f => 0 <= x_type f) (replace_l3 (l_rxxid l) l3)).
  { induction H as [|f fs Hf Hfs IH]; cbn [replace_l3]; [constructor|].
    destruct (x_type f =? T_L3_PAR); constructor; auto. }
  pose proof (xid_encode_safe 1024 _ ltac:(lia) Hr) as Hs.
  destruct (xid_encode _ _) as [b| |]; [|discriminate|destruct Hs].
  destruct (tx_xid_ok e m l b) as (p & -> & _). discriminate.
Qed.

Lemma hdr_rx_defined e m l pdu d : bytes pdu -> hdr_rx e m l pdu d <> UB.
Proof.
  intros Hb. unfold hdr_rx. pose proof (payload_bytes pdu d Hb) as Hp.
  destruct (h_func (d_hdr d)); try discriminate.
  2:{ destruct (rx_ui _ _); discriminate. }
  destruct (cr_is_cmd _ _).
  - unfold process_xid_ind. pose proof (xid_decode_safe (payload pdu d) 16 Hp ltac:(lia)) as Hs.
    destruct (xid_decode _ _) as [fs| |]; [|discriminate|destruct Hs].
    destruct (xid_ind_scan l fs) as [[[nu ni] ch] l3]. destruct l3; [discriminate|].
    assert (Hd : tx_xid_resp e m (set_xid l nu ni (l_xid l) fs) [] <> UB).
    { apply tx_xid_resp_defined. cbn [l_rxxid set_xid]. destruct Hs as [_ Hs].
      eapply Forall_impl; [|exact Hs]. apply valid_type. }
    destruct (tx_xid_resp _ _ _ _) as [[[l2 o2] rc]| |]; try discriminate. congruence.
  - unfold process_xid_conf. pose proof (xid_decode_safe (payload pdu d) 16 Hp ltac:(lia)) as Hs.
    destruct (xid_decode _ _) as [fs| |]; [discriminate|discriminate|destruct Hs].
Qed.

Lemma rx_defined e s t pdu : bytes pdu -> step e s (RxPdu t pdu) = UB -> s_sack_oversized pdu.
Proof.
  intros Hb. cbn [step]. pose proof (decode_safe pdu Hb) as Hs. destruct (pdu_decode pdu) as [d|er|] eqn:Ed; [|discriminate|auto].
  destruct (negb _); [discriminate|]. destruct (lle_for_rx _ _ _ _) as [[[s1 i] m]|]; [|discriminate].
  intros H. exfalso. revert H. unfold lle_rx.
  destruct (f_enc _); [discriminate|]. destruct (negb (fcs_check _ _)).
  - destruct (decode_check_facts pdu d Hb Ed) as (H5 & _ & _ & H6).
    destruct (6 <=? zlen pdu) eqn:E6; [discriminate|].
    rewrite memcmp_short by (try apply H6; lia). discriminate.
  - pose proof (hdr_rx_defined e m (get_lle m (h_sapi (d_hdr d))) pdu d Hb) as Hd.
    destruct (hdr_rx _ _ _ _ _) as [[[l' o] go]| |]; try discriminate; [|congruence]. cbn [bind].
    destruct (negb go); [discriminate|]. destruct (h_func (d_hdr d)); try discriminate.
    destruct (payload pdu d); [discriminate|]. destruct (deliverable _); discriminate.
Qed.
