(** Proofs about the LLC entity model. *)
From Verif.Lib Require Import Base Outcome.
From Verif.Llc Require Import Crc24Model Crc24Proofs PduModel PduSpec PduProofs XidModel XidSpec XidProofs LlcModel LlcSpec.

(** ** What decoding tells about the frame check *)
Lemma decode_check_facts bs d : bytes bs -> pdu_decode bs = Ok d ->
  5 <= zlen bs /\
  h_fcs (d_hdr d) = Z.lor (Z.lor (nth (Z.to_nat (zlen bs - 3)) bs 0) (Z.shiftl (nth (Z.to_nat (zlen bs - 2)) bs 0) 8))
                          (Z.shiftl (nth (Z.to_nat (zlen bs - 1)) bs 0) 16) /\
  f_prot (d_hdr d) = negb (unprotected_ui bs) /\
  (zlen bs < 6 -> 224 <= nth 1 bs 0).
Proof.
  intros Hb. unfold pdu_decode.
  destruct (zlen bs <? 3) eqn:E0; [discriminate|].
  rewrite (rd_ok bs (zlen bs - 3)), (rd_ok bs (zlen bs - 2)), (rd_ok bs (zlen bs - 1)) by lia. cbn [bind].
  set (fcs := Z.lor _ _).
  destruct (zlen bs - 3 <? 1) eqn:E1; [discriminate|].
  rewrite (rd_ok bs 0) by lia. cbn [bind].
  destruct (tst _ 128); [discriminate|].
  destruct (reserved_sapi _); [discriminate|].
  destruct (zlen bs - 3 - 1 <? 1) eqn:E3; [discriminate|].
  assert (Hlen : 5 <= zlen bs) by lia.
  assert (Hshape : unprotected_ui bs = (nth 1 bs 0 / 32 =? 6) && (nth 2 bs 0 mod 2 =? 0)).
  { destruct bs as [|x0 [|x1 [|x2 r]]]; rewrite ?zlen_cons in Hlen; change (zlen (@nil Z)) with 0 in Hlen; try lia.
    reflexivity. }
  rewrite (rd_ok bs 1) by lia. cbn [bind].
  pose proof (nth_byte bs 1 Hb ltac:(lia)) as Hc0. change (Z.to_nat 1) with 1%nat in *.
  pose proof (nth_byte bs 2 Hb ltac:(lia)) as Hc1. change (Z.to_nat 2) with 2%nat in *.
  unfold byte in Hc0, Hc1.
  set (c0 := nth 1 bs 0) in *. set (c1 := nth 2 bs 0) in *.
  rewrite land_128, land_192, land_224.
  assert (Hgoal : forall d', h_fcs (d_hdr d') = fcs -> f_prot (d_hdr d') = negb (unprotected_ui bs) ->
     (zlen bs < 6 -> 224 <= c0) -> Ok d' = Ok d -> 5 <= zlen bs /\ h_fcs (d_hdr d) = fcs /\ f_prot (d_hdr d) = negb (unprotected_ui bs) /\
     (zlen bs < 6 -> 224 <= c0)).
  { intros d' H1 H2 H3 H4. injection H4 as <-. auto. }
  destruct (c0 / 128 mod 2 * 128 =? 0) eqn:F0.
  { destruct (zlen bs - 3 - 1 <? 3) eqn:E4; [discriminate|].
    rewrite (rd_ok bs 2), (rd_ok bs 3) by lia. cbn [bind].
    assert (Hu : true = negb (unprotected_ui bs)).
    { rewrite Hshape. replace (c0 / 32 =? 6) with false by lia. reflexivity. }
    destruct (dec_func _); try (apply Hgoal; [reflexivity|exact Hu|lia]).
    destruct (zlen bs - 3 - 1 - 3 <? 1); [discriminate|].
    destruct (rd bs 4); try discriminate. cbn [bind].
    match goal with |- (if ?x then _ else _) = _ -> _ => destruct x; [discriminate|] end.
    destruct (dec_sack _ _ _); try discriminate. cbn [bind].
    apply Hgoal; [reflexivity|exact Hu|lia]. }
  destruct (c0 / 64 mod 4 * 64 =? 128) eqn:F1.
  { destruct (zlen bs - 3 - 1 <? 2) eqn:E4; [discriminate|].
    rewrite (rd_ok bs 2) by lia. cbn [bind].
    assert (Hu : true = negb (unprotected_ui bs)).
    { rewrite Hshape. replace (c0 / 32 =? 6) with false by lia. reflexivity. }
    destruct (dec_func _); try (apply Hgoal; [reflexivity|exact Hu|lia]).
    destruct (zlen bs - 3 - 1 - 2 <? 1); [discriminate|].
    destruct (dec_sack _ _ _); try discriminate. cbn [bind].
    apply Hgoal; [reflexivity|exact Hu|lia]. }
  destruct (c0 / 32 mod 8 * 32 =? 192) eqn:F2.
  { destruct (zlen bs - 3 - 1 <? 2) eqn:E4; [discriminate|].
    rewrite (rd_ok bs 2) by lia. cbn [bind]. change (Z.to_nat 2) with 2%nat. fold c1.
    assert (Hu : tst c1 1 = negb (unprotected_ui bs)).
    { rewrite Hshape. replace (c0 / 32 =? 6) with true by lia. unfold tst. rewrite land_1. reflexivity. }
    destruct (tst c0 16).
    - destruct (zlen bs - 3 - 1 - 2 <? 4); [discriminate|].
      destruct (rdn _ _ _); try discriminate. cbn [bind].
      apply Hgoal; [reflexivity|exact Hu|lia].
    - apply Hgoal; [reflexivity|exact Hu|lia]. }
  assert (Hu : true = negb (unprotected_ui bs)).
  { rewrite Hshape. replace (c0 / 32 =? 6) with false by lia. reflexivity. }
  destruct (dec_ufunc _) as [f|]; [|discriminate].
  destruct f; (apply Hgoal; [reflexivity|exact Hu|lia]).
Qed.

Lemma last_three (bs : list Z) : 3 <= zlen bs ->
  skipn (length bs - 3) bs = [nth (Z.to_nat (zlen bs - 3)) bs 0; nth (Z.to_nat (zlen bs - 2)) bs 0; nth (Z.to_nat (zlen bs - 1)) bs 0].
Proof.
  intros H. unfold zlen in *.
  assert (Hs : bs = firstn (length bs - 3) bs ++ skipn (length bs - 3) bs) by (symmetry; apply firstn_skipn).
  assert (Hl : length (skipn (length bs - 3) bs) = 3%nat) by (rewrite skipn_length; lia).
  set (a := firstn (length bs - 3) bs) in *. set (b := skipn (length bs - 3) bs) in *.
  assert (Ha : length a = (length bs - 3)%nat) by (unfold a; rewrite firstn_length; lia).
  clearbody a b. subst bs. rewrite app_length in *.
  destruct b as [|b0 [|b1 [|b2 [|]]]]; try discriminate. cbn [length] in *.
  rewrite !app_nth2 by lia.
  replace (Z.to_nat _ - length a)%nat with 0%nat by lia.
  replace (Z.to_nat _ - length a)%nat with 1%nat by lia.
  replace (Z.to_nat _ - length a)%nat with 2%nat by lia. reflexivity.
Qed.

Lemma join3 a b c : byte a -> byte b -> byte c ->
  Z.lor (Z.lor a (Z.shiftl b 8)) (Z.shiftl c 16) = a + 256 * b + 65536 * c.
Proof.
  unfold byte. intros. bits2arith.
  rewrite (Z.lor_comm a), (lor_add (b * 256) a 8) by (change (2 ^ 8) with 256; lia).
  rewrite Z.lor_comm, (lor_add (c * 65536) _ 16) by (change (2 ^ 16) with 65536; lia). lia.
Qed.

Lemma fcs_check_good bs d : bytes bs -> zlen bs < 65539 -> pdu_decode bs = Ok d ->
  (fcs_check bs (d_hdr d) = true <-> fcs_good bs).
Proof.
  intros Hb Hl Hd. destruct (decode_check_facts bs d Hb Hd) as (H5 & Hf & Hp & _).
  unfold fcs_check, fcs_good. rewrite last_three by lia.
  pose proof (nth_byte bs (zlen bs - 3) Hb ltac:(lia)) as B0.
  pose proof (nth_byte bs (zlen bs - 2) Hb ltac:(lia)) as B1.
  pose proof (nth_byte bs (zlen bs - 1) Hb ltac:(lia)) as B2.
  rewrite Hf, join3 by assumption. rewrite Hp.
  rewrite Z.mod_small by lia.
  replace (Z.to_nat (fcs_cover (negb (unprotected_ui bs)) (zlen bs - 3)))
    with (if unprotected_ui bs then Nat.min (length bs - 3) 7 else (length bs - 3)%nat)
    by (unfold fcs_cover, zlen; destruct (unprotected_ui bs); cbn [negb]; lia).
  set (v := gprs_llc_fcs _).
  assert (Hv : 0 <= v < 16777216) by (apply gprs_fcs_range, Forall_firstn, Hb).
  set (a := nth _ bs 0) in *. set (b := nth _ bs 0) in *. set (c := nth _ bs 0) in *.
  unfold byte in *. rewrite Z.eqb_eq. split.
  - intros E. f_equal; [lia|]. f_equal; [lia|]. f_equal; lia.
  - intros E. injection E as E1 E2 E3. lia.
Qed.

(** ** Lists *)
Lemma upd_same {A} (l : list A) i x : nth_error l i = Some x -> upd l i x = l.
Proof. revert i; induction l as [|y l IH]; intros [|i] H; cbn in *; try discriminate; [congruence|]. f_equal; auto. Qed.
Lemma upd_length {A} (l : list A) i x : length (upd l i x) = length l.
Proof. revert i; induction l as [|y l IH]; intros [|i]; cbn; auto. Qed.
Lemma nth_error_upd {A} (l : list A) i x j :
  nth_error (upd l i x) j = if Nat.eqb i j then match nth_error l i with Some _ => Some x | None => None end else nth_error l j.
Proof.
  revert i j; induction l as [|y l IH]; intros [|i] [|j]; cbn; auto.
  destruct (Nat.eqb i j); reflexivity.
Qed.
Lemma upd_nth_same {A} (l : list A) i d : upd l i (nth i l d) = l.
Proof. revert i; induction l as [|y l IH]; intros [|i]; cbn; auto. f_equal; auto. Qed.
Lemma set_get_lle m sapi : set_lle m sapi (get_lle m sapi) = m.
Proof. unfold set_lle, set_lles, get_lle. rewrite upd_nth_same. destruct m; reflexivity. Qed.

Lemma find_spec s t i m : find_llme s t = Some (i, m) ->
  nth_error s i = Some m /\ names t m.
Proof.
  revert i; induction s as [|x s IH]; intros i; cbn; [discriminate|].
  destruct (llme_has t x) eqn:E.
  - intros H; injection H as <- <-. split; [reflexivity|]. unfold llme_has in E. unfold names. lia.
  - destruct (find_llme s t) as [[j m']|]; [|discriminate].
    intros H; injection H as <- <-. cbn. apply IH. reflexivity.
Qed.
Lemma find_none s t : find_llme s t = None <-> forall i m, nth_error s i = Some m -> ~ names t m.
Proof.
  induction s as [|x s IH]; cbn.
  - split; [intros _ [|i] m H; discriminate|reflexivity].
  - destruct (llme_has t x) eqn:E.
    + split; [discriminate|]. intros H. exfalso. apply (H 0%nat x eq_refl). unfold llme_has, names in *. lia.
    + destruct (find_llme s t) as [[j m']|].
      * split; [discriminate|]. intros H. destruct IH as [_ IH]. discriminate IH. intros i m Hi. apply (H (S i)). exact Hi.
      * split; [|reflexivity]. intros _. destruct IH as [IH _]. specialize (IH eq_refl).
        intros [|i] m Hi; cbn in Hi; [|apply (IH i m Hi)].
        injection Hi as <-. unfold llme_has, names in *. lia.
Qed.

Lemma upd_cons_0 {A} (x : A) l y : upd (x :: l) 0 y = y :: l. Proof. reflexivity. Qed.

(** ** C04 *)
Lemma memcmp_short bs : 5 <= zlen bs -> 224 <= nth 1 bs 0 ->
  memcmp_dummy bs 0 [67; 192; 1; 43; 43; 43] = Ok false.
Proof.
  intros Hl Hc. cbn [memcmp_dummy]. rewrite (rd_ok bs 0) by lia. cbn [bind].
  destruct (nth (Z.to_nat 0) bs 0 =? 67); [|reflexivity].
  change (0 + 1) with 1. rewrite (rd_ok bs 1) by lia. cbn [bind]. change (Z.to_nat 1) with 1%nat.
  replace (nth 1 bs 0 =? 192) with false by lia. reflexivity.
Qed.

Lemma fresh_alloc t : fresh_llme t (llme_alloc t).
Proof.
  unfold fresh_llme, llme_alloc. cbn [m_tlli m_old m_assigned m_susp m_lle].
  do 5 (split; [reflexivity|]).
  rewrite Forall_forall. intros l Hl. apply in_map_iff in Hl as (i & <- & _).
  unfold fresh_lle, lle_init. cbn. repeat split; reflexivity.
Qed.

Lemma bad_fcs_rx e m l pdu d : bytes pdu -> zlen pdu < 65539 -> pdu_decode pdu = Ok d -> ~ fcs_good pdu ->
  exists rc, lle_rx e m l pdu d = Ok (l, [], rc).
Proof.
  intros Hb Hl Hd Hbad. unfold lle_rx. destruct (f_enc (d_hdr d)); [eexists; reflexivity|].
  destruct (fcs_check pdu (d_hdr d)) eqn:Ec.
  - exfalso. apply Hbad. apply (fcs_check_good pdu d Hb Hl Hd). exact Ec.
  - cbn [negb]. destruct (decode_check_facts pdu d Hb Hd) as (H5 & _ & _ & H6).
    destruct (6 <=? zlen pdu) eqn:E6; [eexists; reflexivity|].
    rewrite memcmp_short by (try apply H6; lia). cbn [bind]. eexists; reflexivity.
Qed.

Lemma lle_for_rx_cases s t sapi f s1 i m : lle_for_rx s t sapi f = Some (s1, i, m) ->
  nth_error s1 i = Some m /\ names t m /\
  (s1 = s \/ (find_llme s t = None /\ s1 = llme_alloc t :: s /\ i = 0%nat /\ m = llme_alloc t /\ sapi = 1 /\ (f = XID \/ f = UI))).
Proof.
  unfold lle_for_rx. destruct (find_llme s t) as [[j m']|] eqn:E.
  - intros H; injection H as <- <- <-. apply find_spec in E. intuition.
  - destruct (sapi =? 1) eqn:E1; [|discriminate]. destruct f; cbn; try discriminate;
    intros H; injection H as <- <- <-; (split; [reflexivity|split; [left; reflexivity|right; repeat split; auto; lia]]).
Qed.

Lemma bad_fcs_step e s t pdu : bytes pdu -> zlen pdu < 65539 -> ~ fcs_good pdu ->
  forall s' o rc, step e s (RxPdu t pdu) = Ok (s', o, rc) ->
  o = [] /\ (s' = s \/ exists m, fresh_llme t m /\ s' = m :: s /\ forall i m', nth_error s i = Some m' -> ~ names t m').
Proof.
  intros Hb Hl Hbad s' o rc. cbn [step]. destruct (pdu_decode pdu) as [d|er|] eqn:Ed; [| |discriminate].
  2:{ intros H; injection H as <- <- <-. auto. }
  destruct (negb (e_tlli_ok e t)); [intros H; injection H as <- <- <-; auto|].
  destruct (lle_for_rx s t _ _) as [[[s1 i] m]|] eqn:Ef; [|intros H; injection H as <- <- <-; auto].
  destruct (bad_fcs_rx e m (get_lle m (h_sapi (d_hdr d))) pdu d Hb Hl Ed Hbad) as [rc' Hrx].
  rewrite Hrx. cbn [bind]. rewrite set_get_lle.
  apply lle_for_rx_cases in Ef as (Hn & _ & Hc). rewrite upd_same by exact Hn.
  intros H; injection H as <- <- <-. split; [reflexivity|].
  destruct Hc as [->|(Hnone & -> & _)]; [left; reflexivity|].
  right. exists (llme_alloc t). split; [apply fresh_alloc|]. split; [reflexivity|].
  apply find_none, Hnone.
Qed.

(** ** Sending *)
Lemma send_ok h data t sapi p ctrl : f_mac h = false -> enc_ctrl h = Ok ctrl ->
  send h data t sapi p = Ok [Down t sapi p (frame_of h ctrl data)].
Proof. intros Hm Hc. unfold send. rewrite (encode_frame h data ctrl Hm Hc). reflexivity. Qed.

Definition ui_ctrl (vu : Z) : list Z :=
  [Z.lor 192 (Z.land (Z.shiftr vu 6) 7); Z.lor (Z.shiftl (Z.land vu 63) 2) 1].
Lemma enc_ctrl_ui loc sapi vu : enc_ctrl (hdr_ui loc sapi vu) = Ok (ui_ctrl vu).
Proof. reflexivity. Qed.

Lemma ui_ctrl_number h vu data : 0 <= vu < 512 -> ui_number (frame_of h (ui_ctrl vu) data) = Some vu.
Proof.
  intros H. unfold frame_of, ui_ctrl. cbn [app]. unfold ui_number. cbn [app].
  bits2arith. rewrite (lor_add 192 _ 3) by (change (2 ^ 3) with 8; lia).
  rewrite (lor_add (vu mod 64 * 4) 1 2) by (change (2 ^ 2) with 4; lia).
  replace ((192 + vu / 64 mod 8) / 32 =? 6) with true by lia. f_equal. lia.
Qed.

Lemma tx_ui_cases e m l data p :
  (n201_u l < zlen data /\ tx_ui e m l data p = Err (- EFBIG)) \/
  (zlen data <= n201_u l /\ tx_ui e m l data p =
     Ok (after_tx_ui l, [Down (m_tlli m) (l_sapi l) p (frame_of (hdr_ui (e_loc e) (l_sapi l) (vu_send l)) (ui_ctrl (vu_send l)) data)])).
Proof.
  unfold tx_ui. destruct (n201_u l <? zlen data) eqn:E; [left; split; [lia|reflexivity]|right; split; [lia|]].
  rewrite (send_ok _ _ _ _ _ (ui_ctrl (vu_send l))) by reflexivity. reflexivity.
Qed.

(** U frames carry no N(U). *)
Lemma u_no_number h data c rest : c / 32 = 7 -> ui_number (enc_addr h :: c :: rest ++ data) = None.
Proof. intros H. unfold ui_number. destruct (rest ++ data); [reflexivity|]. rewrite H. reflexivity. Qed.

Lemma u_frame_no_number h data c : 224 <= c < 256 -> ui_number (frame_of h [c] data) = None.
Proof.
  intros H. unfold frame_of. cbn [app]. unfold ui_number.
  destruct (data ++ _); [reflexivity|]. replace (c / 32 =? 6) with false by lia. reflexivity.
Qed.

Definition not_ui (o : out) : Prop := match o with Down _ _ _ p => ui_number p = None | _ => True end.

Lemma ui_sent_app t sapi a b : ui_sent t sapi (a ++ b) = ui_sent t sapi a ++ ui_sent t sapi b.
Proof. apply flat_map_app. Qed.
Lemma ui_sent_not_ui t sapi o : Forall not_ui o -> ui_sent t sapi o = [].
Proof.
  induction 1 as [|x o Hx _ IH]; [reflexivity|].
  change (x :: o) with ([x] ++ o). rewrite ui_sent_app, IH, app_nil_r.
  unfold ui_sent. cbn. destruct x; try reflexivity. cbn in Hx. rewrite Hx.
  destruct (_ && _); reflexivity.
Qed.

Lemma tx_xid_ok e m l b : exists p, tx_xid e m l b = Ok [Down (m_tlli m) (l_sapi l) 1 p] /\ ui_number p = None.
Proof.
  unfold tx_xid. rewrite (send_ok _ _ _ _ _ [Z.lor 240 11]) by reflexivity.
  eexists. split; [reflexivity|]. apply u_frame_no_number. cbn. lia.
Qed.
Lemma tx_null_ok m l : exists p, tx_null m l = Ok [Down (m_tlli m) (l_sapi l) 4 p] /\ ui_number p = None.
Proof.
  unfold tx_null. rewrite (send_ok _ _ _ _ _ [224]) by reflexivity.
  eexists. split; [reflexivity|]. apply u_frame_no_number. lia.
Qed.
Lemma tx_dm_ok m l : exists p, tx_dm m l = Ok [Down (m_tlli m) 0 0 p] /\ ui_number p = None.
Proof.
  unfold tx_dm. rewrite (send_ok _ _ _ _ _ [Z.lor 240 1]) by reflexivity.
  eexists. split; [reflexivity|]. apply u_frame_no_number. cbn. lia.
Qed.

(** ** Everything a received frame or an XID primitive can do to one link *)
Definition same_tx (l l' : lle) : Prop := l_sapi l' = l_sapi l /\ vu_send l' = vu_send l /\ oc_send l' = oc_send l.
Lemma same_tx_refl l : same_tx l l. Proof. repeat split. Qed.

Definition quiet_for (t : Z) (o : out) : Prop :=
  match o with
  | Down t' _ _ p => t' = t /\ ui_number p = None
  | UpUnitdata t' _ _ | UpXidInd t' _ _ _ _ | UpXidCnf t' _ _ _ _ => t' = t
  | UpAssign _ _ => False
  end.
Lemma quiet_not_ui t o : Forall (quiet_for t) o -> Forall not_ui o.
Proof. apply Forall_impl. intros [] ; cbn; tauto. Qed.

Lemma tx_xid_req_cases e m l l3 l' o rc : tx_xid_req e m l l3 = Ok (l', o, rc) ->
  same_tx l l' /\ Forall (quiet_for (m_tlli m)) o.
Proof.
  unfold tx_xid_req. destruct (xid_encode _ _) as [b| |]; [| |discriminate].
  - destruct (0 <? zlen b).
    + destruct (tx_xid_ok e m l b) as (p & -> & Hp). cbn [bind].
      intros H; injection H as <- <- <-. split; [repeat split|]. repeat constructor; assumption.
    + intros H; injection H as <- <- <-. split; [repeat split|constructor].
  - intros H; injection H as <- <- <-. split; [repeat split|constructor].
Qed.
Lemma tx_xid_resp_cases e m l l3 l' o rc : tx_xid_resp e m l l3 = Ok (l', o, rc) ->
  same_tx l l' /\ Forall (quiet_for (m_tlli m)) o.
Proof.
  unfold tx_xid_resp. destruct (xid_encode _ _) as [b| |]; [| |discriminate].
  - destruct (tx_xid_ok e m l b) as (p & -> & Hp). cbn [bind].
    intros H; injection H as <- <- <-. split; [repeat split|]. repeat constructor; assumption.
  - intros H; injection H as <- <- <-. split; [repeat split|constructor].
Qed.

Lemma same_tx_trans a b c : same_tx a b -> same_tx b c -> same_tx a c.
Proof. unfold same_tx. intuition congruence. Qed.

Lemma process_xid_ind_cases e m l b l' o : process_xid_ind e m l b = Ok (l', o) ->
  same_tx l l' /\ Forall (quiet_for (m_tlli m)) o.
Proof.
  unfold process_xid_ind. destruct (xid_decode b 16) as [fs| |]; [| |discriminate].
  2:{ intros H; injection H as <- <-. split; [repeat split|constructor]. }
  destruct (xid_ind_scan l fs) as [[[nu ni] ch] l3].
  assert (Hup : Forall (quiet_for (m_tlli m))
     (if ch || match l3 with Some _ => true | None => false end then [UpXidInd (m_tlli m) (l_sapi l) l3 nu ni] else [])).
  { destruct (ch || _); repeat constructor. }
  destruct l3.
  - intros H; injection H as <- <-. split; [repeat split|exact Hup].
  - destruct (tx_xid_resp _ _ _ _) as [[[l2 o2] rc]| |] eqn:E; cbn [bind]; try discriminate.
    intros H; injection H as <- <-. apply tx_xid_resp_cases in E as [H1 H2].
    split; [exact H1|]. apply Forall_app; split; assumption.
Qed.
Lemma process_xid_conf_cases m l b l' o : process_xid_conf m l b = Ok (l', o) ->
  same_tx l l' /\ Forall (quiet_for (m_tlli m)) o.
Proof.
  unfold process_xid_conf. destruct (xid_decode b 16) as [fs| |]; [| |discriminate].
  2:{ intros H; injection H as <- <-. split; [repeat split|constructor]. }
  intros H; injection H as <- <-. split; [repeat split|].
  apply Forall_flat_map, Forall_forall. intros f _. destruct (_ && _); repeat constructor.
Qed.
Lemma rx_ui_same_tx l n : same_tx l (fst (rx_ui l n)).
Proof.
  unfold rx_ui. destruct (is_retransmit _ _); [|repeat split].
  destruct (negb _); [repeat split|]. destruct (_ <? 3); repeat split.
Qed.
Lemma hdr_rx_cases e m l pdu d l' o go : hdr_rx e m l pdu d = Ok (l', o, go) ->
  same_tx l l' /\ Forall (quiet_for (m_tlli m)) o.
Proof.
  unfold hdr_rx. destruct (h_func (d_hdr d)).
  8:{ pose proof (rx_ui_same_tx l (h_ns (d_hdr d))) as Hs. destruct (rx_ui l _) as [l1 ok]. intros H; injection H as <- <- <-.
      split; [exact Hs|constructor]. }
  6:{ destruct (cr_is_cmd _ _).
      - destruct (process_xid_ind e m l (payload pdu d)) as [[l1 o1]| |] eqn:E; try discriminate. cbn [bind].
        intros H; injection H as <- <- <-. exact (process_xid_ind_cases _ _ _ _ _ _ E).
      - destruct (process_xid_conf m l (payload pdu d)) as [[l1 o1]| |] eqn:E; try discriminate. cbn [bind].
        intros H; injection H as <- <- <-. exact (process_xid_conf_cases _ _ _ _ _ E). }
  1,2: destruct (tx_dm_ok m l) as (p & -> & Hp); cbn [bind]; intros H; injection H as <- <- <-;
       (split; [repeat split|repeat constructor; assumption]).
  all: intros H; injection H as <- <- <-; (split; [repeat split|constructor]).
Qed.
Lemma lle_rx_cases e m l pdu d l' o rc : lle_rx e m l pdu d = Ok (l', o, rc) ->
  same_tx l l' /\ Forall (quiet_for (m_tlli m)) o.
Proof.
  unfold lle_rx. destruct (f_enc _); [intros H; injection H as <- <- <-; split; [repeat split|constructor]|].
  destruct (negb (fcs_check _ _)).
  { destruct (6 <=? zlen pdu); [intros H; injection H as <- <- <-; split; [repeat split|constructor]|].
    destruct (memcmp_dummy _ _ _); try discriminate. cbn [bind].
    intros H; injection H as <- <- <-; split; [repeat split|constructor]. }
  destruct (hdr_rx e m l pdu d) as [[[l1 o1] go]| |] eqn:E; try discriminate. cbn [bind].
  apply hdr_rx_cases in E as [H1 H2].
  assert (Hd : forall x, Ok (l1, o1, x) = Ok (l', o, rc) -> same_tx l l' /\ Forall (quiet_for (m_tlli m)) o).
  { intros x H; injection H as <- <- <-. auto. }
  destruct (negb go); [apply Hd|].
  destruct (h_func (d_hdr d)); try apply Hd.
  destruct (payload pdu d) as [|b p]; [apply Hd|].
  destruct (deliverable _); [|apply Hd].
  intros H; injection H as <- <- <-. split; [exact H1|]. apply Forall_app; split; [exact H2|repeat constructor].
Qed.

(** ** Numbering of UI frames over whole histories *)
Definition good_llme (m : llme) : Prop :=
  length (m_lle m) = 16%nat /\
  forall i, 0 <= i < 16 -> l_sapi (get_lle m i) = i /\ 0 <= vu_send (get_lle m i) < 512.
Definition num_inv (s : st) : Prop :=
  NoDup (map m_tlli s) /\ Forall (fun m => m_old m = TLLI_UNASSIGNED) s /\ Forall good_llme s.
Definition vu_of (s : st) (t sapi : Z) : Z :=
  match find (fun m => m_tlli m =? t) s with Some m => vu_send (get_lle m sapi) | None => 0 end.

Lemma Forall_upd {A} (P : A -> Prop) l i x : Forall P l -> P x -> Forall P (upd l i x).
Proof. intros H Hx. revert i. induction H; intros [|i]; cbn; constructor; auto. Qed.
Lemma map_upd_same {A B} (f : A -> B) l i x y : nth_error l i = Some x -> f y = f x -> map f (upd l i y) = map f l.
Proof. revert i; induction l as [|z l IH]; intros [|i] H E; cbn in *; try discriminate; f_equal; auto; congruence. Qed.

Lemma vu_of_upd s i m m' t sapi : NoDup (map m_tlli s) -> nth_error s i = Some m -> m_tlli m' = m_tlli m ->
  vu_of (upd s i m') t sapi = if m_tlli m =? t then vu_send (get_lle m' sapi) else vu_of s t sapi.
Proof.
  revert i; induction s as [|x s IH]; intros [|i] Hnd Hn Ht; cbn in Hn; try discriminate; unfold vu_of; cbn [upd find].
  - injection Hn as ->. rewrite Ht. destruct (m_tlli m =? t); reflexivity.
  - inversion Hnd as [|? ? Hni Hnd']; subst. 
    destruct (m_tlli x =? t) eqn:Ex.
    + destruct (m_tlli m =? t) eqn:Em; [|reflexivity].
      exfalso. apply Hni. apply nth_error_In in Hn. apply in_map_iff. exists m. split; [lia|exact Hn].
    + apply (IH i Hnd' Hn Ht).
Qed.
Lemma vu_of_self s i m sapi : NoDup (map m_tlli s) -> nth_error s i = Some m ->
  vu_of s (m_tlli m) sapi = vu_send (get_lle m sapi).
Proof.
  intros Hnd Hn. rewrite <- (upd_same s i m Hn) at 1. rewrite (vu_of_upd s i m m) by auto.
  rewrite Z.eqb_refl. reflexivity.
Qed.

Lemma get_set_lle m sapi l i : length (m_lle m) = 16%nat -> 0 <= sapi < 16 -> 0 <= i < 16 ->
  get_lle (set_lle m sapi l) i = if i =? sapi then l else get_lle m i.
Proof.
  intros Hl Hs Hi. unfold get_lle, set_lle, set_lles. cbn [m_lle].
  destruct (nth_error (upd (m_lle m) (Z.to_nat sapi) l) (Z.to_nat i)) as [x|] eqn:E.
  - rewrite (nth_error_nth _ _ _ E). rewrite nth_error_upd in E.
    destruct (Z.eqb_spec i sapi) as [->|Hne].
    + rewrite Nat.eqb_refl in E. destruct (nth_error (m_lle m) (Z.to_nat sapi)); congruence.
    + replace (Nat.eqb (Z.to_nat sapi) (Z.to_nat i)) with false in E by (symmetry; apply Nat.eqb_neq; lia).
      symmetry. apply nth_error_nth, E.
  - apply nth_error_None in E. rewrite upd_length in E. lia.
Qed.

Lemma good_alloc t : good_llme (llme_alloc t).
Proof.
  split; [reflexivity|]. intros i Hi.
  assert (E : get_lle (llme_alloc t) i = lle_init i).
  { assert (Hc : In i (zrange 16)) by (apply zrange_In; lia).
    cbv in Hc. repeat destruct Hc as [<-|Hc]; try reflexivity. destruct Hc. }
  rewrite E. cbn. lia.
Qed.

Lemma good_set_lle m sapi l : good_llme m -> 0 <= sapi < 16 -> l_sapi l = sapi -> 0 <= vu_send l < 512 ->
  good_llme (set_lle m sapi l).
Proof.
  intros [Hl Hg] Hs Hx Hv. split; [cbn; rewrite upd_length; exact Hl|].
  intros i Hi. rewrite get_set_lle by assumption. destruct (Z.eqb_spec i sapi) as [->|]; auto.
Qed.

Lemma num_inv_upd s i m m' : num_inv s -> nth_error s i = Some m -> m_tlli m' = m_tlli m -> m_old m' = m_old m ->
  good_llme m' -> num_inv (upd s i m').
Proof.
  intros (H1 & H2 & H3) Hn Ht Ho Hg. split; [|split].
  - rewrite (map_upd_same m_tlli s i m m' Hn Ht). exact H1.
  - apply Forall_upd; [exact H2|]. rewrite Ho. rewrite Forall_forall in H2. apply H2. eapply nth_error_In, Hn.
  - apply Forall_upd; assumption.
Qed.

Lemma num_inv_alloc s t : num_inv s -> find_llme s t = None -> num_inv (llme_alloc t :: s).
Proof.
  intros (H1 & H2 & H3) Hf. split; [|split].
  - cbn. constructor; [|exact H1]. intros Hin. apply in_map_iff in Hin as (m & Hm & Hin).
    apply In_nth_error in Hin as [i Hi]. apply (proj1 (find_none s t) Hf i m Hi). left. exact Hm.
  - constructor; [reflexivity|exact H2].
  - constructor; [apply good_alloc|exact H3].
Qed.
Lemma vu_of_alloc s t x sapi : find_llme s t = None -> vu_of (llme_alloc t :: s) x sapi = vu_of s x sapi.
Proof.
  intros Hf. unfold vu_of. cbn [find llme_alloc m_tlli]. destruct (Z.eqb_spec t x) as [<-|]; [|reflexivity].
  destruct (find (fun m => m_tlli m =? t) s) as [m|] eqn:E.
  - apply find_some in E as [Hin Hm]. apply In_nth_error in Hin as [i Hi].
    exfalso. apply (proj1 (find_none s t) Hf i m Hi). left. lia.
  - unfold get_lle, llme_alloc. cbn [m_lle].
    destruct (Nat.lt_ge_cases (Z.to_nat sapi) 16) as [Hlt|Hge].
    + rewrite (nth_indep _ _ (lle_init (Z.of_nat 0))) by (rewrite map_length, seq_length; exact Hlt).
      rewrite (map_nth (fun i => lle_init (Z.of_nat i))). reflexivity.
    + rewrite nth_overflow by (rewrite map_length, seq_length; exact Hge). reflexivity.
Qed.

Lemma good_nth s i m : num_inv s -> nth_error s i = Some m -> good_llme m.
Proof. intros (_ & _ & H) Hn. rewrite Forall_forall in H. eapply H, nth_error_In, Hn. Qed.

(** One step does not lose or repeat a number. *)
Definition step_num (s s' : st) (o : list out) : Prop :=
  num_inv s' /\ forall t sapi, 0 <= sapi < 16 ->
    (ui_sent t sapi o = [] /\ vu_of s' t sapi = vu_of s t sapi) \/
    (ui_sent t sapi o = [vu_of s t sapi] /\ vu_of s' t sapi = (vu_of s t sapi + 1) mod 512).

Lemma step_num_same s o : num_inv s -> Forall not_ui o -> step_num s s o.
Proof. intros Hi Ho. split; [exact Hi|]. intros t sapi _. left. split; [apply ui_sent_not_ui, Ho|reflexivity]. Qed.

Lemma step_num_meta s i m m' o : num_inv s -> nth_error s i = Some m -> m_tlli m' = m_tlli m -> m_old m' = m_old m ->
  m_lle m' = m_lle m -> Forall not_ui o -> step_num s (upd s i m') o.
Proof.
  intros Hi Hn Ht Ho Hl Hq. split.
  - apply (num_inv_upd s i m m'); auto. pose proof (good_nth s i m Hi Hn) as [G1 G2].
    unfold good_llme, get_lle in *. rewrite Hl. auto.
  - intros t sapi Hs. left. split; [apply ui_sent_not_ui, Hq|].
    rewrite (vu_of_upd s i m m') by (try apply Hi; assumption). destruct (Z.eqb_spec (m_tlli m) t) as [<-|]; [|reflexivity].
    unfold get_lle. rewrite Hl. symmetry. apply (vu_of_self s i m sapi); [apply Hi|exact Hn].
Qed.

Lemma step_num_lle s i m sapi l' o : num_inv s -> nth_error s i = Some m -> 0 <= sapi < 16 ->
  same_tx (get_lle m sapi) l' -> Forall not_ui o -> step_num s (upd s i (set_lle m sapi l')) o.
Proof.
  intros Hi Hn Hs (E1 & E2 & E3) Ho. pose proof (good_nth s i m Hi Hn) as Hg. split.
  - apply (num_inv_upd s i m); auto. apply good_set_lle; auto; destruct Hg as [_ Hg]; specialize (Hg sapi Hs); [|rewrite E2]; lia.
  - intros t x Hx. left. split; [apply ui_sent_not_ui, Ho|].
    rewrite (vu_of_upd s i m) by (try apply Hi; auto). destruct (Z.eqb_spec (m_tlli m) t) as [<-|]; [|reflexivity].
    rewrite (vu_of_self s i m) by (try apply Hi; auto). rewrite get_set_lle by (try apply Hg; assumption).
    destruct (Z.eqb_spec x sapi) as [->|]; auto.
Qed.

Lemma step_num_tx s i m sapi p h data : num_inv s -> nth_error s i = Some m -> 0 <= sapi < 16 ->
  let l := get_lle m sapi in
  step_num s (upd s i (set_lle m sapi (after_tx_ui l))) [Down (m_tlli m) (l_sapi l) p (frame_of h (ui_ctrl (vu_send l)) data)].
Proof.
  intros Hi Hn Hs l. pose proof (good_nth s i m Hi Hn) as Hg. destruct (proj2 Hg sapi Hs) as [G1 G2]. fold l in G1, G2.
  split.
  - apply (num_inv_upd s i m); auto. apply good_set_lle; auto. unfold after_tx_ui, set_tx. cbn [vu_send].
    apply Z.mod_pos_bound. lia.
  - intros t x Hx. rewrite (vu_of_upd s i m) by (try apply Hi; auto).
    unfold ui_sent. cbn [flat_map]. rewrite ui_ctrl_number by exact G2. rewrite G1, app_nil_r.
    destruct (Z.eqb_spec (m_tlli m) t) as [<-|]; [|left; split; reflexivity].
    rewrite (vu_of_self s i m) by (try apply Hi; auto). rewrite get_set_lle by (try apply Hg; assumption).
    rewrite (Z.eqb_sym x sapi). destruct (Z.eqb_spec sapi x) as [<-|Hne]; cbn [andb].
    + right. fold l. split; reflexivity.
    + left. split; reflexivity.
Qed.

Lemma step_num_alloc s t s' o : num_inv s -> find_llme s t = None ->
  step_num (llme_alloc t :: s) s' o -> step_num s s' o.
Proof.
  intros Hi Hf [H1 H2]. split; [exact H1|]. intros x sapi Hs. specialize (H2 x sapi Hs).
  rewrite vu_of_alloc in H2 by exact Hf. exact H2.
Qed.

Lemma fields_sapi s : assigned_sapi s -> 0 <= s < 16.
Proof. intros H. apply sapi_cases, H. Qed.

Lemma quiet_step e s ev s' o rc : num_inv s -> keeps_numbering ev -> step e s ev = Ok (s', o, rc) -> step_num s s' o.
Proof.
  intros Hi Hk. destruct ev as [t pdu|t sapi data p|t sapi l3|t sapi l3|t sapi|old new|t rnd|t nul|t|t]; cbn [step].
  - (* RxPdu *)
    cbn in Hk. pose proof (decode_safe pdu Hk) as Hsafe.
    destruct (pdu_decode pdu) as [d|er|]; [| |discriminate].
    2:{ intros H; injection H as <- <- <-. apply step_num_same; [exact Hi|constructor]. }
    destruct (negb _); [intros H; injection H as <- <- <-; apply step_num_same; [exact Hi|constructor]|].
    destruct (lle_for_rx s t _ _) as [[[s1 i] m]|] eqn:Ef;
      [|intros H; injection H as <- <- <-; apply step_num_same; [exact Hi|constructor]].
    destruct (lle_rx e m _ pdu d) as [[[l' o1] rc1]| |] eqn:Er; try discriminate. cbn [bind].
    intros H; injection H as <- <- <-.
    apply lle_rx_cases in Er as [Ht Hq]. apply quiet_not_ui in Hq.
    apply lle_for_rx_cases in Ef as (Hn & _ & Hc).
    assert (Hsapi : 0 <= h_sapi (d_hdr d) < 16) by (apply fields_sapi; apply Hsafe).
    destruct Hc as [->|(Hnone & -> & -> & -> & _)].
    + apply step_num_lle; assumption.
    + apply (step_num_alloc s t); [exact Hi|exact Hnone|].
      apply step_num_lle; auto. apply num_inv_alloc; assumption.
  - (* LlUnitdata *)
    destruct (negb _) eqn:Es; [discriminate|]. assert (Hs : 0 <= sapi < 16) by lia.
    assert (Haux : forall s1 i m, num_inv s1 -> nth_error s1 i = Some m ->
      (if m_susp m && negb (sapi =? 1) then Ok (s1, [], 0) else
       match tx_ui e m (get_lle m sapi) data p with
       | Ok (l', o0) => Ok (upd s1 i (set_lle m sapi l'), o0, 0)
       | Err er => Ok (s1, [], er) | UB => UB end) = Ok (s', o, rc) -> step_num s1 s' o).
    { intros s1 i m Hi1 Hn. destruct (m_susp m && _); [intros H; injection H as <- <- <-; apply step_num_same; [exact Hi1|constructor]|].
      destruct (tx_ui_cases e m (get_lle m sapi) data p) as [[_ ->]|[_ ->]]; intros H; injection H as <- <- <-.
      - apply step_num_same; [exact Hi1|constructor].
      - apply step_num_tx; assumption. }
    destruct (find_llme s t) as [[i m]|] eqn:Ef.
    + apply Haux; [exact Hi|apply find_spec in Ef; apply Ef].
    + intros H. apply (step_num_alloc s t); [exact Hi|exact Ef|].
      revert H. apply Haux; [apply num_inv_alloc; assumption|reflexivity].
  - (* LlXidReq *)
    unfold with_lle. destruct (find_llme s t) as [[i m]|] eqn:Ef;
      [|intros H; injection H as <- <- <-; apply step_num_same; [exact Hi|constructor]].
    destruct (_ && _) eqn:Es; [|discriminate]. assert (Hs : 0 <= sapi < 16) by lia.
    destruct (tx_xid_req _ _ _ _) as [[[l' o1] rc1]| |] eqn:Er; try discriminate. cbn [bind].
    intros H; injection H as <- <- <-. apply tx_xid_req_cases in Er as [Ht Hq].
    apply step_num_lle; auto; [apply find_spec in Ef; apply Ef|eapply quiet_not_ui, Hq].
  - unfold with_lle. destruct (find_llme s t) as [[i m]|] eqn:Ef;
      [|intros H; injection H as <- <- <-; apply step_num_same; [exact Hi|constructor]].
    destruct (_ && _) eqn:Es; [|discriminate]. assert (Hs : 0 <= sapi < 16) by lia.
    destruct (tx_xid_resp _ _ _ _) as [[[l' o1] rc1]| |] eqn:Er; try discriminate. cbn [bind].
    intros H; injection H as <- <- <-. apply tx_xid_resp_cases in Er as [Ht Hq].
    apply step_num_lle; auto; [apply find_spec in Ef; apply Ef|eapply quiet_not_ui, Hq].
  - unfold with_lle. destruct (find_llme s t) as [[i m]|] eqn:Ef;
      [|intros H; injection H as <- <- <-; apply step_num_same; [exact Hi|constructor]].
    destruct (_ && _); [|discriminate]. intros H; injection H as <- <- <-; apply step_num_same; [exact Hi|constructor].
  - (* GmmAssign *)
    cbn in Hk. subst old. unfold assign_req. rewrite Z.eqb_refl. cbn [andb].
    destruct (new =? TLLI_UNASSIGNED) eqn:En; [intros H; injection H as <- <- <-; apply step_num_same; [exact Hi|constructor]|].
    destruct (find_llme s new) as [[i m]|] eqn:Ef;
      [|intros H; injection H as <- <- <-; apply step_num_same; [exact Hi|constructor]].
    apply find_spec in Ef as [Hn Hnames].
    assert (Ho : m_old m = TLLI_UNASSIGNED).
    { destruct Hi as (_ & H & _). rewrite Forall_forall in H. eapply H, nth_error_In, Hn. }
    assert (Htl : m_tlli m = new). { destruct Hnames as [|Hx]; [assumption|]. rewrite Ho in Hx. lia. }
    rewrite Ho, Z.eqb_refl, Htl, Z.eqb_refl. cbn [negb].
    intros H; injection H as <- <- <-.
    assert (Hget : forall x, 0 <= x < 16 -> get_lle (mkllme new TLLI_UNASSIGNED true (m_susp m) (m_iov m) (map (assign_lle false) (m_lle m))) x
       = assign_lle false (get_lle m x)).
    { intros x Hx. unfold get_lle. cbn [m_lle]. pose proof (good_nth s i m Hi Hn) as [G _].
      rewrite (nth_indep _ _ (assign_lle false (lle_init x))) by (rewrite map_length; lia). apply map_nth. }
    pose proof (good_nth s i m Hi Hn) as [G1 G2].
    split.
    + apply (num_inv_upd s i m); auto. split; [cbn; rewrite map_length; exact G1|].
      intros x Hx. rewrite Hget by exact Hx. apply (G2 x Hx).
    + intros x y Hy. left. split; [reflexivity|].
      rewrite (vu_of_upd s i m) by (try apply Hi; auto). destruct (Z.eqb_spec (m_tlli m) x) as [<-|]; [|reflexivity].
      rewrite (vu_of_self s i m) by (try apply Hi; auto). rewrite Hget by exact Hy. reflexivity.
  - destruct Hk.
  - (* GmmTrigger *)
    destruct (find_llme s t) as [[i m]|] eqn:Ef;
      [|intros H; injection H as <- <- <-; apply step_num_same; [exact Hi|constructor]].
    apply find_spec in Ef as [Hn _]. destruct nul.
    + destruct (tx_null_ok m (get_lle m 1)) as (p & -> & Hp). cbn [bind].
      intros H; injection H as <- <- <-. apply step_num_same; [exact Hi|repeat constructor; exact Hp].
    + destruct (tx_ui_cases e m (get_lle m 1) [] 1) as [[_ ->]|[_ ->]]; intros H; injection H as <- <- <-.
      * apply step_num_same; [exact Hi|constructor].
      * apply step_num_tx; [exact Hi|exact Hn|lia].
  - destruct (find_llme s t) as [[i m]|] eqn:Ef;
      [|intros H; injection H as <- <- <-; apply step_num_same; [exact Hi|constructor]].
    intros H; injection H as <- <- <-. apply find_spec in Ef as [Hn _].
    apply (step_num_meta s i m); auto.
  - destruct (find_llme s t) as [[i m]|] eqn:Ef;
      [|intros H; injection H as <- <- <-; apply step_num_same; [exact Hi|constructor]].
    intros H; injection H as <- <- <-. apply find_spec in Ef as [Hn _].
    apply (step_num_meta s i m); auto.
Qed.


Lemma vu_of_range s t sapi : num_inv s -> 0 <= sapi < 16 -> 0 <= vu_of s t sapi < 512.
Proof.
  intros Hi Hs. unfold vu_of. destruct (find _ s) as [m|] eqn:E; [|lia].
  apply find_some in E as [Hin _]. destruct Hi as (_ & _ & H). rewrite Forall_forall in H. apply (H m Hin). exact Hs.
Qed.

Lemma run_numbering e evs : Forall keeps_numbering evs -> forall s s' o, num_inv s -> run e s evs = Ok (s', o) ->
  forall t sapi, 0 <= sapi < 16 ->
  ui_sent t sapi o = map (fun i => (vu_of s t sapi + Z.of_nat i) mod 512) (seq 0 (length (ui_sent t sapi o))) /\
  vu_of s' t sapi = (vu_of s t sapi + zlen (ui_sent t sapi o)) mod 512.
Proof.
  induction 1 as [|ev evs Hk _ IH]; intros s s' o Hi; cbn [run].
  - intros H; injection H as <- <-. intros t sapi Hs. split; [reflexivity|].
    change (zlen (ui_sent t sapi [])) with 0. rewrite Z.add_0_r, Z.mod_small; [reflexivity|]. apply vu_of_range; assumption.
  - destruct (step e s ev) as [[[s1 o1] rc]| |] eqn:Es; try discriminate. cbn [bind].
    destruct (run e s1 evs) as [[s2 o2]| |] eqn:Er; try discriminate. cbn [bind].
    intros H; injection H as <- <-. intros t sapi Hs.
    destruct (quiet_step e s ev s1 o1 rc Hi Hk Es) as [Hi1 Hst].
    specialize (IH s1 s2 o2 Hi1 Er t sapi Hs) as [IH1 IH2].
    rewrite ui_sent_app. destruct (Hst t sapi Hs) as [[-> Hv]|[-> Hv]]; rewrite Hv in IH1, IH2.
    + cbn [app]. auto.
    + pose proof (vu_of_range s t sapi Hi Hs) as Hr.
      cbn [app length seq map]. split.
      * rewrite Z.add_0_r, Z.mod_small by exact Hr. f_equal.
        rewrite IH1 at 1. rewrite <- seq_shift, map_map. apply map_ext. intros i.
        rewrite Zplus_mod_idemp_l. f_equal. lia.
      * rewrite IH2, zlen_cons, Zplus_mod_idemp_l. f_equal. lia.
Qed.
