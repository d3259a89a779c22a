(** Proofs: the tables of SNDCP entities over whole histories. *)
From Verif.Lib Require Import Base Outcome.
From Verif.Sndcp Require Import SndcpModel SndcpSpec SndcpProofs SndcpSend SndcpRuns.

(** *** Lists *)
Lemma upd_length {A} (l : list A) i x : length (upd l i x) = length l.
Proof. revert i. induction l as [|y r IH]; intros [|i]; cbn [upd length]; auto. Qed.
Lemma nth_error_upd {A} (l : list A) i x j : (i < length l)%nat ->
  nth_error (upd l i x) j = if (j =? i)%nat then Some x else nth_error l j.
Proof.
  revert i j. induction l as [|y r IH]; intros i j H; [cbn in H; lia|].
  destruct i as [|i], j as [|j]; cbn [upd nth_error Nat.eqb]; try reflexivity. apply IH. cbn in H. lia.
Qed.
Lemma nth_nth_error {A} (l : list (option A)) k e : nth k l None = Some e <-> nth_error l k = Some (Some e).
Proof.
  revert k. induction l as [|y r IH]; intros [|k]; cbn; try (split; discriminate).
  - split; [intros ->; reflexivity|intros [= ->]; reflexivity].
  - apply IH.
Qed.

Definition is_tlli (t : Z) (m : snme) : bool := m_tlli m =? t.

Lemma find_tlli_some l t i m : find_tlli l t = Some (i, m) ->
  nth_error l i = Some m /\ m_tlli m = t /\ find (is_tlli t) l = Some m.
Proof.
  revert i. induction l as [|a r IH]; intros i; cbn [find_tlli find]; [discriminate|]. unfold is_tlli at 1.
  destruct (m_tlli a =? t) eqn:E.
  - intros [= <- <-]. split; [reflexivity|]. split; [lia|reflexivity].
  - destruct (find_tlli r t) as [[j x]|]; [|discriminate]. intros [= <- ->]. apply IH. reflexivity.
Qed.
Lemma find_tlli_none l t : find_tlli l t = None -> find (is_tlli t) l = None.
Proof.
  induction l as [|a r IH]; cbn [find_tlli find]; [reflexivity|]. unfold is_tlli at 1.
  destruct (m_tlli a =? t); [discriminate|]. destruct (find_tlli r t) as [[j x]|]; [discriminate|]. auto.
Qed.
Lemma find_upd l t i m m' : find_tlli l t = Some (i, m) -> m_tlli m' = t -> forall t',
  find (is_tlli t') (upd l i m') = if t' =? t then Some m' else find (is_tlli t') l.
Proof.
  revert i. induction l as [|a r IH]; intros i; cbn [find_tlli]; [discriminate|].
  destruct (m_tlli a =? t) eqn:E.
  - intros [= <- <-] Hm t'. cbn [upd find]. unfold is_tlli at 1 3. rewrite Hm.
    destruct (t' =? t) eqn:E2, (t =? t') eqn:E3; try lia; try reflexivity.
    destruct (m_tlli a =? t') eqn:E4; [lia|reflexivity].
  - destruct (find_tlli r t) as [[j x]|]; [|discriminate]. intros [= <- ->] Hm t'. cbn [upd find].
    rewrite (IH j eq_refl Hm t'). unfold is_tlli at 1 3.
    destruct (m_tlli a =? t') eqn:E2; [|reflexivity]. destruct (t' =? t) eqn:E3; [lia|reflexivity].
Qed.
Lemma find_del l t i m : find_tlli l t = Some (i, m) -> NoDup (map m_tlli l) -> forall t',
  find (is_tlli t') (del l i) = if t' =? t then None else find (is_tlli t') l.
Proof.
  revert i. induction l as [|a r IH]; intros i; cbn [find_tlli]; [discriminate|].
  destruct (m_tlli a =? t) eqn:E; intros H ND t'; cbn [map] in ND; inversion ND as [|? ? N1 N2]; subst.
  - inversion H; subst. cbn [del find]. unfold is_tlli at 2. destruct (m_tlli m =? t') eqn:E2.
    + destruct (t' =? t) eqn:E3; [|lia]. apply Z.eqb_eq in E2. rewrite E2 in N1.
      clear -N1. induction r as [|b r IH]; [reflexivity|]. cbn [find map In] in *. unfold is_tlli at 1.
      destruct (m_tlli b =? t') eqn:E; [exfalso; apply N1; left; lia|]. auto.
    + destruct (t' =? t) eqn:E3; [lia|reflexivity].
  - destruct (find_tlli r t) as [[j x]|]; [|discriminate]. inversion H; subst. cbn [del find].
    rewrite (IH j eq_refl N2 t'). unfold is_tlli at 1 3.
    destruct (m_tlli a =? t') eqn:E2; [|reflexivity]. destruct (t' =? t) eqn:E3; [lia|reflexivity].
Qed.

(** *** Invariant.  [B] bounds the octets received so far. *)
Definition df_ok (B : Z) (d : defrag) : Prop := B < 2 ^ 32 -> total (df_frags d) <= df_tot d /\ 0 <= df_tot d <= B.
Definition sne_ok (B : Z) (k : nat) (e : sne) : Prop :=
  e_nsapi e = Z.of_nat k /\ 0 <= e_sapi e < 16 /\ 0 <= e_tx e < 4095 /\ 0 <= e_n201u e <= 65535 /\ df_ok B (e_df e).
Definition snme_ok (B : Z) (m : snme) : Prop :=
  length (m_sne m) = 16%nat /\ forall k e, nth_error (m_sne m) k = Some (Some e) -> sne_ok B k e.
Definition Inv (B : Z) (c : ctx) : Prop := 0 <= B /\ forall m, In m (c_snme c) -> snme_ok B m.

Definition octets (evs : list event) : Z :=
  fold_right (fun ev s => match ev with LlUnitdata _ _ p => zlen p + s | _ => s end) 0 evs.

Lemma df_ok_mono B B' d : B <= B' -> df_ok B d -> df_ok B' d.
Proof. unfold df_ok. intros H H1 H2. specialize (H1 ltac:(lia)). lia. Qed.
Lemma Inv_mono B B' c : B <= B' -> Inv B c -> Inv B' c.
Proof.
  intros H [H0 HI]. split; [lia|]. intros m Hm. destruct (HI m Hm) as [L HK]. split; [exact L|].
  intros k e He. destruct (HK k e He) as (A & B1 & C & D & E).
  exact (conj A (conj B1 (conj C (conj D (df_ok_mono _ _ _ H E))))).
Qed.

Lemma payload_len p : zlen (payload p) <= zlen p.
Proof. unfold payload, zlen. rewrite skipn_length. lia. Qed.

Lemma absorb_ok B d p : df_ok B d -> df_ok (B + zlen p) (absorb d p).
Proof.
  intros HD HL. pose proof (payload_len p). pose proof (zlen_nonneg (payload p)).
  destruct (HD ltac:(lia)) as [HT HB]. unfold absorb. cbv zeta.
  assert (A : forall d1, (df_frags d1 = df_frags d /\ df_tot d1 = df_tot d \/ df_frags d1 = [] /\ df_tot d1 = 0) ->
            total (df_frags (enqueue d1 (seg_of p) (payload p))) <= df_tot (enqueue d1 (seg_of p) (payload p)) /\
            0 <= df_tot (enqueue d1 (seg_of p) (payload p)) <= B + zlen p).
  { intros d1 H1. unfold enqueue. cbn [df_frags df_tot total fold_right snd]. fold (total (df_frags d1)).
    destruct H1 as [[-> ->]|[-> ->]].
    - rewrite Z.mod_small by lia. lia.
    - cbn [total fold_right]. rewrite Z.mod_small by lia. lia. }
  destruct (F_bit p), (M_bit p); apply A; cbn [df_frags df_tot]; auto.
Qed.

Lemma segments_ok d : total (df_frags d) <= df_tot d -> 0 <= df_tot d <= 65279 ->
  exists d' o rc, segments d = Ok (d', o, rc) /\ total (df_frags d') <= df_tot d' /\ (rc < 0 -> o = None) /\
    df_tot d' = df_tot d /\ forall x, o = Some x -> zlen x = df_tot d.
Proof.
  intros HT HL. unfold segments, fits. destruct (df_tot d + 256 <=? 65535) eqn:E; [|lia]. cbn [negb].
  destruct (collect_total (S (Z.to_nat (df_high d))) 0 (df_tot d + 128) [] (df_frags d)) as (o & l' & -> & H1 & H2).
  { change (zlen (@nil Z)) with 0. lia. }
  cbn [bind]. destruct o as [acc|].
  - eexists _, _, _. split; [reflexivity|]. unfold set_frags. cbn [df_frags df_tot].
    split; [lia|]. split; [lia|]. split; [reflexivity|]. intros x [= <-].
    unfold zlen. rewrite firstn_length_le; [lia|]. rewrite app_length, repeat_length. lia.
  - eexists _, _, _. split; [reflexivity|]. unfold set_frags. cbn [df_frags df_tot].
    split; [lia|]. split; [reflexivity|]. split; [reflexivity|discriminate].
Qed.

Lemma unitdata_ind_ok B d p d' o rc : df_ok B d -> unitdata_ind d p = Ok (d', o, rc) -> df_ok (B + zlen p) d'.
Proof.
  intros HD H. destruct p as [|b q]; [discriminate H|]. set (p := b :: q) in *.
  pose proof (zlen_nonneg p). rewrite unitdata_ind_spec in H by discriminate.
  assert (HD' : df_ok (B + zlen p) d) by (eapply df_ok_mono; [|exact HD]; lia).
  destruct (negb (T_bit p)); [inversion H; subst; exact HD'|].
  destruct (zlen p <? 3); [inversion H; subst; exact HD'|].
  destruct (F_bit p && (zlen p =? 3)); [discriminate|].
  destruct (F_bit p && negb (M_bit p)).
  - cbv zeta in H. destruct (zlen p =? 4); inversion H; subst; exact HD'.
  - pose proof (absorb_ok B d p HD) as HA.
    destruct (df_nomore (absorb d p) && have_all (absorb d p)); [|inversion H; subst; exact HA].
    intros HL. destruct (HA HL) as [HA1 HA2].
    destruct (Z_le_gt_dec (df_tot (absorb d p)) 65279) as [L|L].
    + destruct (segments_ok _ HA1 ltac:(lia)) as (d1 & o1 & rc1 & E & H1 & _ & H2 & _). rewrite H in E. inversion E; subst.
      lia.
    + unfold segments, fits in H. destruct (df_tot (absorb d p) + 256 <=? 65535) eqn:E; [lia|discriminate].
Qed.

(** *** Lookups *)
Lemma find_In c t i m : find_tlli (c_snme c) t = Some (i, m) -> In m (c_snme c).
Proof. intros H. apply find_tlli_some in H as [H _]. eapply nth_error_In; exact H. Qed.

Lemma entity_find c t i m s n : find_tlli (c_snme c) t = Some (i, m) ->
  entity c t s n = match nth_error (m_sne m) (Z.to_nat n) with
                   | Some (Some e) => if e_sapi e =? s then Some e else None | _ => None end.
Proof. intros H. apply find_tlli_some in H as (_ & _ & H). unfold entity. fold (is_tlli t). rewrite H. reflexivity. Qed.
Lemma entity_none c t s n : find_tlli (c_snme c) t = None -> entity c t s n = None.
Proof. intros H. apply find_tlli_none in H. unfold entity. fold (is_tlli t). rewrite H. reflexivity. Qed.

Lemma by_dlci_spec c t s n r : by_dlci_nsapi c t s n = Ok r ->
  match r with
  | Some (i, m, e) => find_tlli (c_snme c) t = Some (i, m) /\ nth_error (m_sne m) (Z.to_nat n) = Some (Some e) /\
                      e_sapi e = s /\ 0 <= n < 16 /\ entity c t s n = Some e
  | None => entity c t s n = None
  end.
Proof.
  unfold by_dlci_nsapi. destruct (find_tlli (c_snme c) t) as [[i m]|] eqn:E.
  - unfold get_sne. destruct ((0 <=? n) && (n <? 16)) eqn:E2; [|discriminate]. cbn [bind].
    destruct (nth (Z.to_nat n) (m_sne m) None) as [e|] eqn:E3.
    + apply nth_nth_error in E3. destruct (e_sapi e =? s) eqn:E4; intros [= <-].
      * split; [reflexivity|]. split; [exact E3|]. split; [lia|]. split; [lia|].
        rewrite (entity_find _ _ _ _ _ _ E), E3, E4. reflexivity.
      * rewrite (entity_find _ _ _ _ _ _ E), E3, E4. reflexivity.
    + intros [= <-]. rewrite (entity_find _ _ _ _ _ _ E).
      destruct (nth_error (m_sne m) (Z.to_nat n)) as [[e|]|] eqn:E4; try reflexivity.
      apply nth_nth_error in E4. congruence.
  - intros [= <-]. apply entity_none. exact E.
Qed.

Lemma entity_put c t i m k o t' s' n' : find_tlli (c_snme c) t = Some (i, m) -> (k < length (m_sne m))%nat -> 0 <= n' ->
  entity (put_sne c i m k o) t' s' n' =
  if (t' =? t) && (Z.to_nat n' =? k)%nat
  then match o with Some e => if e_sapi e =? s' then Some e else None | None => None end
  else entity c t' s' n'.
Proof.
  intros H Hk Hn. pose proof (find_tlli_some _ _ _ _ H) as (_ & Hm & Hf).
  unfold entity, put_sne. cbn [c_snme]. fold (is_tlli t').
  rewrite (find_upd _ _ _ _ (mksnme (m_tlli m) (upd (m_sne m) k o)) H Hm).
  destruct (t' =? t) eqn:E; cbn [andb]; [|reflexivity].
  cbn [m_sne]. rewrite nth_error_upd by exact Hk. apply Z.eqb_eq in E. subst t'. rewrite Hf.
  destruct (Z.to_nat n' =? k)%nat; [destruct o as [e|]; reflexivity|reflexivity].
Qed.

Lemma Inv_find B c t i m : Inv B c -> find_tlli (c_snme c) t = Some (i, m) -> snme_ok B m.
Proof. intros [_ HI] H. apply HI. eapply find_In; exact H. Qed.

Lemma In_upd {A} (l : list A) i x y : In y (upd l i x) -> y = x \/ In y l.
Proof.
  revert i. induction l as [|a r IH]; intros [|i]; cbn [upd In]; try tauto.
  - intros [H|H]; [left; congruence|right; right; exact H].
  - intros [H|H]; [right; left; exact H|]. destruct (IH i H); tauto.
Qed.
Lemma In_del {A} (l : list A) i y : In y (del l i) -> In y l.
Proof. revert i. induction l as [|a r IH]; intros [|i]; cbn [del In]; try tauto. intros [H|H]; [tauto|]. right. eapply IH; exact H. Qed.

Lemma snme_upd B m k o t : snme_ok B m -> (k < 16)%nat -> (forall e, o = Some e -> sne_ok B k e) ->
  snme_ok B (mksnme t (upd (m_sne m) k o)).
Proof.
  intros [L HK] Hk Ho. split; cbn [m_sne]; [rewrite upd_length; exact L|].
  intros j e. rewrite nth_error_upd by lia. destruct (j =? k)%nat eqn:E; [|apply HK].
  apply Nat.eqb_eq in E. subst j. intros [= He]. apply Ho. exact He.
Qed.

Lemma put_inv B c t i m k o : Inv B c -> find_tlli (c_snme c) t = Some (i, m) -> (k < 16)%nat ->
  (forall e, o = Some e -> sne_ok B k e) -> Inv B (put_sne c i m k o).
Proof.
  intros HI H Hk Ho. pose proof (Inv_find _ _ _ _ _ HI H) as HM. destruct HI as [H0 HI]. split; [exact H0|].
  unfold put_sne. cbn [c_snme]. intros x Hx. apply In_upd in Hx as [->|Hx]; [|apply HI; exact Hx].
  apply snme_upd; assumption.
Qed.

Lemma first_on_some s l k e : first_on s l = Some (k, e) -> nth_error l k = Some (Some e) /\ e_sapi e = s.
Proof.
  revert k. induction l as [|[a|] r IH]; intros k; cbn [first_on]; [discriminate| |].
  - destruct (e_sapi a =? s) eqn:E; [intros [= <- <-]; split; [reflexivity|lia]|].
    destruct (first_on s r) as [[j x]|]; [|discriminate]. intros [= <- ->]. cbn. apply IH. reflexivity.
  - destruct (first_on s r) as [[j x]|]; [|discriminate]. intros [= <- ->]. cbn. apply IH. reflexivity.
Qed.

Lemma req_ok e npdu refuse e' pdus rc : sn_unitdata_req e npdu refuse = Ok (e', pdus, rc) -> 0 <= e_tx e < 4095 ->
  0 <= e_tx e' < 4095 /\ e_sapi e' = e_sapi e /\ e_nsapi e' = e_nsapi e /\ e_n201u e' = e_n201u e /\ e_df e' = e_df e.
Proof.
  unfold sn_unitdata_req. intros H Ht. destruct (negb (fits (zlen npdu + 256))); [discriminate|].
  assert (M : 0 <= (e_tx e + 1) mod 4095 < 4095) by (apply Z.mod_pos_bound; lia).
  destruct (usub64 (e_n201u e) 4 <? zlen npdu).
  - destruct (negb (fits (e_n201u e + 256))); [discriminate|].
    destruct (frag_loop _ _ _ _ _ _ _) as [[ps dn]|er|]; [|discriminate|discriminate]. cbn [bind] in H.
    destruct dn; inversion H; subst; cbn [set_tx e_tx e_sapi e_nsapi e_n201u e_df]; auto.
  - inversion H; subst; cbn [set_tx e_tx e_sapi e_nsapi e_n201u e_df]; auto.
Qed.

Lemma default_range s : 0 <= fst (default_n201 s) <= 65535.
Proof. unfold default_n201. repeat match goal with |- context [if ?b then _ else _] => destruct b end; cbn; lia. Qed.

Lemma alloc_ok B sapi nsapi e : 0 <= B -> 0 <= nsapi < 16 -> sne_alloc sapi nsapi = Ok e -> sne_ok B (Z.to_nat nsapi) e.
Proof.
  unfold sne_alloc. intros HB Hn. destruct ((0 <=? sapi) && (sapi <? 16)) eqn:E; [|discriminate]. intros [= <-].
  pose proof (default_range sapi). unfold sne_ok, df_ok. cbn [e_nsapi e_sapi e_tx e_n201u e_df df0 df_frags df_tot total fold_right]. repeat split; lia.
Qed.

(** The state an activation works on. *)
Definition act_ctx (c : ctx) (t : Z) : ctx * nat * snme :=
  match find_tlli (c_snme c) t with
  | Some (i, m) => (c, i, m)
  | None => let m := mksnme t (repeat None NUM_NSAPIS) in (mkctx (c_ms c) (m :: c_snme c), O, m)
  end.
Lemma act_ctx_spec B c t c1 i m : Inv B c -> act_ctx c t = (c1, i, m) ->
  Inv B c1 /\ find_tlli (c_snme c1) t = Some (i, m) /\ c_ms c1 = c_ms c /\ (forall t' s n, entity c1 t' s n = entity c t' s n) /\
  (NoDup (map m_tlli (c_snme c)) -> NoDup (map m_tlli (c_snme c1))).
Proof.
  unfold act_ctx. intros HI. destruct (find_tlli (c_snme c) t) as [[j x]|] eqn:E.
  - intros [= <- <- <-]. auto 10.
  - cbv zeta. intros [= <- <- <-]. split.
    + destruct HI as [H0 HI]. split; [exact H0|]. cbn [c_snme]. intros x [<-|Hx]; [|apply HI; exact Hx].
      split; [reflexivity|]. cbn [m_sne]. intros k e He. exfalso. apply nth_error_In in He.
      cbn in He. repeat (destruct He as [He|He]; [discriminate|]). destruct He.
    + cbn [c_snme find_tlli m_tlli c_ms]. rewrite Z.eqb_refl. split; [reflexivity|]. split; [reflexivity|]. split.
      * intros t' s n. unfold entity. cbn [c_snme find]. cbn [m_tlli].
        destruct (t =? t') eqn:E2.
        -- apply Z.eqb_eq in E2. subst t'. apply find_tlli_none in E. fold (is_tlli t). rewrite E. cbn [m_sne].
           match goal with |- context [nth_error ?l ?k] => destruct (nth_error l k) as [[e|]|] eqn:E3 end; try reflexivity.
           apply nth_error_In in E3. cbn in E3. repeat (destruct E3 as [E3|E3]; [discriminate|]). destruct E3.
        -- reflexivity.
      * intros ND. cbn [map m_tlli]. constructor; [|exact ND]. intros Hin. apply in_map_iff in Hin as (x & Hx & Hin).
        apply find_tlli_none in E. apply find_none with (x := x) in E; [|exact Hin]. unfold is_tlli in E. lia.
Qed.

Lemma activate_act c t n s q p : activate c t n s q p =
  let '(c1, i, m) := act_ctx c t in
  do o <- get_sne m n;
  do e <- match o with Some e => Ok e | None => sne_alloc s n end;
  if negb (c_ms c) then Ok (put_sne c1 i m (Z.to_nat n) (Some e), [], 0)
  else match q with
       | None => Ok (put_sne c1 i m (Z.to_nat n) (Some e), [], - EINVAL)
       | Some (peak, rel) => Ok (put_sne c1 i m (Z.to_nat n) (Some (set_qos e peak rel p)), [SnsmActivateRsp t (e_nsapi e)], 0)
       end.
Proof. reflexivity. Qed.

Lemma map_tlli_upd l t i m m' : find_tlli l t = Some (i, m) -> m_tlli m' = t -> map m_tlli (upd l i m') = map m_tlli l.
Proof.
  revert i. induction l as [|a r IH]; intros i; cbn [find_tlli]; [discriminate|]. destruct (m_tlli a =? t) eqn:E.
  - intros [= <- <-] Hm. cbn [upd map]. f_equal. lia.
  - destruct (find_tlli r t) as [[j x]|]; [|discriminate]. intros [= <- ->] Hm. cbn [upd map]. f_equal. eapply IH; eauto.
Qed.
Lemma map_tlli_put c t i m k o : find_tlli (c_snme c) t = Some (i, m) ->
  map m_tlli (c_snme (put_sne c i m k o)) = map m_tlli (c_snme c).
Proof.
  intros H. pose proof (find_tlli_some _ _ _ _ H) as (_ & Hm & _). unfold put_sne. cbn [c_snme].
  exact (map_tlli_upd _ _ _ _ (mksnme (m_tlli m) (upd (m_sne m) k o)) H Hm).
Qed.
Lemma map_tlli_del l i : NoDup (map m_tlli l) -> NoDup (map m_tlli (del l i)).
Proof.
  revert i. induction l as [|a r IH]; intros [|i]; cbn [del map]; try auto.
  - intros H. inversion H; assumption.
  - intros H. inversion H as [|? ? H1 H2]; subst. constructor; [|auto]. intros Hin. apply H1.
    apply in_map_iff in Hin as (x & Hx & Hin). apply In_del in Hin. apply in_map_iff. exists x. auto.
Qed.

Definition ev_octets (ev : event) : Z := match ev with LlUnitdata _ _ p => zlen p | _ => 0 end.

(** What one step does to the table, in one place: the invariant, the uniqueness of TLLIs, and the entities it
    does not concern. *)
Lemma step_inv B c ev c' outs rc : Inv B c -> step c ev = Ok (c', outs, rc) ->
  Inv (B + ev_octets ev) c' /\
  ((forall t n, ev <> LlAssign t n) -> NoDup (map m_tlli (c_snme c)) -> NoDup (map m_tlli (c_snme c'))) /\
  (NoDup (map m_tlli (c_snme c)) -> forall t s n, 0 <= n < 16 -> ~ concerns ev t n -> entity c' t s n = entity c t s n).
Proof.
  intros HI H. destruct ev as [t0 s0 n0 npdu refuse|t0 s0 p|t0 s0 u i0|t0 t1|t0 s0|t0 n0 s0 q pr|t0 n0]; cbn [step ev_octets] in *;
    rewrite ?Z.add_0_r.
  - (* SN-UNITDATA.req *)
    destruct (zlen npdu =? 0); [discriminate|].
    destruct (by_dlci_nsapi c t0 s0 n0) as [o|er|] eqn:E; [|discriminate|discriminate]. cbn [bind] in H.
    apply by_dlci_spec in E. destruct o as [[[i m] e]|]; [|inversion H; subst; auto].
    destruct E as (E & En & Es & Hn & Ee).
    destruct (sn_unitdata_req e npdu refuse) as [[[e' pdus] rc']|er|] eqn:Er; [|discriminate|discriminate].
    cbn [bind] in H. inversion H; subst. destruct (Inv_find _ _ _ _ _ HI E) as [L HK].
    specialize (HK _ _ En) as (A1 & A2 & A3 & A4 & A5).
    destruct (req_ok _ _ _ _ _ _ Er A3) as (R1 & R2 & R3 & R4 & R5).
    split; [|split].
    + eapply put_inv; [exact HI|exact E|lia|]. intros x [= <-]. unfold sne_ok. rewrite R2, R3, R4, R5. auto.
    + intros _ ND. rewrite (map_tlli_put _ _ _ _ _ _ E). exact ND.
    + intros _ t s n Hn' Hc. rewrite (entity_put c t0 i m) by (assumption || lia).
      destruct ((t =? t0) && (Z.to_nat n =? Z.to_nat n0)%nat) eqn:E2; [|reflexivity].
      exfalso. apply Hc. cbn [concerns]. split; lia.
  - (* LL-UNITDATA.ind *)
    destruct (zlen p =? 0) eqn:Ep; [discriminate|].
    destruct (rd p 0) as [h|er|] eqn:Eh; [|discriminate|discriminate]. cbn [bind] in H.
    apply rd_inv in Eh as [_ Eh]. assert (Eh' : nth 0 p 0 = h) by (symmetry; exact Eh). rewrite (h_nsapi_of p h Eh') in H.
    pose proof (zlen_nonneg p).
    destruct (by_dlci_nsapi c t0 s0 (nsapi_of p)) as [o|er|] eqn:E; [|discriminate|discriminate]. cbn [bind] in H.
    apply by_dlci_spec in E. destruct o as [[[i m] e]|]; [|inversion H; subst; split; [eapply Inv_mono; [|exact HI]; lia|auto]].
    destruct E as (E & En & Es & Hn & Ee).
    destruct (unitdata_ind (e_df e) p) as [[[d o] rc']|er|] eqn:Er; [|discriminate|discriminate].
    cbn [bind] in H. inversion H; subst. destruct (Inv_find _ _ _ _ _ HI E) as [L HK].
    specialize (HK _ _ En) as (A1 & A2 & A3 & A4 & A5).
    split; [|split].
    + eapply put_inv; [eapply Inv_mono; [|exact HI]; lia|exact E|lia|]. intros x [= <-]. unfold sne_ok.
      cbn [set_df e_nsapi e_sapi e_tx e_n201u e_df]. exact (conj A1 (conj A2 (conj A3 (conj A4 (unitdata_ind_ok _ _ _ _ _ _ A5 Er))))).
    + intros _ ND. rewrite (map_tlli_put _ _ _ _ _ _ E). exact ND.
    + intros _ t s n Hn' Hc. rewrite (entity_put c t0 i m) by (assumption || lia).
      destruct ((t =? t0) && (Z.to_nat n =? Z.to_nat (nsapi_of p))%nat) eqn:E2; [|reflexivity].
      exfalso. apply Hc. cbn [concerns]. split; lia.
  - (* LL-XID *)
    destruct (find_tlli (c_snme c) t0) as [[i m]|] eqn:E; [|inversion H; subst; auto].
    destruct (first_on s0 (m_sne m)) as [[k e]|] eqn:E1; [|inversion H; subst; auto].
    inversion H; subst. apply first_on_some in E1 as [En Es]. destruct (Inv_find _ _ _ _ _ HI E) as [L HK].
    assert (Hk : (k < 16)%nat) by (rewrite <- L; apply nth_error_Some; congruence).
    specialize (HK _ _ En) as (A1 & A2 & A3 & A4 & A5).
    split; [|split].
    + eapply put_inv; [exact HI|exact E|lia|]. intros x [= <-]. unfold sne_ok.
      cbn [set_n201 e_nsapi e_sapi e_tx e_n201u e_df]. pose proof (Z.mod_pos_bound u 65536 ltac:(lia)) as H1. exact (conj A1 (conj A2 (conj A3 (conj (conj (proj1 H1) (Zlt_succ_le _ 65535 (proj2 H1))) A5)))).
    + intros _ ND. rewrite (map_tlli_put _ _ _ _ _ _ E). exact ND.
    + intros _ t s n Hn' Hc. rewrite (entity_put c t0 i m) by (assumption || lia).
      destruct ((t =? t0) && (Z.to_nat n =? k)%nat) eqn:E2; [|reflexivity].
      exfalso. apply Hc. cbn [concerns]. lia.
  - (* LL-ASSIGN.ind *)
    destruct (find_tlli (c_snme c) t0) as [[i m]|] eqn:E; [|inversion H; subst; auto].
    inversion H; subst. split; [|split].
    + pose proof (Inv_find _ _ _ _ _ HI E) as HM. destruct HI as [H0 HI]. split; [exact H0|]. cbn [c_snme]. intros x Hx.
      apply In_upd in Hx as [->|Hx]; [exact HM|apply HI; exact Hx].
    + intros HA. exfalso. eapply HA. reflexivity.
    + intros _ t s n Hn Hc. cbn [concerns] in Hc. unfold entity. cbn [c_snme].
      assert (F : find (fun m0 => m_tlli m0 =? t) (upd (c_snme c) i (mksnme t1 (m_sne m))) = find (fun m0 => m_tlli m0 =? t) (c_snme c)).
      { clear -E Hc. revert i E. induction (c_snme c) as [|a r IH]; intros i; cbn [find_tlli]; [discriminate|].
        destruct (m_tlli a =? t0) eqn:E.
        - intros [= <- <-]. cbn [upd find m_tlli]. destruct (t1 =? t) eqn:E1; [exfalso; apply Hc; lia|].
          destruct (m_tlli a =? t) eqn:E2; [exfalso; apply Hc; lia|reflexivity].
        - destruct (find_tlli r t0) as [[j x]|]; [|discriminate]. intros [= <- ->]. cbn [upd find].
          rewrite (IH j eq_refl). reflexivity. }
      rewrite F. reflexivity.
  - (* LL-ESTABLISH.cnf *)
    destruct (find_tlli (c_snme c) t0) as [[i m]|] eqn:E; [|inversion H; subst; auto].
    destruct (first_on s0 (m_sne m)) as [[k e]|] eqn:E1; inversion H; subst; auto.
  - (* SNSM-ACTIVATE.ind *)
    rewrite activate_act in H. destruct (act_ctx c t0) as [[c1 i] m] eqn:EA.
    destruct (act_ctx_spec B c t0 c1 i m HI EA) as (HI1 & E & Hms & HE & HND).
    unfold get_sne in H. destruct ((0 <=? n0) && (n0 <? 16)) eqn:En0; [|discriminate]. cbn [bind] in H.
    destruct (Inv_find _ _ _ _ _ HI1 E) as [L HK].
    assert (X : exists e, match nth (Z.to_nat n0) (m_sne m) None with Some e => Ok e | None => sne_alloc s0 n0 end = Ok e /\
                sne_ok B (Z.to_nat n0) e).
    { destruct (nth (Z.to_nat n0) (m_sne m) None) as [e|] eqn:E1.
      - exists e. split; [reflexivity|]. apply HK. apply nth_nth_error. exact E1.
      - destruct (sne_alloc s0 n0) as [e|er|] eqn:E2; [|discriminate|discriminate]. exists e. split; [reflexivity|].
        eapply alloc_ok; [apply HI|lia|exact E2]. }
    destruct X as (e & Ee & He). rewrite Ee in H. cbn [bind] in H.
    assert (G : exists e', c' = put_sne c1 i m (Z.to_nat n0) (Some e') /\ sne_ok B (Z.to_nat n0) e').
    { destruct (negb (c_ms c)); [inversion H; subst; eauto|]. destruct q as [[pk rl]|]; inversion H; subst; [|eauto].
      eexists. split; [reflexivity|]. exact He. }
    destruct G as (e' & -> & He'). split; [|split].
    + eapply put_inv; [exact HI1|exact E|lia|]. intros x [= <-]. exact He'.
    + intros _ ND. rewrite (map_tlli_put _ _ _ _ _ _ E). apply HND. exact ND.
    + intros _ t s n Hn' Hc. rewrite (entity_put c1 t0 i m) by (assumption || lia).
      destruct ((t =? t0) && (Z.to_nat n =? Z.to_nat n0)%nat) eqn:E2; [|apply HE].
      exfalso. apply Hc. cbn [concerns]. split; lia.
  - (* SNSM-DEACTIVATE.ind *)
    unfold deactivate in H. destruct (find_tlli (c_snme c) t0) as [[i m]|] eqn:E; [|inversion H; subst; auto].
    unfold get_sne in H. destruct ((0 <=? n0) && (n0 <? 16)) eqn:En0; [|discriminate]. cbn [bind] in H.
    destruct (nth (Z.to_nat n0) (m_sne m) None) as [e|] eqn:E1; [|inversion H; subst; auto].
    apply nth_nth_error in E1. pose proof (Inv_find _ _ _ _ _ HI E) as HM. pose proof HM as [L HK].
    specialize (HK _ _ E1) as (A1 & A2 & A3 & A4 & A5). rewrite A1 in H. rewrite Z2Nat.id in H by lia.
    pose proof (find_tlli_some _ _ _ _ E) as (_ & Hm & Hf).
    destruct (existsb _ (upd (m_sne m) (Z.to_nat n0) None)) eqn:EX; inversion H; subst.
    + fold (put_sne c i m (Z.to_nat n0) None). split; [|split].
      * eapply put_inv; [exact HI|exact E|lia|discriminate].
      * intros _ ND. rewrite (map_tlli_put _ _ _ _ _ _ E). exact ND.
      * intros _ t s n Hn' Hc. rewrite (entity_put c (m_tlli m) i m) by (assumption || lia).
        destruct ((t =? m_tlli m) && (Z.to_nat n =? Z.to_nat n0)%nat) eqn:E2; [|reflexivity].
        exfalso. apply Hc. cbn [concerns]. split; lia.
    + split; [|split].
      * destruct HI as [H0 HI]. split; [exact H0|]. cbn [c_snme]. intros x Hx. apply In_del in Hx. apply HI. exact Hx.
      * intros _ ND. cbn [c_snme]. apply map_tlli_del. exact ND.
      * intros ND t s n Hn' Hc. unfold entity. cbn [c_snme]. fold (is_tlli t). rewrite (find_del _ _ _ _ E ND t).
        destruct (t =? m_tlli m) eqn:E2; [|reflexivity]. apply Z.eqb_eq in E2. subst t. rewrite Hf.
        destruct (nth_error (m_sne m) (Z.to_nat n)) as [[x|]|] eqn:E3; try reflexivity.
        exfalso. assert (K : Z.to_nat n <> Z.to_nat n0) by (intros K; apply Hc; cbn [concerns]; split; [reflexivity|lia]).
        assert (X : existsb (fun o => match o with Some _ => true | None => false end) (upd (m_sne m) (Z.to_nat n0) None) = true).
        { apply existsb_exists. exists (Some x). split; [|reflexivity]. apply nth_error_In with (Z.to_nat n).
          rewrite nth_error_upd by lia. destruct (Z.to_nat n =? Z.to_nat n0)%nat eqn:E4; [lia|exact E3]. }
        congruence.
Qed.

Lemma octets_nonneg evs : 0 <= octets evs.
Proof. induction evs as [|ev r IH]; cbn [octets fold_right]; [lia|]. fold (octets r). destruct ev; try exact IH. pose proof (zlen_nonneg pdu). lia. Qed.
Lemma octets_cons ev r : octets (ev :: r) = ev_octets ev + octets r.
Proof. destruct ev; reflexivity. Qed.

Lemma run_inv evs : forall B c c' outs, Inv B c -> run c evs = Ok (c', outs) ->
  Inv (B + octets evs) c' /\
  ((forall t n, ~ In (LlAssign t n) evs) -> NoDup (map m_tlli (c_snme c)) -> NoDup (map m_tlli (c_snme c'))).
Proof.
  induction evs as [|ev r IH]; intros B c c' outs HI H; cbn [run] in H.
  - inversion H; subst. rewrite Z.add_0_r. auto.
  - pose proof (octets_nonneg r).
    destruct (step c ev) as [[[c1 o] rc]|er|] eqn:E; [|discriminate|discriminate]. cbn [bind] in H.
    destruct (step_inv B c ev c1 o rc HI E) as (I1 & N1 & _).
    destruct (run c1 r) as [[c2 o2]|er|] eqn:E2; [|discriminate|discriminate]. cbn [bind fst snd] in H. inversion H; subst.
    destruct (IH _ _ _ _ I1 E2) as (I2 & N2).
    rewrite octets_cons, Z.add_assoc. split; [exact I2|]. intros HA ND. apply N2; [intros t n Hin; eapply HA; right; exact Hin|].
    apply N1; [intros t n ->; eapply HA; left; reflexivity|exact ND].
Qed.

Lemma Inv_init ms : Inv 0 (init ms).
Proof. split; [lia|]. intros m []. Qed.

(** Receiving through the table is receiving by the entity. *)
Lemma run_rx B t s n : forall ps c e d' outs, Inv B c -> entity c t s n = Some e -> 0 <= n < 16 ->
  Forall (fun p => nsapi_of p = n /\ p <> []) ps ->
  rx (e_df e) ps = Ok (d', outs) ->
  exists c', run c (map (LlUnitdata t s) ps) = Ok (c', map (SnUnitdataInd t s n) outs) /\
    entity c' t s n = Some (set_df e d').
Proof.
  intros ps. revert B. induction ps as [|p r IH]; intros B c e d' outs HI He Hn HP H; cbn [map run rx] in *.
  - inversion H; subst. exists c. split; [reflexivity|]. rewrite He. destruct e; reflexivity.
  - inversion HP as [|? ? [P1 P2] P3]; subst. pose proof (zlen_nonneg p).
    destruct (unitdata_ind (e_df e) p) as [[[d1 o] rc]|er|] eqn:E; [|discriminate|discriminate]. cbn [bind] in H.
    destruct (rx d1 r) as [[d2 o2]|er|] eqn:E2; [|discriminate|discriminate]. cbn [bind fst snd] in H. inversion H; subst.
    assert (S1 : exists c1, step c (LlUnitdata t s p) = Ok (c1, map (SnUnitdataInd t s (nsapi_of p)) (olist o), rc) /\
                 entity c1 t s (nsapi_of p) = Some (set_df e d1)).
    { cbn [step]. destruct p as [|b q]; [congruence|]. set (p := b :: q) in *.
      destruct (zlen p =? 0) eqn:Ez; [unfold p in Ez; rewrite zlen_cons in Ez; pose proof (zlen_nonneg q); lia|].
      change (rd p 0) with (@Ok Z b). cbn [bind]. rewrite (h_nsapi_of p b eq_refl).
      unfold entity in He. fold (is_tlli t) in He. unfold by_dlci_nsapi.
      destruct (find_tlli (c_snme c) t) as [[i m]|] eqn:Ef; [|apply find_tlli_none in Ef; rewrite Ef in He; discriminate].
      pose proof (find_tlli_some _ _ _ _ Ef) as (_ & Hm & Hf). rewrite Hf in He.
      destruct (nth_error (m_sne m) (Z.to_nat (nsapi_of p))) as [[x|]|] eqn:Ex; try discriminate.
      destruct (e_sapi x =? s) eqn:Es; [|discriminate]. inversion He; subst x.
      unfold get_sne. destruct ((0 <=? nsapi_of p) && (nsapi_of p <? 16)) eqn:Er; [|lia]. cbn [bind].
      destruct (Inv_find _ _ _ _ _ HI Ef) as [L HK]. pose proof (HK _ _ Ex) as (A1 & _).
      apply nth_nth_error in Ex. rewrite Ex, Es. cbn [bind]. rewrite E. cbn [bind].
      assert (ES : e_sapi e = s) by lia. assert (EN : e_nsapi e = nsapi_of p) by lia. rewrite Hm, ES, EN.
      eexists. split; [destruct o; reflexivity|].
      rewrite (entity_put c t i m) by (assumption || lia).
      rewrite Z.eqb_refl, Nat.eqb_refl. cbn [andb]. cbn [set_df e_sapi]. rewrite Es. reflexivity. }
    destruct S1 as (c1 & S1 & He1). rewrite S1. cbn [bind].
    destruct (step_inv B c (LlUnitdata t s p) c1 _ _ HI S1) as (I1 & _).
    cbn [ev_octets] in I1.
    destruct (IH (B + zlen p) c1 (set_df e d1) d' o2 I1 He1 Hn P3 E2) as (c2 & -> & He2).
    cbn [bind fst snd]. exists c2. rewrite map_app. split; [reflexivity|]. rewrite He2. destruct e; reflexivity.
Qed.

(** Converse: what the table did is what the entity did. *)
Lemma run_rx_inv B t s n : forall ps c e c' outs, Inv B c -> entity c t s n = Some e -> 0 <= n < 16 ->
  Forall (fun p => nsapi_of p = n /\ p <> []) ps ->
  run c (map (LlUnitdata t s) ps) = Ok (c', outs) ->
  exists d' xs, rx (e_df e) ps = Ok (d', xs) /\ outs = map (SnUnitdataInd t s n) xs.
Proof.
  intros ps. revert B. induction ps as [|p r IH]; intros B c e c' outs HI He Hn HP H; cbn [map run rx] in *.
  - inversion H; subst. exists (e_df e), []. auto.
  - inversion HP as [|? ? [P1 P2] P3]; subst. pose proof (zlen_nonneg p).
    destruct (unitdata_ind (e_df e) p) as [[[d1 o] rc]|er|] eqn:E.
    + destruct (run_rx B t s (nsapi_of p) [p] c e d1 (olist o) HI He Hn) as (c1 & R1 & He1).
      * constructor; [auto|constructor].
      * cbn [rx]. rewrite E. cbn [bind fst snd]. rewrite app_nil_r. reflexivity.
      * cbn [map run] in R1. destruct (step c (LlUnitdata t s p)) as [[[c1' o1] rc1]|er|] eqn:S1; [|discriminate|discriminate].
        cbn [bind fst snd] in R1. rewrite app_nil_r in R1. inversion R1; subst. cbn [bind] in H.
        destruct (step_inv B c (LlUnitdata t s p) c1 _ _ HI S1) as (I1 & _). cbn [ev_octets] in I1.
        destruct (run c1 (map (LlUnitdata t s) r)) as [[c2 o2]|er|] eqn:R2; [|discriminate|discriminate].
        cbn [bind fst snd] in H. inversion H; subst.
        destruct (IH (B + zlen p) c1 (set_df e d1) _ _ I1 He1 Hn P3 R2) as (d2 & xs & R3 & ->).
        cbn [set_df e_df] in R3. cbn [bind]. rewrite R3. cbn [bind fst snd]. eexists _, _. split; [reflexivity|].
        rewrite map_app. reflexivity.
    + (* impossible: these functions return codes, not Err *)
      exfalso. clear -E. unfold unitdata_ind in E.
      destruct p as [|b q]; [discriminate E|]. set (p := b :: q) in *.
      assert (D : unitdata_ind (e_df e) p = Err er) by exact E. clear E.
      rewrite unitdata_ind_spec in D by discriminate.
      destruct (negb (T_bit p)); [discriminate|]. destruct (zlen p <? 3); [discriminate|].
      destruct (F_bit p && (zlen p =? 3)); [discriminate|]. destruct (F_bit p && negb (M_bit p)).
      * cbv zeta in D. destruct (zlen p =? 4); discriminate.
      * destruct (df_nomore (absorb (e_df e) p) && have_all (absorb (e_df e) p)); [|discriminate].
        unfold segments in D. destruct (negb (fits (df_tot (absorb (e_df e) p) + 256))); [discriminate|].
        assert (C : forall k sg rm acc l, collect k sg rm acc l <> Err er).
        { induction k as [|k IHk]; intros sg rm acc l; cbn [collect]; [discriminate|].
          destruct (get_seg sg l) as [[x l']|]; [|discriminate]. destruct (zlen acc + zlen x <=? rm); [apply IHk|discriminate]. }
        destruct (collect _ _ _ _ _) as [[[acc|] l]|er'|] eqn:EC; cbn [bind] in D; try discriminate.
        inversion D; subst. exact (C _ _ _ _ _ EC).
    + (* the entity hits UB, so does the step *)
      exfalso. cbn [step] in H. destruct p as [|b q]; [congruence|]. set (p := b :: q) in *.
      destruct (zlen p =? 0) eqn:Ez; [discriminate|].
      change (rd p 0) with (@Ok Z b) in H. cbn [bind] in H. rewrite (h_nsapi_of p b eq_refl) in H.
      destruct (by_dlci_nsapi c t s (nsapi_of p)) as [o|er|] eqn:Eb; [|discriminate|discriminate]. cbn [bind] in H.
      apply by_dlci_spec in Eb. destruct o as [[[i m] x]|]; [|congruence].
      destruct Eb as (_ & _ & _ & _ & Eb). rewrite He in Eb. inversion Eb; subst x. rewrite E in H. discriminate.
Qed.
