(** Proofs about slhc.c: streams of packets. *)
From Verif.Lib Require Import Base Outcome.
From Verif.Comp Require Import SlhcModel SlhcSpec SlhcProofs SlhcDelta SlhcHop SlhcHop2 SlhcHop3 SlhcRing SlhcRecv SlhcLink.

(** ** The first state *)
Lemma zrange_S n : zrange (S n) = zrange n ++ [Z.of_nat n].
Proof. unfold zrange. rewrite seq_S, map_app. reflexivity. Qed.
Lemma zrange_len n : length (zrange n) = n.
Proof. unfold zrange. rewrite map_length, seq_length. reflexivity. Qed.
Lemma rev_zrange_S n : rev (zrange (S n)) = Z.of_nat n :: rev (zrange n).
Proof. rewrite zrange_S, rev_app_distr. reflexivity. Qed.
Lemma ix_repeat {A} (d : A) n i : ix d (repeat d n) i = d.
Proof. unfold ix. revert n. generalize (Z.to_nat i). induction n as [|k IH]; intros [|n]; try reflexivity. cbn. apply IH. Qed.
Lemma nth_zrange n i : (i < n)%nat -> nth i (zrange n) 0 = Z.of_nat i.
Proof. intros H. unfold zrange. rewrite (nth_indep _ 0 (Z.of_nat 0)) by (rewrite map_length, seq_length; lia). rewrite map_nth, seq_nth by lia. reflexivity. Qed.
Lemma ring_init n C : 1 <= n <= 255 -> forall m, slhc_init m n = Some C -> ring C (rev (zrange (Z.to_nat n))).
Proof.
  intros Hn m. unfold slhc_init. destruct (_ || _); [discriminate|]. intros H. injection H as <-.
  assert (forall k, 0 <= k < n -> ix 0 (map (fun i => if i =? 0 then n - 1 else i - 1) (zrange (Z.to_nat n))) k = if k =? 0 then n - 1 else k - 1) as Hix.
  { intros k Hk. unfold ix. set (f := fun i => _). rewrite (nth_indep _ 0 (f 0)) by (rewrite map_length, zrange_len; lia). rewrite map_nth, nth_zrange by lia. rewrite Z2Nat.id by lia. reflexivity. }
  constructor; cbn [tx nxt oldest].
  - apply NoDup_rev. unfold zrange. apply FinFun.Injective_map_NoDup; [intros a b; lia|apply seq_NoDup].
  - intros i. rewrite <- in_rev. unfold zlen. rewrite repeat_length. split; [intros H; apply in_map_iff in H as (k & <- & H); apply in_seq in H; lia|intros H; apply zrange_In; lia].
  - rewrite map_length, zrange_len, repeat_length. reflexivity.
  - intros E. apply (f_equal (@length Z)) in E. rewrite rev_length, zrange_len in E. cbn in E. lia.
  - assert (forall j, (j <= Z.to_nat n)%nat -> linked (map (fun i => if i =? 0 then n - 1 else i - 1) (zrange (Z.to_nat n))) (rev (zrange j))) as HL.
    { induction j as [|j IH]; intros Hj; [exact I|]. rewrite rev_zrange_S. destruct j as [|j]; [exact I|]. rewrite rev_zrange_S in *. apply linked_cons. split; [|apply IH; lia].
      rewrite Hix by lia. replace (Z.of_nat (S j) =? 0) with false by lia. lia. }
    apply HL. lia.
  - destruct (Z.to_nat n) as [|j] eqn:E; [lia|]. rewrite <- E in *. assert (last (rev (zrange (Z.to_nat n))) 0 = 0) as ->.
    { rewrite E. clear. induction j as [|j IH]; [reflexivity|]. rewrite rev_zrange_S. rewrite rev_zrange_S in *. exact IH. }
    rewrite Hix by lia. rewrite E, rev_zrange_S. cbn [hd]. change (0 =? 0) with true. cbv iota. lia.
  - destruct (Z.to_nat n) as [|j] eqn:E; [lia|]. clear. induction j as [|j IH]; [reflexivity|]. rewrite rev_zrange_S. rewrite rev_zrange_S in *. exact IH.
Qed.
Lemma shape0 : shape cst0.
Proof. unfold shape, cst0. cbn [c_ip c_tcp c_ipopt c_tcpopt]. rewrite !repeat_length. repeat split; apply Forall_forall; intros x Hx; apply repeat_spec in Hx; subst; unfold byte; lia. Qed.
Lemma J_init n m k C D : 1 <= n <= 255 -> slhc_init m n = Some C -> slhc_init n k = Some D -> J C D [].
Proof.
  intros Hn HC HD. constructor; [eexists; eapply ring_init; eassumption|..]; unfold slhc_init in HC, HD; destruct (_ || _) in HC; try discriminate; destruct (_ || _) in HD; try discriminate;
    injection HC as <-; injection HD as <-; cbn [tx rx]; unfold zlen; rewrite ?repeat_length; try lia.
  - intros i Hi. rewrite ix_repeat. exact shape0.
  - intros i Hi. left. rewrite ix_repeat. reflexivity.
  - intros i j Hi Hj H. exfalso. apply H. rewrite ix_repeat. reflexivity.
Qed.

(** ** A link *)
Lemma link_ok room : 128 <= zlen room -> forall ps C D tr, J C D tr ->
  Forall (fun p => ipv4 p /\ (steady p -> exact p)) (map fst ps) -> ForallOrdPairs (fun q p => steady q -> steady p -> conn q = conn p -> follows q p) (map fst ps) ->
  (forall q l x p lost, In (q, l, x) tr -> In (p, lost) ps -> steady q -> steady p -> conn q = conn p -> follows q p) ->
  exists C' D' os, link room C D ps = Ok (C', D', os) /\ length os = length ps /\
    forall a p lost b a' idx o b', ps = a ++ (p, lost) :: b -> os = a' ++ (idx, o) :: b' -> length a = length a' ->
      (lost = true -> o = None) /\ (lost = false -> exists x, o = Some x) /\
      (lost = false -> (steady p -> in_step (conn p) ((p, lost, idx) :: trace a a' ++ tr)) -> o = Some p) /\ (idx = 0 <-> ~ steady p) /\ 0 <= idx <= 2.
Proof.
  intros Hroom. induction ps as [|[p lost] ps IH]; intros C D tr HJ HF HO HT.
  - exists C, D, []. split; [reflexivity|]. split; [reflexivity|]. intros a p lost b a' idx o b' E. destruct a; discriminate.
  - cbn [map fst] in *. inversion HF as [|? ? [F1 F2] F3]; subst. inversion HO as [|? ? O1 O2]; subst.
    destruct (hop_ok C D tr p lost room HJ Hroom F1 F2) as (C1 & D1 & idx & o & E1 & J1 & R1 & R2 & R3 & R4 & R5).
    { intros q l x Hq. apply (HT q l x p lost Hq). left. reflexivity. }
    destruct (IH C1 D1 ((p, lost, idx) :: tr) J1 F3 O2) as (C2 & D2 & os & E2 & L2 & P2).
    { intros q l x p2 lost2 [Hq|Hq] Hp2.
      - injection Hq as <- <- <-. rewrite Forall_forall in O1. apply O1. change p2 with (fst (p2, lost2)). apply in_map. exact Hp2.
      - apply (HT q l x p2 lost2 Hq). right. exact Hp2. }
    exists C2, D2, ((idx, o) :: os). split; [cbn [link]; rewrite E1; cbn [bind]; rewrite E2; reflexivity|]. split; [cbn [length]; lia|].
    intros a p2 lost2 b a' idx2 o2 b' Ha Hb Hl. destruct a as [|[q ql] a], a' as [|[x qo] a']; cbn [length] in Hl; try lia.
    + cbn [app] in *. injection Ha as <- <- <-. injection Hb as <- <- <-. cbn [trace combine map rev app]. auto.
    + cbn [app] in *. injection Ha as <- <- Ha. injection Hb as <- <- Hb.
      specialize (P2 a p2 lost2 b a' idx2 o2 b' Ha Hb ltac:(lia)). unfold trace in *. cbn [combine map rev fst]. rewrite <- app_assoc. exact P2.
Qed.

Lemma step_all k a : forall a' : list (Z * option (list Z)), Forall (fun x => snd x = false) a -> length a = length a' -> in_step k (trace a a').
Proof.
  induction a as [|x a IH] using rev_ind; intros a' Ha Hl; [constructor|].
  destruct a' as [|y a'] using rev_ind; [rewrite app_length in Hl; cbn in Hl; lia|]. clear IHa'. rewrite !app_length in Hl. cbn [length] in Hl. unfold trace. rewrite map_app.
  assert (combine (a ++ [x]) (map fst a' ++ map fst [y]) = combine a (map fst a') ++ [(x, fst y)]) as E.
  { assert (length a = length (map fst a')) as L by (rewrite map_length; lia). revert L. generalize (map fst a'). clear. induction a as [|z a IH]; intros [|w l] L; try discriminate; [reflexivity|]. cbn [app combine]. f_equal. apply IH. cbn in L. lia. }
  rewrite E, rev_app_distr. cbn [rev app]. apply Forall_app in Ha as [Ha Hx]. inversion Hx as [|? ? Hx1 _]; subst. destruct x as [q lost]. cbn [snd] in Hx1. subst. apply IS_next. apply IH; [exact Ha|lia].
Qed.

(** ** The cache *)
Definition holds (C : slc) (e : Z * option (list Z * list Z)) : Prop :=
  match snd e with None => fresh (ix cst0 (tx C) (fst e)) | Some k => key (ix cst0 (tx C) (fst e)) = k end.
Lemma hitb_holds C k e : holds C e -> fst k <> repeat 0 8 -> hitb C k (fst e) = (match snd e with Some k' => if conn_dec k k' then true else false | None => false end).
Proof.
  unfold holds. intros H N. destruct e as [i [k'|]]; cbn [fst snd] in *.
  - destruct (conn_dec k k') as [->|Ne]; [apply hitb_iff; symmetry; exact H|]. destruct (hitb C k i) eqn:E; [|reflexivity]. apply hitb_iff in E. exfalso. apply Ne. rewrite E. exact H.
  - destruct (hitb C k i) eqn:E; [|reflexivity]. apply hitb_iff in E. exfalso. apply N. rewrite E. exact H.
Qed.
Lemma take_miss k L : (forall e, In e L -> snd e <> Some k) -> take k L = None.
Proof.
  induction L as [|[i [k'|]] L IH]; intros H; [reflexivity| |].
  - cbn [take]. rewrite IH by (intros e He; apply H; right; exact He). destruct (list_eq_dec Z.eq_dec (fst k) (fst k')) as [E1|]; [|reflexivity]. destruct (list_eq_dec Z.eq_dec (snd k) (snd k')) as [E2|]; [|reflexivity].
    exfalso. apply (H (i, Some k')); [left; reflexivity|]. cbn [snd]. destruct k, k'; cbn [fst snd] in *; subst; reflexivity.
  - cbn [take]. rewrite IH by (intros e He; apply H; right; exact He). reflexivity.
Qed.
Lemma take_hit k L1 i L2 : (forall e, In e L1 -> snd e <> Some k) -> take k (L1 ++ (i, Some k) :: L2) = Some (i, L1 ++ L2).
Proof.
  induction L1 as [|[j [k'|]] L1 IH]; intros H.
  - cbn [app take]. destruct (list_eq_dec Z.eq_dec (fst k) (fst k)); [|congruence]. destruct (list_eq_dec Z.eq_dec (snd k) (snd k)); [reflexivity|congruence].
  - cbn [app take]. rewrite IH by (intros e He; apply H; right; exact He). destruct (list_eq_dec Z.eq_dec (fst k) (fst k')) as [E1|]; [|reflexivity]. destruct (list_eq_dec Z.eq_dec (snd k) (snd k')) as [E2|]; [|reflexivity].
    exfalso. apply (H (j, Some k')); [left; reflexivity|]. cbn [snd]. destruct k, k'; cbn [fst snd] in *; subst; reflexivity.
  - cbn [app take]. rewrite IH by (intros e He; apply H; right; exact He). reflexivity.
Qed.

Lemma map_fst_split (L : cache) l1 cs l2 : map fst L = l1 ++ cs :: l2 -> exists L1 v L2, L = L1 ++ (cs, v) :: L2 /\ map fst L1 = l1 /\ map fst L2 = l2.
Proof.
  revert L. induction l1 as [|a l1 IH]; intros L E; destruct L as [|[i v] L]; try discriminate.
  - cbn in E. injection E as -> E. exists [], v, L. auto.
  - cbn in E. injection E as -> E. destruct (IH L E) as (L1 & w & L2 & -> & E1 & E2). exists ((a, v) :: L1), w, L2. split; [reflexivity|]. split; [cbn; rewrite E1; reflexivity|exact E2].
Qed.

Definition usable (p : list Z) : Prop := ipv4 p /\ (steady p -> slice 12 8 p <> repeat 0 8).
Lemma send_step C L p : ring C (map fst L) -> Forall (holds C) L -> zlen (tx C) <= 255 -> usable p -> tx C <> [] ->
  exists C' d len idx, rfc1144_compress C p = Ok (C', d, len, idx) /\ zlen (tx C') = zlen (tx C) /\ length d = length p /\ 0 <= len <= zlen p /\
   ((~ steady p /\ idx = 0 /\ d = p /\ len = zlen p /\ C' = C) \/
    (steady p /\ (idx = 1 \/ idx = 2) /\ (idx = 2 -> In (Some (conn p)) (map snd L) /\ len + 21 <= zlen p) /\ (idx = 1 -> len = zlen p) /\
     place (firstn (Z.to_nat len) d, idx) = fst (lru_step (conn p) L) /\ ring C' (map fst (snd (lru_step (conn p) L))) /\ Forall (holds C') (snd (lru_step (conn p) L)) /\
     kept (ix cst0 (tx C') (fst (lru_step (conn p) L))) p)).
Proof.
  intros HR HH Hn [H4 HA] Hne. destruct (steady_dec p) as [Hst|Hst].
  2: { rewrite (send_other C p Hne H4 Hst). exists C, p, (zlen p), 0. split; [reflexivity|]. split; [reflexivity|]. split; [reflexivity|]. split; [pose proof (zlen_nonneg p); lia|]. left. auto. }
  specialize (HA Hst). assert (fst (conn p) <> repeat 0 8) as HA' by exact HA.
  assert ((20 <= hip p)%nat /\ (20 <= length p)%nat) as [Hhip Hlp] by (destruct H4 as (_ & _ & ? & _); lia).
  destruct (search_ring C (map fst L) (conn p) (tx C) 0 HR ltac:(lia) eq_refl) as (b & lcs & cs & l1 & l2 & S1 & S2 & S3 & S4 & S5 & S6 & _).
  assert (forall c', ring (after_tx C p b lcs cs c') (cs :: l1 ++ l2)) as Hrg.
  { intros c'. destruct (search_ring C (map fst L) (conn p) (upd (tx C) cs c') cs HR ltac:(lia) (upd_length _ _ _ S6)) as (b' & lcs' & cs' & l1' & l2' & S1' & S2' & S3' & S4' & S5' & S6' & S7').
    rewrite S1 in S1'. injection S1' as <- <- <-. assert (l1 = l1' /\ l2 = l2') as [-> ->].
    { pose proof (R_nd _ _ HR) as Hnd. rewrite S2' in S2. rewrite S2' in Hnd. clear - S2 Hnd. revert l1 S2. induction l1' as [|a l1' IH]; intros [|b l1] E; cbn [app] in E.
      - injection E as <-. auto.
      - injection E as <- E. exfalso. subst. inversion Hnd as [|? ? X _]; subst. apply X. apply in_or_app. right. left. reflexivity.
      - injection E as -> E. exfalso. subst. cbn [app] in Hnd. inversion Hnd as [|? ? X _]; subst. apply X. apply in_or_app. right. left. reflexivity.
      - injection E as -> E. inversion Hnd as [|? ? _ X]; subst. destruct (IH X l1 E) as [-> ->]. auto. }
    apply S7'. }
  destruct (map_fst_split L l1 cs l2 S2) as (L1 & v & L2 & EL & E1 & E2).
  assert (forall e, In e L1 -> snd e <> Some (conn p)) as HL1.
  { intros e He Ee. assert (hitb C (conn p) (fst e) = false) as X by (apply S3; rewrite <- E1; apply in_map; exact He).
    rewrite (hitb_holds C (conn p) e) in X; [|rewrite Forall_forall in HH; apply HH; rewrite EL; apply in_or_app; left; exact He|exact HA']. rewrite Ee in X. destruct (conn_dec (conn p) (conn p)); congruence. }
  assert (hitb C (conn p) cs = match v with Some k' => if conn_dec (conn p) k' then true else false | None => false end) as Hv.
  { apply (hitb_holds C (conn p) (cs, v)); [|exact HA']. rewrite Forall_forall in HH. apply HH. rewrite EL. apply in_or_app. right. left. reflexivity. }
  assert (lru_step (conn p) L = (cs, (cs, Some (conn p)) :: L1 ++ L2)) as Elru.
  { unfold lru_step. destruct b.
    - rewrite S4 in Hv. destruct v as [k'|]; [|discriminate]. destruct (conn_dec (conn p) k') as [<-|]; [|discriminate]. rewrite EL, take_hit by exact HL1. reflexivity.
    - assert (L2 = []) as -> by (apply (map_eq_nil fst); rewrite E2; exact (S5 eq_refl)). rewrite take_miss.
      + rewrite EL, last_last, removelast_last. cbn [fst]. rewrite app_nil_r. reflexivity.
      + rewrite EL. intros e He. apply in_app_or in He as [He|[<-|[]]]; [apply HL1, He|]. cbn [snd]. intros ->. rewrite S4 in Hv. destruct (conn_dec (conn p) (conn p)); congruence. }
  assert (Forall (fun e => fst e <> cs) (L1 ++ L2)) as Hoth.
  { pose proof (R_nd _ _ HR) as Hnd. rewrite EL, map_app in Hnd. cbn [map fst] in Hnd. apply NoDup_remove_2 in Hnd. rewrite Forall_forall. intros e He Ee. apply Hnd. rewrite <- map_app, <- Ee. apply in_map. exact He. }
  assert (forall c', c_ip c' = pip p -> c_tcp c' = pth p -> Forall (holds (after_tx C p b lcs cs c')) ((cs, Some (conn p)) :: L1 ++ L2)) as HHn.
  { intros c' K1 K2. constructor.
    - unfold holds. cbn [snd fst after_tx tx]. rewrite ix_upd_same by exact S6. unfold key. rewrite K1, K2. symmetry. apply conn_parts. lia.
    - rewrite Forall_forall in *. intros e He. unfold holds. cbn [after_tx tx]. rewrite ix_upd_other; [apply HH; rewrite EL; apply in_app_or in He as [He|He]; apply in_or_app; [left; exact He|right; right; exact He]|exact S6| |].
      + assert (In (fst e) (map fst L)) as Hin by (apply in_map; rewrite EL; apply in_app_or in He as [He|He]; apply in_or_app; [left; exact He|right; right; exact He]). apply (R_in _ _ HR) in Hin. lia.
      + intros Ee. apply (Hoth e He). symmetry. exact Ee. }
  rewrite Elru. cbn [fst snd map]. rewrite map_app, E1, E2.
  destruct (if b then delta (ix cst0 (tx C) cs) (pip p) (pio p) (pth p) (pto p) (Z.of_nat (hip p + htcp p)) else None) as [[ch seq]|] eqn:Ed.
  - destruct b; [|discriminate]. destruct (send_cmp C p lcs cs ch seq Hne H4 Hst S1 Ed) as (d & G1 & G2 & G3 & G4). rewrite G1.
    exists (after_tx C p true lcs cs (new_cmp C p cs)), d, (zlen (cmp_octets p ch cs seq)), 2. split; [reflexivity|]. split; [apply upd_zlen, S6|]. split; [exact G4|].
    split; [pose proof (zlen_nonneg (cmp_octets p ch cs seq)); lia|]. right. split; [exact Hst|]. split; [right; reflexivity|]. split; [intros _; split; [|lia]|].
    { rewrite S4 in Hv. destruct v as [k'|]; [|discriminate]. destruct (conn_dec (conn p) k') as [<-|]; [|discriminate]. rewrite EL, map_app. apply in_or_app. right. left. reflexivity. }
    split; [discriminate|]. split; [|split; [apply Hrg|split; [apply HHn; reflexivity|cbn [after_tx tx]; rewrite ix_upd_same by exact S6; eapply kept_cmp, Ed]]]. unfold place. cbn [snd fst]. change (2 =? 2) with true. cbv iota. unfold zlen. rewrite Nat2Z.id, G2. reflexivity.
  - rewrite (send_unc C p b lcs cs Hne H4 Hst S1 Ed).
    assert (length (ow p 9 [cs]) = length p) as Hl by (apply ow_length; cbn [length]; lia).
    exists (after_tx C p b lcs cs (new_unc C p cs)), (ow p 9 [cs]), (zlen p), 1. split; [reflexivity|]. split; [apply upd_zlen, S6|]. split; [exact Hl|].
    split; [pose proof (zlen_nonneg p); lia|]. right. split; [exact Hst|]. split; [left; reflexivity|]. split; [discriminate|]. split; [reflexivity|].
    split; [|split; [apply Hrg|split; [apply HHn; reflexivity|cbn [after_tx tx]; rewrite ix_upd_same by exact S6; apply kept_unc]]]. unfold place. cbn [snd fst]. change (1 =? 2) with false. cbv iota. unfold zlen. rewrite Nat2Z.id, <- Hl, firstn_all.
    unfold oct, ow. rewrite app_nth2; rewrite firstn_length; [|lia]. replace (9 - Nat.min 9 (length p))%nat with 0%nat by lia. reflexivity.
Qed.

Lemma sendall_ok : forall ps C L, ring C (map fst L) -> Forall (holds C) L -> zlen (tx C) <= 255 -> tx C <> [] -> Forall usable ps ->
  exists C' os, sendall C ps = Ok (C', os) /\ places L ps os /\ exists L', ring C' (map fst L') /\ Forall (holds C') L' /\ zlen (tx C') <= 255 /\ tx C' <> [].
Proof.
  induction ps as [|p ps IH]; intros C L HR HH Hn Hne HF; [exists C, []; split; [reflexivity|split; [exact I|exists L; auto]]|].
  inversion HF as [|? ? F1 F2]; subst. destruct (send_step C L p HR HH Hn F1 Hne) as (C1 & d & len & idx & E & Ez & Ld & Hl & [(N & -> & -> & -> & ->)|(S & X1 & X2 & X3 & X4 & X5 & X6 & _)]).
  - destruct (IH C L HR HH Hn Hne F2) as (C2 & os & E2 & P2 & PL). exists C2, ((p, 0) :: os). split; [|split; [|exact PL]].
    + cbn [sendall]. rewrite E. cbn [bind]. rewrite E2. cbn [bind]. unfold zlen. rewrite Nat2Z.id, firstn_all. reflexivity.
    + cbn [places]. left. auto.
  - destruct (IH C1 (snd (lru_step (conn p) L)) X5 X6 ltac:(lia)) as (C2 & os & E2 & P2 & PL); [intros Ex; rewrite Ex in Ez; unfold zlen in Ez; destruct (tx C); [congruence|cbn in Ez; lia]|exact F2|].
    exists C2, ((firstn (Z.to_nat len) d, idx) :: os). split; [cbn [sendall]; rewrite E; cbn [bind]; rewrite E2; reflexivity|split; [|exact PL]].
    cbn [places]. right. split; [exact S|]. cbn [snd]. split; [exact X1|]. split; [intros Hi; apply X2, Hi|]. split; [exact X4|exact P2].
Qed.
Lemma cache0_ok m n C : 1 <= n <= 255 -> slhc_init m n = Some C -> ring C (map fst (cache0 n)) /\ Forall (holds C) (cache0 n) /\ zlen (tx C) <= 255 /\ tx C <> [].
Proof.
  intros Hn HC. split; [|split; [|split]].
  - unfold cache0. rewrite map_map. cbn [fst]. rewrite map_id. eapply ring_init; eassumption.
  - unfold slhc_init in HC. destruct (_ || _); [discriminate|]. injection HC as <-. unfold cache0. rewrite Forall_forall. intros e He. apply in_map_iff in He as (i & <- & _). unfold holds. cbn [fst snd tx]. rewrite ix_repeat. reflexivity.
  - unfold slhc_init in HC. destruct (_ || _); [discriminate|]. injection HC as <-. cbn [tx]. unfold zlen. rewrite repeat_length. lia.
  - unfold slhc_init in HC. destruct (_ || _); [discriminate|]. injection HC as <-. cbn [tx]. destruct (Z.to_nat n) eqn:E; [lia|discriminate].
Qed.

(** ** Bulk transfer *)
Lemma nth_slice {A} (d : A) off n i l : (i < n)%nat -> nth i (slice off n l) d = nth (off + i) l d.
Proof. intros H. unfold slice. rewrite nth_firstn by exact H. apply nth_skipn. Qed.
Lemma at8_pth p i : (i < 20)%nat -> at8 (pth p) i = oct p (hip p + i).
Proof. exact (at_pth p i). Qed.

Lemma bulk_delta c q p : good p -> good q -> kept c q -> bulk q p ->
  exists m seq, delta c (pip p) (pio p) (pth p) (pto p) (Z.of_nat (hip p + htcp p)) = Some (m, seq) /\ seq = [].
Proof.
  intros Gp Gq (K1 & K2 & K3 & K4) (Bc & Bh & Bt & B0 & B1 & B6 & B8 & Bid & Bio & Bto & B12 & Bf & Bf' & Bw & Bu & Ba & Bs & Bd).
  pose proof (good_lens p Gp) as (L1 & L2 & _ & _ & _ & _). destruct Gq as (Q4 & QS & (QX & QL & _)). destruct Gp as (P4 & PS & (PX & PL & _)).
  unfold delta.
  assert (unchanged c (pip p) (pio p) (pth p) (pto p) = true) as ->.
  { unfold unchanged. rewrite K1, K2. rewrite !ihl_pip, !doff_pth, !at16_pip, !at_pip by lia. rewrite B0, B1, B6, B8, B12, !Z.eqb_refl. cbn [andb].
    assert (pio p = pio q) as Eio by exact Bio. assert (pto p = pto q) as Eto by exact Bto. rewrite Eio, Eto, K3, K4.
    destruct (list_eq_dec Z.eq_dec (pio q) (pio q)); [|congruence]. destruct (list_eq_dec Z.eq_dec (pto q) (pto q)); [reflexivity|congruence]. }
  cbn [negb]. cbv zeta. rewrite K1, K2.
  assert (tst (at8 (pth p) 13) 32 = false) as ->. { rewrite at_pth by lia. change (oct p (hip p + 13)) with (flags p). destruct Bf as [-> | ->]; reflexivity. }
  assert (forall r i, (i < 19)%nat -> at16 (pth r) i = num16 r (hip r + i)) as A16.
  { intros r i Hi. unfold at16, num16. rewrite !at_pth by lia. rewrite Nat.add_assoc. reflexivity. }
  assert (forall r i, (i < 17)%nat -> at32 (pth r) i = num32 r (hip r + i)) as A32.
  { intros r i Hi. unfold at32, num32. rewrite !A16 by lia. rewrite Nat.add_assoc. reflexivity. }
  rewrite !A16, !A32, !at16_pip by lia. rewrite Bu, Bw, Ba, Bid, !Z.eqb_refl. cbn [negb andb].
  replace (num32 q (hip q + 8) - num32 q (hip q + 8)) with 0 by lia. rewrite Z.mod_0_l by lia.
  set (dl := zlen q - Z.of_nat (hip q + htcp q)) in *.
  assert (0 <= dl <= 32767) as Hdl. { unfold dl. destruct Q4 as (_ & _ & _ & T). destruct (T (proj1 QS)) as [_ T2]. unfold zlen in *. lia. }
  assert ((num32 p (hip p + 4) - num32 q (hip q + 4)) mod 2 ^ 32 = dl) as ->. { rewrite Bs. change (2 ^ 32) with 4294967296. lia. }
  replace (65535 <? 0) with false by lia. replace (65535 <? dl) with false by lia. cbn [orb].
  rewrite Z.sub_diag. change (0 =? 0) with true. cbn [negb b2z app].
  replace (num16 q 4 + 1 - num16 q 4 =? 1) with true by lia. cbv iota.
  rewrite PX, QX, Bh, Bt.
  destruct (dl =? 0) eqn:Ed.
  - cbn [negb b2z]. change (0 * NEW_U + 0 * NEW_W + 0 * NEW_A + 0 * NEW_S) with 0. change (0 =? 0) with true. cbv iota.
    replace (zlen q =? Z.of_nat (hip q + htcp q)) with true by lia. replace (zlen p =? zlen q) with false. 2: { symmetry. rewrite <- Bh, <- Bt in *. lia. }
    cbn [negb andb]. do 2 eexists. split; reflexivity.
  - cbn [negb b2z]. change (0 * NEW_U + 0 * NEW_W + 0 * NEW_A + 1 * NEW_S) with 8. change (8 =? 0) with false. change ((8 =? SPECIAL_I) || (8 =? SPECIAL_D)) with false. change (8 =? NEW_S + NEW_A) with false. change (8 =? NEW_S) with true. cbv iota.
    fold dl. rewrite Z.eqb_refl. do 2 eexists. split; [reflexivity|reflexivity].
Qed.

Lemma bulk_send C L q p : ring C (map fst L) -> Forall (holds C) L -> zlen (tx C) <= 255 -> tx C <> [] -> good q -> good p -> bulk q p ->
  exists C1 d1 l1 i1 C2 d2, rfc1144_compress C q = Ok (C1, d1, l1, i1) /\ rfc1144_compress C1 p = Ok (C2, d2, zlen p - Z.of_nat (hip p + htcp p) + 4, 2) /\
    skipn 4 (firstn (Z.to_nat (zlen p - Z.of_nat (hip p + htcp p) + 4)) d2) = skipn (hip p + htcp p) p.
Proof.
  intros HR HH Hn Hne Gq Gp HB.
  destruct (send_step C L q HR HH Hn) as (C1 & d1 & l1 & i1 & E1 & Ez & _ & _ & [(N & _)|(S & _ & _ & _ & _ & X5 & X6 & X7)]); [split; [apply Gq|intros _; apply (good_addr q Gq)]|exact Hne|exfalso; apply N, Gq|].
  assert (tx C1 <> []) as Hne1. { intros Ex. rewrite Ex in Ez. unfold zlen in Ez. destruct (tx C); [congruence|cbn in Ez; lia]. }
  set (cs := fst (lru_step (conn q) L)) in *.
  assert (exists L', snd (lru_step (conn q) L) = (cs, Some (conn q)) :: L') as [L' EL]. { unfold cs, lru_step. destruct (take (conn q) L) as [[i r]|]; eexists; reflexivity. }
  rewrite EL in X5. cbn [map fst] in X5.
  assert (exists lcs, search 256 C1 (conn p) (oldest C1) (ix 0 (nxt C1) (oldest C1)) = Some (true, lcs, cs)) as [lcs Hse].
  { assert (ix 0 (nxt C1) (oldest C1) = cs) as -> by (rewrite (R_ol _ _ X5), (R_cl _ _ X5); reflexivity). exists (oldest C1). cbn [search].
    fold (hitb C1 (conn p) cs). assert (hitb C1 (conn p) cs = true) as ->; [|reflexivity]. apply hitb_iff. rewrite <- (proj1 HB). symmetry. exact (kept_key _ q Gq X7). }
  destruct (bulk_delta _ q p Gp Gq X7 HB) as (m & seq & Ed & ->).
  destruct (send_cmp C1 p lcs cs m [] Hne1 (proj1 Gp) (proj1 (proj2 Gp)) Hse Ed) as (d2 & E2 & F2 & _ & _).
  exists C1, d1, l1, i1, (after_tx C1 p true lcs cs (new_cmp C1 p cs)), d2. split; [exact E1|].
  assert (length (slice 16 2 (pth p)) = 2%nat) as Lck by (unfold slice; rewrite firstn_length, skipn_length; destruct (good_lens p Gp) as (_ & -> & _); lia).
  assert (zlen (cmp_octets p m cs []) = zlen p - Z.of_nat (hip p + htcp p) + 4) as El.
  { unfold cmp_octets. rewrite !zlen_app. cbn [zlen length app]. unfold zlen. rewrite Lck. unfold pdt. rewrite skipn_length. destruct Gp as ((_ & _ & _ & T) & (S1 & _) & _). destruct (T S1). cbn [length]. lia. }
  rewrite <- El. split; [exact E2|]. unfold zlen at 1. rewrite Nat2Z.id, F2. unfold cmp_octets. cbn [app]. destruct (slice 16 2 (pth p)) as [|a [|b [|]]]; try discriminate. reflexivity.
Qed.
