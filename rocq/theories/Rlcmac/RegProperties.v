(** C123: a TLLI belongs to one entity.  C124: the octet count of a channel request. *)
From Coq Require Import ZArith List Bool Lia.
From Verif Require Import Lib.Base Lib.Outcome Rlcmac.LlcQueueModel Rlcmac.CcchModel Rlcmac.RegModel Rlcmac.RegSpec.
Import ListNotations.
Open Scope Z_scope.

Definition ids_of (k : option (Z * list Z)) : Z * list Z := match k with Some k => k | None => (RESERVED_TMSI, []) end.
Definition agree (r : reg) (b : book) : Prop :=
  fresh b = r_next r /\ NoDup (map fst (r_list r)) /\
  (forall g e, In (g, e) (r_list r) -> g < r_next r /\ e_tlli e <> UNASSIGNED /\ (e_ptmsi e, e_imsi e) = ids_of (known b g) /\ (length (e_imsi e) <= 15)%nat) /\
  (forall t g, t <> UNASSIGNED -> (owner b t = Some g <-> exists e, In (g, e) (r_list r) /\ named t e = true)).

Lemma find_owner : forall r b t, agree r b -> t <> UNASSIGNED -> find_tlli r t = owner b t.
Proof.
  intros r b t (_ & _ & _ & R) T. unfold find_tlli.
  destruct (find _ (r_list r)) as [[g e]|] eqn:F; cbn.
  - destruct (find_some _ _ F) as [I N]. cbn in N. symmetry. apply R; eauto.
  - destruct (owner b t) as [g|] eqn:O; [|reflexivity]. apply R in O; auto. destruct O as (e & I & N).
    pose proof (find_none _ _ F _ I) as X. cbn in X. congruence.
Qed.
Lemma named_one : forall t u p i, t <> UNASSIGNED -> named t (mkEnt u UNASSIGNED p i) = true <-> t = u.
Proof.
  intros. unfold named. cbn [e_tlli e_old_tlli]. rewrite orb_true_iff, !Z.eqb_eq. intuition congruence.
Qed.
Lemma NoDup_fun : forall (l : list (Z * ent)) g e e', NoDup (map fst l) -> In (g, e) l -> In (g, e') l -> e = e'.
Proof.
  induction l as [|[h x] l IH]; cbn; intros g e e' N I I'; [easy|]. inversion N; subst.
  destruct I as [E|I], I' as [E'|I'].
  - congruence.
  - exfalso. inversion E; subst. apply H1. apply (in_map fst) in I'. exact I'.
  - exfalso. inversion E'; subst. apply H1. apply (in_map fst) in I. exact I.
  - eauto.
Qed.
Lemma NoDup_snoc : forall (l : list Z) x, NoDup l -> ~ In x l -> NoDup (l ++ [x]).
Proof.
  induction l; cbn; intros x N I; [constructor; auto; constructor|]. inversion N; subst. constructor.
  - intros J. apply in_app_or in J. destruct J as [J|[J|[]]]; [auto|]. subst. apply I. now left.
  - apply IHl; auto.
Qed.
Lemma map_fst_upd : forall l g f, map fst (map (fun x : Z * ent => if fst x =? g then (fst x, f (snd x)) else x) l) = map fst l.
Proof. intros. rewrite map_map. apply map_ext. intros [h x]. cbn. destruct (h =? g); reflexivity. Qed.
Lemma in_upd : forall l g f h e, In (h, e) (map (fun x : Z * ent => if fst x =? g then (fst x, f (snd x)) else x) l) <->
  (h = g /\ exists e', In (g, e') l /\ e = f e') \/ (h <> g /\ In (h, e) l).
Proof.
  intros. rewrite in_map_iff. split.
  - intros ([k x] & E & I). cbn in E. destruct (Z.eqb_spec k g).
    + inversion E; subst. left. eauto.
    + inversion E; subst. auto.
  - intros [(-> & e' & I & ->)|(N & I)].
    + exists (g, e'). cbn. rewrite Z.eqb_refl. auto.
    + exists (h, e). cbn. destruct (Z.eqb_spec h g); [congruence|auto].
Qed.
Lemma entered : forall r b t p i k, agree r b -> t <> UNASSIGNED -> owner b t = None -> (p, i) = ids_of k -> (length i <= 15)%nat ->
  agree (mkReg (r_list r ++ [(r_next r, mkEnt t UNASSIGNED p i)]) (r_next r + 1)) (learn (enter b t) (fresh b) k).
Proof.
  intros r b t p i k (F & N & K & R) T O HK LI. unfold agree. cbn [r_list r_next enter learn fresh owner known].
  assert (NI : ~ In (r_next r) (map fst (r_list r))).
  { intros J. apply in_map_iff in J. destruct J as ([h x] & E & I). cbn in E. subst. apply K in I. lia. }
  split; [lia|]. split; [rewrite map_app; apply NoDup_snoc; auto|]. split.
  - intros g e I. apply in_app_or in I. destruct I as [I|[E|[]]].
    + destruct (K _ _ I) as (A & B & C & D). repeat split; auto; [lia|].
      destruct (Z.eqb_spec g (fresh b)); [lia|]. exact C.
    + inversion E; subst. cbn. rewrite F, Z.eqb_refl. repeat split; auto; lia.
  - intros u g U. unfold give. destruct (Z.eqb_spec u t) as [->|NE].
    + split.
      * intros E. inversion E; subst. rewrite F. eexists. split; [apply in_or_app; right; left; reflexivity|]. now apply named_one.
      * intros (e & I & M). apply in_app_or in I. destruct I as [I|[E|[]]].
        -- assert (owner b t = Some g) by (apply R; eauto). congruence.
        -- inversion E; subst. congruence.
    + rewrite R by auto. split.
      * intros (e & I & M). exists e. split; auto. apply in_or_app. auto.
      * intros (e & I & M). apply in_app_or in I. destruct I as [I|[E|[]]]; [eauto|].
        inversion E; subst. apply named_one in M; auto. contradiction.
Qed.
Lemma upd_new : forall r t p i, NoDup (map fst (r_list r)) -> (forall g e, In (g, e) (r_list r) -> g < r_next r) ->
  entity_upd (entity_alloc r t) (r_next r) (set_ids p i) = mkReg (r_list r ++ [(r_next r, mkEnt t UNASSIGNED p (firstn 15 i))]) (r_next r + 1).
Proof.
  intros r t p i _ K. unfold entity_upd, entity_alloc. cbn [r_list r_next]. rewrite map_app. cbn [map fst snd]. rewrite Z.eqb_refl.
  f_equal. f_equal. rewrite <- map_id. apply map_ext_in. intros [h x] I. cbn. apply K in I. destruct (Z.eqb_spec h (r_next r)); [lia|reflexivity].
Qed.
Lemma dropped : forall r b g, agree r b -> agree (entity_free r g) (drop b g).
Proof.
  intros r b g (F & N & K & R). unfold agree, entity_free, drop. cbn [r_list r_next fresh owner known].
  split; auto. split.
  - clear - N. induction (r_list r) as [|[h x] l IH]; cbn; [constructor|]. cbn in N. inversion N; subst.
    destruct (negb (h =? g)); cbn; auto. constructor; auto.
    intros I. apply H1. apply in_map_iff in I. destruct I as (y & E & I). apply filter_In in I. rewrite <- E. now apply in_map.
  - split.
    + intros h e I. apply filter_In in I. apply K. tauto.
    + intros t h T. unfold mine. destruct (owner b t) as [k|] eqn:O.
      * pose proof (proj1 (R t k T) O) as (e & I & M). destruct (Z.eqb_spec k g) as [->|NE].
        -- split; [easy|]. intros (e' & I' & M'). apply filter_In in I'. destruct I' as [I' X]. cbn in X.
           assert (owner b t = Some h) by (apply R; eauto). rewrite O in H. inversion H; subst. rewrite Z.eqb_refl in X. easy.
        -- split.
           ++ intros E. inversion E; subst. exists e. split; auto. apply filter_In. split; auto. cbn.
              destruct (Z.eqb_spec h g); [congruence|reflexivity].
           ++ intros (e' & I' & M'). apply filter_In in I'. rewrite <- O. apply R; auto. exists e'. tauto.
      * split; [easy|]. intros (e' & I' & M'). apply filter_In in I'.
        assert (owner b t = Some h) by (apply R; auto; exists e'; tauto). congruence.
Qed.
Lemma updated : forall r b g o n p i, agree r b -> o <> UNASSIGNED -> n <> UNASSIGNED -> owner b o = Some g ->
  owner b n = None \/ owner b n = Some g -> (length i <= 15)%nat ->
  agree (entity_upd r g (fun e => set_ids p i (mkEnt n o (e_ptmsi e) (e_imsi e))))
        (learn (mkBook (fun x => if (x =? o) || (x =? n) then Some g else owner (drop b g) x) (known b) (fresh b)) g (Some (p, i))).
Proof.
  intros r b g o n p i (F & N & K & R) O' N' O D L.
  remember (fun e => set_ids p i (mkEnt n o (e_ptmsi e) (e_imsi e))) as f eqn:Hf.
  unfold agree, entity_upd. cbn [r_list r_next learn fresh owner known].
  split; auto. split; [rewrite map_fst_upd; auto|]. split.
  - intros h e I. apply in_upd in I. destruct I as [(-> & e' & I & ->)|(NE & I)].
    + destruct (K _ _ I) as (A & B & C & E). rewrite Hf. unfold set_ids. cbn [e_tlli e_ptmsi e_imsi]. rewrite Z.eqb_refl.
      rewrite firstn_all2 by lia. repeat split; auto.
    + destruct (K _ _ I) as (A & B & C & E). destruct (Z.eqb_spec h g); [congruence|]. auto.
  - intros t h T. pose proof (proj1 (R o g O') O) as (e0 & I0 & M0).
    destruct ((t =? o) || (t =? n)) eqn:Q.
    + split.
      * intros E. injection E as E'. rewrite <- E'. exists (f e0). split; [apply in_upd; left; eauto|].
        rewrite Hf. unfold named, set_ids. cbn [e_tlli e_old_tlli]. rewrite (Z.eqb_sym n), (Z.eqb_sym o). rewrite orb_comm. exact Q.
      * intros (e & I & M). apply in_upd in I. destruct I as [(-> & _)|(NE & I)]; [reflexivity|].
        assert (X : owner b t = Some h) by (apply R; eauto).
        apply orb_true_iff in Q. rewrite !Z.eqb_eq in Q. destruct Q as [Q|Q]; rewrite Q in *; [congruence|]. destruct D; congruence.
    + cbn [drop owner]. unfold mine. split.
      * intros E. destruct (owner b t) as [k|] eqn:OT; [|easy]. destruct (Z.eqb_spec k g); [easy|]. injection E as E'. rewrite E' in *.
        apply R in OT; auto. destruct OT as (e & I & M). exists e. split; auto. apply in_upd. auto.
      * intros (e & I & M). apply in_upd in I. destruct I as [(-> & e' & I & ->)|(NE & I)].
        -- exfalso. rewrite Hf in M. unfold named, set_ids in M. cbn [e_tlli e_old_tlli] in M. rewrite (Z.eqb_sym n), (Z.eqb_sym o), orb_comm in M. congruence.
        -- assert (X : owner b t = Some h) by (apply R; eauto). rewrite X. destruct (Z.eqb_spec h g); [congruence|reflexivity].
Qed.

Lemma step_agrees : forall r b q, agree r b -> in_order b q ->
  fst (rstep r q) = fst (bstep b q) /\ agree (snd (rstep r q)) (snd (bstep b q)).
Proof.
  intros r b q A Q. assert (A' := A). destruct A' as (F & N & K & _). destruct q as [o n p i|t]; cbn [rstep bstep in_order] in *.
  - unfold assign_req. destruct Q as [L Q]. destruct (Z.eqb_spec o UNASSIGNED) as [->|O].
    + destruct (Z.eqb_spec n UNASSIGNED) as [->|N']; [split; [reflexivity|exact A]|].
      rewrite (find_owner _ _ _ A N'). destruct (owner b n) eqn:ON; [split; [reflexivity|exact A]|].
      split; [reflexivity|]. cbn [snd]. rewrite upd_new by (auto; intros; apply K in H; lia).
      rewrite firstn_all2 by lia.
      exact (entered r b n p i (Some (p, i)) A N' ON eq_refl L).
    + rewrite (find_owner _ _ _ A O). destruct (owner b o) as [g|] eqn:OO; [|split; [reflexivity|exact A]].
      destruct (Z.eqb_spec n UNASSIGNED) as [->|N'].
      * split; [reflexivity|]. now apply dropped.
      * split; [reflexivity|]. cbn [snd]. apply updated; auto. apply Q; auto. congruence.
  - unfold unitdata_req. rewrite (find_owner _ _ _ A Q). destruct (owner b t) as [g|] eqn:OT; [split; [reflexivity|exact A]|].
    cbn [fst snd]. split; [rewrite F; reflexivity|].
    pose proof (entered r b t RESERVED_TMSI [] None A Q OT eq_refl (Nat.le_0_l _)) as E.
    destruct E as (E1 & E2 & E3 & E4). split; [exact E1|]. split; [exact E2|]. split; [|exact E4].
    intros g e I. destruct (E3 g e I) as (X1 & X2 & X3 & X4).
    split; [exact X1|]. split; [exact X2|]. split; [|exact X4]. rewrite X3. cbn.
    destruct (g =? fresh b); reflexivity.
Qed.
Lemma start_agrees : agree reg0 book0.
Proof.
  split; [reflexivity|]. split; [constructor|]. split; [intros g e []|]. intros t g _. split; [easy|]. intros (e & [] & _).
Qed.
Lemma run_agrees : forall l r b, agree r b -> all_in_order b l ->
  fst (rrun r l) = fst (brun b l) /\ agree (snd (rrun r l)) (snd (brun b l)).
Proof.
  induction l as [|q l IH]; intros r b A O; [split; [reflexivity|exact A]|]. cbn [all_in_order] in O. destruct O as [Q O].
  destruct (step_agrees _ _ _ A Q) as [E A1]. cbn [rrun brun].
  destruct (rstep r q) as [x r1]. destruct (bstep b q) as [y b1]. cbn [fst snd] in *. subst y.
  destruct (IH _ _ A1 O) as [E2 A2]. destruct (rrun r1 l), (brun b1 l). cbn [fst snd] in *. subst. auto.
Qed.

(** C123, for requests in order: whatever GMM and LLC ask for, every return value and every destination of a frame is that of the
    book; and a TLLI is found to be its owner's afterwards. *)
Theorem C123_one_owner_partial : forall l, all_in_order book0 l ->
  fst (rrun reg0 l) = fst (brun book0 l) /\
  forall t, t <> UNASSIGNED -> find_tlli (snd (rrun reg0 l)) t = owner (snd (brun book0 l)) t.
Proof.
  intros l O. destruct (run_agrees l _ _ start_agrees O) as [E A]. split; [exact E|]. intros t T. now apply find_owner.
Qed.

Lemma eqs_eq : forall a b, eqs a b = true <-> a = b.
Proof.
  induction a as [|x a IH]; intros [|y b]; cbn; try (split; easy). rewrite andb_true_iff, Z.eqb_eq, IH.
  split; [intros []; congruence|]. intros E. inversion E. auto.
Qed.
Lemma agree_alive : forall r b g, agree r b -> (alive b g <-> exists e, In (g, e) (r_list r)).
Proof.
  intros r b g (_ & _ & K & R). split.
  - intros (t & T & O). apply R in O; auto. destruct O as (e & I & _). eauto.
  - intros (e & I). exists (e_tlli e). destruct (K _ _ I) as (_ & T & _). split; auto. apply R; auto. exists e. split; auto.
    unfold named. now rewrite Z.eqb_refl.
Qed.
(** C123, paging: by P-TMSI or IMSI RLC/MAC finds a mobile if one was last assigned that identity, and only such a mobile. *)
Theorem C123_paged_partial : forall l, all_in_order book0 l -> let r := snd (rrun reg0 l) in let b := snd (brun book0 l) in
  (forall p, p <> RESERVED_TMSI ->
     match find_ptmsi r p with
     | Some g => alive b g /\ exists i, known b g = Some (p, i)
     | None => forall g i, alive b g -> known b g <> Some (p, i)
     end) /\
  (forall i, i <> [] -> (length i <= 15)%nat ->
     match find_imsi r i with
     | Some g => alive b g /\ exists p, known b g = Some (p, i)
     | None => forall g p, alive b g -> known b g <> Some (p, i)
     end).
Proof.
  intros l O r b. destruct (run_agrees l _ _ start_agrees O) as [_ A]. fold r b in A. clearbody r b.
  assert (AL := fun g => agree_alive r b g A). destruct A as (_ & _ & K & _). split.
  - intros p P. unfold find_ptmsi. destruct (find _ (r_list r)) as [[g e]|] eqn:F; cbn [option_map fst].
    + destruct (find_some _ _ F) as [I M]. cbn in M. apply Z.eqb_eq in M. split; [apply AL; eauto|].
      destruct (K _ _ I) as (_ & _ & E & _). destruct (known b g) as [[p' i']|]; cbn in E; inversion E; subst; [eauto|congruence].
    + intros g i G Kg. apply AL in G. destruct G as (e & I). destruct (K _ _ I) as (_ & _ & E & _). rewrite Kg in E. cbn in E.
      pose proof (find_none _ _ F _ I) as X. cbn in X. inversion E. apply Z.eqb_neq in X. congruence.
  - intros i NI L. unfold find_imsi. rewrite firstn_all2 by lia. destruct (find _ (r_list r)) as [[g e]|] eqn:F; cbn [option_map fst].
    + destruct (find_some _ _ F) as [I M]. cbn in M. apply eqs_eq in M. split; [apply AL; eauto|].
      destruct (K _ _ I) as (_ & _ & E & _). destruct (known b g) as [[p' i']|]; cbn in E; inversion E; subst; [eauto|congruence].
    + intros g p G Kg. apply AL in G. destruct G as (e & I). destruct (K _ _ I) as (_ & _ & E & _). rewrite Kg in E. cbn in E.
      pose proof (find_none _ _ F _ I) as X. cbn in X. inversion E. assert (eqs (e_imsi e) i = true) by (now apply eqs_eq). congruence.
Qed.

(** C123 refuted: a mobile given the TLLI of another is not told so, two have it then, and a frame for it goes to the other one;
    a frame for "no TLLI" goes to whoever has no old TLLI; paging for the reserved P-TMSI finds a mobile that was never assigned
    one. *)
Definition twice : list req := [Assign UNASSIGNED 1 10 [2; 6; 2]; Assign UNASSIGNED 2 20 [2; 6; 3]; Assign 2 1 20 [2; 6; 3]].
Theorem C123_one_owner_refuted :
  (fst (rrun reg0 twice) = [Ret 0; Ret 0; Ret 0] /\
   map (fun x => (fst x, e_tlli (snd x))) (r_list (snd (rrun reg0 twice))) = [(1, 1); (2, 1)] /\
   fst (rstep (snd (rrun reg0 twice)) (Frame 1)) = To 1 /\ fst (bstep (snd (brun book0 twice)) (Frame 1)) = To 2) /\
  fst (rrun reg0 [Assign UNASSIGNED 1 10 [2; 6; 2]; Frame UNASSIGNED]) = [Ret 0; To 1] /\
  find_ptmsi (snd (rrun reg0 [Frame 7])) RESERVED_TMSI = Some 1.
Proof. repeat split. Qed.

(** Non-vacuity: two mobiles, one changes its TLLI twice, the other ends; its TLLI is free again. *)
Definition history : list req :=
  [Assign UNASSIGNED 1 10 [2; 6; 2]; Frame 5; Assign 1 3 11 [2; 6; 2]; Frame 1; Assign 3 4 12 [2; 6; 2]; Frame 1; Frame 5;
   Assign 4 UNASSIGNED 0 []; Assign UNASSIGNED 4 13 [2; 6; 4]; Assign UNASSIGNED 5 0 []; Assign 3 9 0 []].
Example C123_case : all_in_order book0 history /\
  fst (rrun reg0 history) = [Ret 0; To 2; Ret 0; To 1; Ret 0; To 3; To 2; Ret 0; Ret 0; Ret (-22); Ret (-2)] /\
  find_ptmsi (snd (rrun reg0 history)) 13 = Some 4 /\ find_imsi (snd (rrun reg0 history)) [2; 6; 4] = Some 4 /\
  find_ptmsi (snd (rrun reg0 history)) 12 = None.
Proof.
  split; [|repeat split]. cbn.
  repeat split; try discriminate; try lia; try (intros; left; reflexivity); try (intros; right; reflexivity).
  all: intros; try congruence.
Qed.

(** C124: the octet count of the channel request is one octet more than its length for every frame that waits, whatever its
    priority and SAPI, and at most 65535. *)
Definition weight (l : list entry) : Z := fold_right (fun e a => 1 + zlen (e_data e) + a) 0 l.
Definition sound (e : entry) : Prop := 0 < zlen (e_data e) < 2 ^ 31.
Lemma weight_nonneg : forall l, 0 <= weight l.
Proof. induction l; cbn [weight fold_right]; [lia|]. pose proof (zlen_nonneg (e_data a)). unfold weight in IHl. lia. Qed.
Lemma count_frames_spec : forall l c, 0 <= c < 65535 -> Forall sound l ->
  count_frames l c = Ok (if 65535 <=? c + weight l then inl 65535 else inr (c + weight l)).
Proof.
  induction l as [|e l IH]; intros c C B; cbn [count_frames weight fold_right].
  - destruct (Z.leb_spec 65535 (c + 0)); [lia|]. do 2 f_equal. lia.
  - inversion B; subst. unfold sound in *. destruct (Z.eqb_spec (zlen (e_data e)) 0); [lia|]. rewrite Z.mod_small by lia.
    pose proof (weight_nonneg l). fold (weight l). destruct (Z.leb_spec 65535 (c + 1 + zlen (e_data e))).
    + destruct (Z.leb_spec 65535 (c + (1 + zlen (e_data e) + weight l))); [reflexivity|lia].
    + rewrite IH by (auto; lia). replace (c + 1 + zlen (e_data e) + weight l) with (c + (1 + zlen (e_data e) + weight l)) by lia. reflexivity.
Qed.
Lemma weight_app : forall a b, weight (a ++ b) = weight a + weight b.
Proof. induction a as [|x a IH]; intros; cbn [weight fold_right app]; [reflexivity|]. fold (weight (a ++ b)) (weight a). rewrite IH. lia. Qed.
Lemma count_classes_spec : forall l c, 0 <= c < 65535 -> Forall sound (flat_map pc_queue l) ->
  count_classes l c = Ok (Z.min 65535 (c + weight (flat_map pc_queue l))).
Proof.
  induction l as [|p l IH]; intros c C B; cbn [count_classes flat_map] in *.
  - cbn [weight fold_right]. rewrite Z.mod_small by lia. f_equal. lia.
  - apply Forall_app in B. destruct B as [B1 B2]. rewrite (count_frames_spec _ _ C B1), weight_app. cbn [bind].
    pose proof (weight_nonneg (pc_queue p)). pose proof (weight_nonneg (flat_map pc_queue l)).
    destruct (Z.leb_spec 65535 (c + weight (pc_queue p))); [f_equal; lia|]. rewrite IH by (auto; lia). f_equal. lia.
Qed.
Theorem C124_octet_count_partial : forall q,
  (forall p e, In p (q_pq q) -> In e (pc_queue p) -> 0 < zlen (e_data e) < 2 ^ 31) ->
  octet_count q = Ok (Z.min 65535 (fold_right (fun e a => 1 + zlen (e_data e) + a) 0 (flat_map pc_queue (q_pq q)))).
Proof.
  intros q B. unfold octet_count. rewrite count_classes_spec; [reflexivity|lia|].
  apply Forall_forall. intros e I. apply in_flat_map in I. destruct I as (p & P & I). exact (B p e P I).
Qed.

(** C124 for what the user sent: the frames handed to a new entity, each with a SAPI and a radio priority. *)
Definition frame := (Z * list Z * Z * Z)%type.   (* when, octets, SAPI, radio priority from 0 *)
Definition send_all (l : list frame) : llcq :=
  fold_left (fun q f => let '(now, d, sapi, prio) := f in enqueue q now d sapi prio) l queue_alloc.
Lemma upd_weight : forall l k now d, (k < length l)%nat ->
  weight (flat_map pc_queue (upd l k (fun p => mkClass (pc_codel p) (pc_queue p ++ [mkEntry now d])))) = weight (flat_map pc_queue l) + 1 + zlen d.
Proof.
  induction l as [|p l IH]; intros k now d K; [cbn in K; lia|]. destruct k; cbn [upd flat_map pc_queue]; rewrite !weight_app.
  - cbn [weight fold_right e_data]. lia.
  - rewrite IH by (cbn in K; lia). lia.
Qed.
Lemma upd_len : forall A (l : list A) k f, length (upd l k f) = length l.
Proof. induction l; intros [|k] f; cbn; auto. Qed.
Lemma upd_sound : forall l k now d, Forall sound (flat_map pc_queue l) -> 0 < zlen d < 2 ^ 31 ->
  Forall sound (flat_map pc_queue (upd l k (fun p => mkClass (pc_codel p) (pc_queue p ++ [mkEntry now d])))).
Proof.
  induction l as [|p l IH]; intros k now d S D; [constructor|]. cbn [flat_map] in S. apply Forall_app in S. destruct S as [S1 S2].
  destruct k; cbn [upd flat_map pc_queue]; rewrite !Forall_app; repeat split; auto.
Qed.
Lemma sapi2prio_range : forall s, 0 <= sapi2prio s <= 2.
Proof. intros. unfold sapi2prio. destruct (s =? 1); [lia|]. destruct (_ || _); lia. Qed.
Theorem C124_sent_partial : forall l,
  (forall now d sapi prio, In (now, d, sapi, prio) l -> 0 < zlen d < 2 ^ 31 /\ 0 <= prio <= 3) ->
  octet_count (send_all l) = Ok (Z.min 65535 (fold_right (fun f a => 1 + zlen (snd (fst (fst f))) + a) 0 l)).
Proof.
  intros l H. unfold send_all.
  assert (G : forall l q w, length (q_pq q) = 12%nat -> Forall sound (flat_map pc_queue (q_pq q)) -> weight (flat_map pc_queue (q_pq q)) = w ->
    (forall now d sapi prio, In (now, d, sapi, prio) l -> 0 < zlen d < 2 ^ 31 /\ 0 <= prio <= 3) ->
    octet_count (fold_left (fun q f => let '(now, d, sapi, prio) := f in enqueue q now d sapi prio) l q) =
    Ok (Z.min 65535 (w + fold_right (fun f a => 1 + zlen (snd (fst (fst f))) + a) 0 l))).
  { clear. induction l as [|[[[now d] sapi] prio] l IH]; intros q w L S W H; cbn [fold_left fold_right fst snd].
    - unfold octet_count. rewrite count_classes_spec by (auto; lia). rewrite W. f_equal. f_equal. lia.
    - destruct (H now d sapi prio (or_introl eq_refl)) as [D P]. pose proof (sapi2prio_range sapi).
      rewrite (IH _ (w + 1 + zlen d)).
      + f_equal. f_equal. lia.
      + unfold enqueue. cbn [q_pq]. now rewrite upd_len.
      + unfold enqueue. cbn [q_pq]. now apply upd_sound.
      + unfold enqueue. cbn [q_pq]. rewrite upd_weight by lia. lia.
      + intros. apply (H now0 d0 sapi0 prio0). now right. }
  rewrite (G l queue_alloc 0); auto; cbn; constructor.
Qed.
(** C124 refuted: the count is undefined once an empty frame waits (finding 24 has the same for taking it out). *)
Theorem C124_octet_count_refuted : octet_count (send_all [(0, [], 3, 0)]) = UB.
Proof. reflexivity. Qed.
Example C124_case : octet_count (send_all [(0, [1; 2; 3], 3, 2); (5, [4], 1, 0); (6, [5; 6], 7, 3)]) = Ok 9 /\ octet_count queue_alloc = Ok 0.
Proof. split; reflexivity. Qed.

Print Assumptions C123_one_owner_partial.
Print Assumptions C123_paged_partial.
Print Assumptions C123_one_owner_refuted.
Print Assumptions C124_octet_count_partial.
Print Assumptions C124_sent_partial.
Print Assumptions C124_octet_count_refuted.
