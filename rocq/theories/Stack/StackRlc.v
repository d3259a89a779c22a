(** Proofs about SNDCP on top of LLC on top of RLC. *)
From Verif.Lib Require Import Base Outcome.
From Verif.Sndcp Require SndcpModel.
From Verif.Llc Require LlcModel LlcSpec.
From Verif.Rlcmac Require RlcDataModel RlcDataSpec RlcDataProofs RlcDataProofs4 RlcDataProperties DlRxModel DlRxSpec.
From Verif.Stack Require Import StackSpec StackProofs.

Lemma take_prefix es er t sapi n A B v npdus : LlcSpec.user_sapi sapi -> LlcModel.e_tlli_ok er t = true -> 0 <= n < 16 -> 0 <= v < 512 ->
  can_send A t sapi n v -> can_receive B t sapi n v -> Forall usual npdus ->
  exists A' fss, give_all es A t sapi n npdus = Ok (A', map (fun f => (f, 0)) fss) /\ length fss = length npdus /\
    Forall (fun f => f <> []) fss /\ Forall (fun x => 1 <= zlen x <= 1543) (concat fss) /\
    forall fs more, concat fss = fs ++ more ->
    exists B' j, take_all er B t fs = Ok (B', map (SndcpModel.SnUnitdataInd t sapi n) (firstn j npdus)) /\
      (forall i, (i <= length fss)%nat -> (length (concat (firstn i fss)) <= length fs)%nat -> (i <= j)%nat).
Proof.
  intros Hu Ht Hn Hv HA HB Hx. destruct (transfer_ok es er t sapi n A B v npdus Hu Ht Hn Hv HA HB Hx) as (A' & fss & E & L & NE & SZ & T).
  exists A', fss. split; [exact E|]. split; [exact L|]. split; [exact NE|]. split; [exact SZ|]. intros fs more EQ. symmetry in EQ.
  destruct (prefix_keep fss fs more EQ NE) as (keep & j & K1 & K2 & K3 & K4 & K5 & K6).
  destruct (T keep K1 ltac:(rewrite K2; apply losses_prefix; lia) K3) as (B' & ET). exists B', j. split; [|exact K6].
  rewrite K5, kept_true in ET by lia. rewrite K2, kept_true in ET by (rewrite <- EQ, app_length; lia). rewrite <- EQ, firstn_app, firstn_all, Nat.sub_diag, firstn_O, app_nil_r in ET. exact ET.
Qed.

Lemma join_part l : forall p fs q, RlcDataSpec.join p l = (fs, q) -> (exists f, In f fs /\ zlen p <= zlen f) \/ zlen p <= zlen q.
Proof.
  induction l as [|[d b] r IH]; intros p fs q H; cbn [RlcDataSpec.join] in H; [injection H as <- <-; right; lia|].
  pose proof (zlen_nonneg d). destruct b.
  - destruct (RlcDataSpec.join [] r) as [f2 q2]. injection H as <- <-. left. exists (p ++ d). split; [left; reflexivity|]. rewrite zlen_app. lia.
  - destruct (IH _ _ _ H) as [(f & Hf & Hl)|Hl]; rewrite zlen_app in Hl; [left; exists f; split; [exact Hf|lia]|right; lia].
Qed.

(** The first blocks of those sent. *)
Lemma spelled_blocks bs k : RlcDataSpec.spelled (nblock bs) k = RlcDataSpec.join [] (flat_map RlcDataSpec.n_pieces (firstn k bs ++ repeat spare (k - length bs))).
Proof.
  unfold RlcDataSpec.spelled. f_equal. induction k as [|k IH]; [reflexivity|]. rewrite seq_S, flat_map_app, IH. cbn [flat_map Nat.add]. rewrite app_nil_r. unfold nblock. rewrite Nat2Z.id.
  destruct (le_lt_dec (length bs) k) as [H|H].
  - rewrite !firstn_all2 by lia. replace (S k - length bs)%nat with (k - length bs + 1)%nat by lia. rewrite repeat_app, nth_overflow by lia. rewrite !flat_map_app, <- app_assoc. reflexivity.
  - replace (S k - length bs)%nat with 0%nat by lia. replace (k - length bs)%nat with 0%nat by lia. cbn [repeat]. rewrite !app_nil_r.
    transitivity (flat_map RlcDataSpec.n_pieces (firstn k bs ++ [nth k bs spare])); [rewrite flat_map_app; cbn [flat_map]; rewrite app_nil_r; reflexivity|]. f_equal.
    clear IH. revert k H. induction bs as [|b r IH]; intros [|k] H; cbn [length] in H; try lia; [reflexivity|]. cbn [firstn app nth]. rewrite IH by lia. reflexivity.
Qed.
Lemma spare_lawful : RlcDataSpec.lawful spare.
Proof. split; [split; [repeat constructor; vm_compute; discriminate|discriminate]|]. split; [vm_compute; discriminate|]. constructor. Qed.
Lemma nblock_lawful bs m : Forall RlcDataSpec.lawful bs -> RlcDataSpec.lawful (nblock bs m).
Proof.
  intros H. unfold nblock. destruct (le_lt_dec (length bs) (Z.to_nat m)) as [Hl|Hl]; [rewrite nth_overflow by lia; apply spare_lawful|].
  rewrite Forall_forall in H. apply H, nth_In, Hl.
Qed.
Lemma spare_join k : RlcDataSpec.join [] (flat_map RlcDataSpec.n_pieces (repeat spare k)) = (repeat (repeat 0 8) k, []).
Proof. induction k as [|k IH]; [reflexivity|]. cbn [repeat flat_map]. rewrite RlcDataProofs.join_app.
  change (RlcDataSpec.join [] (RlcDataSpec.n_pieces spare)) with ([repeat 0 8], @nil Z). cbv beta iota. rewrite IH. reflexivity. Qed.

Lemma spelled_upto bs fs k : RlcDataSpec.join [] (flat_map RlcDataSpec.n_pieces bs) = (fs, []) -> (k <= length bs)%nat ->
  exists more, fs = fst (RlcDataSpec.spelled (nblock bs) k) ++ more /\
    ((exists f, In f fs /\ zlen (snd (RlcDataSpec.spelled (nblock bs) k)) <= zlen f) \/ zlen (snd (RlcDataSpec.spelled (nblock bs) k)) <= 0) /\ (k = length bs -> more = []).
Proof.
  intros HJ Hk. rewrite spelled_blocks. replace (k - length bs)%nat with 0%nat by lia. cbn [repeat]. rewrite app_nil_r.
  pose proof HJ as HJ0. rewrite <- (firstn_skipn k bs), flat_map_app, RlcDataProofs.join_app in HJ. destruct (RlcDataSpec.join [] (flat_map RlcDataSpec.n_pieces (firstn k bs))) as [f1 p1] eqn:E1.
  destruct (RlcDataSpec.join p1 (flat_map RlcDataSpec.n_pieces (skipn k bs))) as [f2 p2] eqn:E2. injection HJ as <- ->. exists f2. cbn [fst snd]. split; [reflexivity|]. split.
  - destruct (join_part _ _ _ _ E2) as [(f & Hf & Hl)|Hl]; [left; exists f; split; [apply in_or_app; right; exact Hf|exact Hl]|right; exact Hl].
  - intros ->. rewrite skipn_all in E2. cbn [flat_map RlcDataSpec.join] in E2. congruence.
Qed.

Lemma down_ok bs fs ns : Forall RlcDataSpec.lawful bs -> RlcDataSpec.join [] (flat_map RlcDataSpec.n_pieces bs) = (fs, []) -> Forall (fun f => zlen f <= 1543) fs ->
  Forall (fun m => 0 <= m < zlen bs) ns -> DlRxSpec.within RlcDataModel.k_last (fun m => RlcDataSpec.n_stored (nblock bs m)) ns ->
  exists x o rx got more, DlRxModel.rrun RlcDataModel.k_last DlRxModel.rx_init (DlRxSpec.over_air (fun m => RlcDataSpec.n_stored (nblock bs m)) ns) = Ok (x, o) /\
    RlcDataModel.assemble_all None (RlcDataProofs4.handed o) = Ok (rx, got) /\ fs = got ++ more /\
    (DlRxSpec.no_jump ns -> (forall m, 0 <= m < zlen bs -> In m ns) -> more = []).
Proof.
  intros HB HJ HS HN HW. destruct (RlcDataProperties.C29_frames_reassembled (nblock bs) ns) as (x & o & k & rx & E1 & E2 & Hin & Hgap).
  - intros m _. apply nblock_lawful, HB.
  - intros k. destruct (le_lt_dec k (length bs)) as [Hk|Hk].
    + destruct (spelled_upto bs fs k HJ Hk) as (more & -> & Hp & _). apply Forall_app in HS as [HS1 HS2]. split; [exact HS1|].
      destruct Hp as [(f & Hf & Hl)|Hl]; [|lia]. assert (zlen f <= 1543); [|lia]. apply in_app_or in Hf. rewrite Forall_forall in HS1, HS2. destruct Hf; auto.
    + rewrite spelled_blocks, firstn_all2, flat_map_app, RlcDataProofs.join_app, HJ by lia. cbv beta iota. rewrite spare_join. cbn [fst snd]. split; [|vm_compute; discriminate].
      apply Forall_app. split; [exact HS|]. apply Forall_forall. intros f Hf. apply repeat_spec in Hf as ->. vm_compute. discriminate.
  - exact HW.
  - assert (k <= length bs)%nat as Hk.
    { destruct (le_lt_dec k (length bs)) as [H|H]; [exact H|]. specialize (Hin (zlen bs) ltac:(unfold zlen; lia)). rewrite Forall_forall in HN. specialize (HN _ Hin). lia. }
    destruct (spelled_upto bs fs k HJ Hk) as (more & Hm & _ & Hall). exists x, o, rx, (fst (RlcDataSpec.spelled (nblock bs) k)), more. split; [exact E1|]. split; [exact E2|]. split; [exact Hm|].
    intros Hj Ha. apply Hall. destruct (Hgap Hj) as (_ & _ & Hno). unfold zlen in *. assert (~ Z.of_nat k < Z.of_nat (length bs)) by (intros H; apply Hno, Ha; lia). lia.
Qed.
