(** From the blocks on the air to the LLC frames: composition of the receiver with reassembly. *)
From Verif.Lib Require Import Base Outcome.
From Verif.Rlcmac Require Import DlRxModel DlRxSpec DlRxProofs RlcDataModel RlcDataSpec RlcDataProofs RlcDataProofs3.

Lemma lawful_wf b : lawful b -> n_wf b.
Proof.
  intros (Hw & Hl & Hs). split; [exact Hw|]. split; [lia|].
  destruct Hw as [Hseg _]. unfold n_octets, layout in Hl. rewrite !zlen_app in Hl.
  pose proof (zlen_nonneg (tail_data (n_tail b))). change (zlen (@nil Z)) with 0 in Hl.
  assert (He : zlen (n_segs b) <= zlen (exts (n_segs b) (n_tail b))).
  { clear. induction (n_segs b) as [|s r IH]; [apply zlen_nonneg|]. cbn [exts]. rewrite !zlen_cons. lia. }
  destruct (n_segs b) as [|s r]; [cbn; lia|]. cbn [tl] in Hs. cbn [concat] in Hl. rewrite zlen_app in Hl. rewrite zlen_cons in He. inversion Hseg; subst.
  assert (Hc : 5 * zlen r <= zlen (concat r)).
  { clear -Hs. induction Hs as [|x l Hx _ IH]; [cbn; lia|]. cbn [concat]. rewrite zlen_cons, zlen_app. lia. }
  cbn [length]. unfold zlen in *. lia.
Qed.

(** Blocks handed to reassembly. *)
Definition handed (o : list (rout rblk)) : list rblk :=
  flat_map (fun b => match b with Some b => [b] | None => [] end) (delivered o).

Lemma handed_some o (f : nat -> rblk) l : delivered o = map (fun i => Some (f i)) l -> handed o = map f l.
Proof. unfold handed. intros ->. induction l; cbn; [reflexivity|]. now f_equal. Qed.

Lemma flat_map_map {A B C} (f : A -> B) (g : B -> list C) l : flat_map g (map f l) = flat_map (fun x => g (f x)) l.
Proof. induction l; cbn; [reflexivity|]. now f_equal. Qed.

Lemma in_order_frames (blk : Z -> nblk) k :
  (forall n, 0 <= n -> lawful (blk n)) ->
  Forall (fun f => zlen f <= 1543) (fst (spelled blk k)) -> zlen (snd (spelled blk k)) <= 1543 ->
  exists rx, assemble_all None (map (fun i => n_stored (blk (Z.of_nat i))) (seq 0 k)) = Ok (rx, fst (spelled blk k)) /\ held rx = snd (spelled blk k).
Proof.
  intros Hw Hf Hr. set (bs := map (fun i => blk (Z.of_nat i)) (seq 0 k)).
  assert (Hsp : spelled blk k = join [] (flat_map n_pieces bs)) by (unfold spelled, bs; now rewrite flat_map_map).
  rewrite Hsp in *. destruct (assemble_all_spec bs None) as (rx & out & E & Ej).
  - unfold bs. apply Forall_map, Forall_forall. intros. apply lawful_wf, Hw. lia.
  - cbn [held]. apply fits_frames; assumption.
  - cbn [held] in Ej. rewrite Ej. cbn [fst snd]. exists rx. split; [|reflexivity].
    unfold bs in E. rewrite map_map in E. exact E.
Qed.

Lemma spelled_prefix blk k j : exists more, fst (spelled blk (k + j)) = fst (spelled blk k) ++ more.
Proof.
  unfold spelled. rewrite seq_app, flat_map_app, join_app. cbn [Nat.add].
  destruct (join [] (flat_map _ (seq 0 k))) as [f1 p1]. destruct (join p1 _) as [f2 p2]. exists f2. reflexivity.
Qed.

Theorem over_air_frames (blk : Z -> nblk) ns :
  (forall n, 0 <= n -> lawful (blk n)) ->
  (forall k, Forall (fun f => zlen f <= 1543) (fst (spelled blk k)) /\ zlen (snd (spelled blk k)) <= 1543) ->
  within k_last (fun n => n_stored (blk n)) ns ->
  exists x o k rx, rrun k_last rx_init (over_air (fun n => n_stored (blk n)) ns) = Ok (x, o) /\
    assemble_all None (handed o) = Ok (rx, fst (spelled blk k)) /\
    (forall n, 0 <= n < Z.of_nat k -> In n ns) /\ (no_jump ns -> gap ns (Z.of_nat k)).
Proof.
  intros Hw Hf Hin. destruct (c17 rblk k_last (fun n => n_stored (blk n)) ns Hin) as (x & o & k & H1 & H2 & H3 & H4).
  destruct (in_order_frames blk k Hw) as (rx & E & _); [apply Hf|apply Hf|].
  exists x, o, k, rx. split; [exact H1|]. split; [|split; [exact H3|exact H4]].
  rewrite (handed_some o (fun i => n_stored (blk (Z.of_nat i))) (seq 0 k) H2). exact E.
Qed.
