(** Property theorems about the downlink RLC receiver: C17, C18, C37, C38. *)
From Verif.Lib Require Import Base Outcome.
From Verif.Rlcmac Require Import DlRxModel DlRxSpec DlRxProofs.

(** A checkable form of the channel assumption, for concrete schedules. *)
Fixpoint within_b {B} (fbi : B -> bool) (blk : Z -> B) (x : rx B) (d : Z) (ns : list Z) : bool :=
  match ns with
  | [] => true
  | n :: r => (0 <=? n) && (d - 64 <=? n) && (n <? d + 64) &&
              match rcv fbi x (n mod 128) (blk n) with
              | Ok (x', o) => within_b fbi blk x' (d + zlen (delivered o)) r
              | _ => false
              end
  end.
Lemma within_b_ok_gen {B} (fbi : B -> bool) blk ns : forall x d, within_b fbi blk x d ns = true ->
  forall pre n post x' o, ns = pre ++ n :: post -> rrun fbi x (over_air blk pre) = Ok (x', o) ->
  0 <= n /\ d + zlen (delivered o) - 64 <= n < d + zlen (delivered o) + 64.
Proof.
  induction ns as [|m ns IH]; intros x d H pre n post x' o En Er; [destruct pre; discriminate|].
  cbn [within_b] in H. apply andb_true_iff in H as [H1 H2].
  destruct pre as [|m' pre]; cbn in En; injection En as <- En.
  - cbn in Er. injection Er as <- <-. change (zlen (delivered (@nil (rout B)))) with 0. lia.
  - cbn [over_air map rrun] in Er. destruct (rcv fbi x (m mod 128) (blk m)) as [[x1 o1]| |]; [|discriminate|discriminate].
    cbn [bind] in Er. fold (over_air blk pre) in Er. destruct (rrun fbi x1 (over_air blk pre)) as [[x2 o2]| |] eqn:E2; cbn [bind] in Er; try discriminate.
    injection Er as <- <-. pose proof (IH x1 _ H2 pre n post x2 o2 En E2).
    unfold delivered. rewrite flat_map_app, zlen_app. fold (delivered o1) (delivered o2). lia.
Qed.
Lemma within_b_ok {B} (fbi : B -> bool) blk ns : within_b fbi blk rx_init 0 ns = true -> within fbi blk ns.
Proof. intros H pre n post x o En Er. exact (within_b_ok_gen fbi blk ns rx_init 0 H pre n post x o En Er). Qed.
Fixpoint no_jump_b (t : Z) (ns : list Z) : bool :=
  match ns with [] => true | n :: r => (n <? t + 63) && no_jump_b (Z.max t (n + 1)) r end.
Lemma no_jump_b_gen ns : forall done, no_jump_b (top done) ns = true -> forall pre n post, ns = pre ++ n :: post -> n < top (done ++ pre) + 63.
Proof.
  induction ns as [|m ns IH]; intros done H pre n post En; [destruct pre; discriminate|]. cbn [no_jump_b] in H.
  apply andb_true_iff in H as [H1 H2]. destruct pre as [|m' pre]; cbn in En; injection En as <- En.
  - rewrite app_nil_r. lia.
  - replace (done ++ m :: pre) with ((done ++ [m]) ++ pre) by (rewrite <- app_assoc; reflexivity).
    apply (IH (done ++ [m])) with (post := post); [|exact En]. rewrite top_app. exact H2.
Qed.
Lemma no_jump_b_ok ns : no_jump_b 0 ns = true -> no_jump ns.
Proof. intros H pre n post En. exact (no_jump_b_gen ns [] H pre n post En). Qed.

Lemma run_check {B} (fbi : B -> bool) blk ns (P : rx B -> list (rout B) -> Prop) :
  match rrun fbi rx_init (over_air blk ns) with Ok (x, o) => P x o | _ => False end ->
  exists x o, rrun fbi rx_init (over_air blk ns) = Ok (x, o) /\ P x o.
Proof. destruct (rrun fbi rx_init (over_air blk ns)) as [[x o]| |]; [eauto|intros []|intros []]. Qed.

Definition ex_blk (n : Z) : Z := n + 1000.
Definition ex_fbi (last : Z) (b : Z) : bool := b =? last + 1000.
(** Losses, a repetition and reordering. *)
Definition ex_ns : list Z := [0; 2; 4; 2; 1; 5; 3; 0; 7].

(** *** C17: whatever is lost, repeated or reordered within the window, the blocks handed to reassembly are
    the blocks 0, 1, 2, ... of the network, in order, each once, none invented. *)
Theorem C17_in_order_once : forall (B : Type) (fbi : B -> bool) (blk : Z -> B) ns,
  within fbi blk ns ->
  exists x o k, rrun fbi rx_init (over_air blk ns) = Ok (x, o) /\
    delivered o = map (fun i => Some (blk (Z.of_nat i))) (seq 0 k) /\ (forall n, 0 <= n < Z.of_nat k -> In n ns).
Proof.
  intros B fbi blk ns Hw. destruct (c17 B fbi blk ns Hw) as (x & o & k & H1 & H2 & H3 & _).
  exists x, o, k. exact (conj H1 (conj H2 H3)).
Qed.
Print Assumptions C17_in_order_once.

Example C17_nonvacuous :
  within (ex_fbi 9) ex_blk ex_ns /\ no_jump ex_ns /\
  (exists x o, rrun (ex_fbi 9) rx_init (over_air ex_blk ex_ns) = Ok (x, o) /\
     delivered o = map Some [1000; 1001; 1002; 1003; 1004; 1005]) /\
  within (ex_fbi 200) ex_blk (zrange 200).
Proof.
  split; [apply within_b_ok; vm_compute; reflexivity|]. split; [apply no_jump_b_ok; vm_compute; reflexivity|].
  split; [eexists; eexists; vm_compute; split; reflexivity|]. apply within_b_ok; vm_compute; reflexivity.
Qed.

(** *** C37: as long as no block arrives 63 blocks ahead of all earlier ones, everything up to the first block
    that never arrived is delivered.  What is missing: see the refutation. *)
Theorem C37_everything_delivered_partial : forall (B : Type) (fbi : B -> bool) (blk : Z -> B) ns,
  within fbi blk ns -> no_jump ns ->
  exists x o k, rrun fbi rx_init (over_air blk ns) = Ok (x, o) /\ gap ns (Z.of_nat k) /\
    delivered o = map (fun i => Some (blk (Z.of_nat i))) (seq 0 k).
Proof.
  intros B fbi blk ns Hw Hn. destruct (c17 B fbi blk ns Hw) as (x & o & k & H1 & H2 & _ & H4).
  exists x, o, k. exact (conj H1 (conj (H4 Hn) H2)).
Qed.
Print Assumptions C37_everything_delivered_partial.

Example C37_nonvacuous : gap ex_ns 6.
Proof. split; [lia|]. split; [intros n Hn; assert (H : In n (zrange 6)) by (apply zrange_In; lia); vm_compute in H; unfold ex_ns; cbn; tauto|cbn; lia]. Qed.

(** Block 63 arrives first, then 0 to 62, then 63 over and over: all 64 blocks have arrived, 63 are delivered
    and block 63 is neither delivered nor reported, for ever. *)
Theorem C37_everything_delivered_refuted :
  exists ns, within (fun _ : Z => false) ex_blk ns /\ (forall n, 0 <= n < 64 -> In n ns) /\
    forall k, exists x o, rrun (fun _ => false) rx_init (over_air ex_blk (ns ++ repeat 63 k)) = Ok (x, o) /\
      delivered o = map (fun i => Some (ex_blk (Z.of_nat i))) (seq 0 63) /\ fst (ack_desc (x_w x)) = 63.
Proof.
  exists (63 :: zrange 63). split; [apply within_b_ok; vm_compute; reflexivity|]. split.
  - intros n Hn. destruct (Z.eq_dec n 63) as [->|]; [left; reflexivity|]. right. apply zrange_In. lia.
  - intros k.
    destruct (rrun (fun _ => false) rx_init (over_air ex_blk (63 :: zrange 63))) as [[x o]| |] eqn:E; [|vm_compute in E; discriminate|vm_compute in E; discriminate].
    assert (Ho : delivered o = map (fun i => Some (ex_blk (Z.of_nat i))) (seq 0 63)) by (vm_compute in E; injection E as _ <-; vm_compute; reflexivity).
    assert (Hst : rcv (fun _ => false) x 63 (ex_blk 63) = Ok (x, []) /\ fst (ack_desc (x_w x)) = 63).
    { vm_compute in E. injection E as <- _. split; vm_compute; reflexivity. }
    exists x, o. split; [|split; [exact Ho|apply Hst]].
    unfold over_air. rewrite map_app, rrun_app. fold (over_air ex_blk (63 :: zrange 63)). rewrite E. cbn [bind].
    assert (Hr : rrun (fun _ => false) x (map (fun n => (n mod 128, ex_blk n)) (repeat 63 k)) = Ok (x, [])).
    { induction k as [|k IH]; [reflexivity|]. cbn [repeat map rrun]. change (63 mod 128) with 63. rewrite (proj1 Hst). cbn [bind]. rewrite IH. reflexivity. }
    rewrite Hr. cbn [bind]. now rewrite app_nil_r.
Qed.
Print Assumptions C37_everything_delivered_refuted.

(** *** C38: the end of the downlink TBF is only signalled once a block marked final and everything before it
    was delivered; and it is signalled when all blocks up to the final one have arrived. *)
Theorem C38_finished_means_delivered : forall (B : Type) (fbi : B -> bool) (blk : Z -> B) ns x o,
  within fbi blk ns -> rrun fbi rx_init (over_air blk ns) = Ok (x, o) ->
  In Finished o -> exists f, 0 <= f < zlen (delivered o) /\ fbi (blk f) = true.
Proof. exact finished_sound. Qed.
Print Assumptions C38_finished_means_delivered.
Theorem C38_finished_is_signalled_partial : forall (B : Type) (fbi : B -> bool) (blk : Z -> B) ns f,
  within fbi blk ns -> no_jump ns -> gap ns (f + 1) -> (forall n, In n ns -> n <= f) -> 0 <= f -> fbi (blk f) = true ->
  exists x o, rrun fbi rx_init (over_air blk ns) = Ok (x, o) /\ In Finished o /\
    delivered o = map (fun i => Some (blk (Z.of_nat i))) (seq 0 (Z.to_nat (f + 1))).
Proof. exact finished_complete. Qed.
Print Assumptions C38_finished_is_signalled_partial.

Example C38_nonvacuous :
  let ns := [0; 2; 1; 3; 1] in
  within (ex_fbi 3) ex_blk ns /\ no_jump ns /\ gap ns 4 /\
  exists x o, rrun (ex_fbi 3) rx_init (over_air ex_blk ns) = Ok (x, o) /\ In Finished o.
Proof.
  cbv zeta. split; [apply within_b_ok; vm_compute; reflexivity|]. split; [apply no_jump_b_ok; vm_compute; reflexivity|].
  split. { split; [lia|]. split; [intros n Hn; assert (H : In n (zrange 4)) by (apply zrange_In; lia); vm_compute in H; cbn; tauto|cbn; lia]. }
  eexists. eexists. split; [vm_compute; reflexivity|]. cbn. tauto.
Qed.

(** *** C18: the report carries V(R) as starting sequence number and, for the 64 numbers below it, a one only
    for a block that was received and is stored; every delivered block among them is reported; and as long
    as no block arrives 63 ahead of all earlier ones a one stands for exactly the blocks that arrived. *)
Theorem C18_report_truthful_partial : forall (B : Type) (fbi : B -> bool) (blk : Z -> B) ns, within fbi blk ns ->
  exists x o R, rrun fbi rx_init (over_air blk ns) = Ok (x, o) /\
    let d := zlen (delivered o) in
    let report := ack_desc (x_w x) in
    d <= R <= d + 64 /\ fst report = R mod 128 /\ length (snd report) = 8%nat /\ bytes (snd report) /\
    (forall j, 0 <= j < 64 -> let n := R - 1 - j in
      (Z.testbit (big_endian (snd report)) j = true -> 0 <= n /\ In n ns /\ x_store x (n mod 128) = Some (blk n)) /\
      (0 <= n < d -> Z.testbit (big_endian (snd report)) j = true)) /\
    (no_jump ns -> R = top ns /\ forall j, 0 <= j < 64 -> (Z.testbit (big_endian (snd report)) j = true <-> In (R - 1 - j) ns)).
Proof. exact c18. Qed.
Print Assumptions C18_report_truthful_partial.

Example C18_nonvacuous :
  exists x o, rrun (ex_fbi 9) rx_init (over_air ex_blk ex_ns) = Ok (x, o) /\ ack_desc (x_w x) = (8, [0; 0; 0; 0; 0; 0; 0; 253]).
Proof.
  apply (@run_check Z (ex_fbi 9) ex_blk ex_ns (fun x o => ack_desc (x_w x) = (8, [0; 0; 0; 0; 0; 0; 0; 253]))). vm_compute. reflexivity.
Qed.

(** Block 63 arrives first, then 0, 1 and 64: block 63 is stored but reported as missing. *)
Theorem C18_report_exact_refuted :
  exists ns x o, within (fun _ : Z => false) ex_blk ns /\ rrun (fun _ => false) rx_init (over_air ex_blk ns) = Ok (x, o) /\
    In 63 ns /\ x_store x 63 = Some (ex_blk 63) /\ fst (ack_desc (x_w x)) = 65 /\
    Z.testbit (big_endian (snd (ack_desc (x_w x)))) (65 - 1 - 63) = false.
Proof.
  exists [63; 0; 1; 64].
  destruct (@run_check Z (fun _ => false) ex_blk [63; 0; 1; 64] (fun x o =>
    x_store x 63 = Some (ex_blk 63) /\ fst (ack_desc (x_w x)) = 65 /\
    Z.testbit (big_endian (snd (ack_desc (x_w x)))) (65 - 1 - 63) = false)) as (x & o & E & H1 & H2 & H3); [vm_compute; auto|].
  exists x, o. split; [apply within_b_ok; vm_compute; reflexivity|]. split; [exact E|]. split; [left; reflexivity|]. auto.
Qed.
Print Assumptions C18_report_exact_refuted.
