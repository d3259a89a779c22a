(** SNDCP on top of LLC, and on top of LLC and RLC: what one end is given, the other hands out. *)
From Verif.Lib Require Import Base Outcome.
From Verif.Sndcp Require SndcpModel SndcpSpec SndcpLift SndcpProperties.
From Verif.Llc Require LlcModel LlcSpec LlcProperties.
From Verif.Rlcmac Require RlcDataModel RlcDataSpec RlcDataProofs4 RlcDataProperties DlRxModel DlRxSpec DlRxProperties.
From Verif.Stack Require Import StackSpec StackProofs StackRlc.

(** *** C108: frames get lost between the two ends.  [fss]: the frames of each N-PDU; [keep]: which of them arrive.  The N-PDUs all of
    whose frames arrive are handed out, unchanged, in order and once, and nothing else is. *)
Theorem C108_stack_partial : forall es er t sapi n A B v npdus,
  LlcSpec.user_sapi sapi -> LlcModel.e_tlli_ok er t = true -> 0 <= n < 16 -> 0 <= v < 512 ->
  can_send A t sapi n v -> can_receive B t sapi n v -> Forall usual npdus ->
  exists A' fss, give_all es A t sapi n npdus = Ok (A', map (fun f => (f, 0)) fss) /\ length fss = length npdus /\
    forall keep, Forall2 (fun k (f : list (list Z)) => length k = length f) keep fss -> LlcSpec.losses_below 480 0 (concat keep) -> Forall first_first keep ->
    exists B', take_all er B t (LlcSpec.kept (concat keep) (concat fss)) = Ok (B', map (SndcpModel.SnUnitdataInd t sapi n) (LlcSpec.kept (map all_there keep) npdus)).
Proof.
  intros es er t sapi n A B v npdus H1 H2 H3 H4 H5 H6 H7. destruct (transfer_ok es er t sapi n A B v npdus H1 H2 H3 H4 H5 H6 H7) as (A' & fss & E & L & _ & _ & T).
  exists A', fss. auto.
Qed.
Print Assumptions C108_stack_partial.

(** Both ends have just activated NSAPI 5 over SAPI 3 and agreed on 140 octets in SNDCP. *)
Definition end_a : node := mkNode SndcpProperties.c140 [LlcModel.llme_alloc SndcpProperties.tl].
Definition ms : LlcModel.env := LlcModel.mkenv LlcModel.LOC_MS (fun _ => true).
Definition sgsn : LlcModel.env := LlcModel.mkenv LlcModel.LOC_SGSN (fun _ => true).
Lemma end_sends : can_send end_a SndcpProperties.tl 3 5 0.
Proof.
  split; [apply SndcpProperties.reach_after|]. eexists. exists 500. split; [vm_compute; reflexivity|]. split; [vm_compute; split; discriminate|]. split; [vm_compute; split; discriminate|].
  exists 0%nat. eexists. vm_compute. auto 10.
Qed.
Lemma end_receives : can_receive end_a SndcpProperties.tl 3 5 0.
Proof. split; [apply SndcpProperties.reach_after|]. split; [vm_compute; discriminate|]. exists 0%nat. eexists. vm_compute. auto 10. Qed.

Definition given (r : res (node * list (list (list Z) * Z))) : list (list (list Z)) := match r with Ok (_, l) => map fst l | _ => [] end.
Definition taken (r : res (node * list SndcpModel.out)) : option (list SndcpModel.out) := match r with Ok (_, o) => Some o | _ => None end.

(** Three N-PDUs of 3, 1 and 2 frames; the third frame of the first one is lost. *)
Definition three : list (list Z) := [repeat 10 300; [1; 2; 3]; repeat 30 200].
Example C108_case : Forall usual three /\
  let fss := given (give_all ms end_a SndcpProperties.tl 3 5 three) in
  let keep := [[true; true; false]; [true]; [true; true]] in
  map (@length _) fss = [3; 1; 2]%nat /\ LlcSpec.losses_below 480 0 (concat keep) /\ Forall first_first keep /\
  taken (take_all sgsn end_a SndcpProperties.tl (LlcSpec.kept (concat keep) (concat fss))) =
    Some (map (SndcpModel.SnUnitdataInd SndcpProperties.tl 3 5) [[1; 2; 3]; repeat 30 200]).
Proof.
  split.
  { assert (forall k b, 0 <= b < 256 -> (1 <= k <= 1503)%nat -> usual (repeat b k)) as U.
    { intros k b Hb Hk. split; [|unfold zlen; rewrite repeat_length; lia]. apply Forall_forall. intros y Hy. apply repeat_spec in Hy as ->. exact Hb. }
    constructor; [apply U; lia|]. constructor; [split; [repeat constructor; unfold byte; lia|vm_compute; split; discriminate]|]. constructor; [apply U; lia|constructor]. }
  intros fss keep. split; [vm_compute; reflexivity|]. split; [cbn; lia|]. split; [repeat constructor|]. vm_compute. reflexivity.
Qed.

(** With any frames lost instead the claim is false: the last frame of one N-PDU and the first of the next are lost, and the two N-PDUs
    become one that nobody sent. *)
Theorem C108_mixed_refuted : exists A B t npdus keep x, can_send A t 3 5 0 /\ can_receive B t 3 5 0 /\ Forall usual npdus /\
  let fss := given (give_all ms A t 3 5 npdus) in
  Forall2 (fun k (f : list (list Z)) => length k = length f) keep fss /\ LlcSpec.losses_below 2 0 (concat keep) /\
  taken (take_all sgsn B t (LlcSpec.kept (concat keep) (concat fss))) = Some [SndcpModel.SnUnitdataInd t 3 5 x] /\ ~ In x npdus.
Proof.
  exists end_a, end_a, SndcpProperties.tl, [repeat 10 200; repeat 20 200], [[true; false]; [false; true]], (repeat 10 136 ++ repeat 20 64).
  split; [apply end_sends|]. split; [apply end_receives|]. split.
  { assert (forall b, 0 <= b < 256 -> usual (repeat b 200)) as U.
    { intros b Hb. split; [|vm_compute; split; discriminate]. apply Forall_forall. intros y Hy. apply repeat_spec in Hy as ->. exact Hb. }
    constructor; [apply U; lia|]. constructor; [apply U; lia|constructor]. }
  split; [vm_compute; repeat constructor|]. split; [cbn; lia|]. split; [vm_compute; reflexivity|]. intros [H|[H|[]]]; discriminate H.
Qed.
Print Assumptions C108_mixed_refuted.

(** *** C109: downlink.  The network cuts the frames into blocks [bs] as TS 44.060 has it; [ns] are the blocks that arrive at the mobile,
    in this order, some repeated, some not at all.  The mobile hands out the N-PDUs up to some point, unchanged, in order and once; all of them
    if all blocks arrive. *)
Theorem C109_downlink : forall es er t sapi n A B v npdus,
  LlcSpec.user_sapi sapi -> LlcModel.e_tlli_ok er t = true -> 0 <= n < 16 -> 0 <= v < 512 ->
  can_send A t sapi n v -> can_receive B t sapi n v -> Forall usual npdus ->
  exists A' fss, give_all es A t sapi n npdus = Ok (A', map (fun f => (f, 0)) fss) /\ length fss = length npdus /\
    forall bs ns, Forall RlcDataSpec.lawful bs -> RlcDataSpec.join [] (flat_map RlcDataSpec.n_pieces bs) = (concat fss, []) ->
      Forall (fun m => 0 <= m < zlen bs) ns -> DlRxSpec.within RlcDataModel.k_last (fun m => RlcDataSpec.n_stored (nblock bs m)) ns ->
    exists x o rx fs B' j,
      DlRxModel.rrun RlcDataModel.k_last DlRxModel.rx_init (DlRxSpec.over_air (fun m => RlcDataSpec.n_stored (nblock bs m)) ns) = Ok (x, o) /\
      RlcDataModel.assemble_all None (RlcDataProofs4.handed o) = Ok (rx, fs) /\
      take_all er B t fs = Ok (B', map (SndcpModel.SnUnitdataInd t sapi n) (firstn j npdus)) /\
      (forall i, (i <= length npdus)%nat -> (length (concat (firstn i fss)) <= length fs)%nat -> (i <= j)%nat) /\
      (DlRxSpec.no_jump ns -> (forall m, 0 <= m < zlen bs -> In m ns) -> firstn j npdus = npdus).
Proof.
  intros es er t sapi n A B v npdus H1 H2 H3 H4 H5 H6 H7. destruct (take_prefix es er t sapi n A B v npdus H1 H2 H3 H4 H5 H6 H7) as (A' & fss & E & L & NE & SZ & T).
  exists A', fss. split; [exact E|]. split; [exact L|]. intros bs ns HB HJ HN HW.
  assert (Forall (fun f => zlen f <= 1543) (concat fss)) as SZ' by (eapply Forall_impl; [|exact SZ]; cbn beta; intros f Hf; lia).
  destruct (down_ok bs (concat fss) ns HB HJ SZ' HN HW) as (x & o & rx & fs & more & E1 & E2 & E3 & E4). destruct (T fs more E3) as (B' & j & ET & EJ).
  exists x, o, rx, fs, B', j. split; [exact E1|]. split; [exact E2|]. split; [exact ET|]. rewrite <- L. split; [exact EJ|]. intros Hj Ha. specialize (E4 Hj Ha). subst more.
  rewrite app_nil_r in E3. apply firstn_all2. rewrite <- L. apply EJ; [lia|]. rewrite firstn_all, E3. lia.
Qed.
Print Assumptions C109_downlink.

(** Two N-PDUs in three blocks; the second block arrives first and the first one twice. *)
Definition two : list (list Z) := [[1; 2; 3]; [4; 5; 6; 7; 8; 9]].
Definition two_fs : list (list Z) := concat (given (give_all sgsn end_a SndcpProperties.tl 3 5 two)).
Definition two_bs : list RlcDataSpec.nblk :=
  [RlcDataSpec.mknblk false [] (RlcDataSpec.TCont (firstn 10 (nth 0 two_fs [])));
   RlcDataSpec.mknblk false [skipn 10 (nth 0 two_fs [])] (RlcDataSpec.TCont (firstn 8 (nth 1 two_fs [])));
   RlcDataSpec.mknblk true [skipn 8 (nth 1 two_fs [])] (RlcDataSpec.TFill [43])].
Definition two_blk (m : Z) : RlcDataModel.rblk := RlcDataSpec.n_stored (nblock two_bs m).
Example C109_case : Forall RlcDataSpec.lawful two_bs /\ RlcDataSpec.join [] (flat_map RlcDataSpec.n_pieces two_bs) = (two_fs, []) /\
  DlRxSpec.within RlcDataModel.k_last two_blk [1; 0; 0; 2] /\ DlRxSpec.no_jump [1; 0; 0; 2] /\
  exists x o, DlRxModel.rrun RlcDataModel.k_last DlRxModel.rx_init (DlRxSpec.over_air two_blk [1; 0; 0; 2]) = Ok (x, o) /\
    match RlcDataModel.assemble_all None (RlcDataProofs4.handed o) with
    | Ok (_, fs) => taken (take_all ms end_a SndcpProperties.tl fs) = Some (map (SndcpModel.SnUnitdataInd SndcpProperties.tl 3 5) two)
    | _ => False
    end.
Proof.
  split.
  { repeat (constructor; [split; [split; [repeat constructor; vm_compute; discriminate|discriminate]|split; [vm_compute; discriminate|repeat constructor]]|]). constructor. }
  split; [vm_compute; reflexivity|]. split; [apply DlRxProperties.within_b_ok; vm_compute; reflexivity|]. split; [apply DlRxProperties.no_jump_b_ok; vm_compute; reflexivity|].
  apply (DlRxProperties.run_check RlcDataModel.k_last two_blk [1; 0; 0; 2]
    (fun x o => match RlcDataModel.assemble_all None (RlcDataProofs4.handed o) with
    | Ok (_, fs) => taken (take_all ms end_a SndcpProperties.tl fs) = Some (map (SndcpModel.SnUnitdataInd SndcpProperties.tl 3 5) two)
    | _ => False
    end)). vm_compute. reflexivity.
Qed.

(** *** C110: uplink.  The mobile builds blocks of any sizes from the frames ([RlcDataSpec.transfer]); the network reads them.  It hands out
    the N-PDUs up to some point, unchanged, in order and once; all of them when the mobile has nothing left to send. *)
Theorem C110_uplink : forall es er t sapi n A B v npdus,
  LlcSpec.user_sapi sapi -> LlcModel.e_tlli_ok er t = true -> 0 <= n < 16 -> 0 <= v < 512 ->
  can_send A t sapi n v -> can_receive B t sapi n v -> Forall usual npdus ->
  exists A' fss, give_all es A t sapi n npdus = Ok (A', map (fun f => (f, 0)) fss) /\ length fss = length npdus /\
    forall blks pend, RlcDataSpec.transfer (concat fss) blks pend ->
    exists pieces fs part B' j, RlcDataSpec.read_all blks = Ok pieces /\ RlcDataSpec.join [] pieces = (fs, part) /\
      take_all er B t fs = Ok (B', map (SndcpModel.SnUnitdataInd t sapi n) (firstn j npdus)) /\
      (forall i, (i <= length npdus)%nat -> (length (concat (firstn i fss)) <= length fs)%nat -> (i <= j)%nat) /\
      (pend = [] -> firstn j npdus = npdus).
Proof.
  intros es er t sapi n A B v npdus H1 H2 H3 H4 H5 H6 H7. destruct (take_prefix es er t sapi n A B v npdus H1 H2 H3 H4 H5 H6 H7) as (A' & fss & E & L & NE & SZ & T).
  exists A', fss. split; [exact E|]. split; [exact L|]. intros blks pend HT.
  destruct (RlcDataProperties.C19_uplink_round_trip_partial _ _ _ HT) as (pieces & fs & part & E1 & E2 & E3 & E4). destruct (T fs _ E3) as (B' & j & ET & EJ).
  exists pieces, fs, part, B', j. split; [exact E1|]. split; [exact E2|]. split; [exact ET|]. rewrite <- L. split; [exact EJ|]. intros ->. cbn [RlcDataSpec.glue] in E3.
  rewrite app_nil_r in E3. apply firstn_all2. rewrite <- L. apply EJ; [lia|]. rewrite firstn_all, E3. lia.
Qed.
Print Assumptions C110_uplink.

(** The same two N-PDUs in two blocks of 20 octets, the second of them the last. *)
Definition up_fs : list (list Z) := concat (given (give_all ms end_a SndcpProperties.tl 3 5 two)).
Example C110_case : exists blks, length blks = 2%nat /\ RlcDataSpec.transfer up_fs blks [] /\
  match RlcDataSpec.read_all blks with
  | Ok pieces => taken (take_all sgsn end_a SndcpProperties.tl (fst (RlcDataSpec.join [] pieces))) = Some (map (SndcpModel.SnUnitdataInd SndcpProperties.tl 3 5) two)
  | _ => False
  end.
Proof.
  eexists. split; [|split].
  2:{ eapply RlcDataSpec.t_block with (dlen := 20) (ti := false) (tlli := 0) (final := true).
      - eapply RlcDataSpec.t_block with (dlen := 20) (ti := false) (tlli := 0) (final := false).
        + change up_fs with (([] ++ [nth 0 up_fs []]) ++ [nth 1 up_fs []]). apply RlcDataSpec.t_submit; [apply RlcDataSpec.t_submit; [apply RlcDataSpec.t_start|]|]; vm_compute; discriminate.
        + vm_compute. discriminate.
        + lia.
        + intros space H. discriminate H.
        + vm_compute. reflexivity.
      - vm_compute. discriminate.
      - lia.
      - intros space _. vm_compute. split; [discriminate|intros H; eexists; reflexivity].
      - vm_compute. reflexivity. }
  - reflexivity.
  - vm_compute. reflexivity.
Qed.
