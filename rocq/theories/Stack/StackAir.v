(** N-PDUs from one end to the other, with the octets of the RLC data blocks in between. *)
From Verif.Lib Require Import Base Outcome.
From Verif.Sndcp Require SndcpModel SndcpProperties.
From Verif.Llc Require LlcModel LlcSpec.
From Verif.Rlcmac Require RlcDataModel RlcDataSpec RlcDataProofs4 DlRxModel DlRxSpec DlRxProperties CsModel PdchModel AirModel AirSpec AirProofs AirProofs2 AirProperties.
From Verif.Stack Require Import StackSpec StackProperties.

(** *** C111: uplink.  [ms] are the octets the mobile sends for the blocks of its transfer; the network makes of them the N-PDUs up to some
    point, unchanged, in order and once; all of them when the mobile has nothing left to send. *)
Theorem C111_stack : forall es er t sapi n A B v npdus,
  LlcSpec.user_sapi sapi -> LlcModel.e_tlli_ok er t = true -> 0 <= n < 16 -> 0 <= v < 512 ->
  can_send A t sapi n v -> can_receive B t sapi n v -> Forall usual npdus ->
  exists A' fss, give_all es A t sapi n npdus = Ok (A', map (fun f => (f, 0)) fss) /\
    forall blks pend tfi ms, RlcDataSpec.transfer (concat fss) blks pend -> 0 <= tfi < 32 -> Forall2 (AirSpec.sent_as tfi) blks ms ->
    exists pieces fs part B' j, RlcDataSpec.read_all (map AirSpec.heard ms) = Ok pieces /\ RlcDataSpec.join [] pieces = (fs, part) /\
      take_all er B t fs = Ok (B', map (SndcpModel.SnUnitdataInd t sapi n) (firstn j npdus)) /\
      (pend = [] -> firstn j npdus = npdus).
Proof.
  intros es er t sapi n A B v npdus H1 H2 H3 H4 H5 H6 H7. destruct (C110_uplink es er t sapi n A B v npdus H1 H2 H3 H4 H5 H6 H7) as (A' & fss & E & _ & T).
  exists A', fss. split; [exact E|]. intros blks pend tfi ms HT Ht HS. rewrite (AirProperties.C111_network_hears tfi blks ms Ht HS).
  destruct (T blks pend HT) as (pieces & fs & part & B' & j & E1 & E2 & E3 & _ & E5). exists pieces, fs, part, B', j. auto.
Qed.
Print Assumptions C111_stack.

(** *** C112: downlink.  What the mobile takes from a message received on timeslot [tn] in frame [fst x] for its TBF with TFI [tfi]. *)
Definition takes (rfn : Z -> Z -> Z) (past : Z -> Z -> Z * Z) (sys : SchedModel.sys) (who : Z -> CcchModel.ent) (tn tfi : Z) (x : Z * list Z) : list (Z * RlcDataModel.rblk) :=
  match PdchModel.pdch_data_ind rfn past sys who tn (fst x) (snd x) with
  | PdchModel.PData cs => match AirModel.dl_data cs (snd x) with Ok (h, b) => if AirModel.dh_tfi h =? tfi then [(AirModel.dh_bsn h, b)] else [] | _ => [] end
  | _ => []
  end.
(** What is on the air: the blocks [ns] of [bs] for this TBF, in any of CS-1 to CS-4 and with any other fields; in between blocks for others,
    blocks that could not be decoded (no octets), and blocks with a payload type other than data. *)
Inductive broadcast (bs : list RlcDataSpec.nblk) (tfi : Z) : list Z -> list (Z * list Z) -> Prop :=
| bc_end : broadcast bs tfi [] []
| bc_ours n ns air fn cs f : broadcast bs tfi ns air -> fn mod 104 <> 12 -> 1 <= cs <= 4 -> AirSpec.df_ok f ->
    zlen (RlcDataSpec.n_octets (nblock bs n)) = AirSpec.data_octets cs ->
    broadcast bs tfi (n :: ns) ((fn, AirSpec.dl_message cs tfi (n mod 128) f (nblock bs n)) :: air)
| bc_other ns air fn cs other bsn f b : broadcast bs tfi ns air -> 0 <= other < 32 -> other <> tfi -> 0 <= bsn < 128 -> 1 <= cs <= 4 -> AirSpec.df_ok f ->
    zlen (RlcDataSpec.n_octets b) = AirSpec.data_octets cs -> broadcast bs tfi ns ((fn, AirSpec.dl_message cs other bsn f b) :: air)
| bc_lost ns air fn : broadcast bs tfi ns air -> broadcast bs tfi ns ((fn, []) :: air)
| bc_control ns air fn m : broadcast bs tfi ns air -> bytes m -> AirSpec.field m 0 6 2 <> 0 -> broadcast bs tfi ns ((fn, m) :: air).

Lemma heard_blocks rfn past sys who tn tfi bs ns air : 0 <= tfi < 32 -> broadcast bs tfi ns air ->
  flat_map (takes rfn past sys who tn tfi) air = DlRxSpec.over_air (fun m => RlcDataSpec.n_stored (nblock bs m)) ns.
Proof.
  intros Ht H. induction H as [|n ns air fn cs f _ IH Hfn Hc Hf Hz|ns air fn cs other bsn f b _ IH Ho Hne Hn Hc Hf Hz|ns air fn _ IH|ns air fn m _ IH Bm Hm];
    [reflexivity| | | |]; cbn [flat_map DlRxSpec.over_air map]; rewrite IH; unfold takes at 1; cbn [fst snd].
  - pose proof (Z.mod_pos_bound n 128 ltac:(lia)) as Hb.
    destruct (AirProperties.C112_downlink_block rfn past sys who tn fn cs tfi (n mod 128) f (nblock bs n)) as (E1 & h & E2 & E3 & E4 & _); try assumption.
    rewrite E1, E2, E3, E4, Z.eqb_refl. reflexivity.
  - destruct (Z.eq_dec (fn mod 104) 12) as [E|E].
    + unfold PdchModel.pdch_data_ind. rewrite E. cbn [Z.eqb Pos.eqb]. repeat match goal with |- context [if ?c then PdchModel.PDone _ else _] => destruct c end; reflexivity.
    + destruct (AirProperties.C112_downlink_block rfn past sys who tn fn cs other bsn f b) as (E1 & h & E2 & E3 & E4 & _); try assumption.
      rewrite E1, E2, E3. replace (other =? tfi) with false by lia. reflexivity.
  - reflexivity.
  - destruct (PdchModel.pdch_data_ind rfn past sys who tn fn m) eqn:E; try reflexivity.
    destruct (AirProperties.C112_any_octets _ _ _ _ _ _ _ _ Bm E) as (_ & _ & F & _). contradiction.
Qed.

(** The mobile hands out the N-PDUs up to some point, unchanged, in order and once; all of them if all blocks arrive. *)
Theorem C112_stack : forall rfn past sys who tn es er t sapi n A B v npdus,
  LlcSpec.user_sapi sapi -> LlcModel.e_tlli_ok er t = true -> 0 <= n < 16 -> 0 <= v < 512 ->
  can_send A t sapi n v -> can_receive B t sapi n v -> Forall usual npdus ->
  exists A' fss, give_all es A t sapi n npdus = Ok (A', map (fun f => (f, 0)) fss) /\
    forall bs tfi ns air, Forall RlcDataSpec.lawful bs -> RlcDataSpec.join [] (flat_map RlcDataSpec.n_pieces bs) = (concat fss, []) ->
      Forall (fun m => 0 <= m < zlen bs) ns -> DlRxSpec.within RlcDataModel.k_last (fun m => RlcDataSpec.n_stored (nblock bs m)) ns ->
      0 <= tfi < 32 -> broadcast bs tfi ns air ->
    exists x o rx fs B' j,
      DlRxModel.rrun RlcDataModel.k_last DlRxModel.rx_init (flat_map (takes rfn past sys who tn tfi) air) = Ok (x, o) /\
      RlcDataModel.assemble_all None (RlcDataProofs4.handed o) = Ok (rx, fs) /\
      take_all er B t fs = Ok (B', map (SndcpModel.SnUnitdataInd t sapi n) (firstn j npdus)) /\
      (DlRxSpec.no_jump ns -> (forall m, 0 <= m < zlen bs -> In m ns) -> firstn j npdus = npdus).
Proof.
  intros rfn past sys who tn es er t sapi n A B v npdus H1 H2 H3 H4 H5 H6 H7. destruct (C109_downlink es er t sapi n A B v npdus H1 H2 H3 H4 H5 H6 H7) as (A' & fss & E & _ & T).
  exists A', fss. split; [exact E|]. intros bs tfi ns air HB HJ HN HW Ht Hair. rewrite (heard_blocks rfn past sys who tn tfi bs ns air Ht Hair).
  destruct (T bs ns HB HJ HN HW) as (x & o & rx & fs & B' & j & E1 & E2 & E3 & _ & E5). exists x, o, rx, fs, B', j. auto.
Qed.
Print Assumptions C112_stack.

(** The two N-PDUs of [C109_case] in two blocks of CS-1; the second block arrives first, then one for another mobile, one that could not be
    decoded, a control block and the first block. *)
Definition air_bs : list RlcDataSpec.nblk :=
  [RlcDataSpec.mknblk false [nth 0 two_fs []] (RlcDataSpec.TCont (firstn 6 (nth 1 two_fs [])));
   RlcDataSpec.mknblk true [skipn 6 (nth 1 two_fs [])] (RlcDataSpec.TFill (repeat 43 9))].
Definition some : AirSpec.dl_fields := AirSpec.mkdf 3 0 0 0 43.
Definition on_air : list (Z * list Z) :=
  [(4, AirSpec.dl_message 1 7 1 some (nblock air_bs 1)); (8, AirSpec.dl_message 1 9 0 some (nblock air_bs 1)); (13, []); (17, 64 :: repeat 43 22);
   (21, AirSpec.dl_message 1 7 0 some (nblock air_bs 0))].
Definition air_blk (m : Z) : RlcDataModel.rblk := RlcDataSpec.n_stored (nblock air_bs m).
Example C112_stack_case : Forall RlcDataSpec.lawful air_bs /\ RlcDataSpec.join [] (flat_map RlcDataSpec.n_pieces air_bs) = (two_fs, []) /\
  DlRxSpec.within RlcDataModel.k_last air_blk [1; 0] /\ DlRxSpec.no_jump [1; 0] /\ broadcast air_bs 7 [1; 0] on_air /\
  exists x o, DlRxModel.rrun RlcDataModel.k_last DlRxModel.rx_init (DlRxSpec.over_air air_blk [1; 0]) = Ok (x, o) /\
    match RlcDataModel.assemble_all None (RlcDataProofs4.handed o) with
    | Ok (_, fs) => taken (take_all ms end_a SndcpProperties.tl fs) = Some (map (SndcpModel.SnUnitdataInd SndcpProperties.tl 3 5) two)
    | _ => False
    end.
Proof.
  split.
  { repeat (constructor; [split; [split; [repeat constructor; vm_compute; discriminate|discriminate]|split; [vm_compute; discriminate|repeat constructor]]|]). constructor. }
  split; [vm_compute; reflexivity|]. split; [apply DlRxProperties.within_b_ok; vm_compute; reflexivity|]. split; [apply DlRxProperties.no_jump_b_ok; vm_compute; reflexivity|]. split.
  { assert (AirSpec.df_ok some) as Hs by (unfold AirSpec.df_ok; cbn; lia).
    apply (bc_ours air_bs 7 1 _ _ 4 1 some); [|cbv; discriminate|lia|exact Hs|reflexivity].
    apply (bc_other air_bs 7 _ _ 8 1 9 0 some (nblock air_bs 1)); [|lia|lia|lia|lia|exact Hs|reflexivity].
    apply bc_lost. apply bc_control; [|apply bytesb_ok; reflexivity|cbv; discriminate].
    apply (bc_ours air_bs 7 0 _ _ 21 1 some); [constructor|cbv; discriminate|lia|exact Hs|reflexivity]. }
  apply (DlRxProperties.run_check RlcDataModel.k_last air_blk [1; 0]
    (fun x o => match RlcDataModel.assemble_all None (RlcDataProofs4.handed o) with
    | Ok (_, fs) => taken (take_all ms end_a SndcpProperties.tl fs) = Some (map (SndcpModel.SnUnitdataInd SndcpProperties.tl 3 5) two)
    | _ => False
    end)). vm_compute. reflexivity.
Qed.

(** The blocks of [C110_case] in the store as BSN 0 and 1. *)
Definition up_blks : list RlcDataSpec.ublk := [RlcDataSpec.mkublk false false false (55 :: nth 0 up_fs [] ++ firstn 6 (nth 1 up_fs []))].
Example C111_stack_case : Forall2 (AirSpec.sent_as 7) up_blks [[60; 14; 0; 55] ++ nth 0 up_fs [] ++ firstn 6 (nth 1 up_fs [])] /\
  exists blks, RlcDataSpec.transfer up_fs (up_blks ++ blks) [].
Proof.
  split.
  - constructor; [|constructor]. exists (fun _ => AirModel.mkablk ((55 :: nth 0 up_fs [] ++ firstn 6 (nth 1 up_fs [])) ++ repeat 0 54) 0 0 15 1 1 1 0 0), 0. do 4 eexists.
    split; [lia|]. split; [|vm_compute; reflexivity]. split; [cbn; lia|]. split; [cbn; lia|]. split; [reflexivity|]. split; [eexists; reflexivity|]. split; [reflexivity|].
    split; [reflexivity|]. split; [cbn; lia|reflexivity].
  - eexists. eapply RlcDataSpec.t_block with (dlen := 20) (ti := false) (tlli := 0) (final := true).
      + change up_blks with ([] ++ [RlcDataSpec.mkublk false false (0 =? 1) (55 :: nth 0 up_fs [] ++ firstn 6 (nth 1 up_fs []))]). eapply RlcDataSpec.t_block with (dlen := 20) (ti := false) (tlli := 0) (final := false).
        * change up_fs with (([] ++ [nth 0 up_fs []]) ++ [nth 1 up_fs []]). apply RlcDataSpec.t_submit; [apply RlcDataSpec.t_submit; [apply RlcDataSpec.t_start|]|]; vm_compute; discriminate.
        * vm_compute. discriminate.
        * lia.
        * intros space H. discriminate H.
        * vm_compute. reflexivity.
      + vm_compute. discriminate.
      + lia.
      + intros space _. vm_compute. split; [discriminate|intros H; eexists; reflexivity].
      + vm_compute. reflexivity.
Qed.
