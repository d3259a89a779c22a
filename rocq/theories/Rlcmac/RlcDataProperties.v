(** Theorems about RLC data blocks (C19, C20, C29, C39). *)
From Verif.Lib Require Import Base Outcome.
From Verif.Rlcmac Require Import DlRxModel DlRxSpec RlcDataModel RlcDataSpec RlcDataProofs RlcDataProofs2 RlcDataProofs3 RlcDataProofs4 DlRxProperties.

(** *** C19: whatever frames are handed over and whenever blocks are built, with any block size and with or
    without TLLI, reading the blocks with the library's own length-indicator decoder gives back the frames:
    complete ones in order, then the part of the current one; with what is still pending that is exactly what
    was handed over.  What is missing: a final block that several frames fill exactly (see the refutation). *)
Theorem C19_uplink_round_trip_partial : forall submitted blks pend, transfer submitted blks pend ->
  exists pieces done part, read_all blks = Ok pieces /\ join [] pieces = (done, part) /\
    submitted = done ++ glue part pend /\ (pend = [] -> part = []).
Proof. intros s b p H. exact (proj2 (transfer_ok s b p H)). Qed.
Print Assumptions C19_uplink_round_trip_partial.

(** ... and the next block can always be built: it has the size asked for, and a final block leaves nothing. *)
Theorem C19_block_is_built_partial : forall submitted blks pend dlen (ti : bool) tlli final,
  transfer submitted blks pend -> pend <> [] -> 5 <= dlen <= 64 ->
  (let space := if ti then dlen - 4 else dlen in
   final = true -> need pend <= space /\ (need pend = space -> exists f, pend = [f])) ->
  exists e oct pend', create_block dlen ti tlli final pend = Ok (e, oct, pend') /\ zlen oct = dlen /\ (final = true -> pend' = []).
Proof.
  intros s b p dlen ti tlli final HT Hp Hd Hf.
  destruct (create_spec dlen ti tlli final p Hd Hp (proj1 (transfer_ok s b p HT)) Hf) as (e & oct & rest & new & t & E & Hl & _ & _ & _ & _ & _ & Hr).
  exists e, oct, rest. exact (conj E (conj Hl Hr)).
Qed.
Print Assumptions C19_block_is_built_partial.

(** Three frames in three blocks of 20 octets, the first with TLLI. *)
Definition ex_f (n : nat) (k : Z) : list Z := map (fun i => (k + Z.of_nat i) mod 256) (seq 0 n).
Example C19_nonvacuous : exists blks, transfer [ex_f 10 1; ex_f 6 50; ex_f 24 100] blks [] /\ length blks = 3%nat /\
  exists ps, read_all blks = Ok ps /\ join [] ps = ([ex_f 10 1; ex_f 6 50; ex_f 24 100], []).
Proof.
  eexists. split.
  - eapply (t_block _ _ _ 20 false 0 true).
    + eapply (t_block _ _ _ 20 false 0 false).
      * eapply (t_block _ _ _ 20 true 0xdeadbeef false).
        -- apply (t_submit [ex_f 10 1; ex_f 6 50] [] [ex_f 10 1; ex_f 6 50]); [|vm_compute; discriminate].
           apply (t_submit [ex_f 10 1] [] [ex_f 10 1]); [|vm_compute; discriminate].
           apply (t_submit [] [] []); [constructor|vm_compute; discriminate].
        -- discriminate.
        -- lia.
        -- discriminate.
        -- vm_compute; reflexivity.
      * discriminate.
      * lia.
      * discriminate.
      * vm_compute; reflexivity.
    + discriminate.
    + lia.
    + intros sp _. vm_compute. split; [discriminate|discriminate].
    + vm_compute; reflexivity.
  - split; [reflexivity|]. eexists. vm_compute. split; reflexivity.
Qed.

(** Two frames that fill the final block exactly: the sender considers both sent, the reader gets one. *)
Theorem C19_uplink_round_trip_refuted : exists f1 f2 e oct,
  f1 <> [] /\ f2 <> [] /\ need [f1; f2] = 20 /\ create_block 20 false 0 true [f1; f2] = Ok (e, oct, []) /\
  read_all [mkublk false true (e =? 1) oct] = Ok [(f1, true)].
Proof. exists (ex_f 10 1), (ex_f 9 50), 0, (41 :: ex_f 10 1 ++ ex_f 9 50). split; [discriminate|]. split; [discriminate|]. split; [reflexivity|]. split; vm_compute; reflexivity. Qed.
Print Assumptions C19_uplink_round_trip_refuted.

(** *** C20: for any contents of a data block, both parsers read inside the block only, and the chunks they
    return (at most 16, the size of the caller's array) lie one behind the other inside the block.  Every
    coding scheme has more than 16 octets of data (C21). *)
Theorem C20_parsing_stays_inside : forall e last edge data, bytes data -> 17 <= zlen data <= 255 ->
  match data_from_dl e last edge data 16 with
  | Ok cs => (exists offs, 0 <= offs /\ chain (zlen data) offs cs) /\ zlen cs <= 16
  | Err _ => True
  | UB => False
  end.
Proof. intros e last edge data Hb Hl. apply data_from_dl_safe; [exact Hb|lia|lia]. Qed.
Print Assumptions C20_parsing_stays_inside.
Example C20_nonvacuous :
  data_from_dl false false false ([22; 7 * 4 + 3] ++ ex_f 18 1) 16 = Ok [mkchunk 2 5 true; mkchunk 7 7 true; mkchunk 14 6 false] /\
  data_from_dl false false true ([0; 7 * 2; 5 * 2 + 1] ++ ex_f 19 1) 16 = Ok [mkchunk 3 0 true; mkchunk 3 7 true; mkchunk 10 5 true; mkchunk 15 7 false] /\
  data_from_dl false false false (repeat 254 20) 16 = Err ENOSPC.
Proof. vm_compute. auto. Qed.
(** The bound on the size is needed: the end-of-data test of both parsers is off by one. *)
Theorem C20_short_block_refuted :
  data_from_dl false false false (repeat 6 16) 16 = UB /\ data_from_dl false false true (repeat 6 16) 16 = UB.
Proof. vm_compute. auto. Qed.
Print Assumptions C20_short_block_refuted.

(** *** C29: the network cuts LLC frames (at most 1543 octets) into blocks as TS 44.060 lays down; over any
    loss, repetition and reordering inside the window, the frames handed to LLC are exactly the frames that
    end in the first [k] blocks, where [k] counts the blocks delivered in sequence. *)
Theorem C29_frames_reassembled : forall (blk : Z -> nblk) ns,
  (forall n, 0 <= n -> lawful (blk n)) ->
  (forall k, Forall (fun f => zlen f <= 1543) (fst (spelled blk k)) /\ zlen (snd (spelled blk k)) <= 1543) ->
  within k_last (fun n => n_stored (blk n)) ns ->
  exists x o k rx, rrun k_last rx_init (over_air (fun n => n_stored (blk n)) ns) = Ok (x, o) /\
    assemble_all None (handed o) = Ok (rx, fst (spelled blk k)) /\
    (forall n, 0 <= n < Z.of_nat k -> In n ns) /\ (no_jump ns -> gap ns (Z.of_nat k)).
Proof. exact over_air_frames. Qed.
Print Assumptions C29_frames_reassembled.
(** The frames of fewer blocks are a prefix of the frames of more blocks. *)
Theorem C29_prefix : forall blk k j, exists more, fst (spelled blk (k + j)) = fst (spelled blk k) ++ more.
Proof. exact spelled_prefix. Qed.
Print Assumptions C29_prefix.

(** A frame of 30 octets, one of 16, one of 8 followed by filling octets. *)
Definition ex_blk29 (n : Z) : nblk :=
  match n mod 3 with
  | 0 => mknblk false [] (TCont (ex_f 20 1))
  | 1 => mknblk false [ex_f 10 21] (TCont (ex_f 9 1))
  | _ => mknblk false [ex_f 7 10; ex_f 8 70] (TFill [43; 43; 43])
  end.
Lemma ex_spelled : forall k, Forall (fun f => zlen f <= 1543) (fst (spelled ex_blk29 k)) /\ zlen (snd (spelled ex_blk29 k)) <= 1543.
Proof.
  assert (H : forall k, Forall (fun f => zlen f <= 1543) (fst (spelled ex_blk29 k)) /\
    snd (spelled ex_blk29 k) = match Z.of_nat k mod 3 with 0 => [] | 1 => ex_f 20 1 | _ => ex_f 9 1 end).
  { induction k as [|k [IH1 IH2]]; [split; [constructor|reflexivity]|].
    unfold spelled in *. rewrite seq_S, flat_map_app, join_app. destruct (join [] (flat_map _ (seq 0 k))) as [f1 p1]. cbn [fst snd] in *.
    cbn [flat_map Nat.add]. rewrite app_nil_r. subst p1. unfold ex_blk29. rewrite Nat2Z.inj_succ.
    assert (Hm : 0 <= Z.of_nat k mod 3 < 3) by (apply Z.mod_pos_bound; lia).
    replace (Z.succ (Z.of_nat k) mod 3) with ((Z.of_nat k mod 3 + 1) mod 3) by (rewrite Zplus_mod_idemp_l; reflexivity).
    assert (Hc : Z.of_nat k mod 3 = 0 \/ Z.of_nat k mod 3 = 1 \/ Z.of_nat k mod 3 = 2) by lia.
    destruct Hc as [-> | [-> | ->]]; vm_compute (n_pieces _); cbn [join fst snd app]; (split; [|reflexivity]);
      apply Forall_app; (split; [exact IH1|]); repeat constructor; vm_compute; discriminate. }
  intros k. destruct (H k) as [H1 H2]. split; [exact H1|]. rewrite H2. destruct (Z.of_nat k mod 3) as [|[|p|]|]; vm_compute; discriminate.
Qed.
Example C29_nonvacuous :
  (forall n, 0 <= n -> lawful (ex_blk29 n)) /\
  within k_last (fun n => n_stored (ex_blk29 n)) [1; 0; 2; 1; 4; 3] /\
  fst (spelled ex_blk29 5) = [ex_f 30 1; ex_f 9 1 ++ ex_f 7 10; ex_f 8 70; ex_f 30 1] /\
  exists x o, rrun k_last rx_init (over_air (fun n => n_stored (ex_blk29 n)) [1; 0; 2; 1; 4; 3]) = Ok (x, o) /\
    assemble_all None (handed o) = Ok (Some (ex_f 9 1), fst (spelled ex_blk29 5)).
Proof.
  split.
  { intros n _. unfold ex_blk29. assert (Hm : 0 <= n mod 3 < 3) by (apply Z.mod_pos_bound; lia).
    assert (Hc : n mod 3 = 0 \/ n mod 3 = 1 \/ n mod 3 = 2) by lia.
    destruct Hc as [-> | [-> | ->]]; (split; [split|split]); cbn [n_segs n_tail n_last tl]; try discriminate; repeat constructor; vm_compute; discriminate. }
  split; [apply within_b_ok; vm_compute; reflexivity|]. split; [vm_compute; reflexivity|].
  apply (run_check k_last (fun n => n_stored (ex_blk29 n)) [1; 0; 2; 1; 4; 3]
    (fun x o => assemble_all None (handed o) = Ok (Some (ex_f 9 1), fst (spelled ex_blk29 5)))). vm_compute. reflexivity.
Qed.

(** More than 16 pieces in a block (only possible with frames shorter than LLC has): the block is lost. *)
Theorem C29_many_pieces_refuted : exists b, well_formed (n_last b) (n_segs b) (n_tail b) /\ zlen (n_octets b) <= 50 /\
  fst (join [] (n_pieces b)) = repeat [7] 17 /\ assemble_all None [n_stored b] = Ok (None, []).
Proof.
  exists (mknblk false (repeat [7] 17) (TFill [])). split; [split; [cbn [n_segs repeat]; repeat constructor; vm_compute; discriminate|discriminate]|].
  split; [vm_compute; discriminate|]. vm_compute. auto.
Qed.
Print Assumptions C29_many_pieces_refuted.

(** *** C39: reassembly of blocks with any contents is exactly the joining of the pieces found in them, as long
    as no frame outgrows 1543 octets; when one does, the process stops. *)
Theorem C39_reassembly_exact_partial : forall blks, Forall sized blks ->
  (fits [] (flat_map decoded blks) /\ exists rx, assemble_all None blks = Ok (rx, fst (join [] (flat_map decoded blks)))) \/
  (~ fits [] (flat_map decoded blks) /\ assemble_all None blks = UB).
Proof.
  intros blks Hs. destruct (assemble_all_any blks None Hs) as [(Hf & rx & out & E & Ej)|H]; [left|right; exact H].
  split; [exact Hf|]. exists rx. cbn [held] in Ej. rewrite Ej. exact E.
Qed.
Print Assumptions C39_reassembly_exact_partial.
(** Blocks without length indicators and without an end: 78 blocks of 20 octets end the process. *)
Theorem C39_no_crash_refuted : exists blks, Forall sized blks /\ assemble_all None blks = UB.
Proof.
  exists (repeat (mkrblk true false false (ex_f 20 1)) 78). split; [|vm_compute; reflexivity].
  apply Forall_forall. intros b Hb. apply repeat_spec in Hb as ->. split; [apply bytesb_ok; vm_compute; reflexivity|vm_compute; split; discriminate].
Qed.
Print Assumptions C39_no_crash_refuted.
Example C39_nonvacuous : Forall sized [mkrblk true false false (ex_f 20 1); mkrblk false true false (43 :: ex_f 19 1)] /\
  assemble_all None [mkrblk true false false (ex_f 20 1); mkrblk false true false (43 :: ex_f 19 1)] =
    Ok (None, [ex_f 20 1 ++ ex_f 10 1; ex_f 9 11]).
Proof. split; [|vm_compute; reflexivity]. repeat constructor; try (vm_compute; discriminate). Qed.
