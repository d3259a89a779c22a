(** Model of what the RLC/MAC layer does with a block received on a PDCH (src/rlcmac/rlcmac_prim.c, rlcmac.c), up to the
    state machines and windows of the TBFs (SchedModel, UlTbfModel, UlTxModel). *)
From Coq Require Import ZArith List Bool Lia.
From Verif Require Import Lib.Base Lib.Outcome Csn1.Csn1Model Csn1.Csn1Tables Csn1.Csn1DlModel Csn1.Csn1EncModel
  Rlcmac.FnModel Rlcmac.CsModel Rlcmac.UlTbfModel Rlcmac.SchedModel Rlcmac.CcchModel.
Import ListNotations.
Open Scope Z_scope.

(** What a block leads to: nothing but a return value; an event for the TBF or entity it is meant for; for a Packet Uplink
    Ack/Nack besides that the report for the transmit window of the same TBF (FINAL_ACK_INDICATION, STARTING_SEQUENCE_NUMBER,
    RECEIVED_BLOCK_BITMAP), whose evaluation by tbf_ul.c:327-336 is in UlTxModel; an RLC data block for a downlink TBF
    (RlcDataModel, DlRxModel); a failed assertion or an access outside the block or the decoded structure. *)
Inductive pres :=
  | PDone (rc : Z)
  | PEvent (e : sevent)
  | PAck (e : sevent) (final : bool) (ssn : Z) (bm : list Z)
  | PData (cs : Z)
  | PBad.
Definition pbind {A} (r : res A) (f : A -> pres) : pres := match r with Ok a => f a | _ => PBad end.

Section Pdch.
(** libosmocore: gsm_rfn2fn; bitvec_read_field outside the vector. *)
Variable rfn2fn : Z -> Z -> Z.
Variable past : Z -> Z -> Z * Z.
Variable s : sys.
(** The identities of the entity number [g] (gre.h:17-34). *)
Variable who : Z -> ent.

(** rlcmac.c:167-193 *)
Definition by_dl_tfi (tfi : Z) : option gre :=
  find (fun g => match g_dl g with Some d => d_tfi d =? tfi | None => false end) (gres s).
Definition by_ul_tfi (tfi : Z) : option gre :=
  find (fun g => match g_ul g with Some (_, b) => ul_tfi (cur b) =? tfi | None => false end) (gres s).
(** rlcmac.c:137-145 *)
Definition gre_by_tlli (t : Z) : option gre :=
  find (fun g => (e_tlli (who (g_id g)) =? t) || (e_old_tlli (who (g_id g)) =? t)) (gres s).
(** rlcmac.c:615-642, a Global_TFI_t at [a]: UnionType, then the TFI; the error is the assertion in 631. *)
Definition by_global_tfi (m : mem) (a : Z) : res (option gre) :=
  if m a =? 0 then Ok (by_ul_tfi (m (a + 1))) else if m a =? 1 then Ok (by_dl_tfi (m (a + 1))) else UB.

(** rlcmac_dec.c:466-476 [TBF_Starting_Frame_Number_to_fn], a Starting_Frame_Number_t at [a]: UnionType, then at 2 the
    StartingTime_t or the 16 bit number k. *)
Definition start_frame (m : mem) (a fn : Z) : res Z :=
  if m a =? 0 then Ok (start_fn rfn2fn m (a + 2) fn)
  else if m a =? 1 then k_to_fn (rdle m (a + 2) 2) fn else UB.
Definition opt_start (ex : bool) (m : mem) (a fn : Z) : res (option Z) :=
  if ex then do f <- start_frame m a fn; Ok (Some f) else Ok None.
(** The frame of the block reserved for the answer (rlcmac.c:681-682, tbf_ul_ass_fsm.c, tbf_ul_fsm.c: rrbp2fn, if the S/P
    bit is set).  Simplification: it is evaluated here even if the state machine ignores the event afterwards. *)
Definition opt_poll (h : dl_hdr) (fn : Z) : res (option Z) :=
  if h_sp h =? 0 then Ok None else do p <- rrbp2fn fn (h_rrbp h); Ok (Some p).

(** *** Packet Downlink Assignment *)
(** Members of Packet_Downlink_Assignment_t (csn1_defs.h:2378-2416, offsets as in Csn1Tables). *)
Definition da_id := 12. Definition da_id_u := 16. Definition da_ctrl_ack := 22. Definition da_slots := 23.
Definition da_tfi_ex := 72. Definition da_tfi := 76. Definition da_start_ex := 104. Definition da_start := 108.
(** tbf_dl_ass_fsm.c:112-117: timeslot [i] is bit 7 - i. *)
Definition dl_slots (v : Z) : list bool := map (fun i => Z.testbit v (7 - Z.of_nat i)) (seq 0 8).
(** rlcmac.c:645-699 [gprs_rlcmac_handle_pkt_dl_ass] and tbf_dl_ass_fsm.c:98-119; the event does what remains.
    A TFI that is absent is None (0xff, 106). *)
Definition handle_pkt_dl_ass (h : dl_hdr) (m : mem) (tn fn : Z) : pres :=
  pbind (if m da_id =? 0 then by_global_tfi m da_id_u
         else if m da_id =? 1 then Ok (gre_by_tlli (rdle m da_id_u 4)) else UB) (fun g =>
  match g with
  | None => PDone (- ENOENT)
  | Some g =>
      pbind (opt_start (negb (rdle m da_start_ex 4 =? 0)) m da_start fn) (fun st =>
      pbind (opt_poll h fn) (fun poll =>
      PEvent (DlPktAss (g_id g) tn fn poll (if rdle m da_tfi_ex 4 =? 0 then None else Some (m da_tfi)) st
                       (dl_slots (m da_slots)) (negb (m da_ctrl_ack =? 0)))))
  end).

(** *** Packet Uplink Ack/Nack *)
(** Members of Packet_Uplink_Ack_Nack_t (csn1_defs.h:2010-2019) and, in it, of PU_AckNack_GPRS_t (csn1_defs.h:1949-1966). *)
Definition ua_tfi := 2. Definition ua_ccc := 4. Definition ua_final := 5. Definition ua_ssn := 6. Definition ua_rbb := 7.
Definition ua_r99 := 20. Definition ua_tbf_est := 29.
(** rlcmac.c:701-715, tbf_ul.c:307-351: the members of PU_AckNack_GPRS_t are read whatever UnionType says; tbf_est as in
    tbf_ul_fsm.c:215-216 and 259-260. *)
Definition handle_pkt_ul_ack_nack (h : dl_hdr) (m : mem) (tn fn : Z) : pres :=
  match by_ul_tfi (m ua_tfi) with
  | None => PDone (- ENOENT)
  | Some _ =>
      pbind (opt_poll h fn) (fun poll =>
      let final := negb (m ua_final =? 0) in
      let est := negb (rdle m ua_r99 4 =? 0) && negb (m ua_tbf_est =? 0) in
      PAck (UlAckNack tn (m ua_tfi) poll final est (m ua_ccc)) final (m ua_ssn)
           (map (fun i => m (ua_rbb + Z.of_nat i)) (seq 0 8)))
  end.

(** *** Packet Uplink Assignment *)
(** Members of Packet_Uplink_Assignment_t (csn1_defs.h:2286-2306), of its PUA_GPRS_t at 20 (csn1_defs.h:2185-2203) and of the
    Dynamic_Allocation_t in that at 58 (csn1_defs.h:2085-2108). *)
Definition pu_id := 8. Definition pu_id_u := 12. Definition pu_type := 16. Definition pu_ccc := 20. Definition pu_alloc := 56.
Definition pu_tfi_ex := 63. Definition pu_tfi := 64. Definition pu_start_ex := 67. Definition pu_start := 68.
Definition pu_slots := 74. Definition pu_ts := 75. Definition pu_pwr_ts := 76.
(** tbf_ul_ass_fsm.c:222-246: the slots, from Timeslot_Allocation_t[8] (Exist, USF_TN) or from
    Timeslot_Allocation_Power_Ctrl_Param_t (ALPHA, then Exist, USF_TN, GAMMA_TN for each slot); otherwise none. *)
Definition ul_slots (m : mem) : list (option Z) :=
  let slot (a n : Z) (i : nat) := let x := a + n * Z.of_nat i in if m x =? 0 then None else Some (m (x + 1)) in
  if m pu_slots =? 0 then map (slot pu_ts 2) (seq 0 8)
  else if m pu_slots =? 1 then map (slot pu_pwr_ts 3) (seq 0 8) else no_slots.
(** tbf_ul_ass_fsm.c:210-263; the assertion in 261.  A TFI that is absent is None, which becomes 0 (205, 215). *)
Definition pua_contents (m : mem) (fn : Z) : res pkt_ul_ass :=
  if m pu_type =? 0 then
    if m pu_alloc =? 1 then
      do st <- opt_start (negb (m pu_start_ex =? 0)) m pu_start fn;
      Ok (PuaDynamic (if m pu_tfi_ex =? 0 then None else Some (m pu_tfi)) (m pu_ccc) st (ul_slots m))
    else Ok (PuaUnsupported (Some (m pu_ccc)))
  else if m pu_type =? 1 then Ok (PuaUnsupported None) else UB.
(** rlcmac.c:717-753 [gprs_rlcmac_handle_pkt_ul_ass]; the contents are evaluated only if the state machine accepts the
    event, which makes a difference only for the assertions. *)
Definition handle_pkt_ul_ass (h : dl_hdr) (m : mem) (tn fn : Z) : pres :=
  pbind (if m pu_id =? 0 then by_global_tfi m pu_id_u
         else if m pu_id =? 1 then Ok (gre_by_tlli (rdle m pu_id_u 4)) else Ok None) (fun g =>
  match g with
  | None => PDone (- ENOENT)
  | Some g =>
      match g_ul g with
      | None => PDone (- ENOENT)
      | Some _ =>
          pbind (pua_contents m fn) (fun c =>
          pbind (opt_poll h fn) (fun poll => PEvent (UlPktAss (g_id g) tn fn poll c)))
      end
  end).

(** *** Blocks *)
(** rlcmac.c:755-804 [gprs_rlcmac_handle_gprs_dl_ctrl_block] on the 23 octets; a positive error of the decoder
    (csn1_dec.c:289, 379; not in the tables of the three messages that are looked at) would be 0 here. *)
Definition ctrl_block (tn fn : Z) (blk : list Z) : pres :=
  match decode_downlink false past (msg_bits blk) (fun _ => 0) with
  | (_, DUB) => PBad
  | (_, DErr c) => PDone (Z.min c 0)
  | (h, DOk d) =>
      let m := s_mem d in
      if m 0 =? 0x02 then handle_pkt_dl_ass h m tn fn
      else if m 0 =? 0x09 then handle_pkt_ul_ack_nack h m tn fn
      else if m 0 =? 0x0a then handle_pkt_ul_ass h m tn fn
      else PDone 0
  end.
(** rlcmac.c:832-855 [gprs_rlcmac_handle_gprs_dl_block]: the payload type is the two most significant bits. *)
Definition dl_block (tn fn : Z) (msg : list Z) (cs : Z) : pres :=
  match nth_error msg 0 with
  | None => PBad
  | Some b =>
      let pt := b / 64 mod 4 in
      if pt =? 0 then PData cs
      else if pt =? 3 then PDone 0
      else if (length msg <? 23)%nat then PBad else ctrl_block tn fn (firstn 23 msg)
  end.
(** rlcmac_prim.c:587-623 *)
Definition pdch_data_ind (tn fn : Z) (msg : list Z) : pres :=
  if zlen msg =? 0 then PDone 0
  else let cs := get_by_size (zlen msg) in
       if cs =? 0 then PDone (- EINVAL)
       else if fn mod 104 =? 12 then PDone 0
       else if is_gprs cs then dl_block tn fn msg cs
       else if is_edge cs then PDone (- ENOTSUP)
       else PBad.
End Pdch.
