(** Model of the functions that encode and decode uplink control blocks with the CSN.1 tables, and of the ones that fill
    in the messages the mobile station sends (src/rlcmac/csn1_ts_44_060.c, rlcmac_enc.c, gre.c, tbf_dl.c, tbf_ul.c,
    tbf_ul_ass_fsm.c). *)
From Coq Require Import ZArith List Bool Lia.
From Verif Require Import Lib.Base Csn1.Csn1Model Csn1.Csn1EncModel Csn1.Csn1Tables Csn1.Csn1DlModel.
Import ListNotations.
Open Scope Z_scope.

(** csn1_defs.h:5130-5153: sizeof the union [u] of RlcMacUplink_t (LP64), the largest member being
    Packet_Enh_Measurement_Report_t. *)
Definition sz_ul_union : Z := 1376.

(** csn1_ts_44_060.c:4443-4519 and 4767-4843 with the values of include/osmocom/gprs/rlcmac/types.h:72-88: the table
    used for a message type, and the octets of the member of the union. *)
Definition ul_table (mt : Z) : option (descr * Z) :=
  match mt with
  | 0x00 => Some (Packet_Cell_Change_Failure_t, sz_Packet_Cell_Change_Failure_t)
  | 0x01 => Some (Packet_Control_Acknowledgement_t, sz_Packet_Control_Acknowledgement_t)
  | 0x02 => Some (Packet_Downlink_Ack_Nack_t, sz_Packet_Downlink_Ack_Nack_t)
  | 0x03 => Some (Packet_Uplink_Dummy_Control_Block_t, sz_Packet_Uplink_Dummy_Control_Block_t)
  | 0x04 => Some (Packet_Measurement_Report_t, sz_Packet_Measurement_Report_t)
  | 0x05 => Some (Packet_Resource_Request_t, sz_Packet_Resource_Request_t)
  | 0x06 => Some (Packet_Mobile_TBF_Status_t, sz_Packet_Mobile_TBF_Status_t)
  | 0x07 => Some (Packet_PSI_Status_t, sz_Packet_PSI_Status_t)
  | 0x08 => Some (EGPRS_PD_AckNack_t, sz_EGPRS_PD_AckNack_t)
  | 0x09 => Some (Packet_Pause_t, sz_Packet_Pause_t)
  | 0x0a => Some (Packet_Enh_Measurement_Report_t, sz_Packet_Enh_Measurement_Report_t)
  | 0x0b => Some (Additional_MS_Rad_Access_Cap_t, sz_Additional_MS_Rad_Access_Cap_t)
  | 0x0c => Some (Packet_Cell_Change_Notification_t, sz_Packet_Cell_Change_Notification_t)
  | 0x0d => Some (Packet_SI_Status_t, sz_Packet_SI_Status_t)
  | _ => None
  end.

(** csn1_ts_44_060.c:4750-4859 [osmo_gprs_rlcmac_encode_uplink] on the union [m]: the bits, or an error.  MESSAGE_TYPE is
    the first octet of every member of the union (csn1_defs.h:5134). *)
Definition encode_uplink (m : mem) : eres :=
  match ul_table (m 0) with
  | None => EErr (-1)                                                     (* 4841-4843 *)
  | Some (d, _) =>
      match encode m d 184 with
      | EOk b rem => if 0 <? rem then EErr NEED_MORE else EOk b rem       (* 4850-4856 *)
      | x => x
      end
  end.

(** csn1_ts_44_060.c:4414-4535 [osmo_gprs_rlcmac_decode_uplink] on the storage [m] of the union. *)
Definition decode_uplink (strict : bool) (past : Z -> Z -> Z * Z) (bits : Z -> bool) (m : mem) : dres :=
  let pt := field bits 0 2 in
  if (pt =? 0) || (pt =? 3) then DErr (-1)                                (* 4422-4431 *)
  else
    let mt := field bits 8 6 in                                           (* 4435-4436 *)
    let m := upd1 m 0 mt in
    match ul_table mt with
    | None => DErr (-1)                                                   (* 4516-4518 *)
    | Some (d, sz) => decode strict bits 184 past (if strict then sz else sz_ul_union) d 184 0 0 m
    end.

(** The octets of a bit vector, the first bit being the most significant one. *)
Fixpoint value (b : list bool) : Z :=
  match b with [] => 0 | x :: r => b2z x * 2 ^ zlen r + value r end.
Fixpoint pack (n : nat) (b : list bool) : list Z :=
  match n with O => [] | S n => value (firstn 8 b) :: pack n (skipn 8 b) end.
(** The 23 octets of a block that was filled with [pre] before the bits [b] were written. *)
Definition block (pre b : list bool) : list Z := pack 23 (firstn 184 b ++ skipn (length b) pre).

(** *** The messages that the mobile station sends *)
Definition zeros : mem := fun _ => 0.
(** The members that rlcmac_enc.c:408-419 sets: MESSAGE_TYPE, PayloadType, TLLI. *)
Definition prep_ctrl_ack (tlli : Z) : mem := upds (upd1 (upd1 zeros 0 1) 1 1) 4 4 tlli.
(** rlcmac_enc.c:280-292 *)
Definition prep_dummy (tlli : Z) : mem := upds (upd1 (upd1 zeros 0 3) 1 1) 4 4 tlli.
(** rlcmac_enc.c:295-349 [gprs_rlcmac_enc_prepare_pkt_resource_req]: MESSAGE_TYPE, PayloadType, Exist_ACCESS_TYPE,
    ACCESS_TYPE, ID.UnionType, ID.u.TLLI, Exist_MS_Radio_Access_capability2, Count_MS_RA_capability_value, the
    Channel_Request_Description (the count of octets is cut to 16 bits, 326), Exist_SIGN_VAR. *)
Definition prep_resource_req (tlli queued acc_type : Z) : mem :=
  let m := upd1 (upd1 (upd1 (upd1 zeros 0 5) 1 1) 4 1) 5 (acc_type mod 256) in
  let m := upds (upd1 m 8 1) 12 4 tlli in
  let m := upd1 (upd1 m 16 1) 17 1 in
  let m := upds (upd1 (upd1 m 778 1) 779 3) 782 2 queued in
  if acc_type =? 0 then m else upd1 m 787 1.
(** rlcmac_enc.c:381-406 [gprs_rlcmac_enc_prepare_pkt_downlink_ack_nack]: MESSAGE_TYPE, PayloadType, DOWNLINK_TFI,
    FINAL_ACK_INDICATION, STARTING_SEQUENCE_NUMBER (one octet, 351-374), the eight octets of the bitmap (as DlRxModel's
    [ack_desc] computes them), and the Channel_Request_Description when one is asked for ([req]: radio priority and count
    of octets). *)
Definition prep_dl_ack_nack (tfi : Z) (final : bool) (ssn : Z) (rbb : list Z) (req : option (Z * Z)) : mem :=
  let m := upd1 (upd1 (upd1 zeros 0 2) 1 1) 4 (tfi mod 256) in
  let m := upd1 (upd1 m 5 (b2z final)) 6 (ssn mod 256) in
  let m := fun x => if (7 <=? x) && (x <? 15) then nth (Z.to_nat (x - 7)) rbb 0 else m x in
  match req with
  | None => m
  | Some (prio, octets) => upds (upd1 (upd1 m 15 1) 17 (prio mod 256)) 20 2 octets
  end.

(** include/osmocom/gprs/rlcmac/rlcmac_enc.h:13 GPRS_RLCMAC_DUMMY_VEC *)
Definition dummy_vec : list bool := filler 23.
(** gre.c:286-319, tbf_ul.c:367-400, tbf_ul_ass_fsm.c:73-104 and tbf_dl.c:163-218: no message when encoding fails. *)
Definition create (m : mem) : option (list Z) :=
  match encode_uplink m with EOk b _ => Some (block dummy_vec b) | _ => None end.
