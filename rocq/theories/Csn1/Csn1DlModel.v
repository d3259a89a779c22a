(** Model of the functions that decode downlink control blocks and rest octets with the CSN.1 decoder
    (src/rlcmac/csn1_ts_44_060.c, csn1_ts_44_018.c). *)
From Coq Require Import ZArith List Bool Lia.
From Verif Require Import Lib.Base Csn1.Csn1Model Csn1.Csn1Tables.
Import ListNotations.
Open Scope Z_scope.

(** The bits of a message, the most significant bit of an octet first (libosmocore's struct bitvec). *)
Definition msg_bits (l : list Z) (i : Z) : bool := Z.testbit (nth (Z.to_nat (i / 8)) l 0) (7 - i mod 8).

(** csn1_defs.h:5076-5105: sizeof the union [u] of RlcMacDownlink_t (LP64), the largest member being
    Packet_Measurement_Order_t. *)
Definition sz_dl_union : Z := 123684.

(** csn1_ts_44_060.c:4605-4735 with the values of include/osmocom/gprs/rlcmac/types.h:34-67: the table used for a
    message type, and the octets of the member of the union that is decoded into. *)
Definition dl_table (mt : Z) : option (descr * Z) :=
  match mt with
  | 0x21 => Some (Packet_Access_Reject_t, sz_Packet_Access_Reject_t)
  | 0x01 => Some (Packet_Cell_Change_Order_t, sz_Packet_Cell_Change_Order_t)
  | 0x0b => Some (Packet_Cell_Change_Continue_t, sz_Packet_Cell_Change_Continue_t)
  | 0x02 => Some (Packet_Downlink_Assignment_t, sz_Packet_Downlink_Assignment_t)
  | 0x03 => Some (Packet_Measurement_Order_t, sz_Packet_Measurement_Order_t)
  | 0x0c => Some (Packet_Neighbour_Cell_Data_t, sz_Packet_Neighbour_Cell_Data_t)
  | 0x0d => Some (Packet_Serving_Cell_Data_t, sz_Packet_Serving_Cell_Data_t)
  | 0x22 => Some (Packet_Paging_Request_t, sz_Packet_Paging_Request_t)
  | 0x23 => Some (Packet_PDCH_Release_t, sz_Packet_PDCH_Release_t)
  | 0x04 => Some (Packet_Polling_Request_t, sz_Packet_Polling_Request_t)
  | 0x05 => Some (Packet_Power_Control_Timing_Advance_t, sz_Packet_Power_Control_Timing_Advance_t)
  | 0x24 => Some (Packet_PRACH_Parameters_t, sz_Packet_PRACH_Parameters_t)
  | 0x06 => Some (Packet_Queueing_Notification_t, sz_Packet_Queueing_Notification_t)
  | 0x07 => Some (Packet_Timeslot_Reconfigure_t, sz_Packet_Timeslot_Reconfigure_t)
  | 0x08 => Some (Packet_TBF_Release_t, sz_Packet_TBF_Release_t)
  | 0x09 => Some (Packet_Uplink_Ack_Nack_t, sz_Packet_Uplink_Ack_Nack_t)
  | 0x0a => Some (Packet_Uplink_Assignment_t, sz_Packet_Uplink_Assignment_t)
  | 0x15 => Some (Packet_Handover_Command_t, sz_Packet_Handover_Command_t)
  | 0x16 => Some (Packet_PhysicalInformation_t, sz_Packet_Handover_Command_t)     (* 4697-4701: into that member *)
  | 0x25 => Some (Packet_Downlink_Dummy_Control_Block_t, sz_Packet_Downlink_Dummy_Control_Block_t)
  | 0x31 => Some (PSI1_t, sz_PSI1_t)
  | 0x32 => Some (PSI2_t, sz_PSI2_t)
  | 0x33 => Some (PSI3_t, sz_PSI3_t)
  | 0x36 => Some (PSI5_t, sz_PSI5_t)
  | 0x37 => Some (PSI13_t, sz_PSI13_t)
  | _ => None
  end.

(** csn1_defs.h:5113-5127: the header members of RlcMacDownlink_t; the optional octets are None when not present (the
    members are then not written). *)
Record dl_hdr := mkdh {
  h_pt : Z; h_rrbp : Z; h_sp : Z; h_usf : Z;
  h_opt : option (Z * Z * Z * Z);           (* RBSN, RTI, FS, AC *)
  h_ac : option (Z * Z * Z);                (* PR, TFI, D *)
  h_ext : option (Z * Z * Z) }.             (* RBSNe, FSe, spare *)

Section Downlink.
Variable strict : bool.
Variable past : Z -> Z -> Z * Z.
(** The control block: 23 octets, which rlcmac.c:755-763 allocates whatever arrived. *)
Variable bits : Z -> bool.
Notation fld := (field bits).

(** csn1_ts_44_060.c:4548-4551 and 4567-4589; all of it lies inside the 23 octets. *)
Definition dl_header : dl_hdr * Z :=
  let pt := fld 0 2 in
  if pt =? 2 then
    let rbsn := fld 8 1 in let fs := fld 14 1 in let ac := fld 15 1 in
    let o1 := 16 in
    let a := if ac =? 1 then Some (fld o1 2, fld (o1 + 2) 5, fld (o1 + 7) 1) else None in
    let o2 := if ac =? 1 then o1 + 8 else o1 in
    let ext := (rbsn =? 1) && (fs =? 0) in
    let e := if ext then Some (fld o2 3, fld (o2 + 3) 1, fld (o2 + 4) 4) else None in
    (mkdh pt (fld 2 2) (fld 4 1) (fld 5 3) (Some (rbsn, fld 9 5, fs, ac)) a e, if ext then o2 + 8 else o2)
  else (mkdh pt (fld 2 2) (fld 4 1) (fld 5 3) None None None, 8).

(** csn1_ts_44_060.c:4538-4747 [osmo_gprs_rlcmac_decode_downlink] on the storage [m] of the union: an error, or the
    state the decoder ends in (the function then returns 0, 4741-4746). *)
Definition decode_downlink (m : mem) : dl_hdr * dres :=
  let (h, o) := dl_header in
  if (h_pt h =? 0) || (h_pt h =? 3) then (h, DErr (-1))                   (* 4553-4562 *)
  else
    let mt := fld o 6 in                                                  (* 4590 *)
    let m := upd1 m 0 mt in
    (h, match dl_table mt with
        | None => DErr (-1)                                               (* 4732-4734 *)
        | Some (d, sz) => decode strict bits 184 past (if strict then sz else sz_dl_union) d (184 - o) o o m
        end).

(** csn1_ts_44_018.c:612-640 [_osmo_gprs_rlcmac_decode] for a structure of [sz] octets and [len] octets of message. *)
Definition decode_ro (d : descr) (sz len : Z) (m : mem) : dres :=
  decode strict bits (8 * len) past sz d (8 * len) 0 0 m.
(** csn1_ts_44_018.c:642-677 *)
Definition decode_si13ro := decode_ro SI13_RestOctets_t sz_SI13_RestOctets_t.
Definition decode_imm_ass_ro := decode_ro IA_RestOctets_t sz_IA_RestOctets_t.
Definition decode_p1ro := decode_ro P1_Rest_Octets_t sz_P1_Rest_Octets_t.
Definition decode_p2ro := decode_ro P2_Rest_Octets_t sz_P2_Rest_Octets_t.
End Downlink.
