(** Property theorems C05 (XID round trip) and C06 (XID parsing safety and ranges). *)
From Verif.Lib Require Import Base Outcome.
From Verif.Llc Require Import XidModel XidSpec XidProofs.

(** *** C05: any list of valid fields that fits the buffer and the output array round-trips. *)
Theorem C05_xid_round_trip : forall fs cap max,
  Forall valid_field fs -> wire_size fs <= cap -> zlen fs <= max ->
  exists bs, xid_encode cap fs = Ok bs /\ bytes bs /\ zlen bs = wire_size fs /\ xid_decode bs max = Ok fs.
Proof. exact xid_round_trip. Qed.
Print Assumptions C05_xid_round_trip.

Example C05_nonvacuous :
  let fs := [mkx 0 0 []; mkx 5 1520 []; mkx 1 4000000000 []; mkx 11 0 (repeat 7 200); mkx 12 0 []; mkx 7 0 []] in
  Forall valid_field fs /\ wire_size fs = 217 /\
  exists bs, xid_encode 1024 fs = Ok bs /\ xid_decode bs 16 = Ok fs.
Proof.
  cbv zeta. split; [|split; [vm_compute; reflexivity|eexists; split; vm_compute; reflexivity]].
  repeat (apply Forall_cons || apply Forall_nil).
  - right; split; [constructor; cbn; lia|reflexivity].
  - right; split; [constructor; cbn; lia|reflexivity].
  - right; split; [constructor; cbn; lia|reflexivity].
  - left. split; [reflexivity|]. split; [reflexivity|]. split; [apply bytesb_ok; vm_compute; reflexivity|].
    apply Z.leb_le. vm_compute. reflexivity.
  - right; split; [constructor|reflexivity].
  - right; split; [constructor; left; reflexivity|reflexivity].
Qed.

(** *** C06: decoding never reads outside the input, never returns more fields than asked for, and every
    returned value is permitted by TS 44.064 Table 6. *)
Theorem C06_xid_decode_safe : forall data max, bytes data -> 0 <= max ->
  match xid_decode data max with
  | Ok fs => zlen fs <= max /\ Forall valid_field fs
  | Err e => e = - EINVAL \/ e = - ENOMEM
  | UB => False
  end.
Proof. exact xid_decode_safe. Qed.
Print Assumptions C06_xid_decode_safe.

(** The encoder never writes beyond the buffer and never aborts, whatever the fields. *)
Theorem C06_xid_encode_safe : forall cap fs, 0 <= cap -> Forall (fun f => 0 <= x_type f) fs ->
  match xid_encode cap fs with
  | Ok bs => zlen bs <= cap
  | Err e => e = - EINVAL
  | UB => False
  end.
Proof. exact xid_encode_safe. Qed.
Print Assumptions C06_xid_encode_safe.

Example C06_nonvacuous :
  xid_decode [22; 5; 220; 171; 3; 44; 9] 16 = Err (- EINVAL) /\   (* second field announces a huge length *)
  xid_decode [22; 0; 139] 16 = Err (- EINVAL) /\                  (* N201-U below 140 *)
  xid_decode [22; 0; 140] 16 = Ok [mkx 5 140 []] /\
  xid_decode [48; 48; 48] 2 = Err (- ENOMEM).
Proof. repeat split; vm_compute; reflexivity. Qed.
