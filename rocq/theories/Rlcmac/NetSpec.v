(** What a network does to make three kinds of downlink control blocks with the encoder of this library: the members of the
    structures that it sets, everything else being zero (as tests/rlcmac/rlcmac_prim_test.c:305-324 does).  The offsets of the members are
    those of the structures in csn1_defs.h (LP64), as in the handlers' model (PdchModel). *)
From Coq Require Import ZArith List Bool.
From Verif Require Import Lib.Base Csn1.Csn1Model Csn1.Csn1UlModel Csn1.Csn1DnModel Rlcmac.PdchSpec.
Import ListNotations.
Open Scope Z_scope.

(** csn1_defs.h:5113-5126: the members for the header. *)
Definition net_header (rrbp sp usf : Z) (o : option opt_octets) : dn_hdr :=
  match o with
  | None => mkdn 1 rrbp sp usf 0 0 0 0 0 0 0 0 0 0
  | Some o =>
      let '(pr, tfi, d) := match o_ac o with Some x => x | None => (0, 0, 0) end in
      let '(e, f, x) := match o_ext o with Some x => x | None => (0, 0, 0) end in
      mkdn 2 rrbp sp usf (o_rbsn o) (o_rti o) (o_fs o) (if o_ac o then 1 else 0) pr tfi d e f x
  end.
(** csn1_defs.h:1942-2019: Packet Uplink Ack/Nack in GPRS mode: MESSAGE_TYPE, PAGE_MODE, UPLINK_TFI, CHANNEL_CODING_COMMAND,
    FINAL_ACK_INDICATION, STARTING_SEQUENCE_NUMBER, RECEIVED_BLOCK_BITMAP, the contention resolution TLLI, and TBF_EST in the
    additions of release 99. *)
Definition net_ack (mode tfi ccc final ssn : Z) (bm : list Z) (tlli est : option Z) : mem :=
  let m := upd1 (upd1 (upd1 (upd1 (upd1 (upd1 zeros 0 9) 1 mode) 2 tfi) 4 ccc) 5 final) 6 ssn in
  let m := fun x => if (7 <=? x) && (x <? 15) then nth (Z.to_nat (x - 7)) bm 0 else m x in
  let m := match tlli with Some t => upds (upd1 m 32 1) 36 4 t | None => m end in
  match est with Some e => upd1 (upd1 m 20 1) 29 e | None => m end.
(** csn1_defs.h:2378-2416: Packet Downlink Assignment: MESSAGE_TYPE, PAGE_MODE, ID, MAC_MODE, RLC_MODE, CONTROL_ACK,
    TIMESLOT_ALLOCATION, the timing advance, TSC and ARFCN, DOWNLINK_TFI_ASSIGNMENT, TBF_Starting_Time. *)
Definition net_id (a : Z) (who : (Z + Z) + Z) (m : mem) : mem :=
  match who with
  | inl (inl u) => upd1 m (a + 5) u
  | inl (inr d) => upd1 (upd1 m (a + 4) 1) (a + 5) d
  | inr t => upds (upd1 m a 1) (a + 4) 4 t
  end.
Definition net_start (a : Z) (f : Z * Z * Z + Z) (m : mem) : mem :=
  match f with
  | inl (t1, t3, t2) => upd1 (upd1 (upd1 m (a + 2) t1) (a + 3) t3) (a + 4) t2
  | inr k => upds (upd1 m a 1) (a + 2) 2 k
  end.
Definition net_freq (a : Z) (f : Z * Z) (m : mem) : mem := upds (upd1 m a (fst f)) (a + 2) 2 (snd f).
Definition net_dl_ass (mode : Z) (who : (Z + Z) + Z) (mac rlc ack slots : Z) (ta : option Z) (freq : option (Z * Z)) (tfi : option Z)
  (start : option (Z * Z * Z + Z)) : mem :=
  let m := net_id 12 who (upd1 (upd1 zeros 0 2) 1 mode) in
  let m := upd1 (upd1 (upd1 (upd1 m 20 mac) 21 rlc) 22 ack) 23 slots in
  let m := match ta with Some v => upd1 (upd1 m 24 1) 25 v | None => m end in
  let m := match freq with Some f => net_freq 44 f (upd1 m 40 1) | None => m end in
  let m := match tfi with Some t => upd1 (upd1 m 72 1) 76 t | None => m end in
  match start with Some f => net_start 108 f (upd1 m 104 1) | None => m end.
(** csn1_defs.h:2065-2108, 2160-2203, 2285-2306: Packet Uplink Assignment in GPRS mode with dynamic allocation of one timeslot [tn]: MESSAGE_TYPE,
    PAGE_MODE, ID, CHANNEL_CODING_COMMAND, TLLI_BLOCK_CHANNEL_CODING, TSC and ARFCN, UPLINK_TFI_ASSIGNMENT, TBF_Starting_Time, USF. *)
Definition net_ul_ass (mode : Z) (who : (Z + Z) + Z) (ccc tbcc : Z) (freq : option (Z * Z)) (tfi : Z) (start : option (Z * Z * Z + Z)) (tn : nat) (usf : Z) : mem :=
  let m := net_id 8 who (upd1 (upd1 zeros 0 10) 1 mode) in
  let m := upd1 (upd1 (upd1 m 20 ccc) 21 tbcc) 56 1 in
  let m := match freq with Some f => net_freq 28 f (upd1 m 27 1) | None => m end in
  let m := upd1 (upd1 m 63 1) 64 tfi in
  let m := match start with Some f => net_start 68 f (upd1 m 67 1) | None => m end in
  upd1 (upd1 m (75 + 2 * Z.of_nat tn) 1) (76 + 2 * Z.of_nat tn) usf.
(** *** Values that fit their fields *)
Definition maybe (P : Z -> Prop) (o : option Z) : Prop := match o with Some v => P v | None => True end.
Definition id_fits (w : (Z + Z) + Z) : Prop := match w with inl (inl t) | inl (inr t) => 0 <= t < 32 | inr t => 0 <= t < 2 ^ 32 end.
Definition start_fits (f : option (Z * Z * Z + Z)) : Prop :=
  match f with None => True | Some (inl (t1, t3, t2)) => 0 <= t1 < 32 /\ 0 <= t3 < 64 /\ 0 <= t2 < 32 | Some (inr k) => 0 <= k < 2 ^ 13 end.
Definition freq_fits (f : option (Z * Z)) : Prop := match f with None => True | Some (tsc, arfcn) => 0 <= tsc < 8 /\ 0 <= arfcn < 1024 end.
