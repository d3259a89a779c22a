(** Model of osmo_gprs_rlcmac_decode_egprs_pkt_ch_req (csn1_ts_44_060.c), over the CSN.1 decoder. *)
From Coq Require Import ZArith List Bool.
From Verif Require Import Lib.Base Csn1.Csn1Model Csn1.Csn1DlModel.
Import ListNotations.
Open Scope Z_scope.

(** csn1_defs.h:5328-5335: the members of the content, one octet each: MultislotClassGroup 0, MultislotClass 1, NumberOfBlocks 2,
    Priority 3, RandomBits 4. *)
(** csn1_ts_44_060.c:4355-4360. *)
Definition d_mc5p2rb3 : descr := DUint 5 1 1 false (DUint 2 3 1 false (DUint 3 4 1 false DEnd)).
(** csn1_ts_44_060.c:4362-4367. *)
Definition d_mcg3p2rb3 : descr := DUint 3 0 1 false (DUint 2 3 1 false (DUint 3 4 1 false DEnd)).
(** csn1_ts_44_060.c:4369-4374. *)
Definition d_nob3p2rb3 : descr := DUint 3 2 1 false (DUint 2 3 1 false (DUint 3 4 1 false DEnd)).
(** csn1_ts_44_060.c:4376-4380. *)
Definition d_p2rb3 : descr := DUint 2 3 1 false (DUint 3 4 1 false DEnd).
(** csn1_ts_44_060.c:4382-4385. *)
Definition d_rb5 : descr := DUint 5 4 1 false DEnd.
(** csn1_ts_44_060.c:4387-4400: the alternatives; csn1_defs.h:5347-5352: Type at 0, Content (5 octets) at 1. *)
Definition content (d : descr) : descr := DType 1 5 false d DEnd.
Definition ch_req_alts : descr :=
  DAlt 1 0x00 false (content d_mc5p2rb3)
 (DAlt 3 0x04 false (content d_nob3p2rb3)
 (DAlt 3 0x05 false (content d_mcg3p2rb3)
 (DAlt 6 0x30 false (content d_p2rb3)
 (DAlt 6 0x33 false (content d_rb5)
 (DAlt 6 0x35 false (content d_rb5)
 (DAlt 6 0x36 false (content d_rb5)
 (DAlt 6 0x37 false (content d_rb5)
 (DAlt 6 0x38 false (content d_p2rb3)
 (DAlt 6 0x39 false (content d_rb5) DEnd))))))))).
(** csn1_ts_44_060.c:4402-4406. *)
Definition d_ch_req : descr := DChoice 0 1 ch_req_alts DEnd.

(** csn1_ts_44_060.c:5223-5225: the eleven bits of [ra] in two octets. *)
Definition ch_req_octets (ra : Z) : list Z := [Z.shiftr ra 3 mod 256; Z.shiftl (Z.land ra 7) 5 mod 256].
(** csn1_ts_44_060.c:5209-5236 [osmo_gprs_rlcmac_decode_egprs_pkt_ch_req]; [ra]: 16 bits. *)
Definition decode_ch_req (strict : bool) (past : Z -> Z -> Z * Z) (ra : Z) (m : mem) : dres :=
  decode strict (msg_bits (ch_req_octets ra)) 16 past 6 d_ch_req 11 0 0 m.
