(** Model of osmo_gprs_rlcmac_decode_ms_ra_cap and osmo_gprs_rlcmac_encode_ms_ra_cap (csn1_ts_24_008.c). *)
From Coq Require Import ZArith List Bool.
From Verif Require Import Lib.Base Csn1.Csn1Model Csn1.Csn1EncModel Csn1.Csn1Tables Csn1.Csn1DlModel Csn1.Csn1UlModel.
Import ListNotations.
Open Scope Z_scope.

(** csn1_ts_24_008.c:343-347; csn1_defs.h:1321-1325: the count at 0, eleven elements of 69 octets from 1. *)
Definition d_ra_cap : descr := DRecTArr true 0 1 759 69 11 MS_RA_capability_value_t (DPad DEnd).
Definition sz_ra_cap : Z := 760.
(** csn1_ts_24_008.c:349-370 [osmo_gprs_rlcmac_decode_ms_ra_cap] on a vector of [len] octets.  Bits that are left over are only logged. *)
Definition decode_ra_cap (strict : bool) (past : Z -> Z -> Z * Z) (bits : Z -> bool) (len : Z) (m : mem) : dres :=
  decode strict bits (8 * len) past sz_ra_cap d_ra_cap (8 * len) 0 0 m.
(** csn1_ts_24_008.c:372-392 [osmo_gprs_rlcmac_encode_ms_ra_cap]: the bits, or an error. *)
Definition encode_ra_cap (len : Z) (m : mem) : eres :=
  match encode m d_ra_cap (8 * len) with
  | EOk b rem => if 0 <? rem then EErr NEED_MORE else EOk b rem
  | x => x
  end.
(** The octets of a vector that was zero (bitvec_alloc). *)
Definition ra_cap_octets (len : Z) (b : list bool) : list Z :=
  pack (Z.to_nat len) (b ++ repeat false (Z.to_nat (8 * len) - length b)).
