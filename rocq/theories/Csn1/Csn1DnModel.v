(** Model of the function that encodes downlink control blocks with the CSN.1 tables (src/rlcmac/csn1_ts_44_060.c). *)
From Coq Require Import ZArith List Bool Lia.
From Verif Require Import Lib.Base Csn1.Csn1Model Csn1.Csn1EncModel Csn1.Csn1Tables Csn1.Csn1DlModel Csn1.Csn1UlModel.
Import ListNotations.
Open Scope Z_scope.

(** csn1_defs.h:5113-5126: the members of RlcMacDownlink_t for the header, each an octet.  NrOfBits, which the function
    sets and nothing reads, is left out. *)
Record dn_hdr := mkdn {
  n_pt : Z; n_rrbp : Z; n_sp : Z; n_usf : Z;
  n_rbsn : Z; n_rti : Z; n_fs : Z; n_ac : Z;
  n_pr : Z; n_tfi : Z; n_d : Z;
  n_rbsne : Z; n_fse : Z; n_spare : Z }.

(** csn1_ts_44_060.c:4886-4912: the bits of the header. *)
Definition dn_bits (h : dn_hdr) : list bool :=
  wr (n_pt h) 2 ++ wr (n_rrbp h) 2 ++ wr (n_sp h) 1 ++ wr (n_usf h) 3 ++
  (if n_pt h =? 2 then                                                    (* 4891 *)
     (wr (n_rbsn h) 1 ++ wr (n_rti h) 5 ++ wr (n_fs h) 1 ++ wr (n_ac h) 1) ++
     (if n_ac h =? 1 then wr (n_pr h) 2 ++ wr (n_tfi h) 5 ++ wr (n_d h) 1 else []) ++
     (if (n_rbsn h =? 1) && (n_fs h =? 0) then wr (n_rbsne h) 3 ++ wr (n_fse h) 1 ++ wr (n_spare h) 4 else [])
   else []).

(** csn1_ts_44_060.c:4862-5069 [osmo_gprs_rlcmac_encode_downlink] on the header [h] and the union [m]: the bits, or an error.
    The table for a message type is the one of the decoder (4926-5056 name the same tables as 4605-4735).  The type is read
    from the first octet of the union (4926, csn1_defs.h:5078). *)
Definition encode_downlink (h : dn_hdr) (m : mem) : eres :=
  if (n_pt h =? 0) || (n_pt h =? 3) then EErr (-1)                        (* 4872-4881 *)
  else match dl_table (m 0) with
       | None => EErr (-1)                                                (* 5053-5055 *)
       | Some (d, _) =>
           match encode m d (184 - zlen (dn_bits h)) with                 (* 4916-4919 *)
           | EOk b rem => if 0 <? rem then EErr NEED_MORE else EOk (dn_bits h ++ b) rem   (* 5062-5066 *)
           | x => x
           end
       end.

(** The 23 octets of the vector, which is zero when it was allocated with bitvec_alloc. *)
Definition zero_vec : list bool := repeat false 184.
Definition create_dl (h : dn_hdr) (m : mem) : option (list Z) :=
  match encode_downlink h m with EOk b _ => Some (block zero_vec b) | _ => None end.
