(** EGPRS RLC data blocks as 3GPP TS 44.060 has them: coding and puncturing schemes, layout, blocks in two segments. *)
From Verif.Lib Require Import Base Outcome.
From Verif.Rlcmac Require AirModel.
From Verif.Rlcmac Require Import AirSpec.

(** *** TS 44.060 10.4.8a: header type, CPS, and what it stands for: MCS (1..9), padding, puncturing schemes of the first and second data
    block (1 = P1, ...; 0 = there is no second data block) *)
Record cps_row := mkrow { r_type : Z; r_cps : Z; r_mcs : Z; r_pad : bool; r_p1 : Z; r_p2 : Z }.
Definition cps_table : list cps_row :=
  (* table 10.4.8a.1.1, header type 1 *)
  [mkrow 1 0 9 false 1 1; mkrow 1 1 9 false 1 2; mkrow 1 2 9 false 1 3; mkrow 1 4 9 false 2 1; mkrow 1 5 9 false 2 2; mkrow 1 6 9 false 2 3;
   mkrow 1 8 9 false 3 1; mkrow 1 9 9 false 3 2; mkrow 1 10 9 false 3 3;
   mkrow 1 11 8 false 1 1; mkrow 1 12 8 false 1 2; mkrow 1 13 8 false 1 3; mkrow 1 14 8 false 2 1; mkrow 1 15 8 false 2 2; mkrow 1 16 8 false 2 3;
   mkrow 1 17 8 false 3 1; mkrow 1 18 8 false 3 2; mkrow 1 19 8 false 3 3;
   mkrow 1 20 7 false 1 1; mkrow 1 21 7 false 1 2; mkrow 1 22 7 false 1 3; mkrow 1 23 7 false 2 1; mkrow 1 24 7 false 2 2; mkrow 1 25 7 false 2 3;
   mkrow 1 26 7 false 3 1; mkrow 1 27 7 false 3 2; mkrow 1 28 7 false 3 3;
  (* table 10.4.8a.2.1, header type 2 *)
   mkrow 2 0 6 false 1 0; mkrow 2 1 6 false 2 0; mkrow 2 2 6 true 1 0; mkrow 2 3 6 true 2 0; mkrow 2 4 5 false 1 0; mkrow 2 5 5 false 2 0;
  (* table 10.4.8a.3.1, header type 3 *)
   mkrow 3 0 4 false 1 0; mkrow 3 1 4 false 2 0; mkrow 3 2 4 false 3 0; mkrow 3 3 3 false 1 0; mkrow 3 4 3 false 2 0; mkrow 3 5 3 false 3 0;
   mkrow 3 6 3 true 1 0; mkrow 3 7 3 true 2 0; mkrow 3 8 3 true 3 0; mkrow 3 9 2 false 1 0; mkrow 3 10 2 false 2 0; mkrow 3 11 1 false 1 0; mkrow 3 12 1 false 2 0].
(** Header type of a scheme, and how many puncturing schemes it has. *)
Definition type_of (mcs : Z) : Z := if mcs <=? 4 then 3 else if mcs <=? 6 then 2 else 1.
Definition schemes (mcs : Z) : Z := if (mcs =? 1) || (mcs =? 2) || (mcs =? 5) || (mcs =? 6) then 2 else 3.

(** *** Layout of an uplink message (TS 44.060 10.3a.4 and table 10.2.1): octets of a data block, the bit its data start at (header, two bits
    TI and E, padding), octets of the message *)
Definition octets (mcs : Z) (pad : bool) : Z :=
  if mcs =? 1 then 22 else if mcs =? 2 then 28 else if mcs =? 3 then (if pad then 31 else 37) else if mcs =? 4 then 44
  else if (mcs =? 5) || (mcs =? 7) then 56 else if mcs =? 6 then (if pad then 68 else 74) else if mcs =? 8 then 68 else 74.
Definition start (mcs : Z) (pad : bool) : Z := (if type_of mcs =? 3 then 31 else if type_of mcs =? 2 then 37 else 46) + 2 + (if pad then 48 else 0).
Definition message (mcs : Z) (pad : bool) : Z :=
  (start mcs pad + 8 * octets mcs pad + (if type_of mcs =? 1 then 2 + 8 * octets mcs pad else 0) + 7) / 8.
(** The network, told header type [r_type] and [r_cps], reads the data [d] of the first data block of message [m]. *)
Definition reads (ht cps : Z) (m d : list Z) : Prop :=
  exists r, In r cps_table /\ r_type r = ht /\ r_cps r = cps /\ zlen m = message (r_mcs r) (r_pad r) /\ bytes d /\
    bits d = firstn (Z.to_nat (8 * octets (r_mcs r) (r_pad r))) (skipn (Z.to_nat (start (r_mcs r) (r_pad r))) (bits m)).

(** *** Transmissions of blocks that are alone in their message: the number of the block, and for one sent again because it was not
    acknowledged the scheme commanded (MCS-1 to MCS-9 are 5 to 13) and whether ARQ type I is used.  Found for each: block number, split
    block indicator (TS 44.060 table 10.4.8b.1: 0 = all of the block, 1 and 2 = first segment, 3 = second segment), message and CPS. *)
Definition once (s : AirModel.store) (tfi : Z) (x : Z * option (Z * bool)) :=
  match snd x with Some (cmd, arq) => AirModel.resend s tfi (fst x) cmd arq | None => AirModel.acked_block s tfi (fst x) None end.
Definition status (s : AirModel.store) (x : Z * option (Z * bool)) : res AirModel.ablk :=
  let b := s (fst x) in
  match snd x with
  | Some (cmd, arq) => do c <- AirModel.retx_cs (AirModel.a_init b) cmd arq;
      Ok (AirModel.mkablk (AirModel.a_buf b) (AirModel.a_ti b) (AirModel.a_e b) (AirModel.a_cv b) (AirModel.a_last b) c (AirModel.a_init b) (AirModel.a_ps b) (AirModel.a_seg b))
  | None => Ok b
  end.
Fixpoint several (s : AirModel.store) (tfi : Z) (l : list (Z * option (Z * bool))) : res (list (Z * Z * list Z * option Z)) :=
  match l with
  | [] => Ok []
  | x :: r => do b <- status s x; do spb <- AirModel.get_spb b; do y <- once s tfi x;
              let '(s1, m, _, c, _) := y in
              do z <- several s1 tfi r; Ok ((fst x, spb, m, c) :: z)
  end.

(** *** What the network can make of a block [d] of which it got the following, when [half] is the first segment it has: all of it, or a
    first segment, or a second segment that goes with the first segment right before. *)
Fixpoint fits (d : list Z) (half : option (list Z)) (l : list (Z * list Z)) : Prop :=
  match l with
  | [] => True
  | (spb, x) :: r => (spb = 0 /\ x = d /\ fits d None r) \/
      ((spb = 1 \/ spb = 2) /\ half = None /\ (exists y, y <> [] /\ d = x ++ y) /\ x <> [] /\ fits d (Some x) r) \/
      (spb = 3 /\ (exists h, half = Some h /\ d = h ++ x) /\ fits d None r)
  end.
