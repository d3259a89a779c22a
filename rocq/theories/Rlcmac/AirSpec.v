(** RLC data blocks on the air as 3GPP TS 44.060 has them, and the bits of octets. *)
From Verif.Lib Require Import Base Outcome.
From Verif.Rlcmac Require RlcDataModel RlcDataSpec AirModel.

(** *** Bits of octets, the least significant bit of each octet first *)
Definition obits (o : Z) : list bool := map (Z.testbit o) [0; 1; 2; 3; 4; 5; 6; 7].
Definition bits (l : list Z) : list bool := flat_map obits l.

(** *** Coding schemes CS-1 to CS-4 (1..4): octets of an RLC data block and of the message that carries it (TS 44.060 table 10.2.1) *)
Definition data_octets (cs : Z) : Z := if cs =? 1 then 20 else if cs =? 2 then 30 else if cs =? 3 then 36 else 50.
Definition msg_octets (cs : Z) : Z := if cs =? 1 then 23 else if cs =? 2 then 34 else if cs =? 3 then 40 else 54.

(** Bits [lo + 1] to [lo + n] of octet [i] (the standard counts bits from 1). *)
Definition field (m : list Z) (i : nat) (lo n : Z) : Z := (nth i m 0 / 2 ^ lo) mod 2 ^ n.

(** *** TS 44.060 figure 10.2.2.1: an uplink RLC data block *)
Definition u_pt m := field m 0 6 2.
Definition u_cv m := field m 0 2 4.
Definition u_si m := field m 0 1 1.
Definition u_r m := field m 0 0 1.
Definition u_spare m := field m 1 7 1.
Definition u_pi m := field m 1 6 1.
Definition u_tfi m := field m 1 1 5.
Definition u_ti m := field m 1 0 1.
Definition u_bsn m := field m 2 1 7.
Definition u_e m := field m 2 0 1.
Definition u_data (m : list Z) : list Z :=
  firstn (if zlen m =? 23 then 20 else if zlen m =? 34 then 30 else if zlen m =? 40 then 36 else 50) (skipn 3 m).
(** What the network takes from it. *)
Definition heard (m : list Z) : RlcDataSpec.ublk := RlcDataSpec.mkublk (u_ti m =? 1) (u_cv m =? 0) (u_e m =? 1) (u_data m).

(** *** TS 44.060 figure 10.2.1.1: a downlink RLC data block, put together by the network *)
Record dl_fields := mkdf { f_usf : Z; f_sp : Z; f_rrbp : Z; f_pr : Z; f_fill : Z }.
Definition df_ok (f : dl_fields) : Prop := 0 <= f_usf f < 8 /\ 0 <= f_sp f < 2 /\ 0 <= f_rrbp f < 4 /\ 0 <= f_pr f < 4 /\ 0 <= f_fill f < 256.
(** Payload type 00; the octets of the message after the data are filled in any way. *)
Definition dl_message (cs tfi bsn : Z) (f : dl_fields) (b : RlcDataSpec.nblk) : list Z :=
  [f_rrbp f * 16 + f_sp f * 8 + f_usf f;
   f_pr f * 64 + tfi * 2 + (if RlcDataSpec.n_last b then 1 else 0);
   bsn * 2 + (if RlcDataSpec.e_bit (RlcDataSpec.n_segs b) (RlcDataSpec.n_tail b) then 1 else 0)]
  ++ RlcDataSpec.n_octets b ++ (if cs =? 1 then [] else [f_fill f]).

(** *** Blocks in the store and blocks sent *)
(** A block in the store whose contents are [u]: coding scheme as the size of the data has it; the buffer may be longer.  The countdown
    value is an octet that is at most 15 or, counted down once too often, 255. *)
Definition holds (b : AirModel.ablk) (u : RlcDataSpec.ublk) : Prop :=
  1 <= AirModel.a_cur b <= 4 /\ 1 <= AirModel.a_init b <= 4 /\ zlen (RlcDataSpec.u_oct u) = data_octets (AirModel.a_cur b) /\
  (exists rest, AirModel.a_buf b = RlcDataSpec.u_oct u ++ rest) /\
  AirModel.a_ti b = (if RlcDataSpec.u_ti u then 1 else 0) /\ AirModel.a_e b = (if RlcDataSpec.u_e u then 1 else 0) /\
  (0 <= AirModel.a_cv b <= 15 \/ AirModel.a_cv b = 255) /\ RlcDataSpec.u_final u = (AirModel.a_cv b =? 0).
(** [m] is what is sent for it. *)
Definition sent_as (tfi : Z) (u : RlcDataSpec.ublk) (m : list Z) : Prop :=
  exists s bsn s' k c f, 0 <= bsn < 128 /\ holds (s bsn) u /\ AirModel.acked_block s tfi bsn None = Ok (s', m, k, c, f).
(** Several blocks one after the other, by their numbers: the octets sent. *)
Fixpoint send_all (s : AirModel.store) (tfi : Z) (l : list Z) : res (AirModel.store * list (list Z)) :=
  match l with
  | [] => Ok (s, [])
  | n :: r => do x <- AirModel.acked_block s tfi n None; let '(s1, m, _, _, _) := x in
              do y <- send_all s1 tfi r; Ok (fst y, m :: snd y)
  end.
