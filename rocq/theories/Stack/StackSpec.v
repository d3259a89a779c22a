(** SNDCP and LLC put together: what SNDCP hands down is given to LLC at once, and what LLC hands up to SNDCP.  The library leaves this to
    its user, who has to connect the call-backs of the two layers in this way. *)
From Verif.Lib Require Import Base Outcome.
From Verif.Sndcp Require SndcpModel SndcpSpec.
From Verif.Llc Require LlcModel LlcSpec.
From Verif.Rlcmac Require RlcDataSpec.

(** One end: the state of SNDCP and that of LLC. *)
Record node := mkNode { n_s : SndcpModel.ctx; n_l : LlcModel.st }.

(** src/sndcp/sndcp.c:209 [gprs_sndcp_prim_call_down_cb] connected to LLC: LL-UNITDATA.req one after the other, until LLC refuses one: LLC's state and output, and how many were accepted before the one refused. *)
Fixpoint hand_down (e : LlcModel.env) (s : LlcModel.st) (os : list SndcpModel.out) : res (LlcModel.st * list LlcModel.out * option nat) :=
  match os with
  | [] => Ok (s, [], None)
  | SndcpModel.LlUnitdataReq t sapi _ _ prio p :: r =>
    do x <- LlcModel.step e s (LlcModel.LlUnitdata t sapi p prio);
    let '(s1, o, rc) := x in
    if rc <? 0 then Ok (s1, o, Some O)
    else do y <- hand_down e s1 r; let '(s2, o2, k) := y in Ok (s2, o ++ o2, option_map S k)
  | _ :: r => hand_down e s r
  end.
(** SN-UNITDATA.req: the new state, the frames LLC sent and the return code.  (SNDCP asks LLC in the middle of its work; LLC's answers
    are found out first, since they do not depend on SNDCP's state.) *)
Definition give (e : LlcModel.env) (N : node) (t sapi n : Z) (npdu : list Z) : res (node * list (list Z) * Z) :=
  do x <- SndcpModel.step (n_s N) (SndcpModel.SnUnitdata t sapi n npdu None);
  let '(_, os, _) := x in
  do y <- hand_down e (n_l N) os;
  let '(s1, o, k) := y in
  do z <- SndcpModel.step (n_s N) (SndcpModel.SnUnitdata t sapi n npdu k);
  let '(c1, _, rc) := z in Ok (mkNode c1 s1, LlcSpec.frames o, rc).
(** src/llc/llc.c:883-896 [gprs_llc_prim_call_up_cb] connected to SNDCP: what LLC's primitives are for it. *)
Definition upward (o : LlcModel.out) : list SndcpModel.event :=
  match o with
  | LlcModel.UpUnitdata t s p => [SndcpModel.LlUnitdata t s p]
  | LlcModel.UpXidInd t s _ nu ni => [SndcpModel.LlXid t s nu ni]
  | LlcModel.UpXidCnf t s _ nu ni => [SndcpModel.LlXid t s nu ni]
  | LlcModel.UpAssign old new => [SndcpModel.LlAssign old new]
  | LlcModel.Down _ _ _ _ => []
  end.
(** A frame received: the new state and SNDCP's primitives. *)
Definition take (e : LlcModel.env) (N : node) (t : Z) (f : list Z) : res (node * list SndcpModel.out) :=
  do x <- LlcModel.step e (n_l N) (LlcModel.RxPdu t f);
  let '(s1, o, _) := x in
  do y <- SndcpModel.run (n_s N) (flat_map upward o);
  Ok (mkNode (fst y) s1, snd y).

(** Several N-PDUs: the frames of each with the return code. *)
Fixpoint give_all (e : LlcModel.env) (N : node) (t sapi n : Z) (npdus : list (list Z)) : res (node * list (list (list Z) * Z)) :=
  match npdus with
  | [] => Ok (N, [])
  | x :: r =>
    do g <- give e N t sapi n x; let '(N1, f, rc) := g in
    do h <- give_all e N1 t sapi n r; Ok (fst h, (f, rc) :: snd h)
  end.
Fixpoint take_all (e : LlcModel.env) (N : node) (t : Z) (fs : list (list Z)) : res (node * list SndcpModel.out) :=
  match fs with
  | [] => Ok (N, [])
  | f :: r =>
    do g <- take e N t f; let (N1, o) := (g : node * list SndcpModel.out) in
    do h <- take_all e N1 t r; Ok (fst h, o ++ snd h)
  end.

(** An end that can send on NSAPI [n] of TLLI [t] over [sapi]: N201-U as the standards allow it, SNDCP's not above LLC's, and V(U) = [v]. *)
Definition can_send (N : node) (t sapi n v : Z) : Prop :=
  SndcpSpec.reachable (n_s N) /\
  exists x lim, SndcpSpec.entity (n_s N) t sapi n = Some x /\ 140 <= SndcpModel.e_n201u x <= 1520 /\ SndcpModel.e_n201u x <= lim <= 60000 /\
    LlcSpec.tx_ready (n_l N) t sapi v lim.
(** An end that serves this NSAPI, with V(UR) = [v]. *)
Definition can_receive (N : node) (t sapi n v : Z) : Prop :=
  SndcpSpec.reachable (n_s N) /\ SndcpSpec.entity (n_s N) t sapi n <> None /\ LlcSpec.rx_ready (n_l N) t sapi v.

(** N-PDUs within the standards' sizes. *)
Definition usual (p : list Z) : Prop := bytes p /\ 1 <= zlen p <= 1503.
(** Of the frames of one N-PDU the first is lost only if all are. *)
Definition first_first (k : list bool) : Prop := match k with false :: r => ~ In true r | _ => True end.
Definition all_there (k : list bool) : bool := forallb (fun b => b) k.

(** *** With RLC below *)
(** A block carrying one frame of 8 octets. *)
Definition spare : RlcDataSpec.nblk := RlcDataSpec.mknblk false [repeat 0 8] (RlcDataSpec.TFill []).
(** Block [m] of a transfer. *)
Definition nblock (bs : list RlcDataSpec.nblk) (m : Z) : RlcDataSpec.nblk := nth (Z.to_nat m) bs spare.
