(** What the SNDCP theorems are about, written without the model's helpers: the fields of an SN-UNITDATA PDU
    (3GPP TS 44.065, 7.2), and the arrival schedules the reassembly theorem speaks of. *)
From Coq Require Import Permutation.
From Verif.Lib Require Import Base Outcome.
From Verif.Sndcp Require Import SndcpModel.

(** First octet of an SN-PDU: spare, F, T, M, NSAPI. *)
Definition oct (p : list Z) (i : nat) : Z := nth i p 0.
Definition F_bit (p : list Z) : bool := oct p 0 / 64 mod 2 =? 1.
Definition T_bit (p : list Z) : bool := oct p 0 / 32 mod 2 =? 1.
Definition M_bit (p : list Z) : bool := oct p 0 / 16 mod 2 =? 1.
Definition nsapi_of (p : list Z) : Z := oct p 0 mod 16.
(** Only a first segment carries the compression octet, so the next fields move by one octet. *)
Definition hdr_len (p : list Z) : nat := if F_bit p then 4%nat else 3%nat.
Definition seg_of (p : list Z) : Z := oct p (hdr_len p - 2) / 16.
Definition npdu_nr (p : list Z) : Z := oct p (hdr_len p - 2) mod 16 * 256 + oct p (hdr_len p - 1).
Definition payload (p : list Z) : list Z := skipn (hdr_len p) p.

(** What arrives of a sequence of N-PDUs, each given with its SN-PDUs, and which of them are complete.
    - All SN-PDUs of an N-PDU may get lost.
    - If the first arrives, the later ones follow in any order, some of them lost; the next N-PDU starts after
      them.
    - If they are all there, any later segments at all may still follow. *)
Inductive schedule : list (list Z * list (list Z)) -> list (list Z) -> list (list Z) -> Prop :=
| sch_none : schedule [] [] []
| sch_lost x l a d : schedule l a d -> schedule (x :: l) a d
| sch_part npdu p0 rest sel lost l a d :
    Permutation (sel ++ lost) rest -> lost <> [] -> schedule l a d ->
    schedule ((npdu, p0 :: rest) :: l) (p0 :: sel ++ a) d
| sch_whole npdu p0 rest sel extra l a d :
    Permutation sel rest -> (rest = [] -> extra = []) ->
    Forall (fun p => F_bit p = false /\ seg_of p <> 0) extra -> schedule l a d ->
    schedule ((npdu, p0 :: rest) :: l) (p0 :: sel ++ extra ++ a) (npdu :: d).

(** The entity serving an NSAPI of a TLLI over a SAPI, if there is one: the first management entity with that
    TLLI decides. *)
Definition entity (c : ctx) (tlli sapi nsapi : Z) : option sne :=
  match find (fun m => m_tlli m =? tlli) (c_snme c) with
  | Some m =>
      match nth_error (m_sne m) (Z.to_nat nsapi) with
      | Some (Some e) => if e_sapi e =? sapi then Some e else None
      | _ => None
      end
  | None => None
  end.

(** Which TLLI and NSAPI an event is about. *)
Definition concerns (ev : event) (tlli nsapi : Z) : Prop :=
  match ev with
  | SnUnitdata t _ n _ _ => t = tlli /\ n = nsapi
  | LlUnitdata t _ p => t = tlli /\ nsapi_of p = nsapi
  | LlXid t _ _ _ => t = tlli
  | LlAssign t new => t = tlli \/ new = tlli
  | LlEstablishCnf _ _ => False
  | SnsmActivate t n _ _ _ => t = tlli /\ n = nsapi
  | SnsmDeactivate t n => t = tlli /\ n = nsapi
  end.

(** The SN-PDUs handed to LLC among some primitives, in order. *)
Definition down (outs : list out) : list (list Z) :=
  flat_map (fun o => match o with LlUnitdataReq _ _ _ _ _ p => [p] | _ => [] end) outs.

(** A state some history leads to. *)
Definition reachable (c : ctx) : Prop := exists ms evs outs, run (init ms) evs = Ok (c, outs).

(** No two management entities have the same TLLI. *)
Definition unique_tlli (c : ctx) : Prop := NoDup (map m_tlli (c_snme c)).

(** [npdu] was accepted on [nsapi] by some reachable sender and became the SN-PDUs [pdus], within the limits
    the reassembly theorems need: N201-U holds a header, and there are at most 15 segments. *)
Definition sent_as (nsapi : Z) (npdu : list Z) (pdus : list (list Z)) : Prop :=
  exists c tlli sapi e c' outs rc,
    reachable c /\ entity c tlli sapi nsapi = Some e /\ 0 <= nsapi < 16 /\
    4 <= e_n201u e /\ zlen npdu <= e_n201u e - 4 + 14 * (e_n201u e - 3) /\
    step c (SnUnitdata tlli sapi nsapi npdu None) = Ok (c', outs, rc) /\ down outs = pdus.

(** Events that may touch the numbering of an entity: it sends, it is deactivated, or a TLLI is replaced. *)
Definition renumbers (ev : event) (t n : Z) : Prop :=
  match ev with
  | SnUnitdata t' _ n' _ _ => t' = t /\ n' = n
  | SnsmDeactivate t' n' => t' = t /\ n' = n
  | LlAssign _ _ => True
  | _ => False
  end.

(** Primitives an event may cause, and whom they must be about. *)
Definition about (c : ctx) (ev : event) (o : out) : Prop :=
  match ev, o with
  | SnUnitdata t s n _ _, LlUnitdataReq t' s' _ _ _ p => t' = t /\ s' = s /\ nsapi_of p = n
  | LlUnitdata t s p, SnUnitdataInd t' s' n' _ => t' = t /\ s' = s /\ n' = nsapi_of p
  | LlEstablishCnf t s, SnsmActivateRsp t' n' => t' = t /\ entity c t s n' <> None
  | SnsmActivate t n _ _ _, SnsmActivateRsp t' n' => t' = t /\ n' = n
  | SnsmDeactivate t n, SnsmDeactivateRsp t' n' => t' = t /\ n' = n
  | _, _ => False
  end.
