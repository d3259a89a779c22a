(** Vocabulary for the claims about the LLC layer, over octets, TLLIs and primitives only. *)
From Verif.Lib Require Import Base Outcome.
From Verif.Llc Require Import Crc24Model PduModel LlcModel.

(** TS 44.064 5.5a: a UI frame with PM=0 protects only its first seven octets (header and N202=4). *)
Definition unprotected_ui (pdu : list Z) : bool :=
  match pdu with
  | _ :: c0 :: c1 :: _ => (c0 / 32 =? 6) && (c1 mod 2 =? 0)
  | _ => false
  end.

(** The last three octets are the CRC-24 of the covered octets, least significant octet first. *)
Definition fcs_good (pdu : list Z) : Prop :=
  let n := (length pdu - 3)%nat in
  let v := gprs_llc_fcs (firstn (if unprotected_ui pdu then Nat.min n 7 else n) pdu) in
  skipn n pdu = [v mod 256; v / 256 mod 256; v / 65536].

(** N(U) of a UI frame. *)
Definition ui_number (pdu : list Z) : option Z :=
  match pdu with
  | _ :: c0 :: c1 :: _ => if c0 / 32 =? 6 then Some (c0 mod 8 * 64 + c1 / 4) else None
  | _ => None
  end.

(** Numbers of the UI frames sent down for one TLLI and SAPI, in order. *)
Definition ui_sent (t sapi : Z) (os : list out) : list Z :=
  flat_map (fun o => match o with
    | Down t' s' _ pdu => if (t' =? t) && (s' =? sapi)
                          then match ui_number pdu with Some n => [n] | None => [] end else []
    | _ => []
    end) os.

(** Primitives towards the upper layers. *)
Definition upward (o : out) : bool := match o with Down _ _ _ _ => false | _ => true end.

(** Octets of user data delivered upwards, with TLLI and SAPI. *)
Definition delivered (os : list out) : list (Z * Z * list Z) :=
  flat_map (fun o => match o with UpUnitdata t s d => [(t, s, d)] | _ => [] end) os.
(** Frames handed to the lower layer. *)
Definition frames (os : list out) : list (list Z) :=
  flat_map (fun o => match o with Down _ _ _ p => [p] | _ => [] end) os.

(** A logical link that has not carried anything yet. *)
Definition fresh_lle (l : lle) : Prop :=
  vu_send l = 0 /\ vu_recv l = 0 /\ oc_send l = 0 /\ oc_recv l = 0 /\ l_xid l = [] /\ l_rxxid l = [].
Definition fresh_llme (t : Z) (m : llme) : Prop :=
  m_tlli m = t /\ m_old m = 4294967295 /\ m_assigned m = false /\ m_susp m = false /\
  length (m_lle m) = 16%nat /\ Forall fresh_lle (m_lle m).

(** A TLLI names an entity: it is its current or its old TLLI. *)
Definition names (t : Z) (m : llme) : Prop := m_tlli m = t \/ m_old m = t.
(** No TLLI but all-ones names two entities. *)
Definition disjoint_tllis (s : st) : Prop :=
  forall i j a b t, nth_error s i = Some a -> nth_error s j = Some b -> names t a -> names t b ->
    t <> 4294967295 -> i = j.

(** An unciphered UI frame without MAC for a SAPI, with its number and information field. *)
Definition plain_ui (sapi n : Z) (data pdu : list Z) : Prop :=
  exists a c0 c1 f, pdu = [a; c0; c1] ++ data ++ f /\ length f = 3%nat /\ bytes pdu /\
    a < 128 /\ a mod 16 = sapi /\ c0 / 16 = 12 /\ c1 / 2 mod 2 = 0 /\ n = c0 mod 8 * 64 + c1 / 4.

(** SAPIs with an upper layer user in this library: GMM and the four SNDCP ones. *)
Definition user_sapi (s : Z) : Prop := In s [1; 3; 5; 9; 11].

(** Elements at the positions marked [true]. *)
Fixpoint kept {A} (keep : list bool) (l : list A) : list A :=
  match keep, l with
  | true :: k, x :: r => x :: kept k r
  | false :: k, _ :: r => kept k r
  | _, _ => []
  end.
(** Never more than [n] consecutive losses, [c] of them already suffered. *)
Fixpoint losses_below (n c : nat) (keep : list bool) : Prop :=
  match keep with
  | [] => True
  | true :: k => (c <= n)%nat /\ losses_below n 0 k
  | false :: k => losses_below n (S c) k
  end.

(** A sending link after it sent [n] UI frames, and a receiving one after it got [n] of them in order. *)
Fixpoint sender (n : nat) (l : lle) : lle :=
  match n with O => l | S k => after_tx_ui (sender k l) end.
Fixpoint receiver (n : nat) (l : lle) : lle :=
  match n with O => l | S k => fst (rx_ui (receiver k l) (Z.of_nat k mod 512)) end.

(** Requests a correct GMM may make: octets are octets, and a TLLI is never given to a subscriber while it
    names another one. *)
Definition admissible (s : st) (ev : event) : Prop :=
  match ev with
  | RxPdu _ pdu => bytes pdu
  | GmmAssign old new => old = 4294967295 \/ new = 4294967295 \/
      forall i m, nth_error s i = Some m -> names new m -> names old m
  | _ => True
  end.
(** States reachable from power-on by admissible events. *)
Inductive reachable (e : env) : st -> Prop :=
| reach_init : reachable e []
| reach_step s ev s' o rc : reachable e s -> admissible s ev -> step e s ev = Ok (s', o, rc) -> reachable e s'.

(** Everything that may happen while the subscriber with TLLI [t] (old TLLI [ot]) stays suspended. *)
Definition while_suspended (t ot : Z) (ev : event) : Prop :=
  match ev with
  | RxPdu _ pdu => bytes pdu
  | GmmAssign _ _ => False
  | GmmResume x => x <> t /\ x <> ot
  | _ => True
  end.

(** Requests that neither change a TLLI nor reset a link. *)
Definition keeps_numbering (ev : event) : Prop :=
  match ev with
  | GmmAssign old _ => old = TLLI_UNASSIGNED
  | GmmReset _ _ => False
  | RxPdu _ pdu => bytes pdu
  | _ => True
  end.

(** The sender's end of a link: it knows the TLLI, is not suspended, V(U) = [v] and N201-U = [n].
    The receiver's end: it knows the TLLI and V(UR) = [v]. *)
Definition tx_ready (s : st) (t sapi v n : Z) : Prop :=
  exists i m, find_llme s t = Some (i, m) /\ m_susp m = false /\ length (m_lle m) = 16%nat /\
    l_sapi (get_lle m sapi) = sapi /\ vu_send (get_lle m sapi) = v /\ n201_u (get_lle m sapi) = n.
Definition rx_ready (s : st) (t sapi v : Z) : Prop :=
  exists i m, find_llme s t = Some (i, m) /\ m_tlli m = t /\ length (m_lle m) = 16%nat /\
    vu_recv (get_lle m sapi) = v.

(** The TLLI an event is about. *)
Definition ev_tlli (ev : event) : Z :=
  match ev with
  | RxPdu t _ | LlUnitdata t _ _ _ | LlXidReq t _ _ | LlXidResp t _ _ | LlEstablish t _ | GmmReset t _
  | GmmTrigger t _ | GmmSuspend t | GmmResume t => t
  | GmmAssign old new => if old =? TLLI_UNASSIGNED then new else old
  end.
Definition is_assign (ev : event) : bool := match ev with GmmAssign _ _ => true | _ => false end.
