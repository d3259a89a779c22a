(** Model of GPRS session management in the mobile: src/sm/sm.c, sm_ms_fsm.c, sm_prim.c and sm_pdu.c.
    Call-backs into other layers do not call back into SM before they return (their return codes are used
    nowhere but to decide who frees the message); logging, the allocation of messages and the names of
    primitives are left out. *)
From Verif.Lib Require Import Base Outcome.

(** sm_ms_fsm.h:9-17. *)
Inductive pstate := Inactive | Pending | Active | ModPending | InPending.
(** sm_ms_fsm.h:19-33. *)
Inductive pev :=
| EvEstCnf | EvEstRej | EvTxAct | EvRxRej (cause : Z) | EvRxAcc | EvNsapi | EvTxDeact | EvRxDeactReq
| EvRxDeactAcc | EvTxMod | EvRxModRej | EvRxModAcc | EvRelease.

(** libosmocore gsm_23_003.h; sm_qos.h:10; sm.h:14,17,20. *)
Definition RESERVED_TMSI : Z := 0xffffffff.
Definition QOS_MAX : Z := 22.
Definition MAXNSAPI : Z := 16.
Definition PCO_MAX : Z := 253.
Definition SME_PCO_MAX : Z := 255.
(** sm.h:23-36. *)
Definition SAPI3 : Z := 3.
Definition T_IPV4 : Z := 0x21. Definition T_IPV6 : Z := 0x57. Definition T_IPV4V6 : Z := 0x8d.
(** libosmocore gsm_04_08_gprs.h: message types, information elements and causes. *)
Definition MT_ACT_REQ : Z := 0x41. Definition MT_ACT_ACK : Z := 0x42. Definition MT_ACT_REJ : Z := 0x43.
Definition PDISC_SM : Z := 10.
Definition IE_APN : Z := 0x28. Definition IE_PCO : Z := 0x27. Definition IE_PDP_ADDR : Z := 0x2b.
Definition CAUSE_TEMP_OOO : Z := 0x22. Definition CAUSE_REACT_RQD : Z := 0x27.

(** sm_private.h:94-118 [struct gprs_sm_entity] with its [struct gprs_sm_ms_fsm_ctx] (sm_ms_fsm.h:35-40)
    and, of the FSM instance, the state, the number of the timer and whether it runs.  [qos] and [pco] are
    the whole arrays.  An address is the octets of an IPv4 (IPv6) address, or [None] if the family is
    neither (AF_UNSPEC). *)
Record sme := mkSme {
  sess : Z; nsapi : Z; sapi : Z; atype : Z; v4 : option (list Z); v6 : option (list Z); prio : Z;
  qos : list Z; qlen : Z; apn : list Z; pco : list Z; plen : Z; ti : Z;
  st : pstate; fT : Z; fon : bool; tries : Z }.
(** Assignments to one member, used by the functions below. *)
Definition set_sess (v : Z) (s : sme) : sme := mkSme v (nsapi s) (sapi s) (atype s) (v4 s) (v6 s) (prio s) (qos s) (qlen s) (apn s) (pco s) (plen s) (ti s) (st s) (fT s) (fon s) (tries s).
Definition set_nsapi (v : Z) (s : sme) : sme := mkSme (sess s) v (sapi s) (atype s) (v4 s) (v6 s) (prio s) (qos s) (qlen s) (apn s) (pco s) (plen s) (ti s) (st s) (fT s) (fon s) (tries s).
Definition set_sapi (v : Z) (s : sme) : sme := mkSme (sess s) (nsapi s) v (atype s) (v4 s) (v6 s) (prio s) (qos s) (qlen s) (apn s) (pco s) (plen s) (ti s) (st s) (fT s) (fon s) (tries s).
Definition set_atype (v : Z) (s : sme) : sme := mkSme (sess s) (nsapi s) (sapi s) v (v4 s) (v6 s) (prio s) (qos s) (qlen s) (apn s) (pco s) (plen s) (ti s) (st s) (fT s) (fon s) (tries s).
Definition set_v4 (v : option (list Z)) (s : sme) : sme := mkSme (sess s) (nsapi s) (sapi s) (atype s) v (v6 s) (prio s) (qos s) (qlen s) (apn s) (pco s) (plen s) (ti s) (st s) (fT s) (fon s) (tries s).
Definition set_v6 (v : option (list Z)) (s : sme) : sme := mkSme (sess s) (nsapi s) (sapi s) (atype s) (v4 s) v (prio s) (qos s) (qlen s) (apn s) (pco s) (plen s) (ti s) (st s) (fT s) (fon s) (tries s).
Definition set_prio (v : Z) (s : sme) : sme := mkSme (sess s) (nsapi s) (sapi s) (atype s) (v4 s) (v6 s) v (qos s) (qlen s) (apn s) (pco s) (plen s) (ti s) (st s) (fT s) (fon s) (tries s).
Definition set_qos (v : list Z) (s : sme) : sme := mkSme (sess s) (nsapi s) (sapi s) (atype s) (v4 s) (v6 s) (prio s) v (qlen s) (apn s) (pco s) (plen s) (ti s) (st s) (fT s) (fon s) (tries s).
Definition set_qlen (v : Z) (s : sme) : sme := mkSme (sess s) (nsapi s) (sapi s) (atype s) (v4 s) (v6 s) (prio s) (qos s) v (apn s) (pco s) (plen s) (ti s) (st s) (fT s) (fon s) (tries s).
Definition set_apn (v : list Z) (s : sme) : sme := mkSme (sess s) (nsapi s) (sapi s) (atype s) (v4 s) (v6 s) (prio s) (qos s) (qlen s) v (pco s) (plen s) (ti s) (st s) (fT s) (fon s) (tries s).
Definition set_pco (v : list Z) (s : sme) : sme := mkSme (sess s) (nsapi s) (sapi s) (atype s) (v4 s) (v6 s) (prio s) (qos s) (qlen s) (apn s) v (plen s) (ti s) (st s) (fT s) (fon s) (tries s).
Definition set_plen (v : Z) (s : sme) : sme := mkSme (sess s) (nsapi s) (sapi s) (atype s) (v4 s) (v6 s) (prio s) (qos s) (qlen s) (apn s) (pco s) v (ti s) (st s) (fT s) (fon s) (tries s).
Definition set_ti (v : Z) (s : sme) : sme := mkSme (sess s) (nsapi s) (sapi s) (atype s) (v4 s) (v6 s) (prio s) (qos s) (qlen s) (apn s) (pco s) (plen s) v (st s) (fT s) (fon s) (tries s).
Definition set_st (v : pstate) (s : sme) : sme := mkSme (sess s) (nsapi s) (sapi s) (atype s) (v4 s) (v6 s) (prio s) (qos s) (qlen s) (apn s) (pco s) (plen s) (ti s) v (fT s) (fon s) (tries s).
Definition set_fT (v : Z) (s : sme) : sme := mkSme (sess s) (nsapi s) (sapi s) (atype s) (v4 s) (v6 s) (prio s) (qos s) (qlen s) (apn s) (pco s) (plen s) (ti s) (st s) v (fon s) (tries s).
Definition set_fon (v : bool) (s : sme) : sme := mkSme (sess s) (nsapi s) (sapi s) (atype s) (v4 s) (v6 s) (prio s) (qos s) (qlen s) (apn s) (pco s) (plen s) (ti s) (st s) (fT s) v (tries s).
Definition set_tries (v : Z) (s : sme) : sme := mkSme (sess s) (nsapi s) (sapi s) (atype s) (v4 s) (v6 s) (prio s) (qos s) (qlen s) (apn s) (pco s) (plen s) (ti s) (st s) (fT s) (fon s) v.

(** sm_private.h:128-136: the identities of a mobile; the routing area is kept as its octets. *)
Record ids := mkIds { ptmsi : Z; psig : Z; tlli : Z; imsi : list Z; imei : list Z; imeisv : list Z; ra : list Z }.
(** sm_private.h:121-137 [struct gprs_sm_ms]. *)
Record ms := mkMs { mid : Z; gid : ids; pdp : list (option sme) }.
(** sm_private.h:70-89 [struct gprs_sm_ctx]: the next session id and the list of mobiles. *)
Record ctx := mkCtx { next : Z; mss : list ms }.

(** ** The world outside *)

(** SMREG-PDP_ACTIVATE.cnf, accepted or not (sm_prim.h:78-102). *)
Inductive verdict :=
| Accepted (type : Z) (a4 a6 : option (list Z)) (prio : Z) (qos : list Z) (ptmsi sig tlli : Z) (ra : list Z)
| Rejected (cause : Z).
(** Primitives SM hands to other layers: GMMSM downwards, SNSM and SMREG upwards. *)
Inductive out :=
| OEstReq (sess : Z) (with_imsi : bool) (ptmsi sig : Z) (imsi imei imeisv ra : list Z)
| OUnitReq (id : Z) (pdu : list Z)
| OActCnf (mid nsapi : Z) (pco : list Z) (v : verdict)
| ODeactInd (mid nsapi : Z) (tear_down cause : Z) (pco : list Z)
| OSnAct (tlli nsapi sapi prio : Z) (qos : list Z)
| OSnDeact (tlli nsapi : Z).

(** ** Functions of one entity and the identities of its mobile: state, primitives sent, result; [UB] is a
    failed assertion or an access outside an object.  Nothing here models repository code. *)
Definition St : Type := ids * sme.
Definition M (A : Type) : Type := St -> res (St * list out * A).
Definition ret {A} (a : A) : M A := fun s => Ok (s, [], a).
Definition bindM {A B} (m : M A) (f : A -> M B) : M B := fun s =>
  match m s with
  | Ok (s1, o1, a) => match f a s1 with Ok (s2, o2, b) => Ok (s2, o1 ++ o2, b) | Err e => Err e | UB => UB end
  | Err e => Err e | UB => UB end.
Notation "'let*' x := m 'in' k" := (bindM m (fun x => k)) (at level 200, x name, m at level 100, k at level 200, right associativity).
Notation "m ;; k" := (bindM m (fun _ => k)) (at level 199, right associativity).
Definition gets {A} (f : St -> A) : M A := fun s => Ok (s, [], f s).
Definition upd (f : sme -> sme) : M unit := fun s => Ok ((fst s, f (snd s)), [], tt).
Definition updi (f : ids -> ids) : M unit := fun s => Ok ((f (fst s), snd s), [], tt).
Definition liftr {A} (r : res A) : M A := fun s => match r with Ok a => Ok (s, [], a) | Err e => Err e | UB => UB end.
Definition send (o : out) : M unit := fun s => Ok (s, [o], tt).
Definition abort {A} : M A := fun _ => UB.

(** memcpy to the start of an array. *)
Definition overlay (v arr : list Z) : list Z := v ++ skipn (length v) arr.

(** ** Messages *)

(** libosmocore osmo_apn_from_str: every label preceded by its length ([lab] is the current label, backwards). *)
Fixpoint apn_enc (s lab : list Z) : list Z :=
  match s with
  | [] => zlen lab :: rev lab
  | c :: r => if c =? 46 then zlen lab :: rev lab ++ apn_enc r [] else apn_enc r (c :: lab)
  end.

(** libosmocore osmo_sockaddr_is_any: an address of no family counts as "any" (it returns -1). *)
Definition addr_any (a : option (list Z)) : bool := match a with None => true | Some l => forallb (Z.eqb 0) l end.
(** sm_pdu.c:200-201: the addresses passed to the encoder. *)
Definition addr_arg (a : option (list Z)) : option (list Z) := if addr_any a then None else a.

(** sm_pdu.c:57-99. *)
Definition pdp_addr_enc (type : Z) (a4 a6 : option (list Z)) : list Z :=
  let o (a : option (list Z)) := match a with Some l => l | None => [] end in
  1 :: type mod 256 ::
    (if type =? T_IPV6 then o a6
     else if type =? T_IPV4V6 then
       match a4 with Some l4 => l4 ++ o a6 | None => o a6 end
     else o a4).

(** sm_pdu.c:174-222; at most 2 + 2 + 23 + 23 + 102 + 257 octets are written, which always fit the 2048 allocated
    (sm.c:297), so osmo_apn_from_str does not fail. *)
Definition build_act_req (s : sme) : res (list Z) :=
  let tid := Z.lxor (ti s) 8 in
  do q <- rdn (qos s) 0 (qlen s) ;
  do p <- rdn (pco s) 0 (plen s) ;
  let a := pdp_addr_enc (atype s) (addr_arg (v4 s)) (addr_arg (v6 s)) in
  Ok ([Z.lor PDISC_SM (Z.shiftl tid 4) mod 256; MT_ACT_REQ; nsapi s; sapi s mod 256]
      ++ qlen s :: q
      ++ zlen a :: a
      ++ (match apn s with [] => [] | _ => let e := apn_enc (apn s) [] in IE_APN :: zlen e mod 256 :: e end)
      ++ (if 0 <? plen s then IE_PCO :: plen s :: p else [])).

(** sm_pdu.c:37-54: kinds of elements; libosmocore gsm_04_08_gprs.h has the values of the tags. *)
Inductive ietype := INone | ISingle | IFixed (n : Z) | ITlv.
Definition ie_def (t : Z) : ietype :=
  if t =? 0x80 then ISingle
  else if (t =? 0x28) || (t =? 0x27) || (t =? 0x2b) || (t =? 0x30) || (t =? 0x31) || (t =? 0x34)
          || (t =? 0x43) || (t =? 0x45) || (t =? 0x48) then ITlv
  else if (t =? 0x29) || (t =? 0x32) || (t =? 0x46) then IFixed 1
  else if t =? 0x47 then IFixed 7
  else INone.
(** libosmocore tlv_parse on the message from [ofs] on: tag, position and length of the value of every
    element, or [None] for an unknown tag or an element that does not fit. *)
Fixpoint tlv_parse (f : nat) (pdu : list Z) (ofs : Z) : option (list (Z * (Z * Z))) :=
  if zlen pdu <=? ofs then Some [] else
  match f with
  | O => Some []
  | S f =>
      let t := nth (Z.to_nat ofs) pdu 0 in
      let more (tag pos len n : Z) :=
        if zlen pdu - ofs <? n then None
        else match tlv_parse f pdu (ofs + n) with Some r => Some ((tag, (pos, len)) :: r) | None => None end in
      match ie_def (Z.land t 0xf0) with
      | ISingle => more (Z.land t 0xf0) ofs 1 1
      | _ =>
        match ie_def t with
        | IFixed n => more t (ofs + 1) n (1 + n)
        | ITlv => if zlen pdu - ofs <? 2 then None
                  else let l := nth (Z.to_nat (ofs + 1)) pdu 0 in more t (ofs + 2) l (2 + l)
        | _ => None
        end
      end
  end.
(** libosmocore TLVP_PRESENT, TLVP_VAL, TLVP_LEN: the first element with that tag. *)
Fixpoint tlv_find (t : Z) (l : list (Z * (Z * Z))) : option (Z * Z) :=
  match l with [] => None | (u, x) :: r => if u =? t then Some x else tlv_find t r end.

(** sm_pdu.c:101-171: [p] is the position of the element's value in the message, [n] its length.  The
    addresses are cleared before anything is checked. *)
Definition pdp_addr_dec (pdu : list Z) (p n : Z) : M Z :=
  upd (fun s => set_v6 None (set_v4 None s)) ;;
  let* o := liftr (rd pdu p) in
  if negb (Z.land o 0x0f =? 1) then ret (- EINVAL) else
  let len := (n - 2) mod 65536 in
  let* t := liftr (rd pdu (p + 1)) in
  let fin := upd (set_atype t) ;; ret 0 in
  if t =? T_IPV4 then
    if len =? 4 then let* a := liftr (rdn pdu (p + 2) 4) in upd (set_v4 (Some a)) ;; fin
    else if negb (len =? 0) then ret (- EINVAL) else fin
  else if t =? T_IPV6 then
    if len =? 16 then let* a := liftr (rdn pdu (p + 2) 16) in upd (set_v6 (Some a)) ;; fin
    else if negb (len =? 0) then ret (- EINVAL) else fin
  else if t =? T_IPV4V6 then
    if len =? 4 then let* a := liftr (rdn pdu (p + 2) 4) in upd (set_v4 (Some a)) ;; fin
    else if len =? 16 then let* a := liftr (rdn pdu (p + 6) 16) in upd (set_v6 (Some a)) ;; fin
    else if len =? 20 then
      let* a := liftr (rdn pdu (p + 2) 4) in upd (set_v4 (Some a)) ;;
      let* b := liftr (rdn pdu (p + 6) 16) in upd (set_v6 (Some b)) ;; fin
    else if negb (len =? 0) then ret (- EINVAL) else fin
  else ret (- EINVAL).

(** ** Primitives sent *)

(** sm.c:186-204. *)
Definition submit_est_req : M unit :=
  let* o := gets (fun x => let i := fst x in
    OEstReq (sess (snd x)) (ptmsi i =? RESERVED_TMSI) (ptmsi i) (psig i) (imsi i) (imei i) (imeisv i) (ra i)) in
  send o.
(** sm.c:206-237, sm_prim.h:78-102; [pco] of the primitive has room for 253 octets. *)
Definition submit_act_cnf (m : Z) (cause : Z) : M unit :=
  let* s := gets snd in let* i := gets fst in
  if PCO_MAX <? plen s then abort else
  let* p := liftr (rdn (pco s) 0 (plen s)) in
  if cause =? 0 then
    let* q := liftr (rdn (qos s) 0 (qlen s)) in
    send (OActCnf m (nsapi s) p (Accepted (atype s) (v4 s) (v6 s) (prio s) q (ptmsi i) (psig i) (tlli i) (ra i)))
  else send (OActCnf m (nsapi s) p (Rejected (cause mod 256))).
(** sm.c:239-256, sm_prim.h:135-152: the options are copied to the [pco] of [pdp_deact_cnf], which lies two
    octets before that of [pdp_deact_ind], over [tear_down_ind] and [cause]. *)
Definition submit_deact_ind (m : Z) (cause : Z) : M unit :=
  let* s := gets snd in
  if PCO_MAX <? plen s then abort else
  let* p := liftr (rdn (pco s) 0 (plen s)) in
  send (ODeactInd m (nsapi s) (nth 0 p 0) (nth 1 p cause) (firstn (Z.to_nat (plen s)) (skipn 2 p ++ repeat 0 253))).
(** sm.c:258-274. *)
Definition submit_sn_act : M unit :=
  let* s := gets snd in let* i := gets fst in
  let* q := liftr (rdn (qos s) 0 (qlen s)) in
  send (OSnAct (tlli i) (nsapi s) (sapi s) (prio s) q).
(** sm.c:276-286. *)
Definition submit_sn_deact : M unit := let* o := gets (fun x => OSnDeact (tlli (fst x)) (nsapi (snd x))) in send o.
(** sm.c:289-311: the primitive carries the mobile's id where GMM expects the session id. *)
Definition tx_act_req (m : Z) : M unit :=
  let* s := gets snd in let* p := liftr (build_act_req s) in send (OUnitReq m p).

(** ** The state machine *)

(** sm_ms_fsm.c:200-261 in_event_mask. *)
Definition permitted (s : pstate) (e : pev) : bool :=
  match s, e with
  | Inactive, EvTxAct => true
  | Pending, (EvEstCnf | EvEstRej | EvRxRej _ | EvRxAcc | EvNsapi | EvRelease) => true
  | Active, (EvRxDeactReq | EvTxDeact | EvTxMod | EvRelease) => true
  | ModPending, (EvRxDeactReq | EvRxModRej | EvRxModAcc | EvRelease) => true
  | InPending, (EvRxDeactAcc | EvRelease) => true
  | _, _ => false
  end.
(** sm_ms_fsm.c:200-261 out_state_mask. *)
Definition may_go (s t : pstate) : bool :=
  match s, t with
  | Inactive, Pending => true
  | Pending, (Inactive | Pending | Active) => true
  | Active, (Inactive | InPending | ModPending) => true
  | ModPending, (Inactive | Active | InPending) => true
  | InPending, Inactive => true
  | _, _ => false
  end.
(** sm_ms_fsm.c:35-44,46-55,68-73 with libosmocore's osmo_fsm_inst_state_chg: the timer is stopped, T3380
    (30 s, sm.c:42-45) started on entering PDP-ACTIVE-PENDING; entering PDP-INACTIVE schedules the release of
    the entity (timer number 0), entering PDP-ACTIVE-PENDING asks GMM for a connection. *)
Definition state_chg (t : pstate) : M unit :=
  let* s := gets snd in
  if negb (may_go (st s) t) then ret tt else
  match t with
  | Inactive => upd (fun s => set_fT 0 (set_fon true (set_st Inactive s)))
  | Pending => upd (fun s => set_fT 3380 (set_fon true (set_st Pending s))) ;; submit_est_req
  | _ => upd (fun s => set_fT 0 (set_fon false (set_st t s)))
  end.

(** sm_ms_fsm.c:57-66, 75-107, 109-128, 130-149, 151-163: the actions of the states. *)
Definition action (m : Z) (s : pstate) (e : pev) : M unit :=
  match s, e with
  | Inactive, EvTxAct => state_chg Pending
  | Pending, EvEstCnf => tx_act_req m
  | Pending, EvEstRej => state_chg Inactive
  | Pending, EvRxRej cause => state_chg Inactive ;; submit_act_cnf m cause
  | Pending, EvRxAcc => submit_sn_act
  | Pending, EvNsapi => state_chg Active ;; submit_act_cnf m 0
  | Pending, EvRelease => state_chg Inactive
  | Active, EvRxDeactReq => state_chg Inactive
  | Active, EvTxDeact => state_chg InPending
  | Active, EvTxMod => state_chg ModPending
  | Active, EvRelease => state_chg Inactive
  | ModPending, EvRxDeactReq => state_chg Inactive
  | ModPending, EvRxModRej => state_chg InPending
  | ModPending, EvRxModAcc => state_chg Active
  | ModPending, EvRelease => state_chg Inactive
  | InPending, EvRxDeactAcc => state_chg Inactive
  | InPending, EvRelease => state_chg Inactive
  | _, _ => abort
  end.
(** libosmocore osmo_fsm_inst_dispatch. *)
Definition dispatch (m : Z) (e : pev) : M Z :=
  let* s := gets snd in
  if permitted (st s) e then action m (st s) e ;; ret 0 else ret (-1).

(** sm_ms_fsm.c:165-198: expiry of the entity's timer; [true] if the entity is to be freed. *)
Definition timer_cb (m : Z) : M bool :=
  let* s := gets snd in
  upd (set_fon false) ;;
  if fT s =? 0 then ret true
  else if fT s =? 3380 then
    let n := (tries s + 1) mod 256 in
    upd (set_tries n) ;;
    match st s with
    | Pending =>
        if n =? 4 then let* _ := dispatch m (EvRxRej CAUSE_TEMP_OOO) in ret false
        else state_chg Pending ;; ret false
    | _ => abort
    end
  else abort.

(** ** Messages received *)

(** sm.c:367-377, 417-427: the protocol configuration options of an answer. *)
Definition rx_pco (pdu : list Z) (l : list (Z * (Z * Z))) : M bool :=
  match tlv_find IE_PCO l with
  | Some (p, n) =>
      if SME_PCO_MAX <? n then ret false
      else let* v := liftr (rdn pdu p n) in upd (fun s => set_pco (overlay v (pco s)) (set_plen n s)) ;; ret true
  | None => ret true
  end.
(** sm.c:314-389. *)
Definition rx_act_ack (m : Z) (pdu : list Z) : M Z :=
  if zlen pdu <? 4 then ret (- EINVAL) else
  let* a := liftr (rd pdu 2) in upd (set_sapi a) ;;
  let* q := liftr (rd pdu 3) in
  if QOS_MAX <? q then ret (- EINVAL) else
  if zlen pdu <? 4 + q then ret (- EINVAL) else
  let* v := liftr (rdn pdu 4 q) in upd (fun s => set_qos (overlay v (qos s)) s) ;;
  if zlen pdu <? 5 + q then ret (- EINVAL) else
  let* r := liftr (rd pdu (4 + q)) in upd (set_prio r) ;;
  let* ok :=
    (if 5 + q <? zlen pdu then
      match tlv_parse (length pdu) pdu (5 + q) with
      | None => ret false
      | Some l =>
          let* rc := match tlv_find IE_PDP_ADDR l with Some (p, n) => pdp_addr_dec pdu p n | None => ret 0 end in
          if rc <? 0 then ret false else rx_pco pdu l
      end
    else ret true) in
  if negb ok then ret (- EINVAL) else
  let* rc := dispatch m EvRxAcc in if rc <? 0 then ret (- EINVAL) else ret rc.
(** sm.c:392-439. *)
Definition rx_act_rej (m : Z) (pdu : list Z) : M Z :=
  if zlen pdu <? 3 then ret (- EINVAL) else
  let* cause := liftr (rd pdu 2) in
  let* ok :=
    (if 3 <? zlen pdu then
      match tlv_parse (length pdu) pdu 3 with None => ret false | Some l => rx_pco pdu l end
    else ret true) in
  if negb ok then ret (- EINVAL) else
  let* rc := dispatch m (EvRxRej cause) in if rc <? 0 then ret (- EINVAL) else ret rc.
(** sm.c:442-465. *)
Definition sm_rx (m : Z) (pdu : list Z) : M Z :=
  if zlen pdu <? 2 then ret (- EINVAL) else
  let* t := liftr (rd pdu 1) in
  if t =? MT_ACT_ACK then rx_act_ack m pdu
  else if t =? MT_ACT_REJ then rx_act_rej m pdu
  else ret (- EINVAL).

(** ** Entities and mobiles *)

(** The slot of an NSAPI handles [f]; reading outside the array of 16 is undefined. *)
Fixpoint put {A} (n : nat) (v : A) (l : list A) : list A :=
  match l, n with [], _ => [] | _ :: r, O => v :: r | x :: r, S n => x :: put n v r end.
Definition on_slot (m : ms) (n : Z) (f : M Z) : option (res (ms * list out * Z)) :=
  match nth (Z.to_nat n) (pdp m) None with
  | None => None
  | Some s => Some (match f (gid m, s) with
                    | Ok ((i, s'), o, z) => Ok (mkMs (mid m) i (put (Z.to_nat n) (Some s') (pdp m)), o, z)
                    | Err e => Err e | UB => UB end)
  end.
(** The first mobile that meets [p] handles [f] (the loops of sm.c:115-135). *)
Fixpoint on_ms (p : ms -> bool) (f : ms -> res (ms * list out * Z)) (l : list ms) : option (res (list ms * list out * Z)) :=
  match l with
  | [] => None
  | m :: r =>
      if p m then Some (match f m with Ok (m', o, z) => Ok (m' :: r, o, z) | Err e => Err e | UB => UB end)
      else match on_ms p f r with
           | Some (Ok (r', o, z)) => Some (Ok (m :: r', o, z))
           | x => x
           end
  end.
(** sm.c:115-124, 126-135. *)
Definition by_id (i : Z) (m : ms) : bool := mid m =? i.
Definition by_tlli (t : Z) (m : ms) : bool := tlli (gid m) =? t.
(** sm.c:169-184: the slot of the session, if the mobile has it. *)
Fixpoint slot_of (i : Z) (k : Z) (l : list (option sme)) : option Z :=
  match l with
  | [] => None
  | Some s :: r => if sess s =? i then Some k else slot_of i (k + 1) r
  | None :: r => slot_of i (k + 1) r
  end.
Definition has_sess (i : Z) (m : ms) : bool := match slot_of i 0 (pdp m) with Some _ => true | None => false end.
(** sm.c:169-184: the entity of a session handles [f]. *)
Definition on_sess (i : Z) (f : Z -> M Z) (none : Z) (c : ctx) : res (ctx * list out * Z) :=
  match on_ms (has_sess i)
          (fun m => match slot_of i 0 (pdp m) with
                    | Some k => match on_slot m k (f (mid m)) with Some r => r | None => UB end
                    | None => UB end) (mss c) with
  | Some (Ok (l, o, z)) => Ok (mkCtx (next c) l, o, z)
  | Some (Err e) => Err e | Some UB => UB
  | None => Ok (c, [], none)
  end.
(** sm_private.h:140-149 with the loops of sm.c:115-135: the entity of an NSAPI of the first mobile that meets [p]
    handles [f]; the NSAPI must be one of 5 to 15. *)
Definition on_nsapi (p : ms -> bool) (n : Z) (f : Z -> M Z) (none : Z) (c : ctx) : res (ctx * list out * Z) :=
  match on_ms p
          (fun m => if (5 <=? n) && (n <=? 15) then
                      match on_slot m n (f (mid m)) with Some r => r | None => Ok (m, [], none) end
                    else UB) (mss c) with
  | Some (Ok (l, o, z)) => Ok (mkCtx (next c) l, o, z)
  | Some (Err e) => Err e | Some UB => UB
  | None => Ok (c, [], none)
  end.

(** sm.c:85-98: a new mobile. *)
Definition new_ms (i : Z) : ms := mkMs i (mkIds 0 0 0 [] [] [] []) (repeat None 16).
(** sm.c:137-156 with sm_ms_fsm.c:299-307: a new entity. *)
Definition new_sme (id n : Z) : sme :=
  mkSme id n 0 0 None None 0 (repeat 0 22) 0 [] (repeat 0 255) 0 0 Inactive 0 false 0.

(** Members of SMREG-PDP_ACTIVATE.req (sm_prim.h:55-75); [q_qos] and [q_pco] are the whole arrays, of 22
    and 253 octets. *)
Record actreq := mkActreq {
  q_nsapi : Z; q_sapi : Z; q_atype : Z; q_v4 : option (list Z); q_v6 : option (list Z); q_qos : list Z; q_qlen : Z;
  q_apn : list Z; q_pco : list Z; q_plen : Z; q_ptmsi : Z; q_sig : Z; q_imsi : list Z; q_imei : list Z;
  q_imeisv : list Z; q_rai : list Z }.

(** sm_prim.c:260-290. *)
Definition act_req (m : Z) (q : actreq) : M Z :=
  upd (set_sapi (if q_sapi q =? 0 then SAPI3 else q_sapi q)) ;;
  upd (fun s => set_v6 (q_v6 q) (set_v4 (q_v4 q) (set_atype (q_atype q) s))) ;;
  upd (set_apn (q_apn q)) ;;
  let* v := liftr (rdn (q_qos q) 0 (q_qlen q)) in
  upd (fun s => set_qos (overlay v (qos s)) (set_qlen (q_qlen q) s)) ;;
  let* w := liftr (rdn (q_pco q) 0 (q_plen q)) in
  upd (fun s => set_pco (overlay w (pco s)) (set_plen (q_plen q) s)) ;;
  updi (fun i => mkIds (q_ptmsi q) (q_sig q) (tlli i)
                   (match q_imsi q with [] => imsi i | l => l end) (match q_imei q with [] => imei i | l => l end)
                   (match q_imeisv q with [] => imeisv i | l => l end) (q_rai q)) ;;
  dispatch m EvTxAct.

(** sm_prim.c:235-293 with sm.c:137-156. *)
Definition prim_act_req (i : Z) (q : actreq) (c : ctx) : res (ctx * list out * Z) :=
  let n := q_nsapi q in
  if (QOS_MAX <? q_qlen q) || (SME_PCO_MAX <? q_plen q) then UB else
  let alloc (m : ms) : res (ms * list out * Z) :=
    if MAXNSAPI <=? n then UB else
    match on_slot (mkMs (mid m) (gid m) (put (Z.to_nat n) (Some (new_sme (next c) n)) (pdp m))) n (act_req (mid m) q) with
    | Some r => r | None => UB
    end in
  match find (by_id i) (mss c) with
  | Some m =>
      if negb ((5 <=? n) && (n <=? 15)) then UB else
      match nth (Z.to_nat n) (pdp m) None with
      | Some _ => Ok (c, [], - EINVAL)
      | None => match on_ms (by_id i) alloc (mss c) with
                | Some (Ok (l, o, z)) => Ok (mkCtx ((next c + 1) mod 2 ^ 32) l, o, z)
                | Some (Err e) => Err e | Some UB => UB
                | None => UB
                end
      end
  | None =>
      match alloc (new_ms i) with
      | Ok (m, o, z) => Ok (mkCtx ((next c + 1) mod 2 ^ 32) (m :: mss c), o, z)
      | Err e => Err e | UB => UB
      end
  end.

(** sm_prim.c:509-535. *)
Definition est_acc (m : Z) (t sig l : Z) (r : list Z) : M Z :=
  updi (fun i => mkIds (if t =? RESERVED_TMSI then ptmsi i else t) sig l (imsi i) (imei i) (imeisv i) r) ;;
  dispatch m EvEstCnf.
(** sm_prim.c:398-404: the answer of SNDCP to a deactivation. *)
Definition sn_deact_rsp (m : Z) : M Z := submit_deact_ind m CAUSE_REACT_RQD ;; dispatch m EvRelease.

(** sm.c:467-494: the contexts whose bit in the PDP context status is 0 are deactivated. *)
Definition inactive_bit (status : list Z) (n : Z) : bool :=
  if n <? 8 then negb (Z.testbit (nth 0 status 0) n) else negb (Z.testbit (nth 1 status 0) (n - 8)).
Fixpoint status_outs (status : list Z) (t : Z) (l : list (option sme)) : list out :=
  match l with
  | [] => []
  | Some s :: r => (if inactive_bit status (nsapi s) then [OSnDeact t (nsapi s)] else []) ++ status_outs status t r
  | None :: r => status_outs status t r
  end.
(** sm_prim.c:575-608. *)
Definition modify_ind (i t sig l : Z) (r : list Z) (status : option (list Z)) (c : ctx) : res (ctx * list out * Z) :=
  match on_ms (has_sess i)
          (fun m => let g := gid m in
                    let g := mkIds (if t =? RESERVED_TMSI then ptmsi g else t) sig l (imsi g) (imei g) (imeisv g) r in
                    Ok (mkMs (mid m) g (pdp m),
                        match status with Some x => status_outs x l (pdp m) | None => [] end, 0)) (mss c) with
  | Some (Ok (l, o, z)) => Ok (mkCtx (next c) l, o, z)
  | Some (Err e) => Err e | Some UB => UB
  | None => Ok (c, [], - EINVAL)
  end.

(** sm_ms_fsm.c:165-198, sm.c:158-167: the timer of the entity in slot [n] of mobile [i] expires. *)
Definition expire (i n : Z) (c : ctx) : res (ctx * list out * Z) :=
  match on_ms (by_id i)
          (fun m => match nth (Z.to_nat n) (pdp m) None with
                    | Some s =>
                        if fon s then
                          match timer_cb (mid m) (gid m, s) with
                          | Ok ((g, s'), o, free) =>
                              Ok (mkMs (mid m) g (put (Z.to_nat n) (if free then None else Some s') (pdp m)), o, 0)
                          | Err e => Err e | UB => UB end
                        else Ok (m, [], 0)
                    | None => Ok (m, [], 0)
                    end) (mss c) with
  | Some (Ok (l, o, z)) => Ok (mkCtx (next c) l, o, z)
  | Some (Err e) => Err e | Some UB => UB
  | None => Ok (c, [], 0)
  end.

(** What can reach SM: SMREG from the application, SNSM from SNDCP, GMMSM from GMM, and its own timers. *)
Inductive input :=
| IActReq (ms_id : Z) (q : actreq) | ISmregOther
| ISnAct (tlli nsapi : Z) | ISnDeact (tlli nsapi : Z) | ISnOther
| IEstAcc (sess ptmsi sig tlli : Z) (ra : list Z) | IEstRej (sess : Z) | IRelease (sess : Z)
| IUnit (sess : Z) (pdu : list Z)
| IModify (sess ptmsi sig tlli : Z) (ra : list Z) (status : option (list Z))
| IGmmOther
| IExpire (ms_id slot : Z).

(** sm_prim.c:295-332, 351-374, 377-405, 408-452, 509-572, 610-659: an SMREG or SNSM primitive that is not supported is freed twice
    (sm_prim.c:201,328 and 215,448). *)
Definition step (c : ctx) (x : input) : res (ctx * list out * Z) :=
  match x with
  | IActReq i q => prim_act_req i q c
  | ISmregOther => UB
  | ISnAct t n => on_nsapi (by_tlli t) n (fun m => dispatch m EvNsapi) (- ENOENT) c
  | ISnDeact t n => on_nsapi (by_tlli t) n sn_deact_rsp (- ENOENT) c
  | ISnOther => UB
  | IEstAcc i t sig l r => on_sess i (fun m => est_acc m t sig l r) (- EINVAL) c
  | IEstRej i => on_sess i (fun m => dispatch m EvEstRej) (- EINVAL) c
  | IRelease i => on_sess i (fun m => dispatch m EvRelease) (- EINVAL) c
  | IUnit i pdu => on_sess i (fun m => sm_rx m pdu) (- EINVAL) c
  | IModify i t sig l r status => modify_ind i t sig l r status c
  | IGmmOther => Ok (c, [], 0)
  | IExpire i n => expire i n c
  end.
(** sm.c:57-83. *)
Definition ctx0 : ctx := mkCtx 0 [].
Fixpoint run (c : ctx) (l : list input) : res (ctx * list out) :=
  match l with
  | [] => Ok (c, [])
  | x :: r => match step c x with
              | Ok (c1, o1, _) => match run c1 r with Ok (c2, o2) => Ok (c2, o1 ++ o2) | Err e => Err e | UB => UB end
              | Err e => Err e | UB => UB
              end
  end.
