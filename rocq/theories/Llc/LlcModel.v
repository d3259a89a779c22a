(** Model of the LLC layer proper: LLME/LLE state, transmit and receive paths, LL and LLGMM primitives.
    Sources: src/llc/llc.c, llc_ll.c, llc_llgmm.c, llc_grr.c, llc_bssgp.c.

    Simplifications, valid for the whole file:
    - [llme->algo] and [llme->cksn] are never written after allocation anywhere in the library (they stay
      GEA0 and 7), so ciphering never happens; the model hard-wires these two values.
    - Primitives handed to the upper and lower layer are recorded as outputs; their callbacks are assumed to
      return 0 and not to call back into LLC before returning (a reaction of a layer is a later event).
    - Memory allocation does not fail.  Timers and ABM variables, never used by the code, are absent.
    - The fields retrans_ctr, age_timestamp, bvci, nsei (never read) are absent. *)
From Verif.Lib Require Import Base Outcome.
From Verif.Llc Require Import Crc24Model PduModel XidModel.

(** llc_private.h:22. *)
Definition TLLI_UNASSIGNED : Z := 4294967295.
(** errno values used here only. *)
Definition ENOKEY : Z := 126.

(** include/osmocom/gprs/llc/llc.h: location of the layer. *)
Inductive location := LOC_MS | LOC_SGSN.

(** What the model takes from outside: the location, and libosmocore's gprs_tlli_type() reduced to
    "is one of LOCAL, FOREIGN, RANDOM, AUXILIARY" (llc_grr.c:99-108, llc_bssgp.c:97-106). *)
Record env := mkenv { e_loc : location; e_tlli_ok : Z -> bool }.

(** llc_private.h:181-230 [struct gprs_llc_lle]; an absent xid / rx_xid array is the empty list. *)
Record lle := mklle {
  l_sapi : Z; l_adm : bool;            (* state = ASSIGNED_ADM *)
  vu_send : Z; vu_recv : Z; vu_last : Z; vu_dup : Z;
  oc_send : Z; oc_recv : Z; n201_u : Z; n201_i : Z;
  l_xid : list xfield; l_rxxid : list xfield }.

(** llc_private.h:235-261 [struct gprs_llc_llme]. *)
Record llme := mkllme {
  m_tlli : Z; m_old : Z; m_assigned : bool; m_susp : bool; m_iov : Z; m_lle : list lle }.

(** g_llc_ctx->llme_list, head first. *)
Definition st := list llme.

(** Primitives leaving the layer. *)
Inductive out :=
| Down (tlli sapi prio : Z) (pdu : list Z)                 (* GRR-UNITDATA.req / BSSGP-DL-UNITDATA.req *)
| UpUnitdata (tlli sapi : Z) (l3 : list Z)                 (* LL-UNITDATA.ind *)
| UpXidInd (tlli sapi : Z) (l3 : option (list Z)) (nu ni : Z)  (* LL-XID.ind *)
| UpXidCnf (tlli sapi : Z) (l3 : list Z) (nu ni : Z)       (* LL-XID.cnf *)
| UpAssign (old new : Z).                                  (* LL-ASSIGN.ind *)

(** llc.c:62-127: default N201-U and N201-I per SAPI. *)
Definition dflt_n201 (s : Z) : Z * Z :=
  if s =? 1 then (400, 0) else if s =? 2 then (270, 0) else if s =? 3 then (500, 1503)
  else if s =? 5 then (500, 1503) else if s =? 7 then (270, 0) else if s =? 8 then (270, 0)
  else if s =? 9 then (500, 1503) else if s =? 11 then (500, 1503) else (0, 0).

(** llc.c:158-168 [lle_init]. *)
Definition lle_init (s : Z) : lle :=
  mklle s false 0 0 0 0 0 0 (fst (dflt_n201 s)) (snd (dflt_n201 s)) [] [].

(** llc.c:170-194 [gprs_llc_llme_alloc] (the new entity is put at the head of the list). *)
Definition llme_alloc (tlli : Z) : llme :=
  mkllme tlli TLLI_UNASSIGNED false false 0 (map (fun i => lle_init (Z.of_nat i)) (seq 0 16)).

(** llc.c:207-216 [gprs_llc_find_llme_by_tlli]: index of the first match. *)
Definition llme_has (tlli : Z) (m : llme) : bool := (m_tlli m =? tlli) || (m_old m =? tlli).
Fixpoint find_llme (s : st) (tlli : Z) : option (nat * llme) :=
  match s with
  | [] => None
  | m :: r => if llme_has tlli m then Some (0%nat, m)
              else match find_llme r tlli with Some (i, m') => Some (S i, m') | None => None end
  end.

(** Replacement of one list element. *)
Fixpoint upd {A} (l : list A) (i : nat) (x : A) : list A :=
  match l, i with
  | [], _ => []
  | _ :: r, O => x :: r
  | y :: r, S i => y :: upd r i x
  end.
Definition set_lles (m : llme) (ls : list lle) : llme :=
  mkllme (m_tlli m) (m_old m) (m_assigned m) (m_susp m) (m_iov m) ls.
Definition set_lle (m : llme) (sapi : Z) (l : lle) : llme := set_lles m (upd (m_lle m) (Z.to_nat sapi) l).
Definition get_lle (m : llme) (sapi : Z) : lle := nth (Z.to_nat sapi) (m_lle m) (lle_init sapi).

(** llc_private.h:379-386 [gprs_llc_received_cr_is_cmd]. *)
Definition cr_is_cmd (loc : location) (cr : bool) : bool :=
  match loc with LOC_SGSN => negb cr | LOC_MS => cr end.
(** llc_private.h:388-395 [gprs_llc_encode_is_cmd_as_cr]: the argument is_cmd is ignored. *)
Definition enc_cr (loc : location) : bool := match loc with LOC_SGSN => true | LOC_MS => false end.

(** A frame handed to the lower layer (llc.c:282-300, 390-415); encoding cannot fail for UI and U frames. *)
Definition send (h : hdr) (data : list Z) (tlli sapi prio : Z) : res (list out) :=
  match pdu_encode h data with
  | Ok pdu => Ok [Down tlli sapi prio pdu]
  | Err e => Err e
  | UB => UB
  end.

(** llc.c:258-302 [gprs_llc_lle_tx_xid]: flags are only P/F and C/R, so the frame is encoded unprotected. *)
Definition hdr_xid (loc : location) (sapi : Z) : hdr :=
  mkhdr sapi FMT_U XID (enc_cr loc) true false false false false 0 0 0 0 [].
Definition tx_xid (e : env) (m : llme) (l : lle) (payload : list Z) : res (list out) :=
  send (hdr_xid (e_loc e) (l_sapi l)) payload (m_tlli m) (l_sapi l) 1.

(** llc.c:305-346 [gprs_llc_lle_tx_null]. *)
Definition tx_null (m : llme) (l : lle) : res (list out) :=
  send (mkhdr (l_sapi l) FMT_U NUL false false false false false false 0 0 0 0 []) [] (m_tlli m) (l_sapi l) 4.

(** llc.c:227-256 [gprs_llc_lle_tx_dm]. *)
Definition tx_dm (m : llme) (l : lle) : res (list out) :=
  send (mkhdr (l_sapi l) FMT_U DM false true false false false false 0 0 0 0 []) [] (m_tlli m) 0 0.

(** Field updates. *)
Definition set_tx (l : lle) (vu oc : Z) : lle :=
  mklle (l_sapi l) (l_adm l) vu (vu_recv l) (vu_last l) (vu_dup l) oc (oc_recv l) (n201_u l) (n201_i l) (l_xid l) (l_rxxid l).
Definition set_rx (l : lle) (vr last dup oc : Z) : lle :=
  mklle (l_sapi l) (l_adm l) (vu_send l) vr last dup (oc_send l) oc (n201_u l) (n201_i l) (l_xid l) (l_rxxid l).
Definition set_xid (l : lle) (nu ni : Z) (x rx : list xfield) : lle :=
  mklle (l_sapi l) (l_adm l) (vu_send l) (vu_recv l) (vu_last l) (vu_dup l) (oc_send l) (oc_recv l) nu ni x rx.

(** llc.c:352-417 [gprs_llc_lle_tx_ui]: -EFBIG leaves everything unchanged; otherwise the frame carries
    N(U)=V(U), then V(U) advances modulo 512 and the overflow counter (uint32_t) by 512 when the *new*
    V(U) is 511.  The E bit is never set (algo stays GEA0). *)
Definition hdr_ui (loc : location) (sapi vu : Z) : hdr :=
  mkhdr sapi FMT_UI UI (enc_cr loc) false false false false true 0 vu 0 0 [].
Definition after_tx_ui (l : lle) : lle :=
  let vu := (vu_send l + 1) mod 512 in
  set_tx l vu (if (vu + 1) / 512 =? 0 then oc_send l else (oc_send l + 512) mod 2 ^ 32).
Definition tx_ui (e : env) (m : llme) (l : lle) (data : list Z) (prio : Z) : res (lle * list out) :=
  if n201_u l <? zlen data then Err (- EFBIG)
  else do o <- send (hdr_ui (e_loc e) (l_sapi l) (vu_send l)) data (m_tlli m) (l_sapi l) prio;
       Ok (after_tx_ui l, o).

(** llc.c:459-498 [gprs_llc_lle_generate_xid]: with a NULL l3par the count drops from 3 to 2 and N201-I is
    left out; val_len is a uint8_t.  The fields are remembered even when encoding fails. *)
Definition gen_xid_fields (l : lle) (l3 : option (list Z)) : list xfield :=
  let f := [mkx T_VERSION 0 []; mkx T_N201_U (n201_u l) []; mkx T_N201_I (n201_i l) []] in
  match l3 with
  | None => firstn 2 f
  | Some [] => f
  | Some d => f ++ [mkx T_L3_PAR 0 (firstn (Z.to_nat (zlen d mod 256)) d)]
  end.

(** llc.c:508-531 [gprs_llc_lle_tx_xid_req]. *)
Definition tx_xid_req (e : env) (m : llme) (l : lle) (l3 : option (list Z)) : res (lle * list out * Z) :=
  let fs := gen_xid_fields l l3 in
  let l' := set_xid l (n201_u l) (n201_i l) fs (l_rxxid l) in
  match xid_encode 1024 fs with
  | Ok b => if 0 <? zlen b then do o <- tx_xid e m l b; Ok (l', o, 0) else Ok (l', [], - EINVAL)
  | Err _ => Ok (l', [], - EINVAL)
  | UB => UB
  end.

(** llc.c:540-548: the first L3 field of the stored request is replaced by the answer of layer 3. *)
Fixpoint replace_l3 (fs : list xfield) (l3 : list Z) : list xfield :=
  match fs with
  | [] => []
  | f :: r => if x_type f =? T_L3_PAR
              then mkx (x_type f) (x_val f) (firstn (Z.to_nat (zlen l3 mod 256)) l3) :: r
              else f :: replace_l3 r l3
  end.

(** llc.c:534-559 [gprs_llc_lle_tx_xid_resp]. *)
Definition tx_xid_resp (e : env) (m : llme) (l : lle) (l3 : list Z) : res (lle * list out * Z) :=
  let fs := replace_l3 (l_rxxid l) l3 in
  let l' := set_xid l (n201_u l) (n201_i l) (l_xid l) [] in
  match xid_encode 1024 fs with
  | Ok b => do o <- tx_xid e m l b; Ok (l', o, 0)
  | Err er => Ok (l', [], er)
  | UB => UB
  end.

(** llc.c:592-615: N201 values of the request are taken over, in field order; the last L3 field wins. *)
Definition xid_ind_scan (l : lle) (fs : list xfield) : (Z * Z * bool * option (list Z)) :=
  fold_left (fun a f =>
    let '(nu, ni, ch, l3) := a in
    if x_type f =? T_N201_U then (x_val f, ni, ch || negb (nu =? x_val f), l3)
    else if x_type f =? T_N201_I then (nu, x_val f, ch || negb (ni =? x_val f), l3)
    else if x_type f =? T_L3_PAR then (nu, ni, ch, Some (x_var f))
    else a) fs (n201_u l, n201_i l, false, None).

(** llc.c:562-636 [gprs_llc_lle_process_xid_ind]. *)
Definition process_xid_ind (e : env) (m : llme) (l : lle) (req : list Z) : res (lle * list out) :=
  match xid_decode req 16 with
  | Err _ => Ok (l, [])
  | UB => UB
  | Ok fs =>
      let '(nu, ni, ch, l3) := xid_ind_scan l fs in
      let l1 := set_xid l nu ni (l_xid l) fs in
      let up := if ch || match l3 with Some _ => true | None => false end
                then [UpXidInd (m_tlli m) (l_sapi l) l3 nu ni] else [] in
      match l3 with
      | Some _ => Ok (l1, up)
      | None => do r <- tx_xid_resp e m l1 []; let '(l2, o, _) := r in Ok (l2, up ++ o)
      end
  end.

(** llc.c:639-696 [gprs_llc_lle_process_xid_conf]. *)
Definition process_xid_conf (m : llme) (l : lle) (b : list Z) : res (lle * list out) :=
  let had_l3 := existsb (fun f => x_type f =? T_L3_PAR) (l_xid l) in
  match xid_decode b 16 with
  | Err _ => Ok (l, [])
  | UB => UB
  | Ok fs =>
      Ok (set_xid l (n201_u l) (n201_i l) [] (l_rxxid l),
          flat_map (fun f => if (x_type f =? T_L3_PAR) && had_l3
                             then [UpXidCnf (m_tlli m) (l_sapi l) (x_var f) (n201_u l) (n201_i l)] else []) fs)
  end.

(** llc_private.h:372-376 [gprs_llc_is_retransmit]. *)
Definition is_retransmit (nu vur : Z) : bool :=
  let delta := Z.land (vur - nu) 511 in (0 <? delta) && (delta <? 32).

(** llc.c:733-762: the UI case of [gprs_llc_lle_hdr_rx]; [None] means dropped (-EIO).  The duplicate
    counter is a uint16_t. *)
Definition rx_ui (l : lle) (nu : Z) : lle * bool :=
  let accept (l : lle) :=
    (set_rx l ((nu + 1) mod 512) (vu_last l) (vu_dup l)
       (if (nu + 1) / 512 =? 0 then oc_recv l else (oc_recv l + 512) mod 2 ^ 32), true) in
  if is_retransmit nu (vu_recv l) then
    if negb (nu =? vu_last l) then accept (set_rx l (vu_recv l) nu 0 (oc_recv l))
    else
      let d := (vu_dup l + 1) mod 65536 in
      let l' := set_rx l (vu_recv l) (vu_last l) d (oc_recv l) in
      if d <? 3 then (l', false) else accept l'
  else accept l.

(** llc.c:718-773 [gprs_llc_lle_hdr_rx]: new entity state, outputs, and whether processing goes on. *)
Definition hdr_rx (e : env) (m : llme) (l : lle) (pdu : list Z) (d : decoded) : res (lle * list out * bool) :=
  match h_func (d_hdr d) with
  | SABM | DISC => do o <- tx_dm m l; Ok (l, o, true)
  | XID =>
      if cr_is_cmd (e_loc e) (f_cr (d_hdr d))
      then do r <- process_xid_ind e m l (payload pdu d); let '(l', o) := r in Ok (l', o, true)
      else do r <- process_xid_conf m l (payload pdu d); let '(l', o) := r in Ok (l', o, true)
  | UI => let '(l', ok) := rx_ui l (h_ns (d_hdr d)) in Ok (l', [], ok)
  | _ => Ok (l, [], true)
  end.

(** llc.c:852-853: memcmp against the UI dummy command, octet by octet up to the first difference. *)
Fixpoint memcmp_dummy (pdu : list Z) (i : Z) (ref : list Z) : res bool :=
  match ref with
  | [] => Ok true
  | x :: r => do v <- rd pdu i; if v =? x then memcmp_dummy pdu (i + 1) r else Ok false
  end.

(** SAPIs whose UI payload is delivered, llc.c:874-897. *)
Definition deliverable (sapi : Z) : bool :=
  (sapi =? 1) || (sapi =? 3) || (sapi =? 5) || (sapi =? 9) || (sapi =? 11).

(** llc.c:816-910 [gprs_llc_lle_rx_unitdata_ind]. *)
Definition lle_rx (e : env) (m : llme) (l : lle) (pdu : list Z) (d : decoded) : res (lle * list out * Z) :=
  if f_enc (d_hdr d) then Ok (l, [], 0) (* 836-840: algo is GEA0 *)
  else if negb (fcs_check pdu (d_hdr d)) then
    if 6 <=? zlen pdu then Ok (l, [], 0)
    else do same <- memcmp_dummy pdu 0 [67; 192; 1; 43; 43; 43]; Ok (l, [], if (same : bool) then 0 else - EIO)
  else
    do r <- hdr_rx e m l pdu d;
    let '(l', o, go) := r in
    if negb (go : bool) then Ok (l', o, - EIO)
    else match h_func (d_hdr d), payload pdu d with
         | UI, (_ :: _) as p =>
             if deliverable (h_sapi (d_hdr d))
             then Ok (l', o ++ [UpUnitdata (m_tlli m) (h_sapi (d_hdr d)) p], 0)
             else Ok (l', o, - EINVAL)
         | _, _ => Ok (l', o, 0)
         end.

(** llc.c:420-456 [gprs_llc_lle_for_rx_by_tlli_sapi]: the entity a received frame is for, created on the
    fly for XID and UI frames on the GMM SAPI. *)
Definition lle_for_rx (s : st) (tlli sapi : Z) (f : func) : option (st * nat * llme) :=
  match find_llme s tlli with
  | Some (i, m) => Some (s, i, m)
  | None =>
      if (sapi =? 1) && match f with XID | UI => true | _ => false end
      then let m := llme_alloc tlli in Some (m :: s, 0%nat, m)
      else None
  end.

(** Events. *)
Inductive event :=
| RxPdu (tlli : Z) (pdu : list Z)                       (* GRR-UNITDATA.ind / BSSGP-UL-UNITDATA.ind *)
| LlUnitdata (tlli sapi : Z) (data : list Z) (prio : Z) (* LL-UNITDATA.req *)
| LlXidReq (tlli sapi : Z) (l3 : option (list Z))       (* LL-XID.req *)
| LlXidResp (tlli sapi : Z) (l3 : list Z)               (* LL-XID.resp *)
| LlEstablish (tlli sapi : Z)                           (* LL-ESTABLISH.req *)
| GmmAssign (old new : Z)                               (* LLGMM-ASSIGN.req *)
| GmmReset (tlli rnd : Z)                               (* LLGMM-RESET.req, rnd = osmo_get_rand_id() *)
| GmmTrigger (tlli : Z) (null : bool)                   (* LLGMM-TRIGGER.req, null = CELL_NOTIFICATION *)
| GmmSuspend (tlli : Z)
| GmmResume (tlli : Z).

(** llc_llgmm.c:186-200: effect of an assignment on one logical link. *)
Definition assign_lle (reset : bool) (l : lle) : lle :=
  mklle (l_sapi l) true (if reset then 0 else vu_send l) (if reset then 0 else vu_recv l) (vu_last l) (vu_dup l)
        (oc_send l) (oc_recv l) (n201_u l) (n201_i l) (l_xid l) (l_rxxid l).

(** Removal of an element (gprs_llc_llme_free, llc.c:196-204). *)
Fixpoint del {A} (l : list A) (i : nat) : list A :=
  match l, i with
  | [], _ => []
  | _ :: r, O => r
  | y :: r, S i => y :: del r i
  end.

(** llc_llgmm.c:145-231 [llc_prim_handle_llgmm_assign_req]. *)
Definition assign_req (s : st) (old new : Z) : st * list out * Z :=
  if (old =? TLLI_UNASSIGNED) && (new =? TLLI_UNASSIGNED) then (s, [], - EINVAL) else
  match find_llme s (if old =? TLLI_UNASSIGNED then new else old) with
  | None => (s, [], - ENOKEY)
  | Some (i, m) =>
      if old =? TLLI_UNASSIGNED then
        if negb (m_old m =? TLLI_UNASSIGNED)
        then (upd s i (mkllme new TLLI_UNASSIGNED (m_assigned m) (m_susp m) (m_iov m) (m_lle m)), [], 0)
        else (upd s i (mkllme new TLLI_UNASSIGNED true (m_susp m) (m_iov m)
                         (map (assign_lle (negb (m_tlli m =? new))) (m_lle m))), [], 0)
      else if negb (new =? TLLI_UNASSIGNED)
      then (upd s i (mkllme new old true (m_susp m) (m_iov m) (m_lle m)),
            if old =? new then [] else [UpAssign old new], 0)
      else (del s i, [], 0)
  end.

(** llc_llgmm.c:50-72 and 234-278 [llc_prim_handle_llgmm_reset_req]. *)
Definition reset_lle (l : lle) (fs : list xfield) : lle :=
  mklle (l_sapi l) (l_adm l) 0 0 (vu_last l) (vu_dup l) 0 0 (n201_u l) (n201_i l) fs (l_rxxid l).
Definition reset_req (e : env) (s : st) (tlli rnd : Z) : res (st * list out * Z) :=
  match find_llme s tlli with
  | None => Ok (s, [], - ENOKEY)
  | Some (i, m) =>
      let iov := rnd mod 2 ^ 32 in
      let fs := [mkx T_RESET 0 []; mkx 1 iov []] in
      let m1 := mkllme (m_tlli m) (m_old m) (m_assigned m) (m_susp m) iov (m_lle m) in
      match xid_encode 1024 fs with
      | Ok b => let l := reset_lle (get_lle m1 1) fs in
                do o <- tx_xid e m1 l b; Ok (upd s i (set_lle m1 1 l), o, 0)
      | Err _ => Ok (upd s i m1, [], - EINVAL)
      | UB => UB
      end
  end.

(** Lookup used by the LL primitives, llc.c:219-225: a SAPI of 16 or more indexes outside lle[]. *)
Definition with_lle (s : st) (tlli sapi : Z) (k : nat -> llme -> lle -> res (st * list out * Z)) : res (st * list out * Z) :=
  match find_llme s tlli with
  | None => Ok (s, [], - ENOKEY)
  | Some (i, m) => if (0 <=? sapi) && (sapi <? 16) then k i m (get_lle m sapi) else UB
  end.

(** One event: osmo_gprs_llc_prim_upper_down / osmo_gprs_llc_prim_lower_up (llc_prim.c:152-220) down to the
    handlers named at each case.  Result: new state, outputs in order, return code. *)
Definition step (e : env) (s : st) (ev : event) : res (st * list out * Z) :=
  match ev with
  | RxPdu tlli pdu => (* llc_grr.c:83-130, llc_bssgp.c:81-128 *)
      match pdu_decode pdu with
      | UB => UB
      | Err er => Ok (s, [], er)
      | Ok d =>
          if negb (e_tlli_ok e tlli) then Ok (s, [], - EINVAL) else
          match lle_for_rx s tlli (h_sapi (d_hdr d)) (h_func (d_hdr d)) with
          | None => Ok (s, [], 0)
          | Some (s1, i, m) =>
              do r <- lle_rx e m (get_lle m (h_sapi (d_hdr d))) pdu d;
              let '(l', o, rc) := r in
              Ok (upd s1 i (set_lle m (h_sapi (d_hdr d)) l'), o, rc)
          end
      end
  | LlUnitdata tlli sapi data prio => (* llc_ll.c:297-323 *)
      if negb ((0 <=? sapi) && (sapi <? 16)) then UB else
      let '(s1, i, m) := match find_llme s tlli with
                         | Some (i, m) => (s, i, m)
                         | None => (llme_alloc tlli :: s, 0%nat, llme_alloc tlli)
                         end in
      if m_susp m && negb (sapi =? 1) then Ok (s1, [], 0)
      else match tx_ui e m (get_lle m sapi) data prio with
           | Ok (l', o) => Ok (upd s1 i (set_lle m sapi l'), o, 0)
           | Err er => Ok (s1, [], er)
           | UB => UB
           end
  | LlXidReq tlli sapi l3 => (* llc_ll.c:253-272 *)
      with_lle s tlli sapi (fun i m l =>
        do r <- tx_xid_req e m l l3; let '(l', o, rc) := r in Ok (upd s i (set_lle m sapi l'), o, rc))
  | LlXidResp tlli sapi l3 => (* llc_ll.c:275-294 *)
      with_lle s tlli sapi (fun i m l =>
        do r <- tx_xid_resp e m l l3; let '(l', o, rc) := r in Ok (upd s i (set_lle m sapi l'), o, rc))
  | LlEstablish tlli sapi => (* llc_ll.c:231-250, llc.c:501-505 *)
      with_lle s tlli sapi (fun i m l => Ok (s, [], - ENOTSUP))
  | GmmAssign old new => Ok (assign_req s old new)
  | GmmReset tlli rnd => reset_req e s tlli rnd
  | GmmTrigger tlli nul => (* llc_llgmm.c:281-319 *)
      match find_llme s tlli with
      | None => Ok (s, [], - ENOKEY)
      | Some (i, m) =>
          if (nul : bool) then do o <- tx_null m (get_lle m 1); Ok (s, o, 0)
          else match tx_ui e m (get_lle m 1) [] 1 with
               | Ok (l', o) => Ok (upd s i (set_lle m 1 l'), o, 0)
               | Err er => Ok (s, [], er)
               | UB => UB
               end
      end
  | GmmSuspend tlli => (* llc_llgmm.c:322-340 *)
      match find_llme s tlli with
      | None => Ok (s, [], - ENOKEY)
      | Some (i, m) => Ok (upd s i (mkllme (m_tlli m) (m_old m) (m_assigned m) true (m_iov m) (m_lle m)), [], 0)
      end
  | GmmResume tlli => (* llc_llgmm.c:343-361 *)
      match find_llme s tlli with
      | None => Ok (s, [], - ENOKEY)
      | Some (i, m) => Ok (upd s i (mkllme (m_tlli m) (m_old m) (m_assigned m) false (m_iov m) (m_lle m)), [], 0)
      end
  end.

(** A whole history from a state: final state and all outputs in order. *)
Fixpoint run (e : env) (s : st) (evs : list event) : res (st * list out) :=
  match evs with
  | [] => Ok (s, [])
  | ev :: r =>
      do x <- step e s ev;
      let '(s1, o, _) := x in
      do y <- run e s1 r;
      let '(s2, o2) := y in Ok (s2, o ++ o2)
  end.
