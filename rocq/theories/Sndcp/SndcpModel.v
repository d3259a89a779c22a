(** Model of SNDCP unacknowledged transfer: segmentation of N-PDUs into SN-PDUs, reassembly, and the tables
    of entities.  Sources: src/sndcp/sndcp.c, src/sndcp/sndcp_prim.c,
    include/osmocom/gprs/sndcp/sndcp_private.h.

    Conventions: a received SN-PDU is exactly the list of its octets, any access outside it is [UB], and so is
    a failed OSMO_ASSERT, osmo_panic and msgb_put without room.  Allocations succeed.  Compression is never
    active (sndcp.c:262-272), so the compress and decompress calls are left out.  SN-XID.req/.rsp and the XID
    block inside LL-XID are not in this file, so l3xid_req is always empty here. *)
From Verif.Lib Require Import Base Outcome.

(** sndcp_private.h:69-77 and 105-131 [struct gprs_sndcp_defrag_state]; a queue entry is its segment number
    and its data, the head of the list is the entry added last. *)
Record defrag := mkdf { df_npdu : Z; df_high : Z; df_have : Z; df_nomore : bool; df_tot : Z;
                        df_frags : list (Z * list Z); df_pcomp : Z; df_dcomp : Z }.

(** sndcp_private.h:144-182 [struct gprs_sndcp_entity] without the back pointer, the timer, rx_state (never
    read) and the XID request bookkeeping. *)
Record sne := mksne { e_sapi : Z; e_nsapi : Z; e_n201u : Z; e_n201i : Z; e_tx : Z; e_df : defrag;
                      e_peak : Z; e_rel : Z; e_prio : Z }.

Definition set_df (e : sne) (d : defrag) : sne :=
  mksne (e_sapi e) (e_nsapi e) (e_n201u e) (e_n201i e) (e_tx e) d (e_peak e) (e_rel e) (e_prio e).
Definition set_tx (e : sne) (n : Z) : sne :=
  mksne (e_sapi e) (e_nsapi e) (e_n201u e) (e_n201i e) n (e_df e) (e_peak e) (e_rel e) (e_prio e).
Definition set_n201 (e : sne) (u i : Z) : sne :=
  mksne (e_sapi e) (e_nsapi e) u i (e_tx e) (e_df e) (e_peak e) (e_rel e) (e_prio e).
Definition set_qos (e : sne) (peak rel prio : Z) : sne :=
  mksne (e_sapi e) (e_nsapi e) (e_n201u e) (e_n201i e) (e_tx e) (e_df e) peak rel prio.

(** libosmocore msgb_alloc_headroom takes a 16-bit size: a larger message cannot be held. *)
Definition fits (size : Z) : bool := size <=? 65535.

(** *** Headers: sndcp_private.h:28-66, little endian bit order *)
(** struct sndcp_common_hdr. *)
Definition common (nsapi : Z) (more first : bool) : Z :=
  Z.land nsapi 15 + b2z more * 16 + 32 + b2z first * 64.
(** struct sndcp_comp_hdr. *)
Definition comp (pcomp dcomp : Z) : Z := Z.land pcomp 15 + Z.land dcomp 15 * 16.
(** struct sndcp_udata_hdr as written at sndcp.c:572-574 and 708-710. *)
Definition udata (npdu seg : Z) : list Z :=
  [Z.land (Z.shiftr npdu 8) 15 + Z.land seg 15 * 16; Z.land npdu 255].

(** *** Sending *)
(** sndcp.c:535-623 [gprs_sndcp_send_ud_frag] up to the call of the lower layer: the SN-PDU, the octets left,
    and the more flag.  [rest] is what lies between next_byte and the end of the message. *)
Definition ud_frag (e : sne) (pcomp dcomp frag_nr : Z) (rest : list Z) : list Z * list Z * bool :=
  let first := frag_nr =? 0 in
  let max := ((e_n201u e - 3) mod 2 ^ 32 - b2z first) mod 2 ^ 32 in
  let len := if max <? zlen rest then max else zlen rest in
  let rest' := skipn (Z.to_nat len) rest in
  let more := 0 <? zlen rest' in
  (common (e_nsapi e) more first :: (if first then [comp pcomp dcomp] else [])
     ++ udata (e_tx e) (frag_nr mod 15) ++ firstn (Z.to_nat len) rest, rest', more).

(** sndcp.c:693-699: the loop around gprs_sndcp_send_ud_frag.  [refuse] is how many more SN-PDUs the lower
    layer accepts before it answers with an error ([None]: it accepts all).  [fuel] only bounds the
    recursion; running out of it is [UB].  Result: SN-PDUs handed down and whether the last was sent. *)
Fixpoint frag_loop (fuel : nat) (e : sne) (pcomp dcomp frag_nr : Z) (rest : list Z) (refuse : option nat)
  : res (list (list Z) * bool) :=
  match fuel with
  | O => UB
  | S fuel =>
      let '(pdu, rest', more) := ud_frag e pcomp dcomp frag_nr rest in
      match refuse with
      | Some O => Ok ([pdu], false)                                      (* 607-610 *)
      | _ =>
          if (more : bool) then
            do r <- frag_loop fuel e pcomp dcomp ((frag_nr + 1) mod 256) rest' (option_map pred refuse);
            Ok (pdu :: fst r, snd r)
          else Ok ([pdu], true)                                          (* 612-619 *)
      end
  end.

(** sndcp.c:626-728 [gprs_sndcp_sne_handle_sn_unitdata_req]: new entity, SN-PDUs handed to the lower layer in
    order, return code (-1 stands for the error code of the lower layer). *)
Definition sn_unitdata_req (e : sne) (npdu : list Z) (refuse : option nat) : res (sne * list (list Z) * Z) :=
  if negb (fits (zlen npdu + 256)) then UB else
  if usub64 (e_n201u e) 4 <? zlen npdu then
    if negb (fits (e_n201u e + 256)) then UB else
    do r <- frag_loop (2 * length npdu + 2) e 0 0 0 npdu refuse;
    let '(pdus, done) := r in
    if (done : bool) then Ok (set_tx e ((e_tx e + 1) mod 4095), pdus, 0) else Ok (e, pdus, -1)
  else
    Ok (set_tx e ((e_tx e + 1) mod 4095),
        [common (e_nsapi e) false true :: comp 0 0 :: udata (e_tx e) 0 ++ npdu],
        match refuse with Some O => -1 | _ => 0 end).

(** *** Receiving *)
(** sndcp.c:275-302 [defrag_enqueue]; [data] is what the memcpy of line 299 reads. *)
Definition enqueue (d : defrag) (seg : Z) (data : list Z) : defrag :=
  mkdf (df_npdu d) (Z.max seg (df_high d)) (Z.lor (df_have d) (Z.shiftl 1 seg)) (df_nomore d)
       ((df_tot d + zlen data) mod 2 ^ 32) ((seg, data) :: df_frags d) (df_pcomp d) (df_dcomp d).

(** sndcp.c:305-318 [defrag_have_all_segments]. *)
Fixpoint mask (n : nat) : Z := match n with O => 1 | S n => Z.lor (mask n) (Z.shiftl 1 (Z.of_nat (S n))) end.
Definition have_all (d : defrag) : bool := mask (Z.to_nat (df_high d)) =? df_have d.

(** sndcp.c:320-332 [defrag_get_seg]: the first entry with that number, taken out of the list. *)
Fixpoint get_seg (seg : Z) (l : list (Z * list Z)) : option (list Z * list (Z * list Z)) :=
  match l with
  | [] => None
  | (n, x) :: r =>
      if n =? seg then Some (x, r)
      else match get_seg seg r with Some (y, r') => Some (y, (n, x) :: r') | None => None end
  end.

(** sndcp.c:405-421: segments [seg], [seg + 1], … ([n] of them) appended to [acc], which has room for [room]
    octets; [None] when one is missing.  The list left over is returned in both cases. *)
Fixpoint collect (n : nat) (seg room : Z) (acc : list Z) (l : list (Z * list Z))
  : res (option (list Z) * list (Z * list Z)) :=
  match n with
  | O => Ok (Some acc, l)
  | S n =>
      match get_seg seg l with
      | None => Ok (None, l)
      | Some (x, l') =>
          if zlen acc + zlen x <=? room then collect n (seg + 1) room (acc ++ x) l' else UB
      end
  end.

Definition set_frags (d : defrag) (l : list (Z * list Z)) : defrag :=
  mkdf (df_npdu d) (df_high d) (df_have d) (df_nomore d) (df_tot d) l (df_pcomp d) (df_dcomp d).

(** sndcp.c:384-450 [defrag_segments]: new state, N-PDU indicated to the upper layer, return code.  The buffer
    of tot_len + 256 octets is zeroed by msgb_alloc and tot_len octets of it are indicated (line 423), however
    many were written. *)
Definition segments (d : defrag) : res (defrag * option (list Z) * Z) :=
  if negb (fits (df_tot d + 256)) then UB else
  do r <- collect (S (Z.to_nat (df_high d))) 0 (df_tot d + 128) [] (df_frags d);
  match r with
  | (None, l) => Ok (set_frags d l, None, - EIO)
  | (Some acc, l) =>
      Ok (set_frags d l, Some (firstn (Z.to_nat (df_tot d)) (acc ++ repeat 0 (Z.to_nat (df_tot d)))), 0)
  end.

(** Fields of the common header octet, sndcp_private.h:31-35. *)
Definition h_nsapi (h : Z) : Z := Z.land h 15.
Definition h_more (h : Z) : bool := tst h 16.
Definition h_type (h : Z) : bool := tst h 32.
Definition h_first (h : Z) : bool := tst h 64.

(** sndcp.c:452-523 [defrag_input]. *)
Definition defrag_input (d : defrag) (pdu : list Z) : res (defrag * option (list Z) * Z) :=
  do h <- rd pdu 0;
  let off := if h_first h then 2 else 1 in                               (* 461-464 *)
  do u <- rd pdu off;
  do low <- rd pdu (off + 1);
  let num := Z.lor (Z.shiftl (Z.land u 15) 8) low in                     (* 468 *)
  let seg := Z.shiftr u 4 in
  let d1 := if h_first h                                                 (* 474-495 *)
            then mkdf num 0 0 false 0 [] (df_pcomp d) (df_dcomp d) else d in
  (* 497-501: a segment of another N-PDU is only logged *)
  do data <- rdn pdu (off + 2) (zlen pdu - (off + 2));                   (* 505 *)
  let d2 := enqueue d1 seg data in
  let d3 := if h_more h then d2
            else mkdf (df_npdu d2) (df_high d2) (df_have d2) true (df_tot d2) (df_frags d2) (df_pcomp d2) (df_dcomp d2) in
  if df_nomore d3 && have_all d3 then segments d3 else Ok (d3, None, 0).

(** sndcp.c:856-926 [gprs_sndcp_sne_handle_llc_ll_unitdata_ind]. *)
Definition unitdata_ind (d : defrag) (pdu : list Z) : res (defrag * option (list Z) * Z) :=
  do h <- rd pdu 0;
  if negb (h_type h) then Ok (d, None, - EINVAL) else                    (* 874-877 *)
  if zlen pdu <? 3 then Ok (d, None, - EIO) else                         (* 879-882 *)
  do c <- (if h_first h then rd pdu 1 else Ok 0);
  let d1 := if h_first h                                                 (* 884-889 *)
            then mkdf (df_npdu d) (df_high d) (df_have d) (df_nomore d) (df_tot d) (df_frags d)
                      (Z.land c 15) (Z.shiftr c 4) else d in
  if negb (h_first h) || h_more h then defrag_input d1 pdu else          (* 893-894 *)
  do _n <- rd pdu 3;                                                     (* 896 *)
  if zlen pdu - 4 <=? 0 then Ok (d1, None, - EIO) else                   (* 897-903 *)
  do npdu <- rdn pdu 4 (zlen pdu - 4);
  Ok (d1, Some npdu, 0).

(** *** Tables of entities *)
(** sndcp_private.h:185-198 [struct gprs_sndcp_mgmt_entity] without the compression entities. *)
Record snme := mksnme { m_tlli : Z; m_sne : list (option sne) }.
Definition NUM_NSAPIS : nat := 16.                                       (* sndcp_private.h:140 *)

(** sndcp_private.h:85-99 [struct gprs_sndcp_ctx]: location and list of management entities, head first. *)
Record ctx := mkctx { c_ms : bool; c_snme : list snme }.

Definition df0 : defrag := mkdf 0 0 0 false 0 [] 0 0.
(** sndcp.c:54-63 [osmo_gprs_sndcp_init]. *)
Definition init (ms : bool) : ctx := mkctx ms [].

(** sndcp.c:43-52 [llc_default_params], N201-U and N201-I. *)
Definition default_n201 (sapi : Z) : Z * Z :=
  if sapi =? 1 then (400, 0) else if sapi =? 2 then (270, 0) else if sapi =? 3 then (500, 1503)
  else if sapi =? 5 then (500, 1503) else if sapi =? 7 then (270, 0) else if sapi =? 8 then (270, 0)
  else if sapi =? 9 then (500, 1503) else if sapi =? 11 then (500, 1503) else (0, 0).

(** Update of one slot of a list. *)
Fixpoint upd {A} (l : list A) (i : nat) (x : A) : list A :=
  match l, i with
  | [], _ => []
  | _ :: r, O => x :: r
  | y :: r, S i => y :: upd r i x
  end.
(** Removal of one element (llist_del). *)
Fixpoint del {A} (l : list A) (i : nat) : list A :=
  match l, i with
  | [], _ => []
  | _ :: r, O => r
  | y :: r, S i => y :: del r i
  end.

(** sndcp.c:93-102 [gprs_sndcp_snme_find_by_tlli]: position and entity. *)
Fixpoint find_tlli (l : list snme) (tlli : Z) : option (nat * snme) :=
  match l with
  | [] => None
  | m :: r => if m_tlli m =? tlli then Some (O, m)
              else match find_tlli r tlli with Some (i, x) => Some (S i, x) | None => None end
  end.

(** sndcp_private.h:200-204 [gprs_sndcp_snme_get_sne], asserting the range of the NSAPI. *)
Definition get_sne (m : snme) (nsapi : Z) : res (option sne) :=
  if (0 <=? nsapi) && (nsapi <? 16) then Ok (nth (Z.to_nat nsapi) (m_sne m) None) else UB.

(** sndcp.c:187-199 [gprs_sndcp_sne_by_dlci_nsapi]: position of the management entity and entity. *)
Definition by_dlci_nsapi (c : ctx) (tlli sapi nsapi : Z) : res (option (nat * snme * sne)) :=
  match find_tlli (c_snme c) tlli with
  | None => Ok None
  | Some (i, m) =>
      do o <- get_sne m nsapi;
      match o with
      | Some e => if e_sapi e =? sapi then Ok (Some (i, m, e)) else Ok None
      | None => Ok None
      end
  end.

(** sndcp.c:175-182, 1023-1032 and 1117-1126: slot of the first entity on a SAPI. *)
Fixpoint first_on (sapi : Z) (l : list (option sne)) : option (nat * sne) :=
  match l with
  | [] => None
  | Some e :: r => if e_sapi e =? sapi then Some (O, e)
                   else match first_on sapi r with Some (i, x) => Some (S i, x) | None => None end
  | None :: r => match first_on sapi r with Some (i, x) => Some (S i, x) | None => None end
  end.

(** The entity in slot [k] of management entity [i] is replaced. *)
Definition put_sne (c : ctx) (i : nat) (m : snme) (k : nat) (o : option sne) : ctx :=
  mkctx (c_ms c) (upd (c_snme c) i (mksnme (m_tlli m) (upd (m_sne m) k o))).

(** Primitives sent. *)
Inductive out :=
| LlUnitdataReq (tlli sapi : Z) (peak rel prio : Z) (pdu : list Z)
| SnUnitdataInd (tlli sapi nsapi : Z) (npdu : list Z)
| SnsmActivateRsp (tlli nsapi : Z)
| SnsmDeactivateRsp (tlli nsapi : Z).

(** Primitives received.  [qos] is the result of gprs_qos_parse_qos_profile ([None]: it fails); the pair is
    peak throughput and reliability class.  LlXid stands for LL-XID.ind and LL-XID.cnf alike. *)
Inductive event :=
| SnUnitdata (tlli sapi nsapi : Z) (npdu : list Z) (refuse : option nat)   (* SN-UNITDATA.req *)
| LlUnitdata (tlli sapi : Z) (pdu : list Z)                                (* LL-UNITDATA.ind *)
| LlXid (tlli sapi u i : Z)                                                (* LL-XID.ind/.cnf, N201-U/-I *)
| LlAssign (tlli new : Z)                                                  (* LL-ASSIGN.ind *)
| LlEstablishCnf (tlli sapi : Z)                                           (* LL-ESTABLISH.cnf *)
| SnsmActivate (tlli nsapi sapi : Z) (qos : option (Z * Z)) (prio : Z)     (* SNSM-ACTIVATE.ind *)
| SnsmDeactivate (tlli nsapi : Z).                                         (* SNSM-DEACTIVATE.ind *)

(** sndcp.c:131-153 [gprs_sndcp_sne_alloc]; a SAPI of 16 or more reads outside llc_default_params. *)
Definition sne_alloc (sapi nsapi : Z) : res sne :=
  if (0 <=? sapi) && (sapi <? 16)
  then Ok (mksne sapi nsapi (fst (default_n201 sapi)) (snd (default_n201 sapi)) 0 df0 0 0 0) else UB.

(** sndcp_prim.c:632-697 [gprs_sndcp_prim_handle_sndcp_snsm_activate_ind].  Line 688-691 is not taken since
    l3xid_req is empty. *)
Definition activate (c : ctx) (tlli nsapi sapi : Z) (qos : option (Z * Z)) (prio : Z) : res (ctx * list out * Z) :=
  let '(c1, i, m) :=
    match find_tlli (c_snme c) tlli with                                 (* 645-652 *)
    | Some (i, m) => (c, i, m)
    | None => let m := mksnme tlli (repeat None NUM_NSAPIS) in (mkctx (c_ms c) (m :: c_snme c), O, m)
    end in
  do o <- get_sne m nsapi;                                               (* 654-660 *)
  do e <- match o with Some e => Ok e | None => sne_alloc sapi nsapi end;
  let k := Z.to_nat nsapi in
  if negb (c_ms c) then Ok (put_sne c1 i m k (Some e), [], 0)            (* 664-665 *)
  else match qos with
       | None => Ok (put_sne c1 i m k (Some e), [], - EINVAL)            (* 667-675 *)
       | Some (peak, rel) =>
           Ok (put_sne c1 i m k (Some (set_qos e peak rel prio)), [SnsmActivateRsp tlli (e_nsapi e)], 0)
       end.

(** sndcp_prim.c:700-730 [gprs_sndcp_prim_handle_sndcp_snsm_deactivate_ind] with sndcp.c:155-164
    [gprs_sndcp_sne_free] and 113-129 [gprs_sndcp_snme_detach_sne]. *)
Definition deactivate (c : ctx) (tlli nsapi : Z) : res (ctx * list out * Z) :=
  match find_tlli (c_snme c) tlli with
  | None => Ok (c, [], - EIO)
  | Some (i, m) =>
      do o <- get_sne m nsapi;
      match o with
      | None => Ok (c, [], - EIO)
      | Some e =>
          let l := upd (m_sne m) (Z.to_nat (e_nsapi e)) None in
          Ok (if existsb (fun o => match o with Some _ => true | None => false end) l
              then mkctx (c_ms c) (upd (c_snme c) i (mksnme (m_tlli m) l))
              else mkctx (c_ms c) (del (c_snme c) i), [SnsmDeactivateRsp tlli nsapi], 0)
      end
  end.

(** sndcp_prim.c:421-448 [osmo_gprs_sndcp_prim_upper_down], 560-584 [gprs_sndcp_prim_lower_up_llc_ll] and
    760-798 [osmo_gprs_sndcp_prim_dispatch_snsm] down to the handlers named at each case. *)
Definition step (c : ctx) (ev : event) : res (ctx * list out * Z) :=
  match ev with
  | SnUnitdata tlli sapi nsapi npdu refuse =>                            (* sndcp_prim.c:352-374 *)
      if zlen npdu =? 0 then UB else
      do o <- by_dlci_nsapi c tlli sapi nsapi;
      match o with
      | None => Ok (c, [], - EIO)
      | Some (i, m, e) =>
          do r <- sn_unitdata_req e npdu refuse;
          let '(e', pdus, rc) := r in
          Ok (put_sne c i m (Z.to_nat nsapi) (Some e'),
              map (LlUnitdataReq (m_tlli m) (e_sapi e) (e_peak e) (e_rel e) (e_prio e)) pdus, rc)
      end
  | LlUnitdata tlli sapi pdu =>                                          (* sndcp_prim.c:468-486 *)
      if zlen pdu =? 0 then UB else
      do h <- rd pdu 0;
      do o <- by_dlci_nsapi c tlli sapi (h_nsapi h);
      match o with
      | None => Ok (c, [], - EIO)
      | Some (i, m, e) =>
          do r <- unitdata_ind (e_df e) pdu;
          let '(d, npdu, rc) := r in
          Ok (put_sne c i m (Z.to_nat (h_nsapi h)) (Some (set_df e d)),
              match npdu with Some x => [SnUnitdataInd (m_tlli m) (e_sapi e) (e_nsapi e) x] | None => [] end, rc)
      end
  | LlXid tlli sapi u n =>                                               (* sndcp_prim.c:505-541, sndcp.c:1023-1039, 1117-1133 *)
      match find_tlli (c_snme c) tlli with
      | None => Ok (c, [], - EIO)
      | Some (i, m) =>
          match first_on sapi (m_sne m) with
          | None => Ok (c, [], - EINVAL)
          | Some (k, e) => Ok (put_sne c i m k (Some (set_n201 e (u mod 65536) (n mod 65536))), [], 0)
          end
      end
  | LlAssign tlli new =>                                                 (* sndcp_prim.c:543-558 *)
      match find_tlli (c_snme c) tlli with
      | None => Ok (c, [], - EIO)
      | Some (i, m) => Ok (mkctx (c_ms c) (upd (c_snme c) i (mksnme new (m_sne m))), [], 0)
      end
  | LlEstablishCnf tlli sapi =>                                          (* sndcp_prim.c:488-503, sndcp.c:166-185 *)
      match find_tlli (c_snme c) tlli with
      | None => Ok (c, [], - EIO)
      | Some (i, m) =>
          match first_on sapi (m_sne m) with
          | None => Ok (c, [], - EIO)
          | Some (k, e) => Ok (c, [SnsmActivateRsp (m_tlli m) (e_nsapi e)], 0)
          end
      end
  | SnsmActivate tlli nsapi sapi qos prio => activate c tlli nsapi sapi qos prio
  | SnsmDeactivate tlli nsapi => deactivate c tlli nsapi
  end.

(** A history: final state and all outputs in order. *)
Fixpoint run (c : ctx) (evs : list event) : res (ctx * list out) :=
  match evs with
  | [] => Ok (c, [])
  | ev :: r =>
      do x <- step c ev;
      let '(c1, o, _) := x in
      do y <- run c1 r;
      Ok (fst y, o ++ snd y)
  end.
