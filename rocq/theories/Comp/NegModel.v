(** Model of the negotiation of compression: the tables of entities (sndcp_comp.c), what sndcp_pcomp.c and sndcp_dcomp.c do for them,
    and the primitives SN-XID and LL-XID (sndcp.c:732-1187).

    Simplifications, valid for the whole file:
    - One mobile (an SNDCP management entity) at a time; the TLLI is not modelled, and the parameters n201_u and n201_i, which
      LL-XID.ind and LL-XID.cnf store, have no effect here.
    - Of V.42bis only the parameters are modelled (sndcp_dcomp.c:68-97, v42bis.c:709-747).
    - The callbacks of the user return 0; allocation never fails; log output is absent.  A result with [EINVAL] is not an error
      of the whole step but the number returned: [r_ok] is [false].
    - [UB] is an access outside a buffer, a NULL pointer or a failed assertion. *)
From Verif.Lib Require Import Base Outcome.
From Verif.Comp Require Import SlhcModel XidModel.

(** The context of the algorithm (comp.h:46); [None] is NULL. *)
Inductive ctx := Tcp (s : option slc) | V42 (s : option (Z * Z * Z)).
(** comp.h:29-47; [en_alg] is the algorithm together with the class. *)
Record ent := mkEnt { en_entity : Z; en_alg : alg; en_comp : list Z; en_nsapi : list Z; en_state : ctx }.
Definition en_class (e : ent) : Z := class_of (en_alg e).

(** sndcp_pcomp.c:40-64 [gprs_sndcp_pcomp_init], sndcp_dcomp.c:68-97 [gprs_sndcp_dcomp_init] with v42bis.c:723-726. *)
Definition ctx_init (p : params) : res ctx :=
  match p_alg p, p_vals p with
  | RFC1144, [s01] => Ok (Tcp (slhc_init (s01 + 1) (s01 + 1)))
  | V42BIS, [p0; p1; p2] =>
    Ok (V42 (if (p1 <? 512) || (65535 <? p1) || (p2 <? 6) || (250 <? p2) then None else Some (p0, p1, p2)))
  | _, _ => UB
  end.
(** sndcp_comp.c:36-130 [gprs_sndcp_comp_create]. *)
Definition comp_create (f : field) : res ent :=
  match f_par f with
  | None => UB
  | Some p =>
    asserts (0 <? zlen (p_nsapi p))
      (do s <- ctx_init p; Ok (mkEnt (f_entity f) (p_alg p) (f_comp f) (p_nsapi p) s))
  end.
(** sndcp_pcomp.c:67-89 [gprs_sndcp_pcomp_term], sndcp_dcomp.c:100-122 [gprs_sndcp_dcomp_term]: whether the assertion holds. *)
Definition can_term (e : ent) : bool := match en_alg e with RFC1144 | V42BIS => true | _ => false end.
(** sndcp_comp.c:144-172 [gprs_sndcp_comp_free]. *)
Definition comp_free (t : list ent) : res unit := asserts (forallb can_term t) (Ok tt).
(** sndcp_comp.c:175-205 [gprs_sndcp_comp_delete]; only of protocol compression the context is terminated (lines 192-200). *)
Fixpoint comp_delete (t : list ent) (n : Z) : res (list ent) :=
  match t with
  | [] => Ok []
  | e :: r =>
    if en_entity e =? n then asserts (if en_class e =? 2 then can_term e else true) (Ok r)
    else do r <- comp_delete r n; Ok (e :: r)
  end.
(** sndcp_comp.c:209-231 [gprs_sndcp_comp_add]. *)
Definition comp_add (t : list ent) (f : field) : res (list ent) :=
  do t <- comp_delete t (f_entity f); do e <- comp_create f; Ok (e :: t).

(** sndcp_comp.c:234-252 [gprs_sndcp_comp_by_comp], 255-271 [gprs_sndcp_comp_by_nsapi]: the entities before it, it, and those behind. *)
Fixpoint first_with (P : ent -> bool) (t : list ent) : option (list ent * ent * list ent) :=
  match t with
  | [] => None
  | e :: r => if P e then Some ([], e, r) else match first_with P r with Some (a, x, b) => Some (e :: a, x, b) | None => None end
  end.
Definition has (n : Z) (l : list Z) : bool := existsb (fun x => x =? n) l.
(** sndcp_comp.c:274-300 [gprs_sndcp_comp_get_idx]. *)
Fixpoint idx_from (i : Z) (l : list Z) (c : Z) : Z :=
  match l with [] => 0 | x :: r => if x =? c then i + 1 else idx_from (i + 1) r c end.
Definition get_idx (e : ent) (c : Z) : Z := if c =? 0 then 0 else idx_from 0 (en_comp e) c.
(** sndcp_comp.c:303-321 [gprs_sndcp_comp_get_comp]. *)
Definition get_comp (e : ent) (i : Z) : Z :=
  if i =? 0 then 0 else if zlen (en_comp e) <? i then 0 else nth (Z.to_nat (i - 1)) (en_comp e) 0.

Definition put_state (e : ent) (s : slc) : ent := mkEnt (en_entity e) (en_alg e) (en_comp e) (en_nsapi e) (Tcp (Some s)).
(** sndcp_pcomp.c:225-270 [gprs_sndcp_pcomp_compress]: the table, the buffer, the length and the PCOMP value.  Lines 251, 255: assertions. *)
Definition pcomp_compress (t : list ent) (data : list Z) (nsapi : Z) : res (list ent * list Z * Z * Z) :=
  match first_with (fun e => has nsapi (en_nsapi e)) t with
  | None => Ok (t, data, zlen data, 0)
  | Some (a, e, b) =>
    match en_alg e, en_state e with
    | RFC1144, Tcp (Some s) =>
      do r <- rfc1144_compress s data;
      let '(s, d, len, idx) := r in Ok (a ++ put_state e s :: b, d, len, get_comp e idx)
    | _, _ => UB
    end
  end.
(** sndcp_pcomp.c:174-222 [gprs_sndcp_pcomp_expand]: the table, the buffer and the length. *)
Definition pcomp_expand (t : list ent) (buf : list Z) (len pcomp : Z) : res (list ent * list Z * Z) :=
  if pcomp =? 0 then Ok (t, buf, len) else
  match first_with (fun e => has pcomp (en_comp e)) t with
  | None => Ok (t, buf, len)
  | Some (a, e, b) =>
    match en_alg e, en_state e with
    | RFC1144, Tcp (Some s) =>
      do r <- rfc1144_expand s buf len (get_idx e pcomp);
      let '(s, d, n) := r in Ok (a ++ put_state e s :: b, d, n)
    | _, _ => UB
    end
  end.

(** sndcp_private.h:144-182: NSAPI, SAPI, the XID request stored (empty: NULL), who waits for its confirmation (SNSM-ACTIVATE.ind,
    SN-XID.req), the fields of the peer. *)
Record sne := mkSne { e_nsapi : Z; e_sapi : Z; e_req : list Z; e_act : bool; e_xid : bool; e_peer : option (list field) }.
(** sndcp_private.h:185-198: the entities in the order of their NSAPI, and the tables. *)
Record snme := mkM { m_sne : list sne; m_proto : list ent; m_data : list ent }.
(** sndcp_private.h:80-83. *)
Record cfg := mkCfg { c_rfc1144 : bool; c_v42bis : bool }.
(** Primitives to LLC and to the users. *)
Inductive prim :=
| LlXidReq (sapi : Z) (l3 : list Z) | LlXidRsp (sapi : Z) (l3 : list Z)
| SnXidInd (sapi nsapi : Z) | SnXidCnf (sapi nsapi : Z) | SnsmActivateRsp (nsapi : Z).
(** What a step does: the state after it, the primitives, and whether the number returned is 0 (else it is -EINVAL). *)
Record step := mkR { r_m : snme; r_out : list prim; r_ok : bool }.

(** The entity with NSAPI [n] (sndcp_private.h:200-204); the first one with SAPI [s] (sndcp.c:1023-1032,1117-1126). *)
Definition by_nsapi (m : snme) (n : Z) : option sne := find (fun e => e_nsapi e =? n) (m_sne m).
Definition by_sapi (m : snme) (s : Z) : option sne := find (fun e => e_sapi e =? s) (m_sne m).
(** sndcp.c:187-199 [gprs_sndcp_sne_by_dlci_nsapi], with the assertion of sndcp_private.h:202. *)
Definition by_dlci (m : snme) (s n : Z) : res (option sne) :=
  asserts (n <? 16) (Ok (match by_nsapi m n with Some e => if e_sapi e =? s then Some e else None | None => None end)).
(** Stores into the entity with the NSAPI of [e]. *)
Definition put_sne (m : snme) (e : sne) : snme :=
  mkM (map (fun x => if e_nsapi x =? e_nsapi e then e else x) (m_sne m)) (m_proto m) (m_data m).

(** sndcp.c:732-787 [gprs_sndcp_sne_gen_sndcp_xid]: the fields; [pc] is S0 if header compression is asked for, [dc] are the
    parameters of V.42bis. *)
Definition gen_fields (n : Z) (pc : option Z) (dc : option (Z * Z * Z)) : list field :=
  (match dc with
   | Some (p0, p1, p2) =>
     [mkF true (match pc with Some _ => 1 | None => 0 end) 0 [1] (Some (mkPar V42BIS [n] [p0; p1; p2] []))]
   | None => [] end) ++
  (match pc with Some s01 => [mkF true 0 0 [1; 2] (Some (mkPar RFC1144 [n] [s01] []))] | None => [] end).
(** The buffer of line 793 has 1024 octets; what is in it before does not get into the message. *)
Definition gen_xid (n : Z) (pc : option Z) (dc : option (Z * Z * Z)) : res (list Z) :=
  match gen_fields n pc dc with
  | [] => Ok []
  | fs => do r <- compile_xid (repeat 0 1024) fs 0; Ok (firstn (Z.to_nat (snd r)) (fst r))
  end.
(** sndcp.c:790-816 [gprs_sndcp_sne_handle_sn_xid_req]; sndcp_prim.c:377-396: no entity, no effect. *)
Definition sn_xid_req (m : snme) (s n : Z) (pc : option Z) (dc : option (Z * Z * Z)) : res step :=
  do x <- by_dlci m s n;
  match x with
  | None => Ok (mkR m [] false)
  | Some e =>
    do _ <- comp_free (m_proto m); do _ <- comp_free (m_data m);
    do b <- gen_xid (e_nsapi e) pc dc;
    let e := mkSne (e_nsapi e) (e_sapi e) b (e_act e) true (e_peer e) in
    Ok (mkR (put_sne (mkM (m_sne m) [] []) e) [LlXidReq (e_sapi e) b] true)
  end.
(** sndcp.c:821-853 [gprs_sndcp_sne_handle_sn_xid_rsp]; the message has 256 octets (line 835, llc_prim.c:102-107). *)
Definition sn_xid_rsp (m : snme) (s n : Z) : res step :=
  do x <- by_dlci m s n;
  match x with
  | None => Ok (mkR m [] false)
  | Some e =>
    match e_peer e with
    | None => Ok (mkR m [] false)
    | Some fs =>
      do r <- compile_xid (repeat 0 256) fs 0;
      Ok (mkR m [LlXidRsp (e_sapi e) (firstn (Z.to_nat (snd r)) (fst r))] true)
    end
  end.

Definition no_prop (f : field) : field := mkF false (f_entity f) (f_algo f) (f_comp f) (f_par f).
Definition no_nsapi (f : field) : field :=
  mkF (f_p f) (f_entity f) (f_algo f) (f_comp f)
    (match f_par f with Some p => Some (mkPar (p_alg p) [] (p_vals p) (p_prof p)) | None => None end).
(** sndcp.c:929-971 [gprs_sndcp_snme_handle_pcomp_entities], 974-1007 [gprs_sndcp_snme_handle_dcomp_entities]: the table of the class and the field. *)
Definition handle (c : cfg) (t : list ent) (p : params) (f : field) : res (list ent * field) :=
  let f := no_prop f in
  if (match p_alg p with RFC1144 => c_rfc1144 c | V42BIS => c_v42bis c | _ => false end) && (0 <? zlen (p_nsapi p))
  then do t <- comp_add t f; Ok (t, f)
  else do t <- comp_delete t (f_entity f); Ok (t, no_nsapi f).
(** sndcp.c:1065-1081, 1152-1165: all fields; the tables and the fields as they are then. *)
Fixpoint handle_all (c : cfg) (pt dt : list ent) (fs : list field) : res (list ent * list ent * list field) :=
  match fs with
  | [] => Ok (pt, dt, [])
  | f :: r =>
    do x <- (match f_par f with
             | Some p =>
               if class f =? 2 then do y <- handle c pt p f; Ok (fst y, dt, snd y)
               else do y <- handle c dt p f; Ok (pt, fst y, snd y)
             | None => do pt <- comp_delete pt (f_entity f); do dt <- comp_delete dt (f_entity f); Ok (pt, dt, f)
             end);
    let '(pt, dt, f) := x in
    do y <- handle_all c pt dt r;
    let '(pt, dt, r) := y in Ok (pt, dt, f :: r)
  end.
(** sndcp.c:1010-1090 [gprs_sndcp_snme_handle_llc_ll_xid_ind]; [buf] is the buffer, [len] the length of the block in it. *)
Definition ll_xid_ind (c : cfg) (m : snme) (sapi : Z) (buf : list Z) (len : Z) : res step :=
  match by_sapi m sapi with
  | None => Ok (mkR m [] false)
  | Some e =>
    if len =? 0 then Ok (mkR m [] true) else
    do x <- parse_xid true buf len None;
    match x with
    | None => Ok (mkR m [] false)
    | Some (_, fs) =>
      do y <- handle_all c (m_proto m) (m_data m) fs;
      let '(pt, dt, fs) := y in
      let e := mkSne (e_nsapi e) (e_sapi e) (e_req e) (e_act e) (e_xid e) (Some fs) in
      Ok (mkR (put_sne (mkM (m_sne m) pt dt) e) [SnXidInd (e_sapi e) (e_nsapi e)] true)
    end
  end.
(** sndcp.c:1095-1187 [gprs_sndcp_snme_handle_llc_ll_xid_cnf]: lines 1171-1180. *)
Definition confirm (m : snme) (e : sne) : step :=
  mkR (put_sne m (mkSne (e_nsapi e) (e_sapi e) (e_req e) false false (e_peer e)))
    ((if e_act e then [SnsmActivateRsp (e_nsapi e)] else []) ++ (if e_xid e then [SnXidCnf (e_sapi e) (e_nsapi e)] else [])) true.
Definition ll_xid_cnf (c : cfg) (m : snme) (sapi : Z) (buf : list Z) (len : Z) : res step :=
  match by_sapi m sapi with
  | None => Ok (mkR m [] false)
  | Some e =>
    match e_req e with
    | [] => Ok (confirm m e)
    | q =>
      do x <- parse_xid false q (zlen q) None;
      match x with
      | None => Ok (mkR m [] false)
      | Some (_, req) =>
        do x <- parse_xid false buf len (Some req);
        match x with
        | None => Ok (mkR m [] false)
        | Some (_, fs) =>
          do y <- handle_all c (m_proto m) (m_data m) fs;
          let '(pt, dt, _) := y in Ok (confirm (mkM (m_sne m) pt dt) e)
        end
      end
    end
  end.
(** sndcp_prim.c:632-696 [gprs_sndcp_prim_handle_sndcp_snsm_activate_ind], in a mobile, with a valid QoS profile; the entities are in the
    order of their NSAPI. *)
Fixpoint insert (e : sne) (l : list sne) : list sne :=
  match l with
  | [] => [e]
  | x :: r => if e_nsapi e <? e_nsapi x then e :: l else x :: insert e r
  end.
Definition snsm_activate (m : snme) (n sapi : Z) : res step :=
  asserts (n <? 16)
    (let '(m, e) :=
       match by_nsapi m n with
       | Some e => (m, e)
       | None => let e := mkSne n sapi [] false false None in (mkM (insert e (m_sne m)) (m_proto m) (m_data m), e)
       end in
     match e_req e with
     | [] => Ok (mkR m [SnsmActivateRsp n] true)
     | q =>
       Ok (mkR (put_sne m (mkSne (e_nsapi e) (e_sapi e) q true (e_xid e) (e_peer e))) [LlXidReq (e_sapi e) q] true)
     end).
(** sndcp_private.h:185-198, sndcp.c:65-80 [gprs_sndcp_snme_alloc]. *)
Definition snme0 : snme := mkM [] [] [].
