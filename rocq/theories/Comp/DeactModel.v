(** Model of the life of SNDCP entities: SNSM-ACTIVATE.ind and SNSM-DEACTIVATE.ind for one TLLI. *)
From Verif.Lib Require Import Base Outcome.
From Verif.Comp Require Import XidModel NegModel.

(** What a TLLI has: no management entity, or one (sndcp.c:93-102 [gprs_sndcp_snme_find_by_tlli]). *)
Definition ms := option snme.
(** Primitives: those of NegModel, and SNSM-DEACTIVATE.rsp. *)
Inductive out := Neg (p : prim) | SnsmDeactivateRsp (nsapi : Z).

(** sndcp.c:82-90, 113-129 [gprs_sndcp_snme_free], [gprs_sndcp_snme_detach_sne], 155-164 [gprs_sndcp_sne_free]: the slot becomes NULL, and the
    management entity, with the tables of compression, is freed when there are no more entities. *)
Definition detach (m : snme) (n : Z) : ms :=
  match filter (fun e => negb (e_nsapi e =? n)) (m_sne m) with [] => None | l => Some (mkM l (m_proto m) (m_data m)) end.
(** sndcp_prim.c:699-730 [gprs_sndcp_prim_handle_sndcp_snsm_deactivate_ind]; [false]: -EIO.  The assertion of sndcp_private.h:202. *)
Definition snsm_deactivate (s : ms) (n : Z) : res (ms * list out * bool) :=
  match s with
  | None => Ok (s, [], false)
  | Some m =>
    if negb (n <? 16) then UB else
    match by_nsapi m n with
    | None => Ok (s, [], false)
    | Some _ => Ok (detach m n, [SnsmDeactivateRsp n], true)
    end
  end.
Definition lift (r : res step) : res (ms * list out * bool) :=
  do x <- r; Ok (Some (r_m x), map Neg (r_out x), r_ok x).
(** What happens: SNSM-ACTIVATE.ind (sndcp_prim.c:645-652: the management entity is made when there is none), SNSM-DEACTIVATE.ind, and the
    primitives of XID, which have no effect without management entity (sndcp_prim.c:505-521, sndcp_prim.c:524-541). *)
Inductive ev := Act (n sapi : Z) | Deact (n : Z)
| XidReq (sapi n : Z) (pc : option Z) (dc : option (Z * Z * Z)) | XidRsp (sapi n : Z)
| XidInd (sapi : Z) (buf : list Z) (len : Z) | XidCnf (sapi : Z) (buf : list Z) (len : Z).
Definition on (s : ms) (f : snme -> res step) : res (ms * list out * bool) := match s with None => Ok (None, [], false) | Some m => lift (f m) end.
Definition do_ev (c : cfg) (s : ms) (e : ev) : res (ms * list out * bool) :=
  match e with
  | Act n sapi => lift (snsm_activate (match s with Some m => m | None => snme0 end) n sapi)
  | Deact n => snsm_deactivate s n
  | XidReq sapi n pc dc => on s (fun m => sn_xid_req m sapi n pc dc)
  | XidRsp sapi n => on s (fun m => sn_xid_rsp m sapi n)
  | XidInd sapi buf len => on s (fun m => ll_xid_ind c m sapi buf len)
  | XidCnf sapi buf len => on s (fun m => ll_xid_cnf c m sapi buf len)
  end.
Fixpoint run (c : cfg) (s : ms) (l : list ev) : res (ms * list out) :=
  match l with
  | [] => Ok (s, [])
  | e :: r => do x <- do_ev c s e; let '(s1, o, _) := x in do y <- run c s1 r; Ok (fst y, o ++ snd y)
  end.
