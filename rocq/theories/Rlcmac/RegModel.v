(** Model of the entities of RLC/MAC as the upper layers see them: GMMRR-ASSIGN.req and GRR-UNITDATA.req of
    src/rlcmac/rlcmac_prim.c, the list of entities of src/rlcmac/rlcmac.c, and the octet count of src/rlcmac/gre.c. *)
From Coq Require Import ZArith List Bool.
From Verif Require Import Lib.Base Lib.Outcome Rlcmac.LlcQueueModel Rlcmac.CcchModel.
Import ListNotations.
Open Scope Z_scope.

(** include/osmocom/gprs/rlcmac/rlcmac_private.h:18 and libosmocore's GSM_RESERVED_TMSI. *)
Definition UNASSIGNED : Z := 0xffffffff.
Definition RESERVED_TMSI : Z := 0xffffffff.
(** The list gre_list: every entity with a number of its own, which stands for its address; [r_next]: the next number.  What else
    an entity has is in the other models (SchedModel, LlcQueueModel). *)
Record reg := mkReg { r_list : list (Z * ent); r_next : Z }.
(** rlcmac.c:87 (INIT_LLIST_HEAD): no entity. *)
Definition reg0 : reg := mkReg [] 1.

(** rlcmac.c:137-145 [gprs_rlcmac_find_entity_by_tlli]. *)
Definition named (t : Z) (e : ent) : bool := (e_tlli e =? t) || (e_old_tlli e =? t).
Definition find_tlli (r : reg) (t : Z) : option Z := option_map fst (find (fun x => named t (snd x)) (r_list r)).
(** rlcmac.c:147-155 [gprs_rlcmac_find_entity_by_ptmsi]. *)
Definition find_ptmsi (r : reg) (p : Z) : option Z := option_map fst (find (fun x => e_ptmsi (snd x) =? p) (r_list r)).
(** rlcmac.c:157-165 [gprs_rlcmac_find_entity_by_imsi]: strncmp over the 16 octets of the array, which ends in a zero. *)
Definition find_imsi (r : reg) (i : list Z) : option Z := option_map fst (find (fun x => eqs (e_imsi (snd x)) (firstn 16 i)) (r_list r)).

(** gre.c:46-78 [gprs_rlcmac_entity_alloc], when there is memory. *)
Definition entity_alloc (r : reg) (tlli : Z) : reg :=
  mkReg (r_list r ++ [(r_next r, mkEnt tlli UNASSIGNED RESERVED_TMSI [])]) (r_next r + 1).
(** gre.c:80-95 [gprs_rlcmac_entity_free], as to the list. *)
Definition entity_free (r : reg) (g : Z) : reg := mkReg (filter (fun x => negb (fst x =? g)) (r_list r)) (r_next r).
(** Writing members of the entity [g] (rlcmac_prim.c:501-508). *)
Definition entity_upd (r : reg) (g : Z) (f : ent -> ent) : reg :=
  mkReg (map (fun x => if fst x =? g then (fst x, f (snd x)) else x) (r_list r)) (r_next r).
(** rlcmac_prim.c:508: OSMO_STRLCPY_ARRAY into char imsi[16] (gre.h:28). *)
Definition set_ids (ptmsi : Z) (imsi : list Z) (e : ent) : ent := mkEnt (e_tlli e) (e_old_tlli e) ptmsi (firstn 15 imsi).

(** rlcmac_prim.c:458-514 [rlcmac_prim_handle_gmmrr_assign_req]: the return value and the list after it. *)
Definition assign_req (r : reg) (old_tlli new_tlli ptmsi : Z) (imsi : list Z) : Z * reg :=
  if old_tlli =? UNASSIGNED then
    if new_tlli =? UNASSIGNED then (- EINVAL, r)                          (* 466-470 *)
    else match find_tlli r new_tlli with
         | Some _ => (- EINVAL, r)                                        (* 471-475 *)
         | None => (0, entity_upd (entity_alloc r new_tlli) (r_next r) (set_ids ptmsi imsi))   (* 477, 507-508 *)
         end
  else match find_tlli r old_tlli with
       | None => (- ENOENT, r)                                            (* 482-486, 494-498 *)
       | Some g =>
           if new_tlli =? UNASSIGNED then (0, entity_free r g)            (* 487-491 *)
           else (0, entity_upd r g (fun e => set_ids ptmsi imsi (mkEnt new_tlli old_tlli (e_ptmsi e) (e_imsi e))))  (* 500-508 *)
       end.
(** rlcmac_prim.c:390-401 in [rlcmac_prim_handle_grr_unitdata_req]: the entity that gets the frame. *)
Definition unitdata_req (r : reg) (tlli : Z) : Z * reg :=
  match find_tlli r tlli with
  | Some g => (g, r)
  | None => (r_next r, entity_alloc r tlli)
  end.

(** The two primitives (rlcmac_prim.c:458, 390). *)
Inductive req := Assign (old_tlli new_tlli ptmsi : Z) (imsi : list Z) | Frame (tlli : Z).
(** What the user sees of it: the return value, or which entity got the frame. *)
Inductive seen := Ret (rc : Z) | To (g : Z).
(** One primitive (rlcmac_prim.c:441-456, 516-528 choose the handler), and a history of them. *)
Definition rstep (r : reg) (q : req) : seen * reg :=
  match q with
  | Assign o n p i => let (rc, r') := assign_req r o n p i in (Ret rc, r')
  | Frame t => let (g, r') := unitdata_req r t in (To g, r')
  end.
Fixpoint rrun (r : reg) (l : list req) : list seen * reg :=
  match l with
  | [] => ([], r)
  | q :: l => let (x, r1) := rstep r q in let (xs, r2) := rrun r1 l in (x :: xs, r2)
  end.

(** gre.c:263-284 [gprs_rlcmac_entity_calculate_new_ul_tbf_rlc_octet_count]: the loop over the frames of the twelve classes in
    order, with its early return.  A frame of length zero has no l2h, so that msgb_l2len (277) computes with a null pointer. *)
Fixpoint count_frames (l : list entry) (cnt : Z) : res (Z + Z) :=
  match l with
  | [] => Ok (inr cnt)
  | e :: l =>
      if zlen (e_data e) =? 0 then UB else
      let cnt := (cnt + 1 + zlen (e_data e)) mod 2 ^ 32 in if 65535 <=? cnt then Ok (inl 65535) else count_frames l cnt
  end.
Fixpoint count_classes (l : list pclass) (cnt : Z) : res Z :=
  match l with
  | [] => Ok (cnt mod 2 ^ 16)
  | p :: l => bind (count_frames (pc_queue p) cnt) (fun x => match x with inl v => Ok v | inr cnt => count_classes l cnt end)
  end.
Definition octet_count (q : llcq) : res Z := count_classes (q_pq q) 0.
