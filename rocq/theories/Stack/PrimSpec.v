(** What is asked of the entry points of the layers, in terms of primitives and of what becomes of the
    message buffer.  Uses the types of the model, none of its functions. *)
From Coq Require Import ZArith List Bool Lia.
From Verif.Lib Require Import Base Outcome.
From Verif.Stack Require Import PrimModel.
Import ListNotations.
Local Open Scope Z_scope.

(** The buffer is freed exactly once and not touched afterwards. *)
Definition once (tr : list ev) : Prop := exists u, ~ In Free u /\ tr = u ++ [Free].

(** How often it is freed. *)
Definition frees (tr : list ev) : nat :=
  length (filter (fun e => match e with Free => true | _ => false end) tr).

(** Something is done with the buffer after it was freed. *)
Definition used_after_free (tr : list ev) : Prop :=
  exists a b, tr = a ++ Free :: b /\ b <> [].

(** The primitives (SAP, type, operation) that an entry point has an implementation for, with the numbers
    of the enums of the layer's header:
    LLC: SAPs LLGMM 0, LL 1, GRR 2, BSSGP 3; SNDCP: SN 0, SNSM 1; SM: SMREG 0;
    GMM: GMMREG 0, GMMRR 1, GMMSM 4, GMMBSSGP 9; RLC/MAC: GRR 0, GMMRR 1, L1CTL 2. *)
Definition implemented (e : entry) : list (Z * Z * op) :=
  match e with
  | LlcDown => [ (0, 0, Req) (* LLGMM-ASSIGN.req *); (0, 1, Req) (* LLGMM-RESET.req *);
                 (0, 2, Req) (* LLGMM-TRIGGER.req *); (0, 3, Req) (* LLGMM-SUSPEND.req *);
                 (0, 4, Req) (* LLGMM-RESUME.req *); (1, 1, Req) (* LL-ESTABLISH.req *);
                 (1, 3, Req) (* LL-XID.req *); (1, 3, Rsp) (* LL-XID.rsp *);
                 (1, 5, Req) (* LL-UNITDATA.req *) ]
  | LlcUp => [ (2, 1, Ind) (* GRR-UNITDATA.ind *); (3, 1, Ind) (* BSSGP-UL-UNITDATA.ind *) ]
  | SnDown => [ (0, 1, Req) (* SN-UNITDATA.req *); (0, 2, Req) (* SN-XID.req *);
                (0, 2, Rsp) (* SN-XID.rsp *) ]
  | SnUp => [ (1, 5, Ind) (* LL-UNITDATA.ind *); (1, 1, Cnf) (* LL-ESTABLISH.cnf *);
              (1, 3, Ind) (* LL-XID.ind *); (1, 3, Cnf) (* LL-XID.cnf *);
              (1, 7, Ind) (* LL-ASSIGN.ind *) ]
  | SnSnsm => [ (1, 0, Ind) (* SNSM-ACTIVATE.ind *); (1, 1, Ind) (* SNSM-DEACTIVATE.ind *) ]
  | SmDown => [ (0, 0, Req) (* SMREG-PDP-ACTIVATE.req *) ]
  | SmSndcp => [ (1, 0, Rsp) (* SNSM-ACTIVATE.rsp *); (1, 1, Rsp) (* SNSM-DEACTIVATE.rsp *) ]
  | SmUp => []
  | SmGmmUp => [ (4, 0, Cnf) (* GMMSM-ESTABLISH.cnf *); (4, 1, Ind) (* GMMSM-RELEASE.ind *);
                 (4, 2, Ind) (* GMMSM-UNITDATA.ind *); (4, 3, Ind) (* GMMSM-MODIFY.ind *) ]
  | GmmDown => [ (0, 0, Req) (* GMMREG-ATTACH.req *); (0, 1, Req) (* GMMREG-DETACH.req *);
                 (0, 2, Rsp) (* GMMREG-SIM-AUTH.rsp *); (4, 0, Req) (* GMMSM-ESTABLISH.req *);
                 (4, 2, Req) (* GMMSM-UNITDATA.req *) ]
  | GmmUp => [ (1, 1, Ind) (* GMMRR-PAGE.ind *); (1, 2, Ind) (* GMMRR-LLC-TRANSMITTED.ind *) ]
  | GmmLlcUp => [ (1, 5, Ind) (* LL-UNITDATA.ind *) ]
  | RlcDown => [ (0, 1, Req) (* GRR-UNITDATA.req *); (1, 0, Req) (* GMMRR-ASSIGN.req *) ]
  | RlcUp => [ (2, 3, Ind) (* L1CTL-PDCH-RTS.ind *); (2, 2, Ind) (* L1CTL-PDCH-DATA.ind *);
               (2, 2, Cnf) (* L1CTL-PDCH-DATA.cnf *); (2, 1, Ind) (* L1CTL-CCCH-DATA.ind *);
               (2, 8, Ind) (* L1CTL-CCCH-READY.ind *) ]
  end.

Definition key (p : prim) : Z * Z * op := (p_sap p, p_ty p, p_op p).

(** The primitives whose buffer is freed twice: those that reach a default that frees below a caller that
    frees as well.  The SAP is one that the entry point serves. *)
Definition freed_twice (e : entry) (p : prim) (w : world) : Prop :=
  match e with
  | LlcUp => key p = (2, 0, Ind)                                   (* GRR-DATA.ind *)
  | SnDown => key p = (0, 0, Req) /\ w_known w = true               (* SN-DATA.req, entity exists *)
  | SnUp | SnSnsm | SmSndcp => p_sap p = 1 /\ ~ In (key p) (implemented e)
  | SmDown | GmmDown => p_sap p = 0 /\ ~ In (key p) (implemented e)
  | _ => False
  end.

(** The primitives whose buffer is never freed. *)
Definition never_freed (e : entry) (p : prim) : Prop :=
  match e with
  | RlcDown => (p_sap p = 0 \/ p_sap p = 1) /\ ~ In (key p) (implemented e) /\ key p <> (0, 0, Req)
  | _ => False
  end.

(** Entry points and SAPs at which a primitive that is not implemented is reported as done (0). *)
Definition reported_done (e : entry) (p : prim) : Prop :=
  match e with
  | SnUp | SmSndcp => p_sap p <> 1
  | SmDown | GmmDown => p_sap p <> 0
  | SmUp | SmGmmUp | GmmUp | GmmLlcUp => True
  | _ => False
  end.

(** The functions below the handlers follow the convention: 1 would mean "keep". *)
Definition polite (w : world) : Prop := w_rc w <> 1 /\ w_err w <> 1.

(** The primitives at which the process stops because the LLC layer is at the other end of the link (1 MS,
    2 SGSN), although their fields are in order. *)
Definition wrong_side (e : entry) (p : prim) (loc : Z) : Prop :=
  match e with
  | LlcDown =>
      loc = 1 /\ (key p = (0, 1, Req) (* LLGMM-RESET.req *) \/ key p = (0, 6, Req) (* LLGMM-IOV.req *)) \/
      loc = 2 /\ key p = (0, 2, Req) (* LLGMM-TRIGGER.req *)
  | LlcUp => loc = 1 /\ p_sap p = 3 \/ loc = 2 /\ p_sap p = 2
  | _ => False
  end.

(** A callback of the user that hands the primitive on to an entry point of another layer: what
    happens to the buffer is what that entry point does, [inner]. *)
Definition through (inner tr : list ev) : list ev :=
  flat_map (fun x => match x with Act => inner | _ => [x] end) tr.
