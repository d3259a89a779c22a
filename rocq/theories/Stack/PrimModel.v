(** The entry points through which primitives reach the layers, seen from the message buffer (msgb)
    that carries the primitive: who reads it, who frees it, what the entry point returns.
    A trace lists what happens to the buffer of the one primitive that was handed in. *)
From Coq Require Import ZArith List Bool Lia.
From Verif.Lib Require Import Base Outcome.
Import ListNotations.
Local Open Scope Z_scope.

(** PRIM_OP_REQUEST, _RESPONSE, _INDICATION, _CONFIRM of libosmocore, used by OSMO_PRIM() in
    src/llc/llc_ll.c:329-349.  OSMO_PRIM_HDR packs the type and this operation into one number;
    here they stay a pair. *)
Inductive op := Req | Rsp | Ind | Cnf.

(** The header of a primitive: include/osmocom/gprs/llc/llc_prim.h:14-19 and its like; types and SAPs are the
    numbers of the enums of each layer. *)
Record prim := mkPrim { p_sap : Z; p_ty : Z; p_op : op }.

(** What happens to the buffer: [Use]: the primitive is read (logged, or its fields are); [Act]: the
    handler calls the function of the layer that acts on the primitive, src/sndcp/sndcp_prim.c:369-370;
    [Free]: msgb_free(), src/sndcp/sndcp_prim.c:372. *)
Inductive ev := Use | Act | Free.

(** An entry point returns, or a failed OSMO_ASSERT ends the process (src/llc/llc_ll.c:331-332). *)
Inductive out := Ret (tr : list ev) (rc : Z) | Abort.

(** What a handler finds.  Simplified: [w_known]: the entity that the primitive names exists, or the
    primitive is otherwise fit to be acted on (src/sndcp/sndcp_prim.c:334-336); [w_rc]: what the function
    returns that acts on it (lines 369-370); [w_err]: what a handler returns that gives up and has more
    than one value for that (src/rlcmac/rlcmac_prim.c:591-610); [w_fit]: the assertions about the fields
    of the primitive hold (src/sndcp/sndcp_prim.c:356-357); [w_loc]: the location of the LLC layer, 0 unset,
    1 MS, 2 SGSN (include/osmocom/gprs/llc/llc.h:11-15). *)
Record world := mkWorld { w_known : bool; w_rc : Z; w_err : Z; w_fit : bool; w_loc : Z }.

(** ENOKEY of Linux, used in src/llc/llc_ll.c:241. *)
Definition ENOKEY : Z := 126.

(** gprs_llc_prim_handle_unsupported, src/llc/llc_prim.c:127-132 (the same in every layer:
    src/sndcp/sndcp_prim.c:294-306, src/sm/sm_prim.c:198-217, src/gmm/gmm_prim.c:468-480,
    src/rlcmac/rlcmac_prim.c:373-378): logs the primitive, frees it, -ENOTSUP. *)
Definition unsupported : out := Ret [Use; Free] (- ENOTSUP).

(** The same followed by "rc = 1", src/gmm/gmm_prim.c:785-787. *)
Definition unsupported_1 : out := Ret [Use; Free] 1.

(** A handler that frees what it was given, on every path: src/sndcp/sndcp_prim.c:352-374. *)
Definition own (e : Z) (w : world) : out :=
  if w_known w then Ret [Use; Act; Free] (w_rc w) else Ret [Use; Free] e.

(** A handler that leaves the freeing to its caller: src/sndcp/sndcp_prim.c:488-503. *)
Definition lend (e : Z) (w : world) : out :=
  if w_known w then Ret [Use; Act] (w_rc w) else Ret [Use] e.

(** A handler that asserts something about the fields first: src/sndcp/sndcp_prim.c:331-332. *)
Definition guard (b : bool) (o : out) : out := if b then o else Abort.

(** "Special return value '1' means: do not free", src/sndcp/sndcp_prim.c:605-610: [pre] is what is done to
    find the buffer again, nothing where the pointer was saved. *)
Definition finish (pre : list ev) (o : out) : out :=
  match o with
  | Ret tr rc => if rc =? 1 then Ret tr 0 else Ret (tr ++ pre ++ [Free]) rc
  | Abort => Abort
  end.

(** The entry point logs the primitive before it dispatches, src/llc/llc_prim.c:157. *)
Definition logged (o : out) : out :=
  match o with Ret tr rc => Ret (Use :: tr) rc | Abort => Abort end.

(** The locations for which src/llc/llc_ll.c:331-332 does not stop. *)
Definition ms_or_sgsn (w : world) : bool := (w_loc w =? 1) || (w_loc w =? 2).

(** gprs_llc_prim_ll_upper_down, src/llc/llc_ll.c:326-355, with the handlers of lines 231-323.
    LL-UNITDATA.req creates the entity that it does not find (lines 303-309): [w_known] false is
    the suspended one, lines 311-314, which returns 0. *)
Definition llc_ll_upper_down (p : prim) (w : world) : out :=
  match p_ty p, p_op p with
  | 1, Req => guard (ms_or_sgsn w) (own (- ENOKEY) w)
  | 3, Req => guard (ms_or_sgsn w) (own (- ENOKEY) w)
  | 3, Rsp => guard (ms_or_sgsn w) (own (- ENOKEY) w)
  | 5, Req => guard (ms_or_sgsn w) (own 0 w)
  | _, _ => unsupported
  end.

(** gprs_llc_prim_llgmm_upper_down, src/llc/llc_llgmm.c:364-410, with the handlers of lines 145-361; each
    ends in ret_free (lines 228-230, 275-277, 316-318, 337-339, 358-360). *)
Definition llc_llgmm_upper_down (p : prim) (w : world) : out :=
  match p_ty p, p_op p with
  | 0, Req => guard (ms_or_sgsn w) (own (w_err w) w)
  | 1, Req => guard (w_loc w =? 2) (own (w_err w) w)
  | 2, Req => guard (w_loc w =? 1) (own (w_err w) w)
  | 3, Req => guard (ms_or_sgsn w) (own (w_err w) w)
  | 4, Req => guard (ms_or_sgsn w) (own (w_err w) w)
  | 6, Req => guard (w_loc w =? 2) unsupported
  | 8, Req => guard (ms_or_sgsn w) unsupported
  | 9, Req => guard (ms_or_sgsn w) unsupported
  | _, _ => Ret [Free] (- ENOTSUP)
  end.

(** osmo_gprs_llc_prim_upper_down, src/llc/llc_prim.c:152-170. *)
Definition llc_upper_down (p : prim) (w : world) : out :=
  logged match p_sap p with
         | 0 => llc_llgmm_upper_down p w
         | 1 => llc_ll_upper_down p w
         | _ => unsupported
         end.

(** gprs_llc_prim_lower_up_grr, src/llc/llc_grr.c:133-149, with llc_prim_handle_grr_data_ind, lines 77-81,
    and llc_prim_handle_grr_unitdata_ind, lines 83-130. *)
Definition llc_lower_up_grr (p : prim) (w : world) : out :=
  match p_ty p, p_op p with
  | 0, Ind => unsupported
  | 1, Ind => lend (w_err w) w
  | _, _ => Ret [] (- ENOTSUP)
  end.

(** gprs_llc_prim_lower_up_bssgp, src/llc/llc_bssgp.c:130-142, with the handler of lines 81-128. *)
Definition llc_lower_up_bssgp (p : prim) (w : world) : out :=
  match p_ty p, p_op p with
  | 1, Ind => lend (w_err w) w
  | _, _ => Ret [] (- ENOTSUP)
  end.

(** osmo_gprs_llc_prim_lower_up, src/llc/llc_prim.c:192-221. *)
Definition llc_lower_up (p : prim) (w : world) : out :=
  logged (finish [] match p_sap p with
                    | 2 => guard (w_loc w =? 1) (llc_lower_up_grr p w)
                    | 3 => guard (w_loc w =? 2) (llc_lower_up_bssgp p w)
                    | _ => Ret [] (- EINVAL)
                    end).

(** gprs_sndcp_prim_handle_sndcp_sn_data_req, src/sndcp/sndcp_prim.c:327-349: the handler of unsupported
    primitives has freed it when it gets to ret_free, where the pointer is read from the primitive. *)
Definition sndcp_sn_data_req (w : world) : out :=
  guard (w_fit w) (if w_known w then Ret [Use; Use; Free; Use; Free] (- ENOTSUP)
                   else Ret [Use; Free] (- EIO)).

(** osmo_gprs_sndcp_prim_upper_down, src/sndcp/sndcp_prim.c:421-448, with the handlers of lines 351-418. *)
Definition sndcp_upper_down (p : prim) (w : world) : out :=
  logged (if negb (p_sap p =? 0) then unsupported
          else match p_ty p, p_op p with
               | 0, Req => sndcp_sn_data_req w
               | 1, Req => guard (w_fit w) (own (- EIO) w)
               | 2, Req => own (- EIO) w
               | 2, Rsp => own (- EIO) w
               | _, _ => unsupported
               end).

(** gprs_sndcp_prim_lower_up_llc_ll, src/sndcp/sndcp_prim.c:560-584, with the handlers of lines 468-558. *)
Definition sndcp_lower_up_llc_ll (p : prim) (w : world) : out :=
  match p_ty p, p_op p with
  | 5, Ind => guard (w_fit w) (lend (- EIO) w)
  | 1, Cnf => lend (- EIO) w
  | 3, Ind => lend (- EIO) w
  | 3, Cnf => lend (- EIO) w
  | 7, Ind => lend (- EIO) w
  | _, _ => unsupported
  end.

(** osmo_gprs_sndcp_prim_lower_up, src/sndcp/sndcp_prim.c:587-611. *)
Definition sndcp_lower_up (p : prim) (w : world) : out :=
  logged (finish [] match p_sap p with
                    | 1 => sndcp_lower_up_llc_ll p w
                    | _ => unsupported_1
                    end).

(** osmo_gprs_sndcp_prim_dispatch_snsm, src/sndcp/sndcp_prim.c:760-798, with the handlers of lines
    631-757.  SNSM-ACTIVATE.ind allocates what it does not find (lines 645-660): [w_known] false stands
    for the early returns of lines 664-675. *)
Definition sndcp_dispatch_snsm (p : prim) (w : world) : out :=
  logged (if negb (p_sap p =? 1) then unsupported
          else finish [] match p_ty p, p_op p with
                         | 0, Ind => lend (w_err w) w
                         | 1, Ind => lend (- EIO) w
                         | 2, Ind => unsupported
                         | 4, Ind => unsupported
                         | 5, Ind => unsupported
                         | _, _ => unsupported
                         end).

(** gprs_sm_prim_handle_smreg, src/sm/sm_prim.c:295-307, with gprs_sm_prim_handle_smreg_pdp_act_req, lines
    235-293 ([w_known] false: the PDP context exists already, lines 250-254). *)
Definition sm_smreg (p : prim) (w : world) : out :=
  match p_ty p, p_op p with
  | 0, Req => guard (w_fit w) (lend (- EINVAL) w)
  | _, _ => unsupported
  end.

(** osmo_gprs_sm_prim_upper_down, src/sm/sm_prim.c:310-332; the buffer is read from the primitive
    when it is freed (line 328). *)
Definition sm_upper_down (p : prim) (w : world) : out :=
  logged (finish [Use] match p_sap p with
                       | 0 => sm_smreg p w
                       | _ => unsupported_1
                       end).

(** gprs_sm_prim_handle_sndcp_snsm, src/sm/sm_prim.c:408-427, with the handlers of lines 350-405. *)
Definition sm_snsm (p : prim) (w : world) : out :=
  match p_ty p, p_op p with
  | 0, Rsp => lend (- ENOENT) w
  | 1, Rsp => lend (- ENOENT) w
  | _, _ => unsupported
  end.

(** osmo_gprs_sm_prim_sndcp_upper_down, src/sm/sm_prim.c:430-452. *)
Definition sm_sndcp_upper_down (p : prim) (w : world) : out :=
  logged (finish [Use] match p_sap p with
                       | 1 => sm_snsm p w
                       | _ => unsupported_1
                       end).

(** osmo_gprs_sm_prim_lower_up, src/sm/sm_prim.c:470-491: knows no SAP. *)
Definition sm_lower_up (p : prim) (w : world) : out := logged (finish [] unsupported_1).

(** gprs_sm_prim_handle_gmmsm, src/sm/sm_prim.c:610-632, with the handlers of lines 508-608. *)
Definition sm_gmmsm (p : prim) (w : world) : out :=
  match p_ty p, p_op p with
  | 0, Cnf => lend (- EINVAL) w
  | 1, Ind => lend (- EINVAL) w
  | 2, Ind => lend (- EINVAL) w
  | 3, Ind => lend (- EINVAL) w
  | _, _ => unsupported_1
  end.

(** osmo_gprs_sm_prim_gmm_lower_up, src/sm/sm_prim.c:635-659. *)
Definition sm_gmm_lower_up (p : prim) (w : world) : out :=
  logged (finish [] match p_sap p with
                    | 4 => sm_gmmsm p w
                    | _ => unsupported_1
                    end).

(** gprs_gmm_prim_handle_gmmreg, src/gmm/gmm_prim.c:589-607, with the handlers of lines 500-587. *)
Definition gmm_gmmreg (p : prim) (w : world) : out :=
  match p_ty p, p_op p with
  | 0, Req => lend (w_err w) w
  | 1, Req => lend (w_err w) w
  | 2, Rsp => lend (w_err w) w
  | _, _ => unsupported
  end.

(** gprs_gmm_prim_handle_gmmsm, src/gmm/gmm_prim.c:669-685, with the handlers of lines 609-667. *)
Definition gmm_gmmsm (p : prim) (w : world) : out :=
  match p_ty p, p_op p with
  | 0, Req => lend (w_err w) w
  | 2, Req => lend (- ENOENT) w
  | _, _ => unsupported_1
  end.

(** osmo_gprs_gmm_prim_upper_down, src/gmm/gmm_prim.c:688-713. *)
Definition gmm_upper_down (p : prim) (w : world) : out :=
  logged (finish [Use] match p_sap p with
                       | 0 => gmm_gmmreg p w
                       | 4 => gmm_gmmsm p w
                       | _ => unsupported_1
                       end).

(** gprs_gmm_prim_handle_gmmrr, src/gmm/gmm_prim.c:766-781, with the handlers of lines 733-764. *)
Definition gmm_gmmrr (p : prim) (w : world) : out :=
  match p_ty p, p_op p with
  | 1, Ind => lend (- ENOENT) w
  | 2, Ind => lend (- ENOENT) w
  | _, _ => unsupported_1
  end.

(** gprs_gmm_prim_handle_gmmbssgp, src/gmm/gmm_prim.c:823-847: each of the five handlers of lines 783-821, and
    the default, free the primitive and set the return value to 1. *)
Definition gmm_gmmbssgp (p : prim) (w : world) : out := unsupported_1.

(** osmo_gprs_gmm_prim_lower_up, src/gmm/gmm_prim.c:850-877. *)
Definition gmm_lower_up (p : prim) (w : world) : out :=
  logged (finish [] match p_sap p with
                    | 1 => gmm_gmmrr p w
                    | 9 => gmm_gmmbssgp p w
                    | _ => unsupported_1
                    end).

(** gprs_gmm_prim_handle_llgmm, src/gmm/gmm_prim.c:894-912: what it does not know it ignores. *)
Definition gmm_llgmm (p : prim) (w : world) : out :=
  match p_ty p, p_op p with
  | 5, Ind => unsupported_1
  | 8, Ind => unsupported_1
  | 8, Cnf => unsupported_1
  | _, _ => Ret [] 0
  end.

(** gprs_gmm_prim_handle_ll, src/gmm/gmm_prim.c:955-982, with gprs_gmm_prim_handle_ll_unitdata_ind, lines
    914-953 ([w_fit]: the protocol discriminator is one of the two of lines 937-950). *)
Definition gmm_ll (p : prim) (w : world) : out :=
  match p_ty p, p_op p with
  | 5, Ind => if w_known w then guard (w_fit w) (lend (w_err w) w) else lend (w_err w) w
  | _, _ => unsupported_1
  end.

(** osmo_gprs_gmm_prim_llc_lower_up, src/gmm/gmm_prim.c:985-1012. *)
Definition gmm_llc_lower_up (p : prim) (w : world) : out :=
  logged (finish [] match p_sap p with
                    | 0 => gmm_llgmm p w
                    | 1 => gmm_ll p w
                    | _ => unsupported_1
                    end).

(** osmo_gprs_rlcmac_prim_upper_down, src/rlcmac/rlcmac_prim.c:531-548, with
    gprs_rlcmac_prim_grr_upper_down, lines 441-456, gprs_rlcmac_prim_gmmrr_upper_down, lines 516-528, and the
    handlers of lines 384-424 and 458-514.  The two defaults (lines 453, 525) do not free. *)
Definition rlcmac_upper_down (p : prim) (w : world) : out :=
  logged match p_sap p, p_ty p, p_op p with
         | 0, 0, Req => unsupported
         | 0, 1, Req => Ret [Use; Act; Free] (w_rc w)
         | 0, _, _ => Ret [] (- ENOTSUP)
         | 1, 0, Req => own (w_err w) w
         | 1, _, _ => Ret [] (- ENOTSUP)
         | _, _, _ => unsupported
         end.

(** gprs_rlcmac_prim_l1ctl_lower_up, src/rlcmac/rlcmac_prim.c:692-716, with the handlers of lines 572-690. *)
Definition rlcmac_l1ctl (p : prim) (w : world) : out :=
  match p_ty p, p_op p with
  | 3, Ind => Ret [Use; Act] (w_rc w)
  | 2, Ind => lend (w_err w) w
  | 2, Cnf => lend 0 w
  | 1, Ind => lend (w_err w) w
  | 8, Ind => lend 0 w
  | _, _ => Ret [] (- ENOTSUP)
  end.

(** osmo_gprs_rlcmac_prim_lower_up, src/rlcmac/rlcmac_prim.c:718-741. *)
Definition rlcmac_lower_up (p : prim) (w : world) : out :=
  logged (finish [] match p_sap p with
                    | 2 => rlcmac_l1ctl p w
                    | _ => Ret [] (- EINVAL)
                    end).

(** The fourteen entry points, in the order of the definitions above: src/llc/llc_prim.c:152,192,
    src/sndcp/sndcp_prim.c:421,587,760, src/sm/sm_prim.c:310,430,470,635, src/gmm/gmm_prim.c:688,850,985,
    src/rlcmac/rlcmac_prim.c:531,718. *)
Inductive entry :=
| LlcDown | LlcUp | SnDown | SnUp | SnSnsm | SmDown | SmSndcp | SmUp | SmGmmUp
| GmmDown | GmmUp | GmmLlcUp | RlcDown | RlcUp.

(** Which function an entry point is; no code of its own (the functions cited at [entry],
    src/llc/llc_prim.c:152-221). *)
Definition run (e : entry) (p : prim) (w : world) : out :=
  match e with
  | LlcDown => llc_upper_down p w
  | LlcUp => llc_lower_up p w
  | SnDown => sndcp_upper_down p w
  | SnUp => sndcp_lower_up p w
  | SnSnsm => sndcp_dispatch_snsm p w
  | SmDown => sm_upper_down p w
  | SmSndcp => sm_sndcp_upper_down p w
  | SmUp => sm_lower_up p w
  | SmGmmUp => sm_gmm_lower_up p w
  | GmmDown => gmm_upper_down p w
  | GmmUp => gmm_lower_up p w
  | GmmLlcUp => gmm_llc_lower_up p w
  | RlcDown => rlcmac_upper_down p w
  | RlcUp => rlcmac_lower_up p w
  end.

(** The functions that hand a primitive of their own to a callback of the user.  [cb] is what the callback
    returns; [keep] says whether the callback takes the buffer over (then it, not the library,
    frees it later).  Events: [Act] the callback runs. *)

(** The convention: gprs_llc_prim_call_down_cb, src/llc/llc_prim.c:176-190; the same text in
    src/sndcp/sndcp_prim.c:312-324,454-466,617-629, src/sm/sm_prim.c:335-348,493-506,
    src/gmm/gmm_prim.c:486-498,719-731,879-892, src/rlcmac/rlcmac_prim.c:426-439,554-570. *)
Definition call_cb (cb : Z) : list ev * Z :=
  if cb =? 1 then ([Act], 0) else ([Act; Free], cb).

(** gprs_llc_prim_call_up_cb, src/llc/llc_prim.c:138-149: does not turn 1 into 0. *)
Definition llc_call_up_cb (cb : Z) : list ev * Z :=
  if cb =? 1 then ([Act], cb) else ([Act; Free], cb).

(** gprs_sm_prim_call_up_cb and gprs_sm_prim_call_down_cb, src/sm/sm_prim.c:223-232,458-467: free always. *)
Definition sm_call_cb (cb : Z) : list ev * Z := ([Act; Free], cb).

(** The functions that call a callback: src/llc/llc_prim.c:138,176, src/sndcp/sndcp_prim.c:312,454,617,
    src/sm/sm_prim.c:223,335,458,493, src/gmm/gmm_prim.c:486,719,879, src/rlcmac/rlcmac_prim.c:426,554. *)
Inductive caller :=
| CLlcUp | CLlcDown | CSnUp | CSnDown | CSnSnsm | CSmUp | CSmSndcpUp | CSmDown | CSmGmmDown
| CGmmUp | CGmmDown | CGmmLlcDown | CRlcUp | CRlcDown.

(** Which text each of them has (lines as for [caller], src/llc/llc_prim.c:138-190). *)
Definition call (c : caller) (cb : Z) : list ev * Z :=
  match c with
  | CLlcUp => llc_call_up_cb cb
  | CSmUp | CSmDown => sm_call_cb cb
  | _ => call_cb cb
  end.
