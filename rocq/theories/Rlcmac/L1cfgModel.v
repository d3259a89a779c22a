(** Model of the requests that configure the physical layer for TBFs: L1CTL-CFG_UL_TBF.req, L1CTL-CFG_DL_TBF.req, L1CTL-PDCH_RELEASE.req. *)
From Verif.Lib Require Import Base.

(** rlcmac_private.h:24-43: of the 8 timeslots of an allocation, those allocated, with their USF; the TFI is kept apart. *)
Definition ualloc := list (option Z).
Definition dalloc := list bool.
(** rlcmac_prim.h:175-188. *)
Inductive prim := CfgUl (nr mask start : Z) (usf : list Z) | CfgDl (nr mask start tfi : Z) | PdchRel.
(** UINT32_MAX, rlcmac_prim.c:330, 342. *)
Definition no_start : Z := 4294967295.
(** rlcmac_prim.c:336-344 [gprs_rlcmac_prim_alloc_l1ctl_cfg_ul_tbf_req]; the USFs of a new primitive are taken as 0. *)
Definition alloc_ul (nr mask : Z) : prim := CfgUl nr mask no_start (repeat 0 8).
(** rlcmac_prim.c:324-334 [gprs_rlcmac_prim_alloc_l1ctl_cfg_dl_tbf_req]. *)
Definition alloc_dl (nr mask tfi : Z) : prim := CfgDl nr mask no_start tfi.

Fixpoint upd (n : nat) (v : Z) (l : list Z) : list Z :=
  match l, n with [], _ => [] | _ :: r, O => v :: r | x :: r, S m => x :: upd m v r end.
(** tbf_ul.c:138-146: the loop over timeslots. *)
Fixpoint ul_loop (tn : nat) (a : ualloc) (mask : Z) (usf : list Z) : Z * list Z :=
  match a with
  | [] => (mask, usf)
  | None :: r => ul_loop (S tn) r mask usf
  | Some u :: r => ul_loop (S tn) r (Z.lor mask (Z.shiftl 1 (Z.of_nat tn))) (upd tn u usf)
  end.
(** tbf_ul.c:127-155 [gprs_rlcmac_ul_tbf_submit_configure_req]. *)
Definition submit_configure (nr : Z) (a : ualloc) (start : option Z) : prim :=
  match alloc_ul nr 0 with
  | CfgUl n m f u =>
    let '(m1, u1) := ul_loop 0 a m u in
    CfgUl n m1 (match start with Some x => x | None => f end) u1
  | p => p
  end.
(** tbf_dl.c:138-148 [dl_tbf_dl_slotmask]. *)
Fixpoint dl_slotmask (i : nat) (a : dalloc) (mask : Z) : Z :=
  match a with [] => mask | b :: r => dl_slotmask (S i) r (if b then Z.lor mask (Z.shiftl 1 (Z.of_nat i)) else mask) end.
(** tbf_dl.c:150-161 [gprs_rlcmac_dl_tbf_configure_l1ctl]. *)
Definition configure_l1ctl (nr : Z) (a : dalloc) (tfi : Z) : prim := alloc_dl nr (dl_slotmask 0 a 0) tfi.
(** tbf_ul_fsm.c:71-82 [release_ul_tbf]. *)
Definition release_ul (nr : Z) : prim := alloc_ul nr 0.

(** The counters of numbers (rlcmac_private.h:79-80, uint8_t) and the TBFs there are, of all entities, with their numbers.  A TBF is named by how
    many were made before it in its direction ([s_un], [s_dn] count them and are not in the code). *)
Record st := mkS { s_un : Z; s_unr : Z; s_ul : list (Z * Z); s_dn : Z; s_dnr : Z; s_dl : list (Z * Z) }.
Definition st0 : st := mkS 0 0 [] 0 0 [].
Definition nr_of (k : Z) (l : list (Z * Z)) : option Z := option_map snd (find (fun x => fst x =? k) l).
Definition without (k : Z) (l : list (Z * Z)) : list (Z * Z) := filter (fun x => negb (fst x =? k)) l.

(** What happens to TBFs.  [UlWait]: an assignment with a starting time to come; [UlCompl]: the assignment is complete; [UlBack]: the packet access
    procedure is begun again; [Idle]: the timer that runs after the last TBF of an entity is gone. *)
Inductive ev := UlNew | UlWait (k : Z) (a : ualloc) (fn : Z) | UlCompl (k : Z) (a : ualloc) | UlBack (k : Z) | UlFree (k : Z)
| DlNew | DlCompl (k : Z) (a : dalloc) (tfi : Z) | DlFree (k : Z) | Idle.

Definition with_nr (k : Z) (l : list (Z * Z)) (f : Z -> prim) : list prim := match nr_of k l with Some nr => [f nr] | None => [] end.
(** [UlNew]: tbf_ul.c:53.  [UlWait]: tbf_ul_ass_fsm.c:335-343, 434-442.  [UlCompl]: tbf_ul_fsm.c:65-69, 171-173.  [UlBack]: tbf_ul_fsm.c:140-153.
    [UlFree]: tbf_ul.c:74-109 with tbf_ul_fsm.c:443-448.  [DlNew]: tbf_dl.c:48.  [DlCompl]: tbf_dl_fsm.c:53-59.  [DlFree]: tbf_dl.c:68-97.
    [Idle]: gre.c:39-44. *)
Definition step (s : st) (e : ev) : st * list prim :=
  match e with
  | UlNew => (mkS (s_un s + 1) ((s_unr s + 1) mod 256) ((s_un s, s_unr s) :: s_ul s) (s_dn s) (s_dnr s) (s_dl s), [])
  | UlWait k a fn => (s, with_nr k (s_ul s) (fun nr => submit_configure nr a (Some fn)))
  | UlCompl k a => (s, with_nr k (s_ul s) (fun nr => submit_configure nr a None))
  | UlBack k => (s, with_nr k (s_ul s) release_ul ++ [PdchRel])
  | UlFree k => (mkS (s_un s) (s_unr s) (without k (s_ul s)) (s_dn s) (s_dnr s) (s_dl s), with_nr k (s_ul s) release_ul)
  | DlNew => (mkS (s_un s) (s_unr s) (s_ul s) (s_dn s + 1) ((s_dnr s + 1) mod 256) ((s_dn s, s_dnr s) :: s_dl s), [])
  | DlCompl k a tfi => (s, with_nr k (s_dl s) (fun nr => configure_l1ctl nr a tfi))
  | DlFree k => (mkS (s_un s) (s_unr s) (s_ul s) (s_dn s) (s_dnr s) (without k (s_dl s)), [])
  | Idle => (s, [PdchRel])
  end.
Fixpoint run (s : st) (h : list ev) : st * list prim :=
  match h with [] => (s, []) | e :: r => let '(s1, o) := step s e in let '(s2, o2) := run s1 r in (s2, o ++ o2) end.
