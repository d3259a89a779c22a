(** Model of GPRS mobility management in the mobile: src/gmm/gmm.c, gmm_ms_fsm.c, gmm_prim.c and
    gmm_pdu.c.  Call-backs into other layers return a code chosen by the environment ([cb]) and do not
    call back into GMM before they return; logging, the allocation of messages and the network side
    (GMMBSSGP) are left out, network names are not stored. *)
From Verif.Lib Require Import Base Outcome.
From Verif.Gmm Require Import TmrModel.

(** gmm_ms_fsm.h:23-39. *)
Inductive fstate := Null | Dereg | RegInit | Reg | DeregInit | RauInit | SrInit.
(** gmm_ms_fsm.h:41-57; the events of the Iu mode, which nothing in the library dispatches, are left out. *)
Inductive fev :=
| EvEnable | EvDisable | EvAttReq | EvAttRej (cause : Z) | EvAttAcc | EvDetReq | EvDetOff | EvDetAcc
| EvRauReq | EvRauRej (cause : Z) | EvRauAcc | EvLowFail.

(** libosmocore gsm_23_003.h and gmm.h:9, gmm_private.h:22. *)
Definition RESERVED_TMSI : Z := 0xffffffff.
Definition TLLI_UNASSIGNED : Z := 0xffffffff.
Definition SESS_UNASSIGNED : Z := 0xffffffff.

(** gmm_private.h:53-100 [struct gprs_gmm_entity] with its [struct gprs_gmm_ms_fsm_ctx] and, of the FSM
    instance, the state, the timer number and whether the timer runs.  The routing area is kept as the six
    octets of its encoding (libosmocore's gsm48_parse_ra and gsm48_encode_ra are taken to be inverse).
    Strings are lists of characters that fit their arrays.  The timers are kept as "running" and the
    number of seconds assigned. *)
Record gmme := mkGmme {
  st : fstate; fi_T : Z; fi_on : bool; a_type : Z; a_imsi : bool; a_expl : bool; a_impl : bool;
  a_tries : Z; d_type : Z; d_off : Z; r_type : Z; r_tries : Z; sess : Z; psig : Z; ptmsi : Z;
  old_ptmsi : Z; tlli : Z; old_tlli : Z; imsi : list Z; imei : list Z; imeisv : list Z;
  prio_sms : Z; prio_tom8 : Z; ra : list Z; pdp_present : bool; pdp_status : list Z;
  npdu_present : bool; npdu_list : list Z; ac_ref : Z; ac_key : Z; ac_rand : list Z;
  ac_imeisv : bool; gea : Z; kc : list Z; t3302 : Z; t3346 : Z; t3314_on : bool; t3314_sec : Z;
  t3312_on : bool; t3312_sec : Z; t3316_on : bool }.

Definition set_st (v : fstate) (g : gmme) : gmme := mkGmme v (fi_T g) (fi_on g) (a_type g) (a_imsi g) (a_expl g) (a_impl g) (a_tries g) (d_type g) (d_off g) (r_type g) (r_tries g) (sess g) (psig g) (ptmsi g) (old_ptmsi g) (tlli g) (old_tlli g) (imsi g) (imei g) (imeisv g) (prio_sms g) (prio_tom8 g) (ra g) (pdp_present g) (pdp_status g) (npdu_present g) (npdu_list g) (ac_ref g) (ac_key g) (ac_rand g) (ac_imeisv g) (gea g) (kc g) (t3302 g) (t3346 g) (t3314_on g) (t3314_sec g) (t3312_on g) (t3312_sec g) (t3316_on g).
Definition set_fi_T (v : Z) (g : gmme) : gmme := mkGmme (st g) v (fi_on g) (a_type g) (a_imsi g) (a_expl g) (a_impl g) (a_tries g) (d_type g) (d_off g) (r_type g) (r_tries g) (sess g) (psig g) (ptmsi g) (old_ptmsi g) (tlli g) (old_tlli g) (imsi g) (imei g) (imeisv g) (prio_sms g) (prio_tom8 g) (ra g) (pdp_present g) (pdp_status g) (npdu_present g) (npdu_list g) (ac_ref g) (ac_key g) (ac_rand g) (ac_imeisv g) (gea g) (kc g) (t3302 g) (t3346 g) (t3314_on g) (t3314_sec g) (t3312_on g) (t3312_sec g) (t3316_on g).
Definition set_fi_on (v : bool) (g : gmme) : gmme := mkGmme (st g) (fi_T g) v (a_type g) (a_imsi g) (a_expl g) (a_impl g) (a_tries g) (d_type g) (d_off g) (r_type g) (r_tries g) (sess g) (psig g) (ptmsi g) (old_ptmsi g) (tlli g) (old_tlli g) (imsi g) (imei g) (imeisv g) (prio_sms g) (prio_tom8 g) (ra g) (pdp_present g) (pdp_status g) (npdu_present g) (npdu_list g) (ac_ref g) (ac_key g) (ac_rand g) (ac_imeisv g) (gea g) (kc g) (t3302 g) (t3346 g) (t3314_on g) (t3314_sec g) (t3312_on g) (t3312_sec g) (t3316_on g).
Definition set_a_type (v : Z) (g : gmme) : gmme := mkGmme (st g) (fi_T g) (fi_on g) v (a_imsi g) (a_expl g) (a_impl g) (a_tries g) (d_type g) (d_off g) (r_type g) (r_tries g) (sess g) (psig g) (ptmsi g) (old_ptmsi g) (tlli g) (old_tlli g) (imsi g) (imei g) (imeisv g) (prio_sms g) (prio_tom8 g) (ra g) (pdp_present g) (pdp_status g) (npdu_present g) (npdu_list g) (ac_ref g) (ac_key g) (ac_rand g) (ac_imeisv g) (gea g) (kc g) (t3302 g) (t3346 g) (t3314_on g) (t3314_sec g) (t3312_on g) (t3312_sec g) (t3316_on g).
Definition set_a_imsi (v : bool) (g : gmme) : gmme := mkGmme (st g) (fi_T g) (fi_on g) (a_type g) v (a_expl g) (a_impl g) (a_tries g) (d_type g) (d_off g) (r_type g) (r_tries g) (sess g) (psig g) (ptmsi g) (old_ptmsi g) (tlli g) (old_tlli g) (imsi g) (imei g) (imeisv g) (prio_sms g) (prio_tom8 g) (ra g) (pdp_present g) (pdp_status g) (npdu_present g) (npdu_list g) (ac_ref g) (ac_key g) (ac_rand g) (ac_imeisv g) (gea g) (kc g) (t3302 g) (t3346 g) (t3314_on g) (t3314_sec g) (t3312_on g) (t3312_sec g) (t3316_on g).
Definition set_a_expl (v : bool) (g : gmme) : gmme := mkGmme (st g) (fi_T g) (fi_on g) (a_type g) (a_imsi g) v (a_impl g) (a_tries g) (d_type g) (d_off g) (r_type g) (r_tries g) (sess g) (psig g) (ptmsi g) (old_ptmsi g) (tlli g) (old_tlli g) (imsi g) (imei g) (imeisv g) (prio_sms g) (prio_tom8 g) (ra g) (pdp_present g) (pdp_status g) (npdu_present g) (npdu_list g) (ac_ref g) (ac_key g) (ac_rand g) (ac_imeisv g) (gea g) (kc g) (t3302 g) (t3346 g) (t3314_on g) (t3314_sec g) (t3312_on g) (t3312_sec g) (t3316_on g).
Definition set_a_impl (v : bool) (g : gmme) : gmme := mkGmme (st g) (fi_T g) (fi_on g) (a_type g) (a_imsi g) (a_expl g) v (a_tries g) (d_type g) (d_off g) (r_type g) (r_tries g) (sess g) (psig g) (ptmsi g) (old_ptmsi g) (tlli g) (old_tlli g) (imsi g) (imei g) (imeisv g) (prio_sms g) (prio_tom8 g) (ra g) (pdp_present g) (pdp_status g) (npdu_present g) (npdu_list g) (ac_ref g) (ac_key g) (ac_rand g) (ac_imeisv g) (gea g) (kc g) (t3302 g) (t3346 g) (t3314_on g) (t3314_sec g) (t3312_on g) (t3312_sec g) (t3316_on g).
Definition set_a_tries (v : Z) (g : gmme) : gmme := mkGmme (st g) (fi_T g) (fi_on g) (a_type g) (a_imsi g) (a_expl g) (a_impl g) v (d_type g) (d_off g) (r_type g) (r_tries g) (sess g) (psig g) (ptmsi g) (old_ptmsi g) (tlli g) (old_tlli g) (imsi g) (imei g) (imeisv g) (prio_sms g) (prio_tom8 g) (ra g) (pdp_present g) (pdp_status g) (npdu_present g) (npdu_list g) (ac_ref g) (ac_key g) (ac_rand g) (ac_imeisv g) (gea g) (kc g) (t3302 g) (t3346 g) (t3314_on g) (t3314_sec g) (t3312_on g) (t3312_sec g) (t3316_on g).
Definition set_d_type (v : Z) (g : gmme) : gmme := mkGmme (st g) (fi_T g) (fi_on g) (a_type g) (a_imsi g) (a_expl g) (a_impl g) (a_tries g) v (d_off g) (r_type g) (r_tries g) (sess g) (psig g) (ptmsi g) (old_ptmsi g) (tlli g) (old_tlli g) (imsi g) (imei g) (imeisv g) (prio_sms g) (prio_tom8 g) (ra g) (pdp_present g) (pdp_status g) (npdu_present g) (npdu_list g) (ac_ref g) (ac_key g) (ac_rand g) (ac_imeisv g) (gea g) (kc g) (t3302 g) (t3346 g) (t3314_on g) (t3314_sec g) (t3312_on g) (t3312_sec g) (t3316_on g).
Definition set_d_off (v : Z) (g : gmme) : gmme := mkGmme (st g) (fi_T g) (fi_on g) (a_type g) (a_imsi g) (a_expl g) (a_impl g) (a_tries g) (d_type g) v (r_type g) (r_tries g) (sess g) (psig g) (ptmsi g) (old_ptmsi g) (tlli g) (old_tlli g) (imsi g) (imei g) (imeisv g) (prio_sms g) (prio_tom8 g) (ra g) (pdp_present g) (pdp_status g) (npdu_present g) (npdu_list g) (ac_ref g) (ac_key g) (ac_rand g) (ac_imeisv g) (gea g) (kc g) (t3302 g) (t3346 g) (t3314_on g) (t3314_sec g) (t3312_on g) (t3312_sec g) (t3316_on g).
Definition set_r_type (v : Z) (g : gmme) : gmme := mkGmme (st g) (fi_T g) (fi_on g) (a_type g) (a_imsi g) (a_expl g) (a_impl g) (a_tries g) (d_type g) (d_off g) v (r_tries g) (sess g) (psig g) (ptmsi g) (old_ptmsi g) (tlli g) (old_tlli g) (imsi g) (imei g) (imeisv g) (prio_sms g) (prio_tom8 g) (ra g) (pdp_present g) (pdp_status g) (npdu_present g) (npdu_list g) (ac_ref g) (ac_key g) (ac_rand g) (ac_imeisv g) (gea g) (kc g) (t3302 g) (t3346 g) (t3314_on g) (t3314_sec g) (t3312_on g) (t3312_sec g) (t3316_on g).
Definition set_r_tries (v : Z) (g : gmme) : gmme := mkGmme (st g) (fi_T g) (fi_on g) (a_type g) (a_imsi g) (a_expl g) (a_impl g) (a_tries g) (d_type g) (d_off g) (r_type g) v (sess g) (psig g) (ptmsi g) (old_ptmsi g) (tlli g) (old_tlli g) (imsi g) (imei g) (imeisv g) (prio_sms g) (prio_tom8 g) (ra g) (pdp_present g) (pdp_status g) (npdu_present g) (npdu_list g) (ac_ref g) (ac_key g) (ac_rand g) (ac_imeisv g) (gea g) (kc g) (t3302 g) (t3346 g) (t3314_on g) (t3314_sec g) (t3312_on g) (t3312_sec g) (t3316_on g).
Definition set_sess (v : Z) (g : gmme) : gmme := mkGmme (st g) (fi_T g) (fi_on g) (a_type g) (a_imsi g) (a_expl g) (a_impl g) (a_tries g) (d_type g) (d_off g) (r_type g) (r_tries g) v (psig g) (ptmsi g) (old_ptmsi g) (tlli g) (old_tlli g) (imsi g) (imei g) (imeisv g) (prio_sms g) (prio_tom8 g) (ra g) (pdp_present g) (pdp_status g) (npdu_present g) (npdu_list g) (ac_ref g) (ac_key g) (ac_rand g) (ac_imeisv g) (gea g) (kc g) (t3302 g) (t3346 g) (t3314_on g) (t3314_sec g) (t3312_on g) (t3312_sec g) (t3316_on g).
Definition set_psig (v : Z) (g : gmme) : gmme := mkGmme (st g) (fi_T g) (fi_on g) (a_type g) (a_imsi g) (a_expl g) (a_impl g) (a_tries g) (d_type g) (d_off g) (r_type g) (r_tries g) (sess g) v (ptmsi g) (old_ptmsi g) (tlli g) (old_tlli g) (imsi g) (imei g) (imeisv g) (prio_sms g) (prio_tom8 g) (ra g) (pdp_present g) (pdp_status g) (npdu_present g) (npdu_list g) (ac_ref g) (ac_key g) (ac_rand g) (ac_imeisv g) (gea g) (kc g) (t3302 g) (t3346 g) (t3314_on g) (t3314_sec g) (t3312_on g) (t3312_sec g) (t3316_on g).
Definition set_ptmsi (v : Z) (g : gmme) : gmme := mkGmme (st g) (fi_T g) (fi_on g) (a_type g) (a_imsi g) (a_expl g) (a_impl g) (a_tries g) (d_type g) (d_off g) (r_type g) (r_tries g) (sess g) (psig g) v (old_ptmsi g) (tlli g) (old_tlli g) (imsi g) (imei g) (imeisv g) (prio_sms g) (prio_tom8 g) (ra g) (pdp_present g) (pdp_status g) (npdu_present g) (npdu_list g) (ac_ref g) (ac_key g) (ac_rand g) (ac_imeisv g) (gea g) (kc g) (t3302 g) (t3346 g) (t3314_on g) (t3314_sec g) (t3312_on g) (t3312_sec g) (t3316_on g).
Definition set_old_ptmsi (v : Z) (g : gmme) : gmme := mkGmme (st g) (fi_T g) (fi_on g) (a_type g) (a_imsi g) (a_expl g) (a_impl g) (a_tries g) (d_type g) (d_off g) (r_type g) (r_tries g) (sess g) (psig g) (ptmsi g) v (tlli g) (old_tlli g) (imsi g) (imei g) (imeisv g) (prio_sms g) (prio_tom8 g) (ra g) (pdp_present g) (pdp_status g) (npdu_present g) (npdu_list g) (ac_ref g) (ac_key g) (ac_rand g) (ac_imeisv g) (gea g) (kc g) (t3302 g) (t3346 g) (t3314_on g) (t3314_sec g) (t3312_on g) (t3312_sec g) (t3316_on g).
Definition set_tlli (v : Z) (g : gmme) : gmme := mkGmme (st g) (fi_T g) (fi_on g) (a_type g) (a_imsi g) (a_expl g) (a_impl g) (a_tries g) (d_type g) (d_off g) (r_type g) (r_tries g) (sess g) (psig g) (ptmsi g) (old_ptmsi g) v (old_tlli g) (imsi g) (imei g) (imeisv g) (prio_sms g) (prio_tom8 g) (ra g) (pdp_present g) (pdp_status g) (npdu_present g) (npdu_list g) (ac_ref g) (ac_key g) (ac_rand g) (ac_imeisv g) (gea g) (kc g) (t3302 g) (t3346 g) (t3314_on g) (t3314_sec g) (t3312_on g) (t3312_sec g) (t3316_on g).
Definition set_old_tlli (v : Z) (g : gmme) : gmme := mkGmme (st g) (fi_T g) (fi_on g) (a_type g) (a_imsi g) (a_expl g) (a_impl g) (a_tries g) (d_type g) (d_off g) (r_type g) (r_tries g) (sess g) (psig g) (ptmsi g) (old_ptmsi g) (tlli g) v (imsi g) (imei g) (imeisv g) (prio_sms g) (prio_tom8 g) (ra g) (pdp_present g) (pdp_status g) (npdu_present g) (npdu_list g) (ac_ref g) (ac_key g) (ac_rand g) (ac_imeisv g) (gea g) (kc g) (t3302 g) (t3346 g) (t3314_on g) (t3314_sec g) (t3312_on g) (t3312_sec g) (t3316_on g).
Definition set_imsi (v : list Z) (g : gmme) : gmme := mkGmme (st g) (fi_T g) (fi_on g) (a_type g) (a_imsi g) (a_expl g) (a_impl g) (a_tries g) (d_type g) (d_off g) (r_type g) (r_tries g) (sess g) (psig g) (ptmsi g) (old_ptmsi g) (tlli g) (old_tlli g) v (imei g) (imeisv g) (prio_sms g) (prio_tom8 g) (ra g) (pdp_present g) (pdp_status g) (npdu_present g) (npdu_list g) (ac_ref g) (ac_key g) (ac_rand g) (ac_imeisv g) (gea g) (kc g) (t3302 g) (t3346 g) (t3314_on g) (t3314_sec g) (t3312_on g) (t3312_sec g) (t3316_on g).
Definition set_imei (v : list Z) (g : gmme) : gmme := mkGmme (st g) (fi_T g) (fi_on g) (a_type g) (a_imsi g) (a_expl g) (a_impl g) (a_tries g) (d_type g) (d_off g) (r_type g) (r_tries g) (sess g) (psig g) (ptmsi g) (old_ptmsi g) (tlli g) (old_tlli g) (imsi g) v (imeisv g) (prio_sms g) (prio_tom8 g) (ra g) (pdp_present g) (pdp_status g) (npdu_present g) (npdu_list g) (ac_ref g) (ac_key g) (ac_rand g) (ac_imeisv g) (gea g) (kc g) (t3302 g) (t3346 g) (t3314_on g) (t3314_sec g) (t3312_on g) (t3312_sec g) (t3316_on g).
Definition set_imeisv (v : list Z) (g : gmme) : gmme := mkGmme (st g) (fi_T g) (fi_on g) (a_type g) (a_imsi g) (a_expl g) (a_impl g) (a_tries g) (d_type g) (d_off g) (r_type g) (r_tries g) (sess g) (psig g) (ptmsi g) (old_ptmsi g) (tlli g) (old_tlli g) (imsi g) (imei g) v (prio_sms g) (prio_tom8 g) (ra g) (pdp_present g) (pdp_status g) (npdu_present g) (npdu_list g) (ac_ref g) (ac_key g) (ac_rand g) (ac_imeisv g) (gea g) (kc g) (t3302 g) (t3346 g) (t3314_on g) (t3314_sec g) (t3312_on g) (t3312_sec g) (t3316_on g).
Definition set_prio_sms (v : Z) (g : gmme) : gmme := mkGmme (st g) (fi_T g) (fi_on g) (a_type g) (a_imsi g) (a_expl g) (a_impl g) (a_tries g) (d_type g) (d_off g) (r_type g) (r_tries g) (sess g) (psig g) (ptmsi g) (old_ptmsi g) (tlli g) (old_tlli g) (imsi g) (imei g) (imeisv g) v (prio_tom8 g) (ra g) (pdp_present g) (pdp_status g) (npdu_present g) (npdu_list g) (ac_ref g) (ac_key g) (ac_rand g) (ac_imeisv g) (gea g) (kc g) (t3302 g) (t3346 g) (t3314_on g) (t3314_sec g) (t3312_on g) (t3312_sec g) (t3316_on g).
Definition set_prio_tom8 (v : Z) (g : gmme) : gmme := mkGmme (st g) (fi_T g) (fi_on g) (a_type g) (a_imsi g) (a_expl g) (a_impl g) (a_tries g) (d_type g) (d_off g) (r_type g) (r_tries g) (sess g) (psig g) (ptmsi g) (old_ptmsi g) (tlli g) (old_tlli g) (imsi g) (imei g) (imeisv g) (prio_sms g) v (ra g) (pdp_present g) (pdp_status g) (npdu_present g) (npdu_list g) (ac_ref g) (ac_key g) (ac_rand g) (ac_imeisv g) (gea g) (kc g) (t3302 g) (t3346 g) (t3314_on g) (t3314_sec g) (t3312_on g) (t3312_sec g) (t3316_on g).
Definition set_ra (v : list Z) (g : gmme) : gmme := mkGmme (st g) (fi_T g) (fi_on g) (a_type g) (a_imsi g) (a_expl g) (a_impl g) (a_tries g) (d_type g) (d_off g) (r_type g) (r_tries g) (sess g) (psig g) (ptmsi g) (old_ptmsi g) (tlli g) (old_tlli g) (imsi g) (imei g) (imeisv g) (prio_sms g) (prio_tom8 g) v (pdp_present g) (pdp_status g) (npdu_present g) (npdu_list g) (ac_ref g) (ac_key g) (ac_rand g) (ac_imeisv g) (gea g) (kc g) (t3302 g) (t3346 g) (t3314_on g) (t3314_sec g) (t3312_on g) (t3312_sec g) (t3316_on g).
Definition set_pdp_present (v : bool) (g : gmme) : gmme := mkGmme (st g) (fi_T g) (fi_on g) (a_type g) (a_imsi g) (a_expl g) (a_impl g) (a_tries g) (d_type g) (d_off g) (r_type g) (r_tries g) (sess g) (psig g) (ptmsi g) (old_ptmsi g) (tlli g) (old_tlli g) (imsi g) (imei g) (imeisv g) (prio_sms g) (prio_tom8 g) (ra g) v (pdp_status g) (npdu_present g) (npdu_list g) (ac_ref g) (ac_key g) (ac_rand g) (ac_imeisv g) (gea g) (kc g) (t3302 g) (t3346 g) (t3314_on g) (t3314_sec g) (t3312_on g) (t3312_sec g) (t3316_on g).
Definition set_pdp_status (v : list Z) (g : gmme) : gmme := mkGmme (st g) (fi_T g) (fi_on g) (a_type g) (a_imsi g) (a_expl g) (a_impl g) (a_tries g) (d_type g) (d_off g) (r_type g) (r_tries g) (sess g) (psig g) (ptmsi g) (old_ptmsi g) (tlli g) (old_tlli g) (imsi g) (imei g) (imeisv g) (prio_sms g) (prio_tom8 g) (ra g) (pdp_present g) v (npdu_present g) (npdu_list g) (ac_ref g) (ac_key g) (ac_rand g) (ac_imeisv g) (gea g) (kc g) (t3302 g) (t3346 g) (t3314_on g) (t3314_sec g) (t3312_on g) (t3312_sec g) (t3316_on g).
Definition set_npdu_present (v : bool) (g : gmme) : gmme := mkGmme (st g) (fi_T g) (fi_on g) (a_type g) (a_imsi g) (a_expl g) (a_impl g) (a_tries g) (d_type g) (d_off g) (r_type g) (r_tries g) (sess g) (psig g) (ptmsi g) (old_ptmsi g) (tlli g) (old_tlli g) (imsi g) (imei g) (imeisv g) (prio_sms g) (prio_tom8 g) (ra g) (pdp_present g) (pdp_status g) v (npdu_list g) (ac_ref g) (ac_key g) (ac_rand g) (ac_imeisv g) (gea g) (kc g) (t3302 g) (t3346 g) (t3314_on g) (t3314_sec g) (t3312_on g) (t3312_sec g) (t3316_on g).
Definition set_npdu_list (v : list Z) (g : gmme) : gmme := mkGmme (st g) (fi_T g) (fi_on g) (a_type g) (a_imsi g) (a_expl g) (a_impl g) (a_tries g) (d_type g) (d_off g) (r_type g) (r_tries g) (sess g) (psig g) (ptmsi g) (old_ptmsi g) (tlli g) (old_tlli g) (imsi g) (imei g) (imeisv g) (prio_sms g) (prio_tom8 g) (ra g) (pdp_present g) (pdp_status g) (npdu_present g) v (ac_ref g) (ac_key g) (ac_rand g) (ac_imeisv g) (gea g) (kc g) (t3302 g) (t3346 g) (t3314_on g) (t3314_sec g) (t3312_on g) (t3312_sec g) (t3316_on g).
Definition set_ac_ref (v : Z) (g : gmme) : gmme := mkGmme (st g) (fi_T g) (fi_on g) (a_type g) (a_imsi g) (a_expl g) (a_impl g) (a_tries g) (d_type g) (d_off g) (r_type g) (r_tries g) (sess g) (psig g) (ptmsi g) (old_ptmsi g) (tlli g) (old_tlli g) (imsi g) (imei g) (imeisv g) (prio_sms g) (prio_tom8 g) (ra g) (pdp_present g) (pdp_status g) (npdu_present g) (npdu_list g) v (ac_key g) (ac_rand g) (ac_imeisv g) (gea g) (kc g) (t3302 g) (t3346 g) (t3314_on g) (t3314_sec g) (t3312_on g) (t3312_sec g) (t3316_on g).
Definition set_ac_key (v : Z) (g : gmme) : gmme := mkGmme (st g) (fi_T g) (fi_on g) (a_type g) (a_imsi g) (a_expl g) (a_impl g) (a_tries g) (d_type g) (d_off g) (r_type g) (r_tries g) (sess g) (psig g) (ptmsi g) (old_ptmsi g) (tlli g) (old_tlli g) (imsi g) (imei g) (imeisv g) (prio_sms g) (prio_tom8 g) (ra g) (pdp_present g) (pdp_status g) (npdu_present g) (npdu_list g) (ac_ref g) v (ac_rand g) (ac_imeisv g) (gea g) (kc g) (t3302 g) (t3346 g) (t3314_on g) (t3314_sec g) (t3312_on g) (t3312_sec g) (t3316_on g).
Definition set_ac_rand (v : list Z) (g : gmme) : gmme := mkGmme (st g) (fi_T g) (fi_on g) (a_type g) (a_imsi g) (a_expl g) (a_impl g) (a_tries g) (d_type g) (d_off g) (r_type g) (r_tries g) (sess g) (psig g) (ptmsi g) (old_ptmsi g) (tlli g) (old_tlli g) (imsi g) (imei g) (imeisv g) (prio_sms g) (prio_tom8 g) (ra g) (pdp_present g) (pdp_status g) (npdu_present g) (npdu_list g) (ac_ref g) (ac_key g) v (ac_imeisv g) (gea g) (kc g) (t3302 g) (t3346 g) (t3314_on g) (t3314_sec g) (t3312_on g) (t3312_sec g) (t3316_on g).
Definition set_ac_imeisv (v : bool) (g : gmme) : gmme := mkGmme (st g) (fi_T g) (fi_on g) (a_type g) (a_imsi g) (a_expl g) (a_impl g) (a_tries g) (d_type g) (d_off g) (r_type g) (r_tries g) (sess g) (psig g) (ptmsi g) (old_ptmsi g) (tlli g) (old_tlli g) (imsi g) (imei g) (imeisv g) (prio_sms g) (prio_tom8 g) (ra g) (pdp_present g) (pdp_status g) (npdu_present g) (npdu_list g) (ac_ref g) (ac_key g) (ac_rand g) v (gea g) (kc g) (t3302 g) (t3346 g) (t3314_on g) (t3314_sec g) (t3312_on g) (t3312_sec g) (t3316_on g).
Definition set_gea (v : Z) (g : gmme) : gmme := mkGmme (st g) (fi_T g) (fi_on g) (a_type g) (a_imsi g) (a_expl g) (a_impl g) (a_tries g) (d_type g) (d_off g) (r_type g) (r_tries g) (sess g) (psig g) (ptmsi g) (old_ptmsi g) (tlli g) (old_tlli g) (imsi g) (imei g) (imeisv g) (prio_sms g) (prio_tom8 g) (ra g) (pdp_present g) (pdp_status g) (npdu_present g) (npdu_list g) (ac_ref g) (ac_key g) (ac_rand g) (ac_imeisv g) v (kc g) (t3302 g) (t3346 g) (t3314_on g) (t3314_sec g) (t3312_on g) (t3312_sec g) (t3316_on g).
Definition set_kc (v : list Z) (g : gmme) : gmme := mkGmme (st g) (fi_T g) (fi_on g) (a_type g) (a_imsi g) (a_expl g) (a_impl g) (a_tries g) (d_type g) (d_off g) (r_type g) (r_tries g) (sess g) (psig g) (ptmsi g) (old_ptmsi g) (tlli g) (old_tlli g) (imsi g) (imei g) (imeisv g) (prio_sms g) (prio_tom8 g) (ra g) (pdp_present g) (pdp_status g) (npdu_present g) (npdu_list g) (ac_ref g) (ac_key g) (ac_rand g) (ac_imeisv g) (gea g) v (t3302 g) (t3346 g) (t3314_on g) (t3314_sec g) (t3312_on g) (t3312_sec g) (t3316_on g).
Definition set_t3302 (v : Z) (g : gmme) : gmme := mkGmme (st g) (fi_T g) (fi_on g) (a_type g) (a_imsi g) (a_expl g) (a_impl g) (a_tries g) (d_type g) (d_off g) (r_type g) (r_tries g) (sess g) (psig g) (ptmsi g) (old_ptmsi g) (tlli g) (old_tlli g) (imsi g) (imei g) (imeisv g) (prio_sms g) (prio_tom8 g) (ra g) (pdp_present g) (pdp_status g) (npdu_present g) (npdu_list g) (ac_ref g) (ac_key g) (ac_rand g) (ac_imeisv g) (gea g) (kc g) v (t3346 g) (t3314_on g) (t3314_sec g) (t3312_on g) (t3312_sec g) (t3316_on g).
Definition set_t3346 (v : Z) (g : gmme) : gmme := mkGmme (st g) (fi_T g) (fi_on g) (a_type g) (a_imsi g) (a_expl g) (a_impl g) (a_tries g) (d_type g) (d_off g) (r_type g) (r_tries g) (sess g) (psig g) (ptmsi g) (old_ptmsi g) (tlli g) (old_tlli g) (imsi g) (imei g) (imeisv g) (prio_sms g) (prio_tom8 g) (ra g) (pdp_present g) (pdp_status g) (npdu_present g) (npdu_list g) (ac_ref g) (ac_key g) (ac_rand g) (ac_imeisv g) (gea g) (kc g) (t3302 g) v (t3314_on g) (t3314_sec g) (t3312_on g) (t3312_sec g) (t3316_on g).
Definition set_t3314_on (v : bool) (g : gmme) : gmme := mkGmme (st g) (fi_T g) (fi_on g) (a_type g) (a_imsi g) (a_expl g) (a_impl g) (a_tries g) (d_type g) (d_off g) (r_type g) (r_tries g) (sess g) (psig g) (ptmsi g) (old_ptmsi g) (tlli g) (old_tlli g) (imsi g) (imei g) (imeisv g) (prio_sms g) (prio_tom8 g) (ra g) (pdp_present g) (pdp_status g) (npdu_present g) (npdu_list g) (ac_ref g) (ac_key g) (ac_rand g) (ac_imeisv g) (gea g) (kc g) (t3302 g) (t3346 g) v (t3314_sec g) (t3312_on g) (t3312_sec g) (t3316_on g).
Definition set_t3314_sec (v : Z) (g : gmme) : gmme := mkGmme (st g) (fi_T g) (fi_on g) (a_type g) (a_imsi g) (a_expl g) (a_impl g) (a_tries g) (d_type g) (d_off g) (r_type g) (r_tries g) (sess g) (psig g) (ptmsi g) (old_ptmsi g) (tlli g) (old_tlli g) (imsi g) (imei g) (imeisv g) (prio_sms g) (prio_tom8 g) (ra g) (pdp_present g) (pdp_status g) (npdu_present g) (npdu_list g) (ac_ref g) (ac_key g) (ac_rand g) (ac_imeisv g) (gea g) (kc g) (t3302 g) (t3346 g) (t3314_on g) v (t3312_on g) (t3312_sec g) (t3316_on g).
Definition set_t3312_on (v : bool) (g : gmme) : gmme := mkGmme (st g) (fi_T g) (fi_on g) (a_type g) (a_imsi g) (a_expl g) (a_impl g) (a_tries g) (d_type g) (d_off g) (r_type g) (r_tries g) (sess g) (psig g) (ptmsi g) (old_ptmsi g) (tlli g) (old_tlli g) (imsi g) (imei g) (imeisv g) (prio_sms g) (prio_tom8 g) (ra g) (pdp_present g) (pdp_status g) (npdu_present g) (npdu_list g) (ac_ref g) (ac_key g) (ac_rand g) (ac_imeisv g) (gea g) (kc g) (t3302 g) (t3346 g) (t3314_on g) (t3314_sec g) v (t3312_sec g) (t3316_on g).
Definition set_t3312_sec (v : Z) (g : gmme) : gmme := mkGmme (st g) (fi_T g) (fi_on g) (a_type g) (a_imsi g) (a_expl g) (a_impl g) (a_tries g) (d_type g) (d_off g) (r_type g) (r_tries g) (sess g) (psig g) (ptmsi g) (old_ptmsi g) (tlli g) (old_tlli g) (imsi g) (imei g) (imeisv g) (prio_sms g) (prio_tom8 g) (ra g) (pdp_present g) (pdp_status g) (npdu_present g) (npdu_list g) (ac_ref g) (ac_key g) (ac_rand g) (ac_imeisv g) (gea g) (kc g) (t3302 g) (t3346 g) (t3314_on g) (t3314_sec g) (t3312_on g) v (t3316_on g).
Definition set_t3316_on (v : bool) (g : gmme) : gmme := mkGmme (st g) (fi_T g) (fi_on g) (a_type g) (a_imsi g) (a_expl g) (a_impl g) (a_tries g) (d_type g) (d_off g) (r_type g) (r_tries g) (sess g) (psig g) (ptmsi g) (old_ptmsi g) (tlli g) (old_tlli g) (imsi g) (imei g) (imeisv g) (prio_sms g) (prio_tom8 g) (ra g) (pdp_present g) (pdp_status g) (npdu_present g) (npdu_list g) (ac_ref g) (ac_key g) (ac_rand g) (ac_imeisv g) (gea g) (kc g) (t3302 g) (t3346 g) (t3314_on g) (t3314_sec g) (t3312_on g) (t3312_sec g) v.

(** ** The world outside *)

(** Primitives GMM hands to other layers: LL-UNITDATA, LLGMM and GMMRR downwards, GMMREG and GMMSM
    upwards (gmm_prim.h:103-330). *)
Inductive out :=
| OUnit (tlli : Z) (pdu : list Z)
| OAssign (old new : Z) (gea : Z) (kc : list Z)
| OSuspend (tlli : Z) | OResume (tlli : Z) | OTrigger (tlli : Z)
| ORrAssign (old new ptmsi : Z) (imsi : list Z)
| OAttachAcc (ptmsi sig tlli : Z) (ra : list Z) | OAttachRej (cause : Z)
| ODetachCnf (type : Z)
| OSimAuth (ref key : Z) (rand : list Z)
| OEstAcc (sess ptmsi sig tlli : Z) (ra : list Z) | OEstRej (sess cause : Z)
| ORelease (sess : Z)
| OModify (sess ptmsi sig tlli : Z) (ra : list Z) (pdp npdu : option (list Z))
| OSmUnit (sess : Z) (pdu : list Z).

(** libosmocore's struct osmo_mobile_identity. *)
Inductive mi := MiImsi (s : list Z) | MiTmsi (t : Z) | MiImei (s : list Z) | MiImeisv (s : list Z) | MiOther.

(** What is not in this repository: the return codes of the call-backs, libosmocore's tlv_parse with the
    table of gmm_pdu.c:146-175 (the value of an element, by tag), its decoder and encoder of mobile
    identities, and the timer values configured (gmm.c:60-79). *)
Record ext := mkExt {
  cb : out -> Z;
  tlv : list Z -> option (Z -> option (list Z));
  mi_dec : list Z -> option mi;
  mi_enc : mi -> option (list Z);
  d3302 : Z; d3346 : Z; d3310 : Z; d3330 : Z; d3314 : Z; d3316 : Z }.

(** libosmocore gsm_04_08_gprs.h: message types and information elements. *)
Definition MT_ATTACH_REQ : Z := 0x01.      Definition MT_ATTACH_ACK : Z := 0x02.
Definition MT_ATTACH_COMPL : Z := 0x03.    Definition MT_ATTACH_REJ : Z := 0x04.
Definition MT_DETACH_REQ : Z := 0x05.      Definition MT_DETACH_ACK : Z := 0x06.
Definition MT_RA_UPD_REQ : Z := 0x08.      Definition MT_RA_UPD_ACK : Z := 0x09.
Definition MT_RA_UPD_COMPL : Z := 0x0a.    Definition MT_RA_UPD_REJ : Z := 0x0b.
Definition MT_PTMSI_REALL_CMD : Z := 0x10. Definition MT_PTMSI_REALL_COMPL : Z := 0x11.
Definition MT_AUTH_CIPH_REQ : Z := 0x12.   Definition MT_AUTH_CIPH_RESP : Z := 0x13.
Definition MT_AUTH_CIPH_REJ : Z := 0x14.   Definition MT_ID_REQ : Z := 0x15.
Definition MT_ID_RESP : Z := 0x16.         Definition MT_STATUS : Z := 0x20.
Definition MT_INFO : Z := 0x21.
Definition IE_CKSN : Z := 0x08.            Definition IE_PTMSI_TYPE : Z := 0x0e.
Definition IE_TIMER_READY : Z := 0x17.     Definition IE_ALLOC_PTMSI : Z := 0x18.
Definition IE_PTMSI_SIG : Z := 0x19.       Definition IE_AUTH_RAND : Z := 0x21.
Definition IE_AUTH_SRES : Z := 0x22.       Definition IE_IMEISV : Z := 0x23.
Definition IE_RX_NPDU : Z := 0x26.         Definition IE_T3302 : Z := 0x2a.
Definition IE_PDP_CTX : Z := 0x32.         Definition IE_T3346 : Z := 0x3a.
Definition PDISC_MM : Z := 8.              Definition PDISC_SM : Z := 10.
Definition CAUSE_ROAMING : Z := 0x0d.      Definition CAUSE_NO_SUIT_CELL : Z := 0x0f.
Definition CAUSE_MAC_FAIL : Z := 0x14.     Definition CAUSE_AUTH_UNACCEPT : Z := 0x17.
Definition CAUSE_CSG : Z := 0x19.          Definition CAUSE_SEM_INCORR : Z := 0x5f.
Definition CAUSE_COND_IE : Z := 0x64.      Definition CAUSE_P_STATE : Z := 0x65.
Definition MI_IMSI : Z := 1. Definition MI_IMEI : Z := 2. Definition MI_IMEISV : Z := 3. Definition MI_TMSI : Z := 4.
Definition EBADMSG : Z := 74.

(** libosmocore gprs_tmsi2tlli: the two upper bits tell a local from a foreign TLLI. *)
Definition tlli_local (tmsi : Z) : Z := Z.lor (Z.land tmsi 0x3fffffff) 0xc0000000.
Definition tlli_foreign (tmsi : Z) : Z := Z.lor (Z.land tmsi 0x3fffffff) 0x80000000.

(** ** Functions of one entity: state, primitives sent, result; [UB] is a failed assertion or a read
    outside a message.  Nothing here models repository code. *)
Definition M (A : Type) : Type := gmme -> res (gmme * list out * A).
Definition ret {A} (a : A) : M A := fun g => Ok (g, [], a).
Definition bindM {A B} (m : M A) (f : A -> M B) : M B := fun g =>
  match m g with
  | Ok (g1, o1, a) => match f a g1 with Ok (g2, o2, b) => Ok (g2, o1 ++ o2, b) | Err e => Err e | UB => UB end
  | Err e => Err e | UB => UB end.
Notation "'let*' x := m 'in' k" := (bindM m (fun x => k)) (at level 200, x name, m at level 100, k at level 200, right associativity).
Notation "m ;; k" := (bindM m (fun _ => k)) (at level 199, right associativity).
Definition get : M gmme := fun g => Ok (g, [], g).
Definition upd (f : gmme -> gmme) : M unit := fun g => Ok (f g, [], tt).
Definition liftr {A} (r : res A) : M A := fun g => match r with Ok a => Ok (g, [], a) | Err e => Err e | UB => UB end.
Definition abort {A} : M A := fun _ => UB.

Section Entity.
Variable E : ext.

(** gmm_prim.c:486-498,719-731,879-892: the call-backs; 1 (message kept) becomes 0. *)
Definition call (o : out) : M Z := fun g => Ok (g, [o], if cb E o =? 1 then 0 else cb E o).

(** *** Timers *)

(** gmm.c:364-371. *)
Definition t3312_stop : M unit := upd (set_t3312_on false).
(** gmm.c:354-361. *)
Definition t3312_start : M unit :=
  let* g := get in if t3312_sec g =? 0 then ret tt else upd (set_t3312_on true).
(** gmm.c:307-317. *)
Definition ready_start : M unit :=
  let* g := get in if t3314_sec g =? 0 then ret tt else upd (set_t3314_on true) ;; t3312_stop.
(** gmm.c:320-331. *)
Definition ready_stop : M unit :=
  let* g := get in if t3314_on g then upd (set_t3314_on false) ;; t3312_start else ret tt.
(** gmm.c:397-405, 408-415. *)
Definition t3316_start : M unit := if d3316 E =? 0 then ret tt else upd (set_t3316_on true).
Definition t3316_stop : M unit := upd (set_t3316_on false).

(** *** Primitives *)

(** gmm.c:427-445. *)
Definition attach_cnf (accepted : bool) (cause : Z) : M Z :=
  let* g := get in call (if accepted then OAttachAcc (ptmsi g) (psig g) (tlli g) (ra g) else OAttachRej cause).
(** gmm.c:447-457. *)
Definition detach_cnf : M Z := let* g := get in call (ODetachCnf (d_type g)).
(** gmm.c:459-472. *)
Definition sim_auth_ind : M Z := let* g := get in call (OSimAuth (ac_ref g) (ac_key g) (ac_rand g)).
(** gmm.c:474-489, gmm_prim.c:417-426: the receiver is told "accepted" if and only if the cause is 0; the
    other members are then those of an acceptance. *)
Definition establish_cnf (accepted : bool) (cause : Z) : M Z :=
  let* g := get in
  call (if cause =? 0 then (if accepted then OEstAcc (sess g) (ptmsi g) (psig g) (tlli g) (ra g) else OEstAcc (sess g) 0 0 0 [])
        else OEstRej (sess g) cause).
(** gmm.c:491-499. *)
Definition release_ind : M Z := let* g := get in call (ORelease (sess g)).
(** gmm.c:503-523. *)
Definition modify_ind : M Z :=
  let* g := get in
  call (OModify (sess g) (ptmsi g) (psig g) (tlli g) (ra g)
          (if pdp_present g then Some (pdp_status g) else None) (if npdu_present g then Some (npdu_list g) else None)).
(** gmm.c:525-536. *)
Definition rr_assign : M Z := let* g := get in call (ORrAssign (old_tlli g) (tlli g) (ptmsi g) (imsi g)).
(** gmm.c:538-550. *)
Definition ll_assign : M Z := let* g := get in call (OAssign (old_tlli g) (tlli g) (gea g) (kc g)).
(** gmm.c:552-561. *)
Definition update_ptmsi (t : Z) : M unit :=
  upd (fun g => set_tlli (tlli_local t) (set_old_tlli (tlli g) (set_ptmsi t (set_old_ptmsi (ptmsi g) g)))).

(** *** Messages sent *)

Definition u8 (x : Z) : Z := x mod 256.
(** gmm_pdu.c:74-106: [ms_net_cap_def], little endian. *)
Definition ms_net_cap_def : list Z := [0x97; 0x07; 0; 0].
(** gmm_pdu.c:125-130. *)
Definition drx_param_def : list Z := [10; 0].
(** gmm_pdu.c:177-195 [encode_ms_net_cap] and 197-213 [encode_ms_ra_acc_cap]: the bit vector starts at the
    tail of the message before the element's own identifier and length are put there; what is left in the
    end are these octets (tests/gmm/gmm_prim_ms_test.ok:3,17). *)
Definition ms_net_cap : list Z := [0xe5; 0x02; 0x00; 0x00].
Definition ms_ra_acc_cap : list Z := [0x00].
(** gmm_pdu.c:279-280, 371-372. *)
Definition sig_ie (s : Z) : list Z := [IE_PTMSI_SIG; u8 (Z.shiftr s 16); u8 (Z.shiftr s 8); u8 s].
(** msgb_put of the length, then the identity (gmm_pdu.c:260-264, 446-450, 522-526). *)
Definition mi_lv (m : mi) : option (list Z) :=
  match mi_enc E m with Some v => Some (u8 (zlen v) :: v) | None => None end.

(** gmm_pdu.c:216-295. *)
Definition build_attach_req (g : gmme) (type : Z) (with_imsi : bool) : option (list Z) :=
  match mi_lv (if with_imsi then MiImsi (imsi g) else MiTmsi (ptmsi g)) with
  | None => None
  | Some m => Some ([PDISC_MM; MT_ATTACH_REQ] ++ [4] ++ ms_net_cap_def ++ [Z.land type 0x0f] ++ drx_param_def ++ m ++ ra g
      ++ ms_ra_acc_cap
      ++ (if negb with_imsi && negb (ptmsi g =? RESERVED_TMSI) then sig_ie (psig g) else [])
      ++ [IE_TIMER_READY; secs_to_tmr_floor (d3314 E)]
      ++ (if negb with_imsi then [Z.lor (Z.shiftl IE_PTMSI_TYPE 4) 1] else []))
  end.
(** gmm_pdu.c:298-308, 311-319, 532-547. *)
Definition build_attach_compl : list Z := [PDISC_MM; MT_ATTACH_COMPL].
Definition build_ptmsi_realloc_compl : list Z := [PDISC_MM; MT_PTMSI_REALL_COMPL].
Definition build_rau_compl : list Z := [PDISC_MM; MT_RA_UPD_COMPL].
(** gmm_pdu.c:322-336. *)
Definition build_auth_ciph_fail (cause : Z) : list Z := [PDISC_MM; MT_PTMSI_REALL_COMPL; u8 cause].
(** gmm_pdu.c:340-399. *)
Definition build_rau_req (g : gmme) (type : Z) : list Z :=
  [PDISC_MM; MT_RA_UPD_REQ; u8 (Z.lor (Z.shiftl (ac_key g) 4) (Z.land type 0x07))] ++ ra g ++ ms_ra_acc_cap
  ++ (if negb (psig g =? RESERVED_TMSI) then sig_ie (psig g) else [])
  ++ [IE_TIMER_READY; secs_to_tmr_floor (d3314 E)] ++ drx_param_def ++ ms_net_cap ++ [Z.lor (Z.shiftl IE_PTMSI_TYPE 4) 1].
(** gmm_pdu.c:402-454. *)
Definition build_identity_resp (g : gmme) (type : Z) : option (list Z) :=
  match (if type =? MI_IMSI then Some (MiImsi (imsi g)) else if type =? MI_TMSI then Some (MiTmsi (ptmsi g))
         else if type =? MI_IMEI then Some (MiImei (imei g)) else if type =? MI_IMEISV then Some (MiImeisv (imeisv g)) else None) with
  | None => None
  | Some i => match mi_lv i with Some m => Some ([PDISC_MM; MT_ID_RESP] ++ m) | None => None end
  end.
(** gmm_pdu.c:457-491; the member [ac_ref_nr] of the message has four bits. *)
Definition build_auth_ciph_resp (g : gmme) (sres : option (list Z)) : option (list Z) :=
  let head := [PDISC_MM; MT_AUTH_CIPH_RESP; Z.land (ac_ref g) 0x0f]
              ++ match sres with Some s => IE_AUTH_SRES :: s | None => [] end in
  if ac_imeisv g
  then match mi_lv (MiImeisv (imeisv g)) with Some m => Some (head ++ IE_IMEISV :: m) | None => None end
  else Some head.
(** gmm_pdu.c:493-530. *)
Definition build_detach_req (g : gmme) (type off : Z) : option (list Z) :=
  match mi_lv (MiTmsi (ptmsi g)) with
  | None => None
  | Some m => Some ([PDISC_MM; MT_DETACH_REQ; u8 (Z.lor (Z.shiftl (Z.land type 0x07) 5) (Z.shiftl (Z.land off 0x01) 4))]
                    ++ drx_param_def ++ m)
  end.

(** The common part of gmm.c:563-871: the message is built, then passed to LLC under the current TLLI. *)
Definition tx (pdu : gmme -> option (list Z)) : M Z :=
  let* g := get in match pdu g with Some p => call (OUnit (tlli g) p) | None => ret (- EBADMSG) end.
(** gmm.c:564-595. *)
Definition tx_id_resp (type : Z) : M Z := tx (fun g => build_identity_resp g type).
(** gmm.c:599-629. *)
Definition tx_auth_ciph_resp (sres : option (list Z)) : M Z := tx (fun g => build_auth_ciph_resp g sres).
(** gmm.c:632-665. *)
Definition tx_att_req (type : Z) (with_imsi : bool) : M Z := tx (fun g => build_attach_req g type with_imsi).
(** gmm.c:668-698. *)
Definition tx_att_compl : M Z := tx (fun _ => Some build_attach_compl).
(** gmm.c:701-731. *)
Definition tx_detach_req (type off : Z) : M Z := tx (fun g => build_detach_req g type off).
(** gmm.c:734-764. *)
Definition tx_ptmsi_realloc_compl : M Z := tx (fun _ => Some build_ptmsi_realloc_compl).
(** gmm.c:767-806. *)
Definition tx_auth_ciph_fail (cause : Z) : M Z :=
  t3316_stop ;; upd (set_ac_ref 0xff) ;; tx (fun _ => Some (build_auth_ciph_fail cause)).
(** gmm.c:809-838. *)
Definition tx_rau_req (type : Z) : M Z := tx (fun g => Some (build_rau_req g type)).
(** gmm.c:841-871. *)
Definition tx_rau_compl : M Z := tx (fun _ => Some build_rau_compl).

(** *** The state machine *)

(** gmm_ms_fsm.c:32-41. *)
Definition tmo (s : fstate) : Z := match s with RegInit => 3310 | RauInit => 3330 | _ => 0 end.
Definition tmo_val (s : fstate) : Z := match s with RegInit => d3310 E | RauInit => d3330 E | _ => 0 end.
(** gmm_ms_fsm.c:304-386, the members [out_state_mask]. *)
Definition out_ok (s n : fstate) : bool :=
  match s, n with
  | Null, Dereg => true
  | Dereg, (Null | RegInit | Dereg) => true
  | RegInit, (Dereg | Reg) => true
  | Reg, (Reg | RauInit | DeregInit | Dereg) => true
  | DeregInit, (Reg | Dereg) => true
  | RauInit, (Reg | Dereg) => true
  | SrInit, (Reg | Dereg) => true
  | _, _ => false
  end.
(** The same, the members [in_event_mask]. *)
Definition in_ok (s : fstate) (e : fev) : bool :=
  match s, e with
  | Null, EvEnable => true
  | Dereg, (EvDisable | EvAttReq) => true
  | RegInit, (EvAttRej _ | EvLowFail | EvAttReq | EvAttAcc | EvDetReq) => true
  | Reg, (EvRauReq | EvDetReq) => true
  | DeregInit, (EvDetAcc | EvLowFail | EvRauAcc) => true
  | RauInit, (EvLowFail | EvRauRej _ | EvRauAcc) => true
  | SrInit, EvLowFail => true
  | _, _ => false
  end.

(** gmm_ms_fsm.c:75-79, 92-104, 187-192. *)
Definition on_enter (prev new : fstate) : M unit :=
  match new with
  | Null => t3316_stop
  | Dereg =>
      upd (fun g => set_a_tries 0 (set_a_impl false (set_a_expl false (set_a_imsi false (set_a_type 0 g))))) ;;
      t3312_stop ;; t3316_stop ;;
      let* g := get in
      match prev with
      | Null => ret tt
      | _ => if sess g =? SESS_UNASSIGNED then ret tt else let* _ := release_ind in ret tt
      end
  | Reg => upd (set_a_tries 0)
  | _ => ret tt
  end.

(** gmm_ms_fsm.c:43-44 with libosmocore's osmo_fsm: a transition the mask forbids does nothing; otherwise
    the timer of the old state is stopped, that of the new one is started if its value is not zero. *)
Definition state_chg (n : fstate) : M unit :=
  let* g := get in
  if out_ok (st g) n
  then upd (fun g => set_fi_on (negb (tmo_val n =? 0)) (set_fi_T (tmo n) (set_st n g))) ;; on_enter (st g) n
  else ret tt.

Definition is_state (a b : fstate) : bool :=
  match a, b with
  | Null, Null | Dereg, Dereg | RegInit, RegInit | Reg, Reg | DeregInit, DeregInit | RauInit, RauInit | SrInit, SrInit => true
  | _, _ => false
  end.

(** gmm_ms_fsm.c:47-60. *)
Definition reinit_attach : M Z :=
  let* g := get in
  if is_state (st g) RegInit && (fi_T g =? 3310)
  then upd (set_fi_on true) ;; tx_att_req (a_type g) (a_imsi g) else abort.
(** gmm_ms_fsm.c:62-73. *)
Definition reinit_rau : M Z :=
  let* g := get in
  if is_state (st g) RauInit && (fi_T g =? 3330)
  then upd (set_fi_on true) ;; tx_rau_req (r_type g) else abort.

(** gmm_ms_fsm.c:81-302: the actions; an event an action does not know fails an assertion. *)
Definition act_null (e : fev) : M unit := match e with EvEnable => state_chg Dereg | _ => abort end.
Definition act_dereg (e : fev) : M unit :=
  match e with
  | EvDisable => state_chg Null
  | EvAttReq => let* g := get in let* rc := tx_att_req (a_type g) (a_imsi g) in
                if rc <? 0 then ret tt else state_chg RegInit
  | _ => abort
  end.
Definition attach_failed (cause : Z) : M unit :=
  let* a := get in
  state_chg Dereg ;;
  let* rc := (if a_expl a then attach_cnf false cause else ret 0) in
  if rc <? 0 then ret tt else
  let* _ := (if a_impl a then establish_cnf false cause else ret 0) in ret tt.
Definition act_reg_init (e : fev) : M unit :=
  match e with
  | EvAttReq => let* _ := reinit_attach in ret tt
  | EvAttRej c => attach_failed c
  | EvLowFail => attach_failed CAUSE_MAC_FAIL
  | EvAttAcc =>
      state_chg Reg ;;
      let* g := get in
      let* rc := (if a_expl g then attach_cnf true 0 else ret 0) in
      if rc <? 0 then ret tt else
      let* g := get in
      let* _ := (if a_impl g then establish_cnf true 0 else ret 0) in ret tt
  | EvDetReq => state_chg Dereg
  | _ => abort
  end.
Definition act_reg (e : fev) : M unit :=
  match e with
  | EvRauReq =>
      let* g := get in
      let* _ := call (OSuspend (tlli g)) in
      let* rc := tx_rau_req (r_type g) in
      if rc <? 0 then ret tt else state_chg RauInit
  | EvDetReq => state_chg DeregInit
  | _ => abort
  end.
Definition act_dereg_init (e : fev) : M unit :=
  match e with EvDetAcc | EvLowFail => state_chg Dereg | EvRauAcc => state_chg Reg | _ => abort end.
Definition act_rau_init (e : fev) : M unit :=
  match e with
  | EvLowFail => state_chg Reg
  | EvRauRej c =>
      if (c =? CAUSE_ROAMING) || (c =? CAUSE_NO_SUIT_CELL) || (c =? CAUSE_CSG) then state_chg Reg else state_chg Dereg
  | EvRauAcc =>
      t3316_stop ;; let* g := get in let* _ := call (OResume (tlli g)) in state_chg Reg
  | _ => abort
  end.
Definition act_sr_init (e : fev) : M unit := match e with EvLowFail => state_chg Reg | _ => abort end.
Definition action (s : fstate) (e : fev) : M unit :=
  match s with
  | Null => act_null e | Dereg => act_dereg e | RegInit => act_reg_init e | Reg => act_reg e
  | DeregInit => act_dereg_init e | RauInit => act_rau_init e | SrInit => act_sr_init e
  end.

(** libosmocore's osmo_fsm_inst_dispatch with gmm_ms_fsm.c:293-302,451-452: power-off is allowed in every
    state; an event the state's mask lacks is refused. *)
Definition dispatch (e : fev) : M Z :=
  match e with
  | EvDetOff => state_chg Dereg ;; ret 0
  | _ => let* g := get in if in_ok (st g) e then action (st g) e ;; ret 0 else ret (-1)
  end.

(** gmm_ms_fsm.c:407-444. *)
Definition fsm_timeout : M unit :=
  upd (set_fi_on false) ;;
  let* g := get in
  if fi_T g =? 3310 then
    let n := u8 (a_tries g + 1) in
    upd (set_a_tries n) ;;
    if is_state (st g) RegInit then
      if n =? 4 then let* _ := dispatch EvLowFail in ret tt else let* _ := reinit_attach in ret tt
    else abort
  else if fi_T g =? 3330 then
    let n := u8 (r_tries g + 1) in
    upd (set_r_tries n) ;;
    if is_state (st g) RauInit then
      if n =? 4 then let* _ := dispatch EvLowFail in ret tt else let* _ := reinit_rau in ret tt
    else abort
  else abort.

(** gmm_ms_fsm.c:486-502. *)
Definition request_attach (type : Z) (with_imsi explicit : bool) : M Z :=
  upd (fun g => set_a_imsi with_imsi (set_a_type type g)) ;;
  upd (if explicit then set_a_expl true else set_a_impl true) ;;
  dispatch EvAttReq.
(** gmm_ms_fsm.c:504-528. *)
Definition request_detach (type off : Z) : M Z :=
  upd (fun g => set_d_off off (set_d_type type g)) ;;
  let* _ := (if off =? 0 then dispatch EvDetReq else if off =? 1 then dispatch EvDetOff else abort) in
  tx_detach_req type off.
(** gmm_ms_fsm.c:530-539. *)
Definition request_rau (type : Z) : M Z := upd (set_r_type type) ;; dispatch EvRauReq.

(** gmm.c:339-351, 374-394, 418-425: expiry; the timer no longer runs when its function is called. *)
Definition t3314_cb : M unit := upd (set_t3314_on false) ;; t3312_start.
Definition t3312_cb : M unit := upd (set_t3312_on false) ;; let* _ := request_rau 3 in ret tt.
Definition t3316_cb : M unit := upd (set_t3316_on false) ;; upd (set_ac_ref 0xff).

(** *** Messages received; [pdu] is the whole message, its first two octets the header *)

(** Seconds of an octet, 0 if deactivated (gmm.c:891, 916, 1064, 1127). *)
Definition tmr_or_0 (o : Z) : Z := if 0 <=? tmr_to_secs o then tmr_to_secs o else 0.
Definition rdM (l : list Z) (i : Z) : M Z := liftr (rd l i).

(** gmm.c:906-911, 1080-1085, 1299-1304. *)
Definition rx_ptmsi_sig (p : Z -> option (list Z)) : M unit :=
  match p IE_PTMSI_SIG with
  | Some v => let* a := rdM v 0 in let* b := rdM v 1 in let* c := rdM v 2 in
              upd (set_psig (Z.lor (Z.lor (Z.shiftl a 8) (Z.shiftl b 4)) c))
  | None => upd (set_psig RESERVED_TMSI)
  end.
(** gmm.c:913-928, 1124-1139. *)
Definition rx_ready_timer (p : Z -> option (list Z)) : M unit :=
  match p IE_TIMER_READY with
  | Some v => let* o := rdM v 0 in upd (set_t3314_sec (tmr_or_0 o))
  | None => upd (set_t3314_sec (d3314 E))
  end ;;
  let* g := get in
  if t3314_sec g =? 0 then ready_stop ;; t3312_start else ret tt.
(** gmm.c:930-939, 1087-1097: [false] is [goto rejected]. *)
Definition rx_alloc_ptmsi (p : Z -> option (list Z)) : M bool :=
  match p IE_ALLOC_PTMSI with
  | Some v => match mi_dec E v with Some (MiTmsi t) => update_ptmsi t ;; ret true | _ => ret false end
  | None => ret true
  end.
(** gmm.c:941-942, 993-997, 1144-1145, 1218-1222: elements of at least one octet. *)
Definition rx_t3302 (p : Z -> option (list Z)) : M unit :=
  match p IE_T3302 with Some (o :: _) => upd (set_t3302 o) | _ => ret tt end.
Definition rx_t3346 (p : Z -> option (list Z)) : M unit :=
  match p IE_T3346 with Some (o :: _) => upd (set_t3346 o) | _ => ret tt end.
(** gmm.c:888-895, 1063-1068: periodic update timer and force to standby. *)
Definition rx_rau_timer (o : Z) (force : bool) : M unit :=
  upd (set_t3312_sec (tmr_or_0 o)) ;;
  (if tmr_or_0 o =? 0 then t3312_stop else ret tt) ;;
  (if force then ready_stop else ret tt).

(** gmm.c:873-965; libosmocore's struct gsm48_attach_ack: result and force to standby, timer, radio
    priority, routing area (9 octets). *)
Definition rx_att_ack (pdu : list Z) : M Z :=
  if zlen pdu <? 11 then ret (- EINVAL) else
  let* o0 := rdM pdu 2 in let* tm := rdM pdu 3 in let* rp := rdM pdu 4 in let* r := liftr (rdn pdu 5 6) in
  upd (fun g => set_prio_tom8 (Z.land rp 0x0f) (set_prio_sms (Z.shiftr rp 4) g)) ;;
  rx_rau_timer tm (negb (Z.shiftr o0 4 =? 0)) ;;
  upd (set_ra r) ;;
  let* ok :=
    (if 11 <? zlen pdu then
      match tlv E (skipn 11 pdu) with
      | None => ret false
      | Some p => rx_ptmsi_sig p ;; rx_ready_timer p ;;
                  let* ok := rx_alloc_ptmsi p in if ok then rx_t3302 p ;; ret true else ret false
      end
    else ret true) in
  if negb ok then ret (- EINVAL) else
  let* rc := ll_assign in if rc <? 0 then ret (- EINVAL) else
  let* rc := rr_assign in if rc <? 0 then ret (- EINVAL) else
  let* rc := tx_att_compl in if rc <? 0 then ret (- EINVAL) else
  dispatch EvAttAcc.

(** gmm.c:968-1006. *)
Definition rx_att_rej (pdu : list Z) : M Z :=
  if zlen pdu <? 3 then ret (- EINVAL) else
  let* cause := rdM pdu 2 in
  let* ok := (if 3 <? zlen pdu then
      match tlv E (skipn 3 pdu) with None => ret false | Some p => rx_t3302 p ;; rx_t3346 p ;; ret true end
    else ret true) in
  if ok then dispatch (EvAttRej cause) else ret (- EINVAL).

(** gmm.c:1009-1043. *)
Definition rx_detach_accept (pdu : list Z) : M Z :=
  if zlen pdu <? 3 then ret (- EINVAL) else
  let* o := rdM pdu 2 in
  (if Z.shiftr o 4 =? 1 then ready_stop else ret tt) ;;
  upd (fun g => set_tlli TLLI_UNASSIGNED (set_old_tlli (tlli g) g)) ;;
  let* rc := ll_assign in if rc <? 0 then ret (- EINVAL) else
  let* rc := detach_cnf in if rc <? 0 then ret (- EINVAL) else
  dispatch EvDetAcc.

(** gmm.c:1046-1185; struct gsm48_ra_upd_ack: force to standby and result, timer, routing area (8 octets). *)
Definition rx_rau_acc (pdu : list Z) : M Z :=
  if zlen pdu <? 10 then ret (- EINVAL) else
  let* o0 := rdM pdu 2 in let* tm := rdM pdu 3 in let* r := liftr (rdn pdu 4 6) in
  rx_rau_timer tm (negb (Z.land o0 0x0f =? 0)) ;;
  upd (set_ra r) ;;
  let* ok :=
    (if 10 <? zlen pdu then
      match tlv E (skipn 10 pdu) with
      | None => ret false
      | Some p =>
          rx_ptmsi_sig p ;;
          let* ok := rx_alloc_ptmsi p in
          if negb ok then ret false else
          if match p IE_IMEISV with Some v => match mi_dec E v with Some (MiImeisv _) => false | _ => true end | None => false end
          then ret false else
          match p IE_RX_NPDU with
          | Some v => if 2 <=? zlen v then upd (fun g => set_npdu_present true (set_npdu_list (firstn 17 v) g))
                      else upd (set_npdu_present false)
          | None => upd (set_npdu_present false)
          end ;;
          rx_ready_timer p ;;
          rx_t3302 p ;;
          match p IE_PDP_CTX with
          | Some v => if 2 <=? zlen v then upd (fun g => set_pdp_present true (set_pdp_status (firstn 2 v) g))
                      else upd (set_pdp_present false)
          | None => upd (set_pdp_present false)
          end ;;
          ret true
      end
    else ret true) in
  if negb ok then ret (- EINVAL) else
  let* rc := ll_assign in if rc <? 0 then ret (- EINVAL) else
  let* rc := rr_assign in if rc <? 0 then ret (- EINVAL) else
  let* g := get in
  let* rc := (if sess g =? SESS_UNASSIGNED then ret 0 else modify_ind) in if rc <? 0 then ret (- EINVAL) else
  let* rc := tx_rau_compl in if rc <? 0 then ret (- EINVAL) else
  dispatch EvRauAcc.

(** gmm.c:1188-1228. *)
Definition rx_rau_rej (pdu : list Z) : M Z :=
  if zlen pdu <? 4 then let* _ := dispatch (EvRauRej CAUSE_SEM_INCORR) in ret (- EINVAL) else
  let* cause := rdM pdu 2 in let* o := rdM pdu 3 in
  (if Z.shiftr o 4 =? 1 then ready_stop else ret tt) ;;
  (if 4 <? zlen pdu then match tlv E (skipn 4 pdu) with None => ret tt | Some p => rx_t3302 p ;; rx_t3346 p end
   else ret tt) ;;
  let* _ := dispatch (EvRauRej cause) in ret (- EINVAL).

(** gmm.c:1231-1254. *)
Definition rx_id_req (pdu : list Z) : M Z :=
  if zlen pdu <? 3 then ret (- EINVAL) else
  let* o := rdM pdu 2 in
  (if Z.shiftr o 4 =? 1 then ready_stop else ret tt) ;;
  tx_id_resp (Z.land o 0x0f).

(** gmm.c:1257-1323. *)
Definition rx_ptmsi_realloc_cmd (pdu : list Z) : M Z :=
  if negb (zlen pdu =? 15) then ret (- EINVAL) else
  let* l := rdM pdu 2 in
  if negb (l =? 5) then ret (- EINVAL) else
  let* v := liftr (rdn pdu 3 5) in
  match mi_dec E v with
  | Some (MiTmsi t) =>
      update_ptmsi t ;;
      let* r := liftr (rdn pdu 8 6) in upd (set_ra r) ;;
      let* o := rdM pdu 14 in
      (if Z.shiftr o 4 =? 1 then ready_stop else ret tt) ;;
      let* ok := (if 15 <? zlen pdu
                  then match tlv E (skipn 15 pdu) with None => ret false | Some p => rx_ptmsi_sig p ;; ret true end
                  else ret true) in
      if negb ok then ret (- EINVAL) else
      let* rc := ll_assign in if rc <? 0 then ret (- EINVAL) else
      let* rc := rr_assign in if rc <? 0 then ret (- EINVAL) else
      tx_ptmsi_realloc_compl
  | _ => ret (- EINVAL)
  end.

(** gmm.c:1326-1396; struct gsm48_auth_ciph_req: ciphering algorithm and IMEISV request, force to standby
    and reference number, each pair in one octet, the first in the lower half. *)
Definition rx_auth_ciph_req (pdu : list Z) : M Z :=
  if zlen pdu <? 4 then let* _ := tx_auth_ciph_fail CAUSE_SEM_INCORR in ret (- EINVAL) else
  let* o0 := rdM pdu 2 in let* o1 := rdM pdu 3 in
  let* prk :=
    (if 4 <? zlen pdu then
      match tlv E (skipn 4 pdu) with
      | None => ret None
      | Some p =>
          match p IE_AUTH_RAND with
          | Some v => let* r := liftr (rdn v 0 16) in
                      match p IE_CKSN with
                      | Some w => let* k := rdM w 0 in ret (Some (Some r, Z.land k 0x0f))
                      | None => ret (Some (Some r, 0xff))
                      end
          | None => ret (Some (None, 0xff))
          end
      end
    else ret (Some (None, 0xff))) in
  match prk with
  | None => let* _ := tx_auth_ciph_fail CAUSE_COND_IE in ret (- EINVAL)
  | Some (rnd, key) =>
      (if Z.land o1 0x0f =? 0 then ret tt else ready_stop) ;;
      upd (set_gea (Z.land o0 0x0f)) ;; upd (set_ac_ref (Z.shiftr o1 4)) ;;
      upd (set_ac_imeisv (negb (Z.shiftr o0 4 =? 0))) ;; upd (set_ac_key key) ;;
      match rnd with
      | Some r =>
          upd (set_ac_rand r) ;;
          let* rc := sim_auth_ind in
          if rc <? 0 then let* _ := tx_auth_ciph_fail CAUSE_AUTH_UNACCEPT in ret rc else ret rc
      | None =>
          let* rc := ll_assign in
          if rc <? 0 then upd (set_ac_ref 0xff) ;; let* _ := tx_auth_ciph_fail CAUSE_P_STATE in ret rc
          else let* rc := tx_auth_ciph_resp None in upd (set_ac_ref 0xff) ;; ret rc
      end
  end.

(** gmm.c:1399-1409. *)
Definition rx_auth_ciph_rej : M Z := dispatch (EvAttRej CAUSE_AUTH_UNACCEPT).
(** gmm.c:1412-1426. *)
Definition rx_status (pdu : list Z) : M Z := if zlen pdu <? 3 then ret (- EINVAL) else ret 0.
(** gmm.c:1429-1453; the table of gmm_pdu.c:146-175 has no entries for the names, so none is ever found. *)
Definition rx_information (pdu : list Z) : M Z :=
  if zlen pdu <=? 2 then ret 0 else match tlv E (skipn 2 pdu) with None => ret (- EINVAL) | Some _ => ret 0 end.

(** gmm.c:1456-1502. *)
Definition gmm_rx (pdu : list Z) : M Z :=
  let* mt := rdM pdu 1 in
  if mt =? MT_ATTACH_ACK then rx_att_ack pdu
  else if mt =? MT_ATTACH_REJ then rx_att_rej pdu
  else if mt =? MT_DETACH_ACK then rx_detach_accept pdu
  else if mt =? MT_RA_UPD_ACK then rx_rau_acc pdu
  else if mt =? MT_RA_UPD_REJ then rx_rau_rej pdu
  else if mt =? MT_ID_REQ then rx_id_req pdu
  else if mt =? MT_PTMSI_REALL_CMD then rx_ptmsi_realloc_cmd pdu
  else if mt =? MT_AUTH_CIPH_REQ then rx_auth_ciph_req pdu
  else if mt =? MT_AUTH_CIPH_REJ then rx_auth_ciph_rej
  else if mt =? MT_STATUS then rx_status pdu
  else if mt =? MT_INFO then rx_information pdu
  else ret (- EINVAL).

(** gmm_prim.c:930-952: the part of [gprs_gmm_prim_handle_ll_unitdata_ind] after the look-up. *)
Definition rx_pdu (pdu : list Z) : M Z :=
  if zlen pdu <? 2 then ret (- EINVAL) else
  let* b := rdM pdu 0 in
  let pd := Z.land b 0x0f in
  if pd =? PDISC_MM then gmm_rx pdu
  else if pd =? PDISC_SM then let* g := get in call (OSmUnit (sess g) pdu)
  else abort.

(** ** Primitives from the upper layers, for one entity *)

(** Members of GMMREG-ATTACH.req and GMMSM-ESTABLISH.req (gmm_prim.h:106-115, 279-289). *)
Record attreq := mkAttreq {
  q_type : Z; q_with_imsi : bool; q_ptmsi : Z; q_sig : Z; q_imsi : list Z; q_imei : list Z; q_imeisv : list Z; q_rai : list Z }.

(** gmm_prim.c:510-513, 627-630. *)
Definition set_imeis (q : attreq) : M unit :=
  (match q_imei q with [] => ret tt | s => upd (set_imei s) end) ;;
  match q_imeisv q with [] => ret tt | s => upd (set_imeisv s) end.
(** gmm_prim.c:510-521. *)
Definition attach_req (q : attreq) : M Z :=
  set_imeis q ;; upd (set_ra (q_rai q)) ;; upd (set_psig (q_sig q)) ;;
  request_attach (q_type q) (q_with_imsi q) true.
(** gmm_prim.c:618-637. *)
Definition establish_req (id : Z) (q : attreq) : M Z :=
  upd (set_sess id) ;; upd (set_psig (q_sig q)) ;;
  let* g := get in
  if is_state (st g) Reg then establish_cnf true 0 else
  set_imeis q ;; upd (set_ra (q_rai q)) ;;
  request_attach (q_type q) (q_with_imsi q) false.
(** gmm_prim.c:570-586. *)
Definition sim_auth_rsp (sres k : list Z) : M Z :=
  upd (set_kc k) ;; t3316_start ;;
  let* rc := ll_assign in
  if rc <? 0 then upd (set_ac_ref 0xff) ;; let* _ := tx_auth_ciph_fail CAUSE_P_STATE in ret rc
  else let* rc := tx_auth_ciph_resp (Some sres) in upd (set_ac_ref 0xff) ;; ret rc.
(** gmm_prim.c:654-666. *)
Definition sm_unitdata_req (pdu : list Z) : M Z := let* g := get in call (OUnit (tlli g) pdu).
(** gmm_prim.c:745-751. *)
Definition page_ind : M Z := ready_start ;; let* g := get in call (OTrigger (tlli g)).
(** gmm_prim.c:762-763. *)
Definition llc_transmitted : M Z := ready_start ;; ret 0.

(** gmm.c:151-195 with gmm_ms_fsm.c:467-479: a new entity; [r] is what gprs_gmm_alloc_rand_tlli returns.
    The session id is still 0 while the FSM enters DEREGISTERED, coming from NULL. *)
Definition new_gmme (enabled : bool) (tmsi : Z) (s : list Z) (r : Z) : gmme :=
  mkGmme (if enabled then Dereg else Null) 0 false 0 false false false 0 0 0 0 0
    SESS_UNASSIGNED RESERVED_TMSI tmsi RESERVED_TMSI (if tmsi =? RESERVED_TMSI then r else tlli_foreign tmsi) TLLI_UNASSIGNED
    s [] [] 0 0 [0; 0xf0; 0; 0; 0; 0] false [0; 0] false [] 0xff 0 (repeat 0 16) false 0 (repeat 0 16)
    (d3302 E) (d3346 E) false 0 false 0 false.

(** ** All entities *)
Record gctx := mkCtx { enabled : bool; gmmes : list gmme }.

(** The first entity that meets [p] handles [m] (the loops of gmm.c:229-271, gmm_prim.c:549-559). *)
Fixpoint on_first (p : gmme -> bool) (m : M Z) (l : list gmme) : option (res (list gmme * list out * Z)) :=
  match l with
  | [] => None
  | g :: r =>
      if p g then Some (match m g with Ok (g', o, z) => Ok (g' :: r, o, z) | Err e => Err e | UB => UB end)
      else match on_first p m r with
           | Some (Ok (r', o, z)) => Some (Ok (g :: r', o, z))
           | x => x
           end
  end.

Fixpoint list_eqb (a b : list Z) : bool :=
  match a, b with [] , [] => true | x :: a, y :: b => (x =? y) && list_eqb a b | _, _ => false end.

(** gmm.c:229-271. *)
Definition by_ptmsi (t : Z) (g : gmme) : bool := (ptmsi g =? t) || (old_ptmsi g =? t).
Definition by_imsi (s : list Z) (g : gmme) : bool := list_eqb (imsi g) s.
Definition by_tlli (t : Z) (g : gmme) : bool := (tlli g =? t) || (old_tlli g =? t).
Definition by_sess (i : Z) (g : gmme) : bool := sess g =? i.

(** gmm.c:273-303: the numbers drawn, in order; the first whose TLLI is free is taken, none if they run
    out (a failure to draw, or 2^27 attempts). *)
Fixpoint rand_tlli (rnd : list Z) (l : list gmme) : Z :=
  match rnd with
  | [] => TLLI_UNASSIGNED
  | x :: r => let t := Z.lor (Z.land x 0x07ffffff) 0x78000000 in
              if existsb (by_tlli t) l then rand_tlli r l else t
  end.

Inductive which := FsmTimer | T3314 | T3312 | T3316.
Inductive event :=
| EAttach (q : attreq) (rnd : list Z)
| EDetach (tmsi type off : Z)
| ESimAuth (ref key : Z) (rand sres kc : list Z)
| EEstablish (id : Z) (q : attreq) (rnd : list Z)
| ESmUnit (id : Z) (pdu : list Z)
| EPage (t : Z) | ELlcTransmitted (t : Z)
| EUnitdata (t : Z) (pdu : list Z)
| EEnable (on : bool)
| EExpiry (i : nat) (w : which).

Definition wrap (c : gctx) (missing : Z) (r : option (res (list gmme * list out * Z))) : res (gctx * list out * Z) :=
  match r with
  | None => Ok (c, [], missing)
  | Some (Ok (l, o, z)) => Ok (mkCtx (enabled c) l, o, z)
  | Some (Err e) => Err e
  | Some UB => UB
  end.

(** gmm.c:214-227 [gprs_gmm_gmme_find_or_create_by_ptmsi_imsi], then [m]; new entities go to the head of
    the list (gmm.c:192). *)
Definition find_or_create (c : gctx) (q : attreq) (rnd : list Z) (m : M Z) : res (gctx * list out * Z) :=
  match (if q_ptmsi q =? RESERVED_TMSI then None else on_first (by_ptmsi (q_ptmsi q)) m (gmmes c)) with
  | Some r => wrap c 0 (Some r)
  | None =>
      match on_first (by_imsi (q_imsi q)) m (gmmes c) with
      | Some r => wrap c 0 (Some r)
      | None =>
          let g := new_gmme (enabled c) (q_ptmsi q) (q_imsi q) (rand_tlli rnd (gmmes c)) in
          wrap c 0 (on_first (fun _ => true) m (g :: gmmes c))
      end
  end.

(** Expiry of a timer that runs, for the entity at a position of the list. *)
Definition expire (w : which) : M Z :=
  let* g := get in
  match w with
  | FsmTimer => if fi_on g then fsm_timeout ;; ret 0 else ret 0
  | T3314 => if t3314_on g then t3314_cb ;; ret 0 else ret 0
  | T3312 => if t3312_on g then t3312_cb ;; ret 0 else ret 0
  | T3316 => if t3316_on g then t3316_cb ;; ret 0 else ret 0
  end.
Fixpoint at_nth (i : nat) (m : M Z) (l : list gmme) : option (res (list gmme * list out * Z)) :=
  match l, i with
  | [], _ => None
  | g :: r, O => Some (match m g with Ok (g', o, z) => Ok (g' :: r, o, z) | Err e => Err e | UB => UB end)
  | g :: r, S i => match at_nth i m r with Some (Ok (r', o, z)) => Some (Ok (g :: r', o, z)) | x => x end
  end.
(** gmm.c:147-148. *)
Fixpoint on_all (m : M Z) (l : list gmme) : res (list gmme * list out) :=
  match l with
  | [] => Ok ([], [])
  | g :: r => match m g with
              | Ok (g', o, _) => match on_all m r with Ok (r', o') => Ok (g' :: r', o ++ o') | Err e => Err e | UB => UB end
              | Err e => Err e | UB => UB
              end
  end.

(** gmm_prim.c:501-667, 733-764, 914-928; gmm.c:134-149. *)
Definition step (c : gctx) (e : event) : res (gctx * list out * Z) :=
  match e with
  | EAttach q rnd => find_or_create c q rnd (attach_req q)
  | EDetach t type off => wrap c (- EINVAL) (on_first (by_ptmsi t) (request_detach type off) (gmmes c))
  | ESimAuth ref key rand sres k =>
      wrap c (- EINVAL)
        (on_first (fun g => (ac_ref g =? ref) && (ac_key g =? key) && list_eqb (ac_rand g) rand) (sim_auth_rsp sres k) (gmmes c))
  | EEstablish id q rnd => find_or_create c q rnd (establish_req id q)
  | ESmUnit id pdu => wrap c (- ENOENT) (on_first (by_sess id) (sm_unitdata_req pdu) (gmmes c))
  | EPage t => wrap c (- ENOENT) (on_first (by_tlli t) page_ind (gmmes c))
  | ELlcTransmitted t => wrap c (- ENOENT) (on_first (by_tlli t) llc_transmitted (gmmes c))
  | EUnitdata t pdu => wrap c (- ENOENT) (on_first (by_tlli t) (rx_pdu pdu) (gmmes c))
  | EEnable on =>
      if Bool.eqb (enabled c) on then Ok (c, [], 0)
      else match on_all (dispatch (if on then EvEnable else EvDisable)) (gmmes c) with
           | Ok (l, o) => Ok (mkCtx on l, o, 0) | Err e => Err e | UB => UB
           end
  | EExpiry i w => wrap c 0 (at_nth i (expire w) (gmmes c))
  end.
End Entity.

(** A run; the environment may answer differently at each event. *)
Fixpoint run (c : gctx) (l : list (ext * event)) : res (gctx * list out) :=
  match l with
  | [] => Ok (c, [])
  | (E, e) :: r =>
      match step E c e with
      | Ok (c1, o1, _) => match run c1 r with Ok (c2, o2) => Ok (c2, o1 ++ o2) | Err x => Err x | UB => UB end
      | Err x => Err x | UB => UB
      end
  end.

(** gmm.c:103-129: after initialization there is no entity and GPRS is off. *)
Definition ctx0 : gctx := mkCtx false [].
