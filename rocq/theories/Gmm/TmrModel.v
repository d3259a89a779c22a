(** Model of the GPRS timer coding of src/gmm/misc.c (TS 24.008 10.5.7.3).  The unit masks are those of
    libosmocore's gsm_04_08_gprs.h: the unit is the three upper bits, the factor the five lower ones. *)
From Verif.Lib Require Import Base.

Definition GPRS_TMR_2SECONDS : Z := 0 * 32.
Definition GPRS_TMR_MINUTE : Z := 1 * 32.
Definition GPRS_TMR_6MINUTE : Z := 2 * 32.
Definition GPRS_TMR_DEACTIVATED : Z := 7 * 32.
Definition GPRS_TMR_UNIT_MASK : Z := 0xe0.
Definition GPRS_TMR_FACT_MASK : Z := 0x1f.

(** misc.c:41-54 [gprs_gmm_gprs_tmr_to_secs]. *)
Definition tmr_to_secs (tmr : Z) : Z :=
  let u := Z.land tmr GPRS_TMR_UNIT_MASK in
  let f := Z.land tmr GPRS_TMR_FACT_MASK in
  if u =? GPRS_TMR_2SECONDS then 2 * f
  else if u =? GPRS_TMR_6MINUTE then 360 * f
  else if u =? GPRS_TMR_DEACTIVATED then -1
  else 60 * f.

(** misc.c:64-82 [gprs_gmm_secs_to_gprs_tmr_floor]. *)
Definition secs_to_tmr_floor (secs : Z) : Z :=
  if secs <? 0 then GPRS_TMR_DEACTIVATED
  else if secs <? 2 * 32 then Z.lor GPRS_TMR_2SECONDS (secs / 2)
  else if secs <? 60 * 2 then Z.lor GPRS_TMR_2SECONDS GPRS_TMR_FACT_MASK
  else if secs <? 60 * 32 then Z.lor GPRS_TMR_MINUTE (secs / 60)
  else if secs <? 360 * 6 then Z.lor GPRS_TMR_MINUTE GPRS_TMR_FACT_MASK
  else if secs <? 360 * 32 then Z.lor GPRS_TMR_6MINUTE (secs / 360)
  else Z.lor GPRS_TMR_6MINUTE GPRS_TMR_FACT_MASK.
