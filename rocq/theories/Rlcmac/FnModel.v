(** Model of the frame number arithmetic of include/osmocom/gprs/rlcmac/sched.h, src/rlcmac/sched.c and
    src/rlcmac/rlcmac_dec.c.  The macros of libosmocore (GSM_TDMA_HYPERFRAME, GSM_TDMA_FN_SUM, FN_INC) are
    taken from their documentation: sums modulo 2715648. *)
From Verif.Lib Require Import Base Outcome.

Definition MAX_FN : Z := 2715648.  (* 26 * 51 * 2048 *)
Definition fn_sum (a b : Z) : Z := (a + b) mod MAX_FN.

(** sched.h:17-21. *)
Definition fn_valid (fn : Z) : bool := let f := fn mod 13 in (f =? 0) || (f =? 4) || (f =? 8).
(** sched.h:23-26. *)
Definition fn2bn (fn : Z) : Z := (fn mod 52) / 4.
(** sched.h:28-34. *)
Definition fn_next_block (fn : Z) : Z :=
  let bn := fn2bn fn + 1 in (fn - fn mod 52 + (bn * 4 + bn / 3)) mod MAX_FN.

(** sched.c:45-64. *)
Definition rrbp_list : list Z := [13; 17; 21; 26].
Definition rrbp2fn (cur_fn rrbp : Z) : res Z :=
  do d <- rd rrbp_list rrbp;
  let p := fn_sum cur_fn d in
  if fn_valid p then Ok p else
  let p' := fn_sum p 1 in if fn_valid p' then Ok p' else UB.

(** rlcmac_dec.c:447-464 [k_to_fn]. *)
Definition k_to_fn (k cur_fn : Z) : res Z :=
  let fn := if k mod 3 =? 2 then fn_sum cur_fn (5 + 4 * k + k / 3)
            else let f := fn_sum cur_fn (4 + 4 * k + k / 3) in if fn_valid f then f else fn_sum f 1 in
  if fn_valid fn then Ok fn else UB.

(** rlcmac_dec.c:434-445 [TBF_StartingTime_to_fn]: the reduced frame number handed to gsm_rfn2fn (libosmocore,
    not modelled); uint16_t. *)
Definition starting_time_rfn (t1p t3 t2 : Z) : Z := (51 * ((t3 - t2) mod 26) + t3 + 51 * 26 * t1p) mod 65536.
