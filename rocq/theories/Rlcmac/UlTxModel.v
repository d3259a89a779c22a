(** Model of the uplink RLC transmit window and of the choice of the next block to send.
    Sources: src/rlcmac/rlc_window.c, rlc_window_ul.c, rlcmac_dec.c (ack bitmap), tbf_ul.c.

    Conventions for the whole file:
    - sequence numbers are uint16_t in C and every one stored is masked with SNS-1; since SNS is a power of
      two not above 2^16 the truncation to 16 bits before a mask has no effect and is left out;
    - the arrays v_b[1024] and blocks[1024] are functions of the index, always accessed through [slot], so
      an access outside them cannot happen;
    - the [for (bsn = V(A); bsn != V(S); bsn = (bsn + 1) & (SNS-1))] loops run on a fuel of SNS iterations;
      running out of it (a loop that never ends) is [UB];
    - the counters lost/received and the debug strings only go to the log and are left out. *)
From Verif.Lib Require Import Base Outcome.

(** rlc_window.h [struct gprs_rlcmac_rlc_window]; rlc_window.c:25-29 sets 128 and 64, 56-70 allow other values. *)
Record wpar := mkwp { sns : Z; ws : Z }.
Definition gprs_par : wpar := mkwp 128 64.

(** rlc_window_ul.h:12-19 [enum gprs_rlcmac_rlc_ul_bsn_state]. *)
Inductive bst := INVALID | UNACKED | NACKED | ACKED | RESEND.

(** rlc_window_ul.h [struct gprs_rlcmac_rlc_ul_window]. *)
Record ulw := mkulw { v_s : Z; v_a : Z; v_b : Z -> bst }.

(** rlc_window.c:36-44. *)
Definition modsns (p : wpar) (x : Z) : Z := Z.land x (sns p - 1).
(** [bsn & mod_sns_half()], rlc.h:81-84. *)
Definition slot (bsn : Z) : Z := Z.land bsn 1023.

(** rlc_window_ul.c:28-38. *)
Definition fupd {A} (f : Z -> A) (i : Z) (x : A) : Z -> A := fun j => if j =? i then x else f j.
Definition get_b (w : ulw) (bsn : Z) : bst := v_b w (slot bsn).
Definition mark_b (w : ulw) (bsn : Z) (x : bst) : ulw := mkulw (v_s w) (v_a w) (fupd (v_b w) (slot bsn) x).
Definition is_acked (b : bst) : bool := match b with ACKED => true | _ => false end.
Definition is_unacked (b : bst) : bool := match b with UNACKED => true | _ => false end.
Definition is_due (b : bst) : bool := match b with NACKED | RESEND => true | _ => false end.

(** rlc_window_ul.c:133-138 [gprs_rlcmac_rlc_ul_window_reset]. *)
Definition ulw_reset : ulw := mkulw 0 0 (fun _ => INVALID).
(** rlc_window_ul.c:140-146. *)
Definition stalled (p : wpar) (w : ulw) : bool := modsns p (v_s w - v_a w) =? ws p.
(** rlc_window_ul.c:148-151. *)
Definition w_empty (w : ulw) : bool := v_s w =? v_a w.
(** rlc_window_ul.c:153-158. *)
Definition increment_send (p : wpar) (w : ulw) : ulw := mkulw (modsns p (v_s w + 1)) (v_a w) (v_b w).
(** rlc_window_ul.c:160-165. *)
Definition w_raise (p : wpar) (w : ulw) (moves : Z) : ulw := mkulw (v_s w) (modsns p (v_a w + moves)) (v_b w).
(** rlc_window_ul.c:184-189. *)
Definition distance (p : wpar) (w : ulw) : Z := modsns p (v_s w - v_a w).

Definition fuel_of (p : wpar) : nat := Z.to_nat (sns p).

(** rlc_window_ul.c:192-206 [resend_needed]. *)
Fixpoint resend_loop (p : wpar) (w : ulw) (fuel : nat) (bsn : Z) : res Z :=
  if bsn =? v_s w then Ok (-1) else
  match fuel with
  | O => UB
  | S f => if is_due (get_b w bsn) then Ok bsn else resend_loop p w f (modsns p (bsn + 1))
  end.
Definition resend_needed (p : wpar) (w : ulw) : res Z := resend_loop p w (fuel_of p) (v_a w).

(** rlc_window_ul.c:208-225 [mark_for_resend]; also returns the number of blocks marked. *)
Fixpoint mark_loop (p : wpar) (w : ulw) (fuel : nat) (bsn n : Z) : res (ulw * Z) :=
  if bsn =? v_s w then Ok (w, n) else
  match fuel with
  | O => UB
  | S f => if is_unacked (get_b w bsn)
           then mark_loop p (mark_b w bsn RESEND) f (modsns p (bsn + 1)) (n + 1)
           else mark_loop p w f (modsns p (bsn + 1)) n
  end.
Definition mark_for_resend (p : wpar) (w : ulw) : res (ulw * Z) := mark_loop p w (fuel_of p) (v_a w) 0.

(** rlc_window_ul.c:258-289 [update]: the loop over the bits that are within the window; it ends early at
    V(A)-1. *)
Fixpoint update_loop (p : wpar) (w : ulw) (bsn : Z) (bits : list bool) : ulw :=
  match bits with
  | [] => w
  | b :: r => if modsns p bsn =? modsns p (v_a w - 1) then w
              else update_loop p (mark_b w (modsns p bsn) (if b then ACKED else NACKED)) (bsn + 1) r
  end.
Definition w_update (p : wpar) (w : ulw) (first : Z) (bits : list bool) : ulw :=
  update_loop p w first (firstn (Z.to_nat (Z.min (distance p w) (zlen bits))) bits).

(** rlc_window_ul.c:291-307 [move_window]. *)
Fixpoint move_loop (p : wpar) (w : ulw) (fuel : nat) (bsn n : Z) : res (ulw * Z) :=
  if bsn =? v_s w then Ok (w, n) else
  match fuel with
  | O => UB
  | S f => if is_acked (get_b w bsn)
           then move_loop p (mark_b w bsn INVALID) f (modsns p (bsn + 1)) (n + 1)
           else Ok (w, n)
  end.
Definition move_window (p : wpar) (w : ulw) : res (ulw * Z) := move_loop p w (fuel_of p) (v_a w) 0.

(** bitvec_get_bit_pos on the octets of RECEIVED_BLOCK_BITMAP (libosmocore: bit 0 is the most significant
    bit of the first octet; outside the vector the result is an error, which is not 1). *)
Definition bit_at (bm : list Z) (pos : Z) : bool :=
  Z.testbit (nth (Z.to_nat (pos / 8)) bm 0) (7 - pos mod 8).

(** rlcmac_dec.c:369-430 [gprs_rlcmac_decode_gprs_acknack_bits] with [handle_final_ack]: the bits from V(A)
    upwards.  The caller's bit vector has 64 bits; bitvec_set_bit beyond it stores nothing.  An SSN more
    than 64 ahead of V(A) gives no bits (-EINVAL, which the caller ignores). *)
Definition ack_bits (p : wpar) (w : ulw) (final : bool) (ssn : Z) (bm : list Z) : list bool :=
  if final then firstn 64 (repeat true (Z.to_nat (modsns p (v_s w - v_a w))))
  else
    let nb := modsns p (ssn - v_a w) in
    if (nb <? 0) || (64 <? nb) then []
    else map (fun k => bit_at bm (64 - nb + Z.of_nat k)) (seq 0 (Z.to_nat nb)).

Section Tx.
(** The contents of a stored block (struct gprs_rlcmac_rlc_block), treated as an opaque value here. *)
Context {B : Type}.

(** The parts of struct gprs_rlcmac_ul_tbf used here: window and block store (rlc.h:256-260), where [None] is
    a block never written. *)
Record tx := mktx { t_w : ulw; t_store : Z -> option B }.
Definition tx_init : tx := mktx ulw_reset (fun _ => None).
Definition set_w (t : tx) (w : ulw) : tx := mktx w (t_store t).

(** What a transmit opportunity sends: a repetition of a due block, a new block, or "the final block again". *)
Inductive kind := Again | New | Last.

(** tbf_ul.c:787-812 [restart_bsn_cycle]: [None] when it returns false. *)
Definition restart (p : wpar) (t : tx) : res (option tx) :=
  if w_empty (t_w t) then Ok None
  else do r <- mark_for_resend p (t_w t); let '(w, n) := r in
       Ok (if n =? 0 then None else Some (set_w t w)).

(** tbf_ul.c:673-785 [create_new_bsn], the part that concerns the window and the block store; the contents
    of the new block are the argument. *)
Definition create_new (p : wpar) (t : tx) (b : B) : tx * Z :=
  let bsn := v_s (t_w t) in
  (mktx (increment_send p (mark_b (t_w t) bsn UNACKED)) (fupd (t_store t) (slot bsn) (Some b)), bsn).

(** tbf_ul.c:814-918 [take_next_bsn] with previous_bsn = -1 (GPRS blocks are never combined, so it is never
    called a second time for the same radio block; the coding scheme of a GPRS block does not change).
    [fin]: the TBF is in state FINISHED; [data]: the block create_new_bsn would build if the TBF has data;
    [pre]: cfg.ul_tbf_preemptive_retransmission.  The recursion is at most two deep (fuel). *)
Fixpoint take_next (fuel : nat) (p : wpar) (t : tx) (fin : bool) (data : option B) (pre : bool) : res (tx * Z * kind) :=
  match fuel with
  | O => UB
  | S f =>
    do bsn <- resend_needed p (t_w t);
    if 0 <=? bsn then Ok (set_w t (mark_b (t_w t) bsn UNACKED), bsn, Again)
    else
      let last := Ok (t, modsns p (v_s (t_w t) - 1), Last) in
      let again := do r <- restart p t;
                   match r with Some t' => take_next f p t' fin data pre | None => last end in
      if fin then again
      else if stalled p (t_w t) then again
      else match data with
           | Some b => let '(t', bsn) := create_new p t b in Ok (t', bsn, New)
           | None => if pre && negb (w_empty (t_w t)) then again else last
           end
  end.

(** Events of an uplink TBF as far as the window is concerned. *)
Inductive tev :=
| Rts (fin : bool) (data : option B) (pre : bool)    (* gprs_rlcmac_ul_tbf_data_create -> take_next_bsn *)
| Ack (final : bool) (ssn : Z) (bm : list Z)         (* gprs_rlcmac_ul_tbf_handle_pkt_ul_ack_nack *)
| Restart.                                           (* access failed: tbf_ul_fsm.c:140-153 st_new_on_enter *)

(** Observable results: a block sent (sequence number and stored contents), V(A) moved, window cleared. *)
Inductive tout :=
| Sent (k : kind) (bsn : Z) (b : option B)
| Moved (n : Z)
| Cleared.

(** tbf_ul.c:255-287 [update_window] and 307-351 [handle_pkt_ul_ack_nack] (the events it dispatches to the
    state machine and the coding scheme update are not part of this model). *)
Definition handle_ack (p : wpar) (t : tx) (final : bool) (ssn : Z) (bm : list Z) : res (tx * list tout) :=
  let w1 := w_update p (t_w t) (v_a (t_w t)) (ack_bits p (t_w t) final ssn bm) in
  do r <- move_window p w1;
  let '(w2, n) := r in
  let w3 := w_raise p w2 n in
  if final then Ok (set_w t ulw_reset, [Moved n; Cleared]) else Ok (set_w t w3, [Moved n]).

Definition tstep (p : wpar) (t : tx) (e : tev) : res (tx * list tout) :=
  match e with
  | Rts fin data pre =>
      do r <- take_next 2 p t fin data pre;
      let '(t', bsn, k) := r in Ok (t', [Sent k bsn (t_store t' (slot bsn))])
  | Ack final ssn bm => handle_ack p t final ssn bm
  | Restart => do r <- mark_for_resend p (t_w t); Ok (set_w t (fst r), [])
  end.

Fixpoint trun (p : wpar) (t : tx) (es : list tev) : res (tx * list tout) :=
  match es with
  | [] => Ok (t, [])
  | e :: r => do x <- tstep p t e; let '(t1, o) := x in
              do y <- trun p t1 r; let '(t2, o2) := y in Ok (t2, o ++ o2)
  end.
End Tx.
Arguments tx : clear implicits.
Arguments tev : clear implicits.
Arguments tout : clear implicits.
