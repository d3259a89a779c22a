(** Property theorems about the uplink RLC transmitter: C13-C16. *)
From Verif.Lib Require Import Base Outcome.
From Verif.Rlcmac Require Import UlTxModel UlTxSpec UlTxProofs UlTxProofs2 UlTxProofs3.

(** The parameters the code uses, and the largest ones it admits. *)
Example par_gprs : valid_par gprs_par.
Proof. split; [cbn; auto|cbn; lia]. Qed.
Example par_egprs : valid_par (mkwp 2048 1024).
Proof. split; [cbn; auto 10|cbn; lia]. Qed.

(** A history: three new blocks, a report that loses the second of them, its repetition, one more block. *)
Definition ex_hist : list (tev Z) :=
  [Rts false (Some 10) false; Rts false (Some 11) false; Rts false (Some 12) false;
   Ack false 3 [0; 0; 0; 0; 0; 0; 0; 5]; Rts false (Some 13) false; Rts false (Some 13) false].
Lemma ex_wf : Forall wf_tev ex_hist.
Proof.
  repeat constructor; cbn [wf_tev]; try exact I.
  all: try lia.
Qed.
Example ex_out : exists t, trun gprs_par tx_init ex_hist =
  Ok (t, [Sent New 0 (Some 10); Sent New 1 (Some 11); Sent New 2 (Some 12); Moved 1; Sent Again 1 (Some 11); Sent New 3 (Some 13)]).
Proof. eexists. vm_compute. reflexivity. Qed.

(** *** The transmitter behaves as the plain queue of UlTxSpec: every history of transmit opportunities,
    acknowledgements and restarts runs without an endless loop, the window and the block store look like the
    queue, and whatever comes next has the outcome the queue gives. *)
Theorem C13_transmitter_is_a_queue : forall (B : Type) p (es : list (tev B)) e,
  valid_par p -> Forall wf_tev es -> wf_tev e ->
  exists t o, trun p tx_init es = Ok (t, o) /\
    let s := fst (q_run p q_init es) in
    looks_like p t s /\
    exists t' o', tstep p t e = Ok (t', o') /\ same_out p o' (snd (q_step p s e)) /\ looks_like p t' (fst (q_step p s e)).
Proof. exact (@run_refines). Qed.
Print Assumptions C13_transmitter_is_a_queue.

(** *** C13: the number of blocks outstanding, counted from the outputs alone, is the distance from V(A) to
    V(S), never exceeds the window size, and the window says "stalled" exactly when it is reached; a new
    block is only ever sent below it. *)
Theorem C13_window_never_overfull : forall (B : Type) p (es : list (tev B)) t o,
  valid_par p -> Forall wf_tev es -> trun p tx_init es = Ok (t, o) ->
  let d := outstanding o in
  (v_s (t_w t) - v_a (t_w t)) mod sns p = d /\ 0 <= d <= ws p /\ (stalled p (t_w t) = true <-> d = ws p) /\
  forall fin data pre t' bsn b, tstep p t (Rts fin data pre) = Ok (t', [Sent New bsn b]) -> d < ws p.
Proof. exact (@c13). Qed.
Print Assumptions C13_window_never_overfull.

Example C13_nonvacuous :
  let full := repeat (Rts false (Some 7) false) 65 in
  Forall wf_tev full /\
  (exists t o, trun gprs_par tx_init full = Ok (t, o) /\ outstanding o = 64 /\ stalled gprs_par (t_w t) = true /\
     nth 64 o Cleared = Sent Again 0 (Some 7)) /\
  exists t o, trun gprs_par tx_init ex_hist = Ok (t, o) /\ outstanding o = 3 /\ stalled gprs_par (t_w t) = false.
Proof.
  cbv zeta. split.
  - apply Forall_forall. intros x Hx. apply repeat_spec in Hx. subst x. exact I.
  - split; eexists; eexists; (split; [vm_compute; reflexivity|]); vm_compute; auto.
Qed.

(** *** C14: an acknowledgement moves V(A) past blocks whose latest report is positive and no others, stops
    at the first block whose latest report is not positive, and everything from there on is still stored. *)
Theorem C14_only_acknowledged_leave : forall (B : Type) p (es : list (tev B)) t o ssn bm,
  valid_par p -> Forall wf_tev es -> trun p tx_init es = Ok (t, o) -> length bm = 8%nat -> bytes bm ->
  let s := fst (q_run p q_init es) in
  let q := apply_reports (spoken p (q_base s) false ssn bm) (q_items s) in
  exists t' m, tstep p t (Ack false ssn bm) = Ok (t', [Moved (Z.of_nat m)]) /\
    (m <= length q)%nat /\ v_a (t_w t') = (v_a (t_w t) + Z.of_nat m) mod sns p /\ v_s (t_w t') = v_s (t_w t) /\
    Forall (fun it => last_positive it = true) (firstn m q) /\
    (forall it r, skipn m q = it :: r -> last_positive it = false) /\
    forall i it, nth_error q i = Some it -> (m <= i)%nat ->
      t_store t' ((v_a (t_w t) + Z.of_nat i) mod sns p mod 1024) = Some (i_data it).
Proof. exact (@c14). Qed.
Print Assumptions C14_only_acknowledged_leave.

(** Three blocks outstanding after one was retired; a report that confirms all of them but the last. *)
Example C14_nonvacuous :
  exists t o t', trun gprs_par tx_init ex_hist = Ok (t, o) /\
    tstep gprs_par t (Ack false 4 [0; 0; 0; 0; 0; 0; 0; 14]) = Ok (t', [Moved 2]) /\ v_a (t_w t') = 3 /\ t_store t' 3 = Some 13.
Proof. eexists. eexists. eexists. split; [vm_compute; reflexivity|]. vm_compute. auto. Qed.

(** *** C15: at a transmit opportunity, if any block of the window waits to be sent again, the one closest to
    V(A) is sent, with the contents it was created with; only otherwise a new block is sent, or, when no new
    block may or can be created, the oldest block of the window (which is never an acknowledged one), or
    with an empty window or nothing left the last block. *)
Theorem C15_oldest_first : forall (B : Type) p (es : list (tev B)) t o fin data pre,
  valid_par p -> Forall wf_tev es -> trun p tx_init es = Ok (t, o) ->
  let w := t_w t in
  let d := (v_s w - v_a w) mod sns p in
  let due i := let b := v_b w ((v_a w + i) mod sns p mod 1024) in b = NACKED \/ b = RESEND in
  let s := fst (q_run p q_init es) in
  exists t' k bsn b, tstep p t (Rts fin data pre) = Ok (t', [Sent k bsn b]) /\
    ((exists i, 0 <= i < d /\ due i) ->
       k = Again /\ exists i it, Z.of_nat i < d /\ due (Z.of_nat i) /\ (forall j, 0 <= j < Z.of_nat i -> ~ due j) /\
         bsn = (v_a w + Z.of_nat i) mod sns p /\ nth_error (q_items s) i = Some it /\ b = Some (i_data it)) /\
    ((forall i, 0 <= i < d -> ~ due i) ->
       (k = New /\ fin = false /\ d < ws p /\ data <> None /\ b = data /\ bsn = v_s w) \/
       (k = Again /\ (fin = true \/ d = ws p \/ (data = None /\ pre = true)) /\ bsn = v_a w /\
         exists it, nth_error (q_items s) 0 = Some it /\ b = Some (i_data it)) \/
       (k = Last /\ (d = 0 \/ (data = None /\ fin = false)))).
Proof. exact (@c15). Qed.
Print Assumptions C15_oldest_first.

(** Blocks 1 and 2 are both reported lost: 1 goes first, then 2, then the new one, then 1 again when finished. *)
Example C15_nonvacuous :
  exists t, trun gprs_par tx_init
    [Rts false (Some 10) false; Rts false (Some 11) false; Rts false (Some 12) false; Ack false 3 [0; 0; 0; 0; 0; 0; 0; 4];
     Rts false (Some 13) false; Rts false (Some 13) false; Rts false (Some 13) false; Rts true None false]
  = Ok (t, [Sent New 0 (Some 10); Sent New 1 (Some 11); Sent New 2 (Some 12); Moved 1;
            Sent Again 1 (Some 11); Sent Again 2 (Some 12); Sent New 3 (Some 13); Sent Again 1 (Some 11)]).
Proof. eexists. vm_compute. reflexivity. Qed.

(** *** C16: bit j of the bitmap, counted from its last bit and read as a big number, speaks about block
    SSN-1-j and no other; blocks it does not speak about, and slots outside the window, keep their state. *)
Theorem C16_bitmap_positions : forall (B : Type) p (es : list (tev B)) t o ssn bm,
  valid_par p -> Forall wf_tev es -> trun p tx_init es = Ok (t, o) -> length bm = 8%nat -> bytes bm ->
  let w := t_w t in
  let d := (v_s w - v_a w) mod sns p in
  let reach := (ssn - v_a w) mod sns p in
  exists t' m, tstep p t (Ack false ssn bm) = Ok (t', [Moved m]) /\ 0 <= m <= d /\
    forall n, let i := (n - v_a w) mod sns p in
      let said := if (reach <=? 64) && (i <? reach)
                  then if Z.testbit (bitmap_value bm) ((ssn - 1 - n) mod sns p) then ACKED else NACKED
                  else v_b w (n mod sns p mod 1024) in
      (i < m -> said = ACKED) /\
      (m <= i < d -> v_b (t_w t') (n mod sns p mod 1024) = said) /\
      (i = m -> m < d -> said <> ACKED) /\
      ((forall i', 0 <= i' < d -> n mod sns p mod 1024 <> (v_a w + i') mod sns p mod 1024) ->
         v_b (t_w t') (n mod sns p mod 1024) = v_b w (n mod sns p mod 1024)).
Proof. exact (@c16). Qed.
Print Assumptions C16_bitmap_positions.

(** SSN = 3, bits for blocks 2, 1, 0 are 1, 0, 1 counted from the last bit of the bitmap upwards. *)
Example C16_nonvacuous :
  exists t o t', trun gprs_par tx_init (firstn 3 ex_hist) = Ok (t, o) /\
    tstep gprs_par t (Ack false 3 [0; 0; 0; 0; 0; 0; 0; 2]) = Ok (t', [Moved 0]) /\
    map (v_b (t_w t')) [0; 1; 2; 3] = [NACKED; ACKED; NACKED; INVALID].
Proof. eexists. eexists. eexists. split; [vm_compute; reflexivity|]. vm_compute. auto. Qed.
