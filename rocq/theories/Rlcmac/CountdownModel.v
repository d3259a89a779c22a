(** Model of the countdown procedure of uplink TBFs: src/rlcmac/tbf_ul.c:470-785. *)
From Verif.Lib Require Import Base Outcome.
From Verif.Rlcmac Require Import RlcDataModel.

(** tbf_ul.c:470-481 [struct blk_count_state], the fields that change. *)
Record bcs := mkbcs { bc_cnt : Z; bc_off : Z; bc_extra : bool }.

(** tbf_ul.c:515-553 [blk_count_append_llc]; [D] is blk_data_len.  The recursion takes at least one octet off
    the chunk or ends with a chunk of one octet: fuel chunk + 2. *)
Fixpoint count_append (fuel : nat) (D : Z) (st : bcs) (chunk : Z) : res bcs :=
  match fuel with
  | O => UB
  | S fuel' =>
      if negb (bc_off st <? D) then UB else
      let space := D - bc_off st in
      if chunk =? 0 then Ok st else
      if space <? chunk then count_append fuel' D (mkbcs (bc_cnt st + 1) 0 false) (chunk - space)
      else if chunk =? space then
        do s <- count_append fuel' D (mkbcs (bc_cnt st + 1) 0 false) (chunk - (space - 1));
        Ok (mkbcs (bc_cnt s) (bc_off s) true)
      else
        let off := bc_off st + 1 + chunk in
        if D - off =? 0 then Ok (mkbcs (bc_cnt st + 1) 0 false) else Ok (mkbcs (bc_cnt st) off false)
  end.

(** tbf_ul.c:508-513 [blk_count_to_x]; K = 1 for all GPRS coding schemes, so [nts] is nts_x_k. *)
Definition to_x (nts cnt : Z) : Z := if cnt =? 0 then 0 else (cnt + (nts - 1) - 1) / nts.

(** tbf_ul.c:559-570, 586-606: all frames in turn, llc_tx_msg first, then the queue in the order of its classes;
    stop early when there are clearly too many blocks. *)
Fixpoint count_all (D nts cvmax : Z) (st : bcs) (sizes : list Z) : res bcs :=
  match sizes with
  | [] => Ok st
  | n :: r => do s <- count_append (Z.to_nat n + 2) D st n;
              if negb (bc_extra s) && (cvmax <? to_x nts (bc_cnt s)) then Ok s else count_all D nts cvmax s r
  end.

(** tbf_ul.c:574-624 [gprs_rlcmac_ul_tbf_calculate_cv]. *)
Definition calculate_cv (D nts cvmax : Z) (sizes : list Z) : res Z :=
  do st <- count_all D nts cvmax (mkbcs 0 0 false) sizes;
  if bc_extra st && negb (bc_off st =? 2) then UB else
  let off := if bc_extra st then bc_off st - 2 else bc_off st in
  let cnt := if 0 <? off then bc_cnt st + 1 else bc_cnt st in
  let x := to_x nts cnt in
  Ok (if x <=? cvmax then x else 15).

(** State of the TBF: countdown_proc.active and .cv (uint8_t), block size of tx_cs, contention resolution, number
    of timeslots, BS_CV_MAX of the cell, and the frames to send: llc_tx_msg (head; what is left of it) followed by
    the queue (tbf_ul.c:404-412: the entity's, or the frozen one while active) in the order it is emptied.
    Simplification: CoDel does not drop (a drop is undefined behaviour, see LlcQueueModel). *)
Record cd := mkcd { cd_active : bool; cd_cv : Z; cd_dlen : Z; cd_ti : bool; cd_nts : Z; cd_max : Z; cd_tlli : Z; cd_pend : list (list Z) }.
Definition usable (s : cd) : Z := if cd_ti s then cd_dlen s - 4 else cd_dlen s.
Definition calc (s : cd) : res Z := calculate_cv (usable s) (cd_nts s) (cd_max s) (map zlen (cd_pend s)).
Definition set_cv (s : cd) (active : bool) (cv : Z) : cd :=
  mkcd active cv (cd_dlen s) (cd_ti s) (cd_nts s) (cd_max s) (cd_tlli s) (cd_pend s).

(** tbf_ul.c:633-659 [countdown_proc_check_enter]; tbf_ul.c:424-434 [shall_keep_open] returns false. *)
Definition check_enter (s : cd) : res cd :=
  if cd_active s then
    if cd_cv s =? 15 then do cv <- calc s; Ok (set_cv s true cv) else Ok s
  else do cv <- calc s; Ok (set_cv s (cv <? 15) cv).
(** tbf_ul.c:665-671 [countdown_proc_update_cv]. *)
Definition update_cv (s : cd) : res cd :=
  if cd_active s then do cv <- calc s; Ok (set_cv s true cv) else Ok s.

(** A new data block: tbf_ul.c:673-785 [create_new_bsn] with the filling of RlcDataModel.  rdbi->cv is
    countdown_proc.cv, which is then decremented as an uint8_t unless it is 15 or more; the encoder takes the block
    for the final one when rdbi->cv is 0 (rlcmac_enc.c:76).  Result: rdbi->cv, E bit, octets. *)
Definition new_block (s : cd) : res (cd * (Z * Z * list Z)) :=
  do s1 <- check_enter s;
  let cv := cd_cv s1 in
  do r <- create_block (cd_dlen s1) (cd_ti s1) (cd_tlli s1) (cv =? 0) (cd_pend s1);
  let '(e, oct, more) := r in
  Ok (mkcd (cd_active s1) (if cv <? 15 then (cv - 1) mod 256 else cv) (cd_dlen s1) (cd_ti s1) (cd_nts s1) (cd_max s1) (cd_tlli s1) more, (cv, e, oct)).

(** Events: a block is asked for (tbf_ul.c:891-897: only while there is data); the queue of the entity changes
    (only seen while the queue is not frozen; the frame in progress stays); the network commands another coding
    scheme (tbf_ul.c:289-305) or resolves the contention (tbf_ul_fsm.c:124-136). *)
Inductive ev := Block | Queue (frames : list (list Z)) | NewCs (dlen : Z) | Resolved.
Definition with_pend (s : cd) (p : list (list Z)) : cd :=
  mkcd (cd_active s) (cd_cv s) (cd_dlen s) (cd_ti s) (cd_nts s) (cd_max s) (cd_tlli s) p.
Definition step (s : cd) (e : ev) : res (cd * list (Z * Z * list Z)) :=
  match e with
  | Block => match cd_pend s with [] => Ok (s, []) | _ => do r <- new_block s; let '(s', o) := r in Ok (s', [o]) end
  | Queue frames =>
      if cd_active s then Ok (s, []) else
      Ok (with_pend s (match cd_pend s with [] => frames | f :: _ => f :: frames end), [])
  | NewCs dlen =>
      if cd_dlen s =? dlen then Ok (s, []) else
      do s' <- update_cv (mkcd (cd_active s) (cd_cv s) dlen (cd_ti s) (cd_nts s) (cd_max s) (cd_tlli s) (cd_pend s)); Ok (s', [])
  | Resolved =>
      do s' <- update_cv (mkcd (cd_active s) (cd_cv s) (cd_dlen s) false (cd_nts s) (cd_max s) (cd_tlli s) (cd_pend s)); Ok (s', [])
  end.
Fixpoint run (s : cd) (es : list ev) : res (cd * list (Z * Z * list Z)) :=
  match es with
  | [] => Ok (s, [])
  | e :: r => do x <- step s e; let '(s1, o1) := x in do y <- run s1 r; let '(s2, o2) := y in Ok (s2, o1 ++ o2)
  end.
Definition start (dlen : Z) (ti : bool) (nts cvmax tlli : Z) : cd := mkcd false 0 dlen ti nts cvmax tlli [].
