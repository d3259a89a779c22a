(** Model of src/rlcmac/llc_queue.c and of the places that use the queue: the entity (gre.c), the uplink TBF (tbf_ul.c) and
    the GRR-UNITDATA.req primitive (rlcmac_prim.c). *)
From Verif.Lib Require Import Base Outcome.
From Verif.Rlcmac Require Import CodelModel.

(** llc_queue.c:30-32 [llc_queue_entry_hdr] and the frame behind it (msgb, l1h and l2h). *)
Record entry := mkEntry { e_recv : Z; e_data : list Z }.
(** llc_queue.h:28-33 [gprs_llc_prio_queue]; radio_prio and sapi are derived from the place in the array. *)
Record pclass := mkClass { pc_codel : codel; pc_queue : list entry }.
(** llc_queue.h:35-42 [gprs_rlcmac_llc_queue]; pq[4][3] is one list in the order of the loops "for i, for j", so that
    pq[i][j] is element 3 i + j; avg_queue_delay (statistics only) left out; the counters are size_t. *)
Record llcq := mkQ { q_size : Z; q_octets : Z; q_use : bool; q_pq : list pclass }.

(** llc_queue.c:34-57 [gprs_rlcmac_llc_queue_alloc]. *)
Definition queue_alloc : llcq := mkQ 0 0 false (repeat (mkClass codel_init []) 12).
(** llc_queue.c:65-77 [gprs_rlcmac_llc_queue_set_codel_params]. *)
Definition set_codel_params (q : llcq) (use : bool) (ms : Z) : llcq :=
  mkQ (q_size q) (q_octets q) use
      (if use then map (fun p => mkClass (set_interval (pc_codel p) ms) (pc_queue p)) (q_pq q) else q_pq q).
(** llc_queue.c:79-91 [gprs_rlcmac_llc_sapi2prio] (GMM = 1, TOM2 = 2, SMS = 7, TOM8 = 8). *)
Definition sapi2prio (sapi : Z) : Z :=
  if sapi =? 1 then 0 else if (sapi =? 2) || (sapi =? 7) || (sapi =? 8) then 1 else 2.

(** Update of one element of an array. *)
Fixpoint upd {A} (l : list A) (n : nat) (f : A -> A) : list A :=
  match l, n with
  | [], _ => []
  | x :: r, O => f x :: r
  | x :: r, S k => x :: upd r k f
  end.

(** llc_queue.c:93-120 [gprs_rlcmac_llc_queue_enqueue]; [radio_prio] counts from 0. *)
Definition enqueue (q : llcq) (now : Z) (data : list Z) (sapi radio_prio : Z) : llcq :=
  mkQ ((q_size q + 1) mod 2 ^ 64) ((q_octets q + zlen data) mod 2 ^ 64) (q_use q)
      (upd (q_pq q) (Z.to_nat (3 * radio_prio + sapi2prio sapi))
           (fun p => mkClass (pc_codel p) (pc_queue p ++ [mkEntry now data]))).
(** llc_queue.c:140-151 [gprs_rlcmac_llc_queue_find_msg]: the place of the first class that is not empty. *)
Fixpoint find_msg (l : list pclass) : option nat :=
  match l with
  | [] => None
  | p :: r => match pc_queue p with [] => option_map S (find_msg r) | _ => Some O end
  end.
(** Conversion of size_t to int (llc_queue.c:193). *)
Definition to_int (z : Z) : Z := (z + 2 ^ 31) mod 2 ^ 32 - 2 ^ 31.
(** llc_queue.c:153-178 [gprs_rlcmac_llc_queue_pick_msg] and 180-217 [gprs_rlcmac_llc_queue_dequeue].  A frame of length
    zero has no l2h, so that msgb_l2len (168) computes with a null pointer; a frame that CoDel decides to drop is freed (198)
    and then used (215) and returned: both are undefined behaviour. *)
Definition dequeue (q : llcq) (now : Z) (can_discard : bool) : res (option (list Z) * llcq) :=
  match find_msg (q_pq q) with
  | None => Ok (None, q)
  | Some n =>
    let p := nth n (q_pq q) (mkClass codel_init []) in
    match pc_queue p with
    | [] => UB
    | e :: rest =>
      if zlen (e_data e) =? 0 then UB else
      let size := (q_size q - 1) mod 2 ^ 64 in
      let octets := (q_octets q - zlen (e_data e)) mod 2 ^ 64 in
      if can_discard && q_use q then
        let '(drop, st) := codel_control (pc_codel p) (e_recv e) now (to_int octets) in
        if drop then UB else
        Ok (Some (e_data e), mkQ size octets (q_use q) (upd (q_pq q) n (fun _ => mkClass st rest)))
      else Ok (Some (e_data e), mkQ size octets (q_use q) (upd (q_pq q) n (fun _ => mkClass (pc_codel p) rest)))
    end
  end.
(** llc_queue.c:235-260 [gprs_rlcmac_llc_queue_merge_prepend]: every entry of the old class is moved, from the first to the
    last, to the head of the class ([llist_move]).  The emptied old queue is freed by the only caller. *)
Definition merge_class (p old : pclass) : pclass := mkClass (pc_codel p) (fold_left (fun l e => e :: l) (pc_queue old) (pc_queue p)).
Fixpoint merge_pq (l old : list pclass) : list pclass :=
  match l, old with
  | p :: r, o :: s => merge_class p o :: merge_pq r s
  | _, _ => l
  end.
Definition merge_prepend (q old : llcq) : llcq :=
  if q_size old =? 0 then q else
  mkQ ((q_size q + q_size old) mod 2 ^ 64) ((q_octets q + q_octets old) mod 2 ^ 64) (q_use q) (merge_pq (q_pq q) (q_pq old)).

(** The entity's queue (gre->llc_queue) and the queue frozen by the countdown procedure of its uplink TBF
    (countdown_proc.llc_queue, present exactly while countdown_proc.active). *)
Record ent := mkEnt { en_q : llcq; en_frozen : option llcq }.
(** gre.c:57-62 in [gprs_rlcmac_entity_alloc]; [use] and [ms] are the configuration (rlcmac.c:82-83, 127-136). *)
Definition entity_alloc (use : bool) (ms : Z) : ent := mkEnt (set_codel_params queue_alloc use ms) None.
(** rlcmac_prim.c:403-414 in [rlcmac_prim_handle_grr_unitdata_req]: radio priority 1..4 of the primitive, trimmed. *)
Definition trim_prio (r : Z) : Z := if r <? 1 then 0 else if 4 <? r then 3 else r - 1.

Inductive qop :=
| Send (now radio_prio sapi : Z) (data : list Z)
| Take (now : Z)
| Freeze
| Return.
(** Send: rlcmac_prim.c:390-424 and gre.c:242-254.  Take: tbf_ul.c:437-457 [gprs_rlcmac_ul_tbf_schedule_next_llc_frame]
    with the choice of the queue of 404-412.  Freeze: tbf_ul.c:626-630 [steal_llc_queue_from_gre], called at 657 only when
    not active.  Return: tbf_ul.c:87-92 in [gprs_rlcmac_ul_tbf_free]. *)
Definition qstep (s : ent) (o : qop) : res (option (list Z) * ent) :=
  match o with
  | Send now r sapi data => Ok (None, mkEnt (enqueue (en_q s) now data sapi (trim_prio r)) (en_frozen s))
  | Take now =>
    match en_frozen s with
    | None => do x <- dequeue (en_q s) now true; Ok (fst x, mkEnt (snd x) None)
    | Some f => do x <- dequeue f now false; Ok (fst x, mkEnt (en_q s) (Some (snd x)))
    end
  | Freeze =>
    match en_frozen s with
    | None => Ok (None, mkEnt queue_alloc (Some (en_q s)))
    | Some _ => Ok (None, s)
    end
  | Return =>
    match en_frozen s with
    | None => Ok (None, s)
    | Some f => Ok (None, mkEnt (merge_prepend (en_q s) f) None)
    end
  end.
Fixpoint qrun (s : ent) (l : list qop) : res (list (option (list Z)) * ent) :=
  match l with
  | [] => Ok ([], s)
  | o :: r => do x <- qstep s o; do y <- qrun (snd x) r; Ok (fst x :: fst y, snd y)
  end.
