(** Specification of the uplink transmitter: a plain queue of blocks, with absolute numbers and no modulo.
    Uses nothing of the model but the event and output types. *)
From Verif.Lib Require Import Base Outcome.
From Verif.Rlcmac Require Import UlTxModel.

(** The sequence number spaces and window sizes the code admits (rlc_window.c:56-70), with the window at most
    half the space as TS 44.060 9.1.9 requires. *)
Definition valid_par (p : wpar) : Prop :=
  In (sns p) [128; 256; 512; 1024; 2048] /\ 64 <= ws p /\ 2 * ws p <= sns p.

Section Spec.
Context {B : Type}.

(** A block in the queue: contents, the reports the network has given on it (latest first), and whether it
    waits to be sent again. *)
Record item := mkitem { i_data : B; i_reports : list bool; i_due : bool }.
Definition last_positive (it : item) : bool := match i_reports it with true :: _ => true | _ => false end.

(** The queue: number of its first block, its blocks, and the block created last (if known). *)
Record queue := mkq { q_base : Z; q_items : list item; q_recent : option B }.
Definition q_init : queue := mkq 0 [] None.

Inductive sout :=
| SSent (k : kind) (n : Z) (b : option B)    (* block number n sent; contents if they are determined *)
| SRetired (n : Z) (it : item)               (* block n left the queue *)
| SCleared.

(** Index of the first block that waits to be sent again. *)
Fixpoint first_due (q : list item) : option nat :=
  match q with
  | [] => None
  | it :: r => if i_due it then Some 0%nat else option_map S (first_due r)
  end.
Fixpoint set_at {A} (q : list A) (i : nat) (f : A -> A) : list A :=
  match q, i with
  | [], _ => []
  | x :: r, O => f x :: r
  | x :: r, S i => x :: set_at r i f
  end.
Definition set_due (v : bool) (it : item) : item := mkitem (i_data it) (i_reports it) v.
(** Everything that is not acknowledged waits to be sent again. *)
Definition all_due (q : list item) : list item := map (fun it => set_due (negb (last_positive it)) it) q.

Definition send_again (s : queue) (q : list item) : option (queue * list sout) :=
  match first_due q with
  | Some i => match nth_error q i with
              | Some it => Some (mkq (q_base s) (set_at q i (set_due false)) (q_recent s),
                                 [SSent Again (q_base s + Z.of_nat i) (Some (i_data it))])
              | None => None
              end
  | None => None
  end.

Definition q_rts (p : wpar) (s : queue) (fin : bool) (data : option B) (pre : bool) : queue * list sout :=
  let n := q_base s + zlen (q_items s) in
  let full := zlen (q_items s) =? ws p in
  let last := (s, [SSent Last (n - 1) (q_recent s)]) in
  let over_again := match send_again s (all_due (q_items s)) with Some r => r | None => last end in
  match send_again s (q_items s) with
  | Some r => r
  | None =>
      if fin || full then over_again
      else match data with
           | Some b => (mkq (q_base s) (q_items s ++ [mkitem b [] false]) (Some b), [SSent New n (Some b)])
           | None => if pre then over_again else last
           end
  end.

(** A report: the value of the 64-bit bitmap read as one big number; its bit j speaks about block SSN-1-j. *)
Definition bitmap_value (bm : list Z) : Z := fold_left (fun a b => a * 256 + b) bm 0.
Definition report (ok : bool) (it : item) : item := mkitem (i_data it) (ok :: i_reports it) (negb ok).
Fixpoint apply_reports (f : nat -> option bool) (q : list item) : list item :=
  match q with
  | [] => []
  | it :: r => (match f 0%nat with Some ok => report ok it | None => it end) :: apply_reports (fun i => f (S i)) r
  end.
Fixpoint retire (n : Z) (q : list item) : list item * list sout :=
  match q with
  | it :: r => if last_positive it then let '(q', o) := retire (n + 1) r in (q', SRetired n it :: o) else (q, [])
  | [] => ([], [])
  end.
(** What an ack/nack message says about the i-th block of a queue whose first block is number [base]. *)
Definition spoken (p : wpar) (base : Z) (final : bool) (ssn : Z) (bm : list Z) (i : nat) : option bool :=
  let reach := (ssn - base) mod sns p in
  if final then if Z.of_nat i <? 64 then Some true else None
  else if (reach <=? 64) && (Z.of_nat i <? reach)
  then Some (Z.testbit (bitmap_value bm) (reach - 1 - Z.of_nat i)) else None.
Definition q_ack (p : wpar) (s : queue) (final : bool) (ssn : Z) (bm : list Z) : queue * list sout :=
  let q := apply_reports (spoken p (q_base s) final ssn bm) (q_items s) in
  let '(q', o) := retire (q_base s) q in
  if final then (mkq 0 [] None, o ++ [SCleared])
  else (mkq (q_base s + zlen q - zlen q') q' (q_recent s), o).

Definition q_step (p : wpar) (s : queue) (e : tev B) : queue * list sout :=
  match e with
  | Rts fin data pre => q_rts p s fin data pre
  | Ack final ssn bm => q_ack p s final ssn bm
  | Restart => (mkq (q_base s) (all_due (q_items s)) (q_recent s), [])
  end.
Fixpoint q_run (p : wpar) (s : queue) (es : list (tev B)) : queue * list sout :=
  match es with
  | [] => (s, [])
  | e :: r => let '(s1, o) := q_step p s e in let '(s2, o2) := q_run p s1 r in (s2, o ++ o2)
  end.

(** Ack bitmaps are eight octets. *)
Definition wf_tev (e : tev B) : Prop :=
  match e with Ack _ _ bm => length bm = 8%nat /\ bytes bm | _ => True end.

(** Agreement of concrete and abstract outputs of one step. *)
Definition retired (o : list sout) : list (Z * item) :=
  flat_map (fun x => match x with SRetired n it => [(n, it)] | _ => [] end) o.
Definition same_out (p : wpar) (o : list (tout B)) (so : list sout) : Prop :=
  match o with
  | [] => so = []
  | [Sent k bsn b] => exists n sb, so = [SSent k n sb] /\ bsn = n mod sns p /\ (sb = None \/ b = sb)
  | [Moved m] => so = map (fun x => SRetired (fst x) (snd x)) (retired so) /\ m = zlen (retired so)
  | [Moved m; Cleared] => so = map (fun x => SRetired (fst x) (snd x)) (retired so) ++ [SCleared] /\ m = zlen (retired so)
  | _ => False
  end.

(** What the window looks like when the queue is [s]. *)
Definition state_of (it : item) (b : bst) : Prop :=
  match b with
  | UNACKED => i_due it = false /\ last_positive it = false
  | ACKED => i_due it = false /\ last_positive it = true
  | NACKED | RESEND => i_due it = true /\ last_positive it = false
  | INVALID => False
  end.
Definition looks_like (p : wpar) (t : tx B) (s : queue) : Prop :=
  0 <= q_base s /\ zlen (q_items s) <= ws p /\
  v_a (t_w t) = q_base s mod sns p /\ v_s (t_w t) = (q_base s + zlen (q_items s)) mod sns p /\
  forall i it, nth_error (q_items s) i = Some it ->
    let k := (q_base s + Z.of_nat i) mod sns p mod 1024 in
    state_of it (v_b (t_w t) k) /\ t_store t k = Some (i_data it).

(** Number of blocks outstanding according to the outputs alone. *)
Definition outstanding (o : list (tout B)) : Z :=
  fold_left (fun n x => match x with Sent New _ _ => n + 1 | Sent _ _ _ => n | Moved m => n - m | Cleared => 0 end) o 0.
End Spec.
Arguments item : clear implicits.
Arguments queue : clear implicits.
Arguments sout : clear implicits.
