(** The SNDCP-XID block as TS 44.065 has it (clauses 6.5.1, 6.6.1 and 8), independent of the code. *)
From Coq Require Export Sorted.
From Verif.Lib Require Import Base Outcome.
From Verif.Comp Require Import XidModel.

(** A set of NSAPIs, as the list of its members in increasing order. *)
Definition nsapi_set (ns : list Z) : Prop := StronglySorted Z.lt ns /\ Forall (fun n => 5 <= n <= 15) ns.
(** Tables 5, 6, 10, 7a, 7c: the values the parameters may have. *)
Definition par_ok (a : alg) (vs : list Z) : Prop :=
  match a, vs with
  | RFC1144, [s01] => 0 <= s01 <= 255
  | RFC2507, [f_max_period; f_max_time; max_header; tcp_space; non_tcp_space] =>
    1 <= f_max_period <= 65535 /\ 1 <= f_max_time <= 255 /\ 60 <= max_header <= 255 /\ 3 <= tcp_space <= 255 /\ 3 <= non_tcp_space <= 65535
  | ROHC, [max_cid; max_header] => 0 <= max_cid <= 16383 /\ 60 <= max_header <= 255
  | V42BIS, [p0; p1; p2] => 0 <= p0 <= 3 /\ 512 <= p1 <= 65535 /\ 6 <= p2 <= 250
  | V44, [c0; p0; p1t; p1r; p3t; p3r] =>
    (c0 = 128 \/ c0 = 192) /\ 0 <= p0 <= 3 /\ 256 <= p1t <= 65535 /\ 256 <= p1r <= 65535 /\
    2 * p1t <= p3t <= 65535 /\ 2 * p1r <= p3r <= 65535
  | _, _ => False
  end.
(** How many parameters, how many octets each. *)
Definition widths (a : alg) : list Z :=
  match a with
  | RFC1144 => [1] | RFC2507 => [2; 1; 1; 1; 2] | ROHC => [2; 2] | V42BIS => [1; 2; 1] | V44 => [1; 1; 2; 2; 2; 2]
  end.
(** Kind of element (data 1, protocol 2) and number of the algorithm. *)
Definition kind (a : alg) : Z := match a with RFC1144 => 2 | RFC2507 => 2 | ROHC => 2 | V42BIS => 1 | V44 => 1 end.
Definition number (a : alg) : Z := match a with RFC1144 => 0 | RFC2507 => 1 | ROHC => 2 | V42BIS => 0 | V44 => 1 end.
(** How many PCOMP or DCOMP values. *)
Definition n_comps (a : alg) : nat := match a with RFC1144 => 2 | RFC2507 => 5 | ROHC => 2 | V42BIS => 1 | V44 => 2 end.

(** A compression field: entity, algorithm, PCOMP or DCOMP values if it is a proposal (P bit), NSAPIs, the first of the parameters (the rest
    may be left out), profiles of ROHC. *)
Record xf := mkX { x_entity : Z; x_alg : alg; x_prop : option (list Z); x_nsapi : list Z; x_vals : list Z; x_prof : list Z }.
Definition xf_ok (x : xf) : Prop :=
  0 <= x_entity x <= 31 /\ nsapi_set (x_nsapi x) /\
  (exists rest, par_ok (x_alg x) (x_vals x ++ rest)) /\
  match x_prop x with Some cs => length cs = n_comps (x_alg x) /\ Forall (fun c => 0 <= c <= 15) cs | None => True end /\
  (x_prof x <> [] -> x_alg x = ROHC /\ length (x_vals x) = 2%nat) /\ (length (x_prof x) <= 16)%nat /\ Forall (fun v => 0 <= v <= 65535) (x_prof x).

(** Its octets. *)
Definition two (v : Z) : list Z := [v / 256; v mod 256].
Fixpoint nums (ws vs : list Z) : list Z :=
  match ws, vs with w :: ws, v :: vs => (if w =? 1 then [v] else two v) ++ nums ws vs | _, _ => [] end.
Definition bits (ns : list Z) : Z := fold_right (fun n w => 2 ^ n + w) 0 ns.
Fixpoint halves (cs : list Z) : list Z :=
  match cs with a :: b :: r => (a * 16 + b) :: halves r | [a] => [a * 16] | [] => [] end.
Definition x_payload (x : xf) : list Z := two (bits (x_nsapi x)) ++ nums (widths (x_alg x)) (x_vals x) ++ concat (map two (x_prof x)).
Definition x_oct (x : xf) : list Z :=
  match x_prop x with
  | Some cs => [128 + x_entity x; number (x_alg x); zlen (halves cs ++ x_payload x)] ++ halves cs ++ x_payload x
  | None => [x_entity x; zlen (x_payload x)] ++ x_payload x
  end.
(** What it says; -1 is a parameter left out. *)
Definition x_field (x : xf) : field :=
  mkF (match x_prop x with Some _ => true | None => false end) (x_entity x) (number (x_alg x))
    (match x_prop x with Some cs => cs | None => [] end)
    (Some (mkPar (x_alg x) (x_nsapi x) (x_vals x ++ repeat (-1) (length (widths (x_alg x)) - length (x_vals x))) (x_prof x))).

(** An element of the block: the version, or fields of one class. *)
Inductive elem := Version (v : Z) | Fields (cls : Z) (xs : list xf).
Definition elem_ok (e : elem) : Prop :=
  match e with
  | Version v => 0 <= v <= 255
  | Fields cls xs => xs <> [] /\ (cls = 1 \/ cls = 2) /\ Forall (fun x => kind (x_alg x) = cls /\ xf_ok x) xs /\ zlen (concat (map x_oct xs)) <= 255
  end.
Definition elem_oct (e : elem) : list Z :=
  match e with
  | Version v => [0; 1; v]
  | Fields cls xs => cls :: zlen (concat (map x_oct xs)) :: concat (map x_oct xs)
  end.
Definition e_fields (e : elem) : list xf := match e with Version _ => [] | Fields _ xs => xs end.
Definition e_version (e : elem) (v : Z) : Z := match e with Version v => v | Fields _ _ => v end.
(** The version an SNDCP-XID block has, -1 without one. *)
Definition version_of (es : list elem) : Z := fold_left (fun v e => e_version e v) es (-1).
(** All fields, the last first (the order of the lists in memory). *)
Definition fields_of (es : list elem) : list field := rev (map x_field (concat (map e_fields es))).
(** The block for a list of fields and a version (-1: none): data before protocols, the last field of the list first. *)
Definition of_class (cls : Z) (xs : list xf) : list xf := filter (fun x => kind (x_alg x) =? cls) xs.
Definition elems_for (cls : Z) (xs : list xf) : list elem := match of_class cls xs with [] => [] | l => [Fields cls l] end.
Definition block_of (v : Z) (xs : list xf) : list elem :=
  (if 0 <=? v then [Version v] else []) ++ elems_for 1 (rev xs) ++ elems_for 2 (rev xs).
(** A request: proposals with all parameters, each with its own entity. *)
Definition request (xs : list xf) : Prop :=
  Forall (fun x => xf_ok x /\ par_ok (x_alg x) (x_vals x) /\ exists cs, x_prop x = Some cs) xs /\ NoDup (map x_entity xs).
(** What the answer [y] to the request [xs] means: parameters left out are as requested, and so are the PCOMP or DCOMP values. *)
Definition meaning (xs : list xf) (y : xf) : field :=
  match find (fun x => x_entity x =? x_entity y) xs with
  | Some x =>
    mkF false (x_entity y) (number (x_alg y)) (match x_prop x with Some cs => cs | None => [] end)
      (Some (mkPar (x_alg y) (x_nsapi y) (x_vals y ++ skipn (length (x_vals y)) (x_vals x)) (match x_prof y with [] => x_prof x | l => l end)))
  | None => x_field y
  end.
Definition answers (xs : list xf) (y : xf) : Prop := x_prop y = None /\ exists x, In x xs /\ x_entity x = x_entity y /\ x_alg x = x_alg y.
