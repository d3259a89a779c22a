(** Model of src/rlcmac/pdch_ul_controller.c: the reservations of uplink blocks of one timeslot, kept in a search
    tree ordered by frame number. *)
From Verif.Lib Require Import Base Outcome.

Definition HYPERFRAME : Z := 2715648.
Definition EEXIST : Z := 17.
Definition ENOKEY : Z := 126.

(** gsm0502_fncmp of libosmocore, outside the repository, taken from its documentation: which of two frame numbers
    comes first, taking the wrap of the hyperframe into account.  Negative: [a] before [b]. *)
Definition fncmp (a b : Z) : Z :=
  if a =? b then 0 else
  if ((a <? b) && (b - a <? HYPERFRAME / 2)) || ((b <? a) && (HYPERFRAME / 2 <? a - b)) then -1 else 1.

(** include/osmocom/gprs/rlcmac/pdch_ul_controller.h:38-54: a reservation; [who] stands for the pointer in the
    union (a TBF or a GRE).  Simplification: the list of names of reasons is numbered. *)
Record node := mkNode { n_fn : Z; n_reason : Z; n_who : Z }.

(** A search tree; colours and balancing are left to [rb_insert_color] and [rb_erase] below. *)
Inductive tree := Leaf | Node (l : tree) (it : node) (r : tree).
Fixpoint inorder (t : tree) : list node := match t with Leaf => [] | Node l it r => inorder l ++ it :: inorder r end.

(** linuxrbtree of libosmocore, outside the repository: rebalancing after a link, and erasing a node; parameters of
    the model. *)
Record rb_ops := mkRb { rb_insert_color : tree -> tree; rb_erase : node -> tree -> tree }.

(** pdch_ul_controller.c:56-74 [gprs_rlcmac_pdch_ulc_get_node]. *)
Fixpoint get_node (t : tree) (fn : Z) : option node :=
  match t with
  | Leaf => None
  | Node l it r => let res := fncmp (n_fn it) fn in
      if res >? 0 then get_node l fn else if res <? 0 then get_node r fn else Some it
  end.
(** pdch_ul_controller.c:97-124: the walk of [add_node] and rb_link_node. *)
Fixpoint link (t : tree) (item : node) : option tree :=
  match t with
  | Leaf => Some (Node Leaf item Leaf)
  | Node l it r => let res := fncmp (n_fn item) (n_fn it) in
      if res <? 0 then match link l item with Some l' => Some (Node l' it r) | None => None end
      else if res >? 0 then match link r item with Some r' => Some (Node l it r') | None => None end
      else None
  end.

Section Ulc.
  Variable rb : rb_ops.
  (** pdch_ul_controller.c:75-82 [pop_node]. *)
  Definition pop_node (t : tree) (fn : Z) : option node * tree :=
    match get_node t fn with None => (None, t) | Some it => (Some it, rb_erase rb it t) end.
  (** pdch_ul_controller.c:126-137 [reserve], 97-124 [add_node].  The node that is allocated but not linked when the
      frame is taken stays allocated in the pool of the timeslot; memory is not modelled. *)
  Definition reserve (t : tree) (fn reason who : Z) : Z * tree :=
    match link t (mkNode fn reason who) with None => (- EEXIST, t) | Some t' => (0, rb_insert_color rb t') end.
  (** pdch_ul_controller.c:139-143 [release_node]. *)
  Definition release_node (t : tree) (it : node) : tree := rb_erase rb it t.
  (** pdch_ul_controller.c:145-152 [release_fn]. *)
  Definition release_fn (t : tree) (fn : Z) : Z * tree :=
    match get_node t fn with None => (- ENOKEY, t) | Some it => (0, release_node t it) end.
  (** pdch_ul_controller.c:154-174 [release_tbf]: scan from the first node in order, release the first match, start
      again.  The fuel is the number of nodes plus one (each round but the last removes one). *)
  Fixpoint release_tbf_loop (fuel : nat) (t : tree) (who : Z) : tree :=
    match fuel with
    | O => t
    | S fuel' => match find (fun it => n_who it =? who) (inorder t) with
                 | None => t
                 | Some it => release_tbf_loop fuel' (release_node t it) who
                 end
    end.
  Definition release_tbf (t : tree) (who : Z) : tree := release_tbf_loop (S (length (inorder t))) t who.
  (** pdch_ul_controller.c:176-200 [expire_fn]: rb_first is the first node in order. *)
  Fixpoint expire_loop (fuel : nat) (t : tree) (fn : Z) : tree :=
    match fuel with
    | O => t
    | S fuel' => match inorder t with
                 | [] => t
                 | it :: _ => if fncmp (n_fn it) fn >? 0 then t else expire_loop fuel' (rb_erase rb it t) fn
                 end
    end.
  Definition expire_fn (t : tree) (fn : Z) : tree := expire_loop (S (length (inorder t))) t fn.

  (** The calls of the interface, and what they return: for lookups the reservation found. *)
  Inductive op := Reserve (fn reason who : Z) | Get (fn : Z) | Pop (fn : Z) | ReleaseFn (fn : Z) | ReleaseTbf (who : Z) | Expire (fn : Z).
  Inductive answer := Rc (rc : Z) | Found (it : option node) | Void.
  Definition step (t : tree) (o : op) : tree * answer :=
    match o with
    | Reserve fn reason who => let '(rc, t') := reserve t fn reason who in (t', Rc rc)
    | Get fn => (t, Found (get_node t fn))
    | Pop fn => let '(r, t') := pop_node t fn in (t', Found r)
    | ReleaseFn fn => let '(rc, t') := release_fn t fn in (t', Rc rc)
    | ReleaseTbf who => (release_tbf t who, Void)
    | Expire fn => (expire_fn t fn, Void)
    end.
  Fixpoint run (t : tree) (os : list op) : tree * list answer :=
    match os with
    | [] => (t, [])
    | o :: os' => let '(t1, a) := step t o in let '(t2, l) := run t1 os' in (t2, a :: l)
    end.
End Ulc.
