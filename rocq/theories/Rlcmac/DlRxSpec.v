(** Specification vocabulary for the downlink receiver: the network numbers its blocks 0, 1, 2, ... without
    end and sends block n with sequence number n mod 128. *)
From Verif.Lib Require Import Base Outcome.
From Verif.Rlcmac Require Import DlRxModel.

Section Spec.
Context {B : Type}.

(** What arrives over the air when blocks [ns] of the network's sequence [blk] arrive in this order. *)
Definition over_air (blk : Z -> B) (ns : list Z) : list (Z * B) := map (fun n => (n mod 128, blk n)) ns.

(** Blocks handed to reassembly. *)
Definition delivered (o : list (rout B)) : list (option B) :=
  flat_map (fun x => match x with Fwd b => [b] | Finished => [] end) o.

(** The channel: whatever is lost, repeated or reordered, a block that arrives lies less than a window away
    from the blocks delivered before.  (A network that respects its own window guarantees this: its V(A) is
    not beyond what was delivered, and it never sends a window ahead of V(A).) *)
Definition within (fbi : B -> bool) (blk : Z -> B) (ns : list Z) : Prop :=
  forall pre n post x o, ns = pre ++ n :: post -> rrun fbi rx_init (over_air blk pre) = Ok (x, o) ->
    0 <= n /\ zlen (delivered o) - 64 <= n < zlen (delivered o) + 64.
End Spec.

(** One more than the highest block that arrived. *)
Definition top (ns : list Z) : Z := fold_right (fun n m => Z.max (n + 1) m) 0 ns.
(** No block arrives 63 blocks ahead of everything that arrived before. *)
Definition no_jump (ns : list Z) : Prop := forall pre n post, ns = pre ++ n :: post -> n < top pre + 63.
(** [k] is the number of blocks up to the first one that never arrived. *)
Definition gap (ns : list Z) (k : Z) : Prop := 0 <= k /\ (forall n, 0 <= n < k -> In n ns) /\ ~ In k ns.
(** The octets of a bitmap as one big number. *)
Definition big_endian (l : list Z) : Z := fold_left (fun a b => a * 256 + b) l 0.
