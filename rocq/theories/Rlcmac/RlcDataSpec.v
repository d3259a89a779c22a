(** Specification vocabulary for RLC data blocks: the block layout of TS 44.060 (10.2.1, 10.2.2, 10.4.13,
    10.4.14) written as an encoder. *)
From Verif.Lib Require Import Base Outcome.
From Verif.Rlcmac Require Import RlcDataModel.

(** What follows the LLC frames that end in the block: filling octets, the beginning (or the whole rest) of
    a frame up to the block's end, or the same announced by LI = 0 because the frame would end exactly there. *)
Inductive tail := TFill (pad : list Z) | TCont (d : list Z) | TLi0 (d : list Z).

(** Extension octets (LI in bits 8-3, M in bit 2, E in bit 1). *)
Fixpoint exts (segs : list (list Z)) (t : tail) : list Z :=
  match segs with
  | [] => match t with TLi0 _ => [1] | _ => [] end
  | s :: r =>
      let more := exts r t in
      (4 * zlen s + match more, t with
                    | _ :: _, _ => 2             (* M = 1, E = 0: another frame and another octet follow *)
                    | [], TFill _ => 1           (* M = 0, E = 1: nothing follows *)
                    | [], _ => 3                 (* M = 1, E = 1: a frame follows up to the end *)
                    end) :: more
  end.
Definition tail_data (t : tail) : list Z := match t with TFill p => p | TCont d => d | TLi0 d => d end.
(** Octets of the block; [tlli] are the four TLLI octets of an uplink block with TI = 1, or none. *)
Definition layout (tlli : list Z) (segs : list (list Z)) (t : tail) : list Z :=
  exts segs t ++ tlli ++ concat segs ++ tail_data t.
(** E bit of the block header: one if there are no extension octets. *)
Definition e_bit (segs : list (list Z)) (t : tail) : bool := match exts segs t with [] => true | _ => false end.

(** Pieces of LLC frames carried, with "the frame ends here"; in the last block of a transfer a frame that
    runs up to the end of the block ends there. *)
Definition pieces (last : bool) (segs : list (list Z)) (t : tail) : list (list Z * bool) :=
  map (fun s => (s, true)) segs ++
  match t with TFill _ => [] | TCont d => [(d, last)] | TLi0 d => [(d, false)] end.

Definition well_formed (last : bool) (segs : list (list Z)) (t : tail) : Prop :=
  Forall (fun s => 1 <= zlen s <= 63) segs /\
  match t with TFill _ => segs <> [] | TCont d => d <> [] | TLi0 _ => last = false end.

(** Frames completed by a sequence of pieces, and the unfinished rest. *)
Fixpoint join (part : list Z) (l : list (list Z * bool)) : list (list Z) * list Z :=
  match l with
  | [] => ([], part)
  | (d, ends) :: r => if ends then let '(fs, p) := join [] r in ((part ++ d) :: fs, p) else join (part ++ d) r
  end.

(** A network block. *)
Record nblk := mknblk { n_last : bool; n_segs : list (list Z); n_tail : tail }.
Definition n_octets (b : nblk) : list Z := layout [] (n_segs b) (n_tail b).
Definition n_wf (b : nblk) : Prop :=
  well_formed (n_last b) (n_segs b) (n_tail b) /\ zlen (n_octets b) <= 255 /\
  (length (n_segs b) <= 15)%nat.
Definition n_pieces (b : nblk) : list (list Z * bool) := pieces (n_last b) (n_segs b) (n_tail b).
Definition n_stored (b : nblk) : rblk := mkrblk (e_bit (n_segs b) (n_tail b)) (n_last b) false (n_octets b).

(** A block as the network builds it: well-formed, at most 74 octets (the largest coding scheme), and a
    segment that is not the first of its block is a whole LLC frame (at least 5 octets, TS 44.064 5.1). *)
Definition lawful (b : nblk) : Prop :=
  well_formed (n_last b) (n_segs b) (n_tail b) /\ zlen (n_octets b) <= 74 /\
  Forall (fun s => 5 <= zlen s) (tl (n_segs b)).
(** Frames completed by the first [k] blocks, and the unfinished rest. *)
Definition spelled (blk : Z -> nblk) (k : nat) : list (list Z) * list Z :=
  join [] (flat_map (fun i => n_pieces (blk (Z.of_nat i))) (seq 0 k)).

(** Chunk descriptors one behind the other from [offs] on, inside a block of [dlen] octets. *)
Fixpoint chain (dlen offs : Z) (l : list chunk) : Prop :=
  match l with
  | [] => True
  | c :: r => c_off c = offs /\ 0 <= c_len c /\ offs + c_len c <= dlen /\ chain dlen (offs + c_len c) r
  end.
(** Every frame completed and every partial frame on the way fits the buffer of 1543 octets. *)
Fixpoint fits (part : list Z) (l : list (list Z * bool)) : Prop :=
  match l with
  | [] => True
  | (d, ends) :: r => zlen (part ++ d) <= 1543 /\ fits (if ends then [] else part ++ d) r
  end.

(** *** Uplink transfers *)
(** An uplink block as built: TI, final (countdown value zero), E bit and octets. *)
Record ublk := mkublk { u_ti : bool; u_final : bool; u_e : bool; u_oct : list Z }.

(** Octets needed in one block for all pending frames, when each but the last is delimited. *)
Fixpoint need (pend : list (list Z)) : Z :=
  match pend with [] => 0 | [f] => zlen f | f :: r => zlen f + 1 + need r end.

(** Frames not yet handed out completely: what the reader has of the first one, and what is left to send. *)
Definition glue (part : list Z) (pend : list (list Z)) : list (list Z) :=
  match pend with [] => [] | p :: r => (part ++ p) :: r end.

(** Any interleaving of frames handed over for transmission and blocks built.  [space]: octets available.
    A final block is one that can take everything pending. *)
Inductive transfer : list (list Z) -> list ublk -> list (list Z) -> Prop :=
| t_start : transfer [] [] []
| t_submit sub blks pend f : transfer sub blks pend -> f <> [] -> transfer (sub ++ [f]) blks (pend ++ [f])
| t_block sub blks pend dlen (ti : bool) tlli final e oct pend' :
    transfer sub blks pend -> pend <> [] -> 5 <= dlen <= 64 ->
    (let space := if ti then dlen - 4 else dlen in
     final = true -> need pend <= space /\ (need pend = space -> exists f, pend = [f])) ->
    create_block dlen ti tlli final pend = Ok (e, oct, pend') ->
    transfer sub (blks ++ [mkublk ti final (e =? 1) oct]) pend'.

(** Reading an uplink block: take away the TLLI that follows the extension octets, parse the length
    indicators with the decoder of the library, cut out the chunks. *)
Fixpoint n_ext (l : list Z) : nat := match l with [] => O | o :: r => if Z.odd o then 1%nat else S (n_ext r) end.
Definition strip (b : ublk) : list Z :=
  let n := if u_e b then O else n_ext (u_oct b) in
  firstn n (u_oct b) ++ skipn (if u_ti b then n + 4 else n) (u_oct b).
Definition read_block (b : ublk) : res (list (list Z * bool)) :=
  do l <- data_from_dl (u_e b) (u_final b) false (strip b) 65;
  Ok (map (fun c => (slice (Z.to_nat (c_off c)) (Z.to_nat (c_len c)) (strip b), c_done c)) l).
Fixpoint read_all (l : list ublk) : res (list (list Z * bool)) :=
  match l with
  | [] => Ok []
  | b :: r => do x <- read_block b; do y <- read_all r; Ok (x ++ y)
  end.
