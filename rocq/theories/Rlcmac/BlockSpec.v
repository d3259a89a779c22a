(** What TS 44.060 10.4.13 and 10.4.14 make of length indicators. *)
From Verif.Lib Require Import Base Outcome.
From Verif.Rlcmac Require Import RlcDataModel RlcDataSpec BlockModel AirSpec.

(** Pieces of frames, and whether the frame ends there; [final]: the block is the last one. *)
Fixpoint cut (final : bool) (ext : list (Z * Z * Z)) (d : list Z) : list (list Z * bool) :=
  match ext with
  | [] => [(d, final)]
  | (li, m, _) :: r =>
      if li =? 0 then [(d, false)]
      else (firstn (Z.to_nat li) d, true) :: (if m =? 1 then cut final r (skipn (Z.to_nat li) d) else [])
  end.
Definition cut_up (u : BlockModel.udata) : list (list Z * bool) := cut (BlockModel.d_cv u =? 0) (BlockModel.d_ext u) (BlockModel.d_data u).
(** LI, M and E for a block with the frames' ends [segs] and [t] behind them. *)
Fixpoint marks (segs : list (list Z)) (t : RlcDataSpec.tail) : list (Z * Z * Z) :=
  match segs with
  | [] => match t with RlcDataSpec.TLi0 _ => [(0, 0, 1)] | _ => [] end
  | s :: r => match marks r t, t with
              | _ :: _, _ => (zlen s, 1, 0)
              | [], RlcDataSpec.TFill _ => (zlen s, 0, 1)
              | [], _ => (zlen s, 1, 1)
              end :: marks r t
  end.
(** LI, M and E of an extension octet. *)
Definition mark (o : Z) : Z * Z * Z := (o / 4 mod 64, o / 2 mod 2, o mod 2).
(** Whether the octets announce more extension octets than the five that the structure has room for. *)
Definition six (m : list Z) : Prop := (nth 2 m 0) mod 2 = 0 /\ Forall (fun o => o mod 4 = 2) (firstn 5 (skipn 3 m)).

(** A whole transfer, CS-1 only; a block that carries a TLLI carries that of the mobile. *)
Inductive transfer1 (tlli : Z) : list (list Z) -> list ublk -> list (list Z) -> Prop :=
| t1_start : transfer1 tlli [] [] []
| t1_submit sub blks pend f : transfer1 tlli sub blks pend -> 5 <= zlen f -> transfer1 tlli (sub ++ [f]) blks (pend ++ [f])
| t1_block sub blks pend (ti : bool) final e o pend' :
    transfer1 tlli sub blks pend -> pend <> [] ->
    (let space := if ti then 16 else 20 in final = true -> need pend <= space /\ (need pend = space -> exists f, pend = [f])) ->
    create_block 20 ti tlli final pend = Ok (e, o, pend') ->
    transfer1 tlli sub (blks ++ [mkublk ti final (e =? 1) o]) pend'.

(** *** Downlink *)
(** An entry that announces another one. *)
Definition more (x : Z * Z * Z) : Prop := let '(_, m, e) := x in m = 1 /\ e = 0.
(** A structure filled in for the block [b]; the entries behind what is used hold anything. *)
Definition filled (tfi bsn : Z) (f : dl_fields) (b : nblk) (d : ddata) : Prop :=
  exists x y fbi e1, d = mkddata 0 (f_rrbp f) (f_sp f) (f_usf f) (f_pr f) tfi fbi bsn e1 (marks (n_segs b) (n_tail b) ++ x) (concat (n_segs b) ++ tail_data (n_tail b) ++ y) /\
    fbi = (if n_last b then 1 else 0) /\ e1 = (if e_bit (n_segs b) (n_tail b) then 1 else 0) /\ length (w_ext d) = 5%nat /\ zlen (w_data d) = 20.
