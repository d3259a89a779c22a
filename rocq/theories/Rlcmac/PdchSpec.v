(** What 3GPP TS 44.060 says about downlink RLC/MAC control blocks: the header (10.3.1, 10.4), Packet Downlink Assignment
    (11.2.7), Packet Uplink Ack/Nack (11.2.28), Packet Uplink Assignment (11.2.29) and the information elements in them (12).
    Nothing here models repository code. *)
From Coq Require Import ZArith List Bool.
From Verif Require Import Lib.Base Csn1.Csn1Layout Rlcmac.CcchSpec.
Import ListNotations.
Open Scope Z_scope.

(** *** Header *)
(** The optional octets: RBSN, RTI, FS; power reduction, TFI and direction; the extension, which is there when RBSN is 1 and
    FS is 0. *)
Record opt_octets := mkOpt { o_rbsn : Z; o_rti : Z; o_fs : Z; o_ac : option (Z * Z * Z); o_ext : option (Z * Z * Z) }.
Definition opt_ok (o : opt_octets) : Prop := o_rbsn o = 1 /\ o_fs o = 0 <-> o_ext o <> None.
(** Payload type 1 or 2, RRBP, S/P, USF. *)
Definition header (rrbp sp usf : Z) (o : option opt_octets) : list item :=
  match o with
  | None => [U 2 1; U 2 rrbp; U 1 sp; U 3 usf]
  | Some o =>
      [U 2 2; U 2 rrbp; U 1 sp; U 3 usf; U 1 (o_rbsn o); U 5 (o_rti o); U 1 (o_fs o)] ++
      match o_ac o with None => [U 1 0] | Some (pr, tfi, d) => [U 1 1; U 2 pr; U 5 tfi; U 1 d] end ++
      match o_ext o with None => [] | Some (e, f, x) => [U 3 e; U 1 f; U 4 x] end
  end.
(** The 23 octets of a control block. *)
Definition block (blk : list Z) rrbp sp usf o (contents : list item) : Prop :=
  (forall x, o = Some x -> opt_ok x) /\ message blk [] (header rrbp sp usf o ++ contents).

(** *** Information elements *)
(** Uplink TFI (left) or downlink TFI (right). *)
Definition global_tfi (t : Z + Z) : list item := match t with inl u => [U 1 0; U 5 u] | inr d => [U 1 1; U 5 d] end.
(** Whom an assignment is for: a global TFI or a TLLI. *)
Definition addressee (a : (Z + Z) + Z) : list item := match a with inl t => U 1 0 :: global_tfi t | inr tlli => [U 2 2; U 32 tlli] end.
(** Starting frame number: absolute (T1', T3, T2) or relative. *)
Definition starting_frame (f : Z * Z * Z + Z) : list item := match f with inl t => U 1 0 :: starting_time t | inr k => [U 1 1; U 13 k] end.
Definition timing_advance (x : option Z * option (Z * Z)) : list item :=
  opt (fun v => [U 6 v]) (fst x) ++ opt (fun i => [U 4 (fst i); U 3 (snd i)]) (snd x).
Definition power_params (x : Z * list (option Z)) : list item := U 4 (fst x) :: flat_map (opt (fun g => [U 5 g])) (snd x).
Definition extension_bits (b : list bool) : list item := [U 6 (zlen b - 1); Any b].
(** Frequency parameters: an ARFCN, a reference to a mobile allocation, a mobile allocation, a frequency list. *)
Inductive freq_params :=
  | FArfcn (a : Z)
  | FIndirect (maio ma : Z) (marks : option (Z * option Z))
  | FDirect1 (maio hsn : Z) (rfl : list Z) (f : list Z + list bool)
  | FDirect2 (maio hsn : Z) (l : list Z).
Definition freq_items (x : Z * freq_params) : list item :=
  U 3 (fst x) ::
  match snd x with
  | FArfcn a => [U 2 0; U 10 a]
  | FIndirect maio ma marks => [U 2 1; U 6 maio; U 4 ma] ++ opt (fun c => U 2 (fst c) :: opt (fun d => [U 2 d]) (snd c)) marks
  | FDirect1 maio hsn rfl f => [U 2 2; U 6 maio] ++ gprs_ma hsn rfl f
  | FDirect2 maio hsn l => [U 2 3; U 6 maio; U 6 hsn; U 4 (zlen l - 3)] ++ map (U 8) l
  end.
(** The lengths these elements can have. *)
Definition freq_ok (x : Z * freq_params) : Prop :=
  match snd x with
  | FDirect1 _ _ rfl f => zlen rfl <= 4 /\ match f with inl idx => zlen idx <= 16 | inr b => 1 <= zlen b <= 64 end
  | FDirect2 _ _ l => 3 <= zlen l <= 18
  | _ => True
  end.
(** Additions of a later release at the end: nothing more, a null bit, or the additions. *)
Definition additions {A} (f : A -> list item) (x : option (list bool) + A * list bool) : list item :=
  match x with inl None => [] | inl (Some more) => [U 1 0; Any more] | inr (a, more) => U 1 1 :: f a ++ [Any more] end.

(** *** Packet Uplink Ack/Nack, GPRS TBF mode *)
(** Page mode; TFI; channel coding command; final ack indication, starting sequence number, bitmap (64 bits, here as eight
    numbers, the first 8 bits first); contention resolution TLLI; the rest.  In place of the fixed allocation the table of the
    repository has a zero and one more bit [dummy]. *)
Definition ul_ack_nack mode tfi ccc final ssn (bm : list Z) tlli ta power ext dummy add : list item :=
  [U 6 9; U 2 mode; U 2 0; U 5 tfi; U 1 0; U 2 ccc; U 1 final; U 7 ssn] ++ map (U 8) bm ++
  opt (fun t => [U 32 t]) tlli ++ opt timing_advance ta ++ opt power_params power ++ opt extension_bits ext ++
  [U 1 0; U 1 dummy] ++
  additions (fun x => opt (fun e => [U 2 e]) (fst x) ++ [U 1 (snd x)]) add.
Definition ack_lengths (bm : list Z) (power : option (Z * list (option Z))) (ext : option (list bool)) : Prop :=
  length bm = 8%nat /\ (forall x, power = Some x -> length (snd x) = 8%nat) /\ (forall b, ext = Some b -> 1 <= zlen b <= 64).
(** The new data can be indicated by TBF_EST in the additions of release 99. *)
Definition tbf_est (add : option (list bool) + (option Z * Z) * list bool) : bool :=
  match add with inr ((_, e), _) => e =? 1 | _ => false end.

(** *** Packet Uplink Assignment, GPRS TBF mode, dynamic allocation *)
(** The timeslots, each with its USF if it is assigned: without or with power control parameters (ALPHA, and GAMMA for each
    slot). *)
Definition slot_items (x : list (option Z) + Z * list (option (Z * Z))) : list item :=
  match x with
  | inl l => U 1 0 :: flat_map (opt (fun u => [U 3 u])) l
  | inr (alpha, l) => U 1 1 :: U 4 alpha :: flat_map (opt (fun u => [U 3 (fst u); U 5 (snd u)])) l
  end.
Definition usf_of (x : list (option Z) + Z * list (option (Z * Z))) : list (option Z) :=
  match x with inl l => l | inr (_, l) => map (option_map fst) l end.
Definition ul_assignment mode (pers : option (list Z)) who ccc tbcc ta freq ext p0 gran tfi granted start slots add : list item :=
  [U 6 10; U 2 mode] ++ opt (map (U 4)) pers ++ addressee who ++
  [U 1 0; U 2 ccc; U 1 tbcc] ++ timing_advance ta ++ opt freq_items freq ++
  [U 2 1; U 1 ext] ++ opt (fun x => [U 4 (fst x); U 1 (snd x)]) p0 ++ [U 1 gran] ++ opt (fun t => [U 5 t]) tfi ++
  opt (fun n => [U 8 n]) granted ++ opt starting_frame start ++ slot_items slots ++
  additions (opt (fun e => [U 2 e])) add.

(** *** Packet Downlink Assignment *)
Definition dl_assignment mode (pers : option (list Z)) who mac rlc ack slots ta p0 freq tfi power start meas add : list item :=
  [U 6 2; U 2 mode] ++ opt (map (U 4)) pers ++ addressee who ++
  [U 1 0; U 2 mac; U 1 rlc; U 1 ack; U 8 slots] ++ timing_advance ta ++
  opt (fun x : Z * Z * Z => [U 4 (fst (fst x)); U 1 (snd (fst x)); U 1 (snd x)]) p0 ++ opt freq_items freq ++ opt (fun t => [U 5 t]) tfi ++
  opt power_params power ++ opt starting_frame start ++
  opt (fun x : (Z * Z * Z + Z) * Z * Z => starting_frame (fst (fst x)) ++ [U 5 (snd (fst x)); U 8 (snd x)]) meas ++
  additions (fun x : option (Z * Z * option Z) * option Z =>
    opt (fun e : Z * Z * option Z => [U 5 (fst (fst e)); U 2 (snd (fst e))] ++ opt (fun b => [U 4 b]) (snd e)) (fst x) ++
    opt (fun e => [U 2 e]) (snd x) ++ [U 1 0]) add.
