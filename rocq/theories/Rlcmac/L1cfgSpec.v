(** What the requests mean, and what the physical layer should be doing.  Uses only the types of [L1cfgModel]. *)
From Verif.Lib Require Import Base.
From Verif.Rlcmac Require Import L1cfgModel.

(** The physical layer keeps, for each number, what was requested last; release of the channels makes it forget everything. *)
Record phy := mkP { p_ul : Z -> Z * Z * list Z; p_dl : Z -> Z * Z }.
Definition phy0 : phy := mkP (fun _ => (0, 4294967295, [])) (fun _ => (0, 0)).
Definition set {A} (f : Z -> A) (n : Z) (v : A) : Z -> A := fun x => if x =? n then v else f x.
Definition obey (p : phy) (q : prim) : phy :=
  match q with
  | CfgUl nr mask start usf => mkP (set (p_ul p) nr (mask, start, usf)) (p_dl p)
  | CfgDl nr mask _ tfi => mkP (p_ul p) (set (p_dl p) nr (mask, tfi))
  | PdchRel => phy0
  end.
Definition obey_all (p : phy) (l : list prim) : phy := fold_left obey l p.
(** Uplink TBF number [nr] may send on timeslot [tn] when it sees this USF; from this frame number on (4294967295: at once). *)
Definition sends (p : phy) (nr : Z) (tn : nat) : option Z :=
  let '(mask, _, usf) := p_ul p nr in if Z.testbit mask (Z.of_nat tn) then Some (nth tn usf 0) else None.
Definition sends_from (p : phy) (nr : Z) : Z := snd (fst (p_ul p nr)).
(** Downlink TBF number [nr] receives on timeslot [tn] blocks with this TFI. *)
Definition receives (p : phy) (nr : Z) (tn : nat) : option Z :=
  let '(mask, tfi) := p_dl p nr in if Z.testbit mask (Z.of_nat tn) then Some tfi else None.

(** What should be: which TBFs there are, the k-th made being called k, and what each was assigned. *)
Record want := mkW { w_un : Z; w_ul : list Z; w_ug : Z -> ualloc * option Z; w_dn : Z; w_dl : list Z; w_dg : Z -> option (dalloc * Z) }.
Definition want0 : want := mkW 0 [] (fun _ => ([], None)) 0 [] (fun _ => None).
Definition drop (k : Z) (l : list Z) : list Z := filter (fun x => negb (x =? k)) l.
Definition want_step (w : want) (e : ev) : want :=
  match e with
  | UlNew => mkW (w_un w + 1) (w_un w :: w_ul w) (w_ug w) (w_dn w) (w_dl w) (w_dg w)
  | UlWait k a fn => mkW (w_un w) (w_ul w) (set (w_ug w) k (a, Some fn)) (w_dn w) (w_dl w) (w_dg w)
  | UlCompl k a => mkW (w_un w) (w_ul w) (set (w_ug w) k (a, None)) (w_dn w) (w_dl w) (w_dg w)
  | UlBack k => mkW (w_un w) (w_ul w) (set (w_ug w) k ([], None)) (w_dn w) (w_dl w) (w_dg w)
  | UlFree k => mkW (w_un w) (drop k (w_ul w)) (w_ug w) (w_dn w) (w_dl w) (w_dg w)
  | DlNew => mkW (w_un w) (w_ul w) (w_ug w) (w_dn w + 1) (w_dn w :: w_dl w) (w_dg w)
  | DlCompl k a tfi => mkW (w_un w) (w_ul w) (w_ug w) (w_dn w) (w_dl w) (set (w_dg w) k (Some (a, tfi)))
  | DlFree k => mkW (w_un w) (w_ul w) (w_ug w) (w_dn w) (drop k (w_dl w)) (w_dg w)
  | Idle => w
  end.
Definition wanted (h : list ev) : want := fold_left want_step h want0.

(** What can happen: only to TBFs that exist; allocations are of 8 timeslots. *)
Definition possible (w : want) (e : ev) : Prop :=
  match e with
  | UlWait k a _ | UlCompl k a => In k (w_ul w) /\ length a = 8%nat
  | UlBack k | UlFree k => In k (w_ul w)
  | DlCompl k a _ => In k (w_dl w) /\ length a = 8%nat
  | DlFree k => In k (w_dl w)
  | UlNew | DlNew | Idle => True
  end.
(** What must not happen for the claim to hold: a TBF outlives the making of 256 others; the channels are released while another TBF exists. *)
Definition calm (w : want) (e : ev) : Prop :=
  match e with
  | UlNew => forall k, In k (w_ul w) -> w_un w - 256 < k
  | DlNew => forall k, In k (w_dl w) -> w_dn w - 256 < k
  | UlBack k => w_ul w = [k] /\ w_dl w = []
  | Idle => w_ul w = [] /\ w_dl w = []
  | _ => True
  end.
Fixpoint always (P : want -> ev -> Prop) (w : want) (h : list ev) : Prop :=
  match h with [] => True | e :: r => P w e /\ always P (want_step w e) r end.
