(** What the upper layers may expect of the entities of RLC/MAC (C123): a TLLI belongs to one mobile.  Nothing here models
    repository code. *)
From Coq Require Import ZArith List Bool.
From Verif Require Import Lib.Base Rlcmac.RegModel.
Import ListNotations.
Open Scope Z_scope.

(** Whose a TLLI is, the P-TMSI (if any) and IMSI (if any) each mobile was last assigned, and the number for the next entity. *)
Record book := mkBook { owner : Z -> option Z; known : Z -> option (Z * list Z); fresh : Z }.
Definition book0 : book := mkBook (fun _ => None) (fun _ => None) 1.
Definition mine (b : book) (g t : Z) : bool := match owner b t with Some h => h =? g | None => false end.
Definition give (b : book) (t g : Z) : Z -> option Z := fun x => if x =? t then Some g else owner b x.
(** All TLLIs of [g] taken away. *)
Definition drop (b : book) (g : Z) : book := mkBook (fun x => if mine b g x then None else owner b x) (known b) (fresh b).
Definition learn (b : book) (g : Z) (k : option (Z * list Z)) : book :=
  mkBook (owner b) (fun x => if x =? g then k else known b x) (fresh b).
(** A mobile of which nothing but the TLLI is known. *)
Definition enter (b : book) (t : Z) : book := learn (mkBook (give b t (fresh b)) (known b) (fresh b + 1)) (fresh b) None.
(** The answer to a request, and the book after it: GMMRR-ASSIGN with no old TLLI enters a new mobile, with no new TLLI it ends
    one, with both the mobile keeps these two TLLIs and no other; a frame goes to the owner of its TLLI, entered if need be. *)
Definition bstep (b : book) (q : req) : seen * book :=
  match q with
  | Assign o n p i =>
      if o =? UNASSIGNED then
        if n =? UNASSIGNED then (Ret (-22), b)
        else match owner b n with Some _ => (Ret (-22), b) | None => (Ret 0, learn (enter b n) (fresh b) (Some (p, i))) end
      else match owner b o with
           | None => (Ret (-2), b)
           | Some g =>
               if n =? UNASSIGNED then (Ret 0, drop b g)
               else let d := drop b g in
                    let own := fun x => if (x =? o) || (x =? n) then Some g else owner d x in
                    (Ret 0, learn (mkBook own (known b) (fresh b)) g (Some (p, i)))
           end
  | Frame t => match owner b t with Some g => (To g, b) | None => (To (fresh b), enter b t) end
  end.
Fixpoint brun (b : book) (l : list req) : list seen * book :=
  match l with
  | [] => ([], b)
  | q :: l => let (x, b1) := bstep b q in let (xs, b2) := brun b1 l in (x :: xs, b2)
  end.
(** A mobile that has a TLLI. *)
Definition alive (b : book) (g : Z) : Prop := exists t, t <> UNASSIGNED /\ owner b t = Some g.
(** Requests that are in order: no frame for "no TLLI", no mobile is given a TLLI of another, and an IMSI has at most 15 digits. *)
Definition in_order (b : book) (q : req) : Prop :=
  match q with
  | Assign o n _ i => (length i <= 15)%nat /\
      (o <> UNASSIGNED -> n <> UNASSIGNED -> owner b o <> None -> owner b n = None \/ owner b n = owner b o)
  | Frame t => t <> UNASSIGNED
  end.
Fixpoint all_in_order (b : book) (l : list req) : Prop :=
  match l with [] => True | q :: l => in_order b q /\ all_in_order (snd (bstep b q)) l end.
