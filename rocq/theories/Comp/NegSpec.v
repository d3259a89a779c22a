(** What the negotiation of compression is to do, by TS 44.065 (clauses 6.5.1, 6.6.1, 6.8) and independent of sndcp.c. *)
From Verif.Lib Require Import Base Outcome.
From Verif.Comp Require Import SlhcModel XidModel XidSpec NegModel.

(** The entity with number [n] of a table. *)
Definition look (n : Z) (t : list ent) : option ent := find (fun e => en_entity e =? n) t.
Definition without (n : Z) (t : list ent) : list ent := filter (fun e => negb (en_entity e =? n)) t.
(** A context just made: RFC 1144 with [s01] + 1 connections each way, V.42bis with the parameters. *)
Definition start (a : alg) (vs : list Z) : ctx :=
  match a, vs with
  | RFC1144, s01 :: _ => Tcp (slhc_init (s01 + 1) (s01 + 1))
  | V42BIS, p0 :: p1 :: p2 :: _ => V42 (Some (p0, p1, p2))
  | _, _ => V42 None
  end.
(** The entity a proposal asks for. *)
Definition asked (x : xf) : ent :=
  mkEnt (x_entity x) (x_alg x) (match x_prop x with Some cs => cs | None => [] end) (x_nsapi x) (start (x_alg x) (x_vals x)).
(** Whether a field is accepted: the algorithm is one of the two, allowed, and there is an NSAPI. *)
Definition accepts (c : cfg) (x : xf) : bool :=
  match x_alg x, x_nsapi x with
  | _, [] => false
  | RFC1144, _ => c_rfc1144 c
  | V42BIS, _ => c_v42bis c
  | _, _ => false
  end.
(** The answer to a proposal: the same without the P bit and the PCOMP or DCOMP values; without NSAPIs if it is rejected. *)
Definition echo (c : cfg) (x : xf) : xf :=
  mkX (x_entity x) (x_alg x) None (if accepts c x then x_nsapi x else []) (x_vals x) (x_prof x).
(** The block with the answers: version 0, data compression, header compression, in the order of the proposals. *)
Definition answer (c : cfg) (xs : list xf) : list elem := Version 0 :: elems_for 1 (map (echo c) xs) ++ elems_for 2 (map (echo c) xs).
(** What entity [n] of the table of class [k] is after the fields [xs], if it was [old] before. *)
Definition settled (c : cfg) (k : Z) (xs : list xf) (n : Z) (old : option ent) : option ent :=
  match find (fun x => x_entity x =? n) xs with
  | Some x => if kind (x_alg x) =? k then if accepts c x then Some (asked x) else None else old
  | None => old
  end.

(** A table of one class: the entities have different numbers, and each is what its kind of entity is. *)
Definition ent_ok (k : Z) (e : ent) : Prop :=
  0 <= en_entity e <= 31 /\ en_alg e = (if k =? 2 then RFC1144 else V42BIS) /\
  length (en_comp e) = (if k =? 2 then 2%nat else 1%nat) /\ Forall (fun c => 0 <= c <= 15) (en_comp e) /\
  en_nsapi e <> [] /\ nsapi_set (en_nsapi e) /\
  match en_state e with Tcp _ => k = 2 | V42 _ => k = 1 end.
Definition table_ok (k : Z) (t : list ent) : Prop := NoDup (map en_entity t) /\ Forall (ent_ok k) t.
(** A mobile: NSAPIs in order, and the tables. *)
Definition mobile_ok (m : snme) : Prop :=
  StronglySorted Z.lt (map e_nsapi (m_sne m)) /\ Forall (fun e => e_nsapi e < 16) (m_sne m) /\
  table_ok 2 (m_proto m) /\ table_ok 1 (m_data m).

(** The request of an entity: protocol compression is entity 0, data compression comes next. *)
Definition wanted (n : Z) (pc : option Z) (dc : option (Z * Z * Z)) : list xf :=
  (match dc with Some (p0, p1, p2) => [mkX (match pc with Some _ => 1 | None => 0 end) V42BIS (Some [1]) [n] [p0; p1; p2] []] | None => [] end) ++
  (match pc with Some s01 => [mkX 0 RFC1144 (Some [1; 2]) [n] [s01] []] | None => [] end).
(** What an answer to it stands for: PCOMP or DCOMP values and parameters that are left out are those of the request. *)
Definition merged (xs : list xf) (y : xf) : xf :=
  match find (fun x => x_entity x =? x_entity y) xs with
  | Some x => mkX (x_entity y) (x_alg y) (x_prop x) (x_nsapi y) (x_vals y ++ skipn (length (x_vals y)) (x_vals x)) []
  | None => y
  end.
Definition pc_ok (pc : option Z) : Prop := match pc with Some s01 => 0 <= s01 <= 255 | None => True end.
Definition dc_ok (dc : option (Z * Z * Z)) : Prop :=
  match dc with Some (p0, p1, p2) => 0 <= p0 <= 3 /\ 512 <= p1 <= 65535 /\ 6 <= p2 <= 250 | None => True end.

(** A packet from one end to the other: the sender compresses by the NSAPI, the receiver expands by the PCOMP value of the
    SN-PDU. *)
Definition carry (room : list Z) (T R : list ent) (nsapi : Z) (p : list Z) : res (list ent * list ent * (Z * list Z)) :=
  do r <- pcomp_compress T p nsapi;
  let '(T, d, len, pcomp) := r in
  do r <- pcomp_expand R (firstn (Z.to_nat len) d ++ room) len pcomp;
  let '(R, buf, n) := r in Ok (T, R, (pcomp, firstn (Z.to_nat n) buf)).
Fixpoint carry_all (room : list Z) (T R : list ent) (nsapi : Z) (ps : list (list Z)) : res (list ent * list ent * list (Z * list Z)) :=
  match ps with
  | [] => Ok (T, R, [])
  | p :: r =>
    do x <- carry room T R nsapi p;
    let '(T, R, o) := x in
    do y <- carry_all room T R nsapi r;
    let '(T, R, os) := y in Ok (T, R, o :: os)
  end.

(** What happens to one mobile, or to the other end. *)
Inductive event :=
| Activate (n s : Z) | XidReq (s n : Z) (pc : option Z) (dc : option (Z * Z * Z)) | XidRsp (s n : Z)
| XidInd (s : Z) (buf : list Z) (len : Z) | XidCnf (s : Z) (buf : list Z) (len : Z).
Definition happens (c : cfg) (m : snme) (v : event) : res step :=
  match v with
  | Activate n s => snsm_activate m n s
  | XidReq s n pc dc => sn_xid_req m s n pc dc
  | XidRsp s n => sn_xid_rsp m s n
  | XidInd s buf len => ll_xid_ind c m s buf len
  | XidCnf s buf len => ll_xid_cnf c m s buf len
  end.
(** What the users may do, and what may come: any octets, with 41 octets more in the buffer. *)
Definition allowed (v : event) : Prop :=
  match v with
  | Activate n s => n <= 15
  | XidReq s n pc dc => 5 <= n <= 15 /\ pc_ok pc /\ dc_ok dc
  | XidRsp s n => n <= 15
  | XidInd _ buf len | XidCnf _ buf len => Forall byte buf /\ 0 <= len /\ len + 41 <= zlen buf
  end.
Inductive reach (c : cfg) : snme -> Prop :=
| reach_0 : reach c snme0
| reach_S m v r : reach c m -> allowed v -> happens c m v = Ok r -> reach c (r_m r).

(** A negotiation: [A] asks for entity [n] on SAPI [s], what it sends arrives at [B] and is answered there, the answer arrives at [A].  In both
    receiving buffers there is more room behind the block.  The result is both ends and what the user of [A] is told. *)
Definition exchange (ca cb : cfg) (A B : snme) (s n : Z) (pc : option Z) (dc : option (Z * Z * Z)) (room room' : list Z) : res (snme * snme * list prim) :=
  do r <- sn_xid_req A s n pc dc;
  match r_out r with
  | [LlXidReq s1 b] =>
    do i <- ll_xid_ind cb B s1 (b ++ room) (zlen b);
    match r_out i with
    | [SnXidInd s2 k] =>
      do p <- sn_xid_rsp (r_m i) s2 k;
      match r_out p with
      | [LlXidRsp s3 b'] => do f <- ll_xid_cnf ca (r_m r) s3 (b' ++ room') (zlen b'); Ok (r_m f, r_m p, r_out f)
      | _ => Err EINVAL
      end
    | _ => Err EINVAL
    end
  | _ => Err EINVAL
  end.
