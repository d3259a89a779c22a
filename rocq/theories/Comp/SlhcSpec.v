(** What TCP/IP packets are, written from RFC 791, 793 and 1144 and not from slhc.c; and a link with a compressor at one
    end and a decompressor at the other. *)
From Verif.Lib Require Import Base Outcome.
From Verif.Comp Require Import SlhcModel.

Definition oct (p : list Z) (i : nat) : Z := nth i p 0.
Definition num16 (p : list Z) (i : nat) : Z := oct p i * 256 + oct p (i + 1).
(** Octets of the IP header, and of the TCP header behind it. *)
Definition hip (p : list Z) : nat := Z.to_nat (oct p 0 mod 16 * 4).
Definition htcp (p : list Z) : nat := Z.to_nat (oct p (hip p + 12) / 16 * 4).
Definition flags (p : list Z) : Z := oct p (hip p + 13).
(** TCP, and not a fragment. *)
Definition is_tcp (p : list Z) : Prop := oct p 9 = 6 /\ num16 p 6 mod 0x4000 = 0.
(** A packet of IP version 4 whose headers are in it. *)
Definition ipv4 (p : list Z) : Prop :=
  bytes p /\ oct p 0 / 16 = 4 /\ (20 <= hip p <= length p)%nat /\
  (is_tcp p -> (20 <= htcp p /\ hip p + htcp p <= length p)%nat).
(** TCP with ACK and without SYN, FIN, RST. *)
Definition steady (p : list Z) : Prop := is_tcp p /\ flags p mod 8 = 0 /\ flags p / 16 mod 2 = 1.
(** Sum of the 16-bit words. *)
Fixpoint sum16 (l : list Z) : Z := match l with a :: b :: r => a * 256 + b + sum16 r | _ => 0 end.
(** What RFC 1144 takes for granted: the total length is right, so is the header checksum (in the form a sender
    computes), there are addresses, and at most 32767 octets. *)
Definition exact (p : list Z) : Prop :=
  num16 p 2 = zlen p /\ zlen p <= 32767 /\
  sum16 (firstn (hip p) p) mod 65535 = 0 /\ num16 p 10 <> 65535 /\ slice 12 8 p <> repeat 0 8.
(** Addresses and ports. *)
Definition conn (p : list Z) : list Z * list Z := (slice 12 8 p, slice (hip p) 4 p).
(** Bits that are neither compared nor sent: the reserved bit of the fragment word, the reserved bits and ECE and CWR of TCP. *)
Definition unsent (p : list Z) : Z * Z * Z := (oct p 6 / 128, oct p (hip p + 12) mod 16, flags p / 64).
Definition urgent (p : list Z) : Prop := flags p / 32 mod 2 = 1.
(** [p] may follow [q] in a connection. *)
Definition follows (q p : list Z) : Prop := unsent q = unsent p /\ (urgent q -> urgent p).

(** One packet over the link: it is compressed; if not lost, the receiver has it at the start of a buffer, with [room] behind
    it, and hands up what [rfc1144_expand] leaves there. *)
Definition hop (room : list Z) (C D : slc) (p : list Z) (lost : bool) : res (slc * slc * (Z * option (list Z))) :=
  do r <- rfc1144_compress C p;
  let '(C, d, len, idx) := r in
  if lost then Ok (C, D, (idx, None)) else
  do r <- rfc1144_expand D (firstn (Z.to_nat len) d ++ room) len idx;
  let '(D, buf, n) := r in
  Ok (C, D, (idx, Some (firstn (Z.to_nat n) buf))).
Fixpoint link (room : list Z) (C D : slc) (ps : list (list Z * bool)) : res (slc * slc * list (Z * option (list Z))) :=
  match ps with
  | [] => Ok (C, D, [])
  | (p, lost) :: r =>
    do x <- hop room C D p lost;
    let '(C, D, o) := x in
    do y <- link room C D r;
    let '(C, D, os) := y in Ok (C, D, o :: os)
  end.

(** What the sender may send: packets of IP version 4, those that are compressed exact, and in each connection every one
    one that may follow those before. *)
Definition legal (ps : list (list Z)) : Prop :=
  Forall (fun p => ipv4 p /\ (steady p -> exact p)) ps /\
  ForallOrdPairs (fun q p => steady q -> steady p -> conn q = conn p -> follows q p) ps.
(** The receiver is in step with connection [k], by what was sent (packet, lost, index; the last first): nothing of it was
    lost, or since then a packet with index 1 (a whole header) of it has arrived. *)
Inductive in_step (k : list Z * list Z) : list (list Z * bool * Z) -> Prop :=
| IS_nil : in_step k []
| IS_other q lost idx tr : ~ (steady q /\ conn q = k) -> in_step k tr -> in_step k ((q, lost, idx) :: tr)
| IS_fresh q tr : steady q -> conn q = k -> in_step k ((q, false, 1) :: tr)
| IS_next q idx tr : in_step k tr -> in_step k ((q, false, idx) :: tr).
(** What happened, the last first. *)
Definition trace (ps : list (list Z * bool)) (os : list (Z * option (list Z))) : list (list Z * bool * Z) :=
  rev (combine ps (map fst os)).

(** A cache of connections, the one used last first: places, and what is in them. *)
Definition cache : Type := list (Z * option (list Z * list Z)).
Fixpoint take (k : list Z * list Z) (l : cache) : option (Z * cache) :=
  match l with
  | [] => None
  | (i, None) :: r => match take k r with Some (j, r') => Some (j, (i, None) :: r') | None => None end
  | (i, Some k') :: r =>
    if list_eq_dec Z.eq_dec (fst k) (fst k') then
      if list_eq_dec Z.eq_dec (snd k) (snd k') then Some (i, r)
      else match take k r with Some (j, r') => Some (j, (i, Some k') :: r') | None => None end
    else match take k r with Some (j, r') => Some (j, (i, Some k') :: r') | None => None end
  end.
(** The place of connection [k], which becomes the first; without a place, it gets the one not used for longest. *)
Definition lru_step (k : list Z * list Z) (l : cache) : Z * cache :=
  match take k l with
  | Some (i, r) => (i, (i, Some k) :: r)
  | None => let i := fst (last l (0, None)) in (i, (i, Some k) :: removelast l)
  end.
(** The packets [ps] sent: the octets and the index of each. *)
Fixpoint sendall (C : slc) (ps : list (list Z)) : res (slc * list (list Z * Z)) :=
  match ps with
  | [] => Ok (C, [])
  | p :: r =>
    do x <- rfc1144_compress C p;
    let '(C, d, len, idx) := x in
    do y <- sendall C r;
    let '(C, os) := y in Ok (C, (firstn (Z.to_nat len) d, idx) :: os)
  end.
(** Where the number of the place is: behind the mask of changes, or instead of the protocol. *)
Definition place (o : list Z * Z) : Z := if snd o =? 2 then oct (fst o) 1 else oct (fst o) 9.
(** The places a cache gives to the connections of the packets that use one. *)
Fixpoint places (l : cache) (ps : list (list Z)) (os : list (list Z * Z)) : Prop :=
  match ps, os with
  | [], [] => True
  | p :: ps, o :: os =>
    (~ steady p /\ o = (p, 0) /\ places l ps os) \/
    (steady p /\ (snd o = 1 \/ snd o = 2) /\ (snd o = 2 -> In (Some (conn p)) (map snd l)) /\
     place o = fst (lru_step (conn p) l) /\ places (snd (lru_step (conn p) l)) ps os)
  | _, _ => False
  end.
Definition cache0 (n : Z) : cache := map (fun i => (i, None)) (rev (zrange (Z.to_nat n))).

Definition num32 (p : list Z) (i : nat) : Z := num16 p i * 65536 + num16 p (i + 2).
(** [p] is the segment after [q] of a transfer in one direction: same connection, same fields but the checksums, the next
    identification, and the sequence number that follows the data of [q]; one of the two has data. *)
Definition bulk (q p : list Z) : Prop :=
  conn q = conn p /\ hip p = hip q /\ htcp p = htcp q /\ oct p 0 = oct q 0 /\ oct p 1 = oct q 1 /\ num16 p 6 = num16 q 6 /\ oct p 8 = oct q 8 /\
  num16 p 4 = num16 q 4 + 1 /\ slice 20 (hip p - 20) p = slice 20 (hip q - 20) q /\
  slice (hip p + 20) (htcp p - 20) p = slice (hip q + 20) (htcp q - 20) q /\ oct p (hip p + 12) = oct q (hip q + 12) /\
  (flags p = 16 \/ flags p = 24) /\ (flags q = 16 \/ flags q = 24) /\
  num16 p (hip p + 14) = num16 q (hip q + 14) /\ num16 p (hip p + 18) = num16 q (hip q + 18) /\ num32 p (hip p + 8) = num32 q (hip q + 8) /\
  num32 p (hip p + 4) = (num32 q (hip q + 4) + (zlen q - Z.of_nat (hip q + htcp q))) mod 2 ^ 32 /\
  (Z.of_nat (hip q + htcp q) < zlen q \/ Z.of_nat (hip p + htcp p) < zlen p).

(** Any octets with any index received, each with [room] behind it: the octets handed up. *)
Fixpoint recvall (room : list Z) (D : slc) (rs : list (list Z * Z)) : res (slc * list (list Z)) :=
  match rs with
  | [] => Ok (D, [])
  | (o, idx) :: r =>
    do x <- rfc1144_expand D (o ++ room) (zlen o) idx;
    let '(D, buf, n) := x in
    do y <- recvall room D r;
    let '(D, us) := y in Ok (D, firstn (Z.to_nat n) buf :: us)
  end.
