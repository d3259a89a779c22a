(** Model of Van Jacobson TCP/IP header compression: src/sndcp/slhc.c, and the two functions of
    src/sndcp/sndcp_pcomp.c that drive it.

    Simplifications, valid for the whole file:
    - The statistics counters (only printed), the member [cs_hsize] (never read) and logging are absent.
    - The IP and the TCP header of a connection are kept as their 20 octets each, the options as 64 octets each,
      as laid out in memory; a field is read from its octets.  [cs_this] of a transmit state is its index
      (slhc.c:154-161 sets it once); the [next] pointers of the ring are indices, in a list of their own.
    - A buffer is the list of all its octets; [UB] is an access outside it, a NULL pointer that is followed, or a
      search of the ring that does not end. *)
From Verif.Lib Require Import Base Outcome.

(** slhc.h:88-106. *)
Definition SL_UNC : Z := 0x70. Definition SL_CMP : Z := 0x80.
Definition NEW_C : Z := 0x40. Definition NEW_I : Z := 0x20. Definition TCP_PUSH : Z := 0x10.
Definition NEW_S : Z := 8. Definition NEW_A : Z := 4. Definition NEW_W : Z := 2. Definition NEW_U : Z := 1.
Definition SPECIAL_I : Z := 11. Definition SPECIAL_D : Z := 15. Definition SPECIALS_MASK : Z := 15.
Definition IPPROTO_TCP : Z := 6.

(** ** Octets *)

(** Octet [i] of a string, and numbers in network order (ntohs, ntohl). *)
Definition at8 (l : list Z) (i : nat) : Z := nth i l 0.
Definition at16 (l : list Z) (i : nat) : Z := at8 l i * 256 + at8 l (i + 1).
Definition at32 (l : list Z) (i : nat) : Z := at16 l i * 65536 + at16 l (i + 2).
(** The octets of a number in network order (htons, htonl). *)
Definition be16 (n : Z) : list Z := [n / 256 mod 256; n mod 256].
Definition be32 (n : Z) : list Z := be16 (n / 65536) ++ be16 n.
(** Overwrites part of a string that is long enough. *)
Definition ow (l : list Z) (off : nat) (src : list Z) : list Z := firstn off l ++ src ++ skipn (off + length src) l.
(** memcpy of [src] to offset [off] of the buffer [buf]. *)
Definition wr (buf : list Z) (off : Z) (src : list Z) : res (list Z) :=
  if (0 <=? off) && (off + zlen src <=? zlen buf) then Ok (ow buf (Z.to_nat off) src) else UB.

(** slhc.c:75-96 [ip_fast_csum]: the loop over [ihl * 2] pairs of octets, and the result as the number that
    is stored in network order. *)
Fixpoint csum_acc (acc : Z) (l : list Z) : Z :=
  match l with
  | a :: b :: r => let t := acc + (a * 256 + b) in csum_acc (if 65535 <? t then (t + 1) mod 65536 else t) r
  | _ => acc
  end.
Definition ip_csum (hdr : list Z) : Z := (-1 - csum_acc 65535 hdr) mod 65536.

(** ** State *)

(** slhc.h:128-136 [struct cstate]. *)
Record cst := mkCst { c_ip : list Z; c_tcp : list Z; c_ipopt : list Z; c_tcpopt : list Z }.
(** slhc.h:142-170 [struct slcompress]; a NULL array of states is the empty list.  The limits are the lengths
    less one. *)
Record slc := mkSlc { tx : list cst; nxt : list Z; rx : list cst; oldest : Z; xcur : Z; rcur : Z; toss : bool }.

(** slhc.c:126,134: talloc_zero_size. *)
Definition cst0 : cst := mkCst (repeat 0 20) (repeat 0 20) (repeat 0 64) (repeat 0 64).
(** slhc.c:109-169 [slhc_init], allocation never fails. *)
Definition slhc_init (rslots tslots : Z) : option slc :=
  if (rslots <? 0) || (255 <? rslots) || (tslots <? 0) || (255 <? tslots) then None
  else Some (mkSlc (repeat cst0 (Z.to_nat tslots))
               (map (fun i => if i =? 0 then tslots - 1 else i - 1) (zrange (Z.to_nat tslots)))
               (repeat cst0 (Z.to_nat rslots)) 0 255 255 true).

(** Replaces element [i]. *)
Definition upd {A} (l : list A) (i : Z) (v : A) : list A := firstn (Z.to_nat i) l ++ v :: skipn (S (Z.to_nat i)) l.
(** Element [i] of an array. *)
Definition ix {A} (d : A) (l : list A) (i : Z) : A := nth (Z.to_nat i) l d.

(** ** Numbers in the change list *)

(** slhc.c:190-213 [put16], [encode]; the argument is an unsigned short. *)
Definition encode (n : Z) : list Z :=
  let n := n mod 65536 in if (256 <=? n) || (n =? 0) then 0 :: be16 n else [n].
(** slhc.c:216-240 [pull16], [decode]: the number and the next offset. *)
Definition decode (buf : list Z) (i : Z) : res (Z * Z) :=
  do x <- rd buf i;
  if x =? 0 then do h <- rd buf (i + 1); do l <- rd buf (i + 2); Ok (h * 256 + l, i + 3) else Ok (x, i + 1).

(** ** The compressor *)

(** Fields of the TCP header: slhc.c:285,386 [doff], 291 the flags. *)
Definition doff (th : list Z) : Z := at8 th 12 / 16.
Definition ihl (ip : list Z) : Z := at8 ip 0 mod 16.

(** slhc.c:319-331: the search of the ring, from the state after [lcs] up to the oldest; the result is whether
    it was found, the predecessor and the state. *)
Fixpoint search (fuel : nat) (s : slc) (key : list Z * list Z) (lcs cs : Z) : option (bool * Z * Z) :=
  match fuel with
  | O => None
  | S f =>
    let c := ix cst0 (tx s) cs in
    if (if list_eq_dec Z.eq_dec (fst key) (slice 12 8 (c_ip c)) then
          if list_eq_dec Z.eq_dec (snd key) (slice 0 4 (c_tcp c)) then true else false
        else false)
    then Some (true, lcs, cs)
    else if cs =? oldest s then Some (false, lcs, cs)
    else search f s key cs (ix 0 (nxt s) cs)
  end.

(** slhc.c:340-343 (not found) and 350-361 (found): the new ring and the new oldest state. *)
Definition relink (s : slc) (found : bool) (lcs cs : Z) : list Z * Z :=
  if found then
    if lcs =? oldest s then (nxt s, oldest s)
    else if cs =? oldest s then (nxt s, lcs)
    else
      let n1 := upd (nxt s) lcs (ix 0 (nxt s) cs) in
      let n2 := upd n1 cs (ix 0 n1 (oldest s)) in
      (upd n2 (oldest s) cs, oldest s)
  else (nxt s, lcs).

(** slhc.c:411-421: what must not have changed. *)
Definition unchanged (c : cst) (ip ipopt th tcpopt : list Z) : bool :=
  (at8 ip 0 / 16 =? at8 (c_ip c) 0 / 16) && (ihl ip =? ihl (c_ip c)) && (at8 ip 1 =? at8 (c_ip c) 1)
  && (Z.land (at16 ip 6) 0x4000 =? Z.land (at16 (c_ip c) 6) 0x4000) && (at8 ip 8 =? at8 (c_ip c) 8)
  && (doff th =? doff (c_tcp c))
  && (if list_eq_dec Z.eq_dec ipopt (firstn (length ipopt) (c_ipopt c)) then true else false)
  && (if list_eq_dec Z.eq_dec tcpopt (firstn (length tcpopt) (c_tcpopt c)) then true else false).

(** slhc.c:428-519: the mask of changes and the change list; [None] is a packet that goes uncompressed. *)
Definition delta (c : cst) (ip ipopt th tcpopt : list Z) (hlen : Z) : option (Z * list Z) :=
  if negb (unchanged c ip ipopt th tcpopt) then None else
  let oth := c_tcp c in let otot := at16 (c_ip c) 2 in
  let urg := tst (at8 th 13) 0x20 in
  if negb urg && negb (at16 th 18 =? at16 oth 18) then None else
  let dW := at16 th 14 - at16 oth 14 in
  let dA := (at32 th 8 - at32 oth 8) mod 2 ^ 32 in
  let dS := (at32 th 4 - at32 oth 4) mod 2 ^ 32 in
  if (0xffff <? dA) || (0xffff <? dS) then None else
  let ch := b2z urg * NEW_U + b2z (negb (dW =? 0)) * NEW_W + b2z (negb (dA =? 0)) * NEW_A + b2z (negb (dS =? 0)) * NEW_S in
  let seq := (if urg then encode (at16 th 18) else []) ++ (if dW =? 0 then [] else encode dW)
             ++ (if dA =? 0 then [] else encode dA) ++ (if dS =? 0 then [] else encode dS) in
  let sp :=
    if ch =? 0 then if negb (at16 ip 2 =? otot) && (otot =? hlen) then Some (ch, seq) else None
    else if (ch =? SPECIAL_I) || (ch =? SPECIAL_D) then None
    else if ch =? NEW_S + NEW_A then if (dS =? dA) && (dS =? otot - hlen) then Some (SPECIAL_I, []) else Some (ch, seq)
    else if ch =? NEW_S then if dS =? otot - hlen then Some (SPECIAL_D, []) else Some (ch, seq)
    else Some (ch, seq) in
  match sp with
  | None => None
  | Some (ch, seq) =>
    let dI := at16 ip 4 - at16 (c_ip c) 4 in
    Some (ch + (if dI =? 1 then 0 else NEW_I) + (if tst (at8 th 13) 8 then TCP_PUSH else 0),
          seq ++ (if dI =? 1 then [] else encode dI))
  end.

(** slhc.c:248-571 [slhc_compress]; [p] are the [isize] octets at [icp], [o] the buffer at [ocp] (never the same as
    [icp]).  Result: the state, the buffer at [ocp], the length, and whether [*cpp] was set to [ocp].
    The 20 octets of the TCP header are read at once (slhc.c reads single fields from line 319 on, and
    all of them in line 526 or 558). *)
Definition slhc_compress (s : slc) (p o : list Z) (cid : bool) : res (slc * list Z * Z * bool) :=
  let isize := zlen p in
  match tx s with
  | [] => UB
  | _ =>
    if isize <? 20 then Ok (s, o, isize, false) else
    let ip := firstn 20 p in
    if negb (at8 ip 9 =? IPPROTO_TCP) || negb (Z.land (at16 ip 6) 0x3fff =? 0) then Ok (s, o, isize, false) else
    let off := ihl ip * 4 in
    do b12 <- rd p (off + 12);
    let hlen := off + b12 / 16 * 4 in
    if isize <? hlen then Ok (s, o, isize, false) else
    do fl <- rd p (off + 13);
    if tst fl 2 || tst fl 1 || tst fl 4 || negb (tst fl 0x10) then Ok (s, o, isize, false) else
    do th <- rdn p off 20;
    let ipopt := slice 20 (Z.to_nat ((ihl ip - 5) * 4)) p in
    let tcpopt := slice (Z.to_nat (off + 20)) (Z.to_nat ((doff th - 5) * 4)) p in
    match search 256 s (slice 12 8 ip, slice 0 4 th) (oldest s) (ix 0 (nxt s) (oldest s)) with
    | None => UB
    | Some (found, lcs, cs) =>
      let '(nxt', oldest') := relink s found lcs cs in
      let c := ix cst0 (tx s) cs in
      match (if found then delta c ip ipopt th tcpopt hlen else None) with
      | Some (ch, seq) =>
        let hdr := (if negb cid || negb (xcur s =? cs) then [Z.lor ch NEW_C; cs] else [ch]) ++ slice 16 2 th in
        let xcur' := if negb cid || negb (xcur s =? cs) then cs else xcur s in
        let out := hdr ++ seq ++ skipn (Z.to_nat hlen) p in
        do o' <- wr o 0 (Z.lor (at8 out 0) SL_CMP :: tl out);
        Ok (mkSlc (upd (tx s) cs (mkCst ip th (c_ipopt c) (c_tcpopt c))) nxt' (rx s) oldest' xcur' (rcur s) (toss s),
            o', zlen out, true)
      | None =>
        do o' <- wr o 0 (ow (ow p 9 [cs]) 0 [Z.lor (at8 p 0) SL_UNC]);
        Ok (mkSlc (upd (tx s) cs (mkCst ip th (ow (c_ipopt c) 0 ipopt) (ow (c_tcpopt c) 0 tcpopt))) nxt' (rx s) oldest' cs
              (rcur s) (toss s), o', isize, true)
      end
    end
  end.

(** ** The decompressor *)

(** slhc.c:781-790 [slhc_toss]. *)
Definition slhc_toss (s : slc) : slc := mkSlc (tx s) (nxt s) (rx s) (oldest s) (xcur s) (rcur s) true.

(** slhc.c:639: conversion to short. *)
Definition short (n : Z) : Z := (n + 32768) mod 65536 - 32768.

(** slhc.c:630-671: the TCP header and the next offset. *)
Definition un_tcp (ch : Z) (ip th : list Z) (hdrlen : Z) (buf : list Z) (i : Z) : res (list Z * Z) :=
  let m := Z.land ch SPECIALS_MASK in
  if m =? SPECIAL_I then
    let d := short (at16 ip 2 - hdrlen) in
    Ok (ow (ow th 8 (be32 (at32 th 8 + d))) 4 (be32 (at32 th 4 + d)), i)
  else if m =? SPECIAL_D then
    Ok (ow th 4 (be32 (at32 th 4 + at16 ip 2 - hdrlen)), i)
  else
    do a <- (if tst ch NEW_U then
               do x <- decode buf i; Ok (ow (ow th 13 [Z.lor (at8 th 13) 0x20]) 18 (be16 (fst x)), snd x)
             else Ok (ow th 13 [Z.land (at8 th 13) 0xdf], i));
    do a <- (if tst ch NEW_W then
               do x <- decode buf (snd a); Ok (ow (fst a) 14 (be16 (at16 (fst a) 14 + fst x)), snd x)
             else Ok a);
    do a <- (if tst ch NEW_A then
               do x <- decode buf (snd a); Ok (ow (fst a) 8 (be32 (at32 (fst a) 8 + fst x)), snd x)
             else Ok a);
    if tst ch NEW_S then
      do x <- decode buf (snd a); Ok (ow (fst a) 4 (be32 (at32 (fst a) 4 + fst x)), snd x)
    else Ok a.

(** slhc.c:574-724 [slhc_uncompress]; [buf] is the whole buffer at [icp], of which the first [isize] octets are the packet.
    Result: the state, the buffer, the length. *)
Definition slhc_uncompress (s : slc) (buf : list Z) (isize : Z) : res (slc * list Z * Z) :=
  if isize <? 3 then Ok (s, buf, 0) else
  do ch <- rd buf 0;
  do a <- (if tst ch NEW_C then
             do x <- rd buf 1;
             if Z.max 0 (zlen (rx s) - 1) <? x then Ok None else Ok (Some (mkSlc (tx s) (nxt s) (rx s) (oldest s) (xcur s) x false, 2))
           else Ok (Some (s, 1)));
  match a with
  | None => Ok (slhc_toss s, buf, 0)
  | Some (s, i) =>
    if toss s then Ok (s, buf, 0) else
    if (rcur s <? 0) || (zlen (rx s) <=? rcur s) then UB else
    let c := ix cst0 (rx s) (rcur s) in
    do ck <- rdn buf i 2;
    let th := ow (c_tcp c) 16 ck in
    let th := ow th 13 [if tst ch TCP_PUSH then Z.lor (at8 th 13) 8 else Z.land (at8 th 13) 0xf7] in
    let ip := c_ip c in
    let hdrlen := ihl ip * 4 + doff th * 4 in
    do a <- un_tcp ch ip th hdrlen buf (i + 2);
    let th := fst a in
    do d <- (if tst ch NEW_I then do x <- decode buf (snd a); Ok x else Ok (1, snd a));
    let ip := ow ip 4 (be16 (at16 ip 4 + fst d)) in
    let i := snd d in
    let len := isize - i in
    let keep ip := mkSlc (tx s) (nxt s) (upd (rx s) (rcur s) (mkCst ip th (c_ipopt c) (c_tcpopt c))) (oldest s) (xcur s) (rcur s) (toss s) in
    if len <? 0 then Ok (slhc_toss (keep ip), buf, 0) else
    let ip := ow (ow ip 2 (be16 (len + hdrlen))) 10 [0; 0] in
    do data <- rdn buf i len;
    do buf <- wr buf hdrlen data;
    do buf <- wr buf 0 ip;
    let ipopt := firstn (Z.to_nat ((ihl ip - 5) * 4)) (c_ipopt c) in
    do buf <- wr buf 20 ipopt;
    do hdr <- rdn buf 0 (ihl ip * 4);
    do buf <- wr buf 10 (be16 (ip_csum hdr));
    do buf <- wr buf (20 + zlen ipopt) th;
    do buf <- wr buf (40 + zlen ipopt) (firstn (Z.to_nat ((doff th - 5) * 4)) (c_tcpopt c));
    Ok (keep ip, buf, len + hdrlen)
  end.

(** slhc.c:728-779 [slhc_remember]; [buf] and [isize] as above. *)
Definition slhc_remember (s : slc) (buf : list Z) (isize : Z) : res (slc * list Z * Z) :=
  if isize <? 20 then Ok (slhc_toss s, buf, 0) else
  do b0 <- rd buf 0;
  let h := b0 mod 16 in
  if h <? 5 then Ok (slhc_toss s, buf, 0) else
  do index <- rd buf 9;
  do buf <- wr buf 9 [IPPROTO_TCP];
  do hdr <- rdn buf 0 (h * 4);
  if negb (ip_csum hdr =? 0) then Ok (slhc_toss s, buf, 0) else
  if Z.max 0 (zlen (rx s) - 1) <? index then Ok (slhc_toss s, buf, 0) else
  if zlen (rx s) <=? index then UB else
  let c := ix cst0 (rx s) index in
  do ip <- rdn buf 0 20;
  do th <- rdn buf (h * 4) 20;
  do ipopt <- rdn buf 20 ((h - 5) * 4);
  do tcpopt <- (if 5 <? doff th then rdn buf (h * 4 + 20) ((doff th - 5) * 4) else Ok []);
  Ok (mkSlc (tx s) (nxt s) (upd (rx s) index (mkCst ip th (ow (c_ipopt c) 0 ipopt) (ow (c_tcpopt c) 0 tcpopt)))
        (oldest s) (xcur s) index false, buf, isize).

(** ** The entity of SNDCP *)

(** sndcp_pcomp.c:92-121 [rfc1144_compress]; [data] is the whole buffer (of exactly [len] octets).  Result: the state,
    the buffer, the length and the index of the PCOMP value. *)
Definition rfc1144_compress (s : slc) (data : list Z) : res (slc * list Z * Z * Z) :=
  do r <- slhc_compress s data data false;
  let '(s, o, len, _) := r in
  do b <- rd o 0;
  if tst b SL_CMP then
    do src <- rdn (ow o 0 [Z.land b 0x7f]) 0 len; do d <- wr data 0 src; Ok (s, d, len, 2)
  else if Z.land b SL_UNC =? SL_UNC then
    do src <- rdn (ow o 0 [Z.land b 0x4f]) 0 len; do d <- wr data 0 src; Ok (s, d, len, 1)
  else Ok (s, data, len, 0).

(** sndcp_pcomp.c:124-171 [rfc1144_expand]. *)
Definition rfc1144_expand (s : slc) (buf : list Z) (len idx : Z) : res (slc * list Z * Z) :=
  if idx =? 1 then
    do b <- rd buf 0; slhc_remember s (ow buf 0 [Z.land b 0x4f]) len
  else if idx =? 2 then slhc_uncompress s buf len
  else Ok (s, buf, len).
