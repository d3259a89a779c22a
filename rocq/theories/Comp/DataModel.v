(** Data compression with the tables of a mobile (sndcp_dcomp.c) and both compressions one behind the other (sndcp.c). *)
From Verif.Lib Require Import Base Outcome.
From Verif.Comp Require Import SlhcModel XidModel NegModel V42Model.

(** sndcp_dcomp.c:298-342 [gprs_sndcp_dcomp_compress]: the data sent and the DCOMP value.  The table is not changed: the
    state of V.42bis is set up anew for every N-PDU (line 171).  Lines 321, 325: assertions. *)
Definition dcomp_compress (t : list ent) (data : list Z) (nsapi : Z) : res (list Z * Z) :=
  match first_with (fun e => has nsapi (en_nsapi e)) t with
  | None => Ok (data, 0)
  | Some (_, e, _) =>
    match en_alg e, en_state e with
    | V42BIS, V42 (Some (p0, p1, p2)) =>
      do r <- compress_unitdata p0 p1 p2 data;
      let (o, idx) := (r : list Z * Z) in Ok (o, get_comp e idx)
    | _, _ => UB
    end
  end.
(** sndcp_dcomp.c:250-295 [gprs_sndcp_dcomp_expand]; [room] is the size of the memory [data] stands in.  Lines 278, 282:
    assertions. *)
Definition dcomp_expand (t : list ent) (room : Z) (data : list Z) (dcomp : Z) : res (list Z) :=
  if dcomp =? 0 then Ok data else
  match first_with (fun e => has dcomp (en_comp e)) t with
  | None => Ok data
  | Some (_, e, _) =>
    match en_alg e, en_state e with
    | V42BIS, V42 (Some (p0, p1, p2)) => expand_unitdata p0 p1 p2 room data (get_idx e dcomp)
    | _, _ => UB
    end
  end.

(** sndcp.c:646-674, the part of [gprs_sndcp_sne_handle_sn_unitdata_req] before the SN-PDUs are made, when compression is on: the table of header compression, the data of the SN-PDUs, PCOMP and DCOMP. *)
Definition squeeze (P D : list ent) (npdu : list Z) (nsapi : Z) : res (list ent * list Z * Z * Z) :=
  do r <- pcomp_compress P npdu nsapi;
  let '(P, d, len, pcomp) := r in
  do r <- dcomp_compress D (firstn (Z.to_nat len) d) nsapi;
  let (o, dcomp) := (r : list Z * Z) in Ok (P, o, pcomp, dcomp).
(** sndcp.c:335-379 [decompress_segment]: the table of header compression and the N-PDU.  Line 349: the memory is ten times
    the data and 64 octets more (dcomp.h:30, pcomp.h:30); what data expansion leaves of it is as before. *)
Definition segment (P D : list ent) (data : list Z) (pcomp dcomp : Z) : res (list ent * list Z) :=
  let room := zlen data * 10 + 64 in
  let mem := data ++ repeat 0 (Z.to_nat (room - zlen data)) in
  do d <- dcomp_expand D room data dcomp;
  do r <- pcomp_expand P (d ++ skipn (length d) mem) (zlen d) pcomp;
  let '(P, buf, n) := r in Ok (P, firstn (Z.to_nat n) buf).
