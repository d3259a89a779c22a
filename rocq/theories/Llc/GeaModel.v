(** Model of ciphering UI frames in LLC.  gprs_cipher_run, gprs_cipher_gen_input_ui (libosmocore) and the CRC-24 are parameters. *)
From Verif.Lib Require Import Base Outcome.

(** GPRS_CIPH_MS2SGSN, GPRS_CIPH_SGSN2MS of libosmocore. *)
Inductive dir := Ms2Sgsn | Sgsn2Ms.
(** llc_private.h:244-249: algorithm (0: GEA0), key, input offset value for UI frames. *)
Record llme := mkL { l_algo : Z; l_kc : list Z; l_iov : Z }.
(** GSM0464_CIPH_MAX_BLOCK of libosmocore, the size of cipher_out (llc.c:779). *)
Definition max_block : Z := 1523.

Section Cipher.
  (** gprs_cipher_run: the octets written for a length, or a failure; it writes as many octets as it is asked for. *)
  Variable cipher : Z -> list Z -> Z -> dir -> Z -> option (list Z).
  Variable gen_input : Z -> Z -> Z -> Z -> Z.
  Variable crc : list Z -> Z.

  Definition store (buf : list Z) (i : Z) (s : list Z) : res (list Z) :=
    if (0 <=? i) && (i + zlen s <=? zlen buf) then Ok (firstn (Z.to_nat i) buf ++ s ++ skipn (Z.to_nat i + length s) buf) else UB.
  Fixpoint xor (a b : list Z) : list Z := match a, b with x :: a', y :: b' => Z.lxor x y :: xor a' b' | _, _ => [] end.
  (** llc.c:809-810: the loop, over [n] octets at [i]. *)
  Definition xor_at (buf : list Z) (i n : Z) (g : list Z) : res (list Z) := do s <- rdn buf i n; store buf i (xor s g).
  (** llc.c:776-813 [apply_gea]; [buf]: the octets from data on, [fcs]: where fcs points, or NULL.  crypt_len is a uint16_t. *)
  Definition apply_gea (l : llme) (crypt_len nu oc sapi : Z) (fcs : option Z) (buf : list Z) : res (list Z) :=
    if l_algo l =? 0 then Err EINVAL else
    let n := crypt_len mod 65536 in
    let iv := gen_input (l_iov l) sapi nu oc in
    if max_block <? n then UB else
    match cipher (l_algo l) (l_kc l) iv (match fcs with Some _ => Sgsn2Ms | None => Ms2Sgsn end) n with
    | None => Err 42
    | Some g =>
      match fcs with
      | None => xor_at buf 0 n g
      | Some p =>
        do c <- rd buf 2;
        do b1 <- store buf 2 [Z.lor c 2];
        do h <- rdn b1 0 p;
        let f := crc h in
        do b2 <- store b1 p [Z.land f 255; Z.land (Z.shiftr f 8) 255; Z.land (Z.shiftr f 16) 255];
        xor_at b2 3 n g
      end
    end.

  (** llc.c:816-866 up to the header: a received UI frame [pdu] whose decoder found [data_len] octets of information from octet 3 on, N(U) [nu],
      the bits E and PM, and [fcs].  Result: nothing (dropped), or the frame as it goes on; error EIO: FCS.  UI_HDR_LEN is 3, N202 is 4.  The dummy
      command (its FCS never fits) is dropped without error, here as an error too. *)
  Definition rx_ui (l : llme) (oc sapi : Z) (pdu : list Z) (data_len nu : Z) (enc prot : bool) (fcs : Z) : res (option (list Z)) :=
    let check (p : list Z) (f : Z) :=
      let n := (zlen p - 3) mod 65536 in
      let n := if prot then n else Z.min n 7 in
      do h <- rdn p 0 n; if f =? crc h then Ok (Some p) else Err EIO in
    if enc then
      if l_algo l =? 0 then Ok None else
      do d <- apply_gea l (data_len + 3) nu oc sapi None (skipn 3 pdu);
      do a <- rd d data_len; do b <- rd d (data_len + 1); do c <- rd d (data_len + 2);
      check (firstn 3 pdu ++ d) (a + b * 256 + c * 65536)
    else check pdu fcs.
End Cipher.
