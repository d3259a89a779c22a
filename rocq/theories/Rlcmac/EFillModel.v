(** Model of building an uplink data block in an EGPRS coding scheme. *)
From Verif.Lib Require Import Base Outcome.
From Verif.Rlcmac Require Import RlcDataModel.

(** rlcmac_enc.c:195-225 [gprs_rlcmac_rlc_data_to_ul_append_egprs_li_padding]; rlc.h:71-79: bit-fields e:1, li:7 from the least significant
    bit, so LI = 127 with E = 1 is 255, and E = 0 of the octet before clears its least significant bit. *)
Definition append_pad (st : bst) : res bst :=
  do b1 <- (if b_nc st =? b_off st then Ok (b_buf st) else shift1 (b_buf st) (b_nc st) (b_off st - b_nc st));
  do b2 <- put b1 (b_nc st) [127 * 2 + 1];
  do b3 <- prev_li st (fun o => Z.land o 254) b2;
  Ok (mkbst b3 (zlen (b_buf st)) (b_nc st + 1) (b_e st)).

(** tbf_ul.c:733-775, the loop of create_new_bsn when cs is an EGPRS scheme (for GPRS: RlcDataModel.fill).  append_ul is the same function:
    gprs_rlcmac_enc_append_ul_data does not use its argument cs. *)
Fixpoint fill_e (final : bool) (st : bst) (pend : list (list Z)) : res (bst * list (list Z)) :=
  let drained := if 0 <? b_nc st then do st' <- append_pad st; Ok (st', pend) else UB in
  match pend with
  | [] => drained
  | msg :: rest =>
      if zlen msg =? 0 then drained else
      do r <- append_ul final st msg;
      let '(ar, st', more) := r in
      match ar with
      | NEED_MORE_BLOCKS => Ok (st', more :: rest)
      | COMPLETED_SPACE_LEFT => fill_e final st' rest
      | COMPLETED_BLOCK_FILLED => Ok (st', rest)
      end
  end.

(** tbf_ul.c:728-729: osmo_store32le. *)
Definition tlli_octets_le (tlli : Z) : list Z :=
  [Z.land tlli 255; Z.land (Z.shiftr tlli 8) 255; Z.land (Z.shiftr tlli 16) 255; Z.land (Z.shiftr tlli 24) 255].
(** tbf_ul.c:673-785 [create_new_bsn] for an EGPRS scheme with [dlen] data octets, as RlcDataModel.create_block. *)
Definition create_block_e (dlen : Z) (ti : bool) (tlli : Z) (final : bool) (pend : list (list Z)) : res (Z * list Z * list (list Z)) :=
  let buf := repeat 43 (Z.to_nat dlen) in
  do b0 <- (if ti then put buf 0 (tlli_octets_le tlli) else Ok buf);
  do r <- fill_e final (mkbst b0 (if ti then 4 else 0) 0 1) pend;
  let '(st, more) := r in
  Ok (b_e st, b_buf st, more).
