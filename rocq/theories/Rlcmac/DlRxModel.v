(** Model of the downlink RLC receive window and of the in-order release of blocks to reassembly.
    Sources: src/rlcmac/rlc_window.c, rlc_window_dl.c, tbf_dl.c (rcv_data_block), rlcmac_enc.c (ack/nack
    description).

    Conventions: as in UlTxModel (arrays are functions accessed through [dslot]; endless loops are [UB];
    16-bit truncation before a mask is left out).  SNS and WS are the constants 128 and 64: nothing calls
    gprs_rlcmac_rlc_window_set_sns/ws for a downlink TBF. *)
From Verif.Lib Require Import Base Outcome.

(** rlc_window_dl.h:13-18 [enum gprs_rlcmac_rlc_dl_bsn_state]. *)
Inductive nst := NINVALID | NRECEIVED | NMISSING.

(** rlc_window_dl.h:32-39 [struct gprs_rlcmac_rlc_dl_window]. *)
Record dlw := mkdlw { v_r : Z; v_q : Z; v_n : Z -> nst }.

(** rlc_window.c:25-44: WS = 64, SNS = 128, [mod_sns_bsn]. *)
Definition dws : Z := 64.
Definition dmod (x : Z) : Z := Z.land x 127.
(** rlc.h:81-84 [bsn & mod_sns_half()]. *)
Definition dslot (bsn : Z) : Z := Z.land bsn 1023.
Definition dupd {A} (f : Z -> A) (i : Z) (x : A) : Z -> A := fun j => if j =? i then x else f j.

(** rlc_window_dl.c:31-75. *)
Definition n_mark (w : dlw) (bsn : Z) (x : nst) : dlw := mkdlw (v_r w) (v_q w) (dupd (v_n w) (dslot bsn) x).
Definition n_received (w : dlw) (bsn : Z) : bool := match v_n w (dslot bsn) with NRECEIVED => true | _ => false end.

(** rlc_window_dl.c:105-115 [reset]. *)
Definition dlw_reset : dlw := mkdlw 0 0 (fun _ => NINVALID).

(** rlc_window_dl.c:137-147. *)
Definition in_window (w : dlw) (bsn : Z) : bool := dmod (bsn - v_q w) <? dws.

(** rlc_window_dl.c:206-216. *)
Definition r_add (w : dlw) (k : Z) : dlw := mkdlw (dmod (v_r w + k)) (v_q w) (v_n w).
Definition q_add (w : dlw) (k : Z) : dlw := mkdlw (v_r w) (dmod (v_q w + k)) (v_n w).

(** rlc_window_dl.c:219-240 [raise_v_r]: [while (offset_v_r--)]. *)
Fixpoint raise_r_loop (w : dlw) (k : nat) : dlw :=
  match k with
  | O => w
  | S k' =>
      let w1 := n_mark w (dmod (v_r w - dws)) NINVALID in
      let w2 := match k' with O => w1 | S _ => n_mark w1 (v_r w) NMISSING end in
      raise_r_loop (r_add w2 1) k'
  end.
Definition raise_v_r (w : dlw) (bsn : Z) : dlw :=
  let off := dmod (bsn + 1 - v_r w) in
  if off <? Z.shiftr 128 1 then raise_r_loop w (Z.to_nat off) else w.

(** rlc_window_dl.c:246-262 [raise_v_q]. *)
Fixpoint raise_q_loop (w : dlw) (fuel : nat) (n : Z) : res (dlw * Z) :=
  if v_q w =? v_r w then Ok (w, n) else
  match fuel with
  | O => UB
  | S f => if n_received w (v_q w) then raise_q_loop (q_add w 1) f (n + 1) else Ok (w, n)
  end.
Definition raise_v_q (w : dlw) : res (dlw * Z) := raise_q_loop w 128 0.

(** rlc_window_dl.c:264-268 [receive_bsn]. *)
Definition receive_bsn (w : dlw) (bsn : Z) : dlw := raise_v_r (n_mark w bsn NRECEIVED) bsn.

(** rlc_window_dl.c:161-176 [update_rbb] and rlcmac_enc.c:351-373: SSN and the 64 bits in the order in which
    they are appended to RECEIVED_BLOCK_BITMAP (bitvec_set_bit: most significant bit of an octet first). *)
Definition rbb (w : dlw) : list bool :=
  map (fun i => n_received w (dmod (v_r w - 1 - (dws - 1 - Z.of_nat i)))) (seq 0 64).
Fixpoint octet (l : list bool) (acc : Z) : Z := match l with [] => acc | b :: r => octet r (2 * acc + b2z b) end.
Fixpoint pack (n : nat) (l : list bool) : list Z :=
  match n with O => [] | S n' => octet (firstn 8 l) 0 :: pack n' (skipn 8 l) end.
Definition ack_desc (w : dlw) : Z * list Z := (v_r w, pack 8 (rbb w)).

Section Rx.
(** A received block as stored (struct gprs_rlcmac_rlc_block), opaque but for its final block indicator. *)
Context {B : Type} (fbi : B -> bool).

Record rx := mkrx { x_w : dlw; x_store : Z -> option B }.
(** tbf_dl.c:33-66: fresh window and zeroed block store ([None]: block->len is 0). *)
Definition rx_init : rx := mkrx dlw_reset (fun _ => None).

Inductive rout :=
| Fwd (b : option B)      (* block handed to gprs_rlcmac_dl_tbf_assemble_forward_llc *)
| Finished.               (* GPRS_RLCMAC_TBF_DL_EV_LAST_DL_DATA_RECVD *)

(** tbf_dl.c:281-383 [gprs_rlcmac_dl_tbf_rcv_data_block] for one block (rlcmac_dec.c:264: the decoder sets
    num_data_blocks to 1).  Timer T3190 and the scheduling of the poll answer are not part of this model;
    the stored block length is taken to be positive (a data block is never empty). *)
Definition rcv (x : rx) (bsn : Z) (b : B) : res (rx * list rout) :=
  let x1 := if negb (in_window (x_w x) bsn) then x
            else if n_received (x_w x) bsn then x
            else mkrx (receive_bsn (x_w x) bsn) (dupd (x_store x) (dslot bsn) (Some b)) in
  do r <- raise_v_q (x_w x1);
  let '(w2, count) := r in
  let fw := map (fun i => Fwd (x_store x1 (dslot (dmod (v_q (x_w x1) + Z.of_nat i))))) (seq 0 (Z.to_nat count)) in
  let fin := if v_q w2 =? v_r w2
             then match x_store x1 (dslot (dmod (v_r w2 - 1))) with
                  | Some last => if fbi last then [Finished] else []
                  | None => []
                  end
             else [] in
  Ok (mkrx w2 (x_store x1), fw ++ fin).

Fixpoint rrun (x : rx) (l : list (Z * B)) : res (rx * list rout) :=
  match l with
  | [] => Ok (x, [])
  | (bsn, b) :: r => do y <- rcv x bsn b; let '(x1, o) := y in
                     do z <- rrun x1 r; let '(x2, o2) := z in Ok (x2, o ++ o2)
  end.
End Rx.
Arguments rx : clear implicits.
Arguments rout : clear implicits.
