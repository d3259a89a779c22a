(** Model of what the RLC/MAC layer does with blocks of the CCCH and BCCH (src/rlcmac/rlcmac.c, rlcmac_prim.c). *)
From Coq Require Import ZArith List Bool Lia.
From Verif Require Import Lib.Base Csn1.Csn1Model Csn1.Csn1Tables Csn1.Csn1DlModel Csn1.Csn1EncModel
  Rlcmac.FnModel Rlcmac.UlTbfModel.
Import ListNotations.
Open Scope Z_scope.

(** rlcmac_prim.h:190-204: the frequencies of L1CTL-PDCH_ESTABLISH.req. *)
Inductive freq := Arfcn (n : Z) | Hopping (hsn maio : Z) (ma : list Z).
(** What a block makes the layer do: primitives to the lower and upper layer, assignments handed to the state machines of
    the TBFs, timers set from the system information. *)
Inductive cact :=
  | PdchEst (ts tsc ta : Z) (f : freq)                       (* L1CTL-PDCH_ESTABLISH.req *)
  | PageInd (tlli : Z)                                       (* GMMRR-PAGE.ind *)
  | UlAssigned (tn fn : Z) (ia : imm_ass)                    (* to the uplink TBF that waits for it, rlcmac.c:207-231 *)
  | DlAssigned (e tn fn tfi : Z) (start : option Z)          (* to the downlink TBF of the entity number [e] *)
  | SetTimer (t ms : Z).
(** Return value and actions, a read outside the block (or a write outside a decoded structure), a failed assertion. *)
Inductive cres := Done (rc : Z) (a : list cact) | OutOfBounds | Abort.
Definition cbind {A} (o : option A) (f : A -> cres) : cres := match o with Some a => f a | None => OutOfBounds end.

(** include/osmocom/gprs/rlcmac/gre.h:17-34: the identities of an entity. *)
Record ent := mkEnt { e_tlli : Z; e_old_tlli : Z; e_ptmsi : Z; e_imsi : list Z }.
(** libosmocore's struct osmo_mobile_identity; an IMSI is a string. *)
Inductive mobile_id := MiNone | MiImsi (digits : list Z) | MiTmsi (t : Z) | MiOther.

Definition EBADMSG : Z := 74.
Definition ENOENT : Z := 2.
Definition ENOTSUP : Z := 95.
Definition EINVAL : Z := 22.
(** GSM_MACBLOCK_LEN *)
Definition MACBLOCK : Z := 23.

Section Ccch.
(** libosmocore: rsl_dec_chan_nr (timeslot, or the error returned), osmo_mobile_identity_decode, gsm_rfn2fn,
    bitvec_read_field outside the vector. *)
Variable rsl : Z -> Z + Z.
Variable mi_dec : list Z -> mobile_id + Z.
Variable rfn2fn : Z -> Z -> Z.
Variable past : Z -> Z -> Z * Z.
(** The value the lower layer returns for L1CTL-PDCH_ESTABLISH.req. *)
Variable est_rc : Z.
Variable ents : list ent.
(** Some uplink TBF waits for an assignment on the CCCH (rlcmac.c:219-224). *)
Variable ul_waits : bool.

Section Block.
Variable msg : list Z.
(** One octet of the block. *)
Definition oct (i : Z) : option Z := if (0 <=? i) && (i <? zlen msg) then Some (nth (Z.to_nat i) msg 0) else None.
Definition octs (i n : Z) : option (list Z) :=
  if (0 <=? i) && (0 <=? n) && (i + n <=? zlen msg) then Some (slice (Z.to_nat i) (Z.to_nat n) msg) else None.

(** csn1_ts_44_018.c:612-640 [_osmo_gprs_rlcmac_decode]: [len] is a size_t and 8 * len becomes an int (csn1.c:71); when that
    is negative the decoder returns at once (csn1_dec.c:72-75), else it may read all [len] octets.  The result: the
    contents of the structure, or the (negative) return value.  None of the tables has an entry that makes the decoder
    return a positive error (csn1_dec.c:289, 379). *)
Inductive rores := RoOk (m : mem) | RoErr (rc : Z) | RoBad.
Definition int32 (v : Z) : Z := (v + 2 ^ 31) mod 2 ^ 32 - 2 ^ 31.
Definition decode_at (dec : (Z -> bool) -> Z -> mem -> dres) (off len : Z) (m : mem) : rores :=
  if int32 (8 * len) <? 0 then RoErr NEED_MORE
  else if (0 <=? off) && (off + len <=? zlen msg) then
    match dec (msg_bits (skipn (Z.to_nat off) msg)) len m with DOk s => RoOk (s_mem s) | DErr c => RoErr c | DUB => RoBad end
  else RoBad.

(** rlcmac.c:137-165 *)
Definition by_tlli (t : Z) : option (nat * ent) :=
  find (fun e => (e_tlli (snd e) =? t) || (e_old_tlli (snd e) =? t)) (combine (seq 0 (length ents)) ents).
Definition by_ptmsi (t : Z) : option ent := find (fun e => e_ptmsi e =? t) ents.
Fixpoint eqs (a b : list Z) : bool :=
  match a, b with [], [] => true | x :: a, y :: b => (x =? y) && eqs a b | _, _ => false end.
Definition by_imsi (d : list Z) : option ent := find (fun e => eqs (e_imsi e) d) ents.

(** rlcmac_dec.c:434-444 [TBF_StartingTime_to_fn] for a StartingTime_t at [a]. *)
Definition start_fn (m : mem) (a fn : Z) : Z := rfn2fn (starting_time_rfn (m a) (m (a + 1)) (m (a + 2))) fn.

(** *** Immediate assignment *)
(** Members of IA_RestOctets_t (csn1_defs.h:626-872, offsets as in Csn1Tables): UnionType, u.lh.lh0x.UnionType,
    u.hh.UnionType, u.hh.u.UplinkDownlinkAssignment.UnionType; of the uplink assignment: UnionType,
    SingleBlockAllocation.TBF_STARTING_TIME, DynamicOrFixedAllocation.{TFI_ASSIGNMENT, UnionType, USF,
    CHANNEL_CODING_COMMAND, Exist_TBF_STARTING_TIME, TBF_STARTING_TIME}; of the downlink assignment: TLLI, TFI_ASSIGNMENT,
    Exist_TBF_STARTING_TIME, TBF_STARTING_TIME. *)
Definition ia_type := 0. Definition ia_lh := 8. Definition ia_hh := 4. Definition ia_uldl := 8.
Definition ia_ul := 12. Definition ia_sb_start := 23.
Definition ia_tfi := 16. Definition ia_alloc := 18. Definition ia_usf := 19. Definition ia_ccc := 24.
Definition ia_start_ex := 31. Definition ia_start := 32.
Definition ia_tlli := 12. Definition ia_dl_tfi := 17. Definition ia_dl_start_ex := 26. Definition ia_dl_start := 27.

(** tbf_ul_ass_fsm.c:138-192: the contents of the assignment; None: the assertion in 192. *)
Definition ul_contents (m : mem) (fn : Z) : option imm_ass :=
  let hh :=
    if m ia_hh =? 0 then
      if m ia_uldl =? 0 then
        if m ia_ul =? 0 then Some (IaSingleBlock (start_fn m ia_sb_start fn))
        else if m ia_ul =? 1 then
          let st := if m ia_start_ex =? 0 then None else Some (start_fn m ia_start fn) in
          if m ia_alloc =? 0 then Some (IaDynamic (m ia_tfi) (m ia_usf) (m ia_ccc) st)
          else if m ia_alloc =? 1 then Some (IaFixed (m ia_tfi) (m ia_ccc) st)
          else None
        else None
      else None
    else None in
  if m ia_type =? 1 then if m ia_lh =? 0 then Some IaEgprs else hh        (* 139-144 falls through *)
  else if m ia_type =? 3 then hh else None.
(** rlcmac.c:207-231: the assignment goes to the first TBF that waits for one. *)
Definition to_ul (ts fn : Z) (m : mem) (a : list cact) : cres :=
  if negb ul_waits then Done (- ENOENT) a else
  match ul_contents m fn with Some ia => Done 0 (a ++ [UlAssigned ts fn ia]) | None => Abort end.
(** rlcmac.c:233-261 and tbf_dl_ass_fsm.c:62-96. *)
Definition to_dl (ts fn : Z) (m : mem) (a : list cact) : cres :=
  if m ia_type =? 1 then Done (- ENOENT) a
  else match by_tlli (rdle m ia_tlli 4) with
       | None => Done (- ENOENT) a
       | Some (i, _) =>
           if (m ia_type =? 3) && (m ia_hh =? 0) && (m ia_uldl =? 1) then
             let st := if m ia_dl_start_ex =? 0 then None else Some (start_fn m ia_dl_start fn) in
             Done 0 (a ++ [DlAssigned (Z.of_nat i) ts fn (m ia_dl_tfi) st])
           else Abort
       end.
(** rlcmac.c:263-377 [gprs_rlcmac_handle_ccch_imm_ass] with libosmocore's struct gsm48_imm_ass (octets 0-11: pseudo length,
    protocol discriminator, message type, page mode and dedicated mode, channel description 4-6, request reference 7-9,
    timing advance, length of the mobile allocation).  [m0]: what the stack held in [iaro] (267) before. *)
Definition handle_imm_ass (m0 : mem) (fn : Z) : cres :=
  cbind (oct 11) (fun mal =>
  let off := 12 + mal in
  let len := (MACBLOCK - (12 + mal)) mod 2 ^ 64 in                                       (* 268-269 *)
  cbind (oct 4) (fun chan =>
  match rsl chan with
  | inr rc => Done rc []                                                                 (* 272-277 *)
  | inl ts =>
      match decode_at (decode_imm_ass_ro false past) off len m0 with                     (* 280-284 *)
      | RoBad => OutOfBounds
      | RoErr rc => Done rc []
      | RoOk m =>
          cbind (oct 5) (fun c1 => cbind (oct 6) (fun c2 => cbind (oct 10) (fun ta =>
          let tsc := c1 / 32 in
          let go (f : freq) :=
            let a := [PdchEst ts tsc ta f] in
            if negb (est_rc =? 0) then Done est_rc a                                     (* 317-321 *)
            else if m ia_type =? 1 then                                                  (* 328-338 *)
              if m ia_lh =? 0 then to_ul ts fn m a else if m ia_lh =? 1 then to_dl ts fn m a else Done 0 a
            else if m ia_type =? 3 then                                                  (* 344-373 *)
              if m ia_hh =? 0 then
                if m ia_uldl =? 0 then
                  if (m ia_ul =? 0) || ((m ia_ul =? 1) && ((m ia_alloc =? 0) || (m ia_alloc =? 1))) then to_ul ts fn m a
                  else Done 0 a
                else if m ia_uldl =? 1 then to_dl ts fn m a else Done 0 a
              else Done 0 a
            else Done 0 a in
          if Z.testbit c1 4 then                                                         (* 303-314 *)
            let n := Z.min mal 8 in
            cbind (octs 12 n) (fun ma => go (Hopping (c2 mod 64) (c2 / 64 + 4 * (c1 mod 16)) ma))
          else if Z.testbit c1 3 then Done (- ENOTSUP) []                                (* 292-298 *)
          else go (Arfcn (c2 + 256 * (c1 mod 4))))))                                     (* 300-302 *)
      end
  end)).

(** *** Paging *)
(** rlcmac.c:455-469, 476-490, 554-568: the entity with this identity is told. *)
Definition page (mi : mobile_id) : list cact :=
  match mi with
  | MiImsi d => match by_imsi d with Some e => [PageInd (e_tlli e)] | None => [] end
  | MiTmsi t => match by_ptmsi t with Some e => [PageInd (e_tlli e)] | None => [] end
  | _ => []
  end.
Definition known_type (mi : mobile_id) : bool := match mi with MiImsi _ | MiTmsi _ => true | _ => false end.
Definition IE_MOBILE_ID : Z := 0x17.
Definition zero : mem := fun _ => 0.
(** rlcmac.c:391-497 [gprs_rlcmac_handle_ccch_pag_req1]; the identities begin in octet 4 (struct gsm48_paging1).  What the
    upper layer returns for GMMRR-PAGE.ind, and with it the return value, is left out (0). *)
Definition pag1_rest (mi1 mi2 : mobile_id) (p : Z) : cres :=
  let len := MACBLOCK - p in                                                             (* 442 *)
  if len =? 0 then Done 0 []
  else match decode_at (decode_p1ro false past) p len zero with
       | RoBad => OutOfBounds
       | RoErr rc => Done rc []
       | RoOk m =>
           let two := if m 41 =? 1 then page mi2 else [] in                              (* 475-494 *)
           if m 40 =? 1 then if known_type mi1 then Done 0 (page mi1 ++ two) else Done (- EINVAL) []
           else Done 0 two
       end.
Definition handle_pag_req1 : cres :=
  cbind (oct 0) (fun plen =>
  if plen =? MACBLOCK - 1 then Done 0 [] else
  cbind (oct 4) (fun len =>
  if MACBLOCK <? 5 + len then Done (- EBADMSG) [] else
  cbind (octs 5 len) (fun id1 =>
  match mi_dec id1 with
  | inr rc => Done rc []
  | inl mi1 =>
      let p := 5 + len in
      if MACBLOCK <? p + 1 then Done 0 [] else
      cbind (oct p) (fun ie =>
      if ie =? IE_MOBILE_ID then
        let p := p + 1 in
        if MACBLOCK <? p + 1 then Done (- EBADMSG) [] else
        cbind (oct p) (fun len2 =>
        let p := p + 1 in
        if MACBLOCK <? p + len2 then Done (- EBADMSG) [] else
        cbind (octs p len2) (fun id2 =>
        match mi_dec id2 with inr rc => Done rc [] | inl mi2 => pag1_rest mi1 mi2 (p + len2) end))
      else pag1_rest mi1 MiNone p)
  end))).
(** rlcmac.c:500-574 [gprs_rlcmac_handle_ccch_pag_req2]; the third identity begins in octet 12 (struct gsm48_paging2). *)
Definition handle_pag_req2 : cres :=
  cbind (oct 0) (fun plen =>
  if plen =? MACBLOCK - 1 then Done 0 [] else
  cbind (oct 12) (fun ie =>
  if negb (ie =? IE_MOBILE_ID) then Done 0 [] else
  cbind (oct 13) (fun len =>
  if MACBLOCK <? 14 + len then Done (- EBADMSG) [] else
  cbind (octs 14 len) (fun id3 =>
  match mi_dec id3 with
  | inr rc => Done rc []
  | inl mi3 =>
      let p := 14 + len in
      let rest := MACBLOCK - p in
      if rest =? 0 then Done 0 []
      else match decode_at (decode_p2ro false past) p rest zero with
           | RoBad => OutOfBounds
           | RoErr rc => Done rc []
           | RoOk m => if negb (m 11 =? 1) then Done 0 []
                       else if known_type mi3 then Done 0 (page mi3) else Done (- EINVAL) []
           end
  end)))).

(** *** System information 13 *)
(** rlcmac.c:577-582 *)
Definition t3192_table : list Z := [500; 1000; 1500; 0; 80; 120; 160; 200].
(** rlcmac.c:584-613 [gprs_rlcmac_handle_bcch_si13]; the rest octets begin in octet 3
    (struct gsm48_system_information_type_13); members of SI13_RestOctets_t:
    u.PBCCH_Not_present.GPRS_Cell_Options.T3168 and T3192, octets 37 and 38.  [m0]: the structure before; the result holds
    the structure after successful decoding. *)
Definition handle_si13 (m0 : mem) : cres * option mem :=
  match decode_at (decode_si13ro false past) 3 (MACBLOCK - 3) m0 with
  | RoBad => (OutOfBounds, None)
  | RoErr rc => (Done rc [], None)
  | RoOk m =>
      (if 7 <? m 38 then Abort                                                           (* 580 *)
       else Done 0 [SetTimer 3168 ((m 37 + 1) * 500); SetTimer 3192 (nth (Z.to_nat (m 38)) t3192_table 0)], Some m)
  end.

(** rlcmac_prim.c:625-647 [rlcmac_prim_handle_l1ctl_ccch_data_ind]; [stack], [si13]: earlier contents of the structures. *)
Definition ccch_data_ind (stack si13 : mem) (fn : Z) : cres :=
  cbind (oct 2) (fun mt =>
  if mt =? 0x3f then handle_imm_ass stack fn
  else if mt =? 0x21 then handle_pag_req1
  else if mt =? 0x22 then handle_pag_req2
  else if mt =? 0x00 then fst (handle_si13 si13)
  else Done (- ENOTSUP) []).
End Block.
End Ccch.
