(** Model of src/rlcmac/coding_scheme.c and of the layout computations of src/rlcmac/rlc.c.
    Coding schemes are the values of coding_scheme.h:22-40: 0 = unknown, 1..4 = CS-1..CS-4, 5..13 =
    MCS-1..MCS-9.  Table reads outside the arrays are [UB]. *)
From Verif.Lib Require Import Base Outcome.

(** coding_scheme.h:90-98 [enum gprs_rlcmac_header_type]; coding_scheme.c:41-46 [enum gprs_rlcmac_family]. *)
Definition HT_INVALID : Z := 0.  Definition HT_CONTROL : Z := 1.  Definition HT_GPRS : Z := 2.
Definition HT_T1 : Z := 3.  Definition HT_T2 : Z := 4.  Definition HT_T3 : Z := 5.
Definition FAM_INVALID : Z := 0.  Definition FAM_A : Z := 1.  Definition FAM_B : Z := 2.  Definition FAM_C : Z := 3.

(** coding_scheme.c:48-89 [mcs_info]. *)
Record mcs := mkmcs { ul_bytes : Z; ul_ext : Z; dl_bytes : Z; dl_ext : Z; data_bytes : Z; opt_pad : Z; data_hdr : Z; family : Z }.
Definition mcs_info : list mcs := [
  mkmcs 0 0 0 0 0 0 HT_INVALID FAM_INVALID;
  mkmcs 23 0 23 0 20 0 HT_GPRS FAM_INVALID;
  mkmcs 33 7 33 7 30 0 HT_GPRS FAM_INVALID;
  mkmcs 39 3 39 3 36 0 HT_GPRS FAM_INVALID;
  mkmcs 53 7 53 7 50 0 HT_GPRS FAM_INVALID;
  mkmcs 26 1 26 1 22 0 HT_T3 FAM_C;
  mkmcs 32 1 32 1 28 0 HT_T3 FAM_B;
  mkmcs 41 1 41 1 37 48 HT_T3 FAM_A;
  mkmcs 48 1 48 1 44 0 HT_T3 FAM_C;
  mkmcs 60 7 59 6 56 0 HT_T2 FAM_B;
  mkmcs 78 7 77 6 74 48 HT_T2 FAM_A;
  mkmcs 118 2 117 4 56 0 HT_T1 FAM_B;
  mkmcs 142 2 141 4 68 0 HT_T1 FAM_A;
  mkmcs 154 2 153 4 74 0 HT_T1 FAM_A].
Definition info (cs : Z) : res mcs :=
  if (0 <=? cs) && (cs <? 14) then match nth_error mcs_info (Z.to_nat cs) with Some m => Ok m | None => UB end else UB.

(** coding_scheme.c:96-112. *)
Definition is_gprs (cs : Z) : bool := (1 <=? cs) && (cs <=? 4).
Definition is_edge (cs : Z) : bool := (5 <=? cs) && (cs <=? 13).
Definition is_edge_gmsk (cs : Z) : bool := is_edge cs && (cs <=? 8).
(** coding_scheme.c:115-125. *)
Definition chan_code (cs : Z) : Z := if is_gprs cs then cs - 1 else if is_edge cs then cs - 5 else 0.

(** coding_scheme.c:127-166 [gprs_rlcmac_mcs_get_by_size_ul/_dl] (the same switch). *)
Definition get_by_size (size : Z) : Z :=
  if size =? 23 then 1 else if size =? 27 then 5 else if size =? 33 then 6 else if size =? 34 then 2
  else if size =? 40 then 3 else if size =? 42 then 7 else if size =? 49 then 8 else if size =? 54 then 4
  else if size =? 61 then 9 else if size =? 79 then 10 else if size =? 119 then 11 else if size =? 143 then 12
  else if size =? 155 then 13 else 0.
(** coding_scheme.c:168-180. *)
Definition get_gprs_by_num (n : Z) : Z := if (n <? 1) || (4 <? n) then 0 else 1 + (n - 1).
Definition get_egprs_by_num (n : Z) : Z := if (n <? 1) || (9 <? n) then 0 else 5 + (n - 1).
(** coding_scheme.c:182-185. *)
Definition is_valid (cs : Z) : bool := (0 <? cs) && (cs <=? 13).

(** coding_scheme.h:42-46, coding_scheme.c:187-202. *)
Inductive kind := K_GPRS | K_EGPRS_GMSK | K_EGPRS.
Definition is_compat_kind (cs : Z) (k : kind) : bool :=
  match k with K_GPRS => is_gprs cs | K_EGPRS_GMSK => is_edge_gmsk cs | K_EGPRS => is_edge cs end.
Definition is_compat (a b : Z) : bool := (is_gprs a && is_gprs b) || (is_edge a && is_edge b).

(** coding_scheme.c:204-228, 240-248. *)
Definition size_ul (cs : Z) : res Z := do m <- info cs; Ok (ul_bytes m + if ul_ext m =? 0 then 0 else 1).
Definition size_dl (cs : Z) : res Z := do m <- info cs; Ok (dl_bytes m + if dl_ext m =? 0 then 0 else 1).
Definition used_size_ul (cs : Z) : res Z := do m <- info cs; if data_hdr m =? HT_GPRS then Ok (ul_bytes m) else size_ul cs.
Definition used_size_dl (cs : Z) : res Z := do m <- info cs; if data_hdr m =? HT_GPRS then Ok (dl_bytes m) else size_dl cs.

(** coding_scheme.c:260-314 (the new value of [*cs]). *)
Definition inc_kind (cs : Z) (k : kind) : Z := if is_compat_kind cs k then if is_compat_kind (cs + 1) k then cs + 1 else cs else cs.
Definition dec_kind (cs : Z) (k : kind) : Z := if is_compat_kind cs k then if is_compat_kind (cs - 1) k then cs - 1 else cs else cs.
Definition inc (cs : Z) : Z :=
  if is_gprs cs && (cs =? 4) then cs else if is_edge cs && (cs =? 13) then cs else if negb (is_valid cs) then cs else cs + 1.
Definition dec (cs : Z) : Z :=
  if is_gprs cs && (cs =? 1) then cs else if is_edge cs && (cs =? 5) then cs else if negb (is_valid cs) then cs else cs - 1.

(** coding_scheme.c:316-325. *)
Definition is_family_compat (a b : Z) : res bool :=
  if a =? b then Ok true else do m <- info a; if family m =? FAM_INVALID then Ok false else do o <- info b; Ok (family m =? family o).
(** coding_scheme.c:327-346: new scheme and need_stuffing. *)
Definition dec_to_single_block (cs : Z) : Z * bool :=
  if cs =? 11 then (9, false) else if cs =? 12 then (10, true) else if cs =? 13 then (10, false) else (cs, false).

(** coding_scheme.c:348-362 [hdr_type_info] and 364-391. *)
Record hti := mkhti { h_ul : Z; h_dl : Z; h_blk : Z; h_num : Z }.
Definition hdr_type_info : list hti := [
  mkhti 0 0 0 0; mkhti 8 8 0 0; mkhti 24 24 0 1; mkhti 46 40 2 2; mkhti 37 28 2 1; mkhti 31 31 2 1].
Definition hinfo (ht : Z) : res hti :=
  if (0 <=? ht) && (ht <? 6) then match nth_error hdr_type_info (Z.to_nat ht) with Some h => Ok h | None => UB end else UB.

(** coding_scheme.c:405-439 [gprs_rlcmac_get_retx_mcs]: rows by initial, columns by commanded scheme. *)
Definition reseg : list (list Z) := [
  [5; 5; 5; 5; 5; 5; 5; 5; 5];
  [6; 6; 6; 6; 6; 6; 6; 6; 6];
  [7; 7; 7; 7; 7; 7; 7; 7; 7];
  [5; 5; 5; 8; 8; 8; 8; 8; 8];
  [6; 6; 6; 6; 9; 9; 11; 11; 11];
  [7; 7; 7; 7; 7; 10; 10; 10; 13];
  [6; 6; 6; 6; 9; 9; 11; 11; 11];
  [7; 7; 7; 7; 7; 10; 10; 12; 12];
  [7; 7; 7; 7; 7; 10; 10; 10; 13]].
Definition no_reseg : list (list Z) := [
  [5; 5; 5; 5; 5; 5; 5; 5; 5];
  [6; 6; 6; 6; 6; 6; 6; 6; 6];
  [7; 7; 7; 7; 7; 7; 7; 7; 7];
  [8; 8; 8; 8; 8; 8; 8; 8; 8];
  [9; 9; 9; 9; 9; 9; 11; 11; 11];
  [10; 10; 10; 10; 10; 10; 10; 10; 13];
  [9; 9; 9; 9; 9; 9; 11; 11; 11];
  [10; 10; 10; 10; 10; 10; 10; 12; 12];
  [10; 10; 10; 10; 10; 10; 10; 10; 13]].
Definition tab2 (t : list (list Z)) (i j : Z) : res Z :=
  match nth_error t (Z.to_nat i) with
  | Some r => match nth_error r (Z.to_nat j) with Some x => Ok x | None => UB end
  | None => UB
  end.
Definition get_retx_mcs (init cmd : Z) (resegment : bool) : res Z :=
  if negb (is_edge init) || negb (is_edge cmd) then UB
  else tab2 (if resegment then reseg else no_reseg) (chan_code init) (chan_code cmd).

(** rlc.c:26-41 (data_len), rlc.c:43-98: number of data blocks, data_len and offset in bits of block [i]. *)
Definition block_data_len (cs : Z) (pad : bool) : res Z :=
  do m <- info cs; Ok (data_bytes m - if pad then opt_pad m / 8 else 0).
Definition data_offs_bits (cs : Z) (pad ul : bool) (i : Z) : res Z :=
  if negb (is_valid cs) then UB else
  do m <- info cs; do h <- hinfo (data_hdr m); do len <- block_data_len cs pad;
  Ok ((if ul then h_ul h else h_dl h) + (if pad then opt_pad m else 0) + (i + 1) * h_blk h + i * 8 * len).
Definition num_data_blocks (cs : Z) : res Z := do m <- info cs; do h <- hinfo (data_hdr m); Ok (h_num h).
