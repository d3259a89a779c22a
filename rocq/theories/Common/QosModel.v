(** Model of src/common/qos.c: the quality of service profile of TS 24.008 10.5.6.5, read from and
    written to octets.  Octets 3 and following of the information element are offsets 0 and following
    here, as in the C code. *)
From Verif.Lib Require Import Base Outcome.

(** Octets of struct osmo_gprs_sm_qos_profile_data, sm_qos.h:20-46, little endian branch.  The extended
    bit rates lie in the order of sm_qos.h:13-18: uplink before downlink. *)
Definition O_MBR_UL : Z := 5.   Definition O_MBR_DL : Z := 6.
Definition O_DELAY : Z := 8.    (* 6 bits transfer delay, 2 bits traffic handling priority *)
Definition O_GBR_UL : Z := 9.   Definition O_GBR_DL : Z := 10.
Definition O_X1_MBR_UL : Z := 12.  Definition O_X1_GBR_UL : Z := 13.
Definition O_X1_MBR_DL : Z := 14.  Definition O_X1_GBR_DL : Z := 15.
Definition O_X2_MBR_UL : Z := 16.  Definition O_X2_GBR_UL : Z := 17.
Definition O_X2_MBR_DL : Z := 18.  Definition O_X2_GBR_DL : Z := 19.
(** sm_qos.h:66-68: sizeof(struct osmo_gprs_sm_qos_profile). *)
Definition SZ_PROFILE : Z := 20.

Definition UINT32_MAX : Z := 4294967295.

(** qos.c:28-68 [dec_mbr_kbps]; the pointers to the extended octets are options.  All intermediate values
    are below 2^31. *)
Definition dec_mbr_kbps (mbr : Z) (x1 x2 : option Z) : Z :=
  let embr1 := match x1 with Some b => b | None => 0 end in
  let embr2 := match x2 with Some b => b | None => 0 end in
  if mbr =? 0 then 0
  else if mbr =? 0xff then UINT32_MAX
  else if mbr =? 0xfe then
    if embr1 =? 0 then 8640
    else if embr1 =? 0xfa then
      if embr2 =? 0 then 256 * 1000
      else if embr2 =? 0xf6 then 10 * 1000 * 1000
      else if (0xa2 <=? embr2) && (embr2 <=? 0xf6) then (1500 + (embr2 - (0xa2 - 1)) * 100) * 1000
      else if (0x3e <=? embr2) && (embr2 <=? 0xa1) then (500 + (embr2 - (0x3e - 1)) * 10) * 1000
      else (256 + embr2 * 4) * 1000
    else if (0xbb <=? embr1) && (embr1 <=? 0xfa) then (128 + (embr1 - (0xbb - 1)) * 2) * 1000
    else if (0x4b <=? embr1) && (embr1 <=? 0xba) then (16 + (embr1 - (0x4b - 1)) * 1) * 1000
    else 8600 + embr1 * 100
  else if tst mbr 0x80 then 576 + mbr * 64
  else if tst mbr 0x40 then 64 + (mbr - 0x40) * 8
  else mbr.

(** qos.c:70-78 [dec_transfer_delay_ms]. *)
Definition dec_transfer_delay_ms (b : Z) : Z :=
  let b := Z.land b 0x3f in
  if b <=? 0x0f then b
  else if b <=? 0x1f then 200 + (b - 0x10) * 50
  else 1000 + (b - 0x20) * 100.

(** sm_qos.h:69-83 [struct osmo_gprs_sm_qos_profile_decoded]. *)
Record decoded := mkDecoded {
  q_prof : list Z;            (* the 20 octets of qos_profile *)
  q_6_13 : bool; q_14 : bool;
  q_dl_x1 : bool; q_ul_x1 : bool; q_dl_x2 : bool; q_ul_x2 : bool;
  q_delay : Z;
  q_mbr_dl : Z; q_mbr_ul : Z; q_gbr_dl : Z; q_gbr_ul : Z }.

(** The conditional pointers of qos.c:122-141, then read by [dec_mbr_kbps] (qos.c:32, 33). *)
Definition rd_if (present : bool) (data : list Z) (o : Z) : res (option Z) :=
  if present then do b <- rd data o; Ok (Some b) else Ok None.

(** One of the four calls of qos.c:121-141. *)
Definition rate (data : list Z) (x1 x2 : bool) (o o1 o2 : Z) : res Z :=
  do b <- rd data o; do b1 <- rd_if x1 data o1; do b2 <- rd_if x2 data o2; Ok (dec_mbr_kbps b b1 b2).

(** qos.c:82-145 [gprs_qos_parse_qos_profile] of a buffer that is exactly [data]: the octets are read
    through the caller's pointer, not from the copy.  The result is the decoded structure; the value
    returned is the length. *)
Definition parse (data : list Z) : res decoded :=
  let n := zlen data in
  let ul2 := n =? 20 in
  let dl2 := ul2 || (n =? 18) in
  let ul1 := dl2 || (n =? 16) in
  let dl1 := ul1 || (n =? 14) in
  let o14 := dl1 || (n =? 12) in
  let o6 := o14 || (n =? 11) in
  if negb (o6 || (n =? 3)) then Err 1
  else
    let prof := data ++ repeat 0 (Z.to_nat (SZ_PROFILE - n)) in
    if o6 then
      do d <- rd data O_DELAY;
      do mdl <- rate data dl1 dl2 O_MBR_DL O_X1_MBR_DL O_X2_MBR_DL;
      do mul <- rate data ul1 ul2 O_MBR_UL O_X1_MBR_UL O_X2_MBR_UL;
      do gdl <- rate data dl1 dl2 O_GBR_DL O_X1_GBR_DL O_X2_GBR_DL;
      do gul <- rate data ul1 ul2 O_GBR_UL O_X1_GBR_UL O_X2_GBR_UL;
      Ok (mkDecoded prof o6 o14 dl1 ul1 dl2 ul2 (dec_transfer_delay_ms (Z.shiftr d 2)) mdl mul gdl gul)
    else Ok (mkDecoded prof o6 o14 dl1 ul1 dl2 ul2 0 0 0 0 0).

(** qos.c:147-164 [enc_transfer_delay_ms]. *)
Definition enc_transfer_delay_ms (ms : Z) : Z :=
  if 4000 <=? ms then 0x3e
  else if 1000 <=? ms then 0x20 + (ms - 1000) / 100
  else if 200 <=? ms then 0x10 + (ms - 200) / 50
  else let ms := if 150 <? ms then 150 else ms in
       if 10 <=? ms then ms / 10 else 1.

(** qos.c:166-239 [enc_mbr_kbps]: the number of extended octets in use, and the three octets. *)
Definition enc_mbr_kbps (kbps : Z) : Z * (Z * Z * Z) :=
  let ext2 v := (2, (0xfe, 0xfa, v mod 256)) in
  let ext1 v := (1, (0xfe, v mod 256, 0)) in
  let one v := (0, (v mod 256, 0, 0)) in
  if 10 * 1000 * 1000 <? kbps then ext2 0xf6
  else if 1600 * 1000 <=? kbps then ext2 (0xa1 + (kbps - 1500 * 1000) / (100 * 1000))
  else if 510 * 1000 <=? kbps then ext2 (0x2d + (kbps - 500 * 1000) / (10 * 1000))
  else if 260 * 1000 <=? kbps then ext2 (0x00 + (kbps - 256 * 1000) / (4 * 1000))
  else if 130 * 1000 <=? kbps then ext1 (0xba + (kbps - 128 * 1000) / (2 * 1000))
  else if 17 * 1000 <=? kbps then ext1 (0x4a + (kbps - 16 * 1000) / (1 * 1000))
  else if 8700 <=? kbps then ext1 (0x00 + (kbps - 8600) / 100)
  else if 576 <=? kbps then one (0x80 + (kbps - 576) / 64)
  else if 64 <=? kbps then one (0x40 + (kbps - 64) / 8)
  else if 0 <? kbps then one kbps
  else one 0xff.

(** A store to one octet of the profile (the struct is 20 octets, offsets are constants below 20). *)
Definition st (o v : Z) (l : list Z) : list Z :=
  firstn (Z.to_nat o) l ++ v :: skipn (S (Z.to_nat o)) l.
(** A store to three octets through the pointers passed to [enc_mbr_kbps] (qos.c:267-283). *)
Definition st3 (o o1 o2 : Z) (v : Z * Z * Z) (l : list Z) : list Z :=
  let '(a, b, c) := v in st o a (st o1 b (st o2 c l)).

(** qos.c:241-303 [gprs_qos_build_qos_profile] into a buffer of at least 20 octets (asserted, qos.c:251):
    the first [enc_len] octets, which are those the caller sends. *)
Definition build (d : decoded) : list Z :=
  let t := q_prof d in
  (* qos.c:260-261 *)
  let o8 := nth (Z.to_nat O_DELAY) t 0 in
  let thp := if Z.land o8 3 =? 0 then 1 else Z.land o8 3 in
  (* qos.c:264-265 *)
  let delay := if q_6_13 d then Z.land (enc_transfer_delay_ms (q_delay d)) 0x3f else Z.shiftr o8 2 in
  let t := st O_DELAY (delay * 4 + thp) t in
  let '(mdl, v1) := enc_mbr_kbps (q_mbr_dl d) in
  let '(mul, v2) := enc_mbr_kbps (q_mbr_ul d) in
  let '(gdl, v3) := enc_mbr_kbps (q_gbr_dl d) in
  let '(gul, v4) := enc_mbr_kbps (q_gbr_ul d) in
  let t := st3 O_MBR_DL O_X1_MBR_DL O_X2_MBR_DL v1 t in
  let t := st3 O_MBR_UL O_X1_MBR_UL O_X2_MBR_UL v2 t in
  let t := st3 O_GBR_DL O_X1_GBR_DL O_X2_GBR_DL v3 t in
  let t := st3 O_GBR_UL O_X1_GBR_UL O_X2_GBR_UL v4 t in
  (* qos.c:284-302 *)
  let dl := Z.max mdl gdl in
  let ul := Z.max mul gul in
  let enc_len :=
    if ul =? 2 then 20 else if dl =? 2 then 18 else if ul =? 1 then 16 else if dl =? 1 then 14
    else if q_14 d then 12 else if q_6_13 d then 11 else 5 in
  firstn (Z.to_nat enc_len) t.
