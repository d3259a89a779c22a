(** What 3GPP TS 44.018 says about the messages on CCCH and BCCH that concern packet data (9.1.18, 9.1.22, 9.1.23, 9.1.43a;
    rest octets: 10.5.2.16, 10.5.2.23, 10.5.2.24, 10.5.2.37b).  Nothing here models repository code. *)
From Coq Require Import ZArith List Bool.
From Verif Require Import Lib.Base Csn1.Csn1Layout.
Import ListNotations.
Open Scope Z_scope.

(** All numbers of a sequence of fields fit their fields. *)
Definition item_ok (i : item) : Prop := match i with U n v => 0 <= v < 2 ^ Z.of_nat n | _ => True end.
Definition items_ok (l : list item) : Prop := Forall item_ok l.
(** The 23 octets of a message on CCCH or BCCH: octets, and from the end of those on fields. *)
Definition message (msg head : list Z) (rest : list item) : Prop :=
  length msg = 23%nat /\ Forall (fun b => 0 <= b < 256) msg /\ firstn (length head) msg = head /\
  items_ok rest /\ carried msg (length head) rest.

(** *** Paging *)
(** Group call information: the reference, and optionally a channel; without a list of frequencies. *)
Definition channel (type tn tsc : Z) (f : Z * Z + Z * Z) : list item :=
  [U 5 type; U 3 tn; U 3 tsc] ++
  match f with inl (sp, arfcn) => [U 1 0; U 2 sp; U 10 arfcn] | inr (maio, hsn) => [U 1 1; U 6 maio; U 6 hsn] end ++ [U 1 0].
Definition group_call (g : (Z * Z * Z * Z * Z) * option (Z * Z * Z * (Z * Z + Z * Z))) : list item :=
  let '(value, sf, af, prio, ciph, chan) := g in
  [U 27 value; U 1 sf; U 1 af; U 3 prio; U 4 ciph] ++ opt (fun '(t, tn, tsc, f) => channel t tn tsc f) chan.
Definition nln (x : Z * Z) : list item := [U 2 (fst x); U 1 (snd x)].
Definition priority (p : Z) : list item := [U 3 p].
(** P1 rest octets; [i1], [i2]: packet page indications; [more]: what later releases append. *)
Definition p1_rest n pr1 pr2 g (i1 i2 : bool) more : list item :=
  opt_lh nln n ++ opt_lh priority pr1 ++ opt_lh priority pr2 ++ opt_lh group_call g ++ [F i1; F i2; Any more].
(** P2 rest octets. *)
Definition p2_rest cn3 n pr1 pr2 pr3 (i3 : bool) more : list item :=
  opt_lh (fun c => [U 2 c]) cn3 ++ opt_lh nln n ++ opt_lh priority pr1 ++ opt_lh priority pr2 ++ opt_lh priority pr3 ++
  [F i3; Any more].
(** The octets in front: L2 pseudo length (the low bits are 01), RR management, message type, page mode and channels
    needed, identities. *)
Definition paging1_head plen mode id1 (id2 : option (list Z)) : list Z :=
  [4 * plen + 1; 6; 0x21; mode; zlen id1] ++ id1 ++ match id2 with Some id => [0x17; zlen id] ++ id | None => [] end.
Definition paging2_head plen mode (tmsis : list Z) id3 : list Z :=
  [4 * plen + 1; 6; 0x22; mode] ++ tmsis ++ [0x17; zlen id3] ++ id3.

(** *** Immediate assignment *)
(** L2 pseudo length, RR management, message type, page mode and dedicated mode, channel description (3 octets), request
    reference (3 octets), timing advance, length and contents of the mobile allocation. *)
Definition imm_ass_head plen mode chan c1 c2 ref ta ma : list Z :=
  [4 * plen + 1; 6; 0x3f; mode; chan; c1; c2] ++ ref ++ [ta; zlen ma] ++ ma.
(** TBF starting time: T1', T3, T2. *)
Definition starting_time (t : Z * Z * Z) : list item := let '(t1, t3, t2) := t in [U 5 t1; U 6 t3; U 5 t2].
(** The frame number modulo 42432 that a starting time stands for. *)
Definition rfn_of (t : Z * Z * Z) (r : Z) : Prop :=
  let '(t1, t3, t2) := t in 0 <= r < 32 * 26 * 51 /\ r / (26 * 51) = t1 /\ r mod 51 = t3 /\ r mod 26 = t2.
Definition time_ok (t : Z * Z * Z) : Prop := let '(t1, t3, t2) := t in t3 < 51 /\ t2 < 26.
(** Second and third octet of the channel description: training sequence code, and hopping (HSN, MAIO) or a single ARFCN. *)
Definition channel_octets (c1 c2 tsc : Z) (f : Z * Z + Z) : Prop :=
  0 <= tsc < 8 /\
  match f with
  | inl (hsn, maio) => 0 <= hsn < 64 /\ 0 <= maio < 64 /\ c1 = 32 * tsc + 16 + maio / 4 /\ c2 = 64 * (maio mod 4) + hsn
  | inr arfcn => 0 <= arfcn < 1024 /\ c1 = 32 * tsc + arfcn / 256 /\ c2 = arfcn mod 256
  end.
(** Packet uplink assignment, dynamic allocation. *)
Definition ia_dynamic tfi poll usf gran (p0 : option (Z * Z)) ccc tbcc alpha gamma tai start : list item :=
  [F true; F true; U 1 0; U 1 0; U 1 1; U 5 tfi; U 1 poll; U 1 0; U 3 usf; U 1 gran] ++
  opt (fun x => [U 4 (fst x); U 1 (snd x)]) p0 ++ [U 2 ccc; U 1 tbcc] ++ opt (fun a => [U 4 a]) alpha ++ [U 5 gamma] ++
  opt (fun t => [U 4 t]) tai ++ opt starting_time start.
(** Packet uplink assignment, single block. *)
Definition ia_single alpha gamma start (p0 : option (Z * Z * Z)) : list item :=
  [F true; F true; U 1 0; U 1 0; U 1 0] ++ opt (fun a => [U 4 a]) alpha ++ [U 5 gamma; U 2 1] ++ starting_time start ++
  opt_lh (fun x => [U 4 (fst (fst x)); U 1 (snd (fst x)); U 1 (snd x)]) p0.
(** After an uplink assignment: nothing or spare bits, or additions of release 99 and spare bits. *)
Definition ul_tail (r99 : option (option Z)) (n : nat) : list item :=
  match r99 with None => [] | Some x => F true :: opt (fun e => [U 5 e]) x end ++ spare n.
(** Packet downlink assignment; [t]: TFI, RLC mode, alpha, gamma, polling, TA valid. *)
Definition ia_downlink tlli (t : option (Z * Z * option Z * Z * Z * Z)) tai start (p0 : option (Z * Z * Z)) : list item :=
  [F true; F true; U 1 0; U 1 1; U 32 tlli] ++
  opt (fun '(tfi, mode, alpha, gamma, poll, valid) =>
         [U 5 tfi; U 1 mode] ++ opt (fun a => [U 4 a]) alpha ++ [U 5 gamma; U 1 poll; U 1 valid]) t ++
  opt (fun t => [U 4 t]) tai ++ opt starting_time start ++
  opt (fun x => [U 4 (fst (fst x)); U 1 (snd (fst x)); U 1 (snd x)]) p0.
Definition dl_tail (r99 : option (Z * Z * option Z)) (n : nat) : list item :=
  match r99 with None => [] | Some (w, l, b) => [F true; U 5 w; U 2 l] ++ opt (fun e => [U 4 e]) b end ++ spare n.

(** *** System information type 13 *)
(** GPRS mobile allocation: HSN, RFL numbers, and a bitmap or a list of indices. *)
Definition repeated (n : nat) (l : list Z) : list item := flat_map (fun v => [U 1 1; U n v]) l ++ [U 1 0].
Definition gprs_ma hsn rfl (f : list Z + list bool) : list item :=
  [U 6 hsn] ++ repeated 4 rfl ++
  match f with inl idx => U 1 1 :: repeated 6 idx | inr b => [U 1 0; U 6 (zlen b - 1); Any b] end.
(** GPRS cell options: NMO, T3168, T3192, DRX_TIMER_MAX, ACCESS_BURST_TYPE, CONTROL_ACK_TYPE, BS_CV_MAX, the PAN values
    and the extension. *)
Definition cell_options nmo t3168 t3192 drx abt cat bscv (pan : option (Z * Z * Z)) (ext : option (list bool)) : list item :=
  [U 2 nmo; U 3 t3168; U 3 t3192; U 3 drx; U 1 abt; U 1 cat; U 4 bscv] ++
  opt (fun x => [U 3 (fst (fst x)); U 3 (snd (fst x)); U 3 (snd x)]) pan ++
  opt (fun b => [U 6 (zlen b - 1); Any b]) ext.
Definition power_control alpha tavgw tavgt pc navgi : list item := [U 4 alpha; U 5 tavgw; U 5 tavgt; U 1 pc; U 4 navgi].
(** Duration in milliseconds of T3168 and T3192 (44.060, table 12.24.2). *)
Definition t3168_ms (v : Z) : Z := 500 * (v + 1).
Definition t3192_ms (v : Z) : Z := nth (Z.to_nat v) [500; 1000; 1500; 0; 80; 120; 160; 200] 0.
(** Additions of later releases: nothing (the message ends here), a null bit and anything, or a one and the additions. *)
Definition or_null {A} (f : A -> list item) (x : option (list bool) + A) : list item :=
  match x with inl None => [] | inl (Some more) => [F false; Any more] | inr a => F true :: f a end.
Definition si13_r6 (x : option Z * Z * list bool) : list item :=
  let '(txpwr, si2n, more) := x in opt (fun v => [U 5 v]) txpwr ++ [U 2 si2n; Any more].
Definition si13_r4 x : list item := U 1 (fst x) :: or_null si13_r6 (snd x).
Definition si13_r99 x : list item := U 1 (fst x) :: or_null si13_r4 (snd x).
(** SI 13 rest octets of a cell without PBCCH. *)
Definition si13_rest mark field ma rac spgc prio nco options power add : list item :=
  [F true; U 3 mark; U 4 field] ++ opt (fun '(m, a) => U 2 m :: a) ma ++
  [U 1 0; U 8 rac; U 1 spgc; U 3 prio; U 2 nco] ++ options ++ power ++ or_null si13_r99 add.
Definition si13_head plen : list Z := [4 * plen + 1; 6; 0x00].
