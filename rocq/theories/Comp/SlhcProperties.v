(** Properties of the TCP/IP header compression (slhc.c and its use in sndcp_pcomp.c). *)
From Verif.Lib Require Import Base Outcome.
From Verif.Comp Require Import SlhcModel SlhcSpec SlhcProofs SlhcDelta SlhcHop SlhcHop2 SlhcHop3 SlhcRing SlhcRecv SlhcLink SlhcLink2 SlhcSafe.

(** ** Packets for the examples *)
Definition ck20 (l : list Z) : list Z := ow l 10 (be16 (ip_csum l)).
(** No options; identification, port, sequence number, acknowledgement, offset and flags, urgent pointer, data. *)
Definition pkt (id port seq ack b12 fl up : Z) (data : list Z) : list Z :=
  ck20 ([69; 0] ++ be16 (40 + zlen data) ++ be16 id ++ [64; 0; 64; 6; 0; 0; 10; 0; 0; 1; 192; 168; 7; 9]) ++
  be16 port ++ [0; 80] ++ be32 seq ++ be32 ack ++ [b12; fl; 16; 0; 18; 52] ++ be16 up ++ data.
Definition udp : list Z := ck20 [69; 0; 0; 22; 0; 9; 0; 0; 64; 17; 0; 0; 10; 0; 0; 1; 192; 168; 7; 9] ++ [1; 2].
Definition room0 : list Z := repeat 0 128.
Definition all_ok (ps : list (list Z)) : list (list Z * bool) := map (fun p => (p, false)) ps.

Ltac small := unfold ipv4, bytes; split; [vm_compute; repeat (constructor; [split; [discriminate|reflexivity]|]); constructor|]; split; [reflexivity|]; split; [vm_compute; lia|]; ((intros _; vm_compute; lia) || (intros [H _]; vm_compute in H; discriminate)).
Ltac isex := unfold exact; split; [reflexivity|]; split; [vm_compute; discriminate|]; split; [reflexivity|]; split; [vm_compute; discriminate|]; vm_compute; discriminate.

(** ** C87 *)

(** Whatever is sent is delivered, if nothing is lost. *)
Theorem C87_lossless_partial : forall n m k C D room ps,
  1 <= n <= 255 -> slhc_init m n = Some C -> slhc_init n k = Some D -> 128 <= zlen room -> legal ps ->
  exists C' D' is, link room C D (all_ok ps) = Ok (C', D', combine is (map Some ps)) /\ length is = length ps.
Proof.
  intros n m k C D room ps Hn HC HD Hr [L1 L2].
  assert (map fst (all_ok ps) = ps) as Em by (unfold all_ok; rewrite map_map; apply map_id).
  destruct (link_ok room Hr (all_ok ps) C D [] (J_init n m k C D Hn HC HD)) as (C' & D' & os & E & Hl & P); [rewrite Em; exact L1|rewrite Em; exact L2|intros ? ? ? ? ? []|].
  exists C', D', (map fst os). rewrite E. unfold all_ok in Hl. rewrite map_length in *. split; [|exact Hl]. do 2 f_equal.
  assert (forall a p b a' idx o b', ps = a ++ p :: b -> os = a' ++ (idx, o) :: b' -> length a = length a' -> o = Some p) as Q.
  { intros a p b a' idx o b' E1 E2 E3. destruct (P (all_ok a) p false (all_ok b) a' idx o b') as (_ & _ & H & _); [rewrite E1; unfold all_ok; rewrite map_app; reflexivity|exact E2|unfold all_ok; rewrite map_length; exact E3|].
    apply H; [reflexivity|]. intros _. rewrite app_nil_r. apply IS_next. apply step_all; [|unfold all_ok; rewrite map_length; exact E3]. unfold all_ok. rewrite Forall_map. apply Forall_forall. reflexivity. }
  clear - Q Hl. revert os Q Hl. induction ps as [|p ps IH]; intros [|[idx o] os] Q Hl; try discriminate; [reflexivity|]. cbn [map combine fst].
  assert (o = Some p) as -> by exact (Q [] p ps [] idx o os eq_refl eq_refl eq_refl). f_equal. apply IH; [|cbn in Hl; lia]. intros a q b a' i2 o2 b' E1 E2 E3.
  apply (Q (p :: a) q b ((idx, Some p) :: a') i2 o2 b'); cbn [app length]; [rewrite E1; reflexivity|rewrite E2; reflexivity|lia].
Qed.

Definition stream : list (list Z) :=
  [pkt 1 1000 100 7 80 16 0 [1; 2; 3]; udp; pkt 2 1000 103 7 80 24 0 [4; 5]; pkt 90 2000 500 60 80 16 0 []; pkt 3 1000 105 7 80 16 0 [6]; pkt 95 2000 500 62 80 16 0 [];
   pkt 4 1000 103 7 80 16 0 [4; 5]].
Example stream_legal : legal stream.
Proof.
  split.
  - repeat (constructor; [(split; [small|intros _; isex]) || (split; [small|intros [[H _] _]; vm_compute in H; discriminate])|]). constructor.
  - repeat (constructor; [repeat (constructor; [intros A1 A2 A3; (split; [reflexivity|intros HU; vm_compute in HU; discriminate]) || (vm_compute in A3; discriminate) || (exfalso; destruct A1 as [[A1 _] _]; vm_compute in A1; discriminate) || (exfalso; destruct A2 as [[A2 _] _]; vm_compute in A2; discriminate)|]); constructor|]). constructor.
Qed.
(** What is delivered. *)
Definition outs (r : res (slc * slc * list (Z * option (list Z)))) : option (list (Z * option (list Z))) :=
  match r with Ok (_, _, os) => Some os | _ => None end.
Lemma outs_inv r os : outs r = Some os -> exists C D, r = Ok (C, D, os).
Proof. destruct r as [[[C D] o]| |]; try discriminate. intros H. injection H as <-. exists C, D. reflexivity. Qed.
Definition C0 : slc := match slhc_init 2 2 with Some s => s | None => mkSlc [] [] [] 0 0 0 true end.
Example C87_case : outs (link room0 C0 C0 (all_ok stream)) = Some (combine [1; 0; 2; 1; 2; 2; 1] (map Some stream)).
Proof. vm_compute. reflexivity. Qed.

(** Not so in general: URG that goes away while the rest is as expected stays set, ... *)
Definition everything_arrives : Prop := forall n m k C D room ps,
  1 <= n <= 255 -> slhc_init m n = Some C -> slhc_init n k = Some D -> 128 <= zlen room -> Forall (fun p => ipv4 p /\ (steady p -> exact p)) ps ->
  exists C' D' is, link room C D (all_ok ps) = Ok (C', D', combine is (map Some ps)) /\ length is = length ps.
Lemma not_everything ps os : Forall (fun p => ipv4 p /\ (steady p -> exact p)) ps -> outs (link room0 C0 C0 (all_ok ps)) = Some os ->
  map snd os <> map Some ps -> ~ everything_arrives.
Proof.
  intros F E N H. destruct (H 2 2 2 C0 C0 room0 ps ltac:(lia) eq_refl eq_refl ltac:(vm_compute; discriminate) F) as (C2 & D2 & is & E2 & L2).
  rewrite E2 in E. injection E as <-. apply N. clear - L2. revert is L2. induction ps as [|p ps IH]; intros [|i is] L; try discriminate; [reflexivity|]. cbn [map combine snd]. f_equal. apply IH. cbn in L. lia.
Qed.
Theorem C87_urgent_refuted : ~ everything_arrives.
Proof.
  apply (not_everything [pkt 1 1000 100 7 80 48 5 [1; 2; 3]; pkt 2 1000 103 7 80 16 5 [4; 5]]
    [(1, Some (pkt 1 1000 100 7 80 48 5 [1; 2; 3])); (2, Some (pkt 2 1000 103 7 80 48 5 [4; 5]))]);
    [repeat (constructor; [split; [small|intros _; isex]|]); constructor|vm_compute; reflexivity|]. vm_compute. discriminate.
Qed.
(** ... and so do the bits ECE and CWR (0x40, 0x80) of TCP, in both directions. *)
Theorem C87_ecn_refuted : ~ everything_arrives.
Proof.
  apply (not_everything [pkt 1 1000 100 7 80 16 0 [1; 2; 3]; pkt 2 1000 103 7 80 80 0 [4; 5]]
    [(1, Some (pkt 1 1000 100 7 80 16 0 [1; 2; 3])); (2, Some (pkt 2 1000 103 7 80 16 0 [4; 5]))]);
    [repeat (constructor; [split; [small|intros _; isex]|]); constructor|vm_compute; reflexivity|]. vm_compute. discriminate.
Qed.

(** ** C88 *)

(** With losses: no failure; a packet that arrives is handed up as it was sent, if the receiver is in step with its connection,
    whatever happened to the others. *)
Theorem C88_loss : forall n m k C D room ps,
  1 <= n <= 255 -> slhc_init m n = Some C -> slhc_init n k = Some D -> 128 <= zlen room -> legal (map fst ps) ->
  exists C' D' os, link room C D ps = Ok (C', D', os) /\ length os = length ps /\
    forall a p lost b a' idx o b', ps = a ++ (p, lost) :: b -> os = a' ++ (idx, o) :: b' -> length a = length a' ->
      (lost = true -> o = None) /\ (lost = false -> exists x, o = Some x) /\
      (lost = false -> (steady p -> in_step (conn p) ((p, lost, idx) :: trace a a')) -> o = Some p) /\ (idx = 0 <-> ~ steady p) /\ 0 <= idx <= 2.
Proof.
  intros n m k C D room ps Hn HC HD Hr [L1 L2].
  destruct (link_ok room Hr ps C D [] (J_init n m k C D Hn HC HD) L1 L2) as (C' & D' & os & E & Hl & P); [intros ? ? ? ? ? []|].
  exists C', D', os. split; [exact E|]. split; [exact Hl|]. intros a p lost b a' idx o b' E1 E2 E3. specialize (P a p lost b a' idx o b' E1 E2 E3). rewrite app_nil_r in P. exact P.
Qed.
(** The third packet of [stream] lost: the next of its connection is wrong, the other connection is not touched, and the
    retransmission (index 1) is right again. *)
Definition wrong : list Z := pkt 2 1000 103 7 80 16 0 [6].
Example C88_case : outs (link room0 C0 C0 (combine stream [false; false; true; false; false; false; false])) =
   Some (combine [1; 0; 2; 1; 2; 2; 1] [Some (nth 0 stream []); Some udp; None; Some (nth 3 stream []); Some wrong; Some (nth 5 stream []); Some (nth 6 stream [])]).
Proof. vm_compute. reflexivity. Qed.
(** Not so without the condition: what is handed up need not be anything that was sent. *)
Theorem C88_lost_refuted : ~ (forall n m k C D room ps C' D' os o idx,
  1 <= n <= 255 -> slhc_init m n = Some C -> slhc_init n k = Some D -> 128 <= zlen room -> legal (map fst ps) ->
  link room C D ps = Ok (C', D', os) -> In (idx, Some o) os -> In o (map fst ps)).
Proof.
  intros H. destruct (outs_inv _ _ C88_case) as (C' & D' & El).
  assert (In wrong (map fst (combine stream [false; false; true; false; false; false; false]))) as X.
  { apply (H 2 2 2 C0 C0 room0 (combine stream [false; false; true; false; false; false; false]) C' D' _ wrong 2 ltac:(lia) eq_refl eq_refl ltac:(vm_compute; discriminate) stream_legal El). cbn [combine In]. do 4 right. left. reflexivity. }
  revert X. assert (existsb (fun p => if list_eq_dec Z.eq_dec wrong p then true else false) (map fst (combine stream [false; false; true; false; false; false; false])) = false) as Y by (vm_compute; reflexivity).
  intros X. rewrite (proj2 (existsb_exists _ _)) in Y; [discriminate|]. exists wrong. split; [exact X|]. destruct (list_eq_dec Z.eq_dec wrong wrong); congruence.
Qed.

(** ** C89 *)

(** The number of the place sent with a packet is that of a cache of [n] places which gives up the one not used for longest; a
    packet goes out with a compressed header only if its connection is in that cache. *)
Theorem C89_places : forall n m C ps, 1 <= n <= 255 -> slhc_init m n = Some C ->
  Forall (fun p => ipv4 p /\ (steady p -> slice 12 8 p <> repeat 0 8)) ps ->
  exists C' os, sendall C ps = Ok (C', os) /\ places (cache0 n) ps os.
Proof.
  intros n m C ps Hn HC HF. destruct (cache0_ok m n C Hn HC) as (R & H & Z1 & Z2). destruct (sendall_ok ps C (cache0 n) R H Z1 Z2 HF) as (C' & os & E & P & _). eauto.
Qed.
(** Two places, three connections: 1000, 2000, 1000, 3000 (which takes the place of 2000), 2000 (of 1000), 3000. *)
Example C89_case : match sendall C0 [pkt 1 1000 100 7 80 16 0 [1]; pkt 1 2000 100 7 80 16 0 [1]; pkt 2 1000 101 7 80 16 0 [1]; pkt 1 3000 100 7 80 16 0 [1];
    pkt 2 2000 101 7 80 16 0 [1]; pkt 2 3000 101 7 80 16 0 [1]] with Ok (_, os) => (map snd os, map place os) | _ => ([], []) end = ([1; 1; 2; 1; 1; 2], [0; 1; 0; 1; 0; 1]).
Proof. vm_compute. reflexivity. Qed.

(** ** C90 *)

(** After any packets, a packet is compressed without an access outside its buffer; it never gets longer, and a compressed header
    saves at least 21 octets. *)
Theorem C90_compress_partial : forall n m C ps p, 1 <= n <= 255 -> slhc_init m n = Some C ->
  Forall (fun p => ipv4 p /\ (steady p -> slice 12 8 p <> repeat 0 8)) (ps ++ [p]) ->
  exists C1 os C2 d len idx, sendall C ps = Ok (C1, os) /\ rfc1144_compress C1 p = Ok (C2, d, len, idx) /\ length d = length p /\
    ((idx = 2 /\ 0 <= len /\ len + 21 <= zlen p) \/ ((idx = 0 \/ idx = 1) /\ len = zlen p)).
Proof.
  intros n m C ps p Hn HC HF. apply Forall_app in HF as [F1 F2]. inversion F2 as [|? ? F3 _]; subst.
  destruct (cache0_ok m n C Hn HC) as (R & H & Z1 & Z2). destruct (sendall_ok ps C (cache0 n) R H Z1 Z2 F1) as (C1 & os & E & _ & L & R' & H' & Z1' & Z2').
  destruct (send_step C1 L p R' H' Z1' F3 Z2') as (C2 & d & len & idx & E2 & _ & Ld & Hl & X).
  exists C1, os, C2, d, len, idx. split; [exact E|]. split; [exact E2|]. split; [exact Ld|].
  destruct X as [(_ & -> & _ & -> & _)|(_ & [->| ->] & X2 & X3 & _)]; [right; auto|right; auto|left]. split; [reflexivity|]. split; [lia|]. apply X2. reflexivity.
Qed.
Example C90_case : match sendall C0 [nth 0 stream []] with
  | Ok (C1, _) => match rfc1144_compress C1 (nth 2 stream []) with Ok (_, d, len, idx) => (firstn 6 d, len, idx) | _ => ([], 0, 0) end
  | _ => ([], 0, 0) end = ([0x5f; 0; 18; 52; 4; 5], 6, 2).
Proof. vm_compute. reflexivity. Qed.

(** Not so for any octets: a header length beyond the packet is believed, ... *)
Theorem C90_overread_refuted : ~ (forall n m C p, 1 <= n <= 255 -> slhc_init m n = Some C -> bytes p -> rfc1144_compress C p <> UB).
Proof.
  intros H. apply (H 2 2 C0 [79; 0; 0; 20; 0; 1; 0; 0; 64; 6; 0; 0; 10; 0; 0; 1; 192; 168; 7; 9] ltac:(lia) eq_refl); [|vm_compute; reflexivity].
  repeat (constructor; [split; [discriminate|reflexivity]|]). constructor.
Qed.
(** ... and header lengths 0 make the output longer than the buffer for it: only the second packet fails, in the writing. *)
Definition zero (c : Z) : list Z := [64; 0; 0; 20; 0; 1; 0; 0; 64; 6; 0; c; 0; 16; 0; 1; 192; 168; 7; 9].
Definition twice (a b : list Z) : Z :=
  match rfc1144_compress C0 a with Ok (C1, _, _, _) => match rfc1144_compress C1 b with UB => 2 | _ => 1 end | _ => 0 end.
Theorem C90_overflow_refuted : ~ (forall n m C q p C1 d len idx, 1 <= n <= 255 -> slhc_init m n = Some C -> bytes q -> bytes p ->
  rfc1144_compress C q = Ok (C1, d, len, idx) -> rfc1144_compress C1 p <> UB).
Proof.
  intros H. assert (twice (zero 1) (zero 2) = 2) as T by (vm_compute; reflexivity). unfold twice in T.
  destruct (rfc1144_compress C0 (zero 1)) as [[[[C1 d] len] idx]| |] eqn:E; try discriminate.
  destruct (rfc1144_compress C1 (zero 2)) eqn:E2; try discriminate.
  apply (H 2 2 C0 (zero 1) (zero 2) C1 d len idx ltac:(lia) eq_refl); [repeat (constructor; [split; [discriminate|reflexivity]|]); constructor..|exact E|exact E2].
Qed.
(** The write that fails: 28 octets. *)
Example overflow_case : match slhc_compress C0 (zero 1) (zero 1) false with
  | Ok (s, _, _, _) => match slhc_compress s (zero 2) (zero 2) false, slhc_compress s (zero 2) (repeat 0 28) false with UB, Ok (_, _, n, _) => n | _, _ => 0 end
  | _ => 0 end = 28.
Proof. vm_compute. reflexivity. Qed.

(** ** C91 *)

(** Any octets from the peer, with any index: with 128 octets behind them nothing outside the buffer is touched. *)
Theorem C91_expand_partial : forall n k D room rs, 1 <= n <= 255 -> slhc_init n k = Some D -> bytes room -> 128 <= zlen room ->
  Forall (fun r => bytes (fst r)) rs ->
  exists D' us, recvall room D rs = Ok (D', us) /\ length us = length rs /\ Forall2 (fun u r => zlen u <= zlen (fst r) + zlen room) us rs.
Proof.
  intros n k D room rs Hn HD Br Hr HF. pose proof (rxok_init n k D Hn HD) as R. clear HD. revert D R. induction HF as [|[o idx] rs F1 F2 IH]; intros D R.
  - exists D, []. split; [reflexivity|]. split; [reflexivity|constructor].
  - destruct (expand_safe D o room idx R F1 Br Hr) as (D1 & buf & m & E & R1 & Hm & Hz). destruct (IH D1 R1) as (D2 & us & E2 & L2 & P2).
    exists D2, (firstn (Z.to_nat m) buf :: us). split; [cbn [recvall]; rewrite E; cbn [bind]; rewrite E2; reflexivity|]. split; [cbn [length]; lia|].
    constructor; [|exact P2]. cbn [fst]. rewrite zlen_app in Hz. unfold zlen in *. rewrite firstn_length. lia.
Qed.
Example C91_case : match recvall room0 C0 [([69; 1; 2], 1); ([0x4f; 1; 7; 7], 2); ([0x4f; 9; 7; 7], 2); ([0; 7; 7; 1; 2; 3], 2)] with
  Ok (_, us) => map zlen us | _ => [] end = [0; 0; 0; 0].
Proof. vm_compute. reflexivity. Qed.

(** Not so with the buffer of sndcp.c:349 (ten times the length and 64): a packet of two long headers that was compressed as
    the rules say does not fit. *)
Definition long (id ack : Z) : list Z :=
  let io := repeat 1 40 in let ip := [79; 0; 0; 120] ++ be16 id ++ [64; 0; 64; 6; 0; 0; 10; 0; 0; 1; 192; 168; 7; 9] in
  ow ip 10 (be16 (ip_csum (ip ++ io))) ++ io ++ be16 1000 ++ [0; 80] ++ be32 100 ++ be32 ack ++ [240; 16; 16; 0; 18; 52; 0; 0] ++ repeat 1 40.
Definition room_of (o : list Z) : list Z := repeat 0 (Z.to_nat (zlen o * 10 + 64 - zlen o)).
Definition two_long : bool :=
  match rfc1144_compress C0 (long 1 7) with
  | Ok (C1, d1, l1, i1) =>
    let o := firstn (Z.to_nat l1) d1 in
    match rfc1144_expand C0 (o ++ room_of o) l1 i1 with
    | Ok (D1, _, _) =>
      match rfc1144_compress C1 (long 2 8) with
      | Ok (_, d2, l2, i2) => let o := firstn (Z.to_nat l2) d2 in match rfc1144_expand D1 (o ++ room_of o) l2 i2 with UB => true | _ => false end
      | _ => false
      end
    | _ => false
    end
  | _ => false
  end.
Theorem C91_room_refuted : ~ (forall n m k C D q p C1 d1 l1 i1 D1 b1 n1 C2 d2 l2 i2,
  1 <= n <= 255 -> slhc_init m n = Some C -> slhc_init n k = Some D -> legal [q; p] ->
  rfc1144_compress C q = Ok (C1, d1, l1, i1) -> (let o := firstn (Z.to_nat l1) d1 in rfc1144_expand D (o ++ room_of o) l1 i1 = Ok (D1, b1, n1)) ->
  rfc1144_compress C1 p = Ok (C2, d2, l2, i2) -> let o := firstn (Z.to_nat l2) d2 in rfc1144_expand D1 (o ++ room_of o) l2 i2 <> UB).
Proof.
  intros H. assert (two_long = true) as T by (vm_compute; reflexivity). unfold two_long in T.
  destruct (rfc1144_compress C0 (long 1 7)) as [[[[C1 d1] l1] i1]| |] eqn:E1; try discriminate. cbv zeta in T.
  destruct (rfc1144_expand C0 (firstn (Z.to_nat l1) d1 ++ room_of (firstn (Z.to_nat l1) d1)) l1 i1) as [[[D1 b1] n1]| |] eqn:E2; try discriminate.
  destruct (rfc1144_compress C1 (long 2 8)) as [[[[C2 d2] l2] i2]| |] eqn:E3; try discriminate.
  destruct (rfc1144_expand D1 (firstn (Z.to_nat l2) d2 ++ room_of (firstn (Z.to_nat l2) d2)) l2 i2) eqn:E4; try discriminate.
  apply (H 2 2 2 C0 C0 (long 1 7) (long 2 8) C1 d1 l1 i1 D1 b1 n1 C2 d2 l2 i2 ltac:(lia) eq_refl eq_refl); [|exact E1|exact E2|exact E3|exact E4].
  split; [repeat (constructor; [split; [small|intros _; isex]|]); constructor|]. constructor; [|constructor; [constructor|constructor]]. constructor; [|constructor]. intros _ _ _. split; [reflexivity|intros HU; vm_compute in HU; discriminate].
Qed.

(** ** C92 *)

(** In a transfer in one direction the two headers take four octets. *)
Theorem C92_bulk : forall n m C ps q p, 1 <= n <= 255 -> slhc_init m n = Some C ->
  Forall (fun p => ipv4 p /\ (steady p -> slice 12 8 p <> repeat 0 8)) ps ->
  ipv4 q -> steady q -> exact q -> ipv4 p -> steady p -> exact p -> bulk q p ->
  exists C1 os C2 d, sendall C (ps ++ [q]) = Ok (C1, os) /\ rfc1144_compress C1 p = Ok (C2, d, zlen p - Z.of_nat (hip p + htcp p) + 4, 2) /\
    skipn 4 (firstn (Z.to_nat (zlen p - Z.of_nat (hip p + htcp p) + 4)) d) = skipn (hip p + htcp p) p.
Proof.
  intros n m C ps q p Hn HC HF Q1 Q2 Q3 P1 P2 P3 HB.
  destruct (cache0_ok m n C Hn HC) as (R & H & Z1 & Z2). destruct (sendall_ok ps C (cache0 n) R H Z1 Z2 HF) as (C1 & os & E & _ & L & R' & H' & Z1' & Z2').
  assert (good q /\ good p) as [Gq Gp] by (split; split; auto).
  destruct (bulk_send C1 L q p R' H' Z1' Z2' Gq Gp HB) as (C2 & d1 & l1 & i1 & C3 & d2 & E1 & E2 & E3).
  exists C2, (os ++ [(firstn (Z.to_nat l1) d1, i1)]), C3, d2. split; [|split; assumption].
  clear - E E1. revert C os E. induction ps as [|a ps IH]; intros C os E; cbn [sendall app] in *.
  - injection E as <- <-. rewrite E1. reflexivity.
  - destruct (rfc1144_compress C a) as [[[[Ca da] la] ia]| |]; cbn [bind] in *; try discriminate. destruct (sendall Ca ps) as [[Cb ob]| |] eqn:Es; cbn [bind] in *; try discriminate. injection E as <- <-.
    rewrite (IH Ca ob Es). reflexivity.
Qed.
Example C92_case : bulk (pkt 1 1000 100 7 80 16 0 [1; 2; 3]) (pkt 2 1000 103 7 80 24 0 [4; 5]).
Proof. unfold bulk. repeat split; try reflexivity; try (left; reflexivity); right; reflexivity. Qed.

(** ** C93 *)

(** The two directions of one entity do not touch each other. *)
Theorem C93_compress : forall T N O X r1 c1 t1 r2 c2 t2 p s d len idx,
  rfc1144_compress (mkSlc T N r1 O X c1 t1) p = Ok (s, d, len, idx) ->
  rx s = r1 /\ rcur s = c1 /\ toss s = t1 /\
  rfc1144_compress (mkSlc T N r2 O X c2 t2) p = Ok (mkSlc (tx s) (nxt s) r2 (oldest s) (xcur s) c2 t2, d, len, idx).
Proof.
  intros T N O X r1 c1 t1 r2 c2 t2 p s d len idx E.
  pose proof (compress_frame (mkSlc T N r1 O X c1 t1) r1 c1 t1 p) as F1. unfold with_rx in F1. cbn [tx nxt oldest xcur] in F1. rewrite E in F1. cbn [bind] in F1. injection F1 as F1.
  pose proof (compress_frame (mkSlc T N r1 O X c1 t1) r2 c2 t2 p) as F2. unfold with_rx in F2. cbn [tx nxt oldest xcur] in F2. rewrite E in F2. cbn [bind] in F2.
  rewrite F1. auto.
Qed.
Theorem C93_expand : forall R c t T1 N1 O1 X1 T2 N2 O2 X2 buf len idx s d n,
  rfc1144_expand (mkSlc T1 N1 R O1 X1 c t) buf len idx = Ok (s, d, n) ->
  tx s = T1 /\ nxt s = N1 /\ oldest s = O1 /\ xcur s = X1 /\
  rfc1144_expand (mkSlc T2 N2 R O2 X2 c t) buf len idx = Ok (mkSlc T2 N2 (rx s) O2 X2 (rcur s) (toss s), d, n).
Proof.
  intros R c t T1 N1 O1 X1 T2 N2 O2 X2 buf len idx s d n E.
  pose proof (expand_frame (mkSlc T1 N1 R O1 X1 c t) T1 N1 O1 X1 buf len idx) as F1. unfold with_tx in F1. cbn [rx rcur toss] in F1. rewrite E in F1. cbn [bind] in F1. injection F1 as F1.
  pose proof (expand_frame (mkSlc T1 N1 R O1 X1 c t) T2 N2 O2 X2 buf len idx) as F2. unfold with_tx in F2. cbn [rx rcur toss] in F2. rewrite E in F2. cbn [bind] in F2.
  rewrite F1. auto.
Qed.
Example C93_case : match rfc1144_compress C0 (nth 0 stream []) with Ok (s, _, len, idx) => (map (fun c => length (c_ip c)) (rx s), len, idx) | _ => ([], 0, 0) end = ([20; 20]%nat, 43, 1).
Proof. vm_compute. reflexivity. Qed.

Print Assumptions C87_lossless_partial.
Print Assumptions C87_urgent_refuted.
Print Assumptions C87_ecn_refuted.
Print Assumptions C88_loss.
Print Assumptions C88_lost_refuted.
Print Assumptions C89_places.
Print Assumptions C90_compress_partial.
Print Assumptions C90_overread_refuted.
Print Assumptions C90_overflow_refuted.
Print Assumptions C91_expand_partial.
Print Assumptions C91_room_refuted.
Print Assumptions C92_bulk.
Print Assumptions C93_compress.
Print Assumptions C93_expand.

(** An instance is made exactly for 0 to 255 slots in each direction; it has that many, and the number of each
    fits into the octet that carries it. *)
Theorem C89_slots : forall r t,
  ((exists C, slhc_init r t = Some C) <-> 0 <= r <= 255 /\ 0 <= t <= 255) /\
  forall C, slhc_init r t = Some C ->
    zlen (tx C) = t /\ zlen (rx C) = r /\ (forall i, 0 <= i < zlen (tx C) \/ 0 <= i < zlen (rx C) -> byte i).
Proof.
  intros r t. unfold slhc_init.
  destruct ((r <? 0) || (255 <? r) || (t <? 0) || (255 <? t)) eqn:E.
  - split; [split; [intros (C & H); discriminate|lia]|discriminate].
  - split; [split; [lia|eexists; reflexivity]|].
    intros C H. injection H as <-. cbn [tx rx]. unfold zlen. rewrite !repeat_length. unfold byte. split; [lia|split; [lia|intros i Hi; lia]].
Qed.
Print Assumptions C89_slots.
Example C89_slots_case : (exists C, slhc_init 16 255 = Some C) /\ slhc_init 256 1 = None /\ slhc_init 1 256 = None.
Proof. split; [eexists; reflexivity|split; reflexivity]. Qed.
