(** V.42bis data compression: the claims C104 to C106. *)
From Verif.Lib Require Import Base Outcome.
From Verif.Comp Require Import SlhcModel XidModel NegModel V42Model V42Sync V42Main V42Safe V42Wide DataModel.

(** ** C104 *)

(** Whatever is compressed is expanded to what it was, and never is longer than it was.  With P1 above 4096 the N-PDU is to be
    so short that the dictionary does not get that many entries. *)
Theorem C104_round_trip_partial : forall p0 p1 p2 room data, 0 <= p0 <= 3 -> p0 <> 2 -> 512 <= p1 <= 65535 -> 6 <= p2 <= 250 -> bytes data -> zlen data <= room ->
  p1 <= 4096 \/ zlen data <= 1918 ->
  exists o idx, compress_unitdata p0 p1 p2 data = Ok (o, idx) /\ bytes o /\ expand_unitdata p0 p1 p2 room o idx = Ok data /\
    (idx = 0 /\ o = data \/ idx = 1 /\ zlen o < zlen data).
Proof.
  intros p0 p1 p2 room data H0 H2 Hp1 Hp2 B R HW. unfold compress_unitdata.
  destruct ((zlen data <? 100) || (Z.land p0 2 =? 0)) eqn:E; [exists data, 0; split; [reflexivity|]; split; [exact B|]; split; [reflexivity|left; auto]|].
  apply orb_false_iff in E as [E1 E2].
  assert (exists o, compress p1 p2 data = Ok o /\ (zlen o <= zlen data -> decompress p1 p2 o = Ok data) /\ 8 * zlen o <= 48 * zlen data + 60) as (o & C & D & L).
  { destruct (Z_le_dec p1 4096) as [Hs|Hs].
    - destruct (lossless p1 p2 ltac:(lia) Hp2 data B) as (o & C & D & L). exists o. auto.
    - destruct (lossless 4096 p2 ltac:(lia) Hp2 data B) as (o & C & D & L). exists o. rewrite wide_compress by lia. split; [exact C|]. split; [|exact L].
      intros Ho. rewrite wide_decompress; [exact D|lia|lia|exact (compress_bytes _ _ _ _ B C)]. }
  rewrite C. cbn [bind]. unfold need. pose proof (compress_bytes _ _ _ _ B C) as Bo.
  destruct (zlen o <=? zlen data * 10) eqn:E3; [|lia]. destruct (zlen data <=? zlen o) eqn:E4; [exists data, 0; split; [reflexivity|]; split; [exact B|]; split; [reflexivity|left; auto]|].
  exists o, 1. split; [reflexivity|]. split; [exact Bo|]. split; [|right; lia].
  unfold expand_unitdata. change (1 =? 0) with false. cbv iota. assert (p0 = 0 \/ p0 = 1 \/ p0 = 3) as [-> | [-> | ->]] by lia; try discriminate.
  change (Z.land 3 1 =? 0) with false. cbv iota. rewrite D by lia. cbn [bind]. unfold need. destruct (zlen data <=? room) eqn:E5; [reflexivity|lia].
Qed.
Definition text : list Z := concat (repeat [72; 101; 108; 108; 111; 44; 32] 30).
Example C104_case : match compress_unitdata 3 512 20 text with
  | Ok (o, idx) => (zlen text, zlen o, idx, expand_unitdata 3 512 20 210 o idx) | _ => (0, 0, 0, Ok []) end = (210, 63, 1, Ok text).
Proof. vm_compute. reflexivity. Qed.

(** Not so with parameter P0 = 2, compression in one direction: both ends of a link take the same bit for their own side,
    and the receiver hands up the compressed octets. *)
Theorem C104_one_way_refuted : ~ (forall p0 p1 p2 room data o idx, 0 <= p0 <= 3 -> 512 <= p1 <= 4096 -> 6 <= p2 <= 250 -> bytes data -> zlen data <= room ->
  compress_unitdata p0 p1 p2 data = Ok (o, idx) -> expand_unitdata p0 p1 p2 room o idx = Ok data).
Proof.
  intros H. assert (exists o idx, compress_unitdata 2 512 20 text = Ok (o, idx) /\ expand_unitdata 2 512 20 210 o idx = Ok o /\ zlen o < zlen text) as (o & idx & C & X & L).
  { eexists _, _. split; [vm_compute; reflexivity|]. split; [vm_compute; reflexivity|]. vm_compute. reflexivity. }
  assert (bytes text) as B by (repeat constructor; unfold byte; lia).
  specialize (H 2 512 20 210 text o idx ltac:(lia) ltac:(lia) ltac:(lia) B ltac:(vm_compute; discriminate) C). rewrite X in H. injection H as ->. lia.
Qed.

(** ** C105 *)

(** The memory of the receiver is ten times the octets received and 64 more: what fits in it arrives. *)
Definition by_v42 (i d p0 p1 p2 : Z) (ns : list Z) : ent := mkEnt i V42BIS [d] ns (V42 (Some (p0, p1, p2))).
Theorem C105_room_partial : forall i j d p0 p1 p2 ns n data o dc, 0 <= p0 <= 3 -> p0 <> 2 -> 512 <= p1 <= 65535 -> 6 <= p2 <= 250 -> 1 <= d <= 15 -> In n ns -> bytes data -> p1 <= 4096 \/ zlen data <= 1918 ->
  squeeze [] [by_v42 i d p0 p1 p2 ns] data n = Ok ([], o, 0, dc) -> zlen data <= 10 * zlen o + 64 ->
  segment [] [by_v42 j d p0 p1 p2 ns] o 0 dc = Ok ([], data).
Proof.
  intros i j d p0 p1 p2 ns n data o dc H0 H2 Hp1 Hp2 Hd Hn B HW HS HR.
  assert (has n ns = true) as Hh by (apply existsb_exists; exists n; split; [exact Hn|apply Z.eqb_refl]).
  unfold squeeze, pcomp_compress, dcomp_compress in HS. cbn [first_with by_v42 en_nsapi bind] in HS. rewrite Hh in HS. cbn [en_alg en_state by_v42] in HS.
  assert (firstn (Z.to_nat (zlen data)) data = data) as Ed by (unfold zlen; rewrite Nat2Z.id; apply firstn_all). rewrite Ed in HS.
  destruct (C104_round_trip_partial p0 p1 p2 (zlen o * 10 + 64) data H0 H2 Hp1 Hp2 B ltac:(lia) HW) as (o' & idx & C & _ & X & Y).
  rewrite C in HS. cbn [bind] in HS. injection HS as <- E.
  assert (idx = 0 \/ idx = 1) as Hi by tauto.
  unfold segment. assert (dcomp_expand [by_v42 j d p0 p1 p2 ns] (zlen o' * 10 + 64) o' dc = Ok data) as ->.
  { unfold dcomp_expand. destruct Hi as [-> | ->].
    - assert (dc = 0) as -> by (rewrite <- E; reflexivity). change (0 =? 0) with true. cbv iota. destruct Y as [[_ ->]|[Y _]]; [reflexivity|discriminate].
    - assert (dc = d) as -> by (rewrite <- E; reflexivity). replace (d =? 0) with false by lia. cbn [first_with by_v42 en_comp has existsb]. rewrite Z.eqb_refl. cbn [orb].
      replace (get_idx (by_v42 j d p0 p1 p2 ns) d) with 1 by (unfold get_idx; replace (d =? 0) with false by lia; cbn [by_v42 en_comp idx_from]; rewrite Z.eqb_refl; reflexivity). exact X. }
  cbn [bind]. unfold pcomp_expand. change (0 =? 0) with true. cbv iota. cbn [bind]. do 2 f_equal.
  unfold zlen. rewrite Nat2Z.id. rewrite firstn_app, Nat.sub_diag, firstn_all. apply app_nil_r.
Qed.
Example C105_case : match squeeze [] [by_v42 0 1 3 512 20 [5]] text 5 with
  | Ok (_, o, pc, dc) => (zlen o, pc, dc, match segment [] [by_v42 0 1 3 512 20 [5]] o pc dc with Ok (_, p) => p | _ => [] end) | _ => (0, 0, 0, []) end = (63, 0, 1, text).
Proof. vm_compute. reflexivity. Qed.

(** 800 equal octets make 70, and 764 octets of memory: the receiver writes behind them. *)
Definition same : list Z := repeat 7 800.
Theorem C105_room_refuted : ~ (forall i j d p0 p1 p2 ns n data o dc, 0 <= p0 <= 3 -> p0 <> 2 -> 512 <= p1 <= 4096 -> 6 <= p2 <= 250 -> 1 <= d <= 15 -> In n ns -> bytes data ->
  squeeze [] [by_v42 i d p0 p1 p2 ns] data n = Ok ([], o, 0, dc) -> segment [] [by_v42 j d p0 p1 p2 ns] o 0 dc <> UB).
Proof.
  intros H. assert (exists o dc, squeeze [] [by_v42 0 1 3 512 250 [5]] same 5 = Ok ([], o, 0, dc) /\ segment [] [by_v42 0 1 3 512 250 [5]] o 0 dc = UB) as (o & dc & S & X).
  { eexists _, _. split; [vm_compute; reflexivity|]. vm_compute. reflexivity. }
  assert (bytes same) as B by (apply Forall_forall; intros x Hx; apply repeat_spec in Hx as ->; unfold byte; lia).
  apply (H 0 0 1 3 512 250 [5] 5 same o dc ltac:(lia) ltac:(lia) ltac:(lia) ltac:(lia) ltac:(lia) (or_introl eq_refl) B S X).
Qed.

(** ** C106 *)

(** Any octets from the peer: as long as the codewords have up to 12 bits, expansion ends, touches only the dictionary and the string, and
    gives octets or an error. *)
Theorem C106_hostile_partial : forall p0 p1 p2 room data idx, 512 <= p1 <= 4096 -> 6 <= p2 <= 250 -> bytes data -> zlen data <= room ->
  (forall d, decompress p1 p2 data = Ok d -> zlen d <= room) ->
  (forall s rest o, dsteps p1 p2 init data s rest o -> rest <> [] -> v_c2 s <= 12) -> expand_unitdata p0 p1 p2 room data idx <> UB.
Proof.
  intros p0 p1 p2 room data idx Hp1 Hp2 B L R W. pose proof (hostile_ok p1 p2 data Hp1 Hp2 B W) as Q. unfold expand_unitdata, need.
  destruct (idx =? 0); [discriminate|]. destruct (Z.land p0 1 =? 0); cbn [bind].
  - replace (zlen data <=? room) with true by lia. discriminate.
  - destruct (decompress p1 p2 data) as [d| |] eqn:E; cbn [bind]; [|discriminate|congruence]. specialize (R d eq_refl). replace (zlen d <=? room) with true by lia. discriminate.
Qed.
(** [ECM] and the codewords 300, 300 and 108: entry 300 is not yet there, and stands for the octet 0. *)
Definition early : list Z := [0; 0; 44; 89; 178; 1].
Example C106_case : decompress 512 20 early = Ok [0; 0; 105].
Proof. vm_compute. reflexivity. Qed.
Example C106_width : forall s rest o, dsteps 512 20 init [0; 0; 44; 89] s rest o -> rest <> [] -> v_c2 s <= 12.
Proof.
  intros s rest o H N.
  inversion H as [|? ? ? ? ? ? ? ? _ E _ H1]; subst; [cbn; lia|]. cbn in E. injection E as <- <- <-.
  inversion H1 as [|? ? ? ? ? ? ? ? _ E _ H2]; subst; [cbn; lia|]. cbn in E. injection E as <- <- <-.
  inversion H2 as [|? ? ? ? ? ? ? ? _ E L H3]; subst; [cbn; lia|]. destruct r1 as [|y r1]; [|exfalso; vm_compute in E; discriminate E].
  inversion H3; subst; congruence.
Qed.

(** Four STEPUP codewords make the codewords 13 bits long, and 4096 is not in the dictionary's memory. *)
Definition stepped : list Z := [0; 0; 2; 4; 16; 128; 0; 0; 64].
Theorem C106_hostile_refuted : ~ (forall p0 p1 p2 room data idx, 0 <= p0 <= 3 -> 512 <= p1 <= 4096 -> 6 <= p2 <= 250 -> bytes data ->
  (forall d, decompress p1 p2 data = Ok d -> zlen d <= room) -> expand_unitdata p0 p1 p2 room data idx <> UB).
Proof.
  intros H. apply (H 3 2048 20 100 stepped 1); try lia; [repeat constructor; unfold byte; lia| |vm_compute; reflexivity].
  intros d E. vm_compute in E. discriminate.
Qed.

Print Assumptions C104_round_trip_partial.
Print Assumptions C104_one_way_refuted.
Print Assumptions C105_room_partial.
Print Assumptions C105_room_refuted.
Print Assumptions C106_hostile_partial.
Print Assumptions C106_hostile_refuted.
