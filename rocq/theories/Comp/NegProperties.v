(** C98-C103: the negotiation of compression (sndcp.c, sndcp_comp.c, sndcp_pcomp.c). *)
From Verif.Lib Require Import Base Outcome.
From Verif.Comp Require Import SlhcModel SlhcSpec SlhcProperties XidModel XidSpec XidProofs XidRead XidCode XidSafe XidProperties.
From Verif.Comp Require Import NegModel NegSpec NegProofs NegAnswer NegAsk NegExchange NegFlow NegReach.

Definition on : cfg := mkCfg true true.
Definition off : cfg := mkCfg false false.
(** A mobile with entities just made for these NSAPIs, all on SAPI 3. *)
Definition fresh (ns : list Z) : snme := mkM (map (fun n => mkSne n 3 [] false false None) ns) [] [].
Lemma fresh_5 : mobile_ok (fresh [5]).
Proof. split; [repeat constructor|]. split; [repeat (constructor; [cbn; lia|]); constructor|]. split; split; constructor. Qed.
Example fresh_5_reach : happens on snme0 (Activate 5 3) = Ok (mkR (fresh [5]) [SnsmActivateRsp 5] true). Proof. reflexivity. Qed.

(** ** C98: both ends have the same entities afterwards *)

(** Missing: the requester allows both algorithms, and the other end has no entities from before that are not asked for again. *)
Theorem C98_agree_partial cb A B e k pc dc room room' : mobile_ok A -> mobile_ok B ->
  find (fun x => e_sapi x =? e_sapi e) (m_sne A) = Some e -> find (fun x => e_sapi x =? e_sapi e) (m_sne B) = Some k -> 5 <= e_nsapi e <= 15 ->
  pc_ok pc -> dc_ok dc -> (pc <> None \/ dc <> None) ->
  exists A' B', exchange (mkCfg true true) cb A B (e_sapi e) (e_nsapi e) pc dc room room' =
      Ok (A', B', (if e_act e then [SnsmActivateRsp (e_nsapi e)] else []) ++ [SnXidCnf (e_sapi e) (e_nsapi e)]) /\
    mobile_ok A' /\ mobile_ok B' /\
    m_proto A' = (match pc with
                  | Some s01 => if c_rfc1144 cb then [mkEnt 0 RFC1144 [1; 2] [e_nsapi e] (Tcp (slhc_init (s01 + 1) (s01 + 1)))] else []
                  | None => [] end) /\
    m_data A' = (match dc with
                 | Some d => if c_v42bis cb then [mkEnt (match pc with Some _ => 1 | None => 0 end) V42BIS [1] [e_nsapi e] (V42 (Some d))] else []
                 | None => [] end) /\
    (m_proto B = [] -> m_proto B' = m_proto A') /\ (m_data B = [] -> m_data B' = m_data A') /\
    (forall i, look i (m_proto B') = match pc with Some _ => if i =? 0 then look 0 (m_proto A') else look i (m_proto B) | None => look i (m_proto B) end).
Proof.
  intros HA HB SA SB Hn Hp Hd Hw. assert (wanted (e_nsapi e) pc dc <> []) as W by (destruct dc as [[[p0 p1] p2]|], pc as [s01|]; try discriminate; destruct Hw; congruence).
  destruct (agree cb A B e k pc dc room room' HA HB SA SB Hn Hp Hd W) as (A' & B' & E & OA & OB & EA & EB). injection EA as EA1 EA2. injection EB as EB1 EB2.
  exists A', B'. split; [exact E|]. split; [exact OA|]. split; [exact OB|]. split; [exact EA1|]. split; [exact EA2|]. split; [|split].
  - intros N. rewrite EB1, N. destruct pc; [cbn [without filter]; apply app_nil_r|rewrite EA1; reflexivity].
  - intros N. rewrite EB2, N. destruct dc as [d|]; [cbn [without filter]; apply app_nil_r|rewrite EA2; reflexivity].
  - intros i. rewrite EB1. destruct pc as [s01|]; [|reflexivity]. rewrite EA1. assert (look i (without 0 (m_proto B)) = if i =? 0 then None else look i (m_proto B)) as LW by apply look_without. destruct (c_rfc1144 cb).
    + cbn [app look find en_entity tcp_ent]. destruct (i =? 0) eqn:Ei; [replace (0 =? i) with true by lia; reflexivity|]. replace (0 =? i) with false by lia. fold (look i (without 0 (m_proto B))). rewrite LW. try rewrite Ei. reflexivity.
    + cbn [app]. rewrite LW. destruct (i =? 0); reflexivity.
Qed.
Example C98_case : exists A' B', exchange on on (fresh [5]) (fresh [5]) 3 5 (Some 1) (Some (3, 2048, 20)) [] [] = Ok (A', B', [SnXidCnf 3 5]) /\
  m_proto A' = m_proto B' /\ m_data A' = m_data B' /\ length (m_proto A') = 1%nat /\ length (m_data A') = 1%nat.
Proof. eexists _, _. split; [vm_compute; reflexivity|]. repeat split; vm_compute; reflexivity. Qed.
(** Only one of the two is asked for, then: the other end keeps what was there, and the first packet it sends arrives as another. *)
Definition p1 : list Z := pkt 1 1000 100 7 80 16 0 [1; 2; 3].
Theorem C98_stale_refuted : exists A1 B1 A2 B2 T R q,
  exchange on on (fresh [5]) (fresh [5]) 3 5 (Some 1) (Some (3, 2048, 20)) [] [] = Ok (A1, B1, [SnXidCnf 3 5]) /\
  exchange on on A1 B1 3 5 None (Some (3, 2048, 20)) [] [] = Ok (A2, B2, [SnXidCnf 3 5]) /\
  m_proto A2 = [] /\ m_proto B2 <> [] /\ carry room0 (m_proto B2) (m_proto A2) 5 p1 = Ok (T, R, (1, q)) /\ q <> p1.
Proof.
  eexists _, _, _, _, _, _, _. split; [vm_compute; reflexivity|]. split; [vm_compute; reflexivity|]. split; [reflexivity|]. split; [discriminate|]. split; [vm_compute; reflexivity|]. discriminate.
Qed.
(** The answer to the own request is treated like a request of the other end: without the permission to accept, what was asked for and granted is
    not set up. *)
Theorem C98_passive_refuted : exists A' B' T R q, exchange off on (fresh [5]) (fresh [5]) 3 5 (Some 1) None [] [] = Ok (A', B', [SnXidCnf 3 5]) /\
  m_proto A' = [] /\ m_proto B' <> [] /\ carry room0 (m_proto B') (m_proto A') 5 p1 = Ok (T, R, (1, q)) /\ q <> p1.
Proof.
  eexists _, _, _, _, _. split; [vm_compute; reflexivity|]. split; [reflexivity|]. split; [discriminate|]. split; [vm_compute; reflexivity|]. discriminate.
Qed.

(** ** C99: packets arrive over what was negotiated *)

(** Missing: 256 connections (S0 = 255); packets of both directions in turns. *)
Theorem C99_flow_partial cb A B e k s01 dc room room' free ps : mobile_ok A -> mobile_ok B ->
  find (fun x => e_sapi x =? e_sapi e) (m_sne A) = Some e -> find (fun x => e_sapi x =? e_sapi e) (m_sne B) = Some k -> 5 <= e_nsapi e <= 15 ->
  0 <= s01 <= 254 -> dc_ok dc -> c_rfc1144 cb = true -> 128 <= zlen free -> legal ps ->
  exists A' B' out, exchange (mkCfg true true) cb A B (e_sapi e) (e_nsapi e) (Some s01) dc room room' = Ok (A', B', out) /\
    (exists T R is, carry_all free (m_proto A') (m_proto B') (e_nsapi e) ps = Ok (T, R, combine is ps) /\ length is = length ps) /\
    (exists T R is, carry_all free (m_proto B') (m_proto A') (e_nsapi e) ps = Ok (T, R, combine is ps) /\ length is = length ps).
Proof.
  intros HA HB SA SB Hn Hs Hd Hc Hf HL. assert (wanted (e_nsapi e) (Some s01) dc <> []) as W by (destruct dc as [[[p0 q1] p2]|]; discriminate).
  destruct (agree cb A B e k (Some s01) dc room room' HA HB SA SB Hn ltac:(cbn; lia) Hd W) as (A' & B' & E & _ & _ & EA & EB). injection EA as EA1 _. injection EB as EB1 _. rewrite Hc in EA1. rewrite EA1 in EB1. cbn [app] in EB1.
  exists A', B'.
  assert (exists s, slhc_init (s01 + 1) (s01 + 1) = Some s) as (s & Es). { unfold slhc_init. replace (_ || _ || _ || _) with false by lia. eauto. }
  assert (has (e_nsapi e) [e_nsapi e] = true) as Hh by (cbn; rewrite Z.eqb_refl; reflexivity).
  unfold tcp_ent in *. rewrite Es in *. change (mkEnt 0 RFC1144 [1; 2] [e_nsapi e] (Tcp (Some s))) with (tcp_at 0 [e_nsapi e] s) in *.
  eexists. split; [exact E|]. rewrite EA1, EB1. split; eapply flow; eauto; lia.
Qed.
Example C99_case : exists A' B' T R is T' R' is', exchange on on (fresh [5]) (fresh [5]) 3 5 (Some 1) None [] [] = Ok (A', B', [SnXidCnf 3 5]) /\ legal stream /\
  carry_all room0 (m_proto A') (m_proto B') 5 stream = Ok (T, R, combine is stream) /\ is = [1; 0; 2; 1; 2; 2; 1] /\
  carry_all room0 (m_proto B') (m_proto A') 5 stream = Ok (T', R', combine is' stream).
Proof.
  eexists _, _, _, _, [1; 0; 2; 1; 2; 2; 1], _, _, [1; 0; 2; 1; 2; 2; 1]. split; [vm_compute; reflexivity|]. split; [exact stream_legal|]. split; [vm_compute; reflexivity|]. split; [reflexivity|]. vm_compute. reflexivity.
Qed.
(** With 256 connections there is no context on either side, and the first packet is fatal. *)
Theorem C99_slots_refuted : exists A' B', exchange on on (fresh [5]) (fresh [5]) 3 5 (Some 255) None [] [] = Ok (A', B', [SnXidCnf 3 5]) /\
  carry room0 (m_proto A') (m_proto B') 5 p1 = UB /\ carry room0 (m_proto B') (m_proto A') 5 p1 = UB.
Proof. eexists _, _. split; [vm_compute; reflexivity|]. split; vm_compute; reflexivity. Qed.

(** ** C100: a request of the peer is answered *)

Lemma framed_len t l : zlen l <= zlen (match l with [] => [] | z :: r => t :: zlen (z :: r) :: z :: r end).
Proof. destruct l as [|a l]; [lia|]. rewrite !zlen_cons. lia. Qed.
(** Missing: parameters left out; longer answers; equal numbers of entities; profiles and codebooks as in C94. *)
Theorem C100_answer_partial c m s e es room : mobile_ok m -> find (fun x => e_sapi x =? s) (m_sne m) = Some e -> proposal es ->
  let xs := concat (map e_fields es) in
  (forall x, In x xs -> par_ok (x_alg x) (x_vals x)) ->
  (forall x, In x xs -> x_prof x = [] \/ length (x_prof x) = 16%nat) ->
  (forall x i v, In x xs -> x_alg x = V44 -> i = 2%nat \/ i = 3%nat -> nth_error (x_vals x) i = Some v -> 265 <= v) ->
  NoDup (map x_entity xs) -> zlen (concat (map elem_oct (answer c xs))) <= 256 ->
  exists m', ll_xid_ind c m s (concat (map elem_oct es) ++ room) (zlen (concat (map elem_oct es))) = Ok (mkR m' [SnXidInd s (e_nsapi e)] true) /\
    sn_xid_rsp m' s (e_nsapi e) = Ok (mkR m' [LlXidRsp s (concat (map elem_oct (answer c xs)))] true) /\
    (forall i, look i (m_proto m') = settled c 2 xs i (look i (m_proto m)) /\ look i (m_data m') = settled c 1 xs i (look i (m_data m))) /\
    mobile_ok m' /\ map e_nsapi (m_sne m') = map e_nsapi (m_sne m).
Proof.
  intros HM Hs (Hl & He & Hp) xs HP Hr Hv N L.
  assert (Forall whole xs) as W.
  { apply Forall_forall. intros x Hx. split; [|split; [apply HP; exact Hx|apply Hp; exact Hx]]. unfold xs in Hx. apply in_concat in Hx as (l & Hl2 & Hx). apply in_map_iff in Hl2 as (el & <- & Hel). rewrite Forall_forall in He. specialize (He el Hel). destruct el as [v|cls ys]; [destruct Hx|]. destruct He as (_ & _ & He & _). rewrite Forall_forall in He. apply He. exact Hx. }
  assert (Forall (elem_read None) es) as ER.
  { apply Forall_forall. intros el Hin. rewrite Forall_forall in He. split; [apply He; exact Hin|]. apply Forall_forall. intros x Hx.
    assert (In x xs) as Hxs by (apply in_concat; exists (e_fields el); split; [apply in_map; exact Hin|exact Hx]). split; [split|].
    - intros Ha i Hi Hlt. apply (Hv x i _ Hxs Ha Hi). apply nth_error_nth'. exact Hlt.
    - destruct (Hr x Hxs) as [->|E]; [left; reflexivity|right; exact E].
    - intros Hn. destruct (Hp x Hxs) as [cs Hc]. congruence. }
  pose proof L as L'. unfold answer in L'. cbn [map concat] in L'. rewrite zlen_app, map_app, concat_app, zlen_app in L'. pose proof (elems_oct 1 (map (echo c) xs)) as O1. pose proof (elems_oct 2 (map (echo c) xs)) as O2. unfold msg in O1, O2. rewrite O1, O2 in L'. change (zlen (elem_oct (Version 0))) with 3 in L'.
  pose proof (zlen_nonneg (concat (map x_oct (of_class 1 (map (echo c) xs))))). pose proof (zlen_nonneg (concat (map x_oct (of_class 2 (map (echo c) xs))))).
  destruct (respond c m s e es room HM Hs Hl ER W N) as (m' & E1 & E2 & ET & OM & EN).
  - fold xs. pose proof (framed_len 1 (concat (map x_oct (of_class 1 (map (echo c) xs))))). pose proof (framed_len 2 (concat (map x_oct (of_class 2 (map (echo c) xs))))). lia.
  - fold xs. pose proof (framed_len 1 (concat (map x_oct (of_class 1 (map (echo c) xs))))). pose proof (framed_len 2 (concat (map x_oct (of_class 2 (map (echo c) xs))))). lia.
  - exact L.
  - exists m'. split; [exact E1|]. split; [exact E2|]. split; [|split; [exact OM|exact EN]]. intros i.
    assert (NoDup (map x_entity (rev xs))) as NR by (rewrite map_rev; apply NoDup_rev; exact N).
    pose proof (fold_look c (rev xs) (m_proto m) (m_data m) i NR) as FL. cbv zeta in FL. fold xs in ET. rewrite <- ET in FL. cbn [fst snd] in FL. rewrite !settled_rev in FL by exact N. exact FL.
Qed.
(** Header compression of RFC 1144 and V.42bis are accepted, RFC 2507, ROHC and V.44 rejected. *)
Definition ex_2507 : xf := mkX 3 RFC2507 (Some [3; 4; 5; 6; 7]) [5; 6] [256; 5; 168; 15; 15] [].
Definition ex_all : list elem := [Version 0; Fields 1 [ex_v42; ex_v44]; Fields 2 [ex_tcp; ex_2507; ex_rohc]].
Example C100_case : exists m', ll_xid_ind on (fresh [5]) 3 (concat (map elem_oct ex_all)) (zlen (concat (map elem_oct ex_all))) = Ok (mkR m' [SnXidInd 3 5] true) /\
  sn_xid_rsp m' 3 5 = Ok (mkR m' [LlXidRsp 3 (concat (map elem_oct (answer on (concat (map e_fields ex_all)))))] true) /\
  zlen (concat (map elem_oct (answer on (concat (map e_fields ex_all))))) = 85 /\
  map en_entity (m_proto m') = [0] /\ map en_entity (m_data m') = [1] /\ map en_nsapi (m_proto m') = [[5; 7]].
Proof. eexists. split; [vm_compute; reflexivity|]. repeat split; vm_compute; reflexivity. Qed.
Example C100_case_proposal : proposal ex_all /\ NoDup (map x_entity (concat (map e_fields ex_all))) /\ (forall x, In x (concat (map e_fields ex_all)) -> par_ok (x_alg x) (x_vals x)).
Proof.
  assert (xf_ok ex_2507) as H2507 by (okx; [exists []; cbn; lia|constructor]). split; [|split].
  - split; [cbn; lia|]. split.
    + pose proof ex_tcp_ok. pose proof ex_v42_ok. pose proof ex_v44_ok. pose proof ex_rohc_ok.
      constructor; [cbn; lia|]. constructor; [|constructor; [|constructor]].
      * split; [discriminate|]. split; [auto|]. split; [repeat (constructor; [split; [reflexivity|assumption]|]); constructor|]. vm_compute. discriminate.
      * split; [discriminate|]. split; [auto|]. split; [repeat (constructor; [split; [reflexivity|assumption]|]); constructor|]. vm_compute. discriminate.
    + cbn. intros x H. repeat (destruct H as [<-|H]; [eexists; reflexivity|]). destruct H.
  - cbn. repeat (constructor; [cbn; lia|]). constructor.
  - cbn. intros x H. repeat (destruct H as [<-|H]; [cbn; lia|]). destruct H.
Qed.
(** A proposal without S0 is taken, but the answer to it fails an assertion. *)
Definition no_s0 : list elem := [Fields 2 [mkX 0 RFC1144 (Some [1; 2]) [5] [] []]].
Lemma no_s0_ok : proposal no_s0.
Proof.
  split; [cbn; lia|]. split; [|cbn; intros x [<-|[]]; eexists; reflexivity]. constructor; [|constructor]. split; [discriminate|]. split; [auto|]. split; [|vm_compute; discriminate].
  constructor; [split; [reflexivity|okx; [exists [15]; cbn; lia|constructor]]|constructor].
Qed.
Theorem C100_default_refuted : exists m', proposal no_s0 /\
  ll_xid_ind on (fresh [5]) 3 (concat (map elem_oct no_s0)) (zlen (concat (map elem_oct no_s0))) = Ok (mkR m' [SnXidInd 3 5] true) /\ sn_xid_rsp m' 3 5 = UB.
Proof. eexists. split; [exact no_s0_ok|]. split; [vm_compute; reflexivity|]. vm_compute. reflexivity. Qed.
(** A block with eleven proposals: the answer overruns its buffer. *)
Definition ex_big (i : Z) : xf := mkX i ROHC (Some [8; 9]) [5] [15; 168] (repeat 1 16).
Definition ex_v44_at (i : Z) : xf := mkX i V44 (Some [2; 3]) [6; 15] [192; 3; 525; 525; 2100; 2100] [].
Definition too_many : list elem := [Fields 1 (map ex_v44_at [10; 11; 12; 13; 14; 15]); Fields 2 (map ex_big [0; 1; 2; 3; 4])].
Lemma ex_big_ok i : 0 <= i <= 31 -> xf_ok (ex_big i).
Proof. intros Hi. okx; [exists []; cbn; lia|cbn [repeat x_prof ex_big]; repeat (constructor; [lia|]); constructor]. Qed.
Lemma ex_v44_at_ok i : 0 <= i <= 31 -> xf_ok (ex_v44_at i).
Proof. intros Hi. okx; [exists []; cbn; lia|constructor]. Qed.
Theorem C100_long_refuted : exists m', proposal too_many /\ NoDup (map x_entity (concat (map e_fields too_many))) /\ zlen (concat (map elem_oct too_many)) <= 520 /\
  ll_xid_ind on (fresh [5]) 3 (concat (map elem_oct too_many)) (zlen (concat (map elem_oct too_many))) = Ok (mkR m' [SnXidInd 3 5] true) /\ sn_xid_rsp m' 3 5 = UB.
Proof.
  eexists. split; [|split; [|split; [vm_compute; discriminate|split; [vm_compute; reflexivity|vm_compute; reflexivity]]]].
  - split; [cbn; lia|]. split.
    + constructor; [|constructor; [|constructor]].
      * split; [discriminate|]. split; [auto|]. split; [repeat (constructor; [split; [reflexivity|apply ex_v44_at_ok; lia]|]); constructor|]. vm_compute. discriminate.
      * split; [discriminate|]. split; [auto|]. split; [repeat (constructor; [split; [reflexivity|apply ex_big_ok; lia]|]); constructor|]. vm_compute. discriminate.
    + cbn. intros x H. repeat (destruct H as [<-|H]; [eexists; reflexivity|]). destruct H.
  - cbn. repeat (constructor; [cbn; lia|]). constructor.
Qed.

(** ** C101: whatever the peer sends *)

(** Missing: 41 octets behind the block must exist; SN-XID.rsp. *)
Theorem C101_histories_partial c m v : reach c m -> allowed v -> (forall s n, v <> XidRsp s n) -> mobile_ok m /\ exists r, happens c m v = Ok r /\ mobile_ok (r_m r).
Proof. exact (histories c m v). Qed.
Lemma room_byte n : Forall byte (repeat 0 n). Proof. apply Forall_forall. intros x Hx. apply repeat_spec in Hx. subst x. unfold byte. lia. Qed.
Fixpoint play (c : cfg) (m : snme) (vs : list event) : res snme :=
  match vs with [] => Ok m | v :: r => do x <- happens c m v; play c (r_m x) r end.
Lemma play_reach c vs : forall m m', reach c m -> Forall allowed vs -> play c m vs = Ok m' -> reach c m'.
Proof.
  induction vs as [|v vs IH]; intros m m' R F H; cbn [play] in H; [injection H as <-; exact R|]. inversion F as [|? ? F1 F2]; subst. destruct (happens c m v) as [x| |] eqn:E; cbn [bind] in H; try discriminate.
  apply (IH (r_m x)); [apply (reach_S c m v x R F1 E)|exact F2|exact H].
Qed.
(** A mobile with two NSAPIs, a request of its own and one of the peer; then proposals come as an answer. *)
Example C101_case : exists m r, reach on m /\ map e_nsapi (m_sne m) = [5; 6] /\ length (m_proto m) = 1%nat /\ allowed (XidCnf 3 (msg ex_all ++ repeat 0 41) (zlen (msg ex_all))) /\
  happens on m (XidCnf 3 (msg ex_all ++ repeat 0 41) (zlen (msg ex_all))) = Ok r /\ r_out r = [SnXidCnf 3 5].
Proof.
  set (b := [2; 7; 133; 0; 4; 0x12; 0; 32; 1] ++ repeat 0 41).
  assert (allowed (XidInd 3 b 9)) as HB. { split; [|split; [lia|vm_compute; discriminate]]. apply Forall_app. split; [repeat (constructor; [unfold byte; lia|]); constructor|apply room_byte]. }
  eexists _, _. split; [|split; [|split; [|split; [|split]]]].
  - eapply play_reach with (vs := [Activate 6 3; Activate 5 3; XidReq 3 5 (Some 1) (Some (3, 2048, 20)); XidInd 3 b 9]); [apply reach_0| |vm_compute; reflexivity].
    repeat (constructor; [first [exact HB|cbn; lia]|]); constructor.
  - reflexivity.
  - reflexivity.
  - split; [|split; [apply zlen_nonneg|rewrite zlen_app; change (zlen (repeat 0 41)) with 41; lia]]. apply Forall_app. split; [vm_compute; repeat (constructor; [split; [discriminate|reflexivity]|]); constructor|apply room_byte].
  - vm_compute. reflexivity.
  - reflexivity.
Qed.
(** Three octets are enough to read outside the message. *)
Theorem C101_room_refuted : exists m buf, reach on m /\ Forall byte buf /\ happens on m (XidInd 3 buf (zlen buf)) = UB.
Proof.
  exists (fresh [5]), [2; 1; 128]. split; [|split; [repeat (constructor; [unfold byte; lia|]); constructor|vm_compute; reflexivity]].
  apply (reach_S on snme0 (Activate 5 3) (mkR (fresh [5]) [SnsmActivateRsp 5] true)); [apply reach_0|cbn; lia|reflexivity].
Qed.
(** The user answers a request of the peer, and an assertion fails. *)
Theorem C101_answer_refuted : exists m, reach on m /\ allowed (XidRsp 3 5) /\ happens on m (XidRsp 3 5) = UB.
Proof.
  set (b := msg no_s0 ++ repeat 0 41).
  eexists. split; [|split; [cbn; lia|]].
  - eapply play_reach with (vs := [Activate 5 3; XidInd 3 b (zlen (msg no_s0))]); [apply reach_0| |vm_compute; reflexivity].
    constructor; [cbn; lia|]. constructor; [|constructor]. split; [|split; [apply zlen_nonneg|unfold b; rewrite zlen_app; change (zlen (repeat 0 41)) with 41; lia]].
    apply Forall_app. split; [vm_compute; repeat (constructor; [split; [discriminate|reflexivity]|]); constructor|apply room_byte].
  - vm_compute. reflexivity.
Qed.

(** ** C102: a request is confirmed *)

(** Missing: no other entity with a lower NSAPI on the SAPI; an answer that is not empty; the entities of all others (see below). *)
Theorem C102_confirm_partial c m e pc dc : mobile_ok m -> find (fun x => e_sapi x =? e_sapi e) (m_sne m) = Some e -> 5 <= e_nsapi e <= 15 ->
  pc_ok pc -> dc_ok dc -> (pc <> None \/ dc <> None) ->
  let w := wanted (e_nsapi e) pc dc in
  exists m1 b, sn_xid_req m (e_sapi e) (e_nsapi e) pc dc = Ok (mkR m1 [LlXidReq (e_sapi e) b] true) /\
  b = concat (map elem_oct (Version 0 :: elems_for 1 (rev w) ++ elems_for 2 (rev w))) /\
  forall es room, (1 <= length es <= 3)%nat -> Forall elem_ok es ->
  let ys := concat (map e_fields es) in
  (forall y, In y ys -> x_prop y = None /\ exists x, In x w /\ x_entity x = x_entity y /\ x_alg x = x_alg y) -> NoDup (map x_entity ys) ->
  exists m2, ll_xid_cnf c m1 (e_sapi e) (concat (map elem_oct es) ++ room) (zlen (concat (map elem_oct es))) =
      Ok (mkR m2 ((if e_act e then [SnsmActivateRsp (e_nsapi e)] else []) ++ [SnXidCnf (e_sapi e) (e_nsapi e)]) true) /\
    (forall i, look i (m_proto m2) = settled c 2 (map (merged w) ys) i None /\ look i (m_data m2) = settled c 1 (map (merged w) ys) i None) /\
    exists e2, find (fun x => e_sapi x =? e_sapi e) (m_sne m2) = Some e2 /\ e_nsapi e2 = e_nsapi e /\ e_act e2 = false /\ e_xid e2 = false.
Proof.
  intros HM SA Hn Hp Hd Hw w. assert (w <> []) as W by (unfold w; destruct dc as [[[p0 q1] p2]|], pc as [s01|]; try discriminate; destruct Hw; congruence).
  destruct (by_sapi_in _ _ _ SA) as [Hin _]. destruct (ask m e pc dc HM Hin Hn Hp Hd) as [EA OKA]. set (m1 := put_sne (mkM (m_sne m) [] []) (asked_state m e pc dc)) in *.
  exists m1, (asking (e_nsapi e) pc dc). split; [exact EA|]. split; [unfold asking; fold w; destruct w; [congruence|reflexivity]|].
  intros es room Hl He ys Hy N.
  assert (by_sapi m1 (e_sapi e) = Some (asked_state m e pc dc)) as S1. { apply by_sapi_put with e; [exact SA|apply HM|reflexivity|reflexivity]. }
  assert (Forall (replies w) ys) as HR.
  { apply Forall_forall. intros y Hin2. split; [|exact (Hy y Hin2)]. unfold ys in Hin2. apply in_concat in Hin2 as (l & Hl2 & Hx). apply in_map_iff in Hl2 as (el & <- & Hel). rewrite Forall_forall in He. specialize (He el Hel). destruct el as [v|cls zs]; [destruct Hx|]. destruct He as (_ & _ & He & _). rewrite Forall_forall in He. apply He. exact Hx. }
  destruct (take c m1 (e_sapi e) _ (e_nsapi e) pc dc es room OKA S1 Hn Hp Hd W eq_refl Hl He HR) as (pt & dt & ET & EF & T2 & T1).
  eexists. split; [etransitivity; [exact ET|reflexivity]|]. split.
  - intros i. change (m_proto (put_sne (mkM (m_sne m1) pt dt) _)) with pt. cbn [confirm r_m put_sne m_proto m_data].
    assert (map x_entity (map (merged w) ys) = map x_entity ys) as ME.
    { rewrite map_map. apply map_ext. intros y. unfold merged. destruct (find _ w); reflexivity. }
    pose proof (fold_look c (rev (map (merged w) ys)) [] [] i) as FL. rewrite map_rev, ME in FL. specialize (FL (NoDup_rev N)). cbv zeta in FL. change (m_proto m1) with (@nil ent) in EF. change (m_data m1) with (@nil ent) in EF. fold w ys in EF. rewrite <- EF in FL. cbn [fst snd] in FL.
    rewrite !settled_rev in FL by (rewrite ME; exact N). exact FL.
  - eexists. split; [apply by_sapi_put with (asked_state m e pc dc); [exact S1|apply OKA|reflexivity|reflexivity]|]. repeat split; reflexivity.
Qed.
(** Header compression is granted with fewer connections, data compression is refused. *)
Example C102_case : exists m1 b m2, sn_xid_req (fresh [5]) 3 5 (Some 15) (Some (3, 2048, 20)) = Ok (mkR m1 [LlXidReq 3 b] true) /\
  let es := [Fields 1 [mkX 1 V42BIS None [] [] []]; Fields 2 [mkX 0 RFC1144 None [5] [1] []]] in
  ll_xid_cnf on m1 3 (concat (map elem_oct es)) (zlen (concat (map elem_oct es))) = Ok (mkR m2 [SnXidCnf 3 5] true) /\
  m_proto m2 = [mkEnt 0 RFC1144 [1; 2] [5] (Tcp (slhc_init 2 2))] /\ m_data m2 = [].
Proof. eexists _, _, _. split; [vm_compute; reflexivity|]. split; [vm_compute; reflexivity|]. split; vm_compute; reflexivity. Qed.
(** Two NSAPIs on one SAPI: the confirmation is taken for the other entity, and the user waits for ever. *)
Theorem C102_sapi_refuted : exists m1 b m2, sn_xid_req (fresh [5; 6]) 3 6 (Some 15) None = Ok (mkR m1 [LlXidReq 3 b] true) /\
  let es := answer on (wanted 6 (Some 15) None) in
  ll_xid_cnf on m1 3 (concat (map elem_oct es)) (zlen (concat (map elem_oct es))) = Ok (mkR m2 [] true) /\ m_proto m2 = [] /\
  map e_xid (m_sne m2) = [false; true].
Proof. eexists _, _, _. split; [vm_compute; reflexivity|]. split; [vm_compute; reflexivity|]. split; vm_compute; reflexivity. Qed.
(** An answer without any field, by which the peer refuses nothing and changes nothing: no confirmation. *)
Theorem C102_empty_refuted : exists m1 b m2, sn_xid_req (fresh [5]) 3 5 (Some 15) None = Ok (mkR m1 [LlXidReq 3 b] true) /\
  ll_xid_cnf on m1 3 [] 0 = Ok (mkR m2 [] false) /\ map e_xid (m_sne m2) = [true].
Proof. eexists _, _, _. split; [vm_compute; reflexivity|]. split; [vm_compute; reflexivity|]. vm_compute. reflexivity. Qed.
(** A request for one NSAPI ends the compression of the others, on this side only. *)
Definition two_saps : snme := mkM [mkSne 5 3 [] false false None; mkSne 6 5 [] false false None] [] [].
Theorem C102_others_refuted : exists A1 B1 A2 B2, exchange on on two_saps two_saps 3 5 (Some 1) None [] [] = Ok (A1, B1, [SnXidCnf 3 5]) /\
  existsb (fun e => has 5 (en_nsapi e)) (m_proto A1) = true /\
  exchange on on A1 B1 5 6 None (Some (3, 2048, 20)) [] [] = Ok (A2, B2, [SnXidCnf 5 6]) /\
  existsb (fun e => has 5 (en_nsapi e)) (m_proto A2) = false /\ existsb (fun e => has 5 (en_nsapi e)) (m_proto B2) = true.
Proof. eexists _, _, _, _. split; [vm_compute; reflexivity|]. split; [reflexivity|]. split; [vm_compute; reflexivity|]. split; reflexivity. Qed.

(** ** C103: the receiver takes what the sender has put *)

Lemma nodup_l {A} (a b : list A) : NoDup (a ++ b) -> NoDup a.
Proof. induction a as [|x a IH]; cbn [app]; intros H; [constructor|]. inversion H as [|? ? H1 H2]; subst. constructor; [intros Hx; apply H1; apply in_app_iff; auto|auto]. Qed.
Lemma nodup_r {A} (a b : list A) : NoDup (a ++ b) -> NoDup b.
Proof. induction a as [|x a IH]; cbn [app]; intros H; [exact H|]. inversion H; auto. Qed.
(** Missing: tables in which the PCOMP or DCOMP values are not different or are 0. *)
Theorem C103_number_partial t e i : In e t -> NoDup (concat (map en_comp t)) -> ~ In 0 (concat (map en_comp t)) -> 1 <= i <= zlen (en_comp e) ->
  get_comp e i <> 0 /\ get_idx e (get_comp e i) = i /\
  exists a b, t = a ++ e :: b /\ first_with (fun x => has (get_comp e i) (en_comp x)) t = Some (a, e, b).
Proof.
  intros Hin N Z0 Hi.
  assert (In (get_comp e i) (en_comp e)) as HC. { unfold get_comp. replace (i =? 0) with false by lia. replace (zlen (en_comp e) <? i) with false by lia. apply nth_In. unfold zlen in *. lia. }
  assert (forall x, In x t -> forall v, In v (en_comp x) -> In v (concat (map en_comp t))) as Hconc. { intros x Hx v Hv. apply in_concat. exists (en_comp x). split; [apply in_map; exact Hx|exact Hv]. }
  assert (get_comp e i <> 0) as C0. { intros E. apply Z0. rewrite <- E. apply (Hconc e Hin). exact HC. }
  split; [exact C0|]. split.
  - unfold get_idx. replace (get_comp e i =? 0) with false by lia. unfold get_comp. replace (i =? 0) with false by lia. replace (zlen (en_comp e) <? i) with false by lia.
    assert (NoDup (en_comp e)) as Ne. { clear - Hin N. induction t as [|y t IH]; [destruct Hin|]. cbn [map concat] in N. destruct Hin as [->|Hin]; [apply nodup_l in N; exact N|apply nodup_r in N; apply IH; assumption]. }
    assert (forall l k j, NoDup l -> (j < length l)%nat -> idx_from k l (nth j l 0) = k + Z.of_nat j + 1) as G.
    { induction l as [|y l IH]; intros k j Nl Hj; [cbn in Hj; lia|]. inversion Nl as [|? ? N1 N2]; subst. destruct j as [|j]; cbn [nth idx_from]; [rewrite Z.eqb_refl; lia|]. cbn [length] in Hj.
      destruct (y =? nth j l 0) eqn:E; [exfalso; apply N1; replace y with (nth j l 0) by lia; apply nth_In; lia|]. rewrite IH by (assumption || lia). lia. }
    rewrite G; [lia|exact Ne|unfold zlen in *; lia].
  - clear C0 Z0 Hi. revert N Hin HC. generalize (get_comp e i) as v. intros v N Hin HC. clear Hconc. induction t as [|y t IH]; [destruct Hin|]. cbn [first_with].
    assert (forall x, In v (en_comp x) <-> has v (en_comp x) = true) as HH. { intros x. unfold has. rewrite existsb_exists. split; [intros H; exists v; split; [exact H|lia]|intros (z & H1 & H2); replace v with z by lia; exact H1]. }
    destruct (has v (en_comp y)) eqn:E.
    + destruct Hin as [->|Hin]; [exists [], t; auto|]. exfalso. apply HH in E. cbn [map concat] in N. clear IH. induction (en_comp y) as [|z l IHl]; [destruct E|]. cbn [app] in N. inversion N as [|? ? N1 N2]; subst. destruct E as [->|E]; [|exact (IHl N2 E)].
      apply N1. apply in_app_iff. right. apply in_concat. exists (en_comp e). split; [apply in_map; exact Hin|exact HC].
    + destruct Hin as [->|Hin]; [apply HH in HC; congruence|]. cbn [map concat] in N. apply nodup_r in N. destruct (IH N Hin) as (a & b & E1 & E2). rewrite E2. exists (y :: a), b. rewrite E1. auto.
Qed.
Example C103_case : exists A B out, exchange on on (fresh [5]) (fresh [5]) 3 5 (Some 1) None [] [] = Ok (A, B, out) /\
  NoDup (concat (map en_comp (m_proto B))) /\ ~ In 0 (concat (map en_comp (m_proto B))) /\ concat (map en_comp (m_proto B)) = [1; 2].
Proof. eexists _, _, _. split; [vm_compute; reflexivity|]. cbn. split; [repeat (constructor; [cbn; lia|]); constructor|]. split; [lia|reflexivity]. Qed.
(** A peer may propose the same value twice, or 0; it is accepted, and then compressed headers are taken for uncompressed ones or for no header
    compression at all. *)
Definition clash (a b : Z) : list elem := [Fields 2 [mkX 0 RFC1144 (Some [a; b]) [5] [1] []]].
Theorem C103_twice_refuted : exists m e, ll_xid_ind on (fresh [5]) 3 (msg (clash 3 3)) (zlen (msg (clash 3 3))) = Ok (mkR m [SnXidInd 3 5] true) /\
  m_proto m = [e] /\ get_comp e 2 = 3 /\ get_idx e 3 = 1.
Proof. eexists _, _. split; [vm_compute; reflexivity|]. repeat split; reflexivity. Qed.
Theorem C103_zero_refuted : exists m e T R, ll_xid_ind on (fresh [5]) 3 (msg (clash 0 1)) (zlen (msg (clash 0 1))) = Ok (mkR m [SnXidInd 3 5] true) /\
  m_proto m = [e] /\ get_comp e 1 = 0 /\ exists q, carry room0 (m_proto m) (m_proto m) 5 p1 = Ok (T, R, (0, q)) /\ q <> p1.
Proof. eexists _, _, _, _. split; [vm_compute; reflexivity|]. split; [reflexivity|]. split; [reflexivity|]. eexists. split; [vm_compute; reflexivity|]. discriminate. Qed.

Print Assumptions C98_agree_partial.
Print Assumptions C98_stale_refuted.
Print Assumptions C98_passive_refuted.
Print Assumptions C99_flow_partial.
Print Assumptions C99_slots_refuted.
Print Assumptions C100_answer_partial.
Print Assumptions C100_default_refuted.
Print Assumptions C100_long_refuted.
Print Assumptions C101_histories_partial.
Print Assumptions C101_room_refuted.
Print Assumptions C101_answer_refuted.
Print Assumptions C102_confirm_partial.
Print Assumptions C102_sapi_refuted.
Print Assumptions C102_empty_refuted.
Print Assumptions C102_others_refuted.
Print Assumptions C103_number_partial.
Print Assumptions C103_twice_refuted.
Print Assumptions C103_zero_refuted.
