(** Proofs about SNDCP on top of LLC. *)
From Coq Require Import Permutation.
From Verif.Lib Require Import Base Outcome.
From Verif.Sndcp Require SndcpModel SndcpSpec SndcpSend SndcpTable SndcpLift SndcpRuns SndcpProperties.
From Verif.Llc Require PduModel PduProofs LlcModel LlcSpec LlcProofs LlcProofs2.
From Verif.Stack Require Import StackSpec.

(** The UI frames of some data, numbered from [v]. *)
Fixpoint ui (loc : LlcModel.location) (sapi v : Z) (ds : list (list Z)) : list (list Z) :=
  match ds with
  | [] => []
  | d :: r => PduProofs.frame_of (LlcModel.hdr_ui loc sapi v) (LlcProofs.ui_ctrl v) d :: ui loc sapi ((v + 1) mod 512) r
  end.
Lemma ui_length loc sapi ds : forall v, length (ui loc sapi v ds) = length ds.
Proof. induction ds as [|d r IH]; intros v; cbn [ui length]; [reflexivity|]. now rewrite IH. Qed.
Lemma ui_app loc sapi ds : forall v es, 0 <= v < 512 -> ui loc sapi v (ds ++ es) = ui loc sapi v ds ++ ui loc sapi ((v + zlen ds) mod 512) es.
Proof.
  induction ds as [|d r IH]; intros v es Hv; cbn [ui app].
  - change (zlen (@nil (list Z))) with 0. rewrite Z.add_0_r, Z.mod_small by lia. reflexivity.
  - rewrite IH by lia. do 2 f_equal. rewrite zlen_cons. f_equal. rewrite Zplus_mod_idemp_l. f_equal. lia.
Qed.

Lemma kept_app {A} (k1 k2 : list bool) (l1 l2 : list A) : length k1 = length l1 -> LlcSpec.kept (k1 ++ k2) (l1 ++ l2) = LlcSpec.kept k1 l1 ++ LlcSpec.kept k2 l2.
Proof.
  revert l1. induction k1 as [|b k IH]; intros [|x l] H; try discriminate; [reflexivity|]. injection H as H.
  destruct b; cbn [LlcSpec.kept app]; rewrite IH by exact H; reflexivity.
Qed.
Lemma kept_all {A} (k : list bool) (l : list A) : length k = length l -> all_there k = true -> LlcSpec.kept k l = l.
Proof.
  revert l. induction k as [|b k IH]; intros [|x l] H Ha; try discriminate; [reflexivity|]. injection H as H. unfold all_there in *. cbn [forallb] in Ha.
  apply andb_prop in Ha as [-> Ha]. cbn [LlcSpec.kept]. now rewrite IH.
Qed.
Lemma kept_none {A} (k : list bool) (l : list A) : ~ In true k -> LlcSpec.kept k l = [].
Proof.
  revert l. induction k as [|b k IH]; intros [|x l] H; try reflexivity; destruct b; try reflexivity; cbn [LlcSpec.kept].
  - exfalso. apply H. left. reflexivity.
  - apply IH. intros Hi. apply H. right. exact Hi.
Qed.
Lemma kept_perm {A} (k : list bool) (l : list A) : length k = length l -> Permutation (LlcSpec.kept k l ++ LlcSpec.kept (map negb k) l) l.
Proof.
  revert l. induction k as [|b k IH]; intros [|x l] H; try discriminate; [constructor|]. injection H as H.
  destruct b; cbn [map negb LlcSpec.kept app]; [constructor; apply IH, H|]. etransitivity; [apply Permutation_sym, Permutation_middle|]. constructor. apply IH, H.
Qed.
Lemma kept_some {A} (k : list bool) (l : list A) : length k = length l -> all_there k = false -> LlcSpec.kept (map negb k) l <> [].
Proof.
  revert l. induction k as [|b k IH]; intros [|x l] H Ha; try discriminate. injection H as H. unfold all_there in *. cbn [forallb] in Ha.
  destruct b; cbn [map negb LlcSpec.kept]; [|discriminate]. apply IH; auto.
Qed.
Lemma kept_forall {A} (P : A -> Prop) (k : list bool) (l : list A) : Forall P l -> Forall P (LlcSpec.kept k l).
Proof.
  revert l. induction k as [|b k IH]; intros [|x l] H; try destruct b; cbn [LlcSpec.kept]; try constructor; inversion H; subst; auto.
Qed.

(** *** Sending *)
Lemma hand_down_ok e t sapi pk rl pr lim : 0 <= sapi < 16 -> forall ds s v, LlcSpec.tx_ready s t sapi v lim -> Forall (fun d => zlen d <= lim) ds -> 0 <= v < 512 ->
  exists s' o, hand_down e s (map (SndcpModel.LlUnitdataReq t sapi pk rl pr) ds) = Ok (s', o, None) /\
    LlcSpec.frames o = ui (LlcModel.e_loc e) sapi v ds /\ LlcSpec.tx_ready s' t sapi ((v + zlen ds) mod 512) lim.
Proof.
  intros Hs. induction ds as [|d r IH]; intros s v Hr Hd Hv.
  - exists s, []. change (zlen (@nil (list Z))) with 0. rewrite Z.add_0_r, Z.mod_small by lia. auto.
  - inversion Hd as [|? ? H1 H2]; subst. destruct (LlcProofs2.tx_one e s t sapi v lim d pr Hs Hr H1) as (s1 & t' & E & R1).
    destruct (IH s1 ((v + 1) mod 512) R1 H2 ltac:(lia)) as (s2 & o & E2 & F & R2). exists s2. eexists.
    cbn [map hand_down]. rewrite E. cbn [bind]. change (0 <? 0) with false. rewrite E2. cbn [bind option_map]. split; [reflexivity|]. split.
    + cbn [LlcSpec.frames flat_map app ui]. f_equal. exact F.
    + rewrite zlen_cons. replace ((v + (zlen r + 1)) mod 512) with (((v + 1) mod 512 + zlen r) mod 512) by (rewrite Zplus_mod_idemp_l; f_equal; lia). exact R2.
Qed.

Lemma one_pdu_bytes e j more x : bytes x -> bytes (SndcpSend.one_pdu e j more x).
Proof.
  intros H. unfold SndcpSend.one_pdu, SndcpModel.common, SndcpModel.comp, SndcpModel.udata. change (Z.land 0 15 + Z.land 0 15 * 16) with 0.
  assert (forall z, 0 <= Z.land z 15 < 16) as L by (intros z; change 15 with (Z.ones 4); rewrite Z.land_ones by lia; apply Z.mod_pos_bound; lia).
  assert (forall z, 0 <= Z.land z 255 < 256) as L2 by (intros z; change 255 with (Z.ones 8); rewrite Z.land_ones by lia; apply Z.mod_pos_bound; lia).
  pose proof (L (SndcpModel.e_nsapi e)). pose proof (L (Z.shiftr (SndcpModel.e_tx e) 8)). pose proof (L (j mod 15)). pose proof (L2 (SndcpModel.e_tx e)).
  constructor; [unfold byte; destruct more, (j =? 0); cbn [b2z]; lia|]. apply Forall_app. split; [destruct (j =? 0); constructor; try constructor; unfold byte; lia|].
  cbn [app]. constructor; [unfold byte; lia|]. constructor; [unfold byte; lia|exact H].
Qed.
Lemma build_ok e xs : forall j, bytes (concat xs) -> Forall (fun p => bytes p /\ 1 <= zlen p) (SndcpSend.build e j xs).
Proof.
  induction xs as [|x r IH]; intros j H; cbn [SndcpSend.build]; constructor; cbn [concat] in H; apply Forall_app in H as [H1 H2]; [|apply IH, H2].
  split; [apply one_pdu_bytes, H1|]. rewrite SndcpSend.one_pdu_len. pose proof (zlen_nonneg x). destruct (j =? 0); lia.
Qed.

Lemma give_ok e N t sapi n v npdu : LlcSpec.user_sapi sapi -> 0 <= n < 16 -> 0 <= v < 512 -> can_send N t sapi n v -> usual npdu ->
  exists N' pdus, give e N t sapi n npdu = Ok (N', ui (LlcModel.e_loc e) sapi v pdus, 0) /\ SndcpSpec.sent_as n npdu pdus /\
    Forall (fun p => bytes p /\ 1 <= zlen p <= 1520) pdus /\ can_send N' t sapi n ((v + zlen pdus) mod 512).
Proof.
  intros Hu Hn Hv (HR & x & lim & He & Hx & Hlim & HT) [Hb Hl].
  assert (npdu <> []) as Hne by (intros ->; change (zlen (@nil Z)) with 0 in Hl; lia).
  destruct (SndcpLift.reach_inv _ HR) as [B HI]. destruct (SndcpLift.entity_ok B _ _ _ _ _ HI (proj1 Hn) He) as ((A1 & A2 & A3 & A4 & A5) & Hs & Hns & Hn16).
  destruct (SndcpProperties.C30_accepts (n_s N) t sapi n x npdu HR He ltac:(lia) ltac:(lia) Hne ltac:(lia)) as (c' & outs & HS).
  pose proof (SndcpProperties.C30_limit _ _ _ _ _ _ _ _ _ _ HR He (proj1 Hn) ltac:(lia) HS) as HL.
  destruct (SndcpLift.step_send_inv B _ _ _ _ _ _ _ _ _ _ HI (proj1 Hn) He HS) as (_ & e' & pdus & Hr & Ho & He').
  destruct (SndcpTable.req_ok _ _ _ _ _ _ Hr ltac:(lia)) as (_ & _ & _ & Hu' & _).
  rewrite Ho, SndcpLift.down_map in HL.
  assert (Forall (fun p => bytes p /\ 1 <= zlen p) pdus) as HP.
  { destruct (SndcpSend.req_cases x npdu A4 Hne ltac:(lia) ltac:(lia)) as (xs & Hc & _ & _ & Hq). rewrite (Hq None) in Hr. injection Hr as _ <-.
    apply build_ok. rewrite Hc. exact Hb. }
  assert (0 <= sapi < 16) as Hsr by (unfold LlcSpec.user_sapi in Hu; cbn [In] in Hu; lia).
  destruct (hand_down_ok e t sapi (SndcpModel.e_peak x) (SndcpModel.e_rel x) (SndcpModel.e_prio x) lim Hsr pdus (n_l N) v HT) as (s' & o & ED & EF & ET).
  { eapply Forall_impl; [|exact HL]. intros p Hp. cbn beta in Hp. lia. } { exact Hv. }
  exists (mkNode c' s'), pdus. unfold give. rewrite HS. cbn [bind]. rewrite Ho, ED. cbn [bind]. rewrite HS. cbn [bind]. rewrite EF. split; [reflexivity|]. split; [|split].
  - exists (n_s N), t, sapi, x, c', outs, 0. rewrite Ho, SndcpLift.down_map. split; [exact HR|]. split; [exact He|]. split; [lia|]. split; [lia|]. split; [lia|]. rewrite <- Ho. split; [exact HS|reflexivity].
  - rewrite Forall_forall in *. intros p Hp. destruct (HP p Hp). specialize (HL p Hp). cbn beta in HL. repeat split; auto; lia.
  - split; [eapply SndcpLift.reach_step; eauto|]. exists e', lim. cbn [n_s n_l]. rewrite Hu'. repeat split; auto; lia.
Qed.

Lemma give_all_ok e t sapi n : LlcSpec.user_sapi sapi -> 0 <= n < 16 -> forall npdus N v, 0 <= v < 512 -> can_send N t sapi n v -> Forall usual npdus ->
  exists N' fss pduss, give_all e N t sapi n npdus = Ok (N', map (fun f => (f, 0)) fss) /\ Forall2 (SndcpSpec.sent_as n) npdus pduss /\
    Forall (fun p => bytes p /\ 1 <= zlen p <= 1520) (concat pduss) /\ concat fss = ui (LlcModel.e_loc e) sapi v (concat pduss) /\
    Forall2 (fun f p => length f = length p) fss pduss.
Proof.
  intros Hu Hn. induction npdus as [|x r IH]; intros N v Hv HN Hx.
  - exists N, [], []. repeat split; constructor.
  - inversion Hx as [|? ? H1 H2]; subst. destruct (give_ok e N t sapi n v x Hu Hn Hv HN H1) as (N1 & pdus & E1 & S1 & B1 & R1).
    destruct (IH N1 _ ltac:(apply Z.mod_pos_bound; lia) R1 H2) as (N2 & fss & pduss & E2 & S2 & B2 & F2 & L2).
    exists N2, (ui (LlcModel.e_loc e) sapi v pdus :: fss), (pdus :: pduss). cbn [give_all]. rewrite E1. cbn [bind]. rewrite E2. cbn [bind fst snd map concat].
    split; [reflexivity|]. split; [constructor; assumption|]. split; [apply Forall_app; split; assumption|]. split; [rewrite ui_app by exact Hv; f_equal; exact F2|].
    constructor; [apply ui_length|exact L2].
Qed.

(** *** Receiving *)
Lemma take_ui er t sapi loc : LlcSpec.user_sapi sapi -> LlcModel.e_tlli_ok er t = true -> forall ds keep c v N c' os,
  Forall (fun d => bytes d /\ 1 <= zlen d <= 60000) ds -> length keep = length ds -> LlcSpec.losses_below 480 c keep -> 0 <= v < 512 ->
  LlcSpec.rx_ready (n_l N) t sapi ((v - Z.of_nat c) mod 512) ->
  SndcpModel.run (n_s N) (map (SndcpModel.LlUnitdata t sapi) (LlcSpec.kept keep ds)) = Ok (c', os) ->
  exists s', take_all er N t (LlcSpec.kept keep (ui loc sapi v ds)) = Ok (mkNode c' s', os).
Proof.
  intros Hu Ht. induction ds as [|d ds IH]; intros keep c v N c' os Hd Hk Hlo Hv Hr HS.
  - destruct keep; [|discriminate]. cbn in HS. injection HS as <- <-. exists (n_l N). cbn. destruct N; reflexivity.
  - destruct keep as [|k keep]; [discriminate|]. injection Hk as Hk. inversion Hd as [|? ? [Hb Hlen] Hd']; subst.
    destruct (LlcProofs2.ui_frame_plain loc sapi v d Hu Hv Hb ltac:(lia)) as (P1 & P2 & P3). cbn [ui].
    set (pdu := PduProofs.frame_of _ _ d) in *. assert (0 <= (v + 1) mod 512 < 512) as Hv1 by lia.
    destruct k; cbn [LlcSpec.losses_below] in Hlo; cbn [LlcSpec.kept] in *.
    + destruct Hlo as [Hc Hlo]. destruct (LlcProofs2.rx_one er (n_l N) t sapi _ v d pdu Hu Hr Ht P1 P2 P3) as (s1 & E & R1).
      { destruct d; [cbn in Hlen; lia|discriminate]. } { exact Hv. } { apply Z.mod_pos_bound; lia. } { lia. }
      cbn [map SndcpModel.run] in HS. destruct (SndcpModel.step (n_s N) (SndcpModel.LlUnitdata t sapi d)) as [[[c1 o1] rc1]| |] eqn:E1; try discriminate. cbn [bind] in HS.
      destruct (SndcpModel.run c1 (map (SndcpModel.LlUnitdata t sapi) (LlcSpec.kept keep ds))) as [[c2 o2]| |] eqn:E2; try discriminate. cbn [bind fst snd] in HS. injection HS as <- <-.
      destruct (IH keep 0%nat ((v + 1) mod 512) (mkNode c1 s1) c2 o2 Hd' Hk Hlo Hv1) as (s' & E3); [|exact E2|].
      { cbn [n_l]. replace ((v + 1) mod 512 - Z.of_nat 0) with ((v + 1) mod 512) by lia. rewrite Z.mod_mod by lia. exact R1. }
      exists s'. cbn [take_all]. unfold take. rewrite E. cbn [bind flat_map upward app SndcpModel.run]. rewrite E1. cbn [bind fst snd]. rewrite app_nil_r, E3. reflexivity.
    + apply (IH keep (S c)); auto. replace (((v + 1) mod 512 - Z.of_nat (S c)) mod 512) with ((v - Z.of_nat c) mod 512) by lia. exact Hr.
Qed.

Lemma rx_kept n : forall npdus pduss keep d, Forall2 (SndcpSpec.sent_as n) npdus pduss -> Forall2 (fun k (p : list (list Z)) => length k = length p) keep pduss -> Forall first_first keep ->
  exists d', SndcpSend.rx d (LlcSpec.kept (concat keep) (concat pduss)) = Ok (d', LlcSpec.kept (map all_there keep) npdus).
Proof.
  induction npdus as [|x r IH]; intros pduss keep d HS HK HF; inversion HS as [|? pdus ? pduss' S1 S2]; subst.
  - inversion HK; subst. exists d. reflexivity.
  - inversion HK as [|k ? keep' ? K1 K2]; subst. inversion HF as [|? ? F1 F2]; subst. cbn [concat map]. rewrite kept_app by exact K1.
    destruct (SndcpLift.sent_carries _ _ _ S1) as (X & j & HC). destruct (SndcpSend.car_first _ _ _ _ _ HC) as (p0 & rest & -> & _).
    destruct k as [|b k]; [discriminate|]. injection K1 as K1. rewrite SndcpSend.rx_app. destruct b.
    + cbn [LlcSpec.kept]. unfold all_there at 1. cbn [forallb andb]. fold (all_there k). destruct (all_there k) eqn:Ea.
      * rewrite (kept_all k rest K1 Ea). destruct (SndcpRuns.rx_whole _ _ _ _ _ _ rest d HC (Permutation_refl _)) as (d1 & E1 & _). rewrite E1. cbn [bind fst snd].
        destruct (IH pduss' keep' d1 S2 K2 F2) as (d2 & E2). rewrite E2. exists d2. reflexivity.
      * destruct (SndcpRuns.rx_partial _ _ _ _ _ _ _ _ d HC (kept_perm k rest K1) (kept_some k rest K1 Ea)) as (d1 & E1). rewrite E1. cbn [bind fst snd].
        destruct (IH pduss' keep' d1 S2 K2 F2) as (d2 & E2). rewrite E2. exists d2. reflexivity.
    + cbn [first_first] in F1. cbn [LlcSpec.kept]. rewrite (kept_none k rest F1). cbn [SndcpSend.rx bind fst snd]. unfold all_there at 1. cbn [forallb andb LlcSpec.kept].
      destruct (IH pduss' keep' d S2 K2 F2) as (d2 & E2). rewrite E2. exists d2. reflexivity.
Qed.

Lemma ui_frames loc sapi ds : forall v, Forall (fun p => bytes p /\ 1 <= zlen p <= 1520) ds -> Forall (fun f => 1 <= zlen f <= 1543) (ui loc sapi v ds).
Proof.
  induction ds as [|d r IH]; intros v H; cbn [ui]; constructor; inversion H as [|? ? [_ H1] H2]; subst; [|apply IH, H2].
  assert (L : zlen (PduProofs.frame_of (LlcModel.hdr_ui loc sapi v) (LlcProofs.ui_ctrl v) d) = 1 + 2 + zlen d + 3).
  { unfold PduProofs.frame_of. rewrite zlen_app, zlen_cons, zlen_app. change (zlen (LlcProofs.ui_ctrl v)) with 2.
    match goal with |- context [PduModel.fcs_octets ?x] => change (zlen (PduModel.fcs_octets x)) with 3 end. lia. }
  lia.
Qed.
Lemma f2len {A B} (P : A -> B -> Prop) l m : Forall2 P l m -> length l = length m.
Proof. induction 1; cbn [length]; congruence. Qed.

Lemma transfer_ok es er t sapi n A B v npdus : LlcSpec.user_sapi sapi -> LlcModel.e_tlli_ok er t = true -> 0 <= n < 16 -> 0 <= v < 512 ->
  can_send A t sapi n v -> can_receive B t sapi n v -> Forall usual npdus ->
  exists A' fss, give_all es A t sapi n npdus = Ok (A', map (fun f => (f, 0)) fss) /\ length fss = length npdus /\
    Forall (fun f => f <> []) fss /\ Forall (fun x => 1 <= zlen x <= 1543) (concat fss) /\
    forall keep, Forall2 (fun k (f : list (list Z)) => length k = length f) keep fss -> LlcSpec.losses_below 480 0 (concat keep) -> Forall first_first keep ->
    exists B', take_all er B t (LlcSpec.kept (concat keep) (concat fss)) = Ok (B', map (SndcpModel.SnUnitdataInd t sapi n) (LlcSpec.kept (map all_there keep) npdus)).
Proof.
  intros Hu Ht Hn Hv HA (RB & EB & LB) Hx. destruct (give_all_ok es t sapi n Hu Hn npdus A v Hv HA Hx) as (A' & fss & pduss & E & S & Bp & F & L).
  exists A', fss. split; [exact E|]. split; [apply f2len in S; apply f2len in L; congruence|]. split.
  { clear - S L. revert fss pduss S L. induction npdus as [|x r IH]; intros fss pduss S L; inversion S as [|? p ? ps S1 S2]; subst; inversion L as [|f ? fs ? L1 L2]; subst; constructor.
    - destruct (SndcpLift.sent_carries _ _ _ S1) as (X & j & HC). destruct (SndcpSend.car_first _ _ _ _ _ HC) as (p0 & rest & -> & _). destruct f; [discriminate L1|discriminate].
    - eapply IH; eauto. }
  split; [rewrite F; apply ui_frames, Bp|].
  intros keep HK HL HF. destruct (SndcpSpec.entity (n_s B) t sapi n) as [y|] eqn:Ey; [|congruence].
  assert (Forall2 (fun k (p : list (list Z)) => length k = length p) keep pduss) as HK'.
  { clear - HK L. revert keep HK. induction L; intros keep HK; inversion HK; subst; constructor; [congruence|auto]. }
  destruct (rx_kept n npdus pduss keep (SndcpModel.e_df y) S HK' HF) as (d' & ER).
  destruct (SndcpLift.reach_inv _ RB) as [bb HI].
  assert (Forall (fun p => SndcpSpec.nsapi_of p = n /\ p <> []) (concat pduss)) as HP.
  { clear - S. induction S as [|x p ? ? S1 _ IH]; [constructor|]. cbn [concat]. apply Forall_app. split; [|exact IH].
    destruct (SndcpLift.sent_carries _ _ _ S1) as (X & k & HC). exact (SndcpLift.carries_nsapi _ _ _ _ _ HC). }
  destruct (SndcpTable.run_rx bb t sapi n _ _ _ _ _ HI Ey Hn (kept_forall _ (concat keep) _ HP) ER) as (c' & EC & _).
  assert (length (concat keep) = length (concat pduss)) as HLn.
  { clear - HK'. induction HK'; [reflexivity|]. cbn [concat]. rewrite !app_length. congruence. }
  assert (Forall (fun d => bytes d /\ 1 <= zlen d <= 60000) (concat pduss)) as HB.
  { eapply Forall_impl; [|exact Bp]. cbn beta. intros p [Hp1 Hp2]. split; [exact Hp1|lia]. }
  assert (LlcSpec.rx_ready (n_l B) t sapi ((v - Z.of_nat 0) mod 512)) as LB' by (change (Z.of_nat 0) with 0; rewrite Z.sub_0_r, Z.mod_small by lia; exact LB).
  rewrite F. destruct (take_ui er t sapi (LlcModel.e_loc es) Hu Ht (concat pduss) (concat keep) 0%nat v B c' _ HB HLn HL Hv LB' EC) as (s' & ET).
  eexists. exact ET.
Qed.

(** *** Frames that arrive in order up to some point *)
Lemma forall2_false (fss : list (list (list Z))) : Forall2 (fun k (f : list (list Z)) => length k = length f) (map (fun f : list (list Z) => repeat false (length f)) fss) fss.
Proof. induction fss; cbn [map]; constructor; [apply repeat_length|assumption]. Qed.
Lemma kept_false {A} a : forall (l : list A), LlcSpec.kept (repeat false a) l = [].
Proof. intros l. apply kept_none. intros H. apply repeat_spec in H. discriminate. Qed.
Lemma kept_true {A} j m : forall (l : list A), (j <= length l)%nat -> LlcSpec.kept (repeat true j ++ repeat false m) l = firstn j l.
Proof.
  induction j as [|j IH]; intros l H; cbn [repeat app firstn]; [apply kept_false|]. destruct l as [|x l]; [cbn in H; lia|]. cbn [LlcSpec.kept]. rewrite IH by (cbn in H; lia). reflexivity.
Qed.
Lemma losses_prefix a b : forall c, (c <= 480)%nat -> LlcSpec.losses_below 480 c (repeat true a ++ repeat false b).
Proof.
  induction a as [|a IH]; intros c Hc; cbn [repeat app LlcSpec.losses_below].
  - clear Hc. revert c. induction b as [|b IH]; intros c; cbn [repeat LlcSpec.losses_below]; auto.
  - split; [lia|apply IH; lia].
Qed.
Lemma concat_false (fss : list (list (list Z))) : concat (map (fun f : list (list Z) => repeat false (length f)) fss) = repeat false (length (concat fss)).
Proof. induction fss as [|f r IH]; cbn [map concat length]; [reflexivity|]. rewrite IH, app_length, <- repeat_app. reflexivity. Qed.
Lemma all_true a : all_there (repeat true a) = true.
Proof. induction a; [reflexivity|]. exact IHa. Qed.

Lemma prefix_keep : forall fss fs more, fs ++ more = concat fss -> Forall (fun f => f <> []) fss ->
  exists keep j, Forall2 (fun k (f : list (list Z)) => length k = length f) keep fss /\ concat keep = repeat true (length fs) ++ repeat false (length more) /\
    Forall first_first keep /\ (j <= length fss)%nat /\ map all_there keep = repeat true j ++ repeat false (length fss - j) /\
    (forall i, (i <= length fss)%nat -> (length (concat (firstn i fss)) <= length fs)%nat -> (i <= j)%nat).
Proof.
  induction fss as [|f r IH]; intros fs more E HF.
  - apply app_eq_nil in E as [-> ->]. exists [], 0%nat. repeat split; auto.
  - inversion HF as [|? ? F1 F2]; subst. cbn [concat] in E. destruct (le_lt_dec (length f) (length fs)) as [Hle|Hlt].
    + assert (fs = f ++ skipn (length f) fs) as Hfs.
      { assert (firstn (length f) (fs ++ more) = firstn (length f) (f ++ concat r)) as X by (rewrite E; reflexivity).
        rewrite !firstn_app, firstn_all, Nat.sub_diag in X. replace (length f - length fs)%nat with 0%nat in X by lia. rewrite !firstn_O, !app_nil_r in X.
        rewrite <- X at 1. symmetry. apply firstn_skipn. }
      set (fs' := skipn (length f) fs) in *. rewrite Hfs, <- app_assoc in E. apply app_inv_head in E.
      destruct (IH fs' more E F2) as (keep & j & K1 & K2 & K3 & K4 & K5 & K6). exists (repeat true (length f) :: keep), (S j). split; [constructor; [apply repeat_length|exact K1]|].
      split; [cbn [concat]; rewrite K2, app_assoc, <- repeat_app, <- app_length, <- Hfs; reflexivity|]. split; [constructor; [destruct f; [congruence|exact I]|exact K3]|].
      split; [cbn [length]; lia|]. split; [cbn [map]; rewrite all_true, K5; reflexivity|].
      intros [|i] Hi Hl; [lia|]. cbn [firstn concat length] in *. rewrite app_length in Hl. apply le_n_S, K6; [lia|]. rewrite Hfs, app_length in Hl. lia.
    + assert (length f = length fs + (length f - length fs))%nat as Hlen by lia. assert (length more = (length f - length fs) + length (concat r))%nat as Hm.
      { apply (f_equal (@length _)) in E. rewrite !app_length in E. lia. }
      exists ((repeat true (length fs) ++ repeat false (length f - length fs)) :: map (fun f : list (list Z) => repeat false (length f)) r), 0%nat.
      split; [constructor; [rewrite app_length, !repeat_length; lia|apply forall2_false]|]. split; [cbn [concat]; rewrite concat_false, <- app_assoc, <- repeat_app, Hm; reflexivity|].
      assert (forall a, first_first (repeat false a)) as Hff by (intros [|a]; cbn [repeat first_first]; [exact I|intros H; apply repeat_spec in H; discriminate]).
      split; [constructor; [destruct fs; cbn [length repeat app]; [apply Hff|exact I]|apply Forall_forall; intros k Hk; apply in_map_iff in Hk as (x & <- & _); apply Hff]|].
      split; [lia|]. split.
      * cbn [map]. assert (forall a b, all_there (repeat true a ++ repeat false (S b)) = false) as Hal.
        { intros a b. unfold all_there. rewrite forallb_app. cbn [repeat forallb andb]. apply andb_false_r. }
        replace (length f - length fs)%nat with (S (length f - length fs - 1)) by lia. rewrite Hal. cbn [repeat app length Nat.sub]. f_equal. clear - F2.
        induction F2 as [|x l Hx _ IHl]; [reflexivity|]. cbn [map length repeat]. f_equal; [destruct x; [congruence|reflexivity]|exact IHl].
      * intros [|i] Hi Hl; [lia|]. cbn [firstn concat] in Hl. rewrite app_length in Hl. lia.
Qed.
