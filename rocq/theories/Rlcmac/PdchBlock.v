(** Header of a control block, and the message decoded after it. *)
From Coq Require Import ZArith List Bool Lia.
From Verif Require Import Lib.Base Csn1.Csn1Model Csn1.Csn1Tables Csn1.Csn1EncModel Csn1.Csn1DlModel Csn1.Csn1Layout Csn1.Csn1Step
  Rlcmac.CcchSpec Rlcmac.CcchDec Rlcmac.CcchMsg Rlcmac.PdchSpec Rlcmac.PdchStep Rlcmac.PdchDec Rlcmac.PdchMsg.
Import ListNotations.
Open Scope Z_scope.

Lemma bit_cases v : item_ok (U 1 v) -> v = 0 \/ v = 1.
Proof. cbn [item_ok]. change (2 ^ Z.of_nat 1) with 2. lia. Qed.

Section Block.
Variable past : Z -> Z -> Z * Z.
Lemma fld_U bits p n v l : here bits 184 p (U n v :: l) -> item_ok (U n v) -> field bits p n = v /\ here bits 184 (p + Z.of_nat n) l.
Proof.
  intros H K. destruct (here_U bits 184 past _ _ _ _ H) as [T A]. split; [|exact T].
  rewrite (field_number bits past n _ _ A). cbn [item_ok] in K. apply Z.mod_small. lia.
Qed.
Ltac nxt X E := let Y := fresh "Y" in destruct (fld_U _ _ _ _ _ X) as [E Y]; [assumption|]; clear X; rename Y into X;
  match type of X with here _ _ ?p _ => let q := eval vm_compute in p in change p with q in X end.

Lemma header_dec bits rrbp sp usf o l : (forall x, o = Some x -> opt_ok x) -> items_ok (header rrbp sp usf o ++ l) ->
  here bits 184 0 (header rrbp sp usf o ++ l) ->
  exists h p, dl_header bits = (h, p) /\ (h_pt h = 1 \/ h_pt h = 2) /\ h_rrbp h = rrbp /\ h_sp h = sp /\ here bits 184 p l /\ items_ok l.
Proof.
  intros O K H. assert (Kl : items_ok l) by (unfold items_ok in *; apply Forall_app in K as [_ K]; exact K). unfold dl_header. destruct o as [o|]; cbn [header] in *.
  - specialize (O o eq_refl). destruct o as [rbsn rti fs ac ext]. unfold opt_ok in O. cbn [o_rbsn o_rti o_fs o_ac o_ext] in *.
    rewrite <- !app_assoc in *. cbn [app] in *. unfold items_ok in *.
    do 7 (let X := fresh "J" in apply Forall_cons_iff in K as [X K]).
    nxt H E1. nxt H E2. nxt H E3. nxt H E4. nxt H E5. nxt H E6. nxt H E7.
    rewrite E1. change (2 =? 2) with true. cbv iota.
    rewrite E2, E3, E4, E5, E6, E7.
    assert (X : forall p h, here bits 184 p (match ext with None => [] | Some (e, f, x) => [U 3 e; U 1 f; U 4 x] end ++ l) ->
      (h_pt h = 1 \/ h_pt h = 2) /\ h_rrbp h = rrbp /\ h_sp h = sp ->
      exists h0 p0, (h, if (rbsn =? 1) && (fs =? 0) then p + 8 else p) = (h0, p0) /\ (h_pt h0 = 1 \/ h_pt h0 = 2) /\ h_rrbp h0 = rrbp /\ h_sp h0 = sp /\ here bits 184 p0 l /\ Forall item_ok l).
    { intros p h Hp (A1 & A2 & A3). eexists _, _. split; [reflexivity|]. do 3 (split; [assumption|]). split; [|exact Kl].
      destruct ext as [[[e f] x]|].
      - replace ((rbsn =? 1) && (fs =? 0)) with true by (destruct O as [_ O]; specialize (O ltac:(discriminate)); lia).
        cbn [app] in Hp. destruct (here_U bits 184 past _ _ _ _ Hp) as [T1 _]. destruct (here_U bits 184 past _ _ _ _ T1) as [T2 _]. destruct (here_U bits 184 past _ _ _ _ T2) as [T3 _].
        replace (p + 8) with (p + Z.of_nat 3 + Z.of_nat 1 + Z.of_nat 4) by lia. exact T3.
      - replace ((rbsn =? 1) && (fs =? 0)) with false; [exact Hp|]. destruct (Z.eqb_spec rbsn 1); [|reflexivity]. destruct (Z.eqb_spec fs 0); [|reflexivity].
        exfalso. apply (proj1 O); auto. }
    destruct ac as [[[pr tfi] d]|]; cbn [app] in *.
    + do 4 (let X := fresh "J" in apply Forall_cons_iff in K as [X K]). nxt H E8. nxt H E9. nxt H E10. nxt H E11. rewrite E8. change (1 =? 1) with true. cbv iota.
      apply (X 24); [exact H|cbn; auto].
    + apply Forall_cons_iff in K as [X0 K]. nxt H E8. rewrite E8. change (0 =? 1) with false. cbv iota. apply (X 16); [exact H|cbn; auto].
  - cbn [app] in *. unfold items_ok in *. do 4 (let X := fresh "J" in apply Forall_cons_iff in K as [X K]). nxt H E1. nxt H E2. nxt H E3. nxt H E4.
    rewrite E1, E2, E3, E4. change (1 =? 2) with false. cbv iota. eexists _, _. split; [reflexivity|]. cbn [h_pt h_rrbp h_sp]. auto 6.
Qed.

Lemma block_dec blk rrbp sp usf o mt l d sz Q :
  block blk rrbp sp usf o (U 6 mt :: l) -> dl_table mt = Some (d, sz) ->
  (forall bits p, items_ok (U 6 mt :: l) -> runs bits 184 past sz_dl_union 0 d run_mode p (U 6 mt :: l) (upd1 (fun _ => 0) 0 mt) Q) ->
  exists h s, decode_downlink false past (msg_bits blk) (fun _ => 0) = (h, DOk s) /\ Q s /\ h_rrbp h = rrbp /\ h_sp h = sp.
Proof.
  intros [O M] T R. destruct M as (L & _ & _ & K & C). cbn [length] in C. pose proof (carried_here _ 0 _ L ltac:(lia) C) as H.
  change (skipn 0 blk) with blk in H. change (8 * (23 - Z.of_nat 0)) with 184 in H.
  destruct (header_dec _ _ _ _ _ _ O K H) as (h & p & E & Pt & E1 & E2 & Hp & Kl).
  unfold decode_downlink. rewrite E. replace ((h_pt h =? 0) || (h_pt h =? 3)) with false by lia.
  destruct (fld_U _ _ _ _ _ Hp) as [F6 _]; [unfold items_ok in Kl; apply Forall_cons_iff in Kl as [X _]; exact X|]. rewrite F6, T.
  destruct (R _ p Kl Hp 0) as (s & Es & X). exists h, s. split; [|auto]. f_equal. unfold decode, call. cbn [s_rem].
  destruct Hp as (P0 & Sz & _). unfold st in Es. replace (p + 8 * 0) with p in Es by lia. rewrite <- Sz. replace (p + size (U 6 mt :: l) - p) with (size (U 6 mt :: l)) by lia.
  replace (size (U 6 mt :: l) <? 0) with false by (pose proof (size_nonneg (U 6 mt :: l)); lia). rewrite Sz. exact Es.
Qed.
End Block.
