(** What the messages of the mobile station carry: steps for evaluating [live] on structures with variable contents. *)
From Coq Require Import ZArith List Bool Lia.
From Verif Require Import Lib.Base Csn1.Csn1Model Csn1.Csn1EncModel Csn1.Csn1Tables Csn1.Csn1DlModel Csn1.Csn1UlModel Csn1.Csn1Round.
Import ListNotations.
Open Scope Z_scope.

Section Steps.
Variable m : mem.
Definition room_ok (lim base off room : Z) (n : nat) : bool :=
  (0 <=? base + off) && (base + off + Z.of_nat n <=? lim) && (Z.of_nat n <=? room).
Lemma fld_ok lim base off room n ok R : room_ok lim base off room n = true -> ok (rdle m (base + off) n) = true ->
  fld m lim base off room n ok R = Some (addrs (base + off) n ++ R).
Proof. unfold room_ok, fld. intros -> ->. reflexivity. Qed.
Lemma below_ok b v : v < 2 ^ b -> below b v = true.
Proof. intros H. apply Z.ltb_lt. exact H. Qed.

Lemma live_uint top lim base b off room null r rem R :
  (0 <=? b) && (b <=? 32) && (b <=? rem) = true -> room_ok lim base off room (width b) = true ->
  rdle m (base + off) (width b) < 2 ^ b ->
  live m top lim base (DUint b off room null r) run_mode rem R = live m top lim base r run_mode (rem - b) (addrs (base + off) (width b) ++ R).
Proof.
  intros B Ro V. cbn [live lcontrol run_mode]. apply andb_prop in B as [B1 B2].
  unfold lthen, enc_uint, lv_uint. rewrite B1, B2. apply andb_prop in B1 as [B0 B1].
  replace (32 <? b) with false by lia. unfold load.
  assert (X := Ro). unfold room_ok in X. apply andb_prop in X as [_ X]. replace (0 + Z.of_nat (width b)) with (Z.of_nat (width b)) by lia.
  rewrite X. cbn [andb Z.leb Z.compare]. rewrite (fld_ok _ _ _ _ _ _ _ Ro (below_ok _ _ V)). reflexivity.
Qed.
Lemma live_octet top lim base b off room null r rem R :
  (0 <=? b) && (b <=? 8) && (b <=? rem) = true -> room_ok lim base off room 1 = true -> m (base + off) < 2 ^ b ->
  live m top lim base (DUint b off room null r) run_mode rem R = live m top lim base r run_mode (rem - b) ((base + off) :: R).
Proof.
  intros B Ro V. assert (W : width b = 1%nat) by (unfold width; replace (b <=? 8) with true by lia; reflexivity).
  rewrite live_uint; rewrite ?W; [reflexivity|lia|exact Ro|]. cbn [rdle]. lia.
Qed.
Lemma rdle_lt n : (forall x, m x < 256) -> forall a, rdle m a n < 2 ^ (8 * Z.of_nat n).
Proof.
  intros H. induction n as [|n IH]; intros a; cbn [rdle]; [cbn; lia|].
  replace (8 * Z.of_nat (S n)) with (8 + 8 * Z.of_nat n) by lia. rewrite Z.pow_add_r by lia. change (2 ^ 8) with 256.
  specialize (H a). specialize (IH (a + 1)). lia.
Qed.
Lemma live_word top lim base b off room null r rem R : (forall x, m x < 256) -> b = 16 \/ b = 32 ->
  (b <=? rem) = true -> room_ok lim base off room (width b) = true ->
  live m top lim base (DUint b off room null r) run_mode rem R = live m top lim base r run_mode (rem - b) (addrs (base + off) (width b) ++ R).
Proof.
  intros O B Re Ro. apply live_uint; [destruct B; subst; exact Re|exact Ro|].
  destruct B; subst b; apply rdle_lt; exact O.
Qed.
Lemma live_bit top lim base off room null r rem R :
  (0 <? rem) = true -> room_ok lim base off room 1 = true -> m (base + off) < 2 ->
  live m top lim base (DBit off room null r) run_mode rem R = live m top lim base r run_mode (rem - 1) ((base + off) :: R).
Proof.
  intros B Ro V. cbn [live lcontrol run_mode]. rewrite B.
  unfold lthen, enc_bit. rewrite B. unfold load.
  assert (X := Ro). unfold room_ok in X. apply andb_prop in X as [_ X]. change (0 + Z.of_nat 1) with (Z.of_nat 1).
  rewrite X. cbn [andb Z.leb Z.compare]. rewrite (fld_ok _ _ _ _ _ _ _ Ro); [reflexivity|].
  apply below_ok. cbn [rdle]. change (2 ^ 1) with 2. lia.
Qed.
Lemma live_type top lim base off room sub r rem R b rem' R' :
  ecall (enc m (base + off) sub run_mode) rem = EOk b rem' ->
  live m false (Z.min lim (base + off + room)) (base + off) sub run_mode rem R = Some R' ->
  live m top lim base (DType off room false sub r) run_mode rem R = live m top lim base r run_mode rem' R'.
Proof. intros E L. cbn [live lcontrol run_mode andb]. rewrite E, L. reflexivity. Qed.
Lemma live_absent top lim base n off room null r rem R :
  (0 <? rem) = true -> room_ok lim base off room 1 = true -> m (base + off) = 0 ->
  live m top lim base (DNext false n off room null r) run_mode rem R = live m top lim base r (Skip n) (rem - 1) ((base + off) :: R).
Proof.
  intros B Ro V. cbn [live lcontrol run_mode]. replace (rem =? 0) with false by lia. rewrite andb_false_r, V.
  cbn [orb Z.eqb]. rewrite (fld_ok _ _ _ _ _ _ _ Ro); [reflexivity|]. apply below_ok. cbn [rdle]. rewrite V. reflexivity.
Qed.
Lemma live_present top lim base n off room null r rem R :
  (0 <? rem) = true -> room_ok lim base off room 1 = true -> m (base + off) = 1 -> all_null n r = false ->
  live m top lim base (DNext false n off room null r) run_mode rem R = live m top lim base r run_mode (rem - 1) ((base + off) :: R).
Proof.
  intros B Ro V N. cbn [live lcontrol run_mode]. replace (rem =? 0) with false by lia. rewrite andb_false_r, V, N.
  cbn [orb Z.eqb negb]. rewrite (fld_ok _ _ _ _ _ _ _ Ro); [reflexivity|]. apply below_ok. cbn [rdle]. rewrite V. reflexivity.
Qed.
Lemma live_skip1 top lim base r d rem R : (match d with DUint _ _ _ _ r' | DType _ _ _ _ r' => r' = r | _ => False end) ->
  live m top lim base d (Skip 1) rem R = live m top lim base r run_mode rem R.
Proof. destruct d; intros H; try contradiction H; subst; reflexivity. Qed.
Lemma live_bitmap64 top lim base off room r rem R b rem' :
  enc_bitmap m base 64 off room rem = EOk b rem' -> room_ok lim base off room 8 = true ->
  (forall x, m x < 256) ->
  live m top lim base (DBitmap 64 off room r) run_mode rem R = live m top lim base r run_mode rem' (addrs (base + off) 8 ++ R).
Proof.
  intros E Ro V. cbn [live lcontrol run_mode]. change ((64 =? 32) || (64 =? 64)) with true. cbv iota. rewrite E.
  unfold lv_octets. change (Z.to_nat (64 / 8)) with 8%nat. change ((0 <=? 8) && (8 <=? 8)) with true.
  unfold room_ok in Ro. cbn [andb]. rewrite Ro. 
  replace (forallb _ _) with true; [reflexivity|]. symmetry. apply forallb_forall. intros x _. apply below_ok. apply V.
Qed.
(** The choice of the TLLI in a Packet Resource Request. *)
Lemma live_prr_id lim base rem R : m base = 1 -> (33 <=? rem) = true -> room_ok lim base 0 1 1 = true -> room_ok lim base 4 4 4 = true ->
  (forall x, m x < 256) -> live m false lim base PacketResourceRequestID_t run_mode rem R = Some (addrs (base + 4) 4 ++ (base + 0) :: R).
Proof.
  intros V B R0 R4 O. unfold PacketResourceRequestID_t, ch_PacketResourceRequestID.
  cbn [live lcontrol run_mode]. rewrite (fld_ok _ _ _ _ _ _ _ R0 eq_refl).
  replace (base + 0) with base by lia. rewrite V. cbn [alt_at].
  change ((0 <=? 1) && (1 <=? 8) && (0 <=? 0) && (0 <? 2 ^ 1)) with true. cbv iota. change (1 =? 0) with false. cbv iota.
  change (Z.to_nat (1 - 1)) with 0%nat. cbv iota. change (_ && _ && _ && _ && _) with true. cbv iota.
  change (1 - 1 =? 0) with true. cbv iota.
  change ((0 <=? 1) && (1 <=? 8) && (0 <=? 1) && (1 <? 2 ^ 1)) with true. cbv iota.
  assert (rem > 32) by lia.
  unfold load. replace ((0 <=? 0) && (0 + Z.of_nat 1 <=? 1)) with true by reflexivity.
  replace (base + 0 + 0) with base by lia. replace (rdle m base 1) with 1 by (cbn [rdle]; lia).
  cbn [enc]. change (1 =? 0) with false. cbv iota. change (1 - 1 =? 0) with true. cbv iota.
  unfold ebind, ecall. replace (rem - 1 <? 0) with false by lia. cbn [econtrol run_mode].
  unfold enc_uint. replace (32 <=? rem - 1) with true by lia. change (32 <? 32) with false. cbv iota.
  unfold load. change ((0 <=? 0) && (0 + Z.of_nat (width 32) <=? 4)) with true. cbv iota.
  unfold eafter. replace (rem - 1 - 32 <? 0) with false by lia. cbn [enc econtrol run_mode lthen].
  unfold lv_uint. change ((0 <=? 32) && (32 <=? 32)) with true. replace (32 <=? rem - 1) with true by lia. cbv iota.
  rewrite (fld_ok _ _ _ _ _ _ _ R4); [reflexivity|]. apply below_ok. apply (rdle_lt 4 O).
Qed.
End Steps.
