(** The three downlink control messages that are looked at, decoded from the bits. *)
From Coq Require Import ZArith List Bool Lia.
From Verif Require Import Lib.Base Csn1.Csn1Model Csn1.Csn1Tables Csn1.Csn1EncModel Csn1.Csn1DlModel Csn1.Csn1Layout Csn1.Csn1Step
  Rlcmac.CcchSpec Rlcmac.CcchDec Rlcmac.CcchMsg Rlcmac.PdchSpec Rlcmac.PdchStep Rlcmac.PdchDec.
Import ListNotations.
Open Scope Z_scope.

Ltac back := repeat match goal with
  | K : keep _ _ _ ?m1 |- context [?m1 _] => rewrite K by lia
  | K : forall x, _ -> ?m1 x = _ |- context [?m1 _] => rewrite K by lia
  end.

Ltac okk := unfold items_ok;
  repeat match goal with
  | |- Forall item_ok [] => constructor
  | |- Forall item_ok (_ :: _) => constructor; [first [assumption|exact Logic.I]|]
  | |- Forall item_ok (_ ++ _) => apply Forall_app; split
  | _ => assumption
  end.

Section Msg.
Variable bits : Z -> bool.
Variable nbits : Z.
Variable past : Z -> Z -> Z * Z.
Notation here := (here bits nbits).
Notation runs := (runs bits nbits past).
Notation leaves := (leaves bits nbits).
Notation eats := (eats bits nbits past).

Lemma additions_k {A} (f : A -> list item) x lim base off room off2 room2 sub sz (T : A -> mem -> Prop) r p m Q :
  (forall a more, x = inr (a, more) -> eats lim (base + off2) sub (f a) (base + off2) (base + off2 + sz) (T a)) ->
  0 <= base + off -> off < off2 -> 0 <= sz -> base + off < lim ->
  (forall p1 l1 m1, (forall y, y < base + off \/ base + off < y < base + off2 \/ base + off2 + sz <= y -> m1 y = m y) ->
     m1 (base + off) = match x with inr _ => 1 | _ => 0 end -> (forall a more, x = inr (a, more) -> T a m1) -> runs lim base r run_mode p1 l1 m1 Q) ->
  runs lim base (DNext false 1 off room true (DType off2 room2 false sub r)) run_mode p (additions f x) m Q.
Proof.
  intros S0 L O Sz H R. destruct x as [[more|]|[a more]]; cbn [additions].
  - apply step_next; [auto|discriminate|apply fits_ok; lia|]. cbn [Z.eqb]. apply step_skip; [reflexivity|]. cbn [rest]. apply R; [|apply upds_at; cbn; lia|discriminate].
    intros y Y. apply upds_out. lia.
  - apply step_next0; [apply fits_ok; lia|]. apply step_skip; [reflexivity|]. cbn [rest]. apply R; [|apply upds_at; cbn; lia|discriminate].
    intros y Y. apply upds_out. lia.
  - apply step_next; [auto|auto|apply fits_ok; lia|]. cbn [Z.eqb Pos.eqb]. eapply step_type; [left; reflexivity|apply (S0 a more eq_refl)|].
    intros p1 l1 m1 (-> & K & T1). apply R.
    + intros y Y. rewrite K by lia. apply upds_out. lia.
    + rewrite K by lia. apply upds_at. cbn. lia.
    + intros b' more' E. injection E as <- <-. exact T1.
Qed.
Definition ack_mem (m : mem) tfi ccc final ssn (bm : list Z) (add : option (list bool) + (option Z * Z) * list bool) : Prop :=
  m 2 = tfi /\ m 4 = ccc /\ m 5 = final /\ m 6 = ssn /\ (forall j, (j < 8)%nat -> m (7 + Z.of_nat j) = nth j bm 0) /\
  rdle m 20 4 = match add with inr _ => 1 | _ => 0 end /\ (forall a more, add = inr (a, more) -> m 29 = snd a).

Lemma ack_r99 lim x : items_ok (opt (fun e => [U 2 e]) (fst x) ++ [U 1 (snd x)]) -> 30 <= lim ->
  eats lim (4 + 20) PU_AckNack_GPRS_AdditionsR99_t (opt (fun e => [U 2 e]) (fst x) ++ [U 1 (snd x)]) (4 + 20) (4 + 20 + 8) (fun m => m 29 = snd x).
Proof.
  intros K L l p m. destruct x as [e t]. cbn [fst snd] in *. oks. rewrite <- app_assoc. cbn [app]. unfold PU_AckNack_GPRS_AdditionsR99_t.
  eapply opt_uint_k; [reflexivity|lia|intros w ->; cbn [opt] in *; oks; num|reflexivity|lia|lia|lia|]. intros p1 m1 K1 _ _. eapply uint_k; [reflexivity|lia|num|lia|]. intros p2 m2 K2 E2.
  apply runs_end. split; [reflexivity|]. split; [intros y Y; back; reflexivity|exact E2].
Qed.
Lemma ack_dec mode tfi ccc final ssn bm tlli ta power ext dummy add p :
  items_ok (ul_ack_nack mode tfi ccc final ssn bm tlli ta power ext dummy add) -> ack_lengths bm power ext ->
  runs sz_dl_union 0 Packet_Uplink_Ack_Nack_t run_mode p (ul_ack_nack mode tfi ccc final ssn bm tlli ta power ext dummy add) (upd1 (fun _ => 0) 0 9)
    (fun s => s_mem s 0 = 9 /\ ack_mem (s_mem s) tfi ccc final ssn bm add).
Proof.
  intros K (N1 & N2 & N3). unfold ul_ack_nack in *. oks. cbn [app]. unfold sz_dl_union. set (m0 := upd1 (fun _ => 0) 0 9).
  assert (Z0 : forall x, 0 < x -> m0 x = 0) by (intros x X; unfold m0, upd1; destruct (Z.eqb_spec x 0); [lia|reflexivity]). clearbody m0.
  unfold Packet_Uplink_Ack_Nack_t.
  eapply uint_k; [reflexivity|lia|num|lia|]. intros p1 m1 K1 E1. eapply uint_k; [reflexivity|lia|num|lia|]. intros p2 m2 K2 _.
  eapply step_fixed; [reflexivity|lia|num|]. eapply uint_k; [reflexivity|lia|num|lia|]. intros p3 m3 K3 E3. apply step_union2; [auto|reflexivity|].
  change (Z.to_nat 0) with 0%nat. change (0 + 3) with 3.
  eapply step_sel_type with (R := fun _ m => m 0 = 9 /\ ack_mem m tfi ccc final ssn bm add); [left; reflexivity| |].
  2: { intros p4 l4 m4 X. apply step_skip; [reflexivity|]. cbn [rest]. apply runs_pad with (R := fun m => m 0 = 9 /\ ack_mem m tfi ccc final ssn bm add). exact X. }
  set (m4 := upds m3 3 1 0). assert (K4 : keep 3 4 m3 m4) by (apply keep_upds; lia). clearbody m4. change (0 + 4) with 4. unfold PU_AckNack_GPRS_t.
  eapply uint_k; [reflexivity|lia|num|lia|]. intros p5 m5 K5 E5.
  assert (Ack : eats 123684 (4 + 1) Ack_Nack_Description_t (U 1 final :: U 7 ssn :: map (U 8) bm) (4 + 1) (4 + 1 + 10)
    (fun m => m 5 = final /\ m 6 = ssn /\ (forall j, (j < 8)%nat -> m (7 + Z.of_nat j) = nth j bm 0))).
  { intros l' p' m'. cbn [app]. unfold Ack_Nack_Description_t. eapply uint_k; [reflexivity|lia|num|lia|]. intros p6 m6 K6 E6. eapply uint_k; [reflexivity|lia|num|lia|]. intros p7 m7 K7 E7.
    apply step_bitmap; [exact N1| |lia|lia|].
    { match goal with H : Forall item_ok (map (U 8) bm) |- _ => rewrite Forall_map in H; eapply Forall_impl; [|exact H]; cbn; intros; lia end. }
    intros p8 m8 K8 E8. apply runs_end. split; [reflexivity|].  split; [intros y Y; back; reflexivity|]. split; [back; exact E6|]. split; [back; exact E7|].
    intros j J. apply E8. exact J. }
  eapply type_k with (l0 := U 1 final :: U 7 ssn :: map (U 8) bm) (sz := 10); [exact Ack|]. intros p6 m6 K6 (E6 & E7 & E8).
  assert (T1 : forall p m, keep 32 40 m6 m ->
    runs 123684 4 (Nat.iter 4 rest PU_AckNack_GPRS_t) run_mode p (opt timing_advance ta ++ opt power_params power ++ opt extension_bits ext ++ [U 1 0; U 1 dummy] ++
      additions (fun x => opt (fun e => [U 2 e]) (fst x) ++ [U 1 (snd x)]) add) m (leaves (fun _ m => m 0 = 9 /\ ack_mem m tfi ccc final ssn bm add))).
  { intros p7 m7 K7. cbn [Nat.iter nat_rect rest PU_AckNack_GPRS_t].
    eapply opt_type_k with (sz := 5) (T := fun _ _ => True); [intros a ->; cbn [opt] in *; oks; apply ta_eats; [assumption|lia|lia]|lia|lia|lia|lia|]. intros p8 m8 K8 _ _.
    eapply opt_type_k with (sz := 17) (T := fun _ _ => True); [intros a ->; cbn [opt] in *; oks; apply power_eats; [assumption|apply N2; reflexivity|lia|lia]|lia|lia|lia|lia|]. intros p9 m9 K9 _ _.
    eapply opt_type_k with (sz := 9) (T := fun _ _ => True); [intros a ->; apply ext_eats; [apply N3; reflexivity|lia|lia]|lia|lia|lia|lia|]. intros p10 m10 K10 _ _.
    cbn [app]. apply step_union2; [auto|reflexivity|]. change (Z.to_nat 0) with 0%nat. eapply step_sel_uint; [reflexivity|lia|num|reflexivity|]. apply step_skip; [reflexivity|]. cbn [rest].
    eapply additions_k with (sz := 8) (T := fun a m => m 29 = snd a); [|lia|lia|lia|lia|].
    { intros a more ->. cbn [additions] in *. oks. apply ack_r99; [okk|lia]. }
    change (width 1) with 1%nat. intros p11 l11 m11 K11 E11 T11. apply runs_end. 
    assert (KK : forall y, y < 15 -> m11 y = m6 y).
    { intros y Y. rewrite K11 by lia. do 2 rewrite upds_out by lia. back. reflexivity. }
    assert (KZ : forall y, 20 < y < 24 -> m11 y = 0).
    { intros y Y. rewrite K11 by lia. do 2 rewrite upds_out by lia. back. reflexivity. }
    split; [rewrite KK by lia; back; exact E1|]. split; [rewrite KK by lia; back; exact E3|]. split; [rewrite KK by lia; back; exact E5|].
    split; [rewrite KK by lia; exact E6|]. split; [rewrite KK by lia; exact E7|]. split; [intros j J; rewrite KK by lia; apply E8; exact J|]. split; [|exact T11].
    change (4 + 16) with 20 in E11. cbn [rdle]. rewrite (KZ (20 + 1)), (KZ (20 + 1 + 1)), (KZ (20 + 1 + 1 + 1)) by lia. rewrite E11. destruct add; reflexivity. }
  apply step_opt; [reflexivity|reflexivity| |].
  - intros t ->. cbn [opt app] in *. oks. eapply wide_k; [reflexivity|lia|num|lia|cbn; lia|cbn; lia|]. change (width 32) with 4%nat. intros p7 m7 K7 _. apply T1.
    intros y Y. back. apply upds_out. lia.
  - intros _. apply step_skip; [reflexivity|]. apply T1. intros y Y. apply upds_out. lia.
Qed.

(** *** Packet Uplink Assignment *)
Lemma pers_k lim off room off2 room2 pers l r p m Q : items_ok (opt (map (U 4)) pers) -> (forall x, pers = Some x -> length x = 4%nat) ->
  0 <= off -> off < off2 -> off2 + 4 <= lim ->
  (forall p1 m1, keep off (off2 + 4) m m1 -> runs lim 0 r run_mode p1 l m1 Q) ->
  runs lim 0 (DNext false 1 off room false (DUintArr 4 4 off2 room2 r)) run_mode p (opt (map (U 4)) pers ++ l) m Q.
Proof.
  intros K N L O H R. apply step_opt; [apply fits_ok; lia|reflexivity| |].
  - intros a ->. cbn [opt] in *. oks. assert (Z4 : zlen a = 4) by (unfold zlen; rewrite (N a eq_refl); reflexivity).
    apply step_uintarr; [reflexivity|lia|lia| |lia|lia|].
    { match goal with H : Forall item_ok (map _ _) |- _ => rewrite Forall_map in H; exact H end. }
    intros p1 m1 K1. apply R. intros y Y. rewrite K1 by lia. apply upds_out. lia.
  - intros _. apply step_skip; [reflexivity|]. cbn [rest]. apply R. apply keep_upds; lia.
Qed.
Definition pua_mem (m : mem) who ccc tfi start slots : Prop :=
  id_at m 8 who /\ m 16 = 0 /\ m 20 = ccc /\ m 56 = 1 /\ dyn_at m 58 tfi start slots.
Lemma dyn_keep lo hi m m1 a tfi start slots : keep lo hi m m1 -> length (usf_of slots) = 8%nat -> a + 42 <= lo \/ hi <= a -> dyn_at m a tfi start slots -> dyn_at m1 a tfi start slots.
Proof.
  intros K N H (F1 & F2 & F3 & F4 & F5). split; [rewrite K by lia; exact F1|]. split; [intros t Ht; rewrite K by lia; auto|]. split; [rewrite K by lia; exact F3|].
  split; [intros f Hf; eapply (frame_keep bits past); [exact K|lia|auto]|]. eapply (slots_mem_keep bits past); [exact K|exact N|lia|exact F5].
Qed.
Lemma pua_dec mode pers who ccc tbcc ta freq ext p0 gran tfi granted start slots add p :
  items_ok (ul_assignment mode pers who ccc tbcc ta freq ext p0 gran tfi granted start slots add) ->
  (forall x, pers = Some x -> length x = 4%nat) -> (forall x, freq = Some x -> freq_ok x) -> length (usf_of slots) = 8%nat ->
  runs sz_dl_union 0 Packet_Uplink_Assignment_t run_mode p (ul_assignment mode pers who ccc tbcc ta freq ext p0 gran tfi granted start slots add) (upd1 (fun _ => 0) 0 10)
    (fun s => s_mem s 0 = 10 /\ pua_mem (s_mem s) who ccc tfi start slots).
Proof.
  intros K N1 N2 N3. unfold ul_assignment in *.
  assert (Kd : items_ok (dyn_items ext p0 gran tfi granted start slots)) by (unfold dyn_items; oks; okk). oks.
  rewrite <- ?app_assoc. cbn [app]. unfold sz_dl_union. set (m0 := upd1 (fun _ => 0) 0 10). clearbody m0.
  unfold Packet_Uplink_Assignment_t. eapply uint_k; [reflexivity|lia|num|lia|]. intros p1 m1 K1 E1. eapply uint_k; [reflexivity|lia|num|lia|]. intros p2 m2 K2 _.
  apply pers_k; [assumption|assumption|lia|lia|lia|]. intros p3 m3 K3.
  eapply type_k with (sz := 8); [unfold PacketUplinkID_t, ch_PacketUplinkID; apply choice_eats; [assumption|lia|lia]|]. intros p4 m4 K4 I4.
  apply step_union2; [auto|reflexivity|]. change (Z.to_nat 0) with 0%nat.
  eapply step_sel_type with (R := fun _ m => m 0 = 10 /\ pua_mem m who ccc tfi start slots); [left; reflexivity| |].
  2: { intros p5 l5 m5 X. apply step_skip; [reflexivity|]. cbn [rest]. apply runs_pad with (R := fun m => m 0 = 10 /\ pua_mem m who ccc tfi start slots). exact X. }
  change (0 + 16) with 16. set (m5 := upds m4 16 1 0). assert (K5 : keep 16 17 m4 m5) by (apply keep_upds; lia). assert (E5 : m5 16 = 0) by (apply upds_at; lia). clearbody m5.
  change (0 + 20) with 20. change (0 + 8) with 8 in I4. unfold PUA_GPRS_t. eapply uint_k; [reflexivity|lia|num|lia|]. intros p6 m6 K6 E6. eapply uint_k; [reflexivity|lia|num|lia|]. intros p7 m7 K7 _.
  eapply type_k with (sz := 5); [apply ta_eats; [assumption|lia|lia]|]. intros p8 m8 K8 _.
  eapply opt_type_k with (sz := 28) (T := fun _ _ => True); [intros a ->; cbn [opt] in *; oks; apply freq_eats; [assumption|apply N2; reflexivity|lia|lia]|lia|lia|lia|lia|]. intros p9 m9 K9 _ _.
  apply step_union4; [lia|reflexivity|]. change (Z.to_nat 1) with 1%nat. apply step_sel; [reflexivity|]. cbn [rest].
  change (20 + 36) with 56. set (m10 := upds m9 56 1 1). assert (K10 : keep 56 57 m9 m10) by (apply keep_upds; lia). assert (E10 : m10 56 = 1) by (apply upds_at; lia). clearbody m10.
  match goal with |- Csn1Step.runs _ _ _ _ _ _ _ _ ?l _ _ => replace l with (dyn_items ext p0 gran tfi granted start slots ++ additions (opt (fun e => [U 2 e])) add) by (unfold dyn_items; rewrite <- !app_assoc; reflexivity) end.
  eapply step_sel_type; [left; reflexivity|apply dyn_eats; [exact Kd|exact N3|lia|lia]|].
  intros p11 l11 m11 (-> & K11 & D11). do 2 (apply step_skip; [reflexivity|]). cbn [rest].
  eapply additions_k with (sz := 8) (T := fun _ _ => True); [|lia|lia|lia|lia|].
  { intros a more ->. cbn [additions] in *. oks. intros l12 p12 m12. unfold PUA_GPRS_AdditionsR99_t.
    eapply opt_uint_k; [reflexivity|lia|intros w ->; cbn [opt] in *; oks; num|reflexivity|lia|lia|lia|]. intros p13 m13 K13 _ _. apply runs_end.
    split; [reflexivity|split; [|exact Logic.I]]. intros y Y. back. reflexivity. }
  intros p12 l12 m12 K12 _ _. apply runs_end. change (20 + 38) with 58 in *.
  split; [back; exact E1|]. assert (K12' : keep 100 112 m11 m12) by (intros y Y; apply K12; lia). unfold pua_mem.
  split; [|split; [back; exact E5|split; [back; exact E6|split; [back; exact E10|]]]].
  - apply (id_keep bits past 16 112 m4); [intros y Y; back; reflexivity|lia|exact I4].
  - eapply dyn_keep; [exact K12'|exact N3|lia|exact D11].
Qed.

(** *** Packet Downlink Assignment *)
Definition pda_mem (m : mem) who ack slots tfi start : Prop :=
  id_at m 12 who /\ m 22 = ack /\ m 23 = slots /\ rdle m 72 4 = there tfi /\ (forall t : Z, tfi = Some t -> m 76 = t) /\
  rdle m 104 4 = there start /\ (forall f, start = Some f -> frame_at m 108 f).
Lemma int_zero m a v : m a = v -> m (a + 1) = 0 -> m (a + 1 + 1) = 0 -> m (a + 1 + 1 + 1) = 0 -> rdle m a 4 = v.
Proof. intros E1 E2 E3 E4. cbn [rdle]. rewrite E1, E2, E3, E4. lia. Qed.
Lemma pda_r99 x lim : items_ok (opt (fun e : Z * Z * option Z => [U 5 (fst (fst e)); U 2 (snd (fst e))] ++ opt (fun b => [U 4 b]) (snd e)) (fst x) ++
    opt (fun e => [U 2 e]) (snd x) ++ [U 1 0]) -> 184 <= lim ->
  eats lim (0 + 128) PDA_AdditionsR99_t (opt (fun e : Z * Z * option Z => [U 5 (fst (fst e)); U 2 (snd (fst e))] ++ opt (fun b => [U 4 b]) (snd e)) (fst x) ++
    opt (fun e => [U 2 e]) (snd x) ++ [U 1 0]) (0 + 128) (0 + 128 + 56) (fun _ => True).
Proof.
  intros K L l p m. destruct x as [e t]. cbn [fst snd] in *. oks. rewrite <- !app_assoc. unfold PDA_AdditionsR99_t.
  assert (C : forall p1 m1, keep 128 184 m m1 -> runs lim (0 + 128) (Nat.iter 5 rest PDA_AdditionsR99_t) run_mode p1 (opt (fun e => [U 2 e]) t ++ [U 1 0] ++ l) m1
    (leaves (fun l1 m1 => l1 = l /\ keep (0 + 128) (0 + 128 + 56) m m1 /\ True))).
  { intros p1 m1 K1. cbn [Nat.iter nat_rect rest PDA_AdditionsR99_t].
    eapply opt_uint_k; [reflexivity|lia|intros w ->; cbn [opt] in *; oks; num|reflexivity|lia|lia|lia|]. intros p2 m2 K2 _ _.
    cbn [app]. apply step_next; [auto|discriminate|apply fits_ok; lia|]. cbn [Z.eqb]. apply step_skip; [reflexivity|]. cbn [rest]. apply runs_end.
    split; [reflexivity|split; [|exact Logic.I]]. intros y Y. rewrite upds_out by lia. back. reflexivity. }
  apply step_opt; [apply fits_ok; lia|reflexivity| |].
  - intros [[a b] c] ->. cbn [opt fst snd] in *. rewrite <- app_assoc. oks. cbn [app]. eapply uint_k; [reflexivity|lia|num|lia|]. intros p1 m1 K1 _. eapply uint_k; [reflexivity|lia|num|lia|]. intros p2 m2 K2 _.
    eapply opt_uint_k; [reflexivity|lia|intros w ->; cbn [opt] in *; oks; num|reflexivity|lia|lia|lia|]. intros p3 m3 K3 _ _. apply C.
    intros y Y. back. apply upds_out. lia.
  - intros _. do 4 (apply step_skip; [reflexivity|]). apply C. intros y Y. apply upds_out. lia.
Qed.
Lemma opt_uint_g lim base b off room null off2 room2 n o l r p m Q : b = Z.of_nat n -> 0 < b <= 8 ->
  (forall v, o = Some v -> 0 <= v < 2 ^ b) -> 0 <= base + off -> off < off2 -> base + off2 < lim ->
  (forall p1 m1, (forall x, x < base + off \/ base + off < x < base + off2 \/ base + off2 + 1 <= x -> m1 x = m x) -> m1 (base + off) = there o -> (forall v, o = Some v -> m1 (base + off2) = v) ->
     runs lim base r run_mode p1 l m1 Q) ->
  runs lim base (DNext false 1 off room null (DUint b off2 room2 false r)) run_mode p (opt (fun v => [U n v]) o ++ l) m Q.
Proof.
  intros E B V L O H R. apply step_opt; [apply fits_ok; lia|reflexivity| |].
  - intros a ->. cbn [app]. eapply uint_k; [exact E|exact B|apply V; reflexivity|lia|]. intros p1 m1 K1 E1. apply R.
    + intros x X. rewrite K1 by lia. apply upds_out. lia.
    + rewrite K1 by lia. apply upds_at. cbn; lia.
    + intros v [= <-]. exact E1.
  - intros ->. apply step_skip; [reflexivity|]. cbn [rest]. apply R; [intros x X; apply upds_out; lia|apply upds_at; cbn; lia|discriminate].
Qed.
Lemma meas_eats (x : (Z * Z * Z + Z) * Z * Z) lim : items_ok (starting_frame (fst (fst x)) ++ [U 5 (snd (fst x)); U 8 (snd x)]) -> 124 <= lim ->
  eats lim (0 + 116) Measurement_Mapping_struct_t (starting_frame (fst (fst x)) ++ [U 5 (snd (fst x)); U 8 (snd x)]) (0 + 116) (0 + 116 + 8) (fun _ => True).
Proof.
  intros K L l p m. destruct x as [[f a] b]. cbn [fst snd] in *. oks. rewrite <- app_assoc. cbn [app]. unfold Measurement_Mapping_struct_t.
  eapply type_k with (sz := 6); [apply start_eats; [assumption|lia|lia]|]. intros p1 m1 K1 _.
  eapply uint_k; [reflexivity|lia|num|lia|]. intros p2 m2 K2 _. eapply uint_k; [reflexivity|lia|num|lia|]. intros p3 m3 K3 _. apply runs_end.
  split; [reflexivity|split; [|exact Logic.I]]. intros y Y. back. reflexivity.
Qed.
Lemma pda_dec mode pers who mac rlc ack slots ta p0 freq tfi power start meas add p :
  items_ok (dl_assignment mode pers who mac rlc ack slots ta p0 freq tfi power start meas add) ->
  (forall x, pers = Some x -> length x = 4%nat) -> (forall x, freq = Some x -> freq_ok x) -> (forall x, power = Some x -> length (snd x) = 8%nat) ->
  runs sz_dl_union 0 Packet_Downlink_Assignment_t run_mode p (dl_assignment mode pers who mac rlc ack slots ta p0 freq tfi power start meas add) (upd1 (fun _ => 0) 0 2)
    (fun s => s_mem s 0 = 2 /\ pda_mem (s_mem s) who ack slots tfi start).
Proof.
  intros K N1 N2 N3. unfold dl_assignment in *. oks.
  rewrite <- ?app_assoc. cbn [app]. unfold sz_dl_union. set (m0 := upd1 (fun _ => 0) 0 2).
  assert (Z0 : forall x, 0 < x -> m0 x = 0) by (intros x X; unfold m0, upd1; destruct (Z.eqb_spec x 0); [lia|reflexivity]). clearbody m0.
  set (Q := fun s : cst => _).
  unfold Packet_Downlink_Assignment_t. eapply uint_k; [reflexivity|lia|num|lia|]. intros p1 m1 K1 E1. eapply uint_k; [reflexivity|lia|num|lia|]. intros p2 m2 K2 _.
  apply pers_k; [assumption|assumption|lia|lia|lia|]. intros p3 m3 K3.
  eapply type_k with (sz := 8); [unfold PacketDownlinkID_t, ch_PacketDownlinkID; apply choice_eats; [assumption|lia|lia]|]. intros p4 m4 K4 I4.
  eapply step_fixed; [reflexivity|lia|num|]. eapply uint_k; [reflexivity|lia|num|lia|]. intros p5 m5 K5 _. eapply uint_k; [reflexivity|lia|num|lia|]. intros p6 m6 K6 _.
  eapply uint_k; [reflexivity|lia|num|lia|]. intros p7 m7 K7 E7. eapply uint_k; [reflexivity|lia|num|lia|]. intros p8 m8 K8 E8.
  eapply type_k with (sz := 5); [apply ta_eats; [assumption|lia|lia]|]. intros p9 m9 K9 _. change (0 + 12) with 12 in I4.
  assert (C : forall p m, keep 32 39 m9 m -> runs 123684 0 (Nat.iter 15 rest Packet_Downlink_Assignment_t) run_mode p
    (opt freq_items freq ++ opt (fun t => [U 5 t]) tfi ++ opt power_params power ++ opt starting_frame start ++
     opt (fun x : (Z * Z * Z + Z) * Z * Z => starting_frame (fst (fst x)) ++ [U 5 (snd (fst x)); U 8 (snd x)]) meas ++
     additions (fun x : option (Z * Z * option Z) * option Z =>
       opt (fun e : Z * Z * option Z => [U 5 (fst (fst e)); U 2 (snd (fst e))] ++ opt (fun b => [U 4 b]) (snd e)) (fst x) ++
       opt (fun e => [U 2 e]) (snd x) ++ [U 1 0]) add) m Q).
  { intros p10 m10 K10. cbn [Nat.iter nat_rect rest Packet_Downlink_Assignment_t].
    eapply opt_type_k with (sz := 28) (T := fun _ _ => True); [intros a ->; cbn [opt] in *; oks; apply freq_eats; [assumption|apply N2; reflexivity|lia|lia]|lia|lia|lia|lia|]. intros p11 m11 K11 _ _.
    eapply opt_uint_g; [reflexivity|lia|intros w ->; cbn [opt] in *; oks; num|lia|lia|lia|]. intros p12 m12 K12 E12 V12.
    eapply opt_type_k with (sz := 17) (T := fun _ _ => True); [intros a ->; cbn [opt] in *; oks; apply power_eats; [assumption|apply N3; reflexivity|lia|lia]|lia|lia|lia|lia|]. intros p13 m13 K13 _ _.
    eapply opt_type_k with (sz := 6) (T := fun f m => frame_at m 108 f); [intros a ->; cbn [opt] in *; oks; apply start_eats; [assumption|lia|lia]|lia|lia|lia|lia|]. intros p14 m14 K14 E14 V14.
    eapply opt_type_k with (sz := 8) (T := fun _ _ => True); [intros a ->; cbn [opt] in *; oks; apply meas_eats; [okk|lia]|lia|lia|lia|lia|]. intros p15 m15 K15 _ _.
    eapply additions_k with (sz := 56) (T := fun _ _ => True); [intros a more ->; cbn [additions] in *; oks; apply pda_r99; [okk|lia]|lia|lia|lia|lia|].
    intros p16 l16 m16 K16 _ _. apply runs_pad with (R := fun m => m 0 = 2 /\ pda_mem m who ack slots tfi start).
    change (0 + 72) with 72 in *. change (0 + 104) with 104 in *. change (0 + 76) with 76 in *.
    split; [back; exact E1|]. split; [apply (id_keep bits past 20 200 m4); [intros y Y; back; reflexivity|lia|exact I4]|].
    split; [back; exact E7|]. split; [back; exact E8|].
    split; [apply int_zero; back; first [exact E12|reflexivity]|]. split; [intros t Ht; back; apply V12; exact Ht|].
    split; [apply int_zero; back; first [exact E14|reflexivity]|]. intros f Hf. apply (frame_keep bits past 114 200 m14); [intros y Y; back; reflexivity|lia|apply V14; exact Hf]. }
  apply step_opt; [reflexivity|reflexivity| |].
  - intros [[a b] c] ->. cbn [opt fst snd] in *. oks. cbn [app]. do 2 (eapply uint_k; [reflexivity|lia|num|lia|]; intros ? ? ? _). eapply uint_k; [reflexivity|lia|num|lia|]. intros p13 m13 K13 _. apply C.
    intros y Y. back. apply upds_out. lia.
  - intros _. do 3 (apply step_skip; [reflexivity|]). apply C. intros y Y. apply upds_out. lia.
Qed.
End Msg.
