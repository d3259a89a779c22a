(** Lemmas about the control messages of the mobile station: the bits of each message, and what the decoder makes of
    them. *)
From Coq Require Import ZArith List Bool Lia.
From Verif Require Import Lib.Base Csn1.Csn1Model Csn1.Csn1EncModel Csn1.Csn1Tables Csn1.Csn1DlModel Csn1.Csn1UlModel Csn1.Csn1UlSpec.
From Verif Require Import Csn1.Csn1UlProofs Csn1.Csn1Round Csn1.Csn1RoundProofs Csn1.Csn1UlLive.
Import ListNotations.
Open Scope Z_scope.

Lemma bit_of_msg l i : bit_of l i = msg_bits l (Z.of_nat i).
Proof.
  unfold bit_of, msg_bits. f_equal; [f_equal|].
  - rewrite <- (Nat2Z.id (i / 8)). f_equal. apply Nat2Z.inj_div.
  - pose proof (Nat2Z.inj_mod i 8). pose proof (Nat.mod_upper_bound i 8 ltac:(lia)). lia.
Qed.
Lemma create_carries m b r : encode_uplink m = EOk b r -> length b = 184%nat ->
  exists l, create m = Some l /\ carries l b.
Proof.
  intros E L. exists (pack 23 b). unfold create. rewrite E. split.
  - f_equal. apply block_full; [exact L|apply dummy_length].
  - split; [apply pack_length|]. split; [apply pack_bytes|].
    erewrite map_ext; [|intros i; apply bit_of_msg]. apply (pack_bits 23). exact L.
Qed.

Definition le4 t0 t1 t2 t3 := t0 + 256 * (t1 + 256 * (t2 + 256 * (t3 + 256 * 0))).
Lemma le4_tlli t : 0 <= t < 2 ^ 32 -> le4 (t mod 256) ((t / 256) mod 256) ((t / 256 / 256) mod 256) ((t / 256 / 256 / 256) mod 256) = t.
Proof. unfold le4. intros. lia. Qed.

Lemma enc_control_ack tlli : 0 <= tlli < 2 ^ 32 ->
  encode_uplink (prep_ctrl_ack tlli) = EOk (control_ack_bits tlli) 0 /\ length (control_ack_bits tlli) = 184%nat.
Proof. intros H. split; [|reflexivity]. rewrite <- (le4_tlli tlli H) at 2. reflexivity. Qed.

Lemma enc_dummy tlli : 0 <= tlli < 2 ^ 32 ->
  encode_uplink (prep_dummy tlli) = EOk (dummy_bits tlli) 0 /\ length (dummy_bits tlli) = 184%nat.
Proof. intros H. split; [|reflexivity]. rewrite <- (le4_tlli tlli H) at 2. reflexivity. Qed.

Lemma le2_count c : 0 <= c < 2 ^ 16 -> c mod 256 + 256 * ((c / 256) mod 256 + 256 * 0) = c.
Proof. intros. lia. Qed.
Lemma enc_resource_request tlli queued acc : 0 <= tlli < 2 ^ 32 -> 0 <= queued < 2 ^ 16 -> 0 <= acc < 4 ->
  encode_uplink (prep_resource_req tlli queued acc) = EOk (resource_request_bits tlli queued acc) 0 /\
  length (resource_request_bits tlli queued acc) = 184%nat.
Proof.
  intros H Q A. assert (X : acc = 0 \/ acc = 1 \/ acc = 2 \/ acc = 3) by lia. split.
  - rewrite <- (le4_tlli tlli H) at 2. rewrite <- (le2_count queued Q) at 2.
    destruct X as [ -> |[ -> |[ -> | -> ]]]; reflexivity.
  - destruct X as [ -> |[ -> |[ -> | -> ]]]; reflexivity.
Qed.

Lemma octet_id v n : 0 <= v < 2 ^ n -> n <= 8 -> v mod 256 + 256 * 0 = v.
Proof. intros H N. rewrite Z.mod_small; [lia|]. pose proof (Z.pow_le_mono_r 2 n 8). lia. Qed.
Lemma enc_downlink_ack_nack tfi final ssn rbb req :
  0 <= tfi < 32 -> 0 <= ssn < 128 -> length rbb = 8%nat -> bytes rbb ->
  (forall prio octets, req = Some (prio, octets) -> 0 <= prio < 4 /\ 0 <= octets < 2 ^ 16) ->
  encode_uplink (prep_dl_ack_nack tfi final ssn rbb req) = EOk (downlink_ack_nack_bits tfi final ssn rbb req) 0 /\
  length (downlink_ack_nack_bits tfi final ssn rbb req) = 184%nat.
Proof.
  intros T S L B Q. do 9 (destruct rbb as [|? rbb]; try discriminate L). clear L.
  assert (X : forall o, o + 256 * 0 = o) by (intros; lia).
  split.
  - transitivity (EOk (downlink_ack_nack_bits (tfi mod 256 + 256 * 0) final (ssn mod 256 + 256 * 0)
      [z + 256 * 0; z0 + 256 * 0; z1 + 256 * 0; z2 + 256 * 0; z3 + 256 * 0; z4 + 256 * 0; z5 + 256 * 0; z6 + 256 * 0]
      (match req with
       | Some (prio, octets) => Some (prio mod 256 + 256 * 0, octets mod 256 + 256 * ((octets / 256) mod 256 + 256 * 0))
       | None => None
       end)) 0).
    + destruct req as [[prio octets]|], final; reflexivity.
    + rewrite (octet_id tfi 5 T), (octet_id ssn 7 S), !X by lia. destruct req as [[prio octets]|]; [|reflexivity].
      destruct (Q prio octets eq_refl) as [P O]. rewrite (octet_id prio 2 P), (le2_count octets O) by lia. reflexivity.
  - destruct req as [[prio octets]|]; reflexivity.
Qed.

(** *** C50 *)
(** The octets of the structure that the message carries, when every value fits its field and no entry is used on which
    the encoder and the decoder do not agree. *)
Definition carried (m : mem) : option (list Z) :=
  match ul_table (m 0) with
  | Some (d, sz) => live m true sz 0 d run_mode 184 []
  | None => None
  end.

Lemma header_bits m r b rem (bit : bool) :
  enc m 0 (DUint 2 1 1 false (DUint 5 2 1 false
            (if bit then DBit 3 1 false (DUint 6 0 1 false r) else DUint 1 3 1 false (DUint 6 0 1 false r)))) run_mode 184 = EOk b rem ->
  exists t, b = wr (m 1) 2 ++ (wr (m 2) 5 ++ wr (m 3) 1) ++ wr (m 0) 6 ++ t.
Proof.
  intros E.
  assert (X : forall a, rdle m a 1 = m a) by (intros; cbn [rdle]; lia).
  assert (exists t rem', b = wr (rdle m 1 1) 2 ++ (wr (rdle m 2 1) 5 ++ (wr (rdle m 3 1) 1 ++ (wr (rdle m 0 1) 6 ++ t))) /\ enc m 0 r run_mode 170 = EOk t rem') as (t & _ & -> & _).
  { destruct bit.
    - change (eafter (EOk (wr (rdle m 1 1) 2) 182) (fun _ => eafter (EOk (wr (rdle m 2 1) 5) 177) (fun _ =>
        eafter (EOk (wr (rdle m 3 1) 1) 176) (fun _ => eafter (EOk (wr (rdle m 0 1) 6) 170) (enc m 0 r run_mode)))) = EOk b rem) in E.
      unfold eafter in E. cbn [Z.ltb Z.compare] in E. destruct (enc m 0 r run_mode 170) as [t rem'| |]; try discriminate.
      apply eok_inj in E as [<- _]. eauto.
    - change (eafter (EOk (wr (rdle m 1 1) 2) 182) (fun _ => eafter (EOk (wr (rdle m 2 1) 5) 177) (fun _ =>
        eafter (EOk (wr (rdle m 3 1) 1) 176) (fun _ => eafter (EOk (wr (rdle m 0 1) 6) 170) (enc m 0 r run_mode)))) = EOk b rem) in E.
      unfold eafter in E. cbn [Z.ltb Z.compare] in E. destruct (enc m 0 r run_mode 170) as [t rem'| |]; try discriminate.
      apply eok_inj in E as [<- _]. eauto. }
  rewrite !X. exists t. rewrite <- !app_assoc. reflexivity.
Qed.

Lemma ul_table_head mt d sz : ul_table mt = Some (d, sz) -> mt <> 9 ->
  exists (bit : bool) r, d = DUint 2 1 1 false (DUint 5 2 1 false
            (if bit then DBit 3 1 false (DUint 6 0 1 false r) else DUint 1 3 1 false (DUint 6 0 1 false r))).
Proof.
  intros H N. assert (R : 0 <= mt <= 13).
  { unfold ul_table in H. destruct mt as [|p|p]; try discriminate H; try lia.
    do 4 (destruct p as [p|p|]; try discriminate H; try lia). }
  assert (X : mt = 0 \/ mt = 1 \/ mt = 2 \/ mt = 3 \/ mt = 4 \/ mt = 5 \/ mt = 6 \/ mt = 7 \/ mt = 8 \/ mt = 10 \/ mt = 11 \/ mt = 12 \/ mt = 13) by lia.
  clear R N. repeat match goal with X : _ \/ _ |- _ => destruct X as [X|X] end; subst mt; cbn [ul_table] in H;
    apply (f_equal (fun o => match o with Some (d, _) => d | None => DEnd end)) in H; subst d;
    first [exists false; eexists; reflexivity | exists true; eexists; reflexivity].
Qed.

Lemma block_bit pre b i : (length b <= 184)%nat -> length pre = 184%nat -> (i < length b)%nat ->
  msg_bits (block pre b) (Z.of_nat i) = nth i b false.
Proof.
  intros L P I. unfold block. rewrite pack_bit; [|rewrite app_length, firstn_length, skipn_length; lia|lia].
  rewrite firstn_all2 by lia. rewrite app_nth1 by lia. reflexivity.
Qed.

Lemma round_trip m l R : (forall x, 0 <= m x < 256) -> m 0 <> 9 -> m 1 = 1 \/ m 1 = 2 ->
  create m = Some l -> carried m = Some R -> (forall b r, encode_uplink m = EOk b r -> zlen b <= 184) ->
  forall past m0, exists t, decode_uplink true past (msg_bits l) m0 = DOk t /\
    (forall x, In x R -> s_mem t x = m x) /\ (forall x, ~ In x R -> x <> 0 -> s_mem t x = m0 x).
Proof.
  intros mo N9 PT C K ZL past m0. unfold create in C. destruct (encode_uplink m) as [b r| |] eqn:E; try discriminate.
  injection C as <-. specialize (ZL b r eq_refl). unfold encode_uplink in E. unfold carried in K.
  destruct (ul_table (m 0)) as [[d sz]|] eqn:T; [|discriminate].
  destruct (encode m d 184) as [b' r'| |] eqn:E1; try discriminate.
  destruct (0 <? r'); try discriminate. apply eok_inj in E as [-> ->].
  unfold encode in E1.
  assert (AT : at_ (msg_bits (block dummy_vec b)) 184 0 b).
  { unfold at_. split; [lia|]. split; [lia|]. intros i Hi. rewrite Z.add_0_l.
    rewrite <- (Z2Nat.id i) at 1 by lia. apply block_bit; unfold zlen in *; try lia; apply dummy_length. }
  assert (HD : exists t, b = wr (m 1) 2 ++ (wr (m 2) 5 ++ wr (m 3) 1) ++ wr (m 0) 6 ++ t).
  { destruct (ul_table_head _ _ _ T N9) as (bit & q & ->). eapply header_bits. exact E1. }
  assert (M0 : m 0 < 64).
  { unfold ul_table in T. pose proof (mo 0). destruct (m 0) as [|p|p]; try discriminate T; try lia.
    do 4 (destruct p as [p|p|]; try discriminate T; try lia). }
  destruct HD as (tl & HD).
  assert (A1 : field (msg_bits (block dummy_vec b)) 0 2 = m 1).
  { rewrite (field_wr m mo _ 184 past 2 0 (m 1)). - change (2 ^ Z.of_nat 2) with 4. rewrite Z.mod_small; lia.
    - rewrite HD in AT. apply (at_app m mo _ 184 past) in AT as [A _]. rewrite HD. exact A. }
  assert (A2 : field (msg_bits (block dummy_vec b)) 8 6 = m 0).
  { rewrite (field_wr m mo _ 184 past 6 8 (m 0)). - change (2 ^ Z.of_nat 6) with 64. pose proof (mo 0). rewrite Z.mod_small; lia.
    - rewrite HD in AT. apply (at_app m mo _ 184 past) in AT as [_ A]. apply (at_app m mo _ 184 past) in A as [_ A]. apply (at_app m mo _ 184 past) in A as [A _].
      rewrite HD. exact A. }
  unfold decode_uplink. cbv zeta. rewrite A1, A2, T.
  replace ((m 1 =? 0) || (m 1 =? 3)) with false by (destruct PT as [ -> | -> ]; reflexivity).
  unfold decode.
  destruct (round m mo (upd1 m0 0 (m 0)) (msg_bits (block dummy_vec b)) 184 past d) as [PD _].
  specialize (PD true sz 0 run_mode 184 [] Logic.I).
  pose proof (OK_call m mo (upd1 m0 0 (m 0)) (msg_bits (block dummy_vec b)) 184 past true 184 [] (enc m 0 d run_mode) _ _ PD) as Q.
  destruct (Q b r R (mkcst 184 0 0 (upd1 m0 0 (m 0))) E1 K AT) as (_ & t & D & I & _).
  { cbn [s_rem]. lia. }
  { intros x. reflexivity. }
  exists t. split; [exact D|]. split.
  - intros x X. rewrite I. replace (existsb (Z.eqb x) R) with true; [reflexivity|]. symmetry. apply existsb_exists.
    exists x. split; [exact X|apply Z.eqb_refl].
  - intros x X X0. rewrite I. destruct (existsb (Z.eqb x) R) eqn:Y.
    + apply existsb_exists in Y as (y & Y & Z1). apply Z.eqb_eq in Z1. subst y. contradiction.
    + unfold upd1. destruct (x =? 0) eqn:Z1; [lia|reflexivity].
Qed.

Definition octets (m : mem) : Prop := forall x, 0 <= m x < 256.
Lemma octets_upd1 m a v : octets m -> 0 <= v < 256 -> octets (upd1 m a v).
Proof. intros H V x. unfold upd1. destruct (x =? a); auto. Qed.
Lemma octets_upds n : forall m a v, octets m -> octets (upds m a n v).
Proof. induction n as [|n IH]; intros m a v H; cbn [upds]; [exact H|]. apply IH. apply octets_upd1; [exact H|]. lia. Qed.
Lemma octets_zeros : octets zeros.
Proof. intros x. unfold zeros. lia. Qed.
Ltac octs := repeat first [apply octets_upds | apply octets_upd1; [|lia] | exact octets_zeros].

Ltac here := unfold prep_ctrl_ack, prep_dummy, upds, upd1, zeros; cbn -[Z.modulo Z.div Z.pow]; lia.
Ltac lstep := first
  [ rewrite live_octet; [|reflexivity|reflexivity|here]
  | rewrite live_word; [|assumption|first [left; reflexivity|right; reflexivity]|reflexivity|reflexivity]
  | rewrite live_bit; [|reflexivity|reflexivity|here]
  | rewrite live_absent; [|reflexivity|reflexivity|here]
  | rewrite live_present; [|reflexivity|reflexivity|here|reflexivity]
  | erewrite live_skip1; [|cbv beta iota; reflexivity]
  | erewrite live_type; [|reflexivity|repeat lstep; reflexivity]
  | erewrite live_bitmap64; [|reflexivity|reflexivity|assumption] ].
Lemma incl_b l R : forallb (fun x => existsb (Z.eqb x) R) l = true -> incl l R.
Proof.
  intros H x X. rewrite forallb_forall in H. apply H in X. apply existsb_exists in X as (y & Y & E).
  apply Z.eqb_eq in E. subst y. exact Y.
Qed.
Lemma carried_ctrl_ack tlli : 0 <= tlli < 2 ^ 32 -> exists R, carried (prep_ctrl_ack tlli) = Some R /\ incl [0; 1; 4; 5; 6; 7; 8] R.
Proof.
  intros H. assert (O : forall x, prep_ctrl_ack tlli x < 256) by (assert (octets (prep_ctrl_ack tlli)) by (unfold prep_ctrl_ack; octs); apply H0). eexists. unfold carried. change (prep_ctrl_ack tlli 0) with 1. cbn [ul_table]. split.
  - unfold Packet_Control_Acknowledgement_t. do 7 lstep. lstep. reflexivity.
  - apply incl_b. reflexivity.
Qed.
Lemma carried_dummy tlli : 0 <= tlli < 2 ^ 32 -> exists R, carried (prep_dummy tlli) = Some R /\ incl [0; 1; 4; 5; 6; 7] R.
Proof.
  intros H. assert (O : forall x, prep_dummy tlli x < 256) by (assert (octets (prep_dummy tlli)) by (unfold prep_dummy; octs); apply H0).
  eexists. unfold carried. change (prep_dummy tlli 0) with 3. cbn [ul_table]. split.
  - unfold Packet_Uplink_Dummy_Control_Block_t. do 5 lstep. reflexivity.
  - apply incl_b. reflexivity.
Qed.

Lemma octets_dan tfi final ssn rbb req : bytes rbb -> octets (prep_dl_ack_nack tfi final ssn rbb req).
Proof.
  intros B. assert (N : forall i, 0 <= nth i rbb 0 < 256).
  { intros i. destruct (Nat.ltb_spec i (length rbb)).
    - unfold bytes, byte in B. rewrite Forall_forall in B. apply B. apply nth_In. exact H.
    - rewrite nth_overflow by lia. lia. }
  assert (O : octets (fun x => if (7 <=? x) && (x <? 15) then nth (Z.to_nat (x - 7)) rbb 0
               else upd1 (upd1 (upd1 (upd1 (upd1 zeros 0 2) 1 1) 4 (tfi mod 256)) 5 (b2z final)) 6 (ssn mod 256) x)).
  { intros x. destruct ((7 <=? x) && (x <? 15)); [apply N|]. revert x. fold (octets (upd1 (upd1 (upd1 (upd1 (upd1 zeros 0 2) 1 1) 4 (tfi mod 256)) 5 (b2z final)) 6 (ssn mod 256))).
    assert (0 <= b2z final < 256) by (destruct final; cbn; lia). octs. }
  unfold prep_dl_ack_nack. destruct req as [[prio o]|]; [|exact O]. octs. exact O.
Qed.
Ltac here ::= unfold prep_ctrl_ack, prep_dummy, prep_dl_ack_nack, prep_resource_req, upds, upd1, zeros; cbn -[Z.modulo Z.div Z.pow Z.mul]; lia.
Lemma carried_dan tfi final ssn b0 b1 b2 b3 b4 b5 b6 b7 req :
  0 <= tfi < 32 -> 0 <= ssn < 128 -> bytes [b0; b1; b2; b3; b4; b5; b6; b7] ->
  (forall prio octets, req = Some (prio, octets) -> 0 <= prio < 4 /\ 0 <= octets < 2 ^ 16) ->
  exists R, carried (prep_dl_ack_nack tfi final ssn [b0; b1; b2; b3; b4; b5; b6; b7] req) = Some R /\
    incl ([0; 1; 4; 5; 6; 7; 8; 9; 10; 11; 12; 13; 14; 15] ++ match req with Some _ => [17; 20; 21] | None => [] end) R.
Proof.
  intros T S B Q.
  assert (O : forall x, prep_dl_ack_nack tfi final ssn [b0; b1; b2; b3; b4; b5; b6; b7] req x < 256) by apply (octets_dan _ _ _ _ _ B).
  assert (F : 0 <= b2z final < 2) by (destruct final; cbn; lia).
  destruct req as [[prio o]|]; eexists; unfold carried.
  - destruct (Q prio o eq_refl) as [P C]. clear Q.
    change (prep_dl_ack_nack tfi final ssn [b0; b1; b2; b3; b4; b5; b6; b7] (Some (prio, o)) 0) with 2. cbn [ul_table]. split.
    + unfold Packet_Downlink_Ack_Nack_t. do 5 lstep.
      erewrite live_type; [|destruct final; reflexivity|unfold Ack_Nack_Description_t; repeat lstep; reflexivity].
      lstep. 
      erewrite live_type; [|reflexivity|unfold Channel_Request_Description_t; repeat lstep; reflexivity].
      erewrite live_type; [|reflexivity|unfold Channel_Quality_Report_t; repeat lstep; reflexivity].
      do 2 lstep. reflexivity.
    + apply incl_b. reflexivity.
  - change (prep_dl_ack_nack tfi final ssn [b0; b1; b2; b3; b4; b5; b6; b7] None 0) with 2. cbn [ul_table]. split.
    + unfold Packet_Downlink_Ack_Nack_t. do 5 lstep.
      erewrite live_type; [|destruct final; reflexivity|unfold Ack_Nack_Description_t; repeat lstep; reflexivity].
      do 2 lstep.
      erewrite live_type; [|reflexivity|unfold Channel_Quality_Report_t; repeat lstep; reflexivity].
      do 2 lstep. reflexivity.
    + apply incl_b. reflexivity.
Qed.

Lemma octets_prr tlli queued acc : octets (prep_resource_req tlli queued acc).
Proof. unfold prep_resource_req. cbv zeta. destruct (acc =? 0); octs. Qed.
Lemma carried_prr tlli queued acc : 0 <= tlli < 2 ^ 32 -> 0 <= queued < 2 ^ 16 -> 0 <= acc < 4 ->
  exists R, carried (prep_resource_req tlli queued acc) = Some R /\
    incl [0; 1; 4; 5; 8; 12; 13; 14; 15; 778; 779; 780; 781; 782; 783] R.
Proof.
  intros H Q A. assert (O : forall x, prep_resource_req tlli queued acc x < 256) by apply octets_prr.
  assert (X : acc = 0 \/ acc = 1 \/ acc = 2 \/ acc = 3) by lia.
  destruct X as [ -> |[ -> |[ -> | -> ]]]; eexists; unfold carried;
    match goal with |- context [ul_table (?m 0)] => change (m 0) with 5 end; cbn [ul_table]; (split;
    [unfold Packet_Resource_Request_t; do 6 lstep;
      (erewrite live_type; [|reflexivity|apply live_prr_id; [reflexivity|reflexivity|reflexivity|reflexivity|exact O]]);
      lstep; (erewrite live_type; [|reflexivity|reflexivity]);
      (erewrite live_type; [|reflexivity|unfold Channel_Request_Description_t; repeat lstep; reflexivity]);
      reflexivity
    |apply incl_b; reflexivity]).
Qed.
