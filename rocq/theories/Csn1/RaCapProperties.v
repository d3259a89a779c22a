(** C127: MS radio access capabilities: decoding stays inside the structure, and gives back what was encoded. *)
From Coq Require Import ZArith List Bool Lia.
From Verif Require Import Lib.Base Csn1.Csn1Model Csn1.Csn1EncModel Csn1.Csn1Tables Csn1.Csn1Check Csn1.Csn1Safe Csn1.Csn1Lax Csn1.Csn1DlModel Csn1.Csn1UlModel.
From Verif Require Import Csn1.Csn1UlProofs Csn1.Csn1Round Csn1.Csn1RoundProofs Csn1.Csn1UlMsgs Csn1.Csn1Properties Csn1.RaCapModel.
Import ListNotations.
Open Scope Z_scope.

(** C127: whatever octets (up to 255, the longest value of an information element) are decoded, every value is stored inside the
    member it belongs to, and nothing outside the structure of 760 octets is written. *)
Theorem C127_decode_contained : forall strict past bits len m, any_past past -> octet_mem m -> 0 <= len <= 255 ->
  contained 760 m (decode_ra_cap strict past bits len m).
Proof.
  intros strict past bits len m Hp Hm Hl. unfold decode_ra_cap, sz_ra_cap.
  assert (G : contained 760 m (decode true bits (8 * len) past 760 d_ra_cap (8 * len) 0 0 m)).
  { assert (U : safe_table 2040 760 d_ra_cap = true) by (vm_compute; reflexivity).
    pose proof (decode_safe bits (8 * len) past Hp d_ra_cap 760 2040 (8 * len) 0 0 m U ltac:(lia) ltac:(lia) Hm) as G.
    destruct (decode _ _ _ _ _ _ _ _ _ _) as [t|c|]; cbn [contained]; auto. apply G. }
  destruct strict; [exact G|].
  destruct (leq_call (dec true bits (8 * len) past 760 0 d_ra_cap run_mode) (dec false bits (8 * len) past 760 0 d_ra_cap run_mode) (mkcst (8 * len) 0 0 m)) as [U|U].
  - apply dec_leq; [apply same_refl|lia|constructor].
  - unfold decode in G. rewrite U in G. destruct G.
  - unfold decode in *. rewrite <- U. exact G.
Qed.

(** C127: the octets that hold a capability ([ra_cap_octets]) are decoded to the same values: those that the encoder writes when every value fits its
    field and the elements are not longer than their length fields can say ([live]); nothing else in the storage changes.  Missing
    for the full claim: values that do not fit, and vectors that are not zero. *)
Theorem C127_round_trip_partial : forall len m b r R, 0 <= len -> octet_mem m -> encode_ra_cap len m = EOk b r -> zlen b <= 8 * len ->
  live m true 760 0 d_ra_cap run_mode (8 * len) [] = Some R ->
  forall strict past m0, exists t, decode_ra_cap strict past (msg_bits (ra_cap_octets len b)) len m0 = DOk t /\
    (forall x, In x R -> s_mem t x = m x) /\ (forall x, ~ In x R -> s_mem t x = m0 x).
Proof.
  intros len m b r R HL mo E ZL K strict past m0. unfold encode_ra_cap in E.
  destruct (encode m d_ra_cap (8 * len)) as [b' r'| |] eqn:E1; try discriminate.
  destruct (0 <? r'); try discriminate. apply eok_inj in E as [<- <-].
  set (l := ra_cap_octets len b').
  assert (AT : at_ (msg_bits l) (8 * len) 0 b').
  { unfold at_. split; [lia|]. split; [lia|]. intros i Hi. rewrite Z.add_0_l.
    rewrite <- (Z2Nat.id i) at 1 by lia. unfold l, ra_cap_octets. unfold zlen in *.
    rewrite pack_bit; [|rewrite app_length, repeat_length; lia|lia]. rewrite app_nth1 by lia. reflexivity. }
  clearbody l. unfold encode in E1. unfold decode_ra_cap, sz_ra_cap, decode.
  destruct (round m mo m0 (msg_bits l) (8 * len) past d_ra_cap) as [PD _].
  specialize (PD true 760 0 run_mode (8 * len) [] Logic.I).
  pose proof (OK_call m mo m0 (msg_bits l) (8 * len) past true (8 * len) [] (enc m 0 d_ra_cap run_mode) _ _ PD) as Q.
  destruct (Q b' r' R (mkcst (8 * len) 0 0 m0) E1 K AT) as (_ & t & D & I & _).
  { cbn [s_rem]. lia. }
  { intros x. reflexivity. }
  exists t. split.
  { destruct strict; [exact D|].
    destruct (leq_call (dec true (msg_bits l) (8 * len) past 760 0 d_ra_cap run_mode) (dec false (msg_bits l) (8 * len) past 760 0 d_ra_cap run_mode) (mkcst (8 * len) 0 0 m0)) as [U|U].
    - apply dec_leq; [apply same_refl|lia|constructor].
    - unfold call in U, D. rewrite D in U. discriminate U.
    - exact (eq_trans (eq_sym U) D). }
  split.
  - intros x X. rewrite I. replace (existsb (Z.eqb x) R) with true; [reflexivity|]. symmetry. apply existsb_exists.
    exists x. split; [exact X|apply Z.eqb_refl].
  - intros x X. rewrite I. destruct (existsb (Z.eqb x) R) eqn:Y; [|reflexivity].
    apply existsb_exists in Y as (y & Y & Z1). apply Z.eqb_eq in Z1. subst y. contradiction.
Qed.

(** Non-vacuity: one GSM E capability with GPRS and EGPRS multislot class 3 (the values of the test suite), in twelve octets. *)
Definition gsm_e : mem := fun x => nth (Z.to_nat x) [1; 1; 1; 0; 0; 1; 0; 0; 0; 1; 0; 0; 1; 3; 0; 0; 0; 0; 0; 0; 1; 3] 0.
Example C127_case : exists b R, encode_ra_cap 12 gsm_e = EOk b 0 /\ ra_cap_octets 12 b = [0x18; 0x25; 0x14; 0x62; 0x30; 0; 0; 0; 0; 3; 0x2b; 0x2b] /\
  zlen b = 8 * 12 /\ live gsm_e true 760 0 d_ra_cap run_mode (8 * 12) [] = Some R /\ forallb (fun x => existsb (Z.eqb x) R) [0; 1; 2; 5; 9; 12; 13; 20; 21] = true.
Proof. eexists. eexists. split; [vm_compute; reflexivity|]. split; [vm_compute; reflexivity|]. split; [reflexivity|]. split; vm_compute; reflexivity. Qed.

Print Assumptions C127_decode_contained.
Print Assumptions C127_round_trip_partial.
