(** C128: every element of an MS RA capability takes as many bits of the message as its length field says. *)
From Coq Require Import ZArith List Bool Lia.
From Verif Require Import Lib.Base Csn1.Csn1Model Csn1.Csn1EncModel Csn1.Csn1Tables Csn1.Csn1Check Csn1.Csn1Safe Csn1.Csn1Lax Csn1.Csn1DlModel Csn1.Csn1UlModel.
From Verif Require Import Csn1.Csn1Properties Csn1.RaCapModel Csn1.RaCapProperties Csn1.RaCapFrameSpec Csn1.RaCapFrameProofs.
Import ListNotations.
Open Scope Z_scope.

(** What the claim says of one vector: when it is decoded, the count and the kind of each element in the structure are those of the
    elements that the length fields mark off, which lie in the vector.  The structure: the count at 0, element [k] from 1 + 69 k, its kind first. *)
Definition elements_kept (strict : bool) (past : Z -> Z -> Z * Z) (bits : Z -> bool) (len : Z) (m : mem) (l : list (Z * Z)) (q : Z) : Prop :=
  forall t, decode_ra_cap strict past bits len m = DOk t ->
    q <= 8 * len /\ s_mem t 0 = zlen l /\ forall k e, nth_error l k = Some e -> s_mem t (1 + 69 * Z.of_nat k) = index_of (fst e).

(** C128 (partial): so it is when no length is 0, whatever the contents are: known or not, cut short or longer than known.  Missing for the
    full claim: a length of 0, of which it is false (below). *)
Theorem C128_elements_partial : forall strict past bits len m l q, any_past past -> octet_mem m -> 0 <= len <= 255 ->
  elements bits 0 l q -> (forall e, In e l -> 0 < snd e) -> elements_kept strict past bits len m l q.
Proof.
  assert (G : forall past bits len m l q, any_past past -> octet_mem m -> 0 <= len <= 255 ->
    elements bits 0 l q -> (forall e, In e l -> 0 < snd e) -> elements_kept true past bits len m l q).
  { intros past bits len m l q Hp Hm Hl He Hz t H. unfold decode_ra_cap, decode, sz_ra_cap in H.
    apply call_ok in H as [_ H]. unfold d_ra_cap in H.
    rewrite rectarr_step in H. change (S (Z.to_nat 11)) with 12%nat in H. change (inner true 760 0 1 759) with 760 in H.
    apply after_ok in H as (u & E & R & H).
    apply (elements_frame bits (8 * len) past Hp 0 l q He Hz (8 * len)) in E; cbn [s_ri s_rem s_mem]; try lia; auto.
    2:{ unfold pos. cbn [s_ri s_rem]. lia. }
    assert (M : s_mem t = s_mem u).
    { eapply pad_step, H. }
    rewrite M. destruct E as (E1 & E2 & E3 & _). split; [exact E1|]. split; [exact E2|].
    intros k e Hk. rewrite <- (E3 k e Hk). f_equal. }
  intros strict past bits len m l q Hp Hm Hl He Hz. destruct strict; [apply G; assumption|].
  intros t H. apply (G past bits len m l q Hp Hm Hl He Hz t). rewrite <- H.
  destruct (leq_call (dec true bits (8 * len) past 760 0 d_ra_cap run_mode) (dec false bits (8 * len) past 760 0 d_ra_cap run_mode) (mkcst (8 * len) 0 0 m)) as [U|U].
  - apply dec_leq; [apply same_refl|lia|constructor].
  - exfalso. pose proof (C127_decode_contained true past bits len m Hp Hm Hl) as C. unfold decode_ra_cap, decode, sz_ra_cap in C.
    rewrite U in C. exact C.
  - exact U.
Qed.

(** Two elements, GSM E with a length of 0 and GSM 1800 with three bits of contents: the vector is accepted, but the bits of the second
    element are taken for the contents of the first, and the structure holds one element. *)
Definition empty_first : list Z := [0x10; 0x13; 0x07; 0x40; 0; 0; 0; 0; 0; 0; 0; 0].
Definition no_mem : mem := fun _ => 0.
Definition no_past (_ _ : Z) : Z * Z := (0, 0).
Theorem C128_elements_refuted : exists past bits len m l q, any_past past /\ octet_mem m /\ 0 <= len <= 255 /\ elements bits 0 l q /\
  q <= 8 * len /\ (forall strict, exists t, decode_ra_cap strict past bits len m = DOk t) /\ forall strict, ~ elements_kept strict past bits len m l q.
Proof.
  assert (D : forall strict, exists t, decode_ra_cap strict no_past (msg_bits empty_first) 12 no_mem = DOk t /\ s_mem t 0 = 1).
  { intros strict. destruct strict; eexists; (split; [lazy; reflexivity|reflexivity]). }
  exists no_past, (msg_bits empty_first), 12, no_mem, [(1, 0); (3, 3)], 27.
  split. { intros ri n Hn. cbn [no_past fst]. pose proof (Z.pow_pos_nonneg 2 n). lia. }
  split. { intros x. unfold no_mem. lia. }
  split; [lia|]. split.
  { apply (el_more (msg_bits empty_first) 0 0); [reflexivity|reflexivity|].
    apply (el_last (msg_bits empty_first) 12 3); reflexivity. }
  split; [lia|]. split.
  - intros strict. destruct (D strict) as (t & T & _). eauto.
  - intros strict K. destruct (D strict) as (t & T & C). destruct (K t T) as (_ & Z0 & _). rewrite C in Z0. discriminate Z0.
Qed.

(** Non-vacuity: the same two elements, the first with three bits of contents. *)
Definition two : list Z := [0x10; 0x72; 0x60; 0xe8; 0; 0; 0; 0; 0; 0; 0; 0].
Example C128_case : elements (msg_bits two) 0 [(1, 3); (3, 3)] 30 /\
  exists t, decode_ra_cap true no_past (msg_bits two) 12 no_mem = DOk t /\ s_mem t 0 = 2 /\ s_mem t 1 = 1 /\ s_mem t 70 = 3.
Proof.
  split.
  - apply (el_more (msg_bits two) 0 3); [reflexivity|reflexivity|]. apply (el_last (msg_bits two) 15 3); reflexivity.
  - eexists. split; [lazy; reflexivity|]. repeat split.
Qed.

Print Assumptions C128_elements_partial.
Print Assumptions C128_elements_refuted.
