(** Theorems about the coding scheme tables (C21). *)
From Verif.Lib Require Import Base Outcome.
From Verif.Rlcmac Require Import CsModel.

(** *** Specification: octets of RLC data per data block and number of data blocks per radio block
    (TS 44.060 10.2.1, 10.3a.2; TS 43.064 table 6.5.5.1.2), CS-1..CS-4 then MCS-1..MCS-9. *)
Definition ts_octets : list (Z * Z) :=
  [(20, 1); (30, 1); (36, 1); (50, 1); (22, 1); (28, 1); (37, 1); (44, 1); (56, 1); (74, 1); (56, 2); (68, 2); (74, 2)].
Definition schemes : list Z := [1; 2; 3; 4; 5; 6; 7; 8; 9; 10; 11; 12; 13].

Lemma valid_In cs : is_valid cs = true <-> In cs schemes.
Proof. unfold is_valid, schemes. cbn [In]. lia. Qed.
Lemma each (P : Z -> Prop) : Forall P schemes -> forall cs, is_valid cs = true -> P cs.
Proof. intros H cs Hc. rewrite Forall_forall in H. apply H, valid_In, Hc. Qed.
Ltac sweep_schemes := intros cs Hcs; pattern cs; revert cs Hcs; apply each; unfold schemes; repeat apply Forall_cons; try apply Forall_nil.

(** *** C21: the block size determines the scheme and back, uplink ... *)
Theorem C21_uplink_size_determines_scheme :
  (forall cs, is_valid cs = true -> exists n, size_ul cs = Ok n /\ get_by_size n = cs) /\
  (forall n, get_by_size n <> 0 -> size_ul (get_by_size n) = Ok n).
Proof.
  split.
  - sweep_schemes; eexists; split; vm_compute; reflexivity.
  - intros n. unfold get_by_size.
    repeat match goal with |- context [if ?a =? ?b then _ else _] => destruct (Z.eqb_spec a b); [subst; intros _; vm_compute; reflexivity|] end.
    intros H. now destruct H.
Qed.
Print Assumptions C21_uplink_size_determines_scheme.
(** ... and downlink up to MCS-4. *)
Theorem C21_downlink_size_partial : forall cs, is_valid cs = true -> cs <= 8 -> exists n, size_dl cs = Ok n /\ get_by_size n = cs.
Proof. sweep_schemes; intros H; try (exfalso; lia); eexists; split; vm_compute; reflexivity. Qed.
Print Assumptions C21_downlink_size_partial.
(** From MCS-5 on, a downlink block of the size the table gives is not recognised. *)
Theorem C21_downlink_size_refuted : forall cs, 9 <= cs <= 13 -> exists n, size_dl cs = Ok n /\ get_by_size n = 0.
Proof.
  intros cs H. assert (Hv : is_valid cs = true) by (unfold is_valid; lia). revert cs Hv H.
  sweep_schemes; intros H; try (exfalso; lia); eexists; split; vm_compute; reflexivity.
Qed.
Print Assumptions C21_downlink_size_refuted.

(** *** Headers, data blocks and padding fill the radio block exactly: number and length of the data blocks are
    those of the standard, they lie one behind the other behind the header, each behind its own block header,
    and the last one ends with the radio block (8 bits per octet plus, for EGPRS, the extra bits). *)
Definition bits (cs : Z) (ul : bool) : res Z :=
  do m <- info cs; Ok (if ul then 8 * ul_bytes m + (if is_edge cs then ul_ext m else 0)
                       else 8 * dl_bytes m + (if is_edge cs then dl_ext m else 0)).
Theorem C21_layout_exact : forall cs, is_valid cs = true -> forall ul pad, exists len num o0 total,
  nth_error ts_octets (Z.to_nat (cs - 1)) = Some (len, num) /\ num_data_blocks cs = Ok num /\
  block_data_len cs false = Ok len /\ bits cs ul = Ok total /\
  exists plen, block_data_len cs pad = Ok plen /\ 17 <= plen <= len /\
  data_offs_bits cs pad ul 0 = Ok o0 /\ 24 <= o0 /\
  (num = 1 -> o0 + 8 * plen = total) /\
  (num = 2 -> exists o1, data_offs_bits cs pad ul 1 = Ok o1 /\ o0 + 8 * plen + 2 = o1 /\ o1 + 8 * plen = total).
Proof.
  sweep_schemes; intros ul pad; destruct ul, pad; do 4 eexists;
    (split; [vm_compute; reflexivity|]); (split; [vm_compute; reflexivity|]); (split; [vm_compute; reflexivity|]); (split; [vm_compute; reflexivity|]);
    eexists; (split; [vm_compute; reflexivity|]); (split; [lia|]); (split; [vm_compute; reflexivity|]); (split; [lia|]); (split; [lia|]);
    intros Hn; try (exfalso; lia); eexists; (split; [vm_compute; reflexivity|]); lia.
Qed.
Print Assumptions C21_layout_exact.
Example C21_layout_instance : data_offs_bits 13 false true 1 = Ok 642 /\ bits 13 true = Ok 1234 /\ block_data_len 7 true = Ok 31.
Proof. vm_compute. auto. Qed.

(** *** Which schemes belong to which kind, by their numbers: CS-1..CS-4 are 1..4, MCS-1..MCS-9 are 5..13, of which
    MCS-1..MCS-4 (5..8) are GMSK. *)
Definition of_kind (k : kind) (cs : Z) : Prop :=
  match k with K_GPRS => 1 <= cs <= 4 | K_EGPRS_GMSK => 5 <= cs <= 8 | K_EGPRS => 5 <= cs <= 13 end.
Theorem C21_kinds :
  (forall cs, is_valid cs = true <-> 1 <= cs <= 13) /\
  (forall k cs, is_compat_kind cs k = true <-> of_kind k cs) /\
  (forall x y, is_compat x y = true <-> exists k, of_kind k x /\ of_kind k y).
Proof.
  split; [unfold is_valid; intros; lia|]. split.
  - intros [] cs; cbn [is_compat_kind of_kind]; unfold is_gprs, is_edge_gmsk, is_edge; lia.
  - intros x y. unfold is_compat, is_gprs, is_edge. split.
    + intros H. assert (D : (1 <= x <= 4 /\ 1 <= y <= 4) \/ (5 <= x <= 13 /\ 5 <= y <= 13)) by lia.
      destruct D; [exists K_GPRS | exists K_EGPRS]; exact H0.
    + intros ([] & Hx & Hy); cbn [of_kind] in *; lia.
Qed.
Print Assumptions C21_kinds.

(** *** The number of a scheme determines it and back: CS-n exists for n = 1..4, MCS-n for n = 1..9, every other number
    is refused, and the channel coding command of CS-n or MCS-n is n - 1. *)
Theorem C21_numbers : forall n,
  (1 <= n <= 4 -> get_gprs_by_num n = n /\ chan_code (get_gprs_by_num n) = n - 1) /\
  (1 <= n <= 9 -> get_egprs_by_num n = 4 + n /\ chan_code (get_egprs_by_num n) = n - 1) /\
  (~ 1 <= n <= 4 -> get_gprs_by_num n = 0) /\ (~ 1 <= n <= 9 -> get_egprs_by_num n = 0).
Proof.
  intros n. unfold get_gprs_by_num, get_egprs_by_num.
  destruct ((n <? 1) || (4 <? n)) eqn:E1, ((n <? 1) || (9 <? n)) eqn:E2; (split; [intros H1|split; [intros H1|split; intros H1]]);
    try (exfalso; lia); try reflexivity; (split; [lia|]); unfold chan_code, is_gprs, is_edge;
    match goal with |- (if ?b then _ else _) = _ => destruct b eqn:E3 end; try lia;
    match goal with |- (if ?b then _ else _) = _ => destruct b eqn:E4 end; lia.
Qed.
Print Assumptions C21_numbers.
Example C21_numbers_instance : get_gprs_by_num 4 = 4 /\ get_gprs_by_num 5 = 0 /\ get_egprs_by_num 9 = 13 /\ chan_code 13 = 8.
Proof. vm_compute. auto. Qed.

(** *** Going up and down one step stays within GPRS or EGPRS, clips at the ends and is otherwise inverse; with a kind
    given, a scheme of that kind moves one step unless that leaves the kind, and any other scheme stays. *)
Theorem C21_up_down : forall cs, is_valid cs = true ->
  (exists k, of_kind k cs /\ of_kind k (inc cs) /\ of_kind k (dec cs)) /\
  (inc cs <> cs -> inc cs = cs + 1 /\ dec (inc cs) = cs) /\ (dec cs <> cs -> dec cs = cs - 1 /\ inc (dec cs) = cs) /\
  (inc cs = cs <-> cs = 4 \/ cs = 13) /\ (dec cs = cs <-> cs = 1 \/ cs = 5).
Proof.
  intros cs Hv. apply (proj1 C21_kinds) in Hv. split.
  - destruct (Z_le_gt_dec cs 4); [exists K_GPRS | exists K_EGPRS]; cbn [of_kind]; unfold inc, dec, is_gprs, is_edge, is_valid;
      repeat match goal with |- context [if ?b then _ else _] => destruct b eqn:? end; lia.
  - unfold inc, dec, is_gprs, is_edge, is_valid; repeat split; intros;
      repeat match goal with H : context [if ?b then _ else _] |- _ => destruct b eqn:? | |- context [if ?b then _ else _] => destruct b eqn:? end; lia.
Qed.
Print Assumptions C21_up_down.
Theorem C21_up_down_kind : forall cs k,
  (of_kind k cs -> of_kind k (cs + 1) -> inc_kind cs k = cs + 1) /\ (of_kind k cs -> of_kind k (cs - 1) -> dec_kind cs k = cs - 1) /\
  (~ (of_kind k cs /\ of_kind k (cs + 1)) -> inc_kind cs k = cs) /\ (~ (of_kind k cs /\ of_kind k (cs - 1)) -> dec_kind cs k = cs).
Proof.
  intros cs k. unfold inc_kind, dec_kind.
  pose proof (proj1 (proj2 C21_kinds) k cs). pose proof (proj1 (proj2 C21_kinds) k (cs + 1)). pose proof (proj1 (proj2 C21_kinds) k (cs - 1)).
  destruct (is_compat_kind cs k), (is_compat_kind (cs + 1) k), (is_compat_kind (cs - 1) k); intuition congruence.
Qed.
Print Assumptions C21_up_down_kind.
Example C21_up_down_instance : inc_kind 8 K_EGPRS_GMSK = 8 /\ inc_kind 8 K_EGPRS = 9 /\ dec_kind 5 K_EGPRS = 5 /\ inc 4 = 4.
Proof. vm_compute. auto. Qed.

(** *** A scheme with two data blocks reduced to one block: one block of the new scheme carries the octets of one block
    of the old one, with stuffing exactly when the new block is longer; every other scheme stays. *)
Theorem C21_single_block : forall cs, is_valid cs = true -> exists n m,
  block_data_len cs false = Ok n /\ block_data_len (fst (dec_to_single_block cs)) false = Ok m /\
  num_data_blocks (fst (dec_to_single_block cs)) = Ok 1 /\ n <= m /\ (snd (dec_to_single_block cs) = true <-> n < m) /\
  is_family_compat cs (fst (dec_to_single_block cs)) = Ok true /\
  (num_data_blocks cs = Ok 1 -> fst (dec_to_single_block cs) = cs).
Proof.
  sweep_schemes; do 2 eexists; (split; [vm_compute; reflexivity|]); (split; [vm_compute; reflexivity|]); (split; [vm_compute; reflexivity|]);
    (split; [lia|]); (split; [cbn; split; intros; congruence || lia|]); (split; [vm_compute; reflexivity|]); vm_compute; congruence.
Qed.
Print Assumptions C21_single_block.

(** *** A retransmission scheme exists for every pair of EGPRS schemes, belongs to the family of the initial one,
    and one block of it, or, with resegmentation, two blocks (the first possibly padded), carry exactly the
    octets of the block to be repeated. *)
Definition carries (init r : Z) (resegment : bool) : Prop := exists n,
  block_data_len init false = Ok n /\
  ((exists pad, block_data_len r pad = Ok n) \/
   (resegment = true /\ exists pad a b, block_data_len r pad = Ok a /\ block_data_len r false = Ok b /\ a + b = n)).
Lemma edge_each (P : Z -> Prop) : Forall P [5; 6; 7; 8; 9; 10; 11; 12; 13] -> forall cs, 5 <= cs <= 13 -> P cs.
Proof. intros H cs Hc. rewrite Forall_forall in H. apply H. cbn [In]. lia. Qed.
Theorem C21_retransmission_scheme : forall init cmd resegment, 5 <= init <= 13 -> 5 <= cmd <= 13 ->
  exists r, get_retx_mcs init cmd resegment = Ok r /\ 5 <= r <= 13 /\ is_family_compat init r = Ok true /\
    carries init r resegment /\ r <= Z.max init cmd.
Proof.
  intros init cmd resegment Hi Hc. revert cmd Hc. pattern init. revert init Hi. apply edge_each.
  repeat apply Forall_cons; try apply Forall_nil;
  (intros cmd Hc; pattern cmd; revert cmd Hc; apply edge_each; repeat apply Forall_cons; try apply Forall_nil);
  destruct resegment; eexists; (split; [vm_compute; reflexivity|]); (split; [lia|]); (split; [vm_compute; reflexivity|]); (split; [|lia]);
  eexists; (split; [vm_compute; reflexivity|]);
  first [left; exists false; vm_compute; reflexivity | left; exists true; vm_compute; reflexivity
        | right; split; [reflexivity|]; exists false; do 2 eexists; (split; [vm_compute; reflexivity|]); (split; [vm_compute; reflexivity|]); reflexivity
        | right; split; [reflexivity|]; exists true; do 2 eexists; (split; [vm_compute; reflexivity|]); (split; [vm_compute; reflexivity|]); reflexivity ].
Qed.
Print Assumptions C21_retransmission_scheme.
Example C21_retx_instance : get_retx_mcs 12 7 true = Ok 7 /\ carries 12 7 true.
Proof. split; [reflexivity|]. exists 68. split; [reflexivity|]. right. split; [reflexivity|]. exists true, 31, 37. auto. Qed.
