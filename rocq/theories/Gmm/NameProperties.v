(** C129: the network name that GMM INFORMATION carries is stored. *)
From Coq Require Import ZArith List Bool Lia.
From Verif Require Import Lib.Base Lib.Outcome Gmm.GmmModel Gmm.GmmDemo Gmm.NameModel Gmm.NameSpec.
Import ListNotations.
Open Scope Z_scope.

(** What any version of tlv_parse does: it reports no element that the table it is given does not have. *)
Definition only_known (tlv : list Z -> option (Z -> option (list Z))) : Prop :=
  forall l p t v, tlv l = Some p -> p t = Some v -> In t gmm_tags.

(** C129 (refuted): no message ever changes a name, whatever it carries: the table that GMM messages are parsed with has no entry for
    names (it is the table of session management that has them). *)
Theorem C129_stored_refuted : forall tlv text, only_known tlv -> forall pdu n r n', rx_info tlv text pdu n = Ok (r, n') -> n' = n.
Proof.
  intros tlv text K pdu n r n' H. unfold rx_info in H. destruct (zlen pdu <=? 2); [injection H as _ <-; reflexivity|].
  destruct (tlv (skipn 2 pdu)) as [p|] eqn:E; [|injection H as _ <-; reflexivity].
  assert (N : forall t, ~ In t gmm_tags -> p t = None).
  { intros t T. destruct (p t) as [v|] eqn:V; [|reflexivity]. exfalso. apply T. exact (K _ _ _ _ E V). }
  unfold rx_name in H. rewrite (N NAME_FULL), (N NAME_SHORT) in H.
  - cbn [bind] in H. injection H as _ <-. destruct n; reflexivity.
  - cbv. intuition discriminate.
  - cbv. intuition discriminate.
Qed.

(** *** The decoder of names *)
Lemma octets_number k : forall v, 0 <= v < 256 ^ Z.of_nat k -> number_of (octets_of k v) = v.
Proof.
  induction k as [|k IH]; intros v H; cbn [octets_of number_of].
  - change (256 ^ Z.of_nat 0) with 1 in H. lia.
  - rewrite IH; [pose proof (Z.div_mod v 256); lia|].
    replace (Z.of_nat (S k)) with (Z.of_nat k + 1) in H by lia. rewrite Z.pow_add_r in H by lia.
    split; [apply Z.div_pos; lia|apply Z.div_lt_upper_bound; lia].
Qed.
Lemma octets_len k : forall v, zlen (octets_of k v) = Z.of_nat k.
Proof. induction k as [|k IH]; intros v; [reflexivity|]. cbn [octets_of]. rewrite zlen_cons, IH. lia. Qed.
Lemma number_app l r : exists y, number_of (l ++ r) = number_of l + 256 ^ zlen l * y.
Proof.
  induction l as [|x l [y IH]]; [exists (number_of r); cbn; unfold zlen; cbn [length Z.of_nat]; change (256 ^ 0) with 1; destruct (number_of r); lia|].
  exists y. cbn [app number_of]. rewrite IH, zlen_cons. rewrite (Z.pow_add_r 256) by (unfold zlen; lia). change (256 ^ 1) with 256. ring.
Qed.
Lemma seven_bound cs : Forall (fun c => 0 <= c < 128) cs -> 0 <= seven cs < 128 ^ zlen cs.
Proof.
  induction 1 as [|c cs C _ IH]; [cbn; lia|]. cbn [seven]. rewrite zlen_cons, Z.pow_add_r by (unfold zlen; lia). lia.
Qed.
(** Characters come back, whatever stands above them. *)
Lemma characters_seven cs : Forall (fun c => 0 <= c < 128) cs -> forall y, characters (length cs) (seven cs + 128 ^ zlen cs * y) = cs.
Proof.
  induction 1 as [|c cs C _ IH]; intros y; [reflexivity|]. cbn [length characters seven].
  replace (c + 128 * seven cs + 128 ^ zlen (c :: cs) * y) with (c + (seven cs + 128 ^ zlen cs * y) * 128)
    by (rewrite zlen_cons, Z.pow_add_r by (unfold zlen; lia); ring).
  rewrite Z.mod_add, Z.mod_small by lia. rewrite Z.div_add, Z.div_small by lia. rewrite Z.add_0_l, IH. reflexivity.
Qed.
Lemma count_facts n : 0 <= n -> 0 <= octet_count n /\ 0 <= spare_bits n < 8 /\ 8 * octet_count n = 7 * n + spare_bits n.
Proof. intros H. unfold spare_bits, octet_count. Z.to_euclidean_division_equations; lia. Qed.
Lemma header_facts (ci : bool) s : 0 <= s < 8 -> Z.land (128 + (if ci then 8 else 0) + s) 0x70 = 0 /\ Z.land (128 + (if ci then 8 else 0) + s) 0x03 = s mod 4.
Proof.
  intros H. assert (D : s = 0 \/ s = 1 \/ s = 2 \/ s = 3 \/ s = 4 \/ s = 5 \/ s = 6 \/ s = 7) by lia. clear H.
  destruct ci; repeat destruct D as [D|D]; subst s; split; reflexivity.
Qed.

(** C129 (partial): a name of at least one character, coded as the standard says, is decoded to its characters, also when other octets follow
    it in the message.  Missing for the full claim: the entries of the table. *)
Theorem C129_name_decoded_partial : forall text size ci cs rest, cs <> [] -> Forall (fun c => 0 <= c < 128) cs ->
  decode_name text size (zlen (name_value ci cs) :: name_value ci cs ++ rest) = Ok (zlen cs, text size cs).
Proof.
  intros text size ci cs rest NE F. unfold name_value. fold (zlen cs).
  assert (NP : 0 < zlen cs) by (destruct cs; [congruence|rewrite zlen_cons; unfold zlen; lia]).
  destruct (count_facts (zlen cs) ltac:(lia)) as (A & B & C).
  set (k := octet_count (zlen cs)) in *. set (s := spare_bits (zlen cs)) in *.
  unfold decode_name. rewrite zlen_cons, octets_len, Z2Nat.id by lia. rewrite (proj2 (Z.ltb_ge (k + 1) 1)) by lia.
  cbn [app]. destruct (header_facts ci s B) as [H1 H2]. rewrite H1, H2. cbn [Z.eqb negb]. cbv zeta.
  replace (Z.quot ((k + 1 - 1) * 8 - s mod 4) 7) with (zlen cs) by (clearbody k s; Z.to_euclidean_division_equations; lia).
  rewrite (proj2 (Z.leb_gt (zlen cs) 0)) by lia. rewrite zlen_app, octets_len, Z2Nat.id by lia.
  change ((7 * zlen cs + 7) / 8) with k. rewrite (proj2 (Z.ltb_ge _ k)) by (unfold zlen; lia).
  do 3 f_equal. destruct (number_app (octets_of (Z.to_nat k) (seven cs)) rest) as [y Y]. rewrite Y.
  pose proof (seven_bound cs F) as SB. rewrite octets_len, Z2Nat.id by lia.
  assert (P : 256 ^ k = 128 ^ zlen cs * 2 ^ s).
  { change 256 with (2 ^ 8). change 128 with (2 ^ 7). rewrite <- !Z.pow_mul_r, <- Z.pow_add_r by lia. f_equal. lia. }
  rewrite octets_number.
  2:{ rewrite Z2Nat.id, P by lia. pose proof (Z.pow_pos_nonneg 2 s ltac:(lia) ltac:(lia)). nia. }
  rewrite P, <- Z.mul_assoc. replace (Z.to_nat (zlen cs)) with (length cs) by (unfold zlen; lia).
  apply characters_seven. exact F.
Qed.

(** C129 (partial): when the parser reports the element, the name is stored.  Missing for the full claim: the entries of the table. *)
Theorem C129_name_kept_partial : forall tlv text pdu p n ci cs, tlv (skipn 2 pdu) = Some p -> 2 < zlen pdu ->
  p NAME_FULL = Some (name_value ci cs) -> p NAME_SHORT = None -> cs <> [] -> Forall (fun c => 0 <= c < 128) cs ->
  rx_info tlv text pdu n = Ok (0, mkNames (text 32 cs) (name_short n)).
Proof.
  intros tlv text pdu p n ci cs T L P S NE F. unfold rx_info. rewrite (proj2 (Z.leb_gt _ _)) by lia. rewrite T.
  unfold rx_name. rewrite P, S. rewrite <- (app_nil_r (name_value ci cs)) at 2.
  rewrite C129_name_decoded_partial by assumption. reflexivity.
Qed.

(** C129 (partial): whatever a network sends as name, nothing is read beyond the element. *)
Theorem C129_name_contained_partial : forall text size v, Forall (fun x => 0 <= x < 256) v -> exists r t, decode_name text size (zlen v :: v) = Ok (r, t).
Proof.
  intros text size v F. unfold decode_name. destruct (Z.ltb_spec (zlen v) 1); [eauto|].
  destruct v as [|h data]; [cbn in H; lia|]. destruct (negb _); [eauto|]. cbv zeta.
  destruct (Z.leb_spec (Z.quot ((zlen (h :: data) - 1) * 8 - Z.land h 0x03) 7) 0); [eauto|].
  assert (0 <= Z.land h 0x03) by (apply Z.land_nonneg; lia). rewrite zlen_cons in *.
  rewrite (proj2 (Z.ltb_ge (zlen data) _)); [eauto|]. Z.to_euclidean_division_equations; lia.
Qed.

(** Non-vacuity: the parser of the examples of GMM meets the hypothesis; it accepts an element of the table and refuses a message with a name.
    The same message, parsed with the element known, gives the name "Osmocom". *)
Definition osmocom : list Z := [79; 115; 109; 111; 99; 111; 109].
Example C129_case : only_known demo_tlv /\ (exists p, demo_tlv [0x26; 1; 7] = Some p /\ p 0x26 = Some [7]) /\
  name_value false osmocom = [0x87; 0xcf; 0x79; 0xfb; 0x3d; 0x7e; 0xb7; 0x01] /\
  rx_info demo_tlv (fun _ s => s) ([8; 0x21; 0x43; 8] ++ name_value false osmocom) (mkNames [] []) = Ok (-22, mkNames [] []) /\
  rx_info (fun _ => Some (fun t => if t =? 0x43 then Some (name_value false osmocom) else None)) (fun _ s => s)
    ([8; 0x21; 0x43; 8] ++ name_value false osmocom) (mkNames [] []) = Ok (0, mkNames osmocom []).
Proof.
  split; [|split; [eexists; split; reflexivity|repeat split; reflexivity]].
  intros l p t v H V. unfold demo_tlv in H. destruct (parse (length l) l) as [x|] eqn:P; [|discriminate]. injection H as <-.
  assert (G : forall f l x, parse f l = Some x -> Forall (fun e => In (fst e) gmm_tags) x).
  { clear. induction f as [|f IH]; intros l x H; destruct l as [|a r]; cbn [parse] in H; try discriminate; try (injection H as <-; constructor).
    destruct (0x7f <? a).
    - destruct (existsb _ _) eqn:X; [|discriminate]. destruct (parse f r) as [y|] eqn:Y; [|discriminate]. injection H as <-.
      constructor; [|eapply IH; eauto]. cbn [fst]. cbn [existsb] in X. rewrite !orb_true_iff, !Z.eqb_eq in X.
      destruct X as [->|[->|[->|X]]]; [cbv; tauto|cbv; tauto|cbv; tauto|discriminate].
    - unfold fixed_len in H.
      destruct (Z.eqb_spec a 0x17); [subst a|destruct (Z.eqb_spec a 0x25); [subst a|destruct (Z.eqb_spec a 0x19); [subst a|destruct (Z.eqb_spec a 0x21);
        [subst a|destruct (Z.eqb_spec a 0x22); [subst a|destruct (Z.eqb_spec a 0x27); [subst a|]]]]]]; cbn [orb] in H.
      1-6: destruct (Nat.leb _ _); try discriminate; destruct (parse f _) as [y|] eqn:Y; try discriminate; injection H as <-;
           constructor; [cbv; tauto|eapply IH; eauto].
      destruct (lv_tag a) eqn:LT; [|discriminate]. destruct r as [|k v]; [discriminate|]. destruct (k <=? zlen v); [|discriminate].
      destruct (parse f _) as [y|] eqn:Y; [|discriminate]. injection H as <-. constructor; [|eapply IH; eauto].
      cbn [fst]. unfold lv_tag in LT. apply existsb_exists in LT as (z & Z1 & Z2). apply Z.eqb_eq in Z2. subst z.
      cbv in Z1 |- *. tauto. }
  specialize (G _ _ _ P). clear P. induction G as [|[u w] x U _ IH]; cbn [look] in V; [discriminate|].
  destruct (Z.eqb_spec u t); [subst; exact U|auto].
Qed.

Print Assumptions C129_stored_refuted.
Print Assumptions C129_name_decoded_partial.
Print Assumptions C129_name_kept_partial.
Print Assumptions C129_name_contained_partial.
