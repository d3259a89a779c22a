(** Proofs about the model of session management: the messages received, and what every step keeps. *)
From Verif.Lib Require Import Base Outcome.
From Verif.Sm Require Import SmModel SmProofs.

Lemma el_find_map pdu t L :
  el_find t (map (value_of pdu) L) =
  match tlv_find t L with Some (p, n) => Some (slice (Z.to_nat p) (Z.to_nat n) pdu) | None => None end.
Proof.
  induction L as [|[u [p n]] L IH]; [reflexivity|]. cbn [map tlv_find]. unfold value_of at 1. cbn [fst snd el_find].
  destruct (u =? t); [reflexivity|exact IH].
Qed.
Lemma tlv_find_in pdu t L p n : Forall (in_pdu pdu) L -> tlv_find t L = Some (p, n) -> 0 <= p /\ 0 <= n /\ p + n <= zlen pdu.
Proof.
  induction 1 as [|[u [p' n']] L H HF IH]; [discriminate|]. cbn [tlv_find]. destruct (u =? t); [|exact IH].
  intros [= -> ->]. exact H.
Qed.

(** The optional part of an answer of the network, and answers that do not lead outside an object. *)
Definition opt_part (pdu : list Z) : list Z :=
  if nth 1 pdu 0 =? 0x42 then skipn (Z.to_nat (5 + nth 3 pdu 0)) pdu else skipn 3 pdu.
Definition msg_ok (pdu : list Z) : Prop :=
  forall l, elements (opt_part pdu) l ->
    (forall v, el_find 0x27 l = Some v -> zlen v <= 253)
    /\ (forall v, nth 1 pdu 0 = 0x42 -> el_find 0x2b l = Some v -> 2 <= zlen v /\ (nth 1 v 0 = 0x8d -> zlen v <> 18)).

Lemma nth_slice a n k (l : list Z) : (k < n)%nat -> nth k (slice a n l) 0 = nth (a + k) l 0.
Proof.
  intros H. unfold slice. revert l. induction a as [|a IH]; intros l.
  - cbn [skipn Nat.add]. revert n k H. induction l as [|x l IHl]; intros n k H; [rewrite firstn_nil; reflexivity|].
    destruct n; [lia|]. destruct k; [reflexivity|]. cbn [firstn nth]. apply IHl. lia.
  - destruct l as [|x l]; [rewrite skipn_nil, firstn_nil; destruct k; reflexivity|]. cbn [skipn Nat.add nth]. apply IH.
Qed.

Definition UP (U : Prop) (P : Z) (C : Prop) : Prop := (U /\ P = 255) \/ (P = 253 /\ C).
Lemma UP_P U P C : UP U P C -> P <= 255 /\ (U \/ P <= 253).
Proof. intros [[H ->]|[-> H]]; split; [lia|left; exact H|lia|right; lia]. Qed.

Section One.
Context (U : Prop) (P m : Z).
Notation post i s := (fun x o z => fst x = i /\ o = [] /\ J P s (snd x)).

Lemma wp_rx_pco pdu L i s s' :
  bytes pdu -> Forall (in_pdu pdu) L -> UP U P (forall p n, tlv_find 0x27 L = Some (p, n) -> n <= 253) -> J P s s' ->
  wp U (rx_pco pdu L) (post i s) (i, s').
Proof.
  intros Hb HL HU HJ. unfold rx_pco, IE_PCO, SME_PCO_MAX.
  destruct (tlv_find 39 L) as [[p n]|] eqn:E.
  - destruct (tlv_find_in pdu 39 L p n HL E) as [A [B C]].
    destruct (255 <? n) eqn:En.
    { wpstep. repeat split; try reflexivity; apply HJ. }
    wpstep. apply wp_rdn; [right; lia|]. intros _ _ _. wpstep. wpstep. wpstep. cbn [fst snd app]. split; [reflexivity|]. split; [reflexivity|].
    apply J_pco; try assumption.
    + apply bytes_slice. exact Hb.
    + apply zlen_slice; lia.
    + destruct HU as [[_ ->]|[-> H]]; [lia|]. apply (H p n eq_refl).
    + apply (UP_P _ _ _ HU).
  - wpstep. repeat split; try reflexivity; apply HJ.
Qed.

Lemma wp_addr_dec pdu p n i s s' :
  0 <= p -> 0 <= n <= 255 -> p + n <= zlen pdu -> U \/ (2 <= n /\ (nth (Z.to_nat (p + 1)) pdu 0 = 0x8d -> n <> 18)) -> J P s s' ->
  wp U (pdp_addr_dec pdu p n) (fun x o z => fst x = i /\ o = [] /\ J P s (snd x)) (i, s').
Proof.
  intros Hp Hn Hpn HU HJ. unfold pdp_addr_dec, T_IPV4, T_IPV6, T_IPV4V6. wpstep. wpstep.
  assert (HJ1 : J P s (set_v6 None (set_v4 None s'))) by (apply J_v6, J_v4; exact HJ).
  remember (set_v6 None (set_v4 None s')) as s1 eqn:E1. clear E1.
  assert (G : forall s2 z, J P s s2 -> wp U (upd (set_atype z) ;; ret 0) (fun x o (_ : Z) => fst x = i /\ o = [] /\ J P s (snd x)) (i, s2)).
  { intros s2 z H2. repeat wpstep. cbn [fst snd app]. split; [reflexivity|]. split; [reflexivity|]. apply J_atype. exact H2. }
  assert (E : forall s2 z, J P s s2 -> wp U (ret z) (fun x o (_ : Z) => fst x = i /\ o = [] /\ J P s (snd x)) (i, s2)).
  { intros s2 z H2. wpstep. cbn [fst snd app]. split; [reflexivity|]. split; [reflexivity|]. exact H2. }
  wpstep. apply wp_rd; [destruct HU as [HU|HU]; [left; exact HU|right; lia]|]. intros Hr0. cbn [app].
  destruct (negb (Z.land (nth (Z.to_nat p) pdu 0) 15 =? 1)); [apply E; exact HJ1|].
  wpstep. apply wp_rd; [destruct HU as [HU|HU]; [left; exact HU|right; lia]|]. intros Hr1. cbn [app].
  set (t := nth (Z.to_nat (p + 1)) pdu 0) in *.
  assert (Hmod : 2 <= n -> (n - 2) mod 65536 = n - 2) by (intros; apply Z.mod_small; lia).
  assert (Hmod2 : n < 2 -> (n - 2) mod 65536 = n - 2 + 65536).
  { intros. symmetry. apply (Z.mod_unique _ _ (-1)); lia. }
  assert (R : forall k sz (s2 : sme) (f : list Z -> sme -> sme) (z : Z),
     U \/ (0 <= k /\ 0 <= sz /\ k + sz <= zlen pdu) -> J P s s2 -> (forall a s3, J P s s3 -> J P s (f a s3)) ->
     wp U (let* a := liftr (rdn pdu k sz) in upd (f a) ;; upd (set_atype z) ;; ret 0) (fun x o (_ : Z) => fst x = i /\ o = [] /\ J P s (snd x)) (i, s2)).
  { intros k sz s2 f z HUU H2 Hf. wpstep. apply wp_rdn; [exact HUU|]. intros _ _ _. wpstep. wpstep. cbn [app]. apply G. apply Hf. exact H2. }
  destruct (Z.lt_ge_cases n 2) as [Hlt|Hge].
  { rewrite (Hmod2 Hlt).
    replace (n - 2 + 65536 =? 4) with false by lia. replace (n - 2 + 65536 =? 0) with false by lia.
    replace (n - 2 + 65536 =? 16) with false by lia. replace (n - 2 + 65536 =? 20) with false by lia. cbn [negb].
    destruct (t =? 33); [apply E; exact HJ1|]. destruct (t =? 87); [apply E; exact HJ1|]. destruct (t =? 141); apply E; exact HJ1. }
  rewrite (Hmod Hge).
  destruct (t =? 33) eqn:T1.
  { destruct (n - 2 =? 4) eqn:L1.
    - apply (R (p + 2) 4 s1 (fun a => set_v4 (Some a)) t); [right; lia|exact HJ1|intros; apply J_v4; assumption].
    - destruct (negb (n - 2 =? 0)); [apply E|apply G]; exact HJ1. }
  destruct (t =? 87) eqn:T2.
  { destruct (n - 2 =? 16) eqn:L1.
    - apply (R (p + 2) 16 s1 (fun a => set_v6 (Some a)) t); [right; lia|exact HJ1|intros; apply J_v6; assumption].
    - destruct (negb (n - 2 =? 0)); [apply E|apply G]; exact HJ1. }
  destruct (t =? 141) eqn:T3; [|apply E; exact HJ1].
  destruct (n - 2 =? 4) eqn:L1.
  { apply (R (p + 2) 4 s1 (fun a => set_v4 (Some a)) t); [right; lia|exact HJ1|intros; apply J_v4; assumption]. }
  destruct (n - 2 =? 16) eqn:L2.
  { apply (R (p + 6) 16 s1 (fun a => set_v6 (Some a)) t); [|exact HJ1|intros; apply J_v6; assumption].
    destruct HU as [HU|[_ HU]]; [left; exact HU|]. exfalso. apply HU; lia. }
  destruct (n - 2 =? 20) eqn:L3.
  { wpstep. apply wp_rdn; [right; lia|]. intros _ _ _. wpstep. wpstep. cbn [app].
    apply (R (p + 6) 16 (set_v4 _ s1) (fun a => set_v6 (Some a)) t); [right; lia|apply J_v4; exact HJ1|intros; apply J_v6; assumption]. }
  destruct (negb (n - 2 =? 0)); [apply E|apply G]; exact HJ1.
Qed.

(** After a message: a refused one changes no more than parameters. *)
Definition rxpost (i : ids) (s : sme) (x : St) (o : list out) (z : Z) : Prop :=
  fst x = i /\ sme_ok P (snd x) /\ kept m s o (snd x) /\ (z < 0 -> o = [] /\ same s (snd x)).

Lemma wp_rx_end e i s s' :
  P <= 255 -> U \/ P <= 253 -> ev_ok e -> J P s s' ->
  wp U (let* rc := dispatch m e in if rc <? 0 then ret (- EINVAL) else ret rc) (rxpost i s) (i, s').
Proof.
  intros HP HU He [Hok Hs]. wpstep. eapply wp_weaken; [apply (dispatch_kept U m e P i s'); assumption|].
  intros [i' s2] o z [Hi [Hok2 [Hk Hz]]]. cbn [fst snd] in *. subst i'.
  assert (K : kept m s o s2) by (apply (kept_trans m s [] s' o s2); [apply same_kept; exact Hs|exact Hk]).
  destruct Hz as [->|[-> [-> ->]]].
  - change (0 <? 0) with false. cbv iota. wpstep. rewrite app_nil_r. unfold rxpost. cbn [fst snd]. split; [reflexivity|]. split; [assumption|]. split; [assumption|]. intros; lia.
  - change (-1 <? 0) with true. cbv iota. wpstep. rewrite app_nil_r. unfold rxpost. cbn [fst snd]. split; [reflexivity|]. split; [assumption|]. split; [assumption|].
    intros _. split; [reflexivity|exact Hs].
Qed.
Lemma wp_rx_bad i s s' : J P s s' -> wp U (ret (- EINVAL)) (rxpost i s) (i, s').
Proof.
  intros [Hok Hs]. wpstep. unfold rxpost. cbn [fst snd]. split; [reflexivity|]. split; [assumption|].
  split; [apply same_kept; exact Hs|]. intros _. split; [reflexivity|exact Hs].
Qed.

Lemma wp_rx_act_ack pdu i s :
  bytes pdu -> nth 1 pdu 0 = 0x42 -> UP U P (msg_ok pdu) -> sme_ok P s -> wp U (rx_act_ack m pdu) (rxpost i s) (i, s).
Proof.
  intros Hb Ht HU Hok. destruct (UP_P _ _ _ HU) as [HP HU']. unfold rx_act_ack, QOS_MAX.
  pose proof (J_refl P s Hok) as HJ0.
  destruct (zlen pdu <? 4) eqn:L4; [apply wp_rx_bad; exact HJ0|].
  wpstep. apply wp_rd; [right; lia|]. intros _. do 2 wpstep. cbn [app].
  assert (HJ1 : J P s (set_sapi (nth (Z.to_nat 2) pdu 0) s)) by (apply J_sapi; exact HJ0).
  remember (set_sapi (nth (Z.to_nat 2) pdu 0) s) as s1 eqn:E1. clear E1.
  wpstep. apply wp_rd; [right; lia|]. intros _. cbn [app]. change (Z.to_nat 3) with 3%nat.
  set (q := nth 3 pdu 0) in *. assert (Hq : 0 <= q < 256) by (apply nth_byte0; exact Hb).
  destruct (22 <? q) eqn:Lq; [apply wp_rx_bad; exact HJ1|].
  destruct (zlen pdu <? 4 + q) eqn:Lq4; [apply wp_rx_bad; exact HJ1|].
  wpstep. apply wp_rdn; [right; lia|]. intros _ _ _. do 2 wpstep. cbn [app].
  assert (HJ2 : J P s (set_qos (overlay (slice (Z.to_nat 4) (Z.to_nat q) pdu) (qos s1)) s1)).
  { apply J_qos; [apply bytes_slice; exact Hb|rewrite zlen_slice; lia|exact HJ1]. }
  remember (set_qos (overlay (slice (Z.to_nat 4) (Z.to_nat q) pdu) (qos s1)) s1) as s2 eqn:E2. clear E2.
  destruct (zlen pdu <? 5 + q) eqn:Lq5; [apply wp_rx_bad; exact HJ2|].
  wpstep. apply wp_rd; [right; lia|]. intros _. do 2 wpstep. cbn [app].
  assert (HJ3 : J P s (set_prio (nth (Z.to_nat (4 + q)) pdu 0) s2)) by (apply J_prio; exact HJ2).
  remember (set_prio (nth (Z.to_nat (4 + q)) pdu 0) s2) as s3 eqn:E3. clear E3.
  wpstep.
  apply (wp_weaken U _ (fun x o b => fst x = i /\ o = [] /\ J P s (snd x))).
  2:{ intros [i' s4] o b [Hi [-> HJ4]]. cbn [fst snd] in *. subst i'. destruct b; cbn [negb app]; [apply wp_rx_end; try assumption; exact I|apply wp_rx_bad; exact HJ4]. }
  destruct (5 + q <? zlen pdu) eqn:Lo.
  2:{ wpstep. repeat split; try reflexivity; apply HJ3. }
  destruct (tlv_parse (length pdu) pdu (5 + q)) as [L|] eqn:EL.
  2:{ wpstep. repeat split; try reflexivity; apply HJ3. }
  destruct (tlv_sound (length pdu) pdu (5 + q) L Hb ltac:(lia) ltac:(unfold zlen in *; lia) EL) as [Hel Hin].
  assert (HM : UP U P ((forall v, el_find 0x27 (map (value_of pdu) L) = Some v -> zlen v <= 253) /\
                (forall v, el_find 0x2b (map (value_of pdu) L) = Some v -> 2 <= zlen v /\ (nth 1 v 0 = 0x8d -> zlen v <> 18)))).
  { destruct HU as [HU|[-> HU]]; [left; exact HU|right]. split; [reflexivity|].
    destruct (HU (map (value_of pdu) L)) as [A B].
    - unfold opt_part. rewrite Ht. cbn [Z.eqb Pos.eqb]. exact Hel.
    - split; [exact A|]. intros v. apply B. exact Ht. }
  rewrite (el_find_map pdu 0x27 L), (el_find_map pdu 0x2b L) in HM. unfold IE_PDP_ADDR.
  wpstep. apply (wp_weaken U _ (fun x o (_ : Z) => fst x = i /\ o = [] /\ J P s (snd x))).
  - destruct (tlv_find 43 L) as [[p n]|] eqn:E43.
    + destruct (tlv_find_in pdu 43 L p n Hin E43) as [A [B C]].
      assert (Hn255 : n <= 255).
      { destruct (Z.le_gt_cases n 255) as [|K]; [assumption|exfalso].
        assert (G : el_find 0x2b (map (value_of pdu) L) = Some (slice (Z.to_nat p) (Z.to_nat n) pdu)) by (rewrite el_find_map, E43; reflexivity).
        clear - Hel G K B C A Hb.
        assert (F : forall w l, elements w l -> bytes w -> forall v, el_find 43 l = Some v -> zlen v <= 255).
        { clear. induction 1 as [|o r l H1 H2 IH|t a r l H1 H2 IH|t v r l H1 H2 H3 IH|t v r l H1 H2 IH]; intros Hb v0 Hf; cbn [el_find] in Hf.
          - discriminate.
          - change (128 =? 43) with false in Hf. inversion Hb; subst. apply IH; assumption.
          - replace (t =? 43) with false in Hf by (cbn [In] in H1; lia). inversion Hb as [|? ? ? Hb1]; subst. inversion Hb1; subst. apply IH; assumption.
          - subst t. change (71 =? 43) with false in Hf. inversion Hb as [|? ? ? Hb1]; subst. apply Forall_app in Hb1. apply IH; [apply Hb1|assumption].
          - inversion Hb as [|? ? ? Hb1]; subst. inversion Hb1 as [|? ? Hz Hb2]; subst. destruct (t =? 43).
            + injection Hf as <-. unfold byte in Hz. lia.
            + apply Forall_app in Hb2. apply IH; [apply Hb2|assumption]. }
        specialize (F _ _ Hel (Forall_skipn _ _ _ Hb) _ G). rewrite zlen_slice in F by lia. lia. }
      apply wp_addr_dec; [lia|lia|lia| |exact HJ3].
      destruct HM as [[HM _]|[_ [_ HM]]]; [left; exact HM|right].
      destruct (HM _ eq_refl) as [D E]. rewrite zlen_slice in D, E by lia. split; [exact D|].
      intros F. apply E. rewrite nth_slice by lia. replace (Z.to_nat p + 1)%nat with (Z.to_nat (p + 1)) by lia. exact F.
    + wpstep. repeat split; try reflexivity; apply HJ3.
  - intros [i' s4] o z [Hi [-> HJ4]]. cbn [fst snd] in *. subst i'. destruct (z <? 0).
    + wpstep. repeat split; try reflexivity; apply HJ4.
    + cbn [app]. apply wp_rx_pco; try assumption.
      destruct HM as [HM|[-> [HM _]]]; [left; exact HM|right]. split; [reflexivity|].
      intros p n E. rewrite E in HM. destruct (tlv_find_in pdu 39 L p n Hin E) as [A [B C]].
      specialize (HM _ eq_refl). rewrite zlen_slice in HM by lia. exact HM.
Qed.

Lemma wp_rx_act_rej pdu i s :
  bytes pdu -> nth 1 pdu 0 = 0x43 -> UP U P (msg_ok pdu) -> sme_ok P s -> wp U (rx_act_rej m pdu) (rxpost i s) (i, s).
Proof.
  intros Hb Ht HU Hok. destruct (UP_P _ _ _ HU) as [HP HU']. unfold rx_act_rej.
  pose proof (J_refl P s Hok) as HJ0.
  destruct (zlen pdu <? 3) eqn:L3; [apply wp_rx_bad; exact HJ0|].
  wpstep. apply wp_rd; [right; lia|]. intros _. cbn [app]. wpstep.
  apply (wp_weaken U _ (fun x o b => fst x = i /\ o = [] /\ J P s (snd x))).
  2:{ intros [i' s4] o b [Hi [-> HJ4]]. cbn [fst snd] in *. subst i'. destruct b; cbn [negb app]; [apply wp_rx_end; try assumption; exact I|apply wp_rx_bad; exact HJ4]. }
  destruct (3 <? zlen pdu) eqn:Lo.
  2:{ wpstep. repeat split; try reflexivity; apply HJ0. }
  destruct (tlv_parse (length pdu) pdu 3) as [L|] eqn:EL.
  2:{ wpstep. repeat split; try reflexivity; apply HJ0. }
  destruct (tlv_sound (length pdu) pdu 3 L Hb ltac:(lia) ltac:(unfold zlen in *; lia) EL) as [Hel Hin].
  apply wp_rx_pco; try assumption.
  destruct HU as [HU|[-> HU]]; [left; exact HU|right]. split; [reflexivity|].
  destruct (HU (map (value_of pdu) L)) as [A _].
  { unfold opt_part. rewrite Ht. cbn [Z.eqb Pos.eqb]. exact Hel. }
  intros p n E. rewrite el_find_map, E in A. destruct (tlv_find_in pdu 39 L p n Hin E) as [X [Y Z0]].
  specialize (A _ eq_refl). rewrite zlen_slice in A by lia. exact A.
Qed.

Lemma wp_sm_rx pdu i s :
  bytes pdu -> UP U P (msg_ok pdu) -> sme_ok P s -> wp U (sm_rx m pdu) (rxpost i s) (i, s).
Proof.
  intros Hb HU Hok. unfold sm_rx, MT_ACT_ACK, MT_ACT_REJ. pose proof (J_refl P s Hok) as HJ0.
  destruct (zlen pdu <? 2) eqn:L2; [apply wp_rx_bad; exact HJ0|].
  wpstep. apply wp_rd; [right; lia|]. intros _. cbn [app]. change (Z.to_nat 1) with 1%nat.
  destruct (nth 1 pdu 0 =? 66) eqn:T1; [apply wp_rx_act_ack; try assumption; lia|].
  destruct (nth 1 pdu 0 =? 67) eqn:T2; [apply wp_rx_act_rej; try assumption; lia|].
  apply wp_rx_bad. exact HJ0.
Qed.

(** *** The other inputs *)

Lemma wp_timer_cb i s :
  sme_ok P s -> fon s = true -> P <= 255 -> U \/ P <= 253 ->
  wp U (timer_cb m) (fun x o free => fst x = i /\
     (if free then st s = Inactive /\ o = [] else sme_ok P (snd x) /\ kept m s o (snd x))) (i, s).
Proof.
  intros Hok Hon HP HU. pose proof (ok_pre P s Hok) as Hp. unfold timer_cb. wpstep. wpstep. cbn [snd]. wpstep. wpstep.
  destruct (ok_st P s Hok) as [[S1 [S2 S3]]|[[S1 [S2 [S3 S4]]]|[S1 S2]]]; [| |congruence].
  - rewrite S2. change (0 =? 0) with true. cbv iota. wpstep. cbn [fst snd app]. repeat split. exact S1.
  - rewrite S2. change (3380 =? 0) with false. change (3380 =? 3380) with true. cbv iota. rewrite Z.mod_small by lia. wpstep. wpstep. rewrite S1.
    destruct (tries s + 1 =? 4) eqn:E4.
    + wpstep. unfold dispatch. wpstep. wpstep. cbn [snd set_tries set_fon st]. rewrite S1. cbn [permitted action].
      wpstep. wpstep. apply wp_chg_inactive; [cbn [set_tries set_fon st]; congruence|].
      assert (Hp' : sme_pre P (set_tries (tries s + 1) (set_fon false s))) by (destruct Hp; constructor; assumption).
      apply (wp_act_cnf U m CAUSE_TEMP_OOO P); [exact (ok_pre _ _ (sme_ok_inactive P _ Hp'))|exact HU|].
      wpstep. wpstep. cbn [fst snd app]. split; [reflexivity|]. split; [apply sme_ok_inactive; exact Hp'|].
      constructor; [reflexivity|reflexivity|unfold pend; rewrite S1; cbn; lia|].
      intros a b p v [C|[]]. unfold cnf_out in C. injection C. intros. subst. split; reflexivity.
    + wpstep. apply wp_chg_pending; [right; cbn [set_tries set_fon st]; exact S1|]. wpstep. cbn [fst snd app]. split; [reflexivity|].
      assert (Hp' : sme_pre P (set_tries (tries s + 1) (set_fon false s))) by (destruct Hp; constructor; assumption).
      split; [apply sme_ok_pending; [exact Hp'|cbn [set_tries tries]; lia]|].
      constructor; [reflexivity|reflexivity|unfold pend; rewrite S1; cbn; lia|].
      intros a b p v [C|[]]. discriminate C.
Qed.

Lemma wp_est_acc t sig l r i s :
  sme_ok P s -> P <= 255 -> U \/ P <= 253 ->
  wp U (est_acc m t sig l r) (fun x o z => sme_ok P (snd x) /\ kept m s o (snd x)) (i, s).
Proof.
  intros Hok HP HU. unfold est_acc. wpstep. wpstep. eapply wp_weaken; [apply (dispatch_kept U m EvEstCnf P); try assumption; exact I|].
  intros x o z [_ [A [B _]]]. split; assumption.
Qed.

Definition deact_out (s : sme) : out :=
  let p := slice 0 (Z.to_nat (plen s)) (pco s) in
  ODeactInd m (nsapi s) (nth 0 p 0) (nth 1 p 0x27) (firstn (Z.to_nat (plen s)) (skipn 2 p ++ repeat 0 253)).
Lemma wp_deact_ind i s (Q : St -> list out -> unit -> Prop) :
  sme_pre P s -> U \/ P <= 253 -> Q (i, s) [deact_out s] tt -> wp U (submit_deact_ind m CAUSE_REACT_RQD) Q (i, s).
Proof.
  intros Hp HU K. destruct Hp. unfold submit_deact_ind. do 2 wpstep. cbn [fst snd]. unfold PCO_MAX.
  destruct (253 <? plen s) eqn:E.
  { unfold wp, abort. destruct HU; [assumption|]. lia. }
  wpstep. apply wp_rdn; [right; lia|]. intros _ _ _. wpstep. exact K.
Qed.
Lemma wp_sn_deact_rsp i s :
  sme_ok P s -> P <= 255 -> U \/ P <= 253 ->
  wp U (sn_deact_rsp m) (fun x o z => fst x = i /\ sme_ok P (snd x) /\ kept m s o (snd x)) (i, s).
Proof.
  intros Hok HP HU. unfold sn_deact_rsp. wpstep. apply wp_deact_ind; [exact (ok_pre _ _ Hok)|exact HU|].
  eapply wp_weaken; [apply (dispatch_kept U m EvRelease P i s); try assumption; exact I|].
  intros x o z [A [B [C _]]]. split; [exact A|]. split; [exact B|]. destruct C as [C1 C2 C3 C4]. constructor; try assumption.
  intros a b p v [D|D]; [discriminate D|]. eauto.
Qed.

(** The members of a request have their C types; and a request that can be stored. *)
Record req_typed (q : actreq) : Prop := mkReqTyped {
  rq_qos : zlen (q_qos q) = 22; rq_qb : bytes (q_qos q); rq_qlen : 0 <= q_qlen q < 256;
  rq_pco : zlen (q_pco q) = 253; rq_pb : bytes (q_pco q); rq_plen : 0 <= q_plen q < 256; rq_nsapi : 0 <= q_nsapi q < 256 }.
Definition req_fits (q : actreq) : Prop := q_qlen q <= 22 /\ q_plen q <= 253.

Lemma wp_act_req q i id n :
  req_typed q -> U \/ req_fits q -> 253 <= P <= 255 ->
  wp U (act_req m q) (fun x o z => sme_ok P (snd x) /\ sess (snd x) = id /\ nsapi (snd x) = n /\ cnfs o = 0 /\ st (snd x) = Pending /\ z = 0
     /\ o = [est_out (fst x) (snd x)]) (i, new_sme id n).
Proof.
  intros [H1 H2 H3 H4 H5 H6 _] HU HP. unfold act_req. do 6 wpstep. wpstep.
  apply wp_rdn; [destruct HU as [HU|[HU1 HU2]]; [left; exact HU|right; lia]|]. intros _ _ Hq.
  do 2 wpstep. wpstep. apply wp_rdn; [destruct HU as [HU|[HU1 HU2]]; [left; exact HU|right; lia]|]. intros _ _ Hl. do 4 wpstep. cbn [app].
  unfold dispatch. do 2 wpstep. cbn [snd]. cbn [st set_sapi set_atype set_v4 set_v6 set_apn set_qlen set_qos set_plen set_pco new_sme permitted action].
  wpstep. apply wp_chg_pending; [left; reflexivity|]. wpstep.
  cbn [app fst snd]. split; [|repeat split; reflexivity].
  apply sme_ok_pending; [|cbn; lia]. constructor.
  - cbn [qos set_pco set_plen set_qos]. rewrite overlay_len; [reflexivity|]. rewrite zlen_slice by lia. cbn. lia.
  - cbn [qos set_pco set_plen set_qos]. apply overlay_bytes; [apply bytes_slice; exact H2|]. cbn [qos set_qlen set_apn set_v6 set_v4 set_atype set_sapi new_sme]. apply Forall_forall. intros x Hx. apply repeat_spec in Hx. subst x. unfold byte. lia.
  - cbn [qlen set_pco set_plen set_qos set_qlen]. lia.
  - cbn [pco set_pco]. rewrite overlay_len; [reflexivity|]. rewrite zlen_slice by lia. cbn. lia.
  - cbn [pco set_pco]. apply overlay_bytes; [apply bytes_slice; exact H5|]. cbn [pco set_plen set_qos set_qlen set_apn set_v6 set_v4 set_atype set_sapi new_sme]. apply Forall_forall. intros x Hx. apply repeat_spec in Hx. subst x. unfold byte. lia.
  - cbn [plen set_pco set_plen]. lia.
  - reflexivity.
Qed.
End One.
