(** Messages of the network leave the identities of the mobiles as they are, and their first octet is not looked at. *)
From Verif.Lib Require Import Base Outcome.
From Verif.Sm Require Import SmModel SmProofs.

Definition idle {X} (m : M X) : Prop := forall x, match m x with Ok (y, _, _) => fst y = fst x | _ => True end.
Lemma id_ret {X} (a : X) : idle (ret a). Proof. intros x. reflexivity. Qed.
Lemma id_gets {X} (f : St -> X) : idle (gets f). Proof. intros x. reflexivity. Qed.
Lemma id_upd f : idle (upd f). Proof. intros x. reflexivity. Qed.
Lemma id_send o : idle (send o). Proof. intros x. reflexivity. Qed.
Lemma id_abort {X} : idle (@abort X). Proof. intros x. exact I. Qed.
Lemma id_liftr {X} (r : res X) : idle (liftr r). Proof. intros x. unfold liftr. destruct r; reflexivity. Qed.
Lemma id_bind {X Y} (m : M X) (f : X -> M Y) : idle m -> (forall a, idle (f a)) -> idle (bindM m f).
Proof.
  intros H K x. unfold bindM. specialize (H x). destruct (m x) as [[[s1 o1] a]| |]; try exact I.
  specialize (K a s1). destruct (f a s1) as [[[s2 o2] b]| |]; try exact I. congruence.
Qed.
Ltac idl := repeat match goal with
  | |- idle (ret _) => apply id_ret | |- idle (gets _) => apply id_gets | |- idle (upd _) => apply id_upd | |- idle (send _) => apply id_send
  | |- idle (liftr _) => apply id_liftr | |- idle abort => apply id_abort
  | |- idle (bindM _ _) => apply id_bind; [|intros ?]
  | |- idle (if ?b then _ else _) => destruct b end.
Lemma id_est : idle submit_est_req. Proof. unfold submit_est_req. idl. Qed.
Lemma id_cnf m c : idle (submit_act_cnf m c). Proof. unfold submit_act_cnf. idl. Qed.
Lemma id_sn : idle submit_sn_act. Proof. unfold submit_sn_act. idl. Qed.
Lemma id_tx m : idle (tx_act_req m). Proof. unfold tx_act_req. idl. Qed.
Lemma id_chg t : idle (state_chg t). Proof. unfold state_chg. idl. destruct t; idl. apply id_est. Qed.
Lemma id_dispatch m e : idle (dispatch m e).
Proof.
  unfold dispatch. idl. destruct (st a), e; cbn [action]; idl;
    first [apply id_chg | apply id_tx | apply id_cnf | apply id_sn].
Qed.
Lemma id_pco pdu l : idle (rx_pco pdu l).
Proof. unfold rx_pco. destruct (tlv_find _ l) as [[p n]|]; idl. Qed.
Lemma id_addr pdu p n : idle (pdp_addr_dec pdu p n).
Proof. unfold pdp_addr_dec. idl. Qed.
Lemma id_rx m pdu : idle (sm_rx m pdu).
Proof.
  unfold sm_rx, rx_act_ack, rx_act_rej. idl; try apply id_dispatch.
  - destruct (tlv_parse _ _ _); idl; [|apply id_pco]. destruct (tlv_find _ _) as [[p n]|]; [apply id_addr|idl].
  - destruct (tlv_parse _ _ _); [apply id_pco|idl].
Qed.

Lemma on_ms_ids p f l :
  (forall m, match f m with Ok (m', _, _) => (mid m', gid m') = (mid m, gid m) | _ => True end) ->
  match on_ms p f l with Some (Ok (l', _, _)) => map (fun m => (mid m, gid m)) l' = map (fun m => (mid m, gid m)) l | _ => True end.
Proof.
  intros H. induction l as [|m l IH]; cbn [on_ms]; [exact I|]. destruct (p m).
  - specialize (H m). destruct (f m) as [[[m' o] z]| |]; [cbn [map]; congruence|exact I|exact I].
  - destruct (on_ms p f l) as [[[[r o] z]| |]|]; [cbn [map]; congruence|exact I|exact I|exact I].
Qed.
Lemma unit_ids c i pdu c' o z : step c (IUnit i pdu) = Ok (c', o, z) -> map (fun m => (mid m, gid m)) (mss c') = map (fun m => (mid m, gid m)) (mss c).
Proof.
  cbn [step]. unfold on_sess.
  match goal with |- context [on_ms ?p ?g ?l] => pose proof (on_ms_ids p g l) as K; destruct (on_ms p g l) as [[[[r y] w]| |]|] end; try discriminate.
  - intros [= <- <- <-]. apply K. intros m. destruct (slot_of i 0 (pdp m)) as [k|]; [|exact I]. unfold on_slot.
    destruct (nth _ (pdp m) None) as [s|]; [|exact I]. pose proof (id_rx (mid m) pdu (gid m, s)) as G.
    destruct (sm_rx (mid m) pdu (gid m, s)) as [[[[g s'] o'] z']| |]; [|exact I|exact I]. cbn [fst] in G. cbn [mid gid]. congruence.
  - intros [= <- <- <-]. reflexivity.
Qed.

(** ** The first octet *)
Section Head.
Context (a b : Z) (r : list Z).
Lemma hd_rd k : 1 <= k -> rd (a :: r) k = rd (b :: r) k.
Proof.
  intros H. unfold rd. rewrite !zlen_cons. destruct (_ && _); [|reflexivity].
  replace (Z.to_nat k) with (S (Z.to_nat (k - 1))) by lia. reflexivity.
Qed.
Lemma hd_rdn k n : 1 <= k -> rdn (a :: r) k n = rdn (b :: r) k n.
Proof.
  intros H. unfold rdn. rewrite !zlen_cons. destruct (_ && _ && _); [|reflexivity]. unfold slice.
  replace (Z.to_nat k) with (S (Z.to_nat (k - 1))) by lia. reflexivity.
Qed.
Lemma hd_nth k : 1 <= k -> nth (Z.to_nat k) (a :: r) 0 = nth (Z.to_nat k) (b :: r) 0.
Proof. intros H. replace (Z.to_nat k) with (S (Z.to_nat (k - 1))) by lia. reflexivity. Qed.
Lemma ie_len t n : ie_def t = IFixed n -> 0 <= n.
Proof. unfold ie_def. intros H. repeat match type of H with (if ?x then _ else _) = _ => destruct x end; try discriminate; injection H as <-; lia. Qed.
Lemma nth_byte k : 1 <= k -> bytes r -> 0 <= nth (Z.to_nat k) (b :: r) 0.
Proof.
  intros H B. replace (Z.to_nat k) with (S (Z.to_nat (k - 1))) by lia. cbn [nth]. destruct (nth_in_or_default (Z.to_nat (k - 1)) r 0) as [I| ->]; [|lia].
  unfold bytes in B. rewrite Forall_forall in B. specialize (B _ I). unfold byte in B. lia.
Qed.
Lemma hd_parse f : bytes r -> forall k, 1 <= k -> tlv_parse f (a :: r) k = tlv_parse f (b :: r) k.
Proof.
  intros B. induction f as [|f IH]; intros k H; cbn [tlv_parse]; rewrite !zlen_cons; [reflexivity|].
  destruct (_ <=? _); [reflexivity|]. rewrite (hd_nth k) by lia. rewrite (hd_nth (k + 1)) by lia.
  pose proof (nth_byte (k + 1) ltac:(lia) B) as L.
  rewrite (IH (k + 1)) by lia. rewrite (IH (k + (2 + nth (Z.to_nat (k + 1)) (b :: r) 0))) by lia.
  assert (X : match ie_def (nth (Z.to_nat k) (b :: r) 0) with
    | IFixed n => tlv_parse f (a :: r) (k + (1 + n)) = tlv_parse f (b :: r) (k + (1 + n)) | _ => True end).
  { destruct (ie_def (nth (Z.to_nat k) (b :: r) 0)) as [| |n|] eqn:E; try exact I. apply IH. pose proof (ie_len _ _ E). lia. }
  destruct (ie_def (nth (Z.to_nat k) (b :: r) 0)) as [| |n|]; try reflexivity.
  rewrite X. reflexivity.
Qed.
Lemma parse_pos f l : bytes r -> forall k es t p n, 1 <= k -> l = b :: r -> tlv_parse f l k = Some es -> tlv_find t es = Some (p, n) -> k <= p.
Proof.
  intros B. induction f as [|f IH]; intros k es t p n H -> E F; cbn [tlv_parse] in E.
  { destruct (_ <=? _) in E; injection E as <-; discriminate. }
  destruct (_ <=? _) in E; [injection E as <-; discriminate|].
  pose proof (nth_byte (k + 1) ltac:(lia) B) as L.
  assert (G : forall tag pos len m, 0 <= m -> k <= pos ->
    (if zlen (b :: r) - k <? m then None else match tlv_parse f (b :: r) (k + m) with Some x => Some ((tag, (pos, len)) :: x) | None => None end) = Some es -> k <= p).
  { intros tag pos len m Hm Hp E'. destruct (_ <? _) in E'; [discriminate|]. destruct (tlv_parse f (b :: r) (k + m)) as [x|] eqn:Ex; [|discriminate].
    injection E' as <-. cbn [tlv_find] in F. destruct (_ =? _) in F; [injection F as <- _; exact Hp|].
    pose proof (IH (k + m) x t p n ltac:(lia) eq_refl Ex F). lia. }
  destruct (ie_def (Z.land _ _)); try (apply G in E; [exact E|lia|lia]);
  (destruct (ie_def (nth (Z.to_nat k) (b :: r) 0)) as [| |w|] eqn:Ew; try discriminate;
   [apply G in E; [exact E|pose proof (ie_len _ _ Ew); lia|lia]|destruct (_ <? _) in E; [discriminate|]; apply G in E; [exact E|lia|lia]]).
Qed.
Lemma bind_ext {X Y} (m m' : M X) (f g : X -> M Y) : (forall x, m x = m' x) -> (forall v x, f v x = g v x) -> forall x, bindM m f x = bindM m' g x.
Proof. intros H K x. unfold bindM. rewrite H. destruct (m' x) as [[[y o] v]| |]; try reflexivity. rewrite K. reflexivity. Qed.
Lemma liftr_ext {X Y} (v : res X) (f g : X -> M Y) : (forall q, v = Ok q -> forall x, f q x = g q x) -> forall x, bindM (liftr v) f x = bindM (liftr v) g x.
Proof. intros K x. unfold bindM, liftr. destruct v as [q| |]; try reflexivity. rewrite (K q eq_refl). reflexivity. Qed.
Lemma hd_addr p n : 1 <= p -> forall x, pdp_addr_dec (a :: r) p n x = pdp_addr_dec (b :: r) p n x.
Proof. intros H x. unfold pdp_addr_dec. rewrite !hd_rd, !hd_rdn by lia. reflexivity. Qed.
Lemma hd_pco es : (forall p n, tlv_find IE_PCO es = Some (p, n) -> 1 <= p) -> forall x, rx_pco (a :: r) es x = rx_pco (b :: r) es x.
Proof.
  intros H x. unfold rx_pco. destruct (tlv_find IE_PCO es) as [[p n]|]; [|reflexivity]. specialize (H p n eq_refl).
  rewrite !hd_rdn by lia. reflexivity.
Qed.
Lemma rd_byte k q : 1 <= k -> bytes r -> rd (b :: r) k = Ok q -> 0 <= q.
Proof.
  intros H B. unfold rd. destruct (_ && _); [|discriminate]. intros [= <-]. apply nth_byte; assumption.
Qed.
Lemma hd_rx m : bytes r -> forall x, sm_rx m (a :: r) x = sm_rx m (b :: r) x.
Proof.
  intros B x. unfold sm_rx. rewrite !zlen_cons. destruct (_ <? _); [reflexivity|]. rewrite hd_rd by lia. revert x. apply bind_ext; [reflexivity|]. intros t.
  destruct (t =? MT_ACT_ACK).
  - unfold rx_act_ack. rewrite !zlen_cons. destruct (_ <? _); [reflexivity|]. rewrite (hd_rd 2) by lia. apply bind_ext; [reflexivity|]. intros u.
    apply bind_ext; [reflexivity|]. intros _. rewrite (hd_rd 3) by lia. apply liftr_ext. intros q Eq.
    apply rd_byte in Eq; [|lia|exact B]. destruct (QOS_MAX <? q); [reflexivity|]. destruct (_ <? 4 + q); [reflexivity|].
    rewrite (hd_rdn 4) by lia. apply bind_ext; [reflexivity|]. intros v. apply bind_ext; [reflexivity|]. intros _.
    destruct (_ <? 5 + q); [reflexivity|]. rewrite (hd_rd (4 + q)) by lia. apply bind_ext; [reflexivity|]. intros w. apply bind_ext; [reflexivity|]. intros _.
    apply bind_ext; [|reflexivity]. destruct (5 + q <? _); [|reflexivity]. change (length (a :: r)) with (length (b :: r)).
    rewrite (hd_parse _ B) by lia. destruct (tlv_parse _ (b :: r) (5 + q)) as [es|] eqn:E; [|reflexivity].
    assert (P : forall t p n, tlv_find t es = Some (p, n) -> 1 <= p) by (intros t' p n F; eapply Z.le_trans; [|refine (parse_pos _ _ B _ _ _ _ _ _ eq_refl E F)]; lia).
    apply bind_ext.
    + destruct (tlv_find IE_PDP_ADDR es) as [[p n]|] eqn:F; [|reflexivity]. apply hd_addr. exact (P _ _ _ F).
    + intros v'. destruct (v' <? 0); [reflexivity|]. apply hd_pco. apply P.
  - destruct (t =? MT_ACT_REJ); [|reflexivity].
    unfold rx_act_rej. rewrite !zlen_cons. destruct (_ <? 3); [reflexivity|]. rewrite (hd_rd 2) by lia. apply bind_ext; [reflexivity|]. intros u.
    apply bind_ext; [|reflexivity]. destruct (3 <? _); [|reflexivity]. change (length (a :: r)) with (length (b :: r)).
    rewrite (hd_parse _ B) by lia. destruct (tlv_parse _ (b :: r) 3) as [es|] eqn:E; [|reflexivity].
    apply hd_pco. intros p n F. eapply Z.le_trans; [|refine (parse_pos _ _ B _ _ _ _ _ _ eq_refl E F)]; lia.
Qed.
End Head.
Lemma on_ms_ext p f g l : (forall m, f m = g m) -> on_ms p f l = on_ms p g l.
Proof. intros H. induction l as [|m l IH]; cbn [on_ms]; [reflexivity|]. rewrite H, IH. reflexivity. Qed.
Lemma unit_head c i a b r : bytes r -> step c (IUnit i (a :: r)) = step c (IUnit i (b :: r)).
Proof.
  intros B. cbn [step]. unfold on_sess. erewrite on_ms_ext; [reflexivity|]. intros m. cbv beta.
  destruct (slot_of i 0 (pdp m)) as [k|]; [|reflexivity]. unfold on_slot. destruct (nth _ _ None) as [s|]; [|reflexivity].
  rewrite (hd_rx a b r (mid m) B). reflexivity.
Qed.
