(** Which primitives the functions of session management can send. *)
From Verif.Lib Require Import Base Outcome.
From Verif.Sm Require Import SmModel.

Definition emits (A : out -> Prop) {X} (m : M X) : Prop := forall x, match m x with Ok (_, o, _) => Forall A o | _ => True end.
Lemma em_ret A {X} (a : X) : emits A (ret a).
Proof. intros x. constructor. Qed.
Lemma em_gets A {X} (f : St -> X) : emits A (gets f).
Proof. intros x. constructor. Qed.
Lemma em_upd A f : emits A (upd f).
Proof. intros x. constructor. Qed.
Lemma em_updi A f : emits A (updi f).
Proof. intros x. constructor. Qed.
Lemma em_liftr A {X} (r : res X) : emits A (liftr r).
Proof. intros x. unfold liftr. destruct r; [constructor|exact I|exact I]. Qed.
Lemma em_abort A {X} : emits A (@abort X).
Proof. intros x. exact I. Qed.
Lemma em_send (A : out -> Prop) o : A o -> emits A (send o).
Proof. intros H x. constructor; [exact H|constructor]. Qed.
Lemma em_bind A {X Y} (m : M X) (f : X -> M Y) : emits A m -> (forall a, emits A (f a)) -> emits A (bindM m f).
Proof.
  intros H K x. unfold bindM. specialize (H x). destruct (m x) as [[[s1 o1] a]| |]; try exact I.
  specialize (K a s1). destruct (f a s1) as [[[s2 o2] b]| |]; try exact I. apply Forall_app. split; assumption.
Qed.
Lemma em_weaken (A B : out -> Prop) {X} (m : M X) : (forall o, A o -> B o) -> emits A m -> emits B m.
Proof. intros H K x. specialize (K x). destruct (m x) as [[[s1 o1] a]| |]; try exact I. eapply Forall_impl; [exact H|exact K]. Qed.

Lemma em_rd A {X} pdu i (f : Z -> M X) : emits A (f (nth (Z.to_nat i) pdu 0)) -> emits A (bindM (liftr (rd pdu i)) f).
Proof.
  intros H x. unfold bindM, liftr, rd. destruct (_ && _); [|exact I]. specialize (H x). destruct (f _ x) as [[[s2 o2] b]| |]; try exact I. exact H.
Qed.

Ltac em := repeat match goal with
  | |- emits _ (ret _) => apply em_ret | |- emits _ (gets _) => apply em_gets | |- emits _ (upd _) => apply em_upd
  | |- emits _ (updi _) => apply em_updi | |- emits _ (liftr _) => apply em_liftr | |- emits _ abort => apply em_abort
  | |- emits _ (bindM _ _) => apply em_bind; [|intros ?] end.

(** The kind of primitive, by what it is sent on. *)
Definition is_est (o : out) : Prop := match o with OEstReq _ _ _ _ _ _ _ _ => True | _ => False end.
Definition is_unit (o : out) : Prop := match o with OUnitReq _ _ => True | _ => False end.
Definition is_accepted (o : out) : Prop := match o with OActCnf _ _ _ (Accepted _ _ _ _ _ _ _ _ _) => True | _ => False end.
Definition is_rejected (c : Z) (o : out) : Prop := match o with OActCnf _ _ _ (Rejected d) => d = c mod 256 | _ => False end.
Definition is_deact (o : out) : Prop := match o with ODeactInd _ _ _ _ _ => True | _ => False end.
Definition is_snact (o : out) : Prop := match o with OSnAct _ _ _ _ _ => True | _ => False end.
Definition is_sndeact (o : out) : Prop := match o with OSnDeact _ _ => True | _ => False end.

Lemma em_est : emits is_est submit_est_req.
Proof. unfold submit_est_req. intros x. cbn. constructor; [exact I|constructor]. Qed.
Lemma em_cnf m c : emits (fun o => if c =? 0 then is_accepted o else is_rejected c o) (submit_act_cnf m c).
Proof.
  unfold submit_act_cnf. em. destruct (_ <? _); [apply em_abort|]. em. destruct (c =? 0); em; apply em_send; [exact I|reflexivity].
Qed.
Lemma em_deact m c : emits is_deact (submit_deact_ind m c).
Proof. unfold submit_deact_ind. em. destruct (_ <? _); [apply em_abort|]. em. apply em_send. exact I. Qed.
Lemma em_sn_act : emits is_snact submit_sn_act.
Proof. unfold submit_sn_act. em. apply em_send. exact I. Qed.
Lemma em_tx m : emits is_unit (tx_act_req m).
Proof. unfold tx_act_req. em. apply em_send. exact I. Qed.
Lemma em_chg_est t : emits is_est (state_chg t).
Proof. unfold state_chg. em. destruct (negb _); [apply em_ret|]. destruct t; em. apply em_est. Qed.
Lemma em_chg A t : t <> Pending -> emits A (state_chg t).
Proof. intros H. unfold state_chg. em. destruct (negb _); [apply em_ret|]. destruct t; em. contradiction. Qed.

Definition ev_out (e : pev) (o : out) : Prop :=
  match e with
  | EvTxAct => is_est o
  | EvEstCnf => is_unit o
  | EvRxRej c => if c =? 0 then is_accepted o else is_rejected c o
  | EvRxAcc => is_snact o
  | EvNsapi => is_accepted o
  | _ => False end.
Lemma em_dispatch m e : emits (ev_out e) (dispatch m e).
Proof.
  unfold dispatch. em. destruct (permitted _ e) eqn:E; [|apply em_ret]. apply em_bind; [|intros; apply em_ret].
  destruct (st a), e; try discriminate E; cbn [action ev_out]; em; try (apply em_chg; discriminate).
  - apply em_chg_est.
  - apply em_tx.
  - apply em_cnf.
  - apply em_sn_act.
  - apply (em_cnf m 0).
Qed.
Lemma em_pco A pdu l : emits A (rx_pco pdu l).
Proof. unfold rx_pco. destruct (tlv_find _ l) as [[p n]|]; [|em]. destruct (_ <? _); em. Qed.
Lemma em_addr A pdu p n : emits A (pdp_addr_dec pdu p n).
Proof. unfold pdp_addr_dec. em. destruct (negb _); em. repeat match goal with |- emits _ (if ?b then _ else _) => destruct b end; em. Qed.
Lemma em_ack m pdu : emits is_snact (rx_act_ack m pdu).
Proof.
  unfold rx_act_ack. destruct (_ <? _); em. destruct (_ <? _); em. destruct (_ <? _); em. destruct (_ <? _); em.
  - destruct (_ <? _); em. destruct (tlv_parse _ _ _); em.
    + destruct (tlv_find _ _) as [[p n]|]; [apply em_addr|em].
    + destruct (_ <? _); em. apply em_pco.
  - destruct (negb _); em; [apply (em_dispatch m EvRxAcc)|]. destruct (_ <? _); em.
Qed.
Lemma em_rej m pdu : emits (ev_out (EvRxRej (nth 2 pdu 0))) (rx_act_rej m pdu).
Proof.
  unfold rx_act_rej. destruct (zlen pdu <? 3); [em|]. apply em_rd. em.
  - destruct (_ <? _); em. destruct (tlv_parse _ _ _); [apply em_pco|em].
  - destruct (negb _); em; [apply em_dispatch|]. destruct (_ <? _); em.
Qed.
Definition rx_out (pdu : list Z) (o : out) : Prop :=
  (nth 1 pdu 0 = 0x42 /\ is_snact o) \/ (nth 1 pdu 0 = 0x43 /\ (if nth 2 pdu 0 =? 0 then is_accepted o else is_rejected (nth 2 pdu 0) o)).
Lemma em_rx m pdu : emits (rx_out pdu) (sm_rx m pdu).
Proof.
  unfold sm_rx. destruct (_ <? _); [em|]. apply em_rd. change (Z.to_nat 1) with 1%nat. unfold MT_ACT_ACK, MT_ACT_REJ.
  destruct (nth 1 pdu 0 =? 0x42) eqn:E; [|destruct (nth 1 pdu 0 =? 0x43) eqn:E2; [|em]].
  - eapply em_weaken; [|apply em_ack]. intros o H. left. split; [lia|exact H].
  - eapply em_weaken; [|apply em_rej]. intros o H. right. split; [lia|exact H].
Qed.
Lemma em_act_req m q : emits is_est (act_req m q).
Proof. unfold act_req. em. apply (em_dispatch m EvTxAct). Qed.
Lemma em_est_acc m t sig l r : emits is_unit (est_acc m t sig l r).
Proof. unfold est_acc. em. apply (em_dispatch m EvEstCnf). Qed.
Lemma em_timer m : emits (fun o => is_est o \/ is_rejected 34 o) (timer_cb m).
Proof.
  unfold timer_cb. em. destruct (_ =? _); em. destruct (_ =? _); em. destruct (st a); em. destruct (_ =? _); em.
  - eapply em_weaken; [|apply em_dispatch]. intros o H. right. exact H.
  - eapply em_weaken; [|apply em_chg_est]. intros o H. left. exact H.
Qed.
Lemma em_deact_rsp m : emits is_deact (sn_deact_rsp m).
Proof. unfold sn_deact_rsp. em; [apply em_deact|]. eapply em_weaken; [|apply em_dispatch]. intros o []. Qed.

(** What a whole step can send. *)
Definition out_of (x : input) (o : out) : Prop :=
  match x with
  | IActReq _ _ => is_est o
  | ISnAct _ _ => is_accepted o
  | ISnDeact _ _ => is_deact o
  | IEstAcc _ _ _ _ _ => is_unit o
  | IUnit _ pdu => rx_out pdu o
  | IModify _ _ _ _ _ (Some _) => is_sndeact o
  | IExpire _ _ => is_est o \/ is_rejected 34 o
  | _ => False end.
Lemma on_ms_emits A p f l : (forall m, match f m with Ok (_, o, _) => Forall A o | _ => True end) ->
  match on_ms p f l with Some (Ok (_, o, _)) => Forall A o | _ => True end.
Proof.
  intros H. induction l as [|m l IH]; cbn [on_ms]; [exact I|]. destruct (p m).
  - specialize (H m). destruct (f m) as [[[m' o] z]| |]; [exact H|exact I|exact I].
  - destruct (on_ms p f l) as [[[[r o] z]| |]|]; [exact IH|exact I|exact I|exact I].
Qed.
Lemma on_slot_emits A m n f : emits A f -> match on_slot m n f with Some (Ok (_, o, _)) => Forall A o | _ => True end.
Proof.
  intros H. unfold on_slot. destruct (nth _ (pdp m) None) as [s|]; [|exact I]. specialize (H (gid m, s)).
  destruct (f (gid m, s)) as [[[[i s'] o] z]| |]; [exact H|exact I|exact I].
Qed.
Lemma on_sess_emits A i f z c : (forall m, emits A (f m)) -> match on_sess i f z c with Ok (_, o, _) => Forall A o | _ => True end.
Proof.
  intros H. unfold on_sess. match goal with |- context [on_ms ?p ?g ?l] => pose proof (on_ms_emits A p g l) as K; destruct (on_ms p g l) as [[[[r o] y]| |]|] end; try exact I; [|constructor].
  apply K. intros m. destruct (slot_of i 0 (pdp m)) as [k|]; [|exact I]. pose proof (on_slot_emits A m k (f (mid m)) (H _)) as G. destruct (on_slot _ _ _) as [[[[m' o'] z']| |]|]; [exact G|exact I|exact I|exact I].
Qed.
Lemma on_nsapi_emits A p n f z c : (forall m, emits A (f m)) -> match on_nsapi p n f z c with Ok (_, o, _) => Forall A o | _ => True end.
Proof.
  intros H. unfold on_nsapi. match goal with |- context [on_ms ?p ?g ?l] => pose proof (on_ms_emits A p g l) as K; destruct (on_ms p g l) as [[[[r o] y]| |]|] end; try exact I; [|constructor].
  apply K. intros m. destruct (_ && _); [|exact I]. pose proof (on_slot_emits A m n (f (mid m)) (H _)) as G. destruct (on_slot _ _ _) as [[[[m' o'] z']| |]|]; [exact G|exact I|exact I|constructor].
Qed.
Lemma step_emits c x : match step c x with Ok (_, o, _) => Forall (out_of x) o | _ => True end.
Proof.
  destruct x; cbn [step out_of].
  - unfold prim_act_req. destruct (_ || _); [exact I|]. cbv zeta.
    assert (G : forall m, match (if MAXNSAPI <=? q_nsapi q then UB else
       match on_slot (mkMs (mid m) (gid m) (put (Z.to_nat (q_nsapi q)) (Some (new_sme (next c) (q_nsapi q))) (pdp m))) (q_nsapi q) (act_req (mid m) q) with Some r => r | None => UB end)
       with Ok (_, o, _) => Forall is_est o | _ => True end).
    { intros m. destruct (_ <=? _); [exact I|]. pose proof (on_slot_emits is_est (mkMs (mid m) (gid m) (put (Z.to_nat (q_nsapi q)) (Some (new_sme (next c) (q_nsapi q))) (pdp m))) (q_nsapi q) (act_req (mid m) q) (em_act_req _ _)) as G.
      destruct (on_slot _ _ _) as [[[[m' o'] z']| |]|]; [exact G|exact I|exact I|exact I]. }
    destruct (find _ _).
    + destruct (negb _); [exact I|]. destruct (nth _ _ _); [constructor|].
      match goal with |- context [on_ms ?p ?g ?l] => pose proof (on_ms_emits is_est p g l G) as K; destruct (on_ms p g l) as [[[[r o] y]| |]|] end; [exact K|exact I|exact I|exact I].
    + specialize (G (new_ms ms_id)). destruct (if MAXNSAPI <=? q_nsapi q then _ else _) as [[[m' o'] z']| |]; [exact G|exact I|exact I].
  - exact I.
  - apply on_nsapi_emits. intros m. apply (em_dispatch m EvNsapi).
  - apply on_nsapi_emits. apply em_deact_rsp.
  - exact I.
  - apply on_sess_emits. intros m. apply em_est_acc.
  - apply on_sess_emits. intros m. apply (em_dispatch m EvEstRej).
  - apply on_sess_emits. intros m. apply (em_dispatch m EvRelease).
  - apply on_sess_emits. intros m. apply em_rx.
  - unfold modify_ind. match goal with |- context [on_ms ?p ?g ?l] =>
      pose proof (on_ms_emits (fun o => match status with Some _ => is_sndeact o | None => False end) p g l) as K; destruct (on_ms p g l) as [[[[r o] y]| |]|] end;
      try exact I; [|destruct status; constructor].
    assert (G : Forall (fun o => match status with Some _ => is_sndeact o | None => False end) o).
    { apply K. intros m. destruct status as [x|]; [|constructor]. generalize (pdp m). induction l as [|[s|] l IH]; cbn [status_outs]; [constructor| |exact IH].
      apply Forall_app. split; [destruct (inactive_bit _ _); repeat constructor|exact IH]. }
    destruct status; exact G.
  - constructor.
  - unfold expire. match goal with |- context [on_ms ?p ?g ?l] => pose proof (on_ms_emits (fun o => is_est o \/ is_rejected 34 o) p g l) as K; destruct (on_ms p g l) as [[[[r o] y]| |]|] end; try exact I; [|constructor].
    apply K. intros m. destruct (nth _ _ _) as [s|]; [|constructor]. destruct (fon s); [|constructor]. pose proof (em_timer (mid m) (gid m, s)) as G.
    destruct (timer_cb (mid m) (gid m, s)) as [[[[g s'] o'] b]| |]; [exact G|exact I|exact I].
Qed.
