(** C118, C119, C120: the buffer of a primitive. *)
From Coq Require Import ZArith List Bool Lia.
From Verif.Lib Require Import Base Outcome.
From Verif.Stack Require Import PrimModel PrimSpec.
Import ListNotations.
Local Open Scope Z_scope.

Lemma once_intro u tr : forallb (fun e => match e with Free => false | _ => true end) u = true ->
  tr = u ++ [Free] -> once tr.
Proof.
  intros Hu E. exists u. split; [|exact E]. intros Hin.
  rewrite forallb_forall in Hu. apply Hu in Hin. discriminate.
Qed.

(** Takes the dispatcher of an entry point apart: one goal for each branch of the C switch. *)
Ltac branch :=
  repeat match goal with
         | H : context [match ?x with _ => _ end] |- _ =>
             lazymatch type of x with
             | Z => destruct x | positive => destruct x | op => destruct x | bool => destruct x eqn:?
             | prod _ _ => fail | out => fail | _ => fail
             end
         end.

Ltac opened H :=
  unfold run, llc_upper_down, llc_lower_up, sndcp_upper_down, sndcp_lower_up, sndcp_dispatch_snsm,
    sm_upper_down, sm_sndcp_upper_down, sm_lower_up, sm_gmm_lower_up, gmm_upper_down, gmm_lower_up,
    gmm_llc_lower_up, rlcmac_upper_down, rlcmac_lower_up, llc_llgmm_upper_down, llc_ll_upper_down,
    llc_lower_up_grr, llc_lower_up_bssgp, sndcp_sn_data_req, sndcp_lower_up_llc_ll, sm_smreg, sm_snsm,
    sm_gmmsm, gmm_gmmreg, gmm_gmmsm, gmm_gmmrr, gmm_gmmbssgp, gmm_llgmm, gmm_ll, rlcmac_l1ctl,
    guard, own, lend, unsupported, unsupported_1 in H;
  cbn [p_sap p_ty p_op] in H; branch;
  cbn [logged finish app] in H.

Ltac settle H :=
  unfold finish, logged, ENOTSUP, EINVAL, EIO, ENOENT, ENOKEY in H;
  try discriminate H;
  repeat match type of H with
         | context [?a =? 1] => destruct (a =? 1) eqn:?
         end;
  try discriminate H;
  try (injection H as <- <-);
  repeat match goal with
         | E : negb (_ =? _) = false |- _ => apply negb_false_iff, Z.eqb_eq in E; cbn in E; try subst
         | E : negb (_ =? _) = true |- _ => apply negb_true_iff, Z.eqb_neq in E; cbn in E
         end.

Ltac listed :=
  cbn [freed_twice never_freed reported_done implemented In] in *; unfold key in *;
  cbn [p_sap p_ty p_op] in *; intuition congruence.

(** Every primitive handed to an entry point is freed exactly once and not touched afterwards, except
    those of [freed_twice] and [never_freed]. *)
Theorem C118_once_partial : forall e p w tr rc,
  polite w ->
  run e p w = Ret tr rc ->
  ~ freed_twice e p w -> ~ never_freed e p ->
  once tr.
Proof.
  intros e [s t o] w tr rc [Hp1 Hp2] H N1 N2.
  destruct e; opened H; settle H; cbn [p_sap p_ty p_op] in *; try lia;
    try (eapply (once_intro [Use]); reflexivity);
    try (eapply (once_intro [Use; Use]); reflexivity);
    try (eapply (once_intro [Use; Use; Use]); reflexivity);
    try (eapply (once_intro [Use; Use; Act]); reflexivity);
    try (eapply (once_intro [Use; Use; Act; Use]); reflexivity);
    try (eapply (once_intro []); reflexivity);
    exfalso; first [apply N1; solve [listed] | apply N2; solve [listed]].
Qed.
Print Assumptions C118_once_partial.

(** The whole statement: *)
Definition C118_once : Prop := forall e p w tr rc,
  polite w -> run e p w = Ret tr rc -> once tr.

(** Those of [freed_twice] are freed twice: the second time, the buffer is gone. *)
Theorem C118_twice_refuted : forall e p w tr rc,
  polite w ->
  run e p w = Ret tr rc ->
  freed_twice e p w ->
  frees tr = 2%nat /\ used_after_free tr /\ rc = - ENOTSUP.
Proof.
  intros e [s t o] w tr rc [Hp1 Hp2] H N1.
  destruct e; try (cbn [freed_twice] in N1; tauto);
    opened H; settle H; cbn [p_sap p_ty p_op] in *; try lia; try (exfalso; listed).
  all: split; [reflexivity|split; [|reflexivity]].
  all: first [ exists [Use; Use], [Free]; split; [reflexivity|discriminate]
             | exists [Use; Use], [Use; Free]; split; [reflexivity|discriminate]
             | exists [Use; Use; Use], [Use; Free]; split; [reflexivity|discriminate] ].
Qed.
Print Assumptions C118_twice_refuted.

(** Those of [never_freed] are not freed. *)
Theorem C118_never_refuted : forall e p w tr rc,
  run e p w = Ret tr rc ->
  never_freed e p ->
  frees tr = 0%nat /\ rc = - ENOTSUP.
Proof.
  intros e [s t o] w tr rc H N1.
  destruct e; try (cbn [never_freed] in N1; tauto);
    opened H; settle H; cbn [p_sap p_ty p_op] in *; try lia; try (exfalso; listed).
  all: split; reflexivity.
Qed.
Print Assumptions C118_never_refuted.

(** There are such primitives at seven entry points, and the statement is false. *)
Theorem C118_once_refuted : ~ C118_once /\
  (forall e, In e [LlcUp; SnDown; SnUp; SnSnsm; SmDown; SmSndcp; GmmDown] ->
     exists p w tr rc, polite w /\ run e p w = Ret tr rc /\ frees tr = 2%nat) /\
  (exists p, forall w, exists tr rc, run RlcDown p w = Ret tr rc /\ frees tr = 0%nat).
Proof.
  set (w := mkWorld true 0 0 true 1).
  assert (Hw : polite w) by (split; cbn; lia).
  assert (T : forall e, In e [LlcUp; SnDown; SnUp; SnSnsm; SmDown; SmSndcp; GmmDown] ->
     exists p w tr rc, polite w /\ run e p w = Ret tr rc /\ frees tr = 2%nat).
  { intros e He. cbn [In] in He.
    destruct He as [<-|[<-|[<-|[<-|[<-|[<-|[<-|[]]]]]]]].
    1: exists (mkPrim 2 0 Ind).
    2: exists (mkPrim 0 0 Req).
    3: exists (mkPrim 1 6 Ind).
    4: exists (mkPrim 1 2 Ind).
    5: exists (mkPrim 0 1 Req).
    6: exists (mkPrim 1 2 Rsp).
    7: exists (mkPrim 0 1 Ind).
    all: exists w; eexists; eexists; split; [exact Hw|]; split; reflexivity. }
  split; [|split; [exact T|]].
  - intros H. destruct (T LlcUp) as (p & w' & tr & rc & Hw' & Hr & Hf); [cbn; auto|].
    destruct (H _ _ _ _ _ Hw' Hr) as (u & Hu & ->).
    unfold frees in Hf. rewrite filter_app, app_length in Hf. cbn in Hf.
    assert (E : filter (fun e => match e with Free => true | _ => false end) u = []).
    { clear Hf Hr. induction u as [|x u IH]; [reflexivity|]. destruct x; cbn [filter].
      - apply IH. intros Hi. apply Hu. right. exact Hi.
      - apply IH. intros Hi. apply Hu. right. exact Hi.
      - exfalso. apply Hu. left. reflexivity. }
    rewrite E in Hf. cbn in Hf. discriminate.
  - exists (mkPrim 0 1 Ind). intros w'. eexists; eexists. split; reflexivity.
Qed.
Print Assumptions C118_once_refuted.

(** A primitive that is implemented and whose entity exists is acted on, before it is freed. *)
Theorem C118_acted : forall e p w tr rc,
  polite w -> w_known w = true ->
  run e p w = Ret tr rc ->
  (In Act tr <-> In (key p) (implemented e)) /\
  (In (key p) (implemented e) -> rc = w_rc w /\ exists u v, tr = u ++ Act :: v ++ [Free] /\ ~ In Free (u ++ v)).
Proof.
  intros e [s t o] w tr rc [Hp1 Hp2] K H.
  destruct e; opened H; settle H; rewrite ?K in *; try discriminate; cbn [p_sap p_ty p_op] in *; try lia.
  all: split; [cbn [In implemented]; unfold key; cbn [p_sap p_ty p_op]; intuition congruence|].
  all: intros Hin; try (exfalso; listed).
  all: split; [try reflexivity|].
  all: try (exists [Use; Use], []; split; [reflexivity|cbn; intuition congruence]).
  all: try (exists [Use; Use], [Use]; split; [reflexivity|cbn; intuition congruence]).
Qed.
Print Assumptions C118_acted.

(** Concrete cases: SN-UNITDATA.req for an entity that exists, and for one that does not;
    LL-STATUS.ind at SNDCP. *)
Example C118_case :
  let w := mkWorld true 0 0 true 1 in
  polite w /\
  run SnDown (mkPrim 0 1 Req) w = Ret [Use; Use; Act; Free] 0 /\
  run SnDown (mkPrim 0 1 Req) (mkWorld false 0 0 true 1) = Ret [Use; Use; Free] (-5) /\
  ~ freed_twice SnDown (mkPrim 0 1 Req) w /\ ~ never_freed SnDown (mkPrim 0 1 Req) /\
  In (key (mkPrim 0 1 Req)) (implemented SnDown) /\
  freed_twice SnUp (mkPrim 1 6 Ind) w /\
  run SnUp (mkPrim 1 6 Ind) w = Ret [Use; Use; Free; Free] (-95) /\
  never_freed RlcDown (mkPrim 1 1 Req).
Proof.
  cbv zeta. repeat apply conj; try reflexivity; try (cbn; lia); try (cbn; tauto);
    cbn [freed_twice never_freed reported_done implemented In wrong_side]; unfold key;
    cbn [p_sap p_ty p_op w_known]; intuition congruence.
Qed.

(** A primitive that is not implemented is refused with a negative value, except at the entry points and SAPs
    of [reported_done]: there 0 comes back, as if it had been done. *)
Theorem C119_refused_partial : forall e p w tr rc,
  polite w ->
  run e p w = Ret tr rc ->
  ~ In (key p) (implemented e) ->
  ~ reported_done e p ->
  rc < 0 /\ ~ In Act tr.
Proof.
  intros e [s t o] w tr rc [Hp1 Hp2] H N R.
  destruct e; try (exfalso; apply R; exact I);
    opened H; settle H; cbn [p_sap p_ty p_op] in *; try lia; try (exfalso; listed).
  all: split; [reflexivity|cbn; intuition discriminate].
Qed.
Print Assumptions C119_refused_partial.

Theorem C119_done_refuted : forall e p w tr rc,
  run e p w = Ret tr rc ->
  ~ In (key p) (implemented e) ->
  reported_done e p ->
  rc = 0 /\ once tr /\ ~ In Act tr.
Proof.
  intros e [s t o] w tr rc H N R.
  destruct e; try (exfalso; exact R);
    opened H; settle H; cbn [p_sap p_ty p_op] in *; try lia; try (exfalso; listed).
  all: split; [reflexivity|split; [|cbn; intuition discriminate]].
  all: first [ eapply (once_intro [Use]); reflexivity | eapply (once_intro [Use; Use]); reflexivity ].
Qed.
Print Assumptions C119_done_refuted.

(** The whole statement, and that it is false at eight entry points. *)
Definition C119_refused : Prop := forall e p w tr rc,
  polite w -> run e p w = Ret tr rc -> ~ In (key p) (implemented e) -> rc < 0.

Theorem C119_refused_refuted : ~ C119_refused /\
  forall e, In e [SnUp; SmDown; SmSndcp; SmUp; SmGmmUp; GmmDown; GmmUp; GmmLlcUp] ->
    exists p, ~ In (key p) (implemented e) /\ forall w, exists tr, run e p w = Ret tr 0.
Proof.
  assert (T : forall e, In e [SnUp; SmDown; SmSndcp; SmUp; SmGmmUp; GmmDown; GmmUp; GmmLlcUp] ->
    exists p, ~ In (key p) (implemented e) /\ forall w, exists tr, run e p w = Ret tr 0).
  { intros e He. cbn [In] in He. exists (mkPrim 7 0 Cnf).
    destruct He as [<-|[<-|[<-|[<-|[<-|[<-|[<-|[<-|[]]]]]]]]];
      (split; [unfold key; cbn; intuition congruence|intros w; eexists; reflexivity]). }
  split; [|exact T].
  intros H. destruct (T SnUp) as (p & Hp & Hr); [cbn; auto|].
  destruct (Hr (mkWorld true 0 0 true 1)) as (tr & E).
  assert (W : polite (mkWorld true 0 0 true 1)) by (split; cbn; lia).
  specialize (H _ _ _ _ _ W E Hp). lia.
Qed.
Print Assumptions C119_refused_refuted.

(** The process stops, for a primitive whose fields are in order, exactly if the LLC layer is at the other
    end. *)
Theorem C119_stops : forall e p w,
  w_fit w = true -> w_loc w = 1 \/ w_loc w = 2 ->
  (run e p w = Abort <-> wrong_side e p (w_loc w)).
Proof.
  intros e [s t o] w F L. split.
  - intros H. destruct e; opened H; settle H; rewrite ?F in *; try discriminate;
      unfold ms_or_sgsn in *; cbn [p_sap p_ty p_op wrong_side] in *; unfold key; cbn [p_sap p_ty p_op];
      repeat match goal with
             | E : (_ =? _) = false |- _ => apply Z.eqb_neq in E
             | E : (_ || _) = false |- _ => apply orb_false_iff in E; destruct E
             end; try lia; tauto.
  - intros W. destruct e; cbn [wrong_side] in W; try tauto; unfold key in W; cbn [p_sap p_ty p_op] in W.
    + destruct W as [[E [Q|Q]]|[E Q]]; injection Q as -> -> ->;
        unfold run, llc_upper_down, llc_llgmm_upper_down; cbn [p_sap p_ty p_op]; rewrite E; reflexivity.
    + destruct W as [[E ->]|[E ->]]; unfold run, llc_lower_up; cbn [p_sap]; rewrite E; reflexivity.
Qed.
Print Assumptions C119_stops.

Example C119_case :
  let w := mkWorld true 0 0 true 1 in
  polite w /\
  run LlcDown (mkPrim 1 4 Req) w = Ret [Use; Use; Free] (-95) /\
  ~ In (key (mkPrim 1 4 Req)) (implemented LlcDown) /\ ~ reported_done LlcDown (mkPrim 1 4 Req) /\
  run GmmUp (mkPrim 9 4 Ind) w = Ret [Use; Use; Free] 0 /\
  ~ In (key (mkPrim 9 4 Ind)) (implemented GmmUp) /\ reported_done GmmUp (mkPrim 9 4 Ind) /\
  wrong_side LlcDown (mkPrim 0 1 Req) 1 /\ run LlcDown (mkPrim 0 1 Req) w = Abort.
Proof.
  cbv zeta. repeat apply conj; try reflexivity; try (cbn; lia); try (cbn; tauto);
    cbn [freed_twice never_freed reported_done implemented In wrong_side]; unfold key;
    cbn [p_sap p_ty p_op w_known]; intuition congruence.
Qed.

(** A primitive handed to the callback of the user: if the callback keeps it (returns 1) the library does not
    free it, otherwise the library frees it once, after the callback has run; what comes back is what the
    callback returned, 0 if it kept it. *)
Theorem C120_callback_partial : forall c cb tr rc,
  c <> CSmUp -> c <> CSmDown ->
  call c cb = (tr, rc) ->
  (cb = 1 -> tr = [Act]) /\
  (cb <> 1 -> tr = [Act; Free] /\ rc = cb) /\
  (c <> CLlcUp -> rc <> 1 /\ (cb = 1 -> rc = 0)).
Proof.
  intros c cb tr rc N1 N2 H.
  destruct c; try congruence; unfold call, call_cb, llc_call_up_cb in H;
    destruct (Z.eqb_spec cb 1); injection H as <- <-; repeat split; intros; try lia; try congruence.
Qed.
Print Assumptions C120_callback_partial.

(** The whole statement. *)
Definition C120_callback : Prop := forall c cb tr rc,
  call c cb = (tr, rc) ->
  (cb = 1 -> tr = [Act] /\ rc = 0) /\ (cb <> 1 -> tr = [Act; Free] /\ rc = cb).

(** The two callbacks of SM are freed under the hands of a user that keeps the primitive; LLC's upper one
    returns the 1. *)
Theorem C120_callback_refuted : ~ C120_callback /\
  call CSmUp 1 = ([Act; Free], 1) /\ call CSmDown 1 = ([Act; Free], 1) /\ call CLlcUp 1 = ([Act], 1).
Proof.
  split; [|repeat split; reflexivity].
  intros H. destruct (H CSmUp 1 _ _ eq_refl) as [A _]. destruct (A eq_refl). discriminate.
Qed.
Print Assumptions C120_callback_refuted.

(** Two layers wired to each other: the callback hands the primitive to an entry point and returns 1.
    Then the buffer is freed once, for the primitives of C118. *)
Theorem C120_wired : forall c e p w tr rc,
  c <> CSmUp -> c <> CSmDown ->
  polite w -> run e p w = Ret tr rc -> ~ freed_twice e p w -> ~ never_freed e p ->
  once (through tr (fst (call c 1))).
Proof.
  intros c e p w tr rc N1 N2 W R F1 F2.
  replace (fst (call c 1)) with [Act] by (destruct c; try congruence; reflexivity).
  unfold through. cbn [flat_map]. rewrite app_nil_r.
  exact (C118_once_partial e p w tr rc W R F1 F2).
Qed.
Print Assumptions C120_wired.

(** A callback that returns what the entry point returned has the buffer freed twice: no entry point
    that is given an implemented primitive returns 1. *)
Theorem C120_wired_wrong : forall c e p w tr rc,
  polite w -> w_known w = true -> run e p w = Ret tr rc -> In (key p) (implemented e) ->
  frees (through tr (fst (call c rc))) = 2%nat.
Proof.
  intros c e p w tr rc W K R I.
  destruct (C118_acted e p w tr rc W K R) as [_ B]. destruct (B I) as [-> (u & v & -> & N)].
  assert (Q : fst (call c (w_rc w)) = [Act; Free]).
  { destruct W as [W _]. destruct c; unfold call, call_cb, llc_call_up_cb, sm_call_cb;
      destruct (Z.eqb_spec (w_rc w) 1); try congruence; reflexivity. }
  rewrite Q. unfold through. cbn [flat_map]. rewrite app_nil_r.
  unfold frees.
  assert (Z0 : forall l, (forall x, In x l -> x <> Free) ->
    filter (fun e => match e with Free => true | _ => false end) l = []).
  { induction l as [|x l IH]; intros Hl; [reflexivity|]. cbn [filter].
    destruct x; try (apply IH; intros y Hy; apply Hl; right; exact Hy).
    exfalso. apply (Hl Free); [left; reflexivity|reflexivity]. }
  rewrite !filter_app. cbn [filter]. rewrite !filter_app. cbn [filter].
  rewrite (Z0 u), (Z0 v); [reflexivity| |];
    intros x Hx ->; apply N, in_or_app; auto.
Qed.
Print Assumptions C120_wired_wrong.

(** GMM hands LL-UNITDATA.req to LLC, wired as above: freed once; wired the wrong way: twice. *)
Example C120_case :
  let w := mkWorld true 0 0 true 1 in
  polite w /\ run LlcDown (mkPrim 1 5 Req) w = Ret [Use; Use; Act; Free] 0 /\
  through [Use; Use; Act; Free] (fst (call CGmmLlcDown 1)) = [Use; Use; Act; Free] /\
  through [Use; Use; Act; Free] (fst (call CGmmLlcDown 0)) = [Use; Use; Act; Free; Free].
Proof. cbv zeta. repeat split; cbn; lia. Qed.
