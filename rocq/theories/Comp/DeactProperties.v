(** C133: the end of a PDP context in SNDCP, and what of it is left (sndcp.c, sndcp_prim.c). *)
From Verif.Lib Require Import Base Outcome.
From Verif.Comp Require Import SlhcModel SlhcProperties XidModel NegModel DeactModel.

(** ** Specification *)

(** Whether NSAPI [n] is in use: what the last SNSM-ACTIVATE.ind or SNSM-DEACTIVATE.ind for it was. *)
Definition in_use (n : Z) (l : list ev) : bool :=
  fold_left (fun a e => match e with Act k _ => if k =? n then true else a | Deact k => if k =? n then false else a | _ => a end) l false.
(** The NSAPIs that have an entity. *)
Definition nsapis (s : ms) : list Z := match s with Some m => map e_nsapi (m_sne m) | None => [] end.
(** What becomes of an N-PDU of NSAPI [n] before it is cut into segments: the octets and PCOMP. *)
Definition sent (s : ms) (n : Z) (data : list Z) : option (list Z * Z) :=
  match s with
  | Some m => match pcomp_compress (m_proto m) data n with Ok (_, d, len, p) => Some (firstn (Z.to_nat len) d, p) | _ => None end
  | None => None
  end.
Definition both : cfg := mkCfg true true.

(** ** Which NSAPIs have an entity *)

Lemma put_same m e : map e_nsapi (m_sne (put_sne m e)) = map e_nsapi (m_sne m).
Proof. cbn [put_sne m_sne]. rewrite map_map. apply map_ext. intros x. destruct (e_nsapi x =? e_nsapi e) eqn:E; [lia|reflexivity]. Qed.
Lemma insert_in e l x : In x (map e_nsapi (insert e l)) <-> x = e_nsapi e \/ In x (map e_nsapi l).
Proof.
  induction l as [|y l IH]; cbn [insert map In]; [intuition|]. destruct (e_nsapi e <? e_nsapi y); cbn [map In]; [intuition|]. rewrite IH. intuition.
Qed.
Lemma known m n : by_nsapi m n <> None <-> In n (map e_nsapi (m_sne m)).
Proof.
  unfold by_nsapi. rewrite in_map_iff. split.
  - destruct (find _ _) as [e|] eqn:E; [intros _|congruence]. apply find_some in E. exists e. split; [lia|apply E].
  - intros (e & <- & H). destruct (find _ _) as [x|] eqn:E; [discriminate|]. pose proof (find_none _ _ E e H) as F. cbn beta in F. lia.
Qed.
Lemma lift_ok r s o b : lift r = Ok (s, o, b) -> exists x, r = Ok x /\ s = Some (r_m x).
Proof. unfold lift. destruct r as [x| |]; cbn [bind]; try discriminate. intros H. injection H as <- _ _. eauto. Qed.
Lemma on_same s f s' o b : on s f = Ok (s', o, b) -> (forall m x, f m = Ok x -> map e_nsapi (m_sne (r_m x)) = map e_nsapi (m_sne m)) -> nsapis s' = nsapis s.
Proof.
  intros H F. destruct s as [m|]; cbn [on] in H; [|injection H as <- _ _; reflexivity]. destruct (lift_ok _ _ _ _ H) as (x & E & ->). exact (F m x E).
Qed.
Ltac walk := repeat match goal with
  | H : bind ?r _ = Ok _ |- _ => let E := fresh "E" in destruct r eqn:E; cbn [bind] in H; try discriminate H
  | H : context [let '(_, _) := ?p in _] |- _ => destruct p
  | H : match ?p with _ => _ end = Ok _ |- _ => let E := fresh "E" in destruct p eqn:E; try discriminate H
  | H : Ok _ = Ok _ |- _ => injection H as <-
  end.
Lemma req_same m s n pc dc x : sn_xid_req m s n pc dc = Ok x -> map e_nsapi (m_sne (r_m x)) = map e_nsapi (m_sne m).
Proof. unfold sn_xid_req. intros H. walk; cbn [r_m]; rewrite ?put_same; reflexivity. Qed.
Lemma rsp_same m s n x : sn_xid_rsp m s n = Ok x -> map e_nsapi (m_sne (r_m x)) = map e_nsapi (m_sne m).
Proof. unfold sn_xid_rsp. intros H. walk; cbn [r_m]; rewrite ?put_same; reflexivity. Qed.
Lemma ind_same c m s b l x : ll_xid_ind c m s b l = Ok x -> map e_nsapi (m_sne (r_m x)) = map e_nsapi (m_sne m).
Proof. unfold ll_xid_ind. intros H. walk; cbn [r_m]; rewrite ?put_same; reflexivity. Qed.
Lemma cnf_same c m s b l x : ll_xid_cnf c m s b l = Ok x -> map e_nsapi (m_sne (r_m x)) = map e_nsapi (m_sne m).
Proof. unfold ll_xid_cnf. intros H. walk; unfold confirm; cbn [r_m]; rewrite ?put_same; reflexivity. Qed.
Lemma act_in m n s x k : snsm_activate m n s = Ok x -> (In k (map e_nsapi (m_sne (r_m x))) <-> k = n \/ In k (map e_nsapi (m_sne m))).
Proof.
  unfold snsm_activate, asserts. destruct (n <? 16); [|discriminate]. destruct (by_nsapi m n) as [e|] eqn:E; intros H.
  - assert (In n (map e_nsapi (m_sne m))) as K by (apply known; congruence).
    destruct (e_req e); injection H as <-; cbn [r_m]; rewrite ?put_same; intuition congruence.
  - cbn [e_req] in H. injection H as <-. cbn [r_m m_sne]. apply insert_in.
Qed.
Lemma detach_in m n k : In k (nsapis (detach m n)) <-> k <> n /\ In k (map e_nsapi (m_sne m)).
Proof.
  unfold detach. set (l := filter _ _). assert (In k (map e_nsapi l) <-> k <> n /\ In k (map e_nsapi (m_sne m))) as A.
  { subst l. rewrite !in_map_iff. split.
    - intros (e & <- & H). apply filter_In in H. destruct H as [H1 H2]. split; [lia|eauto].
    - intros (N & e & <- & H). exists e. split; [reflexivity|]. apply filter_In. split; [exact H|lia]. }
  rewrite <- A. destruct l; reflexivity.
Qed.
Lemma deact_in s n s' o b k : snsm_deactivate s n = Ok (s', o, b) -> (In k (nsapis s') <-> k <> n /\ In k (nsapis s)).
Proof.
  unfold snsm_deactivate. destruct s as [m|]; [|intros H; injection H as <- _ _; cbn; intuition]. destruct (negb (n <? 16)); [discriminate|].
  destruct (by_nsapi m n) as [e|] eqn:E; intros H; injection H as <- _ _; [apply detach_in|]. cbn [nsapis]. split; [|intuition]. intros K. split; [|exact K].
  intros ->. apply known in K. congruence.
Qed.
Lemma ev_in c s e s' o b k : do_ev c s e = Ok (s', o, b) ->
  (In k (nsapis s') <-> match e with Act n _ => k = n \/ In k (nsapis s) | Deact n => k <> n /\ In k (nsapis s) | _ => In k (nsapis s) end).
Proof.
  destruct e as [n sapi|n|sapi n pc dc|sapi n|sapi buf len|sapi buf len]; cbn [do_ev]; intros H.
  - destruct (lift_ok _ _ _ _ H) as (x & E & ->). cbn [nsapis]. rewrite (act_in _ _ _ _ k E). destruct s; reflexivity.
  - exact (deact_in _ _ _ _ _ k H).
  - rewrite (on_same _ _ _ _ _ H); [reflexivity|]. intros m x. apply req_same.
  - rewrite (on_same _ _ _ _ _ H); [reflexivity|]. intros m x. apply rsp_same.
  - rewrite (on_same _ _ _ _ _ H); [reflexivity|]. intros m x. apply ind_same.
  - rewrite (on_same _ _ _ _ _ H); [reflexivity|]. intros m x. apply cnf_same.
Qed.
Lemma run_in c l : forall s s' o k a, run c s l = Ok (s', o) -> (In k (nsapis s) <-> a = true) ->
  (In k (nsapis s') <-> fold_left (fun a e => match e with Act n _ => if n =? k then true else a | Deact n => if n =? k then false else a | _ => a end) l a = true).
Proof.
  induction l as [|e l IH]; intros s s' o k a H A; cbn [run fold_left] in *; [injection H as <- _; exact A|].
  destruct (do_ev c s e) as [[[s1 o1] b]| |] eqn:E; cbn [bind] in H; try discriminate. destruct (run c s1 l) as [[s2 o2]| |] eqn:R; cbn [bind fst] in H; try discriminate.
  injection H as <- _. apply (IH s1 s2 o2 k _ R). rewrite (ev_in _ _ _ _ _ _ k E). destruct e as [n sapi|n| | | |]; try exact A.
  - destruct (n =? k) eqn:K; [intuition lia|]. rewrite <- A. intuition lia.
  - destruct (n =? k) eqn:K; [split; [intuition lia|discriminate]|]. rewrite <- A. intuition lia.
Qed.

(** ** C133 *)

(** After any history an NSAPI has an entity if and only if it is in use; and the TLLI is known if and only if some NSAPI is in use. *)
Theorem C133_in_use_partial c l s o : run c None l = Ok (s, o) ->
  (forall n, In n (nsapis s) <-> in_use n l = true) /\ (s <> None <-> exists n, in_use n l = true).
Proof.
  intros H. assert (forall n, In n (nsapis s) <-> in_use n l = true) as A.
  { intros n. apply (run_in c l None s o n false H). cbn. intuition discriminate. }
  split; [exact A|]. enough (forall m, s = Some m -> m_sne m <> []) as Q.
  { split.
    - destruct s as [m|]; [intros _|congruence]. specialize (Q m eq_refl). destruct (m_sne m) as [|e r] eqn:E; [congruence|]. exists (e_nsapi e). apply A. cbn [nsapis]. rewrite E. left. reflexivity.
    - intros [n N] ->. apply A in N. exact N. }
  clear A. enough (forall l s0 s o, (forall m, s0 = Some m -> m_sne m <> []) -> run c s0 l = Ok (s, o) -> forall m, s = Some m -> m_sne m <> []) as G by (apply (G l None s o); [discriminate|exact H]).
  clear. induction l as [|e l IH]; intros s0 s o I H; cbn [run] in H; [injection H as <- _; exact I|].
  destruct (do_ev c s0 e) as [[[s1 o1] b]| |] eqn:E; cbn [bind] in H; try discriminate. destruct (run c s1 l) as [[s2 o2]| |] eqn:R; cbn [bind fst] in H; try discriminate.
  injection H as <- _. apply (IH s1 s2 o2); [|exact R]. clear IH R. intros m -> Z0.
  assert (forall k, ~ In k (nsapis (Some m))) as N by (intros k; cbn [nsapis]; rewrite Z0; intros []).
  assert (forall m0, s0 = Some m0 -> exists k, In k (nsapis s0)) as K.
  { intros m0 ->. specialize (I m0 eq_refl). cbn [nsapis]. destruct (m_sne m0) as [|y r]; [congruence|]. exists (e_nsapi y). left. reflexivity. }
  destruct e as [n sapi|n|sapi n pc dc|sapi n|sapi buf len|sapi buf len].
  1: { apply (N n). apply (ev_in _ _ _ _ _ _ n E). left. reflexivity. }
  1: { cbn [do_ev] in E. unfold snsm_deactivate in E. destruct s0 as [m0|]; [|discriminate]. destruct (negb (n <? 16)); [discriminate|]. destruct (by_nsapi m0 n); injection E as E _ _.
       - unfold detach in E. destruct (filter _ _); [discriminate|]. injection E as <-. discriminate Z0.
       - subst. exact (I _ eq_refl Z0). }
  all: destruct s0 as [m0|]; [|cbn in E; discriminate E]; destruct (K m0 eq_refl) as [k Hk]; apply (N k); apply (ev_in _ _ _ _ _ _ k E); exact Hk.
Qed.

(** The end of a context: it is confirmed once, the entity is gone, those of other NSAPIs are as they were, and if there are none the whole
    state of the TLLI is gone with its compression entities. *)
Theorem C133_end_partial m n : 0 <= n <= 15 -> In n (map e_nsapi (m_sne m)) ->
  exists s', snsm_deactivate (Some m) n = Ok (s', [SnsmDeactivateRsp n], true) /\ ~ In n (nsapis s') /\
    (forall m', s' = Some m' -> forall k, k <> n -> by_nsapi m' k = by_nsapi m k) /\
    (s' = None <-> forall k, In k (map e_nsapi (m_sne m)) -> k = n).
Proof.
  intros Hn H. unfold snsm_deactivate. replace (negb (n <? 16)) with false by lia. apply known in H. destruct (by_nsapi m n) as [e|] eqn:E; [|congruence].
  exists (detach m n). split; [reflexivity|]. split; [intros K; apply detach_in in K; tauto|]. split.
  - unfold detach. intros m' D k N. unfold by_nsapi. assert (m_sne m' = filter (fun e => negb (e_nsapi e =? n)) (m_sne m)) as -> by (destruct (filter _ _); [discriminate|injection D as <-; reflexivity]).
    clear D.
    induction (m_sne m) as [|x r IH]; [reflexivity|]. cbn [filter find]. destruct (e_nsapi x =? n) eqn:X; cbn [negb].
    + replace (e_nsapi x =? k) with false by lia. exact IH.
    + cbn [find]. destruct (e_nsapi x =? k); [reflexivity|exact IH].
  - split.
    + intros D k K. destruct (Z.eq_dec k n) as [->|N]; [reflexivity|]. assert (In k (nsapis (detach m n))) as F by (apply detach_in; auto). rewrite D in F. destruct F.
    + intros A. destruct (detach m n) as [m'|] eqn:D; [|reflexivity]. exfalso. assert (m_sne m' <> []) as NE by (unfold detach in D; destruct (filter _ _); [discriminate|injection D as <-; discriminate]).
      destruct (m_sne m') as [|x r] eqn:X; [congruence|]. assert (In (e_nsapi x) (nsapis (detach m n))) as F by (rewrite D; cbn [nsapis]; rewrite X; left; reflexivity).
      apply detach_in in F. destruct F as [F1 F2]. exact (F1 (A _ F2)).
Qed.

(** The end of a context that is not in use is refused and has no effect. *)
Theorem C133_unknown s n : 0 <= n <= 15 -> ~ In n (nsapis s) -> snsm_deactivate s n = Ok (s, [], false).
Proof.
  intros Hn H. destruct s as [m|]; [|reflexivity]. cbn [snsm_deactivate]. replace (negb (n <? 16)) with false by lia.
  destruct (by_nsapi m n) as [e|] eqn:E; [|reflexivity]. exfalso. apply H. apply known. congruence.
Qed.

(** A context activated when no other is in use, after any history, starts with nothing: its N-PDUs are sent as they are. *)
Theorem C133_fresh_partial c l n sapi s o data : 0 <= n <= 15 -> run c None l = Ok (s, o) -> (forall k, in_use k l = false) ->
  exists m, do_ev c s (Act n sapi) = Ok (Some m, [Neg (SnsmActivateRsp n)], true) /\
    m = mkM [mkSne n sapi [] false false None] [] [] /\ sent (Some m) n data = Some (data, 0).
Proof.
  intros Hn H F. destruct (C133_in_use_partial c l s o H) as [_ B]. assert (s = None) as ->.
  { destruct s; [|reflexivity]. destruct (proj1 B) as [k K]; [discriminate|]. rewrite F in K. discriminate. }
  exists (mkM [mkSne n sapi [] false false None] [] []). split; [|split; [reflexivity|]].
  - cbn [do_ev]. unfold snsm_activate, asserts. replace (n <? 16) with true by lia. reflexivity.
  - unfold sent, pcomp_compress. cbn [m_proto first_with]. unfold zlen. rewrite Nat2Z.id, firstn_all. reflexivity.
Qed.

(** But not while another context is in use: contexts 5 and 6 are active and header compression is agreed for 5; 5 ends and begins again, on
    another SAPI.  An N-PDU of TCP of the new context is handled by the compression agreed for the old one: it is changed and has PCOMP 1, and an end without
    compression for it delivers it as it came, with another protocol number. *)
Definition ask5 : list Z := match gen_xid 5 (Some 3) None with Ok b => b | _ => [] end.
Definition again : list ev := [Act 5 3; Act 6 3; XidInd 3 (ask5 ++ repeat 0 41) (zlen ask5); XidRsp 3 5; Deact 5; Act 5 5].
Theorem C133_fresh_refuted : exists s o d, run both None again = Ok (s, o) /\
  o = [Neg (SnsmActivateRsp 5); Neg (SnsmActivateRsp 6); Neg (SnXidInd 3 5); Neg (LlXidRsp 3 [0; 1; 0; 2; 5; 0; 3; 0; 32; 3]); SnsmDeactivateRsp 5; Neg (SnsmActivateRsp 5)] /\
  sent s 5 (nth 0 stream []) = Some (d, 1) /\ d <> nth 0 stream [] /\ pcomp_expand [] d (zlen d) 1 = Ok ([], d, zlen d).
Proof.
  eexists. eexists. eexists. split; [vm_compute; reflexivity|]. split; [reflexivity|]. split; [vm_compute; reflexivity|]. split; [discriminate|reflexivity].
Qed.

(** Non-vacuity: a history with compression, an end while another is in use, and the end of the last one. *)
Example C133_case : exists s o, run both None again = Ok (s, o) /\ nsapis s = [5; 6] /\ in_use 5 again = true /\ in_use 6 again = true /\ in_use 7 again = false.
Proof. eexists. eexists. split; [vm_compute; reflexivity|]. repeat split. Qed.
Example C133_case_end : exists o, run both None (again ++ [Deact 6; Deact 7; Deact 5; Deact 5]) = Ok (None, o) /\
  skipn 6 o = [SnsmDeactivateRsp 6; SnsmDeactivateRsp 5] /\ (forall k, in_use k (again ++ [Deact 6; Deact 7; Deact 5; Deact 5]) = false).
Proof.
  eexists. split; [vm_compute; reflexivity|]. split; [reflexivity|]. intros k. unfold in_use, again. cbn [app fold_left].
  destruct (5 =? k) eqn:A, (6 =? k) eqn:B, (7 =? k); reflexivity.
Qed.

Print Assumptions C133_in_use_partial.
Print Assumptions C133_end_partial.
Print Assumptions C133_unknown.
Print Assumptions C133_fresh_partial.
Print Assumptions C133_fresh_refuted.
