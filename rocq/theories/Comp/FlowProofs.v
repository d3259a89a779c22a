(** Proofs about both compressions together. *)
From Verif.Lib Require Import Base Outcome.
From Verif.Comp Require Import SlhcModel SlhcSpec SlhcProofs SlhcLink SlhcLink2 SlhcFit SlhcProperties XidModel XidSpec NegModel NegSpec NegFlow V42Model DataModel V42Properties FlowSpec.

(** ** Data compression *)
Definition v42_par (d : Z * Z * Z) (p : list Z) : Prop :=
  let '(p0, p1, p2) := d in 0 <= p0 <= 3 /\ p0 <> 2 /\ 512 <= p1 <= 65535 /\ 6 <= p2 <= 250 /\ (p1 <= 4096 \/ zlen p <= 1918).
(** The tables of the two ends: nothing, or the same algorithm for the NSAPI and the value 1 first. *)
Inductive dp (n : Z) (ok : list Z -> Prop) : list ent -> list ent -> Prop :=
| dp0 : dp n ok [] []
| dp1 i j ns ms d t u : has n ns = true -> has n ms = true -> (forall p, ok p -> v42_par d p) -> dp n ok (mkEnt i V42BIS [1] ns (V42 (Some d)) :: t) (mkEnt j V42BIS [1] ms (V42 (Some d)) :: u).
Lemma dp_sym n ok A B : dp n ok A B -> dp n ok B A.
Proof. intros [|i j ns ms d t u H1 H2 H3]; constructor; assumption. Qed.
Lemma v42_shorter d p q : v42_par d p -> zlen q <= zlen p -> v42_par d q.
Proof. destruct d as [[p0 p1] p2]. cbn [v42_par]. intros (H1 & H2 & H3 & H4 & H5) L. split; [exact H1|]. split; [exact H2|]. split; [exact H3|]. split; [exact H4|]. lia. Qed.
Lemma data_step n ok A B p d : dp n ok A B -> ok p -> bytes d -> zlen d <= zlen p ->
  exists o dc, dcomp_compress A d n = Ok (o, dc) /\ (zlen d < 100 \/ A = [] -> o = d) /\ forall room, zlen d <= room -> dcomp_expand B room o dc = Ok d.
Proof.
  intros [|i j ns ms [[p0 p1] p2] t u H1 H2 H3] O Bd L.
  - exists d, 0. split; [reflexivity|]. split; [reflexivity|]. intros room _. reflexivity.
  - pose proof (v42_shorter _ _ _ (H3 p O) L) as (V1 & V2 & V3 & V4 & V5).
    destruct (C104_round_trip_partial p0 p1 p2 (zlen d) d V1 V2 V3 V4 Bd ltac:(lia) V5) as (o & idx & E & _ & _ & Y).
    unfold dcomp_compress. cbn [first_with en_nsapi]. rewrite H1. cbn [en_alg en_state]. rewrite E. cbn [bind].
    eexists o, _. split; [reflexivity|]. split; [intros [S|S]; [|discriminate]; unfold compress_unitdata in E; replace (zlen d <? 100) with true in E by lia; injection E as <- _; reflexivity|]. intros room Hr.
    destruct (C104_round_trip_partial p0 p1 p2 room d V1 V2 V3 V4 Bd Hr V5) as (o' & idx' & E' & _ & X & _). rewrite E in E'. injection E' as <- <-.
    assert (idx = 0 \/ idx = 1) as [-> | ->] by tauto.
    + unfold dcomp_expand, get_comp. change (0 =? 0) with true. cbv iota. unfold expand_unitdata in X. change (0 =? 0) with true in X. cbv iota in X. exact X.
    + unfold dcomp_expand. change (get_comp _ 1) with 1. change (1 =? 0) with false. cbn [first_with en_comp has existsb]. change (1 =? 1) with true. cbn [orb en_alg en_state]. exact X.
Qed.

(** ** Header compression *)
Inductive hp (n : Z) : list ent -> list ent -> list (list Z * bool * Z) -> list (list Z * bool * Z) -> Prop :=
| hp0 tA tB : hp n [] [] tA tB
| hp1 i j na nb t u SA SB tA tB : has n na = true -> has n nb = true -> J SA SB tA -> J SB SA tB ->
    hp n (tcp_at i na SA :: t) (tcp_at j nb SB :: u) tA tB.
Lemma hp_sym n A B tA tB : hp n A B tA tB -> hp n B A tB tA.
Proof. intros [|]; constructor; assumption. Qed.
Definition unlost (tr : list (list Z * bool * Z)) : Prop := Forall (fun x => snd (fst x) = false) tr.
Lemma unlost_step k tr : unlost tr -> in_step k tr.
Proof. induction 1 as [|[[q l] x] tr H _ IH]; [constructor|]. cbn [fst snd] in H. subst. apply IS_next, IH. Qed.
Lemma head_step n A B tA tB p : hp n A B tA tB -> ipv4 p -> (steady p -> exact p) ->
  (forall q l x, In (q, l, x) tA -> steady q -> steady p -> conn q = conn p -> follows q p) -> unlost tA ->
  exists A' d len pc, pcomp_compress A p n = Ok (A', d, len, pc) /\ bytes (firstn (Z.to_nat len) d) /\ zlen (firstn (Z.to_nat len) d) = len /\ len <= zlen p /\
    (len = zlen p \/ steady p /\ zlen p - Z.of_nat (hip p + htcp p) + 4 <= len) /\
    forall room, zlen p <= len + zlen room ->
    exists B' buf idx, pcomp_expand B (firstn (Z.to_nat len) d ++ room) len pc = Ok (B', buf, zlen p) /\ firstn (length p) buf = p /\ hp n A' B' ((p, false, idx) :: tA) tB.
Proof.
  intros [xA xB|i j na nb t u SA SB xA xB H1 H2 JA JB] H4 Hx Hf Hu.
  - exists [], p, (zlen p), 0. assert (firstn (Z.to_nat (zlen p)) p = p) as E by (unfold zlen; rewrite Nat2Z.id; apply firstn_all). rewrite E.
    split; [reflexivity|]. split; [apply H4|]. split; [reflexivity|]. split; [lia|]. split; [left; reflexivity|]. intros room _. exists [], (p ++ room), 0. split; [reflexivity|]. split; [apply firstn_app_exact; reflexivity|constructor].
  - destruct (hop_fit SA SB xA p JA H4 Hx Hf) as (SA' & d & len & idx & E & Ld & Hl & Hi & N1 & N2 & Bd & R); [intros _; apply unlost_step, Hu|].
    unfold pcomp_compress. cbn [first_with tcp_at en_nsapi]. rewrite H1. change (en_alg (tcp_at i na SA)) with RFC1144. change (en_state (tcp_at i na SA)) with (Tcp (Some SA)). cbv iota. rewrite E. cbn [bind app].
    change (put_state (tcp_at i na SA) SA') with (tcp_at i na SA'). destruct (get_12 i na SA idx Hi) as [-> _].
    eexists _, d, len, idx. split; [reflexivity|]. split; [exact Bd|]. split; [unfold zlen in *; rewrite firstn_length; lia|]. split; [lia|]. split; [destruct (Z.eq_dec idx 2) as [Q|Q]; [right; apply N2, Q|left; apply N1, Q]|]. intros room Hr.
    destruct (R room Hr) as (SB' & buf & E2 & F & J').
    assert (J SB' SA' xB) as JB'. { destruct (expand_tx _ _ _ _ _ _ _ E2) as (T1 & T2 & T3). exact (J_ext _ _ _ _ _ T1 T2 T3 (compress_rx _ _ _ _ _ _ E) JB). }
    unfold pcomp_expand. destruct (idx =? 0) eqn:E0.
    + assert (idx = 0) as -> by lia. unfold rfc1144_expand in E2. change (0 =? 1) with false in E2. change (0 =? 2) with false in E2. cbv iota in E2. injection E2 as -> <- ->.
      exists (tcp_at j nb SB' :: u), (firstn (Z.to_nat (zlen p)) d ++ room), 0. split; [reflexivity|]. split; [exact F|constructor; assumption].
    + cbn [first_with]. change (en_comp (tcp_at j nb SB)) with [1; 2]. cbn [has existsb]. assert ((1 =? idx) || ((2 =? idx) || false) = true) as -> by lia.
      change (en_alg (tcp_at j nb SB)) with RFC1144. change (en_state (tcp_at j nb SB)) with (Tcp (Some SB)). cbv iota. destruct (get_12 j nb SB idx Hi) as [_ ->]. rewrite E2. cbn [bind app].
      change (put_state (tcp_at j nb SB) SB') with (tcp_at j nb SB'). eexists _, buf, idx. split; [reflexivity|]. split; [exact F|constructor; assumption].
Qed.

(** ** One N-PDU *)
(** N-PDUs that need no more memory than there is: short ones, and without data compression those with headers of up to 104 octets. *)
Definition calm (D : list ent) (p : list Z) : Prop := zlen p < 100 \/ D = [] /\ (is_tcp p -> Z.of_nat (hip p + htcp p) <= 104).
Lemma pass_step n ok PA PB DA DB tA tB p : hp n PA PB tA tB -> dp n ok DA DB -> ok p -> ipv4 p -> (steady p -> exact p) ->
  (forall q l x, In (q, l, x) tA -> steady q -> steady p -> conn q = conn p -> follows q p) -> unlost tA ->
  exists PA' o pc dc, squeeze PA DA p n = Ok (PA', o, pc, dc) /\ (calm DA p -> zlen p <= 10 * zlen o + 64) /\
    (zlen p <= 10 * zlen o + 64 -> exists PB' idx, segment PB DB o pc dc = Ok (PB', p) /\ hp n PA' PB' ((p, false, idx) :: tA) tB).
Proof.
  intros HP HD O H4 Hx Hf Hu. destruct (head_step n PA PB tA tB p HP H4 Hx Hf Hu) as (PA' & d & len & pc & E & Bd & Ld & Hl & S & R).
  destruct (data_step n ok DA DB p _ HD O Bd ltac:(lia)) as (o & dc & E2 & S2 & X).
  exists PA', o, pc, dc. unfold squeeze. rewrite E. cbn [bind]. rewrite E2. cbn [bind]. split; [reflexivity|]. pose proof (zlen_nonneg p) as Np. split.
  { intros K. unfold calm in K. assert (o = firstn (Z.to_nat len) d) as -> by (apply S2; destruct K as [K|[K _]]; [left; lia|right; exact K]). rewrite Ld.
    destruct S as [->|[S S']]; [lia|]. destruct H4 as (_ & _ & _ & T). destruct (T (proj1 S)) as [_ T2]. unfold zlen in *. destruct K as [K|[_ K]]; [lia|]. specialize (K (proj1 S)). lia. }
  intros M.
  unfold segment. rewrite X by lia. cbn [bind]. rewrite Ld. set (d' := firstn (Z.to_nat len) d) in *. set (mem := o ++ repeat 0 _).
  assert (zlen mem = zlen o * 10 + 64) as Lm. { unfold mem. rewrite zlen_app. pose proof (zlen_nonneg o). unfold zlen in *. rewrite repeat_length. lia. }
  destruct (R (skipn (length d') mem)) as (PB' & buf & idx & E3 & F & HP'). { unfold zlen in *. rewrite skipn_length. lia. }
  rewrite E3. cbn [bind]. exists PB', idx. split; [|exact HP']. unfold zlen. rewrite Nat2Z.id, F. reflexivity.
Qed.

Definition fit_for (tr : list (list Z * bool * Z)) (ps : list (list Z)) : Prop :=
  forall q l x p, In (q, l, x) tr -> In p ps -> steady q -> steady p -> conn q = conn p -> follows q p.
Lemma fit_next tr p l x ps : ForallOrdPairs (fun q p => steady q -> steady p -> conn q = conn p -> follows q p) (p :: ps) -> fit_for tr (p :: ps) -> fit_for ((p, l, x) :: tr) ps.
Proof.
  intros H F q l' x' r [Hq|Hq] Hr; [injection Hq as <- _ _; inversion H as [|? ? O _]; subst; rewrite Forall_forall in O; apply O, Hr|]. apply (F q l' x' r Hq). right. exact Hr.
Qed.
Lemma legal_tl p ps : legal (p :: ps) -> ipv4 p /\ (steady p -> exact p) /\ legal ps.
Proof. intros [L1 L2]. inversion L1 as [|? ? [A B] C]; subst. inversion L2; subst. split; [exact A|]. split; [exact B|]. split; assumption. Qed.
(** ** Many *)
Theorem talk_ok n ok : forall ps PA PB DA DB tA tB, hp n PA PB tA tB -> dp n ok DA DB ->
  legal (from true ps) -> legal (from false ps) -> Forall ok (map snd ps) ->
  fit_for tA (from true ps) -> fit_for tB (from false ps) -> unlost tA -> unlost tB ->
  moderate (PA, DA) (PB, DB) n ps \/ Forall (calm DA) (map snd ps) /\ Forall (calm DB) (map snd ps) ->
  exists A B os, talk (PA, DA) (PB, DB) n ps = Ok (A, B, combine os (map snd ps)) /\ length os = length ps.
Proof.
  induction ps as [|[[|] p] ps IH]; intros PA PB DA DB tA tB HP HD LA LB O FA FB UA UB M.
  - exists (PA, DA), (PB, DB), []. split; reflexivity.
  - unfold from in LA, FA. cbn [filter fst snd Bool.eqb map] in LA, FA, O. fold (from true ps) in LA, FA. change (from false ((true, p) :: ps)) with (from false ps) in *.
    destruct (legal_tl _ _ LA) as (L3 & L4 & L5). inversion O as [|? ? O1 O2]; subst.
    destruct (pass_step n ok PA PB DA DB tA tB p HP HD O1 L3 L4) as (PA' & o & pc & dc & E & K & R); [intros q l x Hq; apply (FA q l x p Hq); left; reflexivity|exact UA|].
    assert (zlen p <= 10 * zlen o + 64) as Mo. { destruct M as [M|[M _]]; [cbn [moderate fst snd] in M; exact (proj1 M _ _ _ _ E)|]. cbn [map snd] in M. inversion M; subst. apply K. assumption. }
    destruct (R Mo) as (PB' & idx & E2 & HP').
    assert (pass (PA, DA) (PB, DB) n p = Ok ((PA', DA), (PB', DB), (o, p))) as EP by (unfold pass; cbn [fst snd]; rewrite E; cbn [bind]; rewrite E2; reflexivity).
    destruct (IH PA' PB' DA DB ((p, false, idx) :: tA) tB HP' HD L5 LB O2) as (A & B & os & E3 & Ln); try assumption; [eapply fit_next; [apply LA|exact FA]|constructor; [reflexivity|exact UA]| |].
    { destruct M as [M|[M M']]; [left; cbn [moderate] in M; exact (proj2 M _ _ _ EP)|right]. cbn [map snd] in M, M'. inversion M; subst. inversion M'; subst. split; assumption. }
    exists A, B, (o :: os). cbn [talk]. rewrite EP. cbn [bind]. rewrite E3. split; [reflexivity|]. cbn [length]. lia.
  - unfold from in LB, FB. cbn [filter fst snd Bool.eqb map] in LB, FB, O. fold (from false ps) in LB, FB. change (from true ((false, p) :: ps)) with (from true ps) in *.
    destruct (legal_tl _ _ LB) as (L3 & L4 & L5). inversion O as [|? ? O1 O2]; subst.
    destruct (pass_step n ok PB PA DB DA tB tA p (hp_sym _ _ _ _ _ HP) (dp_sym _ _ _ _ HD) O1 L3 L4) as (PB' & o & pc & dc & E & K & R); [intros q l x Hq; apply (FB q l x p Hq); left; reflexivity|exact UB|].
    assert (zlen p <= 10 * zlen o + 64) as Mo. { destruct M as [M|[_ M]]; [cbn [moderate fst snd] in M; exact (proj1 M _ _ _ _ E)|]. cbn [map snd] in M. inversion M; subst. apply K. assumption. }
    destruct (R Mo) as (PA' & idx & E2 & HP').
    assert (pass (PB, DB) (PA, DA) n p = Ok ((PB', DB), (PA', DA), (o, p))) as EP by (unfold pass; cbn [fst snd]; rewrite E; cbn [bind]; rewrite E2; reflexivity).
    destruct (IH PA' PB' DA DB tA ((p, false, idx) :: tB) (hp_sym _ _ _ _ _ HP') HD LA L5 O2) as (A & B & os & E3 & Ln); try assumption; [eapply fit_next; [apply LB|exact FB]|constructor; [reflexivity|exact UB]| |].
    { destruct M as [M|[M M']]; [left; cbn [moderate] in M; exact (proj2 M _ _ _ EP)|right]. cbn [map snd] in M, M'. inversion M; subst. inversion M'; subst. split; assumption. }
    exists A, B, (o :: os). cbn [talk]. rewrite EP. cbn [bind]. rewrite E3. split; [reflexivity|]. cbn [length]. lia.
Qed.
