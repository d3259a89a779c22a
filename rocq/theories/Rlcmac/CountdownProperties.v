(** Theorems about the countdown procedure (C26). *)
From Verif.Lib Require Import Base Outcome.
From Verif.Rlcmac Require Import RlcDataModel RlcDataSpec RlcDataProofs RlcDataProofs2 CountdownModel CountdownProofs.

(** *** Specification *)
(** Frames are not empty; GPRS coding schemes have 20 to 50 data octets. *)
Definition sane (e : ev) : Prop :=
  match e with Queue fs => Forall (fun f => f <> []) fs | NewCs dlen => 20 <= dlen <= 64 | _ => True end.
(** Blocks are asked for and frames arrive; the network changes nothing. *)
Definition quiet (e : ev) : Prop := match e with Block | Queue _ => True | _ => False end.
Definition blocks_asked (es : list ev) : Z := zlen (filter (fun e => match e with Block => true | _ => false end) es).
Definition cv_of (o : Z * Z * list Z) : Z := fst (fst o).
(** n-1, ..., 1, 0 *)
Definition down (n : Z) : list Z := rev (map Z.of_nat (seq 0 (Z.to_nat n))).

(** *** Proofs *)
Record inv (s : cd) : Prop := mkinv {
  i_nts : cd_nts s = 1; i_max : 0 <= cd_max s <= 15; i_dlen : 20 <= cd_dlen s <= 64; i_ok : frames_ok (cd_pend s);
  i_cv : cd_active s = true -> cd_pend s <> [] -> cd_cv s = 15 \/ (0 <= cd_cv s < 15 /\ counts (usable s) 0 (cd_pend s) (cd_cv s + 1)) }.
Lemma start_inv dlen ti cvmax tlli : 20 <= dlen <= 64 -> 0 <= cvmax <= 15 -> inv (start dlen ti 1 cvmax tlli).
Proof. intros H1 H2. constructor; cbn [start cd_nts cd_max cd_dlen cd_pend cd_active]; [reflexivity|exact H2|exact H1|constructor|discriminate]. Qed.
Lemma usable_range s : inv s -> 16 <= usable s <= 64.
Proof. intros H. destruct H as [_ _ H _ _]. unfold usable. destruct (cd_ti s); lia. Qed.
Lemma calc_spec s : inv s -> cd_pend s <> [] ->
  exists cv n, calc s = Ok cv /\ counts (usable s) 0 (cd_pend s) n /\ ((0 <= cv < 15 /\ n = cv + 1) \/ (cv = 15 /\ 2 <= n)).
Proof.
  intros Hi Hp. pose proof (usable_range s Hi) as HD. destruct (counts_exist (usable s) ltac:(lia) (cd_pend s) (i_ok s Hi) Hp) as (n & Hc & Hn & _).
  unfold calc. rewrite (i_nts s Hi). pose proof (i_max s Hi). rewrite (calculate_spec (usable s) (cd_max s) (cd_pend s) n ltac:(lia) ltac:(lia) (i_ok s Hi) Hc Hn).
  eexists _, n. split; [reflexivity|]. split; [exact Hc|]. destruct (Z.leb_spec (n - 1) (cd_max s)); lia.
Qed.
Lemma calc_nil s : inv s -> cd_pend s = [] -> calc s = Ok 0.
Proof. intros Hi Hp. unfold calc. rewrite Hp, (i_nts s Hi). cbn. pose proof (i_max s Hi). destruct (Z.leb_spec 0 (cd_max s)); [reflexivity|lia]. Qed.

Lemma check_enter_spec s : inv s -> cd_pend s <> [] ->
  exists cv n active, check_enter s = Ok (set_cv s active cv) /\ counts (usable s) 0 (cd_pend s) n /\
    ((0 <= cv < 15 /\ n = cv + 1 /\ active = true) \/ (cv = 15 /\ 2 <= n)) /\
    (cd_active s = true -> cd_cv s <> 15 -> cv = cd_cv s /\ active = true).
Proof.
  intros Hi Hp. unfold check_enter. destruct (calc_spec s Hi Hp) as (cv & n & E & Hc & Hcase). destruct (cd_active s) eqn:Ea.
  - destruct (Z.eqb_spec (cd_cv s) 15) as [H15|H15].
    + rewrite E. cbn [bind]. exists cv, n, true. split; [reflexivity|]. split; [exact Hc|]. split; [destruct Hcase as [[? ?]|?]; auto|congruence].
    + destruct (i_cv s Hi Ea Hp) as [H|[H1 H2]]; [congruence|]. exists (cd_cv s), (cd_cv s + 1), true. split; [|auto 6]. unfold set_cv. rewrite <- Ea. now destruct s.
  - rewrite E. cbn [bind]. exists cv, n, (cv <? 15). split; [reflexivity|]. split; [exact Hc|]. split; [|discriminate].
    destruct Hcase as [[H1 H2]|H]; [left|right; exact H]. split; [exact H1|]. split; [exact H2|]. apply Z.ltb_lt. lia.
Qed.

Lemma new_block_spec s : inv s -> cd_pend s <> [] ->
  exists s' cv e oct, new_block s = Ok (s', (cv, e, oct)) /\ inv s' /\ 0 <= cv <= 15 /\ zlen oct = cd_dlen s /\ (cv = 0 <-> cd_pend s' = []) /\
    (cv < 15 -> cd_active s' = true) /\ (0 < cv < 15 -> cd_cv s' = cv - 1) /\ (cd_active s = true -> cd_cv s <> 15 -> cv = cd_cv s) /\
    create_block (cd_dlen s) (cd_ti s) (cd_tlli s) (cv =? 0) (cd_pend s) = Ok (e, oct, cd_pend s') /\ (cv = 0 -> need (cd_pend s) <= usable s).
Proof.
  intros Hi Hp. destruct (check_enter_spec s Hi Hp) as (cv & n & active & E & Hc & Hcase & Hkeep). pose proof (usable_range s Hi) as HD.
  destruct (counts_exist (usable s) ltac:(lia) (cd_pend s) (i_ok s Hi) Hp) as (n' & Hc' & Hn' & Hone). rewrite (counts_fun _ _ _ _ _ Hc' Hc) in *. clear n' Hc'.
  unfold new_block. rewrite E. cbn [bind set_cv cd_dlen cd_ti cd_tlli cd_pend cd_cv cd_active cd_nts cd_max]. pose proof (i_dlen s Hi) as Hd.
  destruct (create_sizes (cd_dlen s) (cd_ti s) (cd_tlli s) (cv =? 0) (cd_pend s) ltac:(lia) (i_ok s Hi) Hp) as (e & oct & Ec & Hz).
  { intros H. apply Z.eqb_eq in H. apply Hone. lia. }
  fold (usable s) in Ec. rewrite Ec. cbn [bind]. eexists _, cv, e, oct. split; [reflexivity|]. cbn [cd_pend cd_active cd_cv].
  assert (Hleft : cv <> 0 -> left_over (usable s) (cd_pend s) <> [] /\ frames_ok (left_over (usable s) (cd_pend s)) /\ counts (usable s) 0 (left_over (usable s) (cd_pend s)) (n - 1)).
  { intros Hcv. assert (Hneed : usable s < need (cd_pend s)) by lia.
    destruct (left_over_ok (usable s) ltac:(lia) (cd_pend s) (usable s) ltac:(lia) (i_ok s Hi) Hneed) as (H1 & H2 & _). split; [exact H1|]. split; [exact H2|].
    apply (counts_step (usable s) (cd_pend s) (usable s) n ltac:(lia) ltac:(lia) (i_ok s Hi) Hneed). replace (usable s - usable s) with 0 by lia. exact Hc. }
  split; [|split; [lia|split; [exact Hz|split; [|split; [|split; [|split; [|split]]]]]]].
  - constructor; cbn [cd_nts cd_max cd_dlen cd_pend cd_active cd_cv]; [apply Hi|apply Hi|apply Hi| |].
    + destruct (Z.eqb_spec cv 0); [constructor|]. now apply Hleft.
    + intros Ha Hne. unfold usable. cbn [cd_ti cd_dlen]. fold (usable s). destruct (Z.eqb_spec cv 0) as [|Hcv]; [congruence|]. destruct (Hleft Hcv) as (_ & _ & Hcl).
      destruct (Z.ltb_spec cv 15); [|left; lia]. right. rewrite Z.mod_small by lia. split; [lia|]. replace (cv - 1 + 1) with (n - 1) by lia. exact Hcl.
  - destruct (Z.eqb_spec cv 0) as [->|Hcv]; [tauto|]. split; [congruence|]. intros H. destruct (Hleft Hcv) as [H1 _]. congruence.
  - intros H. destruct Hcase as [(_ & _ & ->)|[-> _]]; [reflexivity|lia].
  - intros H. rewrite (proj2 (Z.ltb_lt cv 15)) by lia. apply Z.mod_small. lia.
  - intros Ha Hn. now apply Hkeep.
  - exact Ec.
  - intros ->. apply Hone. lia.
Qed.

Lemma update_inv s : (cd_nts s = 1 /\ 0 <= cd_max s <= 15 /\ 20 <= cd_dlen s <= 64 /\ frames_ok (cd_pend s)) -> exists s', update_cv s = Ok s' /\ inv s'.
Proof.
  intros (H1 & H2 & H3 & H4). unfold update_cv. destruct (cd_active s) eqn:Ea.
  - assert (Hi : inv (set_cv s false 0)) by (constructor; cbn; try assumption; discriminate).
    destruct (cd_pend s) as [|m r] eqn:Ep.
    + pose proof (calc_nil _ Hi Ep) as E. change (calc (set_cv s false 0)) with (calc s) in E. rewrite E. cbn [bind]. eexists. split; [reflexivity|]. constructor; cbn; try assumption; [now rewrite Ep|]. intros _ Hn. congruence.
    + destruct (calc_spec _ Hi) as (cv & n & E & Hc & Hcase); [cbn [set_cv cd_pend]; rewrite Ep; discriminate|]. change (calc (set_cv s false 0)) with (calc s) in E. rewrite E. cbn [bind]. eexists. split; [reflexivity|].
      constructor; cbn [set_cv cd_nts cd_max cd_dlen cd_pend cd_active cd_cv]; try assumption; [rewrite Ep; exact H4|]. intros _ _. destruct Hcase as [[Hr ->]|[-> _]]; [right; auto|left; reflexivity].
  - exists s. split; [reflexivity|]. constructor; try assumption. congruence.
Qed.
Lemma step_inv s e : inv s -> sane e -> exists s' o, step s e = Ok (s', o) /\ inv s'.
Proof.
  intros Hi Hs. destruct e as [|fs|dlen|]; cbn [step sane] in *.
  - destruct (cd_pend s) as [|m r] eqn:Ep; [eauto|]. destruct (new_block_spec s Hi ltac:(rewrite Ep; discriminate)) as (s' & cv & e & oct & E & Hi' & _). rewrite E. cbn [bind]. eauto.
  - destruct (cd_active s) eqn:Ea; [eauto|]. eexists _, _. split; [reflexivity|]. destruct Hi as [H1 H2 H3 H4 _]. constructor; cbn [with_pend cd_nts cd_max cd_dlen cd_pend cd_active]; try assumption; [|congruence].
    destruct (cd_pend s) as [|m r]; [exact Hs|]. inversion H4; subst. constructor; assumption.
  - destruct (cd_dlen s =? dlen); [eauto|]. destruct (update_inv (mkcd (cd_active s) (cd_cv s) dlen (cd_ti s) (cd_nts s) (cd_max s) (cd_tlli s) (cd_pend s))) as (s' & E & Hi').
    { destruct Hi. cbn. auto. } rewrite E. cbn [bind]. eauto.
  - destruct (update_inv (mkcd (cd_active s) (cd_cv s) (cd_dlen s) false (cd_nts s) (cd_max s) (cd_tlli s) (cd_pend s))) as (s' & E & Hi').
    { destruct Hi. cbn. auto. } rewrite E. cbn [bind]. eauto.
Qed.
Lemma run_inv es : forall s, inv s -> Forall sane es -> exists s' o, run s es = Ok (s', o) /\ inv s'.
Proof.
  induction es as [|e es IH]; intros s Hi Hs; cbn [run]; [eauto|]. inversion Hs as [|? ? He Hes]; subst. destruct (step_inv s e Hi He) as (s1 & o1 & E1 & Hi1). rewrite E1. cbn [bind].
  destruct (IH s1 Hi1 Hes) as (s2 & o2 & E2 & Hi2). rewrite E2. cbn [bind]. eauto.
Qed.
Lemma down_succ n : 0 <= n -> down (n + 1) = n :: down n.
Proof.
  intros H. unfold down. replace (Z.to_nat (n + 1)) with (S (Z.to_nat n)) by lia. rewrite seq_S, map_app, rev_app_distr. cbn [map rev app Nat.add]. f_equal. lia.
Qed.
(** Once counting, the blocks carry c-1 .. 0 and then nothing is left. *)
Lemma countdown_run es : forall s, inv s -> cd_active s = true -> Forall quiet es -> (cd_pend s = [] /\ blocks_asked es = 0 \/ 0 <= cd_cv s < 15 /\ cd_pend s <> [] /\ blocks_asked es = cd_cv s + 1) ->
  exists s' o, run s es = Ok (s', o) /\ map cv_of o = down (blocks_asked es) /\ cd_pend s' = [].
Proof.
  induction es as [|e es IH]; intros s Hi Ha Hq Hc; cbn [run].
  - unfold blocks_asked in *. cbn [filter] in *. change (zlen (@nil ev)) with 0 in *. exists s, []. destruct Hc as [[Hc _]|Hc]; [auto|lia].
  - inversion Hq as [|? ? He Hes]; subst. destruct e as [|fs|dlen|]; cbn [quiet] in He; try contradiction.
    + assert (Hb : blocks_asked (Block :: es) = blocks_asked es + 1) by (unfold blocks_asked; cbn [filter]; now rewrite zlen_cons).
      assert (Hpos : 0 <= blocks_asked es) by apply zlen_nonneg. destruct Hc as [[_ Hc]|(Hr & Hp & Hc)]; [lia|]. rewrite Hb in Hc |- *. cbn [step].
      destruct (new_block_spec s Hi Hp) as (s1 & cv & ee & oct & E & Hi1 & H015 & _ & Hzero & Hact & Hnext & Hkeep & _). rewrite (Hkeep Ha ltac:(lia)) in *. clear Hkeep.
      destruct (cd_pend s) as [|m r] eqn:Ep; [congruence|]. rewrite E. cbn [bind].
      destruct (IH s1 Hi1 (Hact ltac:(lia)) Hes) as (s2 & o & E2 & Hd & Hp2).
      { destruct (Z.eqb_spec (cd_cv s) 0) as [H0|H0]; [left; split; [now apply Hzero|lia]|]. right. rewrite Hnext by lia. split; [lia|]. split; [|lia]. intros Hn. apply Hzero in Hn. congruence. }
      rewrite E2. cbn [bind]. eexists _, _. split; [reflexivity|]. cbn [app map]. rewrite Hd, down_succ by lia. split; [|exact Hp2]. unfold cv_of. cbn [fst]. f_equal. lia.
    + assert (Hb : blocks_asked (Queue fs :: es) = blocks_asked es) by reflexivity. rewrite Hb in *. cbn [step]. rewrite Ha. cbn [bind].
      destruct (IH s Hi Ha Hes Hc) as (s2 & o & E2 & Hd & Hp2). rewrite E2. cbn [bind]. eexists _, _. split; [reflexivity|]. cbn [app]. auto.
Qed.

(** *** C26 for one timeslot: at any time during any history, the next block carries countdown value 0 exactly if it
    takes all that is pending; if it carries c < 15, then the following blocks carry c-1, ..., 0 whatever frames are
    handed over meanwhile, and after them nothing is left.  What is missing: several timeslots (refuted below). *)
Theorem C26_countdown_partial : forall dlen ti cvmax tlli es,
  20 <= dlen <= 64 -> 0 <= cvmax <= 15 -> Forall sane es ->
  exists s outs, run (start dlen ti 1 cvmax tlli) es = Ok (s, outs) /\
    (cd_pend s <> [] ->
     exists s' cv e oct, step s Block = Ok (s', [(cv, e, oct)]) /\ 0 <= cv <= 15 /\ zlen oct = cd_dlen s /\ (cv = 0 <-> cd_pend s' = []) /\
       (cv < 15 -> forall es', Forall quiet es' -> blocks_asked es' = cv ->
        exists s'' outs', run s' es' = Ok (s'', outs') /\ map cv_of outs' = down cv /\ cd_pend s'' = [])).
Proof.
  intros dlen ti cvmax tlli es Hd Hm Hs.
  assert (Hi : inv (start dlen ti 1 cvmax tlli)) by (apply start_inv; assumption).
  destruct (run_inv es _ Hi Hs) as (s & o & E & His). exists s, o. split; [exact E|]. intros Hp.
  destruct (new_block_spec s His Hp) as (s' & cv & e & oct & En & Hi' & Hr & Hz & H0 & Hact & Hnext & _). exists s', cv, e, oct. cbn [step].
  destruct (cd_pend s) as [|m r] eqn:Ep; [congruence|]. rewrite En. cbn [bind]. split; [reflexivity|]. split; [exact Hr|]. split; [exact Hz|]. split; [exact H0|].
  intros Hlt es' Hq Hb. rewrite <- Hb. apply countdown_run; [exact Hi'|auto|exact Hq|].
  destruct (Z.eqb_spec cv 0) as [->|Hne]; [left; split; [now apply H0|exact Hb]|]. right. rewrite Hnext by lia. split; [lia|]. split; [|lia]. intros Hn. apply H0 in Hn. congruence.
Qed.
Print Assumptions C26_countdown_partial.

(** ... and a block marked as the last one meets the condition under which C19 shows that it can be read back. *)
Theorem C26_last_block_fits_partial : forall dlen ti cvmax tlli es s outs s' e oct,
  20 <= dlen <= 64 -> 0 <= cvmax <= 15 -> Forall sane es ->
  run (start dlen ti 1 cvmax tlli) es = Ok (s, outs) -> cd_pend s <> [] -> step s Block = Ok (s', [(0, e, oct)]) ->
  need (cd_pend s) <= (if cd_ti s then cd_dlen s - 4 else cd_dlen s) /\
  create_block (cd_dlen s) (cd_ti s) (cd_tlli s) true (cd_pend s) = Ok (e, oct, []).
Proof.
  intros dlen ti cvmax tlli es s outs s' e oct Hd Hm Hs E Hp Hb.
  assert (Hi : inv (start dlen ti 1 cvmax tlli)) by (apply start_inv; assumption).
  destruct (run_inv es _ Hi Hs) as (s1 & o1 & E1 & His). rewrite E in E1. injection E1 as <- <-.
  destruct (new_block_spec s His Hp) as (s2 & cv & e2 & oct2 & En & _ & _ & _ & H0 & _ & _ & _ & Hc & Hn). cbn [step] in Hb.
  destruct (cd_pend s) as [|m r] eqn:Ep; [congruence|]. rewrite En in Hb. cbn [bind] in Hb. injection Hb as -> -> -> ->.
  split; [exact (Hn eq_refl)|]. rewrite (proj1 H0 eq_refl) in Hc. exact Hc.
Qed.
Print Assumptions C26_last_block_fits_partial.

(** Two frames of 30 and 25 octets in blocks of 20, BS_CV_MAX 2; a third frame handed over after the countdown
    began is not counted, a change to blocks of 30 octets shortens the count. *)
Definition fr (n : nat) : list Z := repeat 7 n.
Example C26_nonvacuous :
  match run (start 20 true 1 2 0xdeadbeef) [Queue [fr 30; fr 25]; Block; Block; Resolved; Queue [fr 40]; Block; Block] with
  | Ok (s, o) => map cv_of o = [15; 2; 1; 0] /\ cd_pend s = [] | _ => False end /\
  match run (start 20 true 1 2 0xdeadbeef) [Queue [fr 30; fr 25]; Block; Block; NewCs 50; Queue [fr 40]; Block; Block] with
  | Ok (s, o) => map cv_of o = [15; 2; 0] /\ cd_pend s = [] | _ => False end.
Proof. now vm_compute. Qed.

(** Two timeslots: three blocks are needed, the values carried are 1, 0 and 255 (sent as 15): data follow a block
    with value 0. *)
Theorem C26_multislot_refuted : exists es s outs, Forall sane es /\ run (start 20 false 2 15 0) es = Ok (s, outs) /\
  map cv_of outs = [1; 0; 255] /\ cd_pend s = [].
Proof.
  exists [Queue [fr 45]; Block; Block; Block].
  destruct (run (start 20 false 2 15 0) [Queue [fr 45]; Block; Block; Block]) as [[s o]|z|] eqn:E; vm_compute in E; try discriminate E.
  injection E as <- <-. eexists _, _. split; [repeat constructor; cbn; discriminate|]. split; [reflexivity|]. now vm_compute.
Qed.
Print Assumptions C26_multislot_refuted.
