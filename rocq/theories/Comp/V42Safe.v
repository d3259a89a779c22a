(** The expander of V.42bis on any octets. *)
From Verif.Lib Require Import Base Outcome.
From Verif.Comp Require Import V42Model V42Dict V42Sync.

(** [n] entries from [e] up to the root. *)
Inductive pth (d : Z -> node) : Z -> Z -> Prop :=
| pth_0 : pth d 0 0
| pth_S e n : 3 <= e < 4096 -> pth d (n_par (d e)) n -> pth d e (n + 1).

Lemma pth_nonneg d e n : pth d e n -> 0 <= n.
Proof. induction 1; lia. Qed.
Lemma pth_spell d e n : pth d e n -> forall fuel, n <= Z.of_nat fuel -> exists w, spell_out fuel d e = Ok w /\ zlen w = n.
Proof.
  induction 1 as [|e n He H IH]; intros fuel L.
  - exists []. destruct fuel; split; reflexivity.
  - pose proof (pth_nonneg _ _ _ H). destruct fuel as [|f]; [lia|]. cbn [spell_out]. replace (e =? 0) with false by lia. unfold need. replace (e <? 4096) with true by lia.
    destruct (IH f ltac:(lia)) as (w & E & W). rewrite E. cbn [bind]. eexists. split; [reflexivity|]. rewrite zlen_app, W. reflexivity.
Qed.

Section Safe.
Variables (n2 n7 : Z).
Hypothesis Hn2 : 512 <= n2 <= 4096.
Hypothesis Hn7 : 6 <= n7 <= 250.

Lemma par_range d c1 e : dok n2 d c1 -> e <> c1 -> n_par (d e) = 0 \/ (3 <= n_par (d e) < 4096 /\ n_par (d e) <> c1).
Proof.
  intros (kids & I) Ne. destruct (Z.eq_dec (n_par (d e)) 0) as [|N]; [now left|right].
  assert (259 <= e < n2) as He. { destruct (Z_lt_dec e 259); [exfalso; apply N, (di_out _ _ _ _ I); lia|]. destruct (Z_le_dec n2 e); [exfalso; apply N, (di_out _ _ _ _ I); lia|lia]. }
  pose proof (di_par _ _ _ _ I e He Ne N) as K. split; [apply (di_kid _ _ _ _ I _ _ K)|]. intros E. rewrite E, (di_free _ _ _ _ I) in K. exact K.
Qed.
Lemma pth_keep d d' c1 e n : dok n2 d c1 -> (forall e, e <> c1 -> n_par (d' e) = n_par (d e)) -> pth d e n -> e <> c1 -> pth d' e n.
Proof.
  intros OK AG. induction 1 as [|e n He H IH]; intros Ne; [constructor|]. constructor; [exact He|]. rewrite AG by exact Ne. apply IH.
  destruct (par_range d c1 e OK Ne) as [P|P]; [|tauto]. destruct OK as (k & I). pose proof (di_c1 _ _ _ _ I). lia.
Qed.

(** Every entry but the free one leads to the root in at most [n7] steps. *)
Definition short (d : Z -> node) (c1 : Z) : Prop := forall e, 3 <= e < 4096 -> e <> c1 -> exists n, pth d e n /\ n <= n7.
Definition dgood (k : dct) : Prop :=
  dok n2 (d_node k) (d_c1 k) /\ short (d_node k) (d_c1 k) /\ (d_la k = 0 \/ 259 <= d_la k).
Definition at_upd (k : dct) : Prop :=
  d_upd k = 0 \/ (3 <= d_upd k < 4096 /\ d_upd k <> d_c1 k /\ d_lm k = 0 /\ exists n, pth (d_node k) (d_upd k) n /\ n < n7).
Definition at_lm (k : dct) (str : list Z) : Prop :=
  (d_lm k = 0 \/ (3 <= d_lm k < 4096 /\ d_lm k <> d_c1 k)) /\ exists n, pth (d_node k) (d_lm k) n /\ zlen str = n /\ n < n7.
Definition sgood (s : vst) : Prop :=
  dgood (v_d s) /\ at_upd (v_d s) /\ at_lm (v_d s) (v_str s) /\ (v_tr s = false -> d_lm (v_d s) = 0) /\ 0 <= v_bc s < 8 /\ 9 <= v_c2 s /\ byte (v_esc s).

Lemma add_good d c1 u x n : dok n2 d c1 -> short d c1 -> 3 <= u < 4096 -> u <> c1 -> pth d u n -> n < n7 ->
  exists d' c1', add_octet n2 d c1 u x = Ok (d', c1') /\ dok n2 d' c1' /\ short d' c1' /\
    (forall e m, pth d e m -> e <> c1 -> pth d' e m) /\ 259 <= c1.
Proof.
  intros OK SH Hu Nu P L. destruct (add_ok n2 d c1 u x OK Hu Nu) as (d' & c1' & A & OK' & AG & PC & _).
  exists d', c1'. split; [exact A|]. split; [exact OK'|].
  assert (forall e m, pth d e m -> e <> c1 -> pth d' e m) as K by (intros e m Q N; apply (pth_keep d d' c1 e m OK); [intros; apply AG; assumption|exact Q|exact N]).
  assert (259 <= c1 < 4096) as C by (destruct OK as (k & I); pose proof (di_c1 _ _ _ _ I); pose proof (di_n2 _ _ _ _ I); lia).
  split; [|split; [exact K|lia]]. intros e He Ne. destruct (Z.eq_dec e c1) as [->|N].
  - exists (n + 1). split; [|lia]. constructor; [exact He|]. rewrite PC. apply K; assumption.
  - destruct (SH e He N) as (m & Q & M). exists m. split; [apply K; assumption|exact M].
Qed.

Lemma refresh_good k x : dgood k -> at_upd k -> (d_upd k <> 0 -> d_lm k = 0) ->
  exists k', refresh n2 k x = Ok k' /\ dgood k' /\ d_upd k' = 0 /\ d_lm k' = d_lm k /\
    (d_lm k <> 0 -> k' = k).
Proof.
  intros (OK & SH & LA) U UL. unfold refresh. destruct (d_upd k =? 0) eqn:E.
  - exists k. split; [reflexivity|]. split; [exact (conj OK (conj SH LA))|]. split; [lia|]. auto.
  - destruct U as [U|(U1 & U2 & U3 & n & U4 & U5)]; [lia|]. destruct (match_ok n2 _ _ (d_upd k) x OK ltac:(lia)) as (r & R & Q). rewrite R. cbn [bind].
    destruct (r =? 0) eqn:E0.
    + destruct (add_good _ _ (d_upd k) x n OK SH U1 U2 U4 U5) as (d' & c1' & A & OK' & SH' & K & C). rewrite A. cbn [bind fst snd].
      eexists. split; [reflexivity|]. split; [exact (conj OK' (conj SH' (or_intror C)))|]. split; [reflexivity|]. split; [reflexivity|]. intros N. exfalso. apply N, UL. lia.
    + eexists. split; [reflexivity|]. split; [exact (conj OK (conj SH LA))|]. split; [reflexivity|]. split; [reflexivity|]. intros N. exfalso. apply N, UL. lia.
Qed.

Lemma upd_lm k : at_upd k -> d_upd k <> 0 -> d_lm k = 0.
Proof. intros [H|(_ & _ & H & _)] N; [contradiction|exact H]. Qed.

(** One pass: the octet is used, or the next pass begins at the root. *)
Lemma try_good s x : sgood s -> v_tr s = true -> byte x ->
  exists s' o again, one_try n2 n7 s x = Ok (s', o, again) /\ sgood s' /\ v_tr s' = true /\ (again = true -> d_lm (v_d s') = 0 /\ d_lm (v_d s) <> 0) /\
    v_c2 s' = v_c2 s.
Proof.
  intros (DG & U & (L1 & n & L2 & L3 & L4) & _ & B & C & Ee) T Hx. unfold one_try.
  destruct (refresh_good (v_d s) x DG U (upd_lm _ U)) as (k & R & DK & U0 & LM & SAME). rewrite R. cbn [bind]. rewrite LM.
  assert (forall z : Z, v_tr s = false -> z = 0) as TT by (intros; congruence).
  assert (d_lm (v_d s) = 0 \/ d_lm (v_d s) <> 0) as [Z0|NZ] by lia.
  - rewrite Z0. unfold match_octet. change (0 =? 0) with true. cbv iota. cbn [bind]. replace (x + 3 =? 0) with false by (unfold byte in Hx; lia).
    replace (x + 3 =? d_la k) with false by (destruct DK as (_ & _ & [Q|Q]); unfold byte in Hx; lia).
    assert (n = 0) as -> by (rewrite Z0 in L2; inversion L2; lia). unfold need. replace (zlen (v_str s) <? 250) with true by lia.
    assert (v_str s = []) as -> by (apply length_zero_iff_nil; unfold zlen in L3; lia). cbn [app]. replace (zlen [x] =? n7) with false by (change (zlen [x]) with 1; lia).
    eexists _, _, _. split; [reflexivity|]. split; [|split; [exact T|split; [discriminate|reflexivity]]].
    destruct DK as (OK & SH & LA). pose proof OK as (kids & I). destruct (di_root _ _ _ _ I x Hx) as (RP & _).
    refine (conj (conj OK (conj SH LA)) (conj (or_introl U0) (conj _ (conj (TT _) (conj B (conj C Ee)))))).
    pose proof (di_c1 _ _ _ _ I). unfold byte in Hx. split; [right; cbn; lia|]. exists 1. split; [|split; [reflexivity|lia]].
    change 1 with (0 + 1). constructor; [cbn; lia|]. cbn. rewrite RP. constructor.
  - specialize (SAME NZ). subst k. destruct L1 as [L1|L1]; [contradiction|]. destruct DK as (OK & SH & LA).
    destruct (match_ok n2 _ _ (d_lm (v_d s)) x OK ltac:(lia)) as (r & M & Q). rewrite M. cbn [bind].
    destruct (r =? 0) eqn:E0; [|destruct (r =? d_la (v_d s)) eqn:E1].
    + eexists _, _, _. split; [reflexivity|]. split; [|split; [exact T|split; [split; [reflexivity|exact NZ]|reflexivity]]].
      refine (conj (conj OK (conj SH LA)) (conj (or_intror _) (conj _ (conj (TT _) (conj B (conj C Ee)))))).
      * cbn. split; [lia|]. split; [tauto|]. split; [reflexivity|]. exists n. split; [exact L2|exact L4].
      * split; [left; reflexivity|]. exists 0. split; [constructor|]. split; [reflexivity|lia].
    + eexists _, _, _. split; [reflexivity|]. split; [|split; [exact T|split; [split; [reflexivity|exact NZ]|reflexivity]]].
      refine (conj (conj OK (conj SH (or_introl eq_refl))) (conj (or_introl U0) (conj _ (conj (TT _) (conj B (conj C Ee)))))).
      split; [left; reflexivity|]. exists 0. split; [constructor|]. split; [reflexivity|lia].
    + unfold need. replace (zlen (v_str s) <? 250) with true by lia. cbv zeta. destruct (zlen (v_str s ++ [x]) =? n7) eqn:E2.
      * eexists _, _, _. split; [reflexivity|]. split; [|split; [exact T|split; [discriminate|reflexivity]]].
        refine (conj (conj OK (conj SH LA)) (conj (or_introl U0) (conj _ (conj (TT _) (conj B (conj C Ee)))))).
        split; [left; reflexivity|]. exists 0. split; [constructor|]. split; [reflexivity|lia].
      * eexists _, _, _. split; [reflexivity|]. split; [|split; [exact T|split; [discriminate|reflexivity]]].
        refine (conj (conj OK (conj SH LA)) (conj (or_introl U0) (conj _ (conj (TT _) (conj B (conj C Ee)))))).
        destruct Q as [->|(Q1 & Q2 & Q3 & Q4)]; [discriminate|]. split; [right; cbn; lia|]. exists (n + 1). rewrite zlen_app in E2. change (zlen [x]) with 1 in E2.
        split; [|cbn [v_str set_str]; rewrite zlen_app; change (zlen [x]) with 1; lia]. constructor; [cbn; lia|]. cbn. rewrite Q3. exact L2.
Qed.

Lemma tries_good s x : sgood s -> v_tr s = true -> byte x ->
  exists s' o, two_tries n2 n7 s x = Ok (s', o, true) /\ sgood s' /\ v_c2 s' = v_c2 s.
Proof.
  intros G T Hx. unfold two_tries. destruct (try_good s x G T Hx) as (s1 & o1 & a1 & E1 & G1 & T1 & A1 & C1). rewrite E1. cbn [bind]. destruct a1.
  - destruct (try_good s1 x G1 T1 Hx) as (s2 & o2 & a2 & E2 & G2 & T2 & A2 & C2). rewrite E2. cbn [bind]. destruct a2; [destruct (A1 eq_refl), (A2 eq_refl); contradiction|].
    exists s2, (o1 ++ o2). split; [reflexivity|]. split; [exact G2|lia].
  - exists s1, o1. split; [reflexivity|]. split; [exact G1|exact C1].
Qed.

Lemma fill_good c2 : 9 <= c2 <= 12 -> forall inp bb bc, 0 <= bc -> bc < c2 -> bytes inp ->
  exists bb' bc' r, fill c2 bb bc inp = Ok (bb', bc', r) /\ bytes r /\ (length r <= length inp)%nat /\ (inp <> [] -> (length r < length inp)%nat) /\
    (bc' < c2 -> r = []) /\ (c2 <= bc' -> bc' < c2 + 8).
Proof.
  intros Hc. induction inp as [|x inp IH]; intros bb bc H0 H1 B.
  - exists bb, bc, []. cbn [fill]. replace (c2 <=? bc) with false by lia. split; [reflexivity|]. split; [exact B|]. split; [lia|]. split; [congruence|]. split; [auto|lia].
  - cbn [fill]. replace (c2 <=? bc) with false by lia. unfold need. replace (bc <? 24) with true by lia. inversion B; subst.
    destruct (Z_lt_dec (bc + 8) c2) as [L|L].
    + destruct (IH (Z.lor bb (Z.shiftl x bc)) (bc + 8) ltac:(lia) L H4) as (bb' & bc' & r & E & R1 & R2 & R3 & R4 & R5).
      exists bb', bc', r. split; [exact E|]. cbn [length]. split; [exact R1|]. split; [lia|]. split; [lia|]. auto.
    + assert (fill c2 (Z.lor bb (Z.shiftl x bc)) (bc + 8) inp = Ok (Z.lor bb (Z.shiftl x bc), bc + 8, inp)) as E by (destruct inp; cbn [fill]; replace (c2 <=? bc + 8) with true by lia; reflexivity).
      rewrite E. eexists _, _, _. split; [reflexivity|]. cbn [length]. split; [assumption|]. split; [lia|]. split; [lia|]. split; lia.
Qed.

Lemma esc_after_byte w : forall e, byte e -> byte (esc_after e w).
Proof. induction w as [|x w IH]; intros e H; cbn [esc_after]; [exact H|]. apply IH. destruct (x =? e); [unfold byte; lia|exact H]. Qed.

Lemma code_good s code : sgood s -> v_tr s = false -> 3 <= code < 4096 ->
  (exists e, codeword n2 n7 s code = Err e) \/ exists s' o, codeword n2 n7 s code = Ok (s', o) /\ sgood s' /\ v_c2 s' = v_c2 s.
Proof.
  intros ((OK & SH & LA) & U & (_ & n0 & L2 & L3 & _) & T & B & C & Ee) Ht Hc. unfold codeword. specialize (T Ht).
  destruct (code =? d_c1 (v_d s)) eqn:E; [left; eexists; reflexivity|].
  destruct (SH code Hc ltac:(lia)) as (n & P & N). destruct (pth_spell _ _ _ P (Z.to_nat 4096) ltac:(lia)) as (w & SW & W). rewrite SW. cbn [bind].
  assert (v_str s = []) as ->. { rewrite T in L2. inversion L2; subst; [|lia]. apply length_zero_iff_nil. unfold zlen in *. lia. }
  cbn [app]. unfold need. replace (zlen w <=? 250) with true by lia.
  assert (forall k, dgood k -> d_lm k = 0 -> code <> d_c1 k -> pth (d_node k) code n ->
    sgood (set_str (set_esc (set_d s (set_upd k (if zlen w =? n7 then 0 else code))) (esc_after (v_esc s) w)) [])) as FIN.
  { intros k (OK' & SH' & LA') Lk Ck Pk. refine (conj (conj OK' (conj SH' LA')) (conj _ (conj _ (conj (fun _ => Lk) (conj B (conj C (esc_after_byte _ _ Ee))))))).
    - unfold at_upd. cbn. destruct (zlen w =? n7) eqn:E1; [now left|right]. split; [exact Hc|]. split; [exact Ck|]. split; [exact Lk|]. exists n. split; [exact Pk|lia].
    - split; [left; exact Lk|]. exists 0. cbn. rewrite Lk. split; [constructor|]. split; [reflexivity|lia]. }
  destruct (d_upd (v_d s) =? 0) eqn:E1.
  - right. eexists _, _. split; [reflexivity|]. split; [|reflexivity]. apply FIN; [exact (conj OK (conj SH LA))|exact T|lia|exact P].
  - destruct U as [U|(U1 & U2 & U3 & m & U4 & U5)]; [lia|]. destruct (match_ok n2 _ _ (d_upd (v_d s)) (nth 0 w 0) OK ltac:(lia)) as (r & M & Q). rewrite M. cbn [bind].
    destruct (r =? 0) eqn:E0.
    + destruct (add_good _ _ (d_upd (v_d s)) (nth 0 w 0) m OK SH U1 U2 U4 U5) as (d' & c1' & A & OK' & SH' & K & C1). rewrite A. cbn [bind fst snd].
      destruct (code =? c1') eqn:E2; [left; eexists; reflexivity|]. right. eexists _, _. split; [reflexivity|]. split; [|reflexivity].
      apply FIN; [exact (conj OK' (conj SH' (or_intror C1)))|exact T|cbn; lia|]. cbn. apply K; [exact P|lia].
    + right. destruct (r =? d_la (v_d s)) eqn:E2; eexists _, _; (split; [reflexivity|]); (split; [|reflexivity]).
      * apply FIN; [exact (conj OK (conj SH (or_introl eq_refl)))|exact T|cbn; lia|exact P].
      * apply FIN; [exact (conj OK (conj SH LA))|exact T|lia|exact P].
Qed.

Lemma init_good : sgood init.
Proof.
  pose proof (dict0_ok n2 Hn2) as OK.
  refine (conj (conj OK (conj _ (or_introl eq_refl))) (conj (or_introl eq_refl) (conj (conj (or_introl eq_refl) _) (conj _ (conj _ (conj _ _)))))); try (cbn; unfold byte; lia); try discriminate.
  - intros e He Ne. exists 1. split; [|lia]. change 1 with (0 + 1). constructor; [exact He|]. cbn. unfold dict0. destruct ((3 <=? e) && (e <? 259)); constructor.
  - exists 0. split; [constructor|]. split; [reflexivity|lia].
Qed.

Lemma step_good s inp : sgood s -> v_c2 s <= 12 -> bytes inp -> inp <> [] ->
  (exists e, dec_step n2 n7 s inp = Err e) \/
  exists s' r o, dec_step n2 n7 s inp = Ok (s', r, o) /\ (length r < length inp)%nat /\ bytes r /\ (r = [] \/ sgood s').
Proof.
  intros G C12 B N. destruct inp as [|x rest]; [congruence|]. inversion B as [|? ? Bx Br]; subst. unfold dec_step. destruct (v_tr s) eqn:T.
  - destruct (v_escd s) eqn:ES.
    + assert (sgood (set_escd s false)) as G' by exact G. destruct G as (DG & U & LM & TL & Bc & C & Ee).
      destruct (x =? 0) eqn:X0; [|destruct (x =? 1) eqn:X1; [|destruct (x =? 2) eqn:X2]].
      * right. eexists _, _, _. split; [reflexivity|]. cbn [length]. split; [lia|]. split; [exact Br|]. right.
        destruct DG as (OK & SH & LA). destruct LM as (L1 & n & L2 & L3 & L4).
        refine (conj (conj OK (conj SH LA)) (conj _ (conj _ (conj (fun _ => eq_refl) (conj Bc (conj C Ee)))))).
        -- destruct L1 as [L1|L1]; [left; exact L1|right]. cbn. split; [lia|]. split; [tauto|]. split; [reflexivity|]. exists n. split; [exact L2|exact L4].
        -- split; [left; reflexivity|]. exists 0. split; [constructor|]. split; [reflexivity|lia].
      * assert (sgood (set_esc (set_escd s false) ((v_esc (set_escd s false) + 51) mod 256))) as G2.
        { refine (conj DG (conj U (conj LM (conj TL (conj Bc (conj C _)))))). cbn. unfold byte. lia. }
        destruct (tries_good _ (v_esc s) G2 T Ee) as (s' & o & E & G3 & _). right. cbv zeta. change (v_esc (set_escd s false)) with (v_esc s) in *. rewrite E. cbn [bind].
        eexists _, _, _. split; [reflexivity|]. cbn [length]. split; [lia|]. split; [exact Br|]. right. exact G3.
      * right. eexists _, _, _. split; [reflexivity|]. cbn [length]. split; [lia|]. split; [exact Br|]. right. exact init_good.
      * left. eexists. reflexivity.
    + destruct (x =? v_esc s) eqn:XE.
      * right. eexists _, _, _. split; [reflexivity|]. cbn [length]. split; [lia|]. split; [exact Br|]. right. exact G.
      * destruct (tries_good s x G T Bx) as (s' & o & E & G3 & _). right. rewrite E. cbn [bind].
        eexists _, _, _. split; [reflexivity|]. cbn [length]. split; [lia|]. split; [exact Br|]. right. exact G3.
  - pose proof G as (DG & U & LM & TL & Bc & C & Ee).
    destruct (fill_good (v_c2 s) ltac:(lia) (x :: rest) (v_bb s) (v_bc s) ltac:(lia) ltac:(lia) B) as (bb & bc & r & E & R1 & _ & R3 & R4 & R5). specialize (R3 N). rewrite E. cbn [bind].
    destruct (bc <? v_c2 s) eqn:EB.
    + right. eexists _, _, _. split; [reflexivity|]. split; [exact R3|]. split; [exact R1|]. left. apply R4. lia.
    + unfold need. replace (v_c2 s <? 31) with true by lia. cbv zeta.
      assert (0 <= Z.land bb (Z.shiftl 1 (v_c2 s) - 1) mod 65536 < 4096) as RC.
      { rewrite Z.shiftl_1_l. replace (2 ^ v_c2 s - 1) with (Z.ones (v_c2 s)) by (rewrite Z.ones_equiv; lia). rewrite Z.land_ones by lia.
        pose proof (Z.mod_pos_bound bb (2 ^ v_c2 s) ltac:(lia)). assert (2 ^ v_c2 s <= 2 ^ 12) by (apply Z.pow_le_mono_r; lia). change (2 ^ 12) with 4096 in *.
        rewrite Z.mod_small; lia. }
      set (code := Z.land bb (Z.shiftl 1 (v_c2 s) - 1) mod 65536) in *. clearbody code. specialize (TL T). specialize (R5 ltac:(lia)).
      destruct DG as (OK & SH & LA). destruct LM as (L1 & n & L2 & L3 & L4).
      destruct (code =? 0) eqn:C0; [|destruct (code =? 1) eqn:C1; [|destruct (code =? 2) eqn:C2]].
      * right. eexists _, _, _. split; [reflexivity|]. split; [exact R3|]. split; [exact R1|]. right.
        refine (conj (conj OK (conj SH (or_introl eq_refl))) (conj _ (conj _ (conj (fun _ => eq_refl) (conj _ (conj C Ee)))))); [| |cbn; lia].
        -- destruct U as [U|(U1 & U2 & U3 & U4)]; [left; exact U|right]. split; [exact U1|]. split; [exact U2|]. split; [reflexivity|exact U4].
        -- split; [left; reflexivity|]. exists n. rewrite TL in L2. split; [exact L2|]. split; [exact L3|exact L4].
      * right. eexists _, _, _. split; [reflexivity|]. split; [exact R3|]. split; [exact R1|]. right.
        refine (conj (conj OK (conj SH LA)) (conj U (conj _ (conj (fun _ => TL) (conj _ (conj C Ee)))))); [|cbn; lia].
        split; [exact L1|]. exists n. split; [exact L2|]. split; [exact L3|exact L4].
      * match goal with |- context [Z.shiftr n2 3 <? ?c] => destruct (Z.shiftr n2 3 <? c) end; [left; eexists; reflexivity|]. right.
        eexists _, _, _. split; [reflexivity|]. split; [exact R3|]. split; [exact R1|]. right.
        refine (conj (conj OK (conj SH LA)) (conj U (conj _ (conj (fun _ => TL) (conj _ (conj _ Ee)))))); [|cbn; lia|cbn; lia].
        split; [exact L1|]. exists n. split; [exact L2|]. split; [exact L3|exact L4].
      * destruct (code_good (set_bits s (Z.shiftr bb (v_c2 s)) (bc - v_c2 s)) code) as [(e & E2)|(s' & o & E2 & G2 & _)].
        -- refine (conj (conj OK (conj SH LA)) (conj U (conj _ (conj (fun _ => TL) (conj _ (conj C Ee)))))); [|cbn; lia].
           split; [exact L1|]. exists n. split; [exact L2|]. split; [exact L3|exact L4].
        -- exact T.
        -- lia.
        -- left. rewrite E2. exists e. reflexivity.
        -- right. rewrite E2. cbn [bind]. eexists _, _, _. split; [reflexivity|]. split; [exact R3|]. split; [exact R1|]. right. exact G2.
Qed.

Lemma loop_good fuel : forall s inp, sgood s -> bytes inp -> (length inp <= fuel)%nat ->
  (forall s' r o, dsteps n2 n7 s inp s' r o -> r <> [] -> v_c2 s' <= 12) -> dec_loop fuel n2 n7 s inp <> UB.
Proof.
  induction fuel as [|f IH]; intros s inp G B L W; destruct inp as [|x rest]; try (cbn; discriminate); [cbn in L; lia|].
  destruct (step_good s (x :: rest) G (W _ _ _ (ds_nil _ _ s _) ltac:(discriminate)) B ltac:(discriminate)) as [(e & E)|(s1 & r & o & E & L1 & B1 & G1)]; cbn [dec_loop]; rewrite E; cbn [bind]; [discriminate|].
  assert (dec_loop f n2 n7 s1 r <> UB) as Q.
  { destruct G1 as [-> | G1]; [destruct f; cbn; discriminate|]. apply IH; [exact G1|exact B1|lia|]. intros s2 r2 o2 D. apply (W s2 r2 (o ++ o2)). eapply ds_step; [discriminate|exact E|exact L1|exact D]. }
  destruct (dec_loop f n2 n7 s1 r) as [[s2 p]| |]; cbn [bind]; congruence.
Qed.
End Safe.

Theorem hostile_ok n2 n7 inp : 512 <= n2 <= 4096 -> 6 <= n7 <= 250 -> bytes inp ->
  (forall s r o, dsteps n2 n7 init inp s r o -> r <> [] -> v_c2 s <= 12) -> decompress n2 n7 inp <> UB.
Proof.
  intros H2 H7 B W. unfold decompress. pose proof (loop_good n2 n7 H2 H7 (length inp) init inp (init_good n2 n7 H2 H7) B (le_n _) W) as Q.
  destruct (dec_loop (length inp) n2 n7 init inp) as [[s o]| |]; cbn [bind]; congruence.
Qed.
