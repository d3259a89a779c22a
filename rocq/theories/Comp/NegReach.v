From Verif.Lib Require Import Base Outcome.
From Verif.Comp Require Import SlhcModel XidModel XidSpec XidProofs XidRead XidCode XidSafe NegModel NegSpec NegProofs NegAnswer NegAsk.

(** ** What the decoder gives, whatever the octets *)
Definition par_shape (p : params) : Prop := length (p_vals p) = length (widths (p_alg p)) /\ nsapi_set (p_nsapi p).
Lemma sapis_shape m i n ns : dec_sapis m i n = Ok (Some ns) -> nsapi_set ns.
Proof.
  unfold dec_sapis. destruct (n <? 2); [discriminate|]. destruct (rd m i) as [a| |]; cbn [bind]; try discriminate. destruct (rd m (i + 1)) as [b| |]; cbn [bind]; try discriminate.
  generalize (fun k => Z.testbit (a * 256 + b) k). intros P H. injection H as <-.
  assert (forall l, StronglySorted Z.lt l -> Forall (fun n => 5 <= n <= 15) l -> nsapi_set (filter P l)) as G.
  { induction 1 as [|x l S IH F]; intros R; [split; constructor|]. inversion R as [|? ? R1 R2]; subst. destruct (IH R2) as [S' R']. cbn [filter]. destruct (P x); [|split; assumption]. split; constructor; try assumption.
    apply Forall_forall. intros y Hy. apply filter_In in Hy as [Hy _]. rewrite Forall_forall in F. apply F. exact Hy. }
  change (if P 5 then _ else _) with (filter P [5; 6; 7; 8; 9; 10; 11; 12; 13; 14; 15]). apply G; [|repeat (constructor; [lia|]); constructor]. repeat (constructor; [|repeat (constructor; [lia|]); constructor]). constructor.
Qed.
Lemma vals_shape a tab : forall done m i n vs c al, dec_vals a done tab m i n = Ok (Some (vs, c, al)) -> length vs = length tab.
Proof.
  induction tab as [|[[w lo] hi] tab IH]; intros done m i n vs c al H; cbn [dec_vals] in H; [injection H as <- _ _; reflexivity|].
  destruct (dec_num w m i n lo hi) as [[v|]| |]; cbn [bind] in H; try discriminate; [|injection H as <- _ _; cbn [length]; rewrite repeat_length; reflexivity].
  destruct (negb (related a (done ++ [v]))); [discriminate|]. destruct (dec_vals a (done ++ [v]) tab m (i + w) (n - w)) as [[[[vs' c'] e']|]| |] eqn:E; cbn [bind] in H; try discriminate.
  injection H as <- _ _. cbn [length]. f_equal. eapply IH. exact E.
Qed.
Lemma nset_nil : nsapi_set []. Proof. split; constructor. Qed.
Lemma params_shape a m i n p c : dec_params a m i n = Ok (Some (p, c)) -> par_shape p /\ p_alg p = a.
Proof.
  unfold dec_params. destruct (dec_sapis m i n) as [[ns|]| |] eqn:ES; cbn [bind]; try discriminate.
  - apply sapis_shape in ES. destruct (dec_vals a [] (dtab a) m (i + 2) (n - 2)) as [[[[vs c'] al]|]| |] eqn:E; cbn [bind]; try discriminate. apply vals_shape in E. rewrite len_widths in E.
    assert (forall pr, par_shape (mkPar a ns vs pr)) as G by (intros pr; split; assumption).
    destruct a; try (intros H; injection H as <- _; split; [apply G|reflexivity]). destruct al; [|intros H; injection H as <- _; split; [apply G|reflexivity]].
    destruct (dec_prof 16 m (i + 2 + c') (n - 2 - c')) as [z| |]; cbn [bind]; try discriminate. intros H. injection H as <- _. split; [apply G|reflexivity].
  - intros H. injection H as <- _. split; [|reflexivity]. split; [cbn [p_vals p_alg]; rewrite repeat_length, len_widths; reflexivity|exact nset_nil].
Qed.
Lemma nibbles_shape k : forall odd m i cs, Forall byte m -> dec_nibbles k odd m i = Ok cs -> length cs = k /\ Forall (fun c => 0 <= c <= 15) cs.
Proof.
  induction k as [|k IH]; intros odd m i cs B H; cbn [dec_nibbles] in H; [injection H as <-; split; [reflexivity|constructor]|].
  destruct (rd m i) as [o| |] eqn:ER; cbn [bind] in H; try discriminate. destruct (dec_nibbles k (negb odd) m _) as [r| |] eqn:E; cbn [bind] in H; try discriminate. injection H as <-.
  destruct (IH _ _ _ _ B E) as [L F]. cbn [length]. split; [f_equal; exact L|]. constructor; [|exact F].
  assert (0 <= o < 256) as Ho. { unfold rd in ER. destruct ((0 <=? i) && (i <? zlen m)) eqn:?; [|discriminate]. injection ER as <-. assert (In (nth (Z.to_nat i) m 0) m) as Hin by (apply nth_In; unfold zlen in *; lia). rewrite Forall_forall in B. exact (B _ Hin). }
  destruct odd; [pose proof (Z.mod_pos_bound o 16 ltac:(lia)); lia|]. split; [apply Z.div_pos; lia|]. apply Z.lt_succ_r. apply Z.div_lt_upper_bound; lia.
Qed.
Definition fshape (lt : option table) (cls : Z) (f : field) : Prop :=
  0 <= f_entity f <= 31 /\
  match f_par f with
  | None => True
  | Some p => par_shape p /\ alg_of cls (f_algo f) = Some (p_alg p) /\
    ((f_p f = true /\ length (f_comp f) = n_comps (p_alg p) /\ Forall (fun c => 0 <= c <= 15) (f_comp f)) \/
     (f_comp f = [] /\ lookup_algo (f_entity f) cls lt = f_algo f))
  end.
Lemma field_shape m i n lt cls f c : Forall byte m -> dec_field m i n lt cls = Ok (Some (f, c)) -> fshape lt cls f.
Proof.
  intros B. unfold dec_field. destruct (n <? 1); [discriminate|]. destruct (rd m i) as [b0| |]; cbn [bind]; try discriminate. cbv zeta.
  destruct (128 <=? b0) eqn:EP.
  - destruct (rd m (i + 1)) as [b1| |]; cbn [bind]; try discriminate. destruct (rd m (i + 2)) as [len| |]; cbn [bind]; try discriminate.
    destruct (alg_of cls (b1 mod 32)) as [al|] eqn:EA; [|discriminate]. destruct (dec_nibbles (Z.to_nat (num_comps al)) false m (i + 2 + 1)) as [cs| |] eqn:EN; cbn [bind]; try discriminate.
    destruct (dec_params al m _ _) as [[[pr c']|]| |] eqn:ED; cbn [bind]; try discriminate. intros H. injection H as <- _. destruct (params_shape _ _ _ _ _ _ ED) as [S E]. destruct (nibbles_shape _ _ _ _ _ B EN) as [L F].
    split; [cbn [f_entity]; pose proof (Z.mod_pos_bound b0 32 ltac:(lia)); lia|]. cbn [f_par f_algo f_p f_comp]. split; [exact S|]. rewrite E. split; [exact EA|]. left. rewrite L, n_comps_num. auto.
  - cbn [bind]. destruct (rd m (i + 1)) as [len| |]; cbn [bind]; try discriminate. cbn [dec_nibbles Z.to_nat bind].
    destruct (alg_of cls (lookup_algo (b0 mod 32) cls lt)) as [al|] eqn:EA.
    + destruct (dec_params al m _ _) as [[[pr c']|]| |] eqn:ED; cbn [bind]; try discriminate. intros H. injection H as <- _. destruct (params_shape _ _ _ _ _ _ ED) as [S E].
      split; [cbn [f_entity]; pose proof (Z.mod_pos_bound b0 32 ltac:(lia)); lia|]. cbn [f_par f_algo f_p f_comp f_entity]. split; [exact S|]. rewrite E. split; [exact EA|]. right. auto.
    + destruct (sint _ <? 0); [discriminate|]. intros H. injection H as <- _. split; [cbn [f_entity]; pose proof (Z.mod_pos_bound b0 32 ltac:(lia)); lia|exact I].
Qed.
Lemma block_shape fuel : forall m i n lt cls cnt fs, Forall byte m -> dec_block fuel m i n lt cls cnt = Ok (Some fs) -> Forall (fshape lt cls) fs.
Proof.
  induction fuel as [|fuel IH]; intros m i n lt cls cnt fs B; cbn [dec_block]; destruct (64 <? cnt); try discriminate.
  destruct (dec_field m i n lt cls) as [[[f c]|]| |] eqn:E; cbn [bind]; try discriminate. pose proof (field_shape _ _ _ _ _ _ _ B E) as S. destruct (0 <? n - c).
  - destruct (dec_block fuel m (i + c) (n - c) lt cls (cnt + 1)) as [[fs'|]| |] eqn:E2; cbn [bind]; try discriminate. intros H. injection H as <-. constructor; [exact S|eapply IH; eassumption].
  - intros H. injection H as <-. constructor; [exact S|constructor].
Qed.
Definition shape (lt : option table) (f : field) : Prop := exists cls, (cls = 1 \/ cls = 2) /\ fshape lt cls f.
Lemma xid_shape fuel : forall m i n lt v fs r, Forall byte m -> Forall (shape lt) fs -> dec_xid fuel m i n lt v fs = Ok (Some r) -> Forall (shape lt) (snd r).
Proof.
  induction fuel as [|fuel IH]; intros m i n lt v fs r B F; cbn [dec_xid]; [discriminate|]. destruct (tlv_one m i n) as [[[t l]|]| |] eqn:ET; cbn [bind]; try discriminate.
  assert (0 <= t <= 2) as Ht.
  { unfold tlv_one in ET. destruct (n <? 1); [discriminate|]. destruct (rd m i) as [t'| |] eqn:ER; cbn [bind] in ET; try discriminate. destruct (2 <? t') eqn:?; [discriminate|]. destruct (n <? 2); [discriminate|]. destruct (rd m (i + 1)) as [l'| |]; cbn [bind] in ET; try discriminate. destruct (n <? l' + 2); [discriminate|]. injection ET as -> ->.
    unfold rd in ER. destruct ((0 <=? i) && (i <? zlen m)) eqn:?; [|discriminate]. injection ER as <-. assert (In (nth (Z.to_nat i) m 0) m) as Hin by (apply nth_In; unfold zlen in *; lia). rewrite Forall_forall in B. pose proof (B _ Hin) as Hb. unfold byte in Hb. lia. }
  destruct (match v with Some _ => _ | None => _ end) as [v'| |]; cbn [bind]; try discriminate.
  destruct (t =? 0) eqn:E0; cbn [bind].
  - cbn [rev app]. destruct (n - (l + 2) <=? 2); [intros H; injection H as <-; exact F|]. apply IH; assumption.
  - destruct (dec_block 65 m (i + 2) l lt t 0) as [[new|]| |] eqn:EB; cbn [bind]; try discriminate.
    assert (Forall (shape lt) (rev new ++ fs)) as F2. { apply Forall_app. split; [|exact F]. apply Forall_rev. pose proof (block_shape _ _ _ _ _ _ _ _ B EB) as G. revert G. apply Forall_impl. intros f Hf. exists t. split; [lia|exact Hf]. }
    destruct (n - (l + 2) <=? 2); [intros H; injection H as <-; exact F2|]. apply IH; assumption.
Qed.

(** ** What is left of it for the tables *)
Definition usable (f : field) : Prop :=
  0 <= f_entity f <= 31 /\
  match f_par f with
  | None => True
  | Some p => par_shape p /\ length (f_comp f) = n_comps (p_alg p) /\ Forall (fun c => 0 <= c <= 15) (f_comp f)
  end.
Lemma shape_none f : shape None f -> usable f.
Proof.
  intros (cls & Hc & H1 & H2). split; [exact H1|]. destruct (f_par f) as [p|]; [|exact I]. destruct H2 as (S & EA & [(_ & L & F)|(_ & E)]); [auto|]. cbn [lookup_algo] in E. rewrite <- E in EA. destruct Hc as [-> | ->]; discriminate.
Qed.
Lemma alg_of_inv cls a al : alg_of cls a = Some al -> kind al = cls /\ number al = a.
Proof.
  unfold alg_of. destruct (cls =? 2) eqn:?; [|destruct (cls =? 1) eqn:?; [|discriminate]]; destruct (a =? 0) eqn:?; [| destruct (a =? 1) eqn:?; [|destruct (a =? 2) eqn:?; [|discriminate]] | | destruct (a =? 1) eqn:?; [|discriminate]]; intros H; injection H as <-; cbn; lia.
Qed.
Lemma find_algo_in e cls lt a : a <> 3 -> find_algo e cls lt = a -> In (e, cls, a) lt.
Proof.
  induction lt as [|[[e' c'] a'] lt IH]; intros Ha H; cbn [find_algo] in H; [congruence|]. destruct ((e' =? e) && (c' =? cls)) eqn:E; [left; f_equal; [f_equal; lia|exact H]|right; apply IH; assumption].
Qed.
Lemma fill_len ds : forall ss, length (fill ds ss) = length ds.
Proof. induction ds as [|d ds IH]; intros [|s ss]; cbn [fill length]; [reflexivity|reflexivity|reflexivity|f_equal; apply IH]. Qed.
Lemma alg_eqb_true a b : alg_eqb a b = true -> a = b.
Proof. destruct a, b; cbn; intros H; congruence || reflexivity. Qed.
Lemma complete_shape xs : request xs -> forall f f', shape (Some (map (fun f => (f_entity f, class f, f_algo f)) (map x_field xs))) f ->
  complete_field f true (map x_field xs) = (f', true) -> usable f'.
Proof.
  intros [F N] f f' (cls & Hc & H1 & H2) H.
  destruct (in_dec Z.eq_dec (f_entity f) (map x_entity xs)) as [Hin|Hout].
  - apply in_map_iff in Hin as (x & Ex & Hx). rewrite Forall_forall in F. destruct (F x Hx) as ((_ & _ & _ & HC & _) & _ & cs & Ecs). rewrite Ecs in HC. destruct HC as [HC1 HC2].
    assert (exists p, f_par f = Some p /\ p_alg p = x_alg x /\ f' = mkF (f_p f) (f_entity f) (f_algo f) cs (Some (mkPar (p_alg p) (p_nsapi p) (fill (p_vals p) (p_vals (x_par x))) (match p_prof p with [] => [] | _ => x_prof x end)))) as (p & Ep & Ea & ->).
    { clear F H2. revert N Hx H. induction xs as [|z xs IH]; intros N Hx H; [destruct Hx|]. cbn [map] in N. inversion N as [|? ? N1 N2]; subst. cbn [map complete_field] in H. change (f_entity (x_field z)) with (x_entity z) in H.
      destruct (x_entity z =? f_entity f) eqn:E.
      - assert (z = x) as ->. { destruct Hx as [->|Hx]; [reflexivity|]. exfalso. apply N1. replace (x_entity z) with (x_entity x) by lia. apply in_map. exact Hx. }
        assert (forall g ok, f_entity g = f_entity f -> complete_field g ok (map x_field xs) = (g, ok)) as M.
        { intros g ok Eg. apply complete_miss. apply Forall_forall. intros w Hw Ew. apply N1. replace (x_entity x) with (x_entity w) by lia. apply in_map. exact Hw. }
        change (f_par (x_field x)) with (Some (x_par x)) in H. destruct (f_par f) as [p|]; [|cbn [complete_params] in H; rewrite M in H by reflexivity; congruence]. cbn [complete_params] in H.
        destruct (alg_eqb (p_alg p) (p_alg (x_par x))) eqn:EA; [|rewrite M in H by reflexivity; congruence]. rewrite M in H by reflexivity. injection H as <-. exists p. split; [reflexivity|]. split; [apply alg_eqb_true in EA; exact EA|].
        cbn [x_field f_comp]. rewrite Ecs. destruct cs as [|c0 cs]; [destruct (x_alg x); discriminate|]. reflexivity.
      - destruct Hx as [->|Hx]; [lia|]. apply IH; assumption. }
    rewrite Ep in H2. destruct H2 as ([S1 S2] & _ & _). split; [exact H1|]. cbn [f_par f_comp]. split; [|cbn [p_alg]; rewrite Ea; auto]. split; [cbn [p_vals p_alg]; rewrite fill_len; exact S1|exact S2].
  - rewrite complete_miss in H by (apply Forall_forall; intros w Hw Ew; apply Hout; rewrite <- Ew; apply in_map; exact Hw). injection H as <-. split; [exact H1|]. destruct (f_par f) as [p|]; [|exact I].
    destruct H2 as (S & EA & [(_ & L & G)|(_ & E)]); [auto|]. exfalso. cbn [lookup_algo] in E. apply Hout.
    assert (f_algo f <> 3) as N3. { intros E3. rewrite E3 in EA. destruct Hc as [-> | ->]; discriminate. }
    pose proof (find_algo_in _ _ _ _ N3 E) as Hin. apply in_map_iff in Hin as (g & Eg & Hg). apply in_map_iff in Hg as (x & <- & Hx). apply in_map_iff. exists x. split; [|exact Hx]. pose proof (f_equal (fun t => fst (fst t)) Eg) as E1. exact E1.
Qed.
Lemma complete_usable xs fs fs' : request xs -> Forall (shape (Some (map (fun f => (f_entity f, class f, f_algo f)) (map x_field xs)))) fs -> complete fs (map x_field xs) = Some fs' -> Forall usable fs'.
Proof.
  intros R. revert fs'. induction fs as [|f fs IH]; intros fs' F H; cbn [complete] in H; [injection H as <-; constructor|]. inversion F as [|? ? F1 F2]; subst.
  destruct (complete_field f true (map x_field xs)) as [f1 ok] eqn:E. destruct ok; [|discriminate]. destruct (complete fs (map x_field xs)) as [r|]; [|discriminate]. injection H as <-. constructor; [eapply complete_shape; eassumption|apply IH; [exact F2|reflexivity]].
Qed.

Lemma handle_safe c t p f k : usable f -> f_par f = Some p -> kind (p_alg p) = k -> table_ok k t -> exists t' f', handle c t p f = Ok (t', f') /\ table_ok k t'.
Proof.
  intros [U1 U2] Ep Ek T. rewrite Ep in U2. destruct U2 as ((S1 & S2) & L & G). unfold handle. cbn [no_prop f_entity]. destruct (without_table _ t (f_entity f) T) as [T2 N2].
  destruct ((match p_alg p with RFC1144 => c_rfc1144 c | V42BIS => c_v42bis c | _ => false end) && (0 <? zlen (p_nsapi p))) eqn:A.
  - unfold comp_add. cbn [f_entity no_prop]. rewrite (delete_ok _ _ _ T). cbn [bind]. unfold comp_create. cbn [f_par no_prop f_entity f_comp]. rewrite Ep.
    apply andb_true_iff in A as [A1 A2]. rewrite A2. cbn [asserts].
    assert (exists s, ctx_init p = Ok s /\ match s with Tcp _ => k = 2 | V42 _ => k = 1 end) as (s & Es & Ks).
    { unfold ctx_init. destruct (p_alg p); try discriminate; cbn [widths length] in S1; cbn [kind] in Ek.
      - destruct (p_vals p) as [|v0 [|]]; try discriminate. eexists. split; [reflexivity|]. cbn. lia.
      - destruct (p_vals p) as [|v0 [|v1 [|v2 [|]]]]; try discriminate. eexists. split; [reflexivity|]. cbn. lia. }
    rewrite Es. cbn [bind]. eexists _, _. split; [reflexivity|]. apply cons_table; [exact T2|exact N2|].
    assert (p_nsapi p <> []) as Hne by (intros E; rewrite E in A2; discriminate).
    subst k. destruct (p_alg p) eqn:Ea; try discriminate; cbn [kind Z.eqb Pos.eqb n_comps] in *; (split; [exact U1|]; split; [reflexivity|]; split; [exact L|]; split; [exact G|]; split; [exact Hne|]; split; [exact S2|exact Ks]).
  - rewrite (delete_ok _ _ _ T). cbn [bind]. eexists _, _. split; [reflexivity|exact T2].
Qed.
Lemma handle_all_safe c fs : forall pt dt, Forall usable fs -> table_ok 2 pt -> table_ok 1 dt -> exists pt' dt' fs', handle_all c pt dt fs = Ok (pt', dt', fs') /\ table_ok 2 pt' /\ table_ok 1 dt'.
Proof.
  induction fs as [|f fs IH]; intros pt dt F T2 T1; [exists pt, dt, []; auto|]. inversion F as [|? ? U F']; subst. cbn [handle_all].
  destruct (f_par f) as [p|] eqn:Ep.
  - unfold class. rewrite Ep, kind_class. destruct (kind (p_alg p) =? 2) eqn:K.
    + destruct (handle_safe c pt p f 2 U Ep ltac:(lia) T2) as (t' & f' & E & T). rewrite E. cbn [bind fst snd]. destruct (IH t' dt F' T T1) as (pt' & dt' & fs' & E2 & Q). rewrite E2. cbn [bind]. eexists _, _, _. split; [reflexivity|exact Q].
    + destruct (handle_safe c dt p f 1 U Ep) as (t' & f' & E & T); [destruct (p_alg p); cbn in *; lia|exact T1|]. rewrite E. cbn [bind fst snd]. destruct (IH pt t' F' T2 T) as (pt' & dt' & fs' & E2 & Q). rewrite E2. cbn [bind]. eexists _, _, _. split; [reflexivity|exact Q].
  - rewrite (delete_ok _ _ _ T2), (delete_ok _ _ _ T1). cbn [bind]. destruct (IH _ _ F' (proj1 (without_table _ _ (f_entity f) T2)) (proj1 (without_table _ _ (f_entity f) T1))) as (pt' & dt' & fs' & E2 & Q). rewrite E2. cbn [bind]. eexists _, _, _. split; [reflexivity|exact Q].
Qed.

(** ** Every history *)
Definition pending (e : sne) : Prop :=
  e_req e = [] \/ exists n pc dc, 5 <= n <= 15 /\ pc_ok pc /\ dc_ok dc /\ wanted n pc dc <> [] /\ e_req e = asking n pc dc.
Definition inv (m : snme) : Prop := mobile_ok m /\ Forall pending (m_sne m).
Lemma put_pending m e : pending e -> Forall pending (m_sne m) -> Forall pending (m_sne (put_sne m e)).
Proof. intros H F. cbn [put_sne m_sne]. rewrite Forall_map. revert F. apply Forall_impl. intros x Hx. destruct (e_nsapi x =? e_nsapi e); assumption. Qed.
Lemma put_inv m pt dt e e' : inv m -> table_ok 2 pt -> table_ok 1 dt -> In e (m_sne m) -> e_nsapi e' = e_nsapi e -> pending e' -> inv (put_sne (mkM (m_sne m) pt dt) e').
Proof.
  intros [(S & R & _ & _) P] T2 T1 Hin En Pe. split; [|apply put_pending; assumption]. rewrite Forall_forall in R. pose proof (R _ Hin) as Re. apply Forall_forall in R.
  split; [rewrite put_nsapis; exact S|]. split; [apply put_range; [lia|exact R]|]. split; assumption.
Qed.
Lemma insert_in e l x : In x (insert e l) -> x = e \/ In x l.
Proof. induction l as [|y l IH]; cbn [insert]; [intros [<-|[]]; auto|]. destruct (e_nsapi e <? e_nsapi y); cbn [In]; intuition auto. Qed.
Lemma insert_sorted e l : StronglySorted Z.lt (map e_nsapi l) -> (forall x, In x l -> e_nsapi x <> e_nsapi e) -> StronglySorted Z.lt (map e_nsapi (insert e l)).
Proof.
  induction l as [|y l IH]; intros S N; cbn [insert map]; [repeat constructor|]. cbn [map] in S. inversion S as [|? ? S1 S2]; subst. destruct (e_nsapi e <? e_nsapi y) eqn:E; cbn [map].
  - constructor; [exact S|]. constructor; [lia|]. revert S2. apply Forall_impl. lia.
  - constructor; [apply IH; [exact S1|intros x Hx; apply N; right; exact Hx]|]. rewrite Forall_map. apply Forall_forall. intros x Hx. apply insert_in in Hx as [->|Hx].
    + specialize (N y (or_introl eq_refl)). lia.
    + rewrite Forall_map, Forall_forall in S2. exact (S2 _ Hx).
Qed.
Lemma activate_ok m n s : inv m -> n <= 15 -> exists r, snsm_activate m n s = Ok r /\ inv (r_m r).
Proof.
  intros [(S & R & T2 & T1) P] Hn. unfold snsm_activate. replace (n <? 16) with true by lia. cbn [asserts]. destruct (by_nsapi m n) as [e|] eqn:E.
  - apply find_some in E as [Hin _]. destruct (e_req e) as [|b q] eqn:Eq; [eexists; split; [reflexivity|]; split; [split; auto|exact P]|].
    eexists. split; [reflexivity|]. cbn [r_m]. destruct m as [l pt dt]. apply (put_inv (mkM l pt dt) pt dt e); [split; [split; auto|exact P]|exact T2|exact T1|exact Hin|reflexivity|].
    rewrite Forall_forall in P. specialize (P e Hin). unfold pending in *. rewrite Eq in P. exact P.
  - cbn [e_req]. eexists. split; [reflexivity|]. cbn [r_m]. pose proof (find_none _ _ E) as N. cbn beta in N. split; [split; [|split; [|split; assumption]]|]; cbn [m_sne].
    + apply insert_sorted; [exact S|]. intros x Hx. specialize (N x Hx). cbn [e_nsapi]. lia.
    + apply Forall_forall. intros x Hx. apply insert_in in Hx as [->|Hx]; [cbn; lia|]. rewrite Forall_forall in R. auto.
    + apply Forall_forall. intros x Hx. apply insert_in in Hx as [->|Hx]; [left; reflexivity|]. rewrite Forall_forall in P. auto.
Qed.
Lemma dlci_in m s n : n <= 15 -> exists x, by_dlci m s n = Ok x /\ forall e, x = Some e -> In e (m_sne m) /\ e_nsapi e = n /\ e_sapi e = s.
Proof.
  intros Hn. unfold by_dlci. replace (n <? 16) with true by lia. cbn [asserts]. eexists. split; [reflexivity|]. intros e He. destruct (by_nsapi m n) as [e'|] eqn:E; [|discriminate]. destruct (e_sapi e' =? s) eqn:Es; [|discriminate]. injection He as <-.
  apply find_some in E as [H1 H2]. repeat split; [exact H1|lia|lia].
Qed.
Lemma empty_table k : table_ok k []. Proof. split; constructor. Qed.
Lemma req_ok m s n pc dc : inv m -> 5 <= n <= 15 -> pc_ok pc -> dc_ok dc -> exists r, sn_xid_req m s n pc dc = Ok r /\ inv (r_m r).
Proof.
  intros I Hn Hp Hd. pose proof I as [(S & R & T2 & T1) P]. destruct (dlci_in m s n ltac:(lia)) as (x & E & Hx). destruct x as [e|].
  - destruct (Hx e eq_refl) as (Hin & <- & <-). destruct (ask m e pc dc (conj S (conj R (conj T2 T1))) Hin Hn Hp Hd) as [EA MA]. rewrite EA. eexists. split; [reflexivity|]. cbn [r_m].
    apply (put_inv m [] [] e); [exact I|apply empty_table|apply empty_table|exact Hin|reflexivity|]. unfold asked_state. destruct (wanted (e_nsapi e) pc dc) eqn:Ew; [left; cbn [e_req]; unfold asking; rewrite Ew; reflexivity|]. right. exists (e_nsapi e), pc, dc. rewrite Ew. repeat split; try assumption; try lia. discriminate.
  - unfold sn_xid_req. rewrite E. cbn [bind]. eexists. split; [reflexivity|exact I].
Qed.
Lemma rsp_inv m s n r : inv m -> sn_xid_rsp m s n = Ok r -> inv (r_m r).
Proof.
  intros I. unfold sn_xid_rsp. destruct (by_dlci m s n) as [[e|]| |]; cbn [bind]; try discriminate; [|intros H; injection H as <-; exact I].
  destruct (e_peer e) as [fs|]; [|intros H; injection H as <-; exact I]. destruct (compile_xid _ fs 0) as [x| |]; cbn [bind]; try discriminate. intros H. injection H as <-. exact I.
Qed.
Lemma ind_ok c m s buf len : inv m -> Forall byte buf -> 0 <= len -> len + 41 <= zlen buf -> exists r, ll_xid_ind c m s buf len = Ok r /\ inv (r_m r).
Proof.
  intros I B Hl Hz. pose proof I as [(S & R & T2 & T1) P]. unfold ll_xid_ind. destruct (by_sapi m s) as [e|] eqn:E; [|eexists; split; [reflexivity|exact I]]. apply by_sapi_in in E as [Hin _].
  destruct (len =? 0) eqn:E0; [eexists; split; [reflexivity|exact I]|].
  destruct (parse_safe buf B true len None Hl Hz ltac:(discriminate)) as (x & Ex & _). rewrite Ex. cbn [bind]. destruct x as [[v fs]|]; [|eexists; split; [reflexivity|exact I]].
  assert (Forall usable fs) as U.
  { unfold parse_xid in Ex. rewrite E0 in Ex. pose proof (xid_shape _ _ _ _ _ _ [] _ B ltac:(constructor) Ex) as F. revert F. apply Forall_impl. apply shape_none. }
  destruct (handle_all_safe c fs _ _ U T2 T1) as (pt & dt & fs' & EH & T2' & T1'). rewrite EH. cbn [bind]. eexists. split; [reflexivity|]. cbn [r_m].
  apply (put_inv m pt dt e); [exact I|exact T2'|exact T1'|exact Hin|reflexivity|]. rewrite Forall_forall in P. exact (P e Hin).
Qed.
Lemma cnf_ok c m s buf len : inv m -> Forall byte buf -> 0 <= len -> len + 41 <= zlen buf -> exists r, ll_xid_cnf c m s buf len = Ok r /\ inv (r_m r).
Proof.
  intros I B Hl Hz. pose proof I as [(S & R & T2 & T1) P]. unfold ll_xid_cnf. destruct (by_sapi m s) as [e|] eqn:E; [|eexists; split; [reflexivity|exact I]]. apply by_sapi_in in E as [Hin _].
  rewrite Forall_forall in P. pose proof (P e Hin) as Pe.
  assert (forall pt dt, table_ok 2 pt -> table_ok 1 dt -> inv (r_m (confirm (mkM (m_sne m) pt dt) e))) as C.
  { intros pt dt A2 A1. cbn [confirm r_m]. apply (put_inv m pt dt e); [exact I|exact A2|exact A1|exact Hin|reflexivity|exact Pe]. }
  destruct Pe as [Pe|(n & pc & dc & Hn & Hp & Hd & Hw & Pe)].
  - rewrite Pe. eexists. split; [reflexivity|]. destruct m as [l pt dt]. apply C; assumption.
  - pose proof (reread n pc dc Hn Hp Hd) as P1. pose proof (wanted_request n pc dc Hn Hp Hd) as RQ. rewrite Pe. unfold asking. destruct (wanted n pc dc) as [|x0 l0] eqn:Ew; [congruence|]. rewrite <- Ew in *.
    assert (exists b q, msg (block_of 0 (wanted n pc dc)) = b :: q) as (b & q & Eq) by (unfold block_of, msg; cbn; eauto). rewrite Eq in *. rewrite P1. cbn [bind]. clear x0 l0 Ew.
    assert (zlen (map x_field (rev (wanted n pc dc))) <= 64) as L64. { unfold zlen. rewrite map_length, rev_length. destruct dc as [[[p0 p1] p2]|], pc as [s01|]; cbn; lia. }
    destruct (parse_safe buf B false len (Some (map x_field (rev (wanted n pc dc)))) Hl Hz) as (x & Ex & _). { intros fs Hfs. injection Hfs as <-. exact L64. }
    rewrite Ex. cbn [bind]. destruct x as [[v fs]|]; [|eexists; split; [reflexivity|exact I]].
    assert (request (rev (wanted n pc dc))) as RR. { destruct RQ as [F N]. split; [apply Forall_rev; exact F|]. rewrite map_rev. apply NoDup_rev. exact N. }
    assert (Forall usable fs) as U.
    { unfold parse_xid in Ex. destruct (len =? 0); [discriminate|]. cbv zeta in Ex. unfold fill_table in Ex.
      assert (filter (fun f => negb (class f =? 3)) (map x_field (rev (wanted n pc dc))) = map x_field (rev (wanted n pc dc))) as EF by (destruct dc as [[[p0 p1] p2]|], pc as [s01|]; reflexivity).
      rewrite EF in Ex. set (lt := map (fun f => (f_entity f, class f, f_algo f)) (map x_field (rev (wanted n pc dc)))) in *. replace (zlen lt <=? 64) with true in Ex by (unfold lt, zlen in *; rewrite !map_length in *; lia). cbn [asserts bind] in Ex.
      destruct (dec_xid 3 buf 0 len (Some lt) None []) as [[[v' fs0]|]| |] eqn:ED; unfold table in *; rewrite ED in Ex; cbn [bind] in Ex; try discriminate. destruct (complete fs0 (map x_field (rev (wanted n pc dc)))) as [fs1|] eqn:EC; [|cbn [bind] in Ex; congruence]. assert (fs1 = fs) as <- by congruence.
      pose proof (xid_shape _ _ _ _ _ _ [] _ B ltac:(constructor) ED) as F. exact (complete_usable _ _ _ RR F EC). }
    destruct (handle_all_safe c fs _ _ U T2 T1) as (pt & dt & fs' & EH & T2' & T1'). rewrite EH. cbn [bind]. eexists. split; [reflexivity|]. apply C; assumption.
Qed.
Lemma reach_inv c m : reach c m -> inv m.
Proof.
  induction 1 as [|m v r H IH L E]; [split; [split; [constructor|split; [constructor|split; apply empty_table]]|constructor]|].
  destruct v as [n s|s n pc dc|s n|s buf len|s buf len]; cbn [happens allowed] in *.
  - destruct (activate_ok m n s IH L) as (r' & E' & I). congruence.
  - destruct L as (L1 & L2 & L3). destruct (req_ok m s n pc dc IH L1 L2 L3) as (r' & E' & I). congruence.
  - eapply rsp_inv; eassumption.
  - destruct L as (L1 & L2 & L3). destruct (ind_ok c m s buf len IH L1 L2 L3) as (r' & E' & I). congruence.
  - destruct L as (L1 & L2 & L3). destruct (cnf_ok c m s buf len IH L1 L2 L3) as (r' & E' & I). congruence.
Qed.
Theorem histories c m v : reach c m -> allowed v -> (forall s n, v <> XidRsp s n) -> mobile_ok m /\ exists r, happens c m v = Ok r /\ mobile_ok (r_m r).
Proof.
  intros H L N. pose proof (reach_inv c m H) as I. split; [apply I|]. destruct v as [n s|s n pc dc|s n|s buf len|s buf len]; cbn [happens allowed] in *.
  - destruct (activate_ok m n s I L) as (r & E & [J _]). eauto.
  - destruct L as (L1 & L2 & L3). destruct (req_ok m s n pc dc I L1 L2 L3) as (r & E & [J _]). eauto.
  - exfalso. eapply N. reflexivity.
  - destruct L as (L1 & L2 & L3). destruct (ind_ok c m s buf len I L1 L2 L3) as (r & E & [J _]). eauto.
  - destruct L as (L1 & L2 & L3). destruct (cnf_ok c m s buf len I L1 L2 L3) as (r & E & [J _]). eauto.
Qed.
