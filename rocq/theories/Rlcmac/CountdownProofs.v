(** Proofs about the countdown procedure. *)
From Verif.Lib Require Import Base Outcome.
From Verif.Rlcmac Require Import RlcDataModel RlcDataSpec RlcDataProofs RlcDataProofs2 CountdownModel.

(** *** Counting one frame *)
Lemma fuel_enough D : 3 <= D -> forall f f' n st, (Z.to_nat n + 2 <= f)%nat -> (Z.to_nat n + 2 <= f')%nat -> 0 <= bc_off st < D -> 0 <= n ->
  count_append f D st n = count_append f' D st n.
Proof.
  intros HD. induction f as [|f IH]; intros f' n st Hf Hf' Ho Hn; [lia|]. destruct f' as [|f']; [lia|]. cbn [count_append].
  rewrite (proj2 (Z.ltb_lt _ _)) by lia. cbn [negb]. destruct (Z.eqb_spec n 0); [reflexivity|].
  destruct (Z.ltb_spec (D - bc_off st) n); [apply IH; cbn [bc_off]; lia|].
  destruct (Z.eqb_spec n (D - bc_off st)) as [He|He]; [|reflexivity].
  replace (n - (D - bc_off st - 1)) with 1 by lia.
  destruct f as [|f]; [lia|]. destruct f' as [|f']; [lia|]. cbn [count_append bc_off bc_cnt]. rewrite (proj2 (Z.ltb_lt _ _)) by lia. cbn [negb].
  rewrite (proj2 (Z.eqb_neq 1 0)) by lia. rewrite (proj2 (Z.ltb_ge _ _)) by lia. rewrite (proj2 (Z.eqb_neq _ _)) by lia. reflexivity.
Qed.

Definition app1 (D : Z) (st : bcs) (n : Z) : res bcs := count_append (Z.to_nat n + 2) D st n.
Section OneFrame.
  Variable D : Z.
  Hypothesis HD : 3 <= D.
  Lemma app_more cnt off ex n : 0 <= off < D -> D - off < n -> app1 D (mkbcs cnt off ex) n = app1 D (mkbcs (cnt + 1) 0 false) (n - (D - off)).
  Proof.
    intros Ho Hn. unfold app1. replace (Z.to_nat n + 2)%nat with (S (Z.to_nat n + 1)) by lia. cbn [count_append bc_off bc_cnt].
    rewrite (proj2 (Z.ltb_lt off D)) by lia. cbn [negb]. rewrite (proj2 (Z.eqb_neq n 0)) by lia. rewrite (proj2 (Z.ltb_lt (D - off) n)) by lia.
    apply fuel_enough; cbn [bc_off]; lia.
  Qed.
  Lemma app_exact cnt off ex : 0 <= off < D -> app1 D (mkbcs cnt off ex) (D - off) = if D =? 2 then UB else Ok (mkbcs (cnt + 1) 2 true).
  Proof.
    intros Ho. unfold app1. replace (Z.to_nat (D - off) + 2)%nat with (S (S (Z.to_nat (D - off)))) by lia. cbn [count_append bc_off bc_cnt].
    rewrite (proj2 (Z.ltb_lt off D)) by lia. cbn [negb]. rewrite (proj2 (Z.eqb_neq (D - off) 0)) by lia. rewrite Z.ltb_irrefl, Z.eqb_refl.
    replace (D - off - (D - off - 1)) with 1 by lia. rewrite (proj2 (Z.ltb_lt 0 D)) by lia. cbn [negb]. rewrite (proj2 (Z.eqb_neq 1 0)) by lia.
    rewrite (proj2 (Z.ltb_ge (D - 0) 1)) by lia. rewrite (proj2 (Z.eqb_neq 1 (D - 0))) by lia. rewrite (proj2 (Z.eqb_neq (D - (0 + 1 + 1)) 0)) by lia. cbn [bind bc_cnt bc_off].
    rewrite (proj2 (Z.eqb_neq D 2)) by lia. reflexivity.
  Qed.
  Lemma app_less cnt off ex n : 0 <= off < D -> 1 <= n < D - off ->
    app1 D (mkbcs cnt off ex) n = Ok (if D - (off + 1 + n) =? 0 then mkbcs (cnt + 1) 0 false else mkbcs cnt (off + 1 + n) false).
  Proof.
    intros Ho Hn. unfold app1. replace (Z.to_nat n + 2)%nat with (S (Z.to_nat n + 1)) by lia. cbn [count_append bc_off bc_cnt].
    rewrite (proj2 (Z.ltb_lt off D)) by lia. cbn [negb]. rewrite (proj2 (Z.eqb_neq n 0)) by lia. rewrite (proj2 (Z.ltb_ge (D - off) n)) by lia.
    rewrite (proj2 (Z.eqb_neq n (D - off))) by lia. now destruct (D - (off + 1 + n) =? 0).
  Qed.

  (** Totality, shape, and independence of the starting count. *)
  Lemma app_ok : forall k cnt off ex n, (Z.to_nat n <= k)%nat -> 0 <= off < D -> 1 <= n ->
    exists c o e, app1 D (mkbcs cnt off ex) n = Ok (mkbcs (cnt + c) o e) /\ 0 <= c /\ 0 <= o < D /\ (e = true -> o = 2) /\ (c = 0 -> 0 < o) /\
      forall cnt' ex', app1 D (mkbcs cnt' off ex') n = Ok (mkbcs (cnt' + c) o e).
  Proof.
    induction k as [|k IH]; intros cnt off ex n Hk Ho Hn; [lia|].
    assert (Hc : D - off < n \/ n = D - off \/ n < D - off) by lia. destruct Hc as [Hc|[Hc|Hc]].
    - destruct (IH (cnt + 1) 0 false (n - (D - off)) ltac:(lia) ltac:(lia) ltac:(lia)) as (c & o & e & E & H1 & H2 & H3 & H4 & H5).
      exists (1 + c), o, e. rewrite app_more by lia. split; [rewrite E; do 2 f_equal; lia|]. split; [lia|]. split; [exact H2|]. split; [exact H3|]. split; [lia|].
      intros cnt' ex'. rewrite app_more by lia. rewrite H5. do 2 f_equal. lia.
    - subst n. exists 1, 2, true. rewrite app_exact by lia. rewrite (proj2 (Z.eqb_neq D 2)) by lia. split; [reflexivity|]. split; [lia|]. split; [lia|]. split; [reflexivity|]. split; [lia|].
      intros cnt' ex'. rewrite app_exact by lia. rewrite (proj2 (Z.eqb_neq D 2)) by lia. reflexivity.
    - destruct (Z.eqb_spec (D - (off + 1 + n)) 0) as [Hz|Hz].
      + exists 1, 0, false. assert (Hall : forall cnt' ex', app1 D (mkbcs cnt' off ex') n = Ok (mkbcs (cnt' + 1) 0 false)).
        { intros. rewrite app_less by lia. now rewrite (proj2 (Z.eqb_eq _ _) Hz). }
        split; [apply Hall|]. split; [lia|]. split; [lia|]. split; [discriminate|]. split; [lia|]. apply Hall.
      + exists 0, (off + 1 + n), false. assert (Hall : forall cnt' ex', app1 D (mkbcs cnt' off ex') n = Ok (mkbcs (cnt' + 0) (off + 1 + n) false)).
        { intros. rewrite app_less by lia. rewrite (proj2 (Z.eqb_neq _ _) Hz). do 2 f_equal. lia. }
        split; [apply Hall|]. split; [lia|]. split; [lia|]. split; [discriminate|]. split; [lia|]. apply Hall.
  Qed.
End OneFrame.

(** *** Counting all frames, without the early end *)
Fixpoint cnt_all (D : Z) (st : bcs) (sizes : list Z) : res bcs :=
  match sizes with [] => Ok st | n :: r => do s <- app1 D st n; cnt_all D s r end.
Definition fin (st : bcs) : Z := if 0 <? (if bc_extra st then bc_off st - 2 else bc_off st) then bc_cnt st + 1 else bc_cnt st.
(** [counts D off pend n]: the block in progress has [off] octets, [n] blocks are needed from it on. *)
Definition counts (D off : Z) (pend : list (list Z)) (n : Z) : Prop :=
  forall cnt ex, exists s, cnt_all D (mkbcs cnt off ex) (map zlen pend) = Ok s /\ fin s = cnt + n /\ (bc_extra s = true -> bc_off s = 2) /\ cnt <= bc_cnt s.

Definition frames_ok (pend : list (list Z)) : Prop := Forall (fun f => f <> []) pend.

Lemma cnt_all_ok D sizes : 3 <= D -> Forall (fun n => 1 <= n) sizes -> forall cnt off ex, 0 <= off < D -> (ex = true -> off = 2) ->
  exists s, cnt_all D (mkbcs cnt off ex) sizes = Ok s /\ cnt <= bc_cnt s /\ 0 <= bc_off s < D /\ (bc_extra s = true -> bc_off s = 2).
Proof.
  intros HD. induction sizes as [|n r IH]; intros H cnt off ex Ho He; cbn [cnt_all].
  - eexists. split; [reflexivity|]. cbn [bc_cnt bc_off bc_extra]. split; [lia|]. auto.
  - inversion H as [|? ? Hn Hr]; subst. destruct (app_ok D HD (Z.to_nat n) cnt off ex n ltac:(lia) Ho Hn) as (c & o & e & -> & H1 & H2 & H3 & _). cbn [bind].
    destruct (IH Hr (cnt + c) o e H2 H3) as (s & E & Hs1 & Hs2 & Hs3). exists s. split; [exact E|]. split; [lia|]. auto.
Qed.

(** What is left after one block that is not final, [sp] being the free octets. *)
Fixpoint left_over (sp : Z) (pend : list (list Z)) : list (list Z) :=
  match pend with
  | [] => []
  | m :: r => if sp <? zlen m then skipn (Z.to_nat sp) m :: r
              else if zlen m =? sp then skipn (Z.to_nat (sp - 1)) m :: r
              else if sp - 1 - zlen m =? 0 then r else left_over (sp - 1 - zlen m) r
  end.

Lemma need_cons m r : r <> [] -> need (m :: r) = zlen m + 1 + need r.
Proof. destruct r; [congruence|reflexivity]. Qed.
Lemma need_pos pend : pend <> [] -> frames_ok pend -> 1 <= need pend.
Proof.
  intros Hp H. induction H as [|m r Hm Hr IH]; [congruence|]. apply pos_nonnil in Hm. destruct r as [|x r]; [cbn [need]; lia|].
  rewrite need_cons by discriminate. specialize (IH ltac:(discriminate)). lia.
Qed.
Lemma zlen_skipn (l : list Z) n : 0 <= n <= zlen l -> zlen (skipn (Z.to_nat n) l) = zlen l - n.
Proof. intros H. unfold zlen in *. rewrite skipn_length. lia. Qed.
Lemma nonnil_pos (l : list Z) : 1 <= zlen l -> l <> [].
Proof. intros H ->. change (zlen (@nil Z)) with 0 in H. lia. Qed.

Lemma left_over_ok D : 3 <= D -> forall pend sp, 1 <= sp <= D -> frames_ok pend -> sp < need pend ->
  left_over sp pend <> [] /\ frames_ok (left_over sp pend) /\
  forall cnt ex, cnt_all D (mkbcs cnt (D - sp) ex) (map zlen pend) = cnt_all D (mkbcs (cnt + 1) 0 false) (map zlen (left_over sp pend)).
Proof.
  intros HD. induction pend as [|m r IH]; intros sp Hsp Hok Hn; [cbn [need] in Hn; lia|].
  inversion Hok as [|? ? Hm Hr]; subst. assert (Hm1 := pos_nonnil _ Hm). cbn [left_over].
  destruct (Z.ltb_spec sp (zlen m)) as [Hlt|Hge].
  - assert (Hz : zlen (skipn (Z.to_nat sp) m) = zlen m - sp) by (apply zlen_skipn; lia).
    split; [discriminate|]. split; [constructor; [apply nonnil_pos; lia|exact Hr]|]. intros cnt ex. cbn [map cnt_all].
    rewrite app_more by lia. rewrite Hz. replace (zlen m - (D - (D - sp))) with (zlen m - sp) by lia. reflexivity.
  - destruct (Z.eqb_spec (zlen m) sp) as [He|Hne].
    + destruct r as [|m2 r]; [cbn [need] in Hn; lia|].
      assert (Hz : zlen (skipn (Z.to_nat (sp - 1)) m) = 1) by (rewrite zlen_skipn; lia).
      split; [discriminate|]. split; [constructor; [apply nonnil_pos; lia|exact Hr]|]. intros cnt ex. cbn [map cnt_all]. rewrite Hz.
      replace (zlen m) with (D - (D - sp)) by lia. rewrite app_exact by lia. rewrite (proj2 (Z.eqb_neq D 2)) by lia.
      rewrite app_less by lia. rewrite (proj2 (Z.eqb_neq _ _)) by lia. cbn [bind]. replace (0 + 1 + 1) with 2 by lia.
      inversion Hr as [|? ? Hm2 Hr2]; subst. apply pos_nonnil in Hm2.
      destruct (app_ok D HD (Z.to_nat (zlen m2)) (cnt + 1) 2 true (zlen m2) ltac:(lia) ltac:(lia) Hm2) as (c & o & e & E & _ & _ & _ & _ & Hall).
      rewrite E, Hall. reflexivity.
    + destruct (Z.eqb_spec (sp - 1 - zlen m) 0) as [Hz|Hz].
      * split; [intros ->; cbn [need] in Hn; lia|]. split; [exact Hr|]. intros cnt ex. cbn [map cnt_all]. rewrite app_less by lia.
        replace (D - (D - sp + 1 + zlen m)) with (sp - 1 - zlen m) by lia. rewrite Hz. reflexivity.
      * assert (Hrn : r <> []) by (intros ->; cbn [need] in Hn; lia). rewrite need_cons in Hn by exact Hrn.
        destruct (IH (sp - 1 - zlen m) ltac:(lia) Hr ltac:(lia)) as (H1 & H2 & H3). split; [exact H1|]. split; [exact H2|]. intros cnt ex. cbn [map cnt_all]. rewrite app_less by lia.
        replace (D - (D - sp + 1 + zlen m)) with (sp - 1 - zlen m) by lia. rewrite (proj2 (Z.eqb_neq _ _) Hz). cbn [bind]. replace (D - sp + 1 + zlen m) with (D - (sp - 1 - zlen m)) by lia. apply H3.
Qed.
Lemma fits_one D : 3 <= D -> forall pend sp, 1 <= sp <= D -> frames_ok pend -> pend <> [] -> need pend <= sp -> counts D (D - sp) pend 1.
Proof.
  intros HD. induction pend as [|m r IH]; intros sp Hsp Hok Hp Hn; [congruence|]. inversion Hok as [|? ? Hm Hr]; subst. assert (Hm1 := pos_nonnil _ Hm).
  intros cnt ex. cbn [map cnt_all]. destruct r as [|m2 r].
  - cbn [need] in Hn. cbn [map cnt_all]. destruct (Z.eqb_spec (zlen m) sp) as [He|Hne].
    + replace (zlen m) with (D - (D - sp)) by lia. rewrite app_exact by lia. rewrite (proj2 (Z.eqb_neq D 2)) by lia. cbn [bind]. eexists. split; [reflexivity|]. cbn. split; [lia|]. split; [reflexivity|lia].
    + rewrite app_less by lia. cbn [bind]. eexists. split; [reflexivity|]. destruct (Z.eqb_spec (D - (D - sp + 1 + zlen m)) 0); cbn [bc_cnt bc_off bc_extra fin]; unfold fin; cbn [bc_cnt bc_off bc_extra].
      * split; [cbn; lia|]. split; [discriminate|lia].
      * rewrite (proj2 (Z.ltb_lt _ _)) by lia. split; [lia|]. split; [discriminate|lia].
  - rewrite need_cons in Hn by discriminate. assert (Hp2 := need_pos (m2 :: r) ltac:(discriminate) Hr). rewrite app_less by lia. rewrite (proj2 (Z.eqb_neq _ _)) by lia. cbn [bind].
    replace (D - sp + 1 + zlen m) with (D - (sp - 1 - zlen m)) by lia.
    exact (IH (sp - 1 - zlen m) ltac:(lia) Hr ltac:(discriminate) ltac:(lia) cnt false).
Qed.
Lemma counts_step D pend sp n : 3 <= D -> 1 <= sp <= D -> frames_ok pend -> sp < need pend ->
  counts D (D - sp) pend n <-> counts D 0 (left_over sp pend) (n - 1).
Proof.
  intros HD Hsp Hok Hn. destruct (left_over_ok D HD pend sp Hsp Hok Hn) as (Hne & Hok' & Heq). split; intros H cnt ex.
  - destruct (H (cnt - 1) ex) as (s & E & Hf & He & Hc). rewrite Heq in E. replace (cnt - 1 + 1) with cnt in E by lia.
    destruct (left_over sp pend) as [|m r]; [congruence|]. inversion Hok' as [|? ? Hm _]; subst. apply pos_nonnil in Hm. cbn [map cnt_all] in *.
    destruct (app_ok D HD (Z.to_nat (zlen m)) cnt 0 false (zlen m) ltac:(lia) ltac:(lia) Hm) as (c & o & e & Ea & Hc0 & Ho & Hee & _ & Hall).
    rewrite Hall in *. cbn [bind] in *. exists s. split; [exact E|]. split; [lia|]. split; [exact He|].
    inversion Hok' as [|? ? _ Hr]; subst. assert (Hs : Forall (fun n => 1 <= n) (map zlen r)).
    { apply Forall_forall. intros x Hx. apply in_map_iff in Hx as (y & <- & Hy). rewrite Forall_forall in Hr. apply pos_nonnil. auto. }
    destruct (cnt_all_ok D (map zlen r) HD Hs (cnt + c) o e Ho Hee) as (s2 & E2 & Hs2 & _). rewrite E2 in E. injection E as <-. lia.
  - destruct (H (cnt + 1) false) as (s & E & Hf & He & Hc). exists s. rewrite Heq. split; [exact E|]. split; [lia|]. split; [exact He|lia].
Qed.
(** The number of blocks exists, is positive, and is one exactly when everything fits. *)
Lemma counts_fun D off pend n m : counts D off pend n -> counts D off pend m -> n = m.
Proof. intros H1 H2. destruct (H1 0 false) as (s & E & Hs & _). destruct (H2 0 false) as (s' & E' & Hs' & _). rewrite E in E'. injection E' as <-. lia. Qed.
Lemma sizes_ok pend : frames_ok pend -> Forall (fun n => 1 <= n) (map zlen pend).
Proof. intros H. apply Forall_forall. intros x Hx. apply in_map_iff in Hx as (y & <- & Hy). unfold frames_ok in H. rewrite Forall_forall in H. apply pos_nonnil. auto. Qed.
Fixpoint total (pend : list (list Z)) : Z := match pend with [] => 0 | m :: r => zlen m + total r end.
Lemma left_over_less : forall pend sp, 2 <= sp -> frames_ok pend -> pend <> [] -> total (left_over sp pend) < total pend.
Proof.
  assert (Hle : forall pend sp, 1 <= sp -> frames_ok pend -> total (left_over sp pend) <= total pend).
  { induction pend as [|m r IH]; intros sp Hs Hok; cbn [left_over total]; [lia|]. inversion Hok as [|? ? Hm Hr]; subst. apply pos_nonnil in Hm.
    destruct (Z.ltb_spec sp (zlen m)); [cbn [total]; rewrite zlen_skipn by lia; lia|].
    destruct (Z.eqb_spec (zlen m) sp); [cbn [total]; rewrite zlen_skipn by lia; lia|].
    destruct (Z.eqb_spec (sp - 1 - zlen m) 0); [lia|]. specialize (IH (sp - 1 - zlen m) ltac:(lia) Hr). lia. }
  intros [|m r] sp Hs Hok Hp; [congruence|]. cbn [left_over total]. inversion Hok as [|? ? Hm Hr]; subst. apply pos_nonnil in Hm.
  destruct (Z.ltb_spec sp (zlen m)); [cbn [total]; rewrite zlen_skipn by lia; lia|].
  destruct (Z.eqb_spec (zlen m) sp); [cbn [total]; rewrite zlen_skipn by lia; lia|].
  destruct (Z.eqb_spec (sp - 1 - zlen m) 0); [lia|]. specialize (Hle r (sp - 1 - zlen m) ltac:(lia) Hr). lia.
Qed.
Lemma total_nonneg pend : 0 <= total pend.
Proof. induction pend as [|m r IH]; cbn [total]; [lia|]. pose proof (zlen_nonneg m). lia. Qed.
Lemma counts_exist D : 3 <= D -> forall pend, frames_ok pend -> pend <> [] ->
  exists n, counts D 0 pend n /\ 1 <= n /\ (n = 1 <-> need pend <= D).
Proof.
  intros HD pend. remember (Z.to_nat (total pend)) as k eqn:Ek. assert (Hk : (Z.to_nat (total pend) <= k)%nat) by lia. clear Ek. revert pend Hk.
  induction k as [|k IH]; intros pend Hk Hok Hp.
  - destruct pend as [|m r]; [congruence|]. inversion Hok as [|? ? Hm Hr]; subst. apply pos_nonnil in Hm. cbn [total] in Hk. pose proof (total_nonneg r). lia.
  - destruct (Z_le_gt_dec (need pend) D) as [Hn|Hn].
    + exists 1. split; [|lia]. replace 0 with (D - D) by lia. apply fits_one; [exact HD|lia|exact Hok|exact Hp|exact Hn].
    + destruct (left_over_ok D HD pend D ltac:(lia) Hok ltac:(lia)) as (Hne & Hok' & _). pose proof (left_over_less pend D ltac:(lia) Hok Hp) as Hl.
      pose proof (total_nonneg (left_over D pend)). destruct (IH (left_over D pend) ltac:(lia) Hok' Hne) as (n & Hc & H1 & _).
      exists (n + 1). split; [|lia]. replace 0 with (D - D) by lia. apply counts_step; [exact HD|lia|exact Hok|lia|]. replace (n + 1 - 1) with n by lia. exact Hc.
Qed.

(** *** The computed value *)
Lemma early_end D cvmax sizes : 3 <= D -> Forall (fun n => 1 <= n) sizes -> forall st, 0 <= bc_off st < D -> (bc_extra st = true -> bc_off st = 2) ->
  exists s s', count_all D 1 cvmax st sizes = Ok s /\ cnt_all D st sizes = Ok s' /\
    (s = s' \/ (cvmax < to_x 1 (bc_cnt s) /\ bc_cnt s <= bc_cnt s' /\ bc_extra s = false)) /\ (bc_extra s = true -> bc_off s = 2).
Proof.
  intros HD H. induction H as [|n r Hn Hr IH]; intros st Ho He; cbn [count_all cnt_all].
  - exists st, st. auto.
  - destruct st as [cnt off ex]. cbn [bc_off bc_extra] in *. destruct (app_ok D HD (Z.to_nat n) cnt off ex n ltac:(lia) Ho Hn) as (c & o & e & E & H1 & H2 & H3 & _).
    fold (app1 D (mkbcs cnt off ex) n). rewrite E. cbn [bind bc_extra bc_cnt]. destruct (negb e && (cvmax <? to_x 1 (cnt + c))) eqn:Eb.
    + destruct (cnt_all_ok D r HD Hr (cnt + c) o e H2 H3) as (s' & E' & Hs & _). exists (mkbcs (cnt + c) o e), s'. split; [reflexivity|]. split; [exact E'|].
      cbn [bc_cnt bc_extra bc_off]. apply andb_true_iff in Eb as [E1 E2]. apply negb_true_iff in E1. apply Z.ltb_lt in E2. auto.
    + exact (IH (mkbcs (cnt + c) o e) H2 H3).
Qed.
Lemma to_x_1 c : 0 <= c -> to_x 1 c = if c =? 0 then 0 else c - 1.
Proof. intros H. unfold to_x. destruct (c =? 0); [reflexivity|]. rewrite Z.div_1_r. lia. Qed.
Lemma calculate_spec D cvmax pend n : 3 <= D -> 0 <= cvmax -> frames_ok pend -> counts D 0 pend n -> 1 <= n ->
  calculate_cv D 1 cvmax (map zlen pend) = Ok (if n - 1 <=? cvmax then n - 1 else 15).
Proof.
  intros HD Hm Hok Hc Hn. unfold calculate_cv.
  destruct (early_end D cvmax (map zlen pend) HD (sizes_ok pend Hok) (mkbcs 0 0 false) ltac:(cbn; lia) ltac:(discriminate)) as (s & s' & E & E' & Hs & He).
  rewrite E. cbn [bind]. destruct (Hc 0 false) as (s2 & E2 & Hf & He2 & Hc2). rewrite E2 in E'. injection E' as <-.
  replace (bc_extra s && negb (bc_off s =? 2)) with false. 2:{ destruct (bc_extra s) eqn:Ee; [|reflexivity]. rewrite He by reflexivity. reflexivity. }
  fold (fin s). destruct Hs as [->|(Hx & Hle & Hex)].
  - rewrite Hf, to_x_1 by lia. rewrite (proj2 (Z.eqb_neq _ _)) by lia. replace (0 + n - 1) with (n - 1) by lia. reflexivity.
  - assert (Hfin : bc_cnt s <= fin s) by (unfold fin; destruct (0 <? _); lia). assert (Hfin2 : bc_cnt s2 <= fin s2) by (unfold fin; destruct (0 <? _); lia).
    assert (Hcs : 0 < bc_cnt s). { destruct (Z_lt_le_dec 0 (bc_cnt s)); [assumption|]. exfalso. unfold to_x in Hx. destruct (Z.eqb_spec (bc_cnt s) 0); [lia|]. rewrite Z.div_1_r in Hx. lia. }
    rewrite to_x_1 in Hx by lia. rewrite (proj2 (Z.eqb_neq _ _)) in Hx by lia. rewrite to_x_1 by lia. rewrite (proj2 (Z.eqb_neq (fin s) 0)) by lia.
    rewrite !(proj2 (Z.leb_gt _ _)) by lia. reflexivity.
Qed.

(** *** Filling a block: what is left, and that nothing goes wrong *)
Lemma put_ok (buf src : list Z) i : 0 <= i -> i + zlen src <= zlen buf -> exists b, put buf i src = Ok b /\ zlen b = zlen buf.
Proof.
  intros H1 H2. unfold put. rewrite (proj2 (Z.leb_le 0 i)) by lia. rewrite (proj2 (Z.leb_le (i + zlen src) (zlen buf))) by lia. cbn [andb]. eexists. split; [reflexivity|].
  unfold zlen in *. rewrite !app_length, firstn_length, skipn_length. lia.
Qed.
Lemma prev_ok st f (buf : list Z) : 0 <= b_nc st <= zlen buf -> exists b, prev_li st f buf = Ok b /\ zlen b = zlen buf.
Proof.
  intros H. unfold prev_li. destruct (Z.eqb_spec (b_nc st) 0); [eauto|]. rewrite rd_ok by lia. cbn [bind]. apply put_ok; [lia|]. rewrite zlen_cons. change (zlen (@nil Z)) with 0. lia.
Qed.
Lemma zlen_firstn (l : list Z) n : 0 <= n <= zlen l -> zlen (firstn (Z.to_nat n) l) = n.
Proof. intros H. unfold zlen in *. rewrite firstn_length. lia. Qed.
Lemma one_octet (x : Z) : zlen [x] = 1.
Proof. reflexivity. Qed.
Lemma append_sizes final st msg : 0 <= b_nc st <= b_off st -> b_off st < zlen (b_buf st) -> msg <> [] ->
  let sp := zlen (b_buf st) - b_off st in
  exists ar st' more, append_ul final st msg = Ok (ar, st', more) /\ zlen (b_buf st') = zlen (b_buf st) /\ b_nc st' = b_nc st + 1 /\
    ((sp < zlen msg /\ ar = NEED_MORE_BLOCKS /\ more = skipn (Z.to_nat sp) msg) \/
     (zlen msg = sp /\ final = true /\ ar = COMPLETED_BLOCK_FILLED) \/
     (zlen msg = sp /\ final = false /\ ar = NEED_MORE_BLOCKS /\ more = skipn (Z.to_nat (sp - 1)) msg) \/
     (zlen msg < sp /\ ar = (if 0 <? sp - 1 - zlen msg then COMPLETED_SPACE_LEFT else COMPLETED_BLOCK_FILLED) /\ b_off st' = b_off st + 1 + zlen msg)).
Proof.
  intros Hnc Hoff Hm. cbv zeta. apply pos_nonnil in Hm. unfold append_ul. cbv zeta. set (sp := zlen (b_buf st) - b_off st) in *.
  destruct (Z.ltb_spec sp (zlen msg)) as [Hlt|Hge].
  - destruct (prev_ok st (fun o => Z.lor o 2) (b_buf st) ltac:(lia)) as (b1 & E1 & L1). rewrite E1. cbn [bind].
    destruct (put_ok b1 (firstn (Z.to_nat sp) msg) (b_off st) ltac:(lia)) as (b2 & E2 & L2); [rewrite zlen_firstn by lia; lia|]. rewrite E2. cbn [bind].
    eexists _, _, _. split; [reflexivity|]. cbn [b_buf b_nc]. split; [lia|]. split; [reflexivity|]. left. auto.
  - destruct (Z.eqb_spec (zlen msg) sp) as [He|Hne]; cbn [andb].
    + destruct final.
      * destruct (prev_ok st (fun o => Z.lor o 1) (b_buf st) ltac:(lia)) as (b1 & E1 & L1). rewrite E1. cbn [bind].
        destruct (put_ok b1 msg (b_off st) ltac:(lia) ltac:(lia)) as (b2 & E2 & L2). rewrite E2. cbn [bind].
        eexists _, _, _. split; [reflexivity|]. cbn [b_buf b_nc]. split; [lia|]. split; [reflexivity|]. right. left. auto.
      * unfold shift1. rewrite rdn_ok by lia. cbn [bind].
        destruct (put_ok (b_buf st) (slice (Z.to_nat (b_nc st)) (Z.to_nat (b_off st - b_nc st)) (b_buf st)) (b_nc st + 1) ltac:(lia)) as (b1 & E1 & L1).
        { unfold zlen in *. rewrite slice_length; lia. }
        rewrite E1. cbn [bind]. destruct (prev_ok st (fun o => Z.lor (Z.land o 254) 2) b1 ltac:(lia)) as (b2 & E2 & L2). rewrite E2. cbn [bind].
        destruct (put_ok b2 [li_octet 0 0 1] (b_nc st) ltac:(lia)) as (b3 & E3 & L3); [rewrite one_octet; lia|]. rewrite E3. cbn [bind].
        destruct (put_ok b3 (firstn (Z.to_nat (sp - 1)) msg) (b_off st + 1) ltac:(lia)) as (b4 & E4 & L4); [rewrite zlen_firstn by lia; lia|]. rewrite E4. cbn [bind].
        eexists _, _, _. split; [reflexivity|]. cbn [b_buf b_nc]. split; [lia|]. split; [reflexivity|]. right. right. left. auto.
    + unfold shift1. rewrite rdn_ok by lia. cbn [bind].
      destruct (put_ok (b_buf st) (slice (Z.to_nat (b_nc st)) (Z.to_nat (b_off st - b_nc st)) (b_buf st)) (b_nc st + 1) ltac:(lia)) as (b1 & E1 & L1).
      { unfold zlen in *. rewrite slice_length; lia. }
      rewrite E1. cbn [bind]. destruct (prev_ok st (fun o => Z.lor (Z.land o 254) 2) b1 ltac:(lia)) as (b2 & E2 & L2). rewrite E2. cbn [bind].
      destruct (put_ok b2 [li_octet (zlen msg) 0 1] (b_nc st) ltac:(lia)) as (b3 & E3 & L3); [rewrite one_octet; lia|]. rewrite E3. cbn [bind].
      destruct (put_ok b3 msg (b_off st + 1) ltac:(lia) ltac:(lia)) as (b4 & E4 & L4). rewrite E4. cbn [bind].
      eexists _, _, _. split; [reflexivity|]. cbn [b_buf b_nc b_off]. split; [lia|]. split; [reflexivity|]. right. right. right. split; [lia|]. auto.
Qed.

Lemma fill_sizes final : forall pend st, 0 <= b_nc st <= b_off st -> b_off st < zlen (b_buf st) -> frames_ok pend -> (pend <> [] \/ 0 < b_nc st) ->
  (final = true -> need pend <= zlen (b_buf st) - b_off st) ->
  exists st', fill final st pend = Ok (st', if final then [] else left_over (zlen (b_buf st) - b_off st) pend) /\ zlen (b_buf st') = zlen (b_buf st).
Proof.
  induction pend as [|m r IH]; intros st Hnc Hoff Hok Hp Hf; cbn [fill].
  - destruct Hp as [Hp|Hp]; [congruence|]. rewrite (proj2 (Z.ltb_lt _ _) Hp). exists st. cbn [left_over]. now destruct final.
  - inversion Hok as [|? ? Hm Hr]; subst. assert (Hm1 := pos_nonnil _ Hm). rewrite (proj2 (Z.eqb_neq (zlen m) 0)) by lia.
    destruct (append_sizes final st m Hnc Hoff Hm) as (ar & st' & more & E & Hl & Hn & Hcase). rewrite E. cbn [bind]. clear E. cbv zeta in Hcase. cbn [left_over].
    set (sp := zlen (b_buf st) - b_off st) in *.
    destruct Hcase as [(Hlt & -> & ->)|[(He & -> & ->)|[(He & -> & -> & ->)|(Hlt & -> & Ho)]]].
    + destruct final. { specialize (Hf eq_refl). exfalso. destruct r; [cbn [need] in Hf; lia|]. rewrite need_cons in Hf by discriminate. pose proof (need_pos (l :: r) ltac:(discriminate) Hr). lia. }
      rewrite (proj2 (Z.ltb_lt _ _) Hlt). exists st'. auto.
    + specialize (Hf eq_refl). destruct r as [|m2 r]; [exists st'; auto|]. rewrite need_cons in Hf by discriminate. pose proof (need_pos (m2 :: r) ltac:(discriminate) Hr). lia.
    + rewrite (proj2 (Z.ltb_ge _ _)) by lia. rewrite (proj2 (Z.eqb_eq _ _) He). exists st'. auto.
    + rewrite (proj2 (Z.ltb_ge sp (zlen m))) by lia. rewrite (proj2 (Z.eqb_neq (zlen m) sp)) by lia.
      destruct (Z.ltb_spec 0 (sp - 1 - zlen m)) as [Hs|Hs].
      * rewrite (proj2 (Z.eqb_neq (sp - 1 - zlen m) 0)) by lia.
        destruct (IH st' ltac:(lia) ltac:(unfold sp in *; lia) Hr ltac:(right; lia)) as (st2 & E2 & L2).
        { intros Hfin. specialize (Hf Hfin). replace (zlen (b_buf st') - b_off st') with (sp - 1 - zlen m) by (unfold sp; lia).
          destruct r as [|m2 r]; [cbn [need]; lia|]. rewrite need_cons in Hf by discriminate. lia. }
        exists st2. replace (zlen (b_buf st') - b_off st') with (sp - 1 - zlen m) in E2 by (unfold sp; lia). split; [exact E2|lia].
      * rewrite (proj2 (Z.eqb_eq (sp - 1 - zlen m) 0)) by lia. exists st'. split; [|exact Hl]. destruct final; [|reflexivity].
        specialize (Hf eq_refl). destruct r as [|m2 r]; [reflexivity|]. rewrite need_cons in Hf by discriminate. pose proof (need_pos (m2 :: r) ltac:(discriminate) Hr). lia.
Qed.
Lemma create_sizes dlen (ti : bool) tlli final pend : 7 <= dlen -> frames_ok pend -> pend <> [] ->
  let D := if ti then dlen - 4 else dlen in
  (final = true -> need pend <= D) ->
  exists e oct, create_block dlen ti tlli final pend = Ok (e, oct, if final then [] else left_over D pend) /\ zlen oct = dlen.
Proof.
  intros Hd Hok Hp D Hf. unfold create_block.
  assert (Hb : exists b0, (if ti then put (repeat 43 (Z.to_nat dlen)) 0 (tlli_octets tlli) else Ok (repeat 43 (Z.to_nat dlen))) = Ok b0 /\ zlen b0 = dlen).
  { assert (Hz : zlen (repeat 43 (Z.to_nat dlen)) = dlen) by (unfold zlen; rewrite repeat_length; lia). destruct ti; [|eauto].
    destruct (put_ok (repeat 43 (Z.to_nat dlen)) (tlli_octets tlli) 0 ltac:(lia)) as (b & E & L); [rewrite tlli_len; lia|]. exists b. split; [exact E|lia]. }
  destruct Hb as (b0 & -> & Hz). cbn [bind].
  destruct (fill_sizes final pend (mkbst b0 (if ti then 4 else 0) 0 1)) as (st' & E & L); cbn [b_buf b_off b_nc]; [destruct ti; lia|destruct ti; lia|exact Hok|now left| |].
  - intros H. specialize (Hf H). unfold D in Hf. destruct ti; lia.
  - rewrite E. cbn [bind]. exists (b_e st'), (b_buf st'). cbn [b_buf b_off] in *. rewrite L. split; [|exact Hz]. do 2 f_equal.
    replace (zlen b0 - (if ti then 4 else 0)) with D by (unfold D; destruct ti; lia). reflexivity.
Qed.
