(** Which values the members of a structure can have after decoding: an evaluation of a table on intervals, and its soundness. *)
From Coq Require Import ZArith List Bool Lia.
From Verif Require Import Lib.Base Csn1.Csn1Model Csn1.Csn1Check Csn1.Csn1Safe Csn1.Csn1Lax.
Import ListNotations.
Open Scope Z_scope.

(** *** What decoding touches when it stays inside the members *)
Definition touch (R : Z -> Prop) (s : cst) (r : dres) : Prop :=
  match r with DOk t => forall x, ~ R x -> s_mem t x = s_mem s x | _ => True end.
Lemma touch_refl R s t : s_mem t = s_mem s -> touch R s (DOk t).
Proof. intros E x _. rewrite E. reflexivity. Qed.
Lemma touch_from R s t r : s_mem t = s_mem s -> touch R t r -> touch R s r.
Proof. destruct r; cbn; auto. intros E H x X. rewrite H, E by exact X. reflexivity. Qed.
Lemma touch_bind R s r k : touch R s r -> (forall t, touch R t (k t)) -> touch R s (bindd r k).
Proof.
  destruct r as [t| |]; cbn [bindd touch]; auto. intros H1 H2. specialize (H2 t). destruct (k t); cbn [touch] in *; auto.
  intros x X. rewrite H2, H1 by exact X. reflexivity.
Qed.
Lemma touch_after R s r k : touch R s r -> (forall t, touch R t (k t)) -> touch R s (after r k).
Proof. intros H1 H2. unfold after. apply touch_bind; [exact H1|]. intros t. destruct (_ <? _); [exact I|apply H2]. Qed.
Lemma touch_call R s f : touch R s (f s) -> touch R s (call f s).
Proof. unfold call. destruct (_ <? _); [intros _; exact I|auto]. Qed.
Lemma touch_wide (R R' : Z -> Prop) s r : (forall x, R x -> R' x) -> touch R s r -> touch R' s r.
Proof. destruct r; cbn; auto. Qed.
Lemma touch_rep R (f : Z -> cst -> dres) n : forall i, (forall j t, i <= j -> touch R t (f j t)) -> forall s, touch R s (rep n i f s).
Proof.
  induction n as [|n IH]; intros i H s; cbn [rep]; [apply touch_refl; reflexivity|]. apply touch_bind; [apply H; lia|].
  intros t. apply IH. intros j u J. apply H. lia.
Qed.
Definition moff (md : mode) : Prop := match md with Alts _ o _ => 0 <= o | _ => True end.
Lemma touch_control R md s next run uni : (forall md, moff md -> touch R s (next md s)) -> touch R s run -> (forall n, touch R s (uni n)) ->
  touch R s (control md s next run uni).
Proof. intros A B C. destruct md as [[|n]|[|k] n|i o r]; cbn [control]; auto; try (apply A; exact I). exact I. Qed.

(** The end of a member in a storage up to [lim]. *)
Definition area (lim base off room : Z) : Z -> Prop := reg (base + off) (Z.min lim (base + off + room)).

Section Touch.
Variable bits : Z -> bool.
Variable nbits : Z.
Variable past : Z -> Z -> Z * Z.
Notation store := (store true).
Notation dec := (dec true bits nbits past).

Lemma store_touch lim base off room k n v s : touch (area lim base off room) s (store lim base off room k n v s).
Proof.
  unfold Csn1Model.store. destruct (_ && _) eqn:E; [|exact I]. intros x X. cbn [s_mem set_mem]. apply upds_out. unfold area, reg in X. cbn [negb] in E. lia.
Qed.
Lemma store_exact lim base off room n v s : touch (reg (base + off) (base + off + Z.of_nat n)) s (store lim base off room 0 n v s).
Proof. unfold Csn1Model.store. destruct (_ && _) eqn:E; [|exact I]. intros x X. cbn [s_mem set_mem]. apply upds_out. unfold reg in X. lia. Qed.
Ltac st := first [apply store_touch | eapply touch_from; [|apply store_touch]; reflexivity].
Lemma octet_touch lim base off room b i s : touch (area lim base off room) s (octet true bits nbits past lim base off room b i s).
Proof. unfold octet. destruct (read _ _ _ _ _) as [v ri]. st. Qed.
Lemma uint_touch lim base b off room null err s :
  touch (reg (base + off) (base + off + Z.of_nat (width b))) s (dec_uint true bits nbits past lim base b off room null err s) /\
  touch (area lim base off room) s (dec_uint true bits nbits past lim base b off room null err s).
Proof.
  unfold dec_uint. destruct (_ <=? _); [destruct (32 <? b); [split; exact I|]; destruct (read _ _ _ _ _) as [v ri]; split|destruct null; split; try exact I].
  - eapply touch_from; [|apply store_exact]; reflexivity.
  - st.
  - apply store_exact.
  - st.
Qed.
Lemma uintoff_touch lim base b off room add s : touch (area lim base off room) s (dec_uintoff true bits nbits past lim base b off room add s).
Proof. unfold dec_uintoff. destruct (_ <=? _); [|exact I]. destruct (32 <? b); [exact I|]. destruct (read _ _ _ _ _) as [v ri]. st. Qed.
Lemma uintlh_touch lim base b off room s : touch (area lim base off room) s (dec_uintlh true bits nbits past lim base b off room s).
Proof. unfold dec_uintlh. destruct (_ <=? _); [|exact I]. destruct (8 <? b); [exact I|]. destruct (masked _ _ _ _ _ _) as [v ri]. st. Qed.
Lemma bit_touch lim base off room null s : touch (area lim base off room) s (dec_bit true bits nbits past lim base off room null s).
Proof. unfold dec_bit. destruct (_ <? _); [destruct (read _ _ _ _ _) as [v ri]; st|]. destruct null; [st|exact I]. Qed.
Lemma uintarr_touch un lim base b n off room s : touch (area lim base off room) s (dec_uintarr true bits nbits past un lim base b n off room s).
Proof.
  unfold dec_uintarr. destruct (_ <=? s_rem _); [|exact I]. cbv zeta. eapply touch_from with (t := set_pos s (s_rem s - b * n) (s_off s) (s_ri s)); [reflexivity|]. destruct (b <=? 8).
  - apply touch_rep. intros j t _. apply touch_bind; [apply octet_touch|]. intros u. apply touch_refl. reflexivity.
  - destruct (un && _); [|exact I]. apply touch_rep. intros j t _. destruct (read _ _ _ _ _) as [v ri]. st.
Qed.
Lemma bitmap_touch lim base b off room s : touch (area lim base off room) s (dec_bitmap true bits nbits past lim base b off room s).
Proof.
  unfold dec_bitmap. destruct (0 <? b); [|apply touch_refl; reflexivity]. destruct (_ <? b); [exact I|]. destruct (64 <? b); [exact I|].
  apply touch_bind; [apply touch_rep; intros; apply octet_touch|]. intros t. apply touch_refl. reflexivity.
Qed.
Lemma bitmap_u_touch lim base b off room s : touch (area lim base off room) s (dec_bitmap_u true bits nbits past lim base b off room s).
Proof.
  unfold dec_bitmap_u. destruct (0 <? b); [|apply touch_refl; reflexivity]. destruct (_ <? b); [exact I|]. destruct (64 <? b); [exact I|].
  destruct (read _ _ _ _ _) as [v ri]. st.
Qed.
(** A count and an array. *)
Definition both (R R' : Z -> Prop) (x : Z) : Prop := R x \/ R' x.
Lemma touch_l R R' s r : touch R s r -> touch (both R R') s r.
Proof. apply touch_wide. left. exact H. Qed.
Lemma touch_r R R' s r : touch R' s r -> touch (both R R') s r.
Proof. apply touch_wide. right. exact H. Qed.
Lemma varbmp_touch la te lim base add co off room s :
  touch (both (area lim base off room) (area lim base co 1)) s (dec_varbmp true bits nbits past la te lim base add co off room s).
Proof.
  unfold dec_varbmp. apply touch_bind; [destruct te; [apply touch_r; st|apply touch_refl; reflexivity]|]. intros t. cbv zeta. apply touch_l.
  destruct (0 <? _); [|apply touch_refl; reflexivity]. destruct (_ <? 0); [exact I|]. set (n := s_mem t (base + co) + add).
  assert (P : forall i u, touch (area lim base off room) u (if 0 <? n mod 8 then bindd (octet true bits nbits past lim base off room (n mod 8) i u)
     (fun s0 => DOk (set_pos s0 (s_rem s0) (s_off s0 + n mod 8) (s_ri s0))) else DOk u)).
  { intros i u. destruct (0 <? _); [|apply touch_refl; reflexivity]. apply touch_bind; [apply octet_touch|]. intros v. apply touch_refl. reflexivity. }
  eapply touch_from with (t := set_pos t (s_rem t - n) (s_off t) (s_ri t)); [reflexivity|].
  destruct la; apply touch_bind; try (apply touch_rep; intros; apply octet_touch); intros; try apply P.
Qed.
Lemma vararr_touch lim base add co off room s : touch (area lim base off room) s (dec_vararr true bits nbits past lim base add co off room s).
Proof.
  unfold dec_vararr. cbv zeta. destruct (0 <? _); [|apply touch_refl; reflexivity]. destruct (_ <? 0); [exact I|].
  eapply touch_from; [|apply touch_rep; intros j t _; apply touch_bind; [apply octet_touch|intros u; apply touch_refl; reflexivity]]. reflexivity.
Qed.
Lemma recarr_touch fuel lim base b co off room : forall i s,
  touch (both (area lim base off room) (area lim base co 1)) s (dec_recarr true bits nbits past fuel lim base b co off room i s).
Proof.
  induction fuel as [|fuel IH]; intros i s; [exact I|]. cbn [dec_recarr]. cbv zeta. destruct (tag _ _ _).
  - eapply touch_from with (t := set_pos s (s_rem s - 1) (s_off s + 1) (s_ri s + 1)); [reflexivity|]. apply touch_bind; [apply touch_l, octet_touch|].
    intros t. destruct (_ <? 0); [exact I|]. eapply touch_from; [|apply IH]. reflexivity.
  - apply touch_r. st.
Qed.
Lemma callback_touch lim base c p q room s : touch (area lim base q room) s (dec_callback true bits nbits past lim base c p q room s).
Proof.
  destruct c; cbn [dec_callback]; cbv zeta; [|st|apply touch_refl; reflexivity]. apply touch_rep. intros. st.
Qed.
Lemma rec_elems_touch (R : Z -> Prop) lim base co cap f fuel : (forall x, area lim base co 1 x -> R x) -> forall i s, 0 <= i -> (forall j t, 0 <= j -> touch R t (f j t)) ->
  touch R s (rec_elems true bits nbits fuel lim base co cap i f s).
Proof.
  intros HR. induction fuel as [|fuel IH]; intros i s Hi H; [exact I|]. cbn [rec_elems]. destruct (tag _ _ _).
  - cbv zeta. destruct (_ <? _); [exact I|]. eapply touch_from with (t := adv s 1 (s_ri s + 1)); [reflexivity|]. apply touch_bind; [apply H; lia|].
    intros t. destruct (_ <? 0); [exact I|]. apply IH; [lia|exact H].
  - eapply touch_wide; [exact HR|]. st.
Qed.
Lemma rec_elems1_touch (R : Z -> Prop) lim base co cap f fuel : (forall x, area lim base co 1 x -> R x) -> forall i s, 0 <= i -> (forall j t, 0 <= j -> touch R t (f j t)) ->
  touch R s (rec_elems1 true bits nbits fuel lim base co cap i f s).
Proof.
  intros HR. induction fuel as [|fuel IH]; intros i s Hi H; [exact I|]. cbn [rec_elems1]. destruct (_ <? _); [exact I|].
  apply touch_bind; [apply H; lia|]. intros t. destruct (_ <? 0); [exact I|]. cbv zeta. destruct (tag _ _ _).
  - eapply touch_from; [|apply IH; [lia|exact H]]. reflexivity.
  - eapply touch_wide; [exact HR|]. st.
Qed.
Lemma union_index_mem lh n : forall ix s, s_mem (snd (union_index bits nbits past n lh ix s)) = s_mem s /\
  ix * 2 ^ Z.of_nat n <= fst (union_index bits nbits past n lh ix s) < (ix + 1) * 2 ^ Z.of_nat n.
Proof.
  induction n as [|n IH]; intros ix s; [cbn; split; [reflexivity|lia]|]. cbn [union_index].
  destruct (if lh then _ else _) as [v ri]. destruct (IH (2 * ix + v mod 2) (adv s 1 ri)) as [A B]. split; [rewrite A; reflexivity|].
  replace (2 ^ Z.of_nat (S n)) with (2 * 2 ^ Z.of_nat n) by (rewrite Nat2Z.inj_succ, Z.pow_succ_r by lia; reflexivity).
  assert (0 < 2 ^ Z.of_nat n) by (apply Z.pow_pos_nonneg; lia). pose proof (Z.mod_pos_bound v 2 ltac:(lia)). nia.
Qed.

(** Everything lies behind the beginning of the structure when no offset is negative. *)
Fixpoint offs (d : descr) : bool :=
  match d with
  | DEnd => true
  | DBit o _ _ r | DUint _ o _ _ r | DUintOff _ o _ _ r | DUintLH _ o _ r | DUintArr _ _ o _ r | DBitmap _ o _ r | DUnion _ _ o _ r
  | DExist _ o _ r | DNext _ _ o _ _ r | DVarArr _ _ o _ r | DCallback _ _ o _ r => (0 <=? o) && offs r
  | DVarBmp _ _ _ c o _ r | DRecArr _ c o _ r => (0 <=? c) && (0 <=? o) && offs r
  | DTArr _ o _ st u r => (0 <=? o) && (0 <=? st) && offs u && offs r
  | DType o _ _ u r | DChoice o _ u r | DSer _ o _ u r => (0 <=? o) && offs u && offs r
  | DAlt _ _ _ u r => offs u && offs r
  | DRecTArr _ c o _ st _ u r => (0 <=? c) && (0 <=? o) && (0 <=? st) && offs u && offs r
  | DNull _ r | DPad r | DFixed _ _ r | DTrap _ r => offs r
  end.
Ltac wide t := eapply touch_wide; [|t]; [let x := fresh "x" in let X := fresh "X" in intros x X; unfold both, area, inner, reg in *; lia].
Ltac sub IH := apply touch_call; wide ltac:(apply IH; [assumption|exact I]).
Lemma dec_touch d : forall lim base md s, offs d = true -> moff md -> touch (reg base lim) s (dec lim base d md s).
Proof.
  induction d; intros lim base md s O M; cbn [offs] in O; rewrite ?andb_true_iff in O;
    repeat match goal with H : _ /\ _ |- _ => destruct H | H : (0 <=? _) = true |- _ => apply Z.leb_le in H end; cbn [Csn1Model.dec]; cbv zeta;
    try (apply touch_control; [intros md' M'; auto | |intros n0]); try exact I;
    try (apply touch_after; [|intros t; match goal with IH : context [dec _ _ ?r] |- touch _ _ (dec _ _ ?r _ _) => apply IH; [assumption|exact I] end]).
  - destruct md as [[|]| |]; try exact I. apply touch_refl. reflexivity.
  - wide ltac:(apply bit_touch).
  - destruct (read _ _ _ _ _) as [v ri]. wide ltac:(eapply touch_from; [|apply store_touch]; reflexivity).
  - apply touch_refl. reflexivity.
  - apply touch_refl. reflexivity.
  - wide ltac:(apply uint_touch).
  - wide ltac:(apply uint_touch).
  - wide ltac:(apply uintoff_touch).
  - wide ltac:(apply uintoff_touch).
  - wide ltac:(apply uintlh_touch).
  - wide ltac:(apply uintlh_touch).
  - wide ltac:(apply uintarr_touch).
  - wide ltac:(apply uintarr_touch).
  - apply touch_rep. intros j t J. assert (0 <= j * stride) by nia. sub IHd1.
  - apply touch_rep. intros j t J. assert (0 <= j * stride) by nia. sub IHd1.
  - wide ltac:(apply bitmap_touch).
  - wide ltac:(apply bitmap_u_touch).
  - destruct (_ && _); [apply touch_refl; reflexivity|sub IHd1].
  - destruct (_ && _); [apply touch_refl; reflexivity|sub IHd1].
  - apply IHd1; [assumption|cbn; lia].
  - destruct md as [| |i off room]; try exact I. cbn [moff] in M. destruct (read _ _ _ _ _) as [v ri]. destruct (_ =? _).
    + apply touch_bind; [wide ltac:(eapply touch_from; [|apply store_touch]; destruct keep; reflexivity)|]. intros t. apply touch_call. apply IHd1; [assumption|exact I].
    + eapply touch_from; [|apply IHd2; [assumption|exact M]]. reflexivity.
  - destruct (read _ _ _ _ _) as [v ri]. apply touch_bind.
    + apply touch_from with (t := if 0 <? v mod 256 then set_pos (adv s lbits ri) (v mod 256) (s_off (adv s lbits ri)) (s_ri (adv s lbits ri)) else adv s lbits ri);
        [destruct (0 <? _); reflexivity|]. sub IHd1.
    + intros t. destruct (0 <? _); apply touch_refl; reflexivity.
  - destruct (_ || _); [exact I|]. destruct (union_index _ _ _ _ _ _ _) as [ix t] eqn:E.
    pose proof (union_index_mem lh (Z.to_nat (nth n ix_bits 0)) 0 s) as [U _]. rewrite E in U. cbn [snd] in U.
    eapply touch_from; [exact U|]. apply touch_bind; [wide ltac:(apply store_touch)|]. intros u. apply IHd; [assumption|exact I].
  - destruct (if lh then _ else _) as [v ri]. apply touch_bind; [wide ltac:(eapply touch_from; [|apply store_touch]; reflexivity)|].
    intros t. destruct (_ =? 0); [destruct (_ <? 0); [exact I|apply touch_refl; reflexivity]|]. apply touch_after; [apply touch_refl; reflexivity|]. intros u. apply IHd; [assumption|exact I].
  - destruct (_ && (s_rem s =? 0)); [apply touch_after; [wide ltac:(apply store_touch)|intros t; apply IHd; [assumption|exact I]]|].
    destruct (if lh then _ else _) as [v ri]. apply touch_after; [wide ltac:(eapply touch_from; [|apply store_touch]; reflexivity)|intros t; apply IHd; [assumption|exact I]].
  - wide ltac:(apply varbmp_touch).
  - unfold dec_pad. destruct (_ <? _); apply touch_refl; reflexivity.
  - wide ltac:(apply vararr_touch).
  - wide ltac:(apply recarr_touch).
  - destruct first; [apply rec_elems1_touch|apply rec_elems_touch]; try lia; try (intros x X; unfold area, reg in *; lia);
      (intros j t J; assert (0 <= j * stride) by nia; sub IHd1).
  - unfold dec_fixed. destruct (_ <? _); [exact I|]. destruct (read _ _ _ _ _) as [v ri]. destruct (_ =? _); [apply touch_refl; reflexivity|exact I].
  - wide ltac:(apply callback_touch).
Qed.

(** *** Worlds: what is known of octets of the structure *)
Definition world := list (Z * (Z * Z)).
Definition holds (w : world) (m : mem) : Prop := Forall (fun f => fst (snd f) <= m (fst f) <= snd (snd f)) w.
Definition drop (lo hi : Z) (w : world) : world := filter (fun f => (fst f <? lo) || (hi <=? fst f)) w.
(** Octet [a], if it is of interest, has the value [v]. *)
Definition put (T : list Z) (a v : Z) (w : world) : world :=
  if existsb (Z.eqb a) T then (a, (v, v)) :: drop a (a + 1) w else drop a (a + 1) w.
Definition free (lo hi : Z) (w : world) : bool := forallb (fun f => (fst f <? lo) || (hi <=? fst f)) w.
Definition away (l : list Z) (lo hi : Z) : bool := forallb (fun c => (c <? lo) || (hi <=? c)) l.
Definition actl (md : mode) (next : mode -> list world) (run : list world) (uni : nat -> list world) : list world :=
  match md with
  | Skip O => run
  | Skip (S n) => next (Skip n)
  | Sel O n => uni (n - 1)%nat
  | Sel (S k) n => next (Sel k (n - 1))
  | Alts _ _ _ => []
  end.
Section Eval.
Variable T : list Z.
(** The nested structures to look into: where they begin and their room. *)
Variable D : list (Z * Z).
(** The worlds that are possible after decoding with the table, in which the rooms are what decoding can touch. *)
Fixpoint aev (base : Z) (d : descr) (md : mode) (w : world) {struct d} : list world :=
  let go off n r :=
    let w' := drop (base + off) (base + off + n) w in
    actl md (fun md => aev base r md w) (aev base r run_mode w') (fun n => aev base r (Skip n) w') in
  match d with
  | DEnd => match md with Skip O => [w] | _ => [] end
  | DBit off room _ r | DUintOff _ off room _ r | DUintLH _ off room r | DUintArr _ _ off room r | DTArr _ off room _ _ r
  | DBitmap _ off room r | DSer _ off room _ r | DVarArr _ _ off room r | DCallback _ _ off room r => go off room r
  | DUint b off _ _ r => go off (Z.of_nat (width b)) r
  | DNull _ r | DPad r | DFixed _ _ r | DTrap _ r => go 0 0 r
  | DType off room null sub r =>
      let ws := if free (base + off) (base + off + room) w && away T (base + off) (base + off + room) then [w]
                else (if null then [w] else []) ++
                     if existsb (fun x => (fst x =? base + off) && (snd x =? room)) D then aev (base + off) sub run_mode w
                     else [drop (base + off) (base + off + room) w] in
      actl md (fun md => aev base r md w) (flat_map (aev base r run_mode) ws) (fun n => flat_map (aev base r (Skip n)) ws)
  | DChoice off room alts r =>
      actl md (fun md => aev base r md w) (flat_map (aev base r run_mode) (aev base alts (Alts 0 off room) w)) (fun _ => [])
  | DAlt _ _ _ one r =>
      match md with
      | Alts i off room => aev base one run_mode (put T (base + off) (i mod 256) w) ++ aev base r (Alts (i + 1) off room) w
      | _ => []
      end
  | DUnion _ n off _ r =>
      actl md (fun md => aev base r md w)
        (flat_map (fun i => aev base r (Sel (Nat.min i (n - 1)) n) (put T (base + off) (Z.of_nat i mod 256) w)) (seq 0 (Z.to_nat (2 ^ nth n ix_bits 0))))
        (fun _ => [])
  | DExist _ off room r =>
      let w' := drop (base + off) (base + off + room) w in
      actl md (fun md => aev base r md w) (w' :: aev base r run_mode w') (fun _ => [])
  | DNext _ n off _ _ r =>
      actl md (fun md => aev base r md w)
        (aev base r (Skip n) (put T (base + off) 0 w) ++ aev base r run_mode (put T (base + off) 1 w)) (fun _ => [])
  | DVarBmp _ _ _ c off room r | DRecArr _ c off room r | DRecTArr _ c off room _ _ _ r =>
      let w' := drop (base + c) (base + c + 1) (drop (base + off) (base + off + room) w) in
      actl md (fun md => aev base r md w) (aev base r run_mode w') (fun _ => [])
  end.

Lemma bind_ok r k t : bindd r k = DOk t -> exists u, r = DOk u /\ k u = DOk t.
Proof. destruct r as [u| |]; cbn [bindd]; try discriminate. intros E. exists u. auto. Qed.
Lemma after_ok' r k t : after r k = DOk t -> exists u, r = DOk u /\ k u = DOk t.
Proof. unfold after. intros E. apply bind_ok in E as (u & E1 & E2). destruct (_ <? _); [discriminate|]. exists u. auto. Qed.
Lemma call_ok' f s t : call f s = DOk t -> f s = DOk t.
Proof. unfold call. destruct (_ <? _); [discriminate|auto]. Qed.
Lemma holds_drop lo hi w m m' : holds w m -> (forall x, ~ reg lo hi x -> m' x = m x) -> holds (drop lo hi w) m'.
Proof.
  intros H E. unfold holds, drop in *. rewrite Forall_forall in *. intros [c [l h]] F. apply filter_In in F as [F G]. cbn [fst snd] in *.
  rewrite E by (unfold reg; lia). exact (H _ F).
Qed.
Lemma holds_free lo hi w m m' : free lo hi w = true -> holds w m -> (forall x, ~ reg lo hi x -> m' x = m x) -> holds w m'.
Proof.
  intros F H E. unfold holds, free in *. rewrite Forall_forall in *. rewrite forallb_forall in F. intros f Hf. specialize (F f Hf). rewrite E by (unfold reg; lia). exact (H _ Hf).
Qed.
Lemma holds_two lo hi lo' hi' w m m' : holds w m -> (forall x, ~ reg lo hi x -> ~ reg lo' hi' x -> m' x = m x) -> holds (drop lo' hi' (drop lo hi w)) m'.
Proof.
  intros H E. unfold holds, drop in *. rewrite Forall_forall in *. intros [c [l h]] F. apply filter_In in F as [F G]. apply filter_In in F as [F G']. cbn [fst snd] in *.
  rewrite E by (unfold reg; lia). exact (H _ F).
Qed.
Lemma store_put lim base off room v s t w : holds w (s_mem s) -> store lim base off room 0 1 v s = DOk t -> holds (put T (base + off) (v mod 256) w) (s_mem t).
Proof.
  intros H E. pose proof (store_exact lim base off room 1 v s) as X. rewrite E in X. cbn [touch] in X. change (Z.of_nat 1) with 1 in X.
  assert (Y : s_mem t (base + off) = v mod 256).
  { unfold Csn1Model.store in E. destruct (_ && _); [|discriminate]. injection E as <-. cbn [s_mem set_mem]. replace (base + off + 0) with (base + off) by lia. apply upds_first. }
  unfold put. destruct (existsb _ _); [constructor; [cbn [fst snd]; lia|]|]; (eapply holds_drop; [exact H|exact X]).
Qed.
Definition sound (d : descr) : Prop := forall lim base md s t w, offs d = true -> moff md -> holds w (s_mem s) -> dec lim base d md s = DOk t ->
  exists w', In w' (aev base d md w) /\ holds w' (s_mem t).
Lemma use d (IH : sound d) lim base md s t w : dec lim base d md s = DOk t -> holds w (s_mem s) -> offs d = true -> moff md ->
  exists w', In w' (aev base d md w) /\ holds w' (s_mem t).
Proof. intros E H O M. eapply IH; eauto. Qed.
Lemma plain r lim base md s t w lo hi e1 uni : sound r -> offs r = true ->
  control md s (dec lim base r) (after e1 (dec lim base r run_mode)) uni = DOk t ->
  touch (reg lo hi) s e1 -> (forall n, uni n = DOk t -> exists e2, touch (reg lo hi) s e2 /\ after e2 (dec lim base r (Skip n)) = DOk t) -> holds w (s_mem s) ->
  exists w', In w' (actl md (fun md => aev base r md w) (aev base r run_mode (drop lo hi w)) (fun n => aev base r (Skip n) (drop lo hi w))) /\ holds w' (s_mem t).
Proof.
  intros IH O E T1 T2 H. destruct md as [[|n]|[|k] n|]; cbn [control actl] in *; try discriminate.
  - apply after_ok' in E as (u & -> & E). eapply IH; [exact O|exact I| |exact E]. eapply holds_drop; [exact H|exact T1].
  - eapply IH; [exact O|exact I|exact H|exact E].
  - apply T2 in E as (e2 & T3 & E). apply after_ok' in E as (u & -> & E). eapply IH; [exact O|exact I| |exact E]. eapply holds_drop; [exact H|exact T3].
  - eapply IH; [exact O|exact I|exact H|exact E].
Qed.
Lemma no_uni lo hi s t n (k : cst -> dres) : no_union n = DOk t -> exists e2, touch (reg lo hi) s e2 /\ after e2 k = DOk t.
Proof. discriminate. Qed.
(** An entry that cannot be in a union. *)
Lemma alone lim base r md s t w run ws : sound r -> offs r = true -> control md s (dec lim base r) run no_union = DOk t -> holds w (s_mem s) ->
  (run = DOk t -> exists w', In w' ws /\ holds w' (s_mem t)) -> exists w', In w' (actl md (fun md => aev base r md w) ws (fun _ => [])) /\ holds w' (s_mem t).
Proof.
  intros IH O E H R. destruct md as [[|n]|[|k] n|]; cbn [control actl] in *; try discriminate; auto; (eapply IH; [exact O|exact I|exact H|exact E]).
Qed.
Ltac tw lem := eapply touch_wide; [|apply lem]; let x := fresh "x" in let X := fresh "X" in intros x X; unfold area, reg in *; lia.
Lemma aev_sound d : sound d.
Proof.
  induction d; intros lim base md s t w O M H E; cbn [offs] in O; rewrite ?andb_true_iff in O;
    repeat match goal with X : _ /\ _ |- _ => destruct X | X : (0 <=? _) = true |- _ => apply Z.leb_le in X end; cbn [Csn1Model.dec] in E; cbv zeta in E; cbn [aev]; cbv zeta.
  - destruct md as [[|]| |]; try discriminate. injection E as <-. exists w. split; [left; reflexivity|exact H].
  - eapply plain; [exact IHd|assumption|exact E|tw bit_touch| |exact H]. intros n X. eexists. split; [|exact X]. destruct (read _ _ _ _ _) as [v ri].
    eapply touch_from; [|tw store_touch]. reflexivity.
  - eapply plain; [exact IHd|assumption|exact E|apply touch_refl; reflexivity| |exact H]. intros n0 X. eexists. split; [|exact X]. apply touch_refl. reflexivity.
  - eapply plain; [exact IHd|assumption|exact E|apply uint_touch| |exact H]. intros n X. eexists. split; [|exact X]. apply uint_touch.
  - eapply plain; [exact IHd|assumption|exact E|tw uintoff_touch| |exact H]. intros n X. eexists. split; [|exact X]. tw uintoff_touch.
  - eapply plain; [exact IHd|assumption|exact E|tw uintlh_touch| |exact H]. intros n X. eexists. split; [|exact X]. tw uintlh_touch.
  - eapply plain; [exact IHd|assumption|exact E|tw uintarr_touch| |exact H]. intros n0 X. eexists. split; [|exact X]. tw uintarr_touch.
  - assert (P : forall n, touch (reg (base + off) (base + off + room)) s (rep n 0 (fun i s0 => call (dec (inner true lim base off room) (base + off + i * stride) d1 run_mode) s0) s)).
    { intros n. apply touch_rep. intros j u J. assert (0 <= j * stride) by nia. apply touch_call. eapply touch_wide; [|apply dec_touch; [assumption|exact I]].
      intros x X. unfold inner, reg in *. lia. }
    eapply plain; [exact IHd2|assumption|exact E|apply P| |exact H]. intros n X. eexists. split; [|exact X]. apply P.
  - eapply plain; [exact IHd|assumption|exact E|tw bitmap_touch| |exact H]. intros n X. eexists. split; [|exact X]. tw bitmap_u_touch.
  - set (e := if null && (s_rem s =? 0) then DOk s else call (dec (inner true lim base off room) (base + off) d1 run_mode) s) in *.
    set (ws := if free (base + off) (base + off + room) w && away T (base + off) (base + off + room) then [w] else (if null then [w] else []) ++
       if existsb (fun x => (fst x =? base + off) && (snd x =? room)) D then aev (base + off) d1 run_mode w else [drop (base + off) (base + off + room) w]).
    assert (P : forall u, e = DOk u -> exists w1, In w1 ws /\ holds w1 (s_mem u)).
    { intros u Eu. unfold ws, e in *. destruct (null && _) eqn:N.
      - injection Eu as <-. exists w. split; [|exact H]. destruct null; [|discriminate]. destruct (_ && away _ _ _); left; reflexivity.
      - apply call_ok' in Eu. destruct (_ && away _ _ _) eqn:F; [apply andb_prop in F as [F _]|].
        + exists w. split; [left; reflexivity|]. eapply holds_free; [exact F|exact H|].
          pose proof (dec_touch d1 (inner true lim base off room) (base + off) run_mode s ltac:(assumption) I) as T1. rewrite Eu in T1. intros x X. apply T1. unfold inner, reg in *. lia.
        + destruct (existsb _ D).
          * destruct (use _ IHd1 _ _ _ _ _ w Eu H ltac:(assumption) I) as (w1 & I1 & HH1). exists w1. split; [apply in_or_app; right; exact I1|exact HH1].
          * eexists. split; [apply in_or_app; right; left; reflexivity|]. eapply holds_drop; [exact H|].
            pose proof (dec_touch d1 (inner true lim base off room) (base + off) run_mode s ltac:(assumption) I) as T1. rewrite Eu in T1. intros x X. apply T1. unfold inner, reg in *. lia. }
    assert (Q : forall n, after e (dec lim base d2 (Skip n)) = DOk t -> exists w', In w' (flat_map (aev base d2 (Skip n)) ws) /\ holds w' (s_mem t)).
    { intros n X. apply after_ok' in X as (u & Eu & X). destruct (P u Eu) as (w1 & I1 & HH1). destruct (use _ IHd2 _ _ _ _ _ w1 X HH1 ltac:(assumption) ltac:(exact I)) as (w2 & I2 & HH2).
      exists w2. split; [apply in_flat_map; exists w1; auto|exact HH2]. }
    destruct md as [[|n]|[|k] n|]; cbn [control actl] in *; try discriminate; try (apply Q; exact E); (eapply IHd2; [assumption|exact I|exact H|exact E]).
  - eapply alone; [exact IHd2|assumption|exact E|exact H|]. intros X. apply after_ok' in X as (u & Eu & X).
    destruct (use _ IHd1 _ _ _ _ _ w Eu H ltac:(assumption) ltac:(cbn; lia)) as (w1 & I1 & HH1). destruct (use _ IHd2 _ _ _ _ _ w1 X HH1 ltac:(assumption) ltac:(exact I)) as (w2 & I2 & HH2).
    exists w2. split; [apply in_flat_map; exists w1; auto|exact HH2].
  - destruct md as [| |i off room]; try discriminate. cbn [moff] in M. destruct (read _ _ _ _ _) as [v ri]. destruct (_ =? _).
    + apply bind_ok in E as (u & E1 & E2). apply call_ok' in E2. eapply store_put in E1; [|destruct keep; exact H].
      destruct (use _ IHd1 _ _ _ _ _ _ E2 E1 ltac:(assumption) ltac:(exact I)) as (w1 & I1 & HH1). exists w1. split; [apply in_or_app; left; exact I1|exact HH1].
    + destruct (use _ IHd2 _ _ _ _ _ w E H ltac:(assumption) M) as (w1 & I1 & HH1). exists w1. split; [apply in_or_app; right; exact I1|exact HH1].
  - eapply plain; [exact IHd2|assumption|exact E| |intros n; apply no_uni|exact H]. destruct (read _ _ _ _ _) as [v ri]. apply touch_bind.
    + apply touch_from with (t := if 0 <? v mod 256 then set_pos (adv s lbits ri) (v mod 256) (s_off (adv s lbits ri)) (s_ri (adv s lbits ri)) else adv s lbits ri);
        [destruct (0 <? _); reflexivity|]. apply touch_call. eapply touch_wide; [|apply dec_touch; [assumption|exact I]]. intros x X. unfold inner, reg in *. lia.
    + intros u. destruct (0 <? _); apply touch_refl; reflexivity.
  - eapply alone; [exact IHd|assumption|exact E|exact H|]. intros X. destruct (_ || _); [discriminate|]. destruct (union_index _ _ _ _ _ _ _) as [ix u] eqn:Eu.
    pose proof (union_index_mem lh (Z.to_nat (nth n ix_bits 0)) 0 s) as [U1 U2]. rewrite Eu in U1, U2. cbn [fst snd] in U1, U2. apply bind_ok in X as (u1 & E1 & X).
    eapply store_put with (w := w) in E1; [|rewrite U1; exact H]. destruct (use _ IHd _ _ _ _ _ _ X E1 ltac:(assumption) ltac:(exact I)) as (w1 & I1 & HH1). exists w1. split; [|exact HH1].
    apply in_flat_map. exists (Z.to_nat ix). replace (Z.of_nat (Z.to_nat ix)) with ix by lia. split; [|exact I1]. apply in_seq.
    replace (Z.of_nat (Z.to_nat (nth n ix_bits 0))) with (nth n ix_bits 0) in U2; [lia|]. rewrite Z2Nat.id; [reflexivity|].
    do 18 (destruct n as [|n]; [cbn; lia|]). cbn. destruct n; cbn; lia.
  - eapply alone; [exact IHd|assumption|exact E|exact H|]. intros X. destruct (if lh then _ else _) as [v ri]. apply bind_ok in X as (u & E1 & X).
    pose proof (store_touch lim base off room 0 1 v (adv s 1 ri)) as T1. rewrite E1 in T1.
    assert (Hd : holds (drop (base + off) (base + off + room) w) (s_mem u)) by (eapply holds_drop; [exact H|]; intros x Hx; apply T1; unfold area, reg in *; lia).
    destruct (_ =? 0); [destruct (_ <? 0); [discriminate|]; injection X as <-; eexists; split; [left; reflexivity|exact Hd]|].
    apply after_ok' in X as (u1 & E2 & X). injection E2 as <-. destruct (use _ IHd _ _ _ _ _ _ X Hd ltac:(assumption) ltac:(exact I)) as (w1 & I1 & HH1). exists w1. split; [right; exact I1|exact HH1].
  - eapply alone; [exact IHd|assumption|exact E|exact H|]. intros X. destruct (_ && (s_rem s =? 0)).
    + apply after_ok' in X as (u & E1 & X). eapply store_put in E1; [|exact H]. destruct (use _ IHd _ _ _ _ _ _ X E1 ltac:(assumption) ltac:(exact I)) as (w1 & I1 & HH1).
      exists w1. split; [apply in_or_app; left; exact I1|exact HH1].
    + destruct (if lh then _ else _) as [v ri]. apply after_ok' in X as (u & E1 & X). eapply store_put with (w := w) in E1; [|exact H].
      destruct ((v =? 0) || _); destruct (use _ IHd _ _ _ _ _ _ X E1 ltac:(assumption) ltac:(exact I)) as (w1 & I1 & HH1); exists w1; (split; [apply in_or_app; first [left; exact I1|right; exact I1]|exact HH1]).
  - eapply alone; [exact IHd|assumption|exact E|exact H|]. intros X. apply after_ok' in X as (u & E1 & X). pose proof (varbmp_touch la toend lim base add coff off room s) as T1. rewrite E1 in T1.
    eapply IHd; [assumption|exact I| |exact X]. eapply holds_two; [exact H|]. intros x X1 X2. apply T1. intros [Y|Y]; unfold area, reg in *; lia.
  - eapply plain; [exact IHd|assumption|exact E| |intros n; apply no_uni|exact H]. unfold dec_pad. destruct (_ <? _); apply touch_refl; reflexivity.
  - eapply plain; [exact IHd|assumption|exact E|tw vararr_touch|intros n; apply no_uni|exact H].
  - eapply alone; [exact IHd|assumption|exact E|exact H|]. intros X. apply after_ok' in X as (u & E1 & X). pose proof (recarr_touch (S (Z.to_nat (s_rem s))) lim base bits0 coff off room 0 s) as T1. rewrite E1 in T1.
    eapply IHd; [assumption|exact I| |exact X]. eapply holds_two; [exact H|]. intros x X1 X2. apply T1. intros [Y|Y]; unfold area, reg in *; lia.
  - eapply alone; [exact IHd2|assumption|exact E|exact H|]. intros X. apply after_ok' in X as (u & E1 & X).
    assert (T1 : touch (both (reg (base + off) (base + off + room)) (area lim base coff 1)) s (DOk u)).
    { rewrite <- E1. destruct first; [apply rec_elems1_touch|apply rec_elems_touch]; try lia; try (intros x Hx; right; exact Hx);
      (intros j v J; assert (0 <= j * stride) by nia; apply touch_call; eapply touch_wide; [|apply dec_touch; [assumption|exact I]]; intros x Hx; left; unfold inner, reg in *; lia). }
    eapply IHd2; [assumption|exact I| |exact X]. eapply holds_two; [exact H|]. intros x X1 X2. apply T1. intros [Y|Y]; unfold area, reg in *; lia.
  - eapply plain; [exact IHd|assumption|exact E| |intros n; apply no_uni|exact H]. unfold dec_fixed. destruct (_ <? _); [exact I|]. destruct (read _ _ _ _ _) as [v ri].
    destruct (_ =? _); [apply touch_refl; reflexivity|exact I].
  - eapply plain; [exact IHd|assumption|exact E|tw callback_touch|intros n; apply no_uni|exact H].
  - destruct md as [[|n]|[|k] n|]; cbn [control actl] in *; try discriminate;
      (destruct (use _ IHd _ _ _ _ _ w E H ltac:(assumption) ltac:(exact I)) as (w1 & I1 & HH1); exists w1; auto).
Qed.
End Eval.
End Touch.

(** *** Tables that let the variable arrays run over the end of their members by [j] octets *)
Fixpoint runs_over (d : descr) : bool :=
  match d with
  | DEnd => false
  | DVarBmp _ _ _ _ _ _ _ | DVarArr _ _ _ _ _ | DRecArr _ _ _ _ _ => true
  | DTArr _ _ _ _ u r | DType _ _ _ u r | DChoice _ _ u r | DAlt _ _ _ u r | DSer _ _ _ u r | DRecTArr _ _ _ _ _ _ u r => runs_over u || runs_over r
  | DBit _ _ _ r | DNull _ r | DUint _ _ _ _ r | DUintOff _ _ _ _ r | DUintLH _ _ _ r | DUintArr _ _ _ _ r | DBitmap _ _ _ r
  | DUnion _ _ _ _ r | DExist _ _ _ r | DNext _ _ _ _ _ r | DPad r | DFixed _ _ r | DCallback _ _ _ _ r | DTrap _ r => runs_over r
  end.
Fixpoint wid (j : Z) (d : descr) : descr :=
  match d with
  | DEnd => DEnd
  | DVarBmp l t a c o m r => DVarBmp l t a c o (m + j) (wid j r)
  | DVarArr a c o m r => DVarArr a c o (m + j) (wid j r)
  | DRecArr b c o m r => DRecArr b c o (m + j) (wid j r)
  | DType o m n u r => DType o (if runs_over u then m + j else m) n (wid j u) (wid j r)
  | DTArr c o m st u r => DTArr c o m st u (wid j r)
  | DChoice o m u r => DChoice o m (wid j u) (wid j r)
  | DAlt b v k u r => DAlt b v k (wid j u) (wid j r)
  | DSer b o m u r => DSer b o m u (wid j r)
  | DRecTArr f c o m st cap u r => DRecTArr f c o m st cap u (wid j r)
  | DBit o m n r => DBit o m n (wid j r)
  | DNull n r => DNull n (wid j r)
  | DUint b o m n r => DUint b o m n (wid j r)
  | DUintOff b o m n r => DUintOff b o m n (wid j r)
  | DUintLH b o m r => DUintLH b o m (wid j r)
  | DUintArr b n o m r => DUintArr b n o m (wid j r)
  | DBitmap b o m r => DBitmap b o m (wid j r)
  | DUnion l n o m r => DUnion l n o m (wid j r)
  | DExist l o m r => DExist l o m (wid j r)
  | DNext l n o m z r => DNext l n o m z (wid j r)
  | DPad r => DPad (wid j r)
  | DFixed b v r => DFixed b v (wid j r)
  | DCallback c p q m r => DCallback c p q m (wid j r)
  | DTrap c r => DTrap c (wid j r)
  end.
Lemma wid_same j d : same (wid j d) d.
Proof. induction d; cbn [wid]; constructor; auto using same_refl. Qed.

(** Decoding into a structure of [size] octets leaves it in one of the worlds. *)
Theorem decode_world bits nbits past T D j d size rm rem off ri m w t :
  (forall ri n, 0 <= n -> 0 <= fst (past ri n) < 2 ^ n) ->
  safe_table rm size (wid j d) = true -> offs (wid j d) = true -> 0 <= rm -> rem <= rm -> octets m -> holds w m ->
  decode false bits nbits past size d rem off ri m = DOk t ->
  exists w', In w' (aev T D 0 (wid j d) run_mode w) /\ holds w' (s_mem t).
Proof.
  intros Hp H F H0 H1 O Hw E.
  pose proof (decode_safe bits nbits past Hp (wid j d) size rm rem off ri m H H0 H1 O) as G.
  assert (L : leq (decode true bits nbits past size (wid j d) rem off ri m) (decode false bits nbits past size d rem off ri m)).
  { unfold decode. apply leq_call. apply dec_leq; [apply wid_same|lia|constructor]. }
  destruct L as [L|L]; [rewrite L in G; contradiction|]. rewrite E in L. unfold decode in L. apply call_ok' in L.
  exact (use bits nbits past T D (wid j d) (aev_sound bits nbits past T D (wid j d)) size 0 run_mode _ t w L Hw F I).
Qed.
