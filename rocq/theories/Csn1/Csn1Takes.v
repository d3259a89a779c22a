(** Decoding never adds to the bits that remain, and takes at least the bits that [mins] of Csn1Check.v counts. *)
From Coq Require Import ZArith List Bool Lia.
From Verif Require Import Lib.Base Csn1.Csn1Model Csn1.Csn1Check.
Import ListNotations.
Open Scope Z_scope.

Lemma mins_nn d : pos d = true -> 0 <= mins d.
Proof.
  induction d; cbn [pos mins]; intros H; repeat rewrite andb_true_iff in H; rewrite ?Z.leb_le in H; try lia;
    try (destruct null; lia); try (destruct H as [H1 H2]; try specialize (IHd H2); try specialize (IHd1 H1); try specialize (IHd2 H2); destruct null; lia).
Qed.

Section Takes.
Variable st : bool.
Variable bits : Z -> bool.
Variable nbits : Z.
Variable past : Z -> Z -> Z * Z.
Notation DEC := (dec st bits nbits past).

(** The outcome leaves at least [c] bits less than there were. *)
Definition took (s : cst) (c : Z) (r : dres) : Prop := match r with DOk t => s_rem t <= s_rem s - c | _ => True end.

Lemma took_weak s c c' r : c' <= c -> took s c r -> took s c' r.
Proof. destruct r; cbn; lia. Qed.
Lemma took_store s s' c lim base off room k n v : s_rem s' <= s_rem s - c -> took s c (store st lim base off room k n v s').
Proof. unfold store. destruct (_ && _); cbn; auto. Qed.
Lemma took_bind s c c' r k : took s c r -> (forall t, took t c' (k t)) -> took s (c + c') (bindd r k).
Proof. destruct r as [t| |]; cbn; auto. intros H K. specialize (K t). destruct (k t); cbn in *; auto. lia. Qed.
Lemma took_after s c c' r k : took s c r -> (forall t, took t c' (k t)) -> took s (c + c') (after r k).
Proof. intros H K. apply took_bind; auto. intros t. destruct (s_rem t <? 0); cbn; auto. Qed.
Lemma took_call s c f : took s c (f s) -> took s c (call f s).
Proof. unfold call. destruct (s_rem s <? 0); cbn; auto. Qed.
Lemma took_rep (f : Z -> cst -> dres) n : (forall i s, took s 0 (f i s)) -> forall i s, took s 0 (rep n i f s).
Proof.
  intros H. induction n as [|n IH]; intros i s; cbn [rep]; [cbn; lia|].
  apply (took_bind s 0 0); auto.
Qed.
Lemma took_octet s s' lim base off room b i : s_rem s' <= s_rem s -> took s 0 (octet st bits nbits past lim base off room b i s').
Proof. intros H. unfold octet. destruct (read _ _ _ _ _) as [v ri]. apply took_store. cbn [set_pos s_rem]. lia. Qed.
Lemma took_from s s' c r : s_rem s' <= s_rem s -> took s' c r -> took s c r.
Proof. destruct r; cbn; lia. Qed.

Lemma took_uint lim base b off room (null : bool) err s : 0 <= b ->
  took s (if null then 0 else b) (dec_uint st bits nbits past lim base b off room null err s).
Proof.
  intros H. unfold dec_uint. destruct (b <=? s_rem s).
  - destruct (32 <? b); [exact I|]. destruct (read _ _ _ _ _) as [v ri]. apply took_store. cbn [adv s_rem]. destruct null; lia.
  - destruct null; [|exact I]. apply took_store. lia.
Qed.
Lemma took_uintoff lim base b off room add s : 0 <= b -> took s 0 (dec_uintoff st bits nbits past lim base b off room add s).
Proof.
  intros H. unfold dec_uintoff. destruct (b <=? s_rem s); [|exact I].
  destruct (32 <? b); [exact I|]. destruct (read _ _ _ _ _) as [v ri]. apply took_store. cbn [adv s_rem]. lia.
Qed.
Lemma took_uintlh lim base b off room s : 0 <= b -> took s 0 (dec_uintlh st bits nbits past lim base b off room s).
Proof.
  intros H. unfold dec_uintlh. destruct (b <=? s_rem s); [|exact I].
  destruct (8 <? b); [exact I|]. destruct (masked _ _ _ _ _ _) as [v ri]. apply took_store. cbn [adv s_rem]. lia.
Qed.
Lemma took_bit lim base off room null s : took s 1 (dec_bit st bits nbits past lim base off room null s).
Proof.
  unfold dec_bit. destruct (0 <? s_rem s).
  - destruct (read _ _ _ _ _) as [v ri]. apply took_store. cbn [adv s_rem]. lia.
  - destruct null; [|exact I]. apply took_store. cbn [adv s_rem]. lia.
Qed.
Lemma took_uintarr un lim base b n off room s : 0 <= b * n ->
  took s 0 (dec_uintarr st bits nbits past un lim base b n off room s).
Proof.
  intros H. unfold dec_uintarr. destruct (b * n <=? s_rem s); [|exact I]. cbv zeta.
  destruct (b <=? 8).
  - eapply took_from; [|apply took_rep]; [cbn [set_pos s_rem]; lia|].
    intros i t. apply (took_bind t 0 0); [apply took_octet; lia|]. intros u. cbn. lia.
  - destruct (un && (b <=? 16)); [|exact I].
    eapply took_from; [|apply took_rep]; [cbn [set_pos s_rem]; lia|].
    intros i t. destruct (read _ _ _ _ _) as [v ri]. apply took_store. cbn. lia.
Qed.
Lemma took_bitmap lim base b off room s : took s 0 (dec_bitmap st bits nbits past lim base b off room s).
Proof.
  unfold dec_bitmap. destruct (Z.ltb_spec 0 b); [|cbn; lia]. destruct (s_rem s <? b); [exact I|].
  destruct (64 <? b); [exact I|]. apply (took_bind s 0 0).
  - apply took_rep. intros i t. apply took_octet. lia.
  - intros t. cbn. lia.
Qed.
Lemma took_bitmap_u lim base b off room s : took s 0 (dec_bitmap_u st bits nbits past lim base b off room s).
Proof.
  unfold dec_bitmap_u. destruct (Z.ltb_spec 0 b); [|cbn; lia]. destruct (s_rem s <? b); [exact I|].
  destruct (64 <? b); [exact I|]. destruct (read _ _ _ _ _) as [v ri]. apply took_store. cbn [adv s_rem]. lia.
Qed.
Lemma took_varbmp la te lim base add co off room s : took s 0 (dec_varbmp st bits nbits past la te lim base add co off room s).
Proof.
  unfold dec_varbmp. apply (took_bind s 0 0).
  { destruct te; [apply took_store; lia|cbn; lia]. }
  intros t. cbv zeta. destruct (Z.ltb_spec 0 (s_mem t (base + co) + add)); [|cbn; lia].
  destruct (_ <? 0); [exact I|].
  set (n := s_mem t (base + co) + add) in *.
  assert (P : forall i u, took u 0 (if 0 <? n mod 8 then bindd (octet st bits nbits past lim base off room (n mod 8) i u)
     (fun s => DOk (set_pos s (s_rem s) (s_off s + n mod 8) (s_ri s))) else DOk u)).
  { intros i u. destruct (0 <? n mod 8); [|cbn; lia]. apply (took_bind u 0 0); [apply took_octet; lia|]. intros w. cbn. lia. }
  eapply took_from with (s' := set_pos t (s_rem t - n) (s_off t) (s_ri t)); [cbn [set_pos s_rem]; lia|].
  destruct la.
  - apply (took_bind _ 0 0); [|intros; apply P]. apply took_rep. intros i u. apply took_octet. lia.
  - apply (took_bind _ 0 0); [apply P|]. intros u. apply took_rep. intros i w. apply took_octet. lia.
Qed.
Lemma took_vararr lim base add co off room s : took s 0 (dec_vararr st bits nbits past lim base add co off room s).
Proof.
  unfold dec_vararr. cbv zeta. destruct (Z.ltb_spec 0 (s_mem s (base + co) + add)); [|cbn; lia].
  destruct (_ <? 0); [exact I|]. eapply took_from; [|apply took_rep]; [cbn [set_pos s_rem]; lia|].
  intros i t. apply (took_bind t 0 0); [apply took_octet; lia|]. intros u. cbn. lia.
Qed.
Lemma took_pad s : took s 0 (dec_pad s).
Proof. unfold dec_pad. destruct (Z.ltb_spec 0 (s_rem s)); cbn; lia. Qed.
Lemma took_recarr fuel lim base b co off room : 0 <= b -> forall i s,
  took s 0 (dec_recarr st bits nbits past fuel lim base b co off room i s).
Proof.
  intros H. induction fuel as [|fuel IH]; intros i s; cbn [dec_recarr]; [exact I|]. destruct (tag _ _ _).
  - apply (took_bind s 0 0); [apply took_octet; cbn [set_pos s_rem]; lia|]. intros t.
    destruct (_ <? 0); [exact I|]. eapply took_from; [|apply IH]. cbn [adv s_rem]. lia.
  - apply took_store. cbn [adv s_rem]. lia.
Qed.
Lemma took_fixed b v s : 0 <= b -> took s 0 (dec_fixed bits nbits past b v s).
Proof.
  intros H. unfold dec_fixed. destruct (32 <? b); [exact I|]. destruct (read _ _ _ _ _) as [x ri].
  destruct (x =? v); [|exact I]. cbn. lia.
Qed.
Lemma took_callback lim base c p q room s : took s 0 (dec_callback st bits nbits past lim base c p q room s).
Proof.
  destruct c as [n stride doff| |boff]; cbn [dec_callback]; cbv zeta.
  - apply took_rep. intros i t. apply took_store. lia.
  - apply took_store. lia.
  - cbn [took adv s_rem]. match goal with |- context [?x mod 65536] => pose proof (Z.mod_pos_bound x 65536 ltac:(lia)) end. lia.
Qed.
Lemma took_rec fuel lim base co cap (elem : Z -> cst -> dres) : (forall i s, took s 0 (elem i s)) -> forall i s,
  took s 0 (rec_elems st bits nbits fuel lim base co cap i elem s).
Proof.
  intros H. induction fuel as [|fuel IH]; intros i s; cbn [rec_elems]; [exact I|]. destruct (tag _ _ _).
  - cbv zeta. destruct (cap <? i + 1); [exact I|].
    eapply took_from with (s' := adv s 1 (s_ri s + 1)); [cbn [adv s_rem]; lia|].
    apply (took_bind _ 0 0); auto. intros t. destruct (_ <? 0); [exact I|]. apply IH.
  - apply took_store. cbn [adv s_rem]. lia.
Qed.
Lemma took_rec1 fuel lim base co cap (elem : Z -> cst -> dres) : (forall i s, took s 0 (elem i s)) -> forall i s,
  took s 0 (rec_elems1 st bits nbits fuel lim base co cap i elem s).
Proof.
  intros H. induction fuel as [|fuel IH]; intros i s; cbn [rec_elems1]; [exact I|].
  destruct (cap <? i + 1); [exact I|]. apply (took_bind _ 0 0); auto. intros t. destruct (_ <? 0); [exact I|]. cbv zeta.
  destruct (tag _ _ _).
  - eapply took_from; [|apply IH]. cbn [adv s_rem]. lia.
  - apply took_store. cbn [adv s_rem]. lia.
Qed.
Lemma took_index lh n : forall ix s, s_rem (snd (union_index bits nbits past n lh ix s)) = s_rem s - Z.of_nat n.
Proof.
  induction n as [|n IH]; intros ix s; cbn [union_index]; [cbn; lia|].
  destruct (if lh then _ else _) as [v ri]. rewrite IH. cbn [adv s_rem]. lia.
Qed.

Definition due (d : descr) (md : mode) : Z := match md with Skip O => mins d | _ => 0 end.
Lemma due_nn d md : pos d = true -> 0 <= due d md.
Proof. intros H. apply mins_nn in H. destruct md as [[|n]| |]; cbn; lia. Qed.

Lemma took_control lim base r md s run uni c :
  pos r = true -> (forall md s, took s (due r md) (DEC lim base r md s)) -> took s c run -> (forall n, took s 0 (uni n)) ->
  took s (match md with Skip O => c | _ => 0 end) (control md s (DEC lim base r) run uni).
Proof.
  intros P IH H U. destruct md as [[|n]|[|k] n|i o ro]; cbn [control]; auto.
  - eapply took_weak; [|apply IH]. apply due_nn; auto.
  - eapply took_weak; [|apply IH]. apply due_nn; auto.
  - exact I.
Qed.

Ltac pp := repeat match goal with
  | H : _ && _ = true |- _ => apply andb_true_iff in H; destruct H
  | H : (_ <=? _) = true |- _ => apply Z.leb_le in H
  end.
Theorem dec_takes d : pos d = true -> forall lim base md s, took s (due d md) (DEC lim base d md s).
Proof.
  assert (W : forall s c c' e lim base r md, pos r = true ->
     (forall lim base md s, took s (due r md) (DEC lim base r md s)) -> took s c e -> c' <= c + due r md ->
     took s c' (after e (DEC lim base r md))).
  { intros s c c' e lim base r md P IH H L. eapply took_weak; [exact L|]. apply took_after; auto. }
  induction d as [ | off room null r IH | n r IH | b off room null r IH | b off room add r IH | b off room r IH
    | b n off room r IH | c off room stride sub IHs r IH | b off room r IH | off room null sub IHs r IH
    | off room alts IHa r IH | b v kp one IHo r IH | lb off room sub IHs r IH | lh n off room r IH | lh off room r IH
    | lh n off room null r IH | la te add co off room r IH | r IH | add co off room r IH | b co off room r IH
    | fi co off room stride cap sub IHs r IH | b v r IH | c p1 p2 room r IH | code r IH ];
  intros P lim base md s; cbn [pos] in P; pp; try (specialize (IH ltac:(assumption)));
  try (pose proof (mins_nn r ltac:(assumption)) as NN);
  match goal with |- took s (due ?d md) _ => change (due d md) with (match md with Skip O => mins d | _ => 0 end) end;
  cbn [dec mins].
  - destruct md as [[|m]| |]; cbn; auto; lia.
  - apply took_control; auto.
    + eapply W; [auto|auto|apply took_bit|]. cbn [due run_mode]. lia.
    + intros n. eapply W with (c := 0); [auto|auto| |apply Z.add_nonneg_nonneg; [lia|apply due_nn; auto]].
      destruct (read _ _ _ _ _) as [v ri]. apply took_store. cbn [adv s_rem]. lia.
  - cbv zeta. apply took_control; auto; [|intros k]; (eapply W with (c := 0); [auto|auto|cbn; lia|pose proof (due_nn r (Skip 0) ltac:(auto)); try pose proof (due_nn r (Skip k) ltac:(auto)); unfold run_mode; lia]).
  - apply took_control; auto.
    + eapply W; [auto|auto|apply took_uint; auto|]. cbn [due run_mode]. destruct null; lia.
    + intros k. eapply W with (c := b); [auto|auto|apply (took_uint lim base b off room false); auto|pose proof (due_nn r (Skip k) ltac:(auto)); lia].
  - cbv zeta. apply took_control; auto; [|intros k]; (eapply W with (c := 0); [auto|auto|apply took_uintoff; auto|pose proof (due_nn r (Skip 0) ltac:(auto)); try pose proof (due_nn r (Skip k) ltac:(auto)); unfold run_mode; lia]).
  - cbv zeta. apply took_control; auto; [|intros k]; (eapply W with (c := 0); [auto|auto|apply took_uintlh; auto|pose proof (due_nn r (Skip 0) ltac:(auto)); try pose proof (due_nn r (Skip k) ltac:(auto)); unfold run_mode; lia]).
  - apply took_control; auto; [|intros k]; (eapply W with (c := 0); [auto|auto|apply took_uintarr; auto|pose proof (due_nn r (Skip 0) ltac:(auto)); try pose proof (due_nn r (Skip k) ltac:(auto)); unfold run_mode; lia]).
  - cbv zeta. assert (EL : forall l a b i t, took t 0 (call (DEC (l i) (a + i * b) sub run_mode) t)).
    { intros l a b i t. apply took_call. eapply took_weak; [|apply IHs; auto]. apply due_nn; auto. }
    apply took_control; auto; [|intros k]; (eapply W with (c := 0); [auto|auto|apply took_rep; intros i t; apply (EL (fun _ => inner st lim base off room))|pose proof (due_nn r (Skip 0) ltac:(auto)); try pose proof (due_nn r (Skip k) ltac:(auto)); unfold run_mode; lia]).
  - apply took_control; auto; [|intros k]; (eapply W with (c := 0); [auto|auto|apply took_bitmap || apply took_bitmap_u|pose proof (due_nn r (Skip 0) ltac:(auto)); try pose proof (due_nn r (Skip k) ltac:(auto)); unfold run_mode; lia]).
  - cbv zeta. pose proof (mins_nn sub ltac:(auto)) as NS.
    assert (EL : took s (if null then 0 else mins sub)
      (if null && (s_rem s =? 0) then DOk s else call (DEC (inner st lim base off room) (base + off) sub run_mode) s)).
    { destruct (null && (s_rem s =? 0)) eqn:E; [apply andb_true_iff in E as [-> _]; cbn; lia|].
      apply took_call. eapply took_weak; [|apply IHs; auto]. cbn [due run_mode]. destruct null; lia. }
    apply took_control; auto; [|intros k]; (eapply W; eauto; unfold run_mode; cbn [due]).
    + destruct null; lia.
    + pose proof (due_nn r (Skip k) ltac:(auto)) as N2; cbn [due] in N2. destruct null; lia.
  - apply took_control; auto; [|intros; exact I]. eapply W with (c := 0); [auto|auto| |cbn [due run_mode]; lia].
    eapply took_weak; [|apply IHa; auto]. cbn. lia.
  - destruct md as [[|m]|k m|i o ro]; try exact I. destruct (read _ _ _ _ _) as [x ri]. destruct (_ =? v).
    + apply (took_bind s 0 0).
      * apply took_store. destruct kp; cbn [set_pos adv s_rem]; lia.
      * intros t. apply took_call. eapply took_weak; [|apply IHo; auto]. apply due_nn; auto.
    + eapply took_from; [|eapply took_weak; [|apply IH]]; [cbn; lia|cbn; lia].
  - apply took_control; auto; [|intros; exact I]. eapply W with (c := 0); [auto|auto| |cbn [due run_mode]; lia].
    destruct (read _ _ _ _ _) as [x ri]. cbv zeta. pose proof (Z.mod_pos_bound x 256 ltac:(lia)) as Hx.
    set (len := x mod 256) in *.
    match goal with |- took s 0 (bindd (call ?f ?s1) _) => assert (T : took s1 0 (call f s1)) end.
    { apply took_call. eapply took_weak; [|apply IHs; auto]. apply due_nn; auto. }
    destruct (call _ _) as [t| |]; cbn [bindd took] in *; auto.
    destruct (Z.ltb_spec 0 len); cbn [took s_rem set_pos adv] in *; lia.
  - apply took_control; auto; [|intros; exact I]. destruct (_ || _); [exact I|].
    pose proof (took_index lh (Z.to_nat (nth n ix_bits 0)) 0 s) as U.
    destruct (union_index _ _ _ _ _ _ _) as [ix s1]. cbn [snd] in U. rewrite <- (Z.add_0_r (Z.max _ _)).
    apply took_bind.
    + apply took_store. lia.
    + intros t. eapply took_weak; [|apply IH]. apply due_nn; auto.
  - apply took_control; auto; [|intros; exact I].
    destruct (if lh then _ else _) as [v ri]. apply (took_bind s 0 0).
    + apply took_store. cbn [adv s_rem]. lia.
    + intros t. destruct (_ =? 0); [destruct (_ <? 0); cbn; auto; lia|].
      eapply W with (c := 0); [auto|auto|cbn; lia|cbn [due run_mode]; lia].
  - apply took_control; auto; [|intros; exact I].
    destruct (null && (s_rem s =? 0)) eqn:E.
    + apply andb_true_iff in E as [-> _]. eapply W with (c := 0); [auto|auto|apply took_store; lia|].
      pose proof (due_nn r (Skip n) ltac:(auto)). lia.
    + destruct (if lh then _ else _) as [v ri]. cbv zeta. eapply W with (c := 1); [auto|auto| |].
      * apply took_store. cbn [adv s_rem]. lia.
      * match goal with |- _ <= 1 + due r ?m => pose proof (due_nn r m ltac:(auto)) end. destruct null; lia.
  - apply took_control; auto; [|intros; exact I]. eapply W with (c := 0); [auto|auto|apply took_varbmp|cbn [due run_mode]; lia].
  - apply took_control; auto; [|intros; exact I]. eapply W with (c := 0); [auto|auto|apply took_pad|cbn [due run_mode]; lia].
  - apply took_control; auto; [|intros; exact I]. eapply W with (c := 0); [auto|auto|apply took_vararr|cbn [due run_mode]; lia].
  - apply took_control; auto; [|intros; exact I]. eapply W with (c := 0); [auto|auto|apply took_recarr; auto|cbn [due run_mode]; lia].
  - cbv zeta. assert (EL : forall i t, took t 0 (call (DEC (inner st lim base off room) (base + off + i * stride) sub run_mode) t)).
    { intros i t. apply took_call. eapply took_weak; [|apply IHs; auto]. apply due_nn; auto. }
    apply took_control; auto; [|intros; exact I]. eapply W with (c := 0); [auto|auto| |cbn [due run_mode]; lia].
    destruct fi; [apply took_rec1|apply took_rec]; auto.
  - apply took_control; auto; [|intros; exact I]. eapply W with (c := 0); [auto|auto|apply took_fixed; auto|cbn [due run_mode]; lia].
  - apply took_control; auto; [|intros; exact I]. eapply W with (c := 0); [auto|auto|apply took_callback|cbn [due run_mode]; lia].
  - apply took_control; auto; [exact I|intros; exact I].
Qed.
End Takes.
