(** Decoding where only leaving the whole structure counts as an access outside the storage. *)
From Coq Require Import ZArith List Bool Lia.
From Verif Require Import Lib.Base Csn1.Csn1Model Csn1.Csn1Check Csn1.Csn1Safe.
Import ListNotations.
Open Scope Z_scope.

(** Tables that differ only in the room the members are given. *)
Inductive same : descr -> descr -> Prop :=
| same_end : same DEnd DEnd
| same_bit o a b n r r' : same r r' -> same (DBit o a n r) (DBit o b n r')
| same_null i r r' : same r r' -> same (DNull i r) (DNull i r')
| same_uint x o a b n r r' : same r r' -> same (DUint x o a n r) (DUint x o b n r')
| same_uintoff x o a b n r r' : same r r' -> same (DUintOff x o a n r) (DUintOff x o b n r')
| same_uintlh x o a b r r' : same r r' -> same (DUintLH x o a r) (DUintLH x o b r')
| same_uintarr x n o a b r r' : same r r' -> same (DUintArr x n o a r) (DUintArr x n o b r')
| same_tarr c o a b st u u' r r' : same u u' -> same r r' -> same (DTArr c o a st u r) (DTArr c o b st u' r')
| same_bitmap x o a b r r' : same r r' -> same (DBitmap x o a r) (DBitmap x o b r')
| same_type o a b n u u' r r' : same u u' -> same r r' -> same (DType o a n u r) (DType o b n u' r')
| same_choice o a b u u' r r' : same u u' -> same r r' -> same (DChoice o a u r) (DChoice o b u' r')
| same_alt x v k u u' r r' : same u u' -> same r r' -> same (DAlt x v k u r) (DAlt x v k u' r')
| same_ser x o a b u u' r r' : same u u' -> same r r' -> same (DSer x o a u r) (DSer x o b u' r')
| same_union l n o a b r r' : same r r' -> same (DUnion l n o a r) (DUnion l n o b r')
| same_exist l o a b r r' : same r r' -> same (DExist l o a r) (DExist l o b r')
| same_next l n o a b z r r' : same r r' -> same (DNext l n o a z r) (DNext l n o b z r')
| same_varbmp l t ad c o a b r r' : same r r' -> same (DVarBmp l t ad c o a r) (DVarBmp l t ad c o b r')
| same_pad r r' : same r r' -> same (DPad r) (DPad r')
| same_vararr ad c o a b r r' : same r r' -> same (DVarArr ad c o a r) (DVarArr ad c o b r')
| same_recarr x c o a b r r' : same r r' -> same (DRecArr x c o a r) (DRecArr x c o b r')
| same_rectarr f c o a b st cap u u' r r' :
    same u u' -> same r r' -> same (DRecTArr f c o a st cap u r) (DRecTArr f c o b st cap u' r')
| same_fixed x v r r' : same r r' -> same (DFixed x v r) (DFixed x v r')
| same_cb c p q a b r r' : same r r' -> same (DCallback c p q a r) (DCallback c p q b r')
| same_trap e r r' : same r r' -> same (DTrap e r) (DTrap e r').

(** A table in which every member is given all the room up to the end of a storage of [A] octets; [k]: offset and
    greatest value of a count stored by the entry before. *)
Fixpoint flatc (k : Z * Z) (A : Z) (d : descr) : descr :=
  match d with
  | DEnd => DEnd
  | DBit off _ b r => DBit off (A - off) b (flatc (0, 255) A r)
  | DNull n r => DNull n (flatc (0, 255) A r)
  | DUint b off _ n r => DUint b off (A - off) n (flatc (off, Z.min 255 (2 ^ b - 1)) A r)
  | DUintOff b off _ n r => DUintOff b off (A - off) n (flatc (off, Z.min 255 (2 ^ b - 1 + n)) A r)
  | DUintLH b off _ r => DUintLH b off (A - off) (flatc (0, 255) A r)
  | DUintArr b n off _ r => DUintArr b n off (A - off) (flatc (0, 255) A r)
  | DTArr c off _ stride sub r =>
      DTArr c off (A - off) stride (flatc (0, 255) (A - off - (match c with CFix n => n | CVar o | CVarOff o => if o =? fst k then snd k else 255 end - 1) * stride) sub) (flatc (0, 255) A r)
  | DBitmap b off _ r => DBitmap b off (A - off) (flatc (0, 255) A r)
  | DType off _ n sub r => DType off (A - off) n (flatc (0, 255) (A - off) sub) (flatc (0, 255) A r)
  | DChoice off _ alts r => DChoice off (A - off) (flatc (0, 255) A alts) (flatc (0, 255) A r)
  | DAlt b v k one r => DAlt b v k (flatc (0, 255) A one) (flatc (0, 255) A r)
  | DSer lb off _ sub r => DSer lb off (A - off) (flatc (0, 255) (A - off) sub) (flatc (0, 255) A r)
  | DUnion lh n off _ r => DUnion lh n off (A - off) (flatc (0, 255) A r)
  | DExist lh off _ r => DExist lh off (A - off) (flatc (0, 255) A r)
  | DNext lh n off _ b r => DNext lh n off (A - off) b (flatc (0, 255) A r)
  | DVarBmp l t a c off _ r => DVarBmp l t a c off (A - off) (flatc (0, 255) A r)
  | DPad r => DPad (flatc (0, 255) A r)
  | DVarArr a c off _ r => DVarArr a c off (A - off) (flatc (0, 255) A r)
  | DRecArr b c off _ r => DRecArr b c off (A - off) (flatc (0, 255) A r)
  | DRecTArr f c off _ stride cap sub r =>
      DRecTArr f c off (A - off) stride cap (flatc (0, 255) (A - off - (cap - 1) * stride) sub) (flatc (0, 255) A r)
  | DFixed b v r => DFixed b v (flatc (0, 255) A r)
  | DCallback c p1 p2 _ r => DCallback c p1 p2 (A - p2) (flatc (0, 255) A r)
  | DTrap c r => DTrap c (flatc (0, 255) A r)
  end.
Definition flat (A : Z) (d : descr) : descr := flatc (0, 255) A d.
Lemma flat_same d : forall A, same (flat A d) d.
Proof.
  assert (H : forall k A, same (flatc k A d) d) by (induction d; intros k A; cbn [flatc]; constructor; auto).
  intros A. apply H.
Qed.
Lemma same_refl d : same d d.
Proof. induction d; constructor; auto. Qed.

Lemma same_null_eq d d' : same d d' -> may_be_null d = may_be_null d' /\ same (rest d) (rest d').
Proof. destruct 1; cbn; split; auto; constructor. Qed.
Lemma all_null_same n : forall d d', same d d' -> all_null n d = all_null n d'.
Proof.
  induction n as [|n IH]; intros d d' H; cbn [all_null]; auto.
  destruct (same_null_eq _ _ H) as [-> R]. rewrite (IH _ _ R). reflexivity.
Qed.

(** The second outcome is the first one, unless the first is an access outside the storage. *)
Definition leq (r r' : dres) : Prop := r = DUB \/ r = r'.
Lemma leq_refl r : leq r r.
Proof. right; reflexivity. Qed.
Lemma leq_bind r r' k k' : leq r r' -> (forall s, leq (k s) (k' s)) -> leq (bindd r k) (bindd r' k').
Proof. intros [ -> | -> ] H; [left; reflexivity|]. destruct r'; cbn [bindd]; auto using leq_refl. Qed.
Lemma leq_after r r' k k' : leq r r' -> (forall s, leq (k s) (k' s)) -> leq (after r k) (after r' k').
Proof. intros H Hk. apply leq_bind; auto. intros s. destruct (s_rem s <? 0); auto using leq_refl. Qed.
Lemma leq_call f f' s : leq (f s) (f' s) -> leq (call f s) (call f' s).
Proof. intros H. unfold call. destruct (s_rem s <? 0); auto using leq_refl. Qed.
Lemma leq_rep (f f' : Z -> cst -> dres) n : (forall i s, leq (f i s) (f' i s)) -> forall i s, leq (rep n i f s) (rep n i f' s).
Proof.
  intros H. induction n as [|n IH]; intros i s; cbn [rep]; [apply leq_refl|]. apply leq_bind; auto.
Qed.
Lemma leq_store st lim lim' base off room room' k n v s :
  lim <= lim' -> leq (store st lim base off room k n v s) (store false lim' base off room' k n v s).
Proof.
  intros H. unfold store. destruct (Z.leb_spec 0 k), (negb st || (k + Z.of_nat n <=? room)), (Z.leb_spec 0 (base + off + k)),
    (Z.leb_spec (base + off + k + Z.of_nat n) lim), (Z.leb_spec (base + off + k + Z.of_nat n) lim'); cbn [andb negb orb];
    try lia; try (left; reflexivity); apply leq_refl.
Qed.

Section Lax.
Variable bits : Z -> bool.
Variable nbits : Z.
Variable past : Z -> Z -> Z * Z.
Variable st : bool.

Ltac rd := match goal with |- context [let '(_, _) := ?x in _] => destruct x end.
Ltac go := repeat (first [apply leq_refl | apply leq_store; auto; fail | match goal with
  | |- leq (bindd _ _) (bindd _ _) => apply leq_bind; [|intros]
  | |- leq (rep _ _ _ _) (rep _ _ _ _) => apply leq_rep; intros
  | |- leq (if ?b then _ else _) (if ?b then _ else _) => destruct b
  | |- leq (let '(_, _) := ?x in _) _ => destruct x
  end]).

Lemma leq_octet lim lim' base off a a' b i s : lim <= lim' ->
  leq (octet st bits nbits past lim base off a b i s) (octet false bits nbits past lim' base off a' b i s).
Proof. intros H. unfold octet. destruct (read bits nbits past (s_ri s) b). apply leq_store; auto. Qed.
Lemma leq_uint lim lim' base b off a a' null err s : lim <= lim' ->
  leq (dec_uint st bits nbits past lim base b off a null err s) (dec_uint false bits nbits past lim' base b off a' null err s).
Proof. intros H. unfold dec_uint. go. Qed.
Lemma leq_uintoff lim lim' base b off a a' add s : lim <= lim' ->
  leq (dec_uintoff st bits nbits past lim base b off a add s) (dec_uintoff false bits nbits past lim' base b off a' add s).
Proof. intros H. unfold dec_uintoff. go. Qed.
Lemma leq_uintlh lim lim' base b off a a' s : lim <= lim' ->
  leq (dec_uintlh st bits nbits past lim base b off a s) (dec_uintlh false bits nbits past lim' base b off a' s).
Proof. intros H. unfold dec_uintlh. go. Qed.
Lemma leq_bit lim lim' base off a a' null s : lim <= lim' ->
  leq (dec_bit st bits nbits past lim base off a null s) (dec_bit false bits nbits past lim' base off a' null s).
Proof. intros H. unfold dec_bit. go. Qed.
Lemma leq_uintarr un lim lim' base b n off a a' s : lim <= lim' ->
  leq (dec_uintarr st bits nbits past un lim base b n off a s) (dec_uintarr false bits nbits past un lim' base b n off a' s).
Proof. intros H. unfold dec_uintarr. cbv zeta. go. apply leq_octet; auto. Qed.
Lemma leq_bitmap lim lim' base b off a a' s : lim <= lim' ->
  leq (dec_bitmap st bits nbits past lim base b off a s) (dec_bitmap false bits nbits past lim' base b off a' s).
Proof. intros H. unfold dec_bitmap. go; apply leq_octet; auto. Qed.
Lemma leq_bitmap_u lim lim' base b off a a' s : lim <= lim' ->
  leq (dec_bitmap_u st bits nbits past lim base b off a s) (dec_bitmap_u false bits nbits past lim' base b off a' s).
Proof. intros H. unfold dec_bitmap_u. go. Qed.
Lemma leq_varbmp la te lim lim' base add co off a a' s : lim <= lim' ->
  leq (dec_varbmp st bits nbits past la te lim base add co off a s) (dec_varbmp false bits nbits past la te lim' base add co off a' s).
Proof. intros H. unfold dec_varbmp. go; cbv zeta; go; apply leq_octet; auto. Qed.
Lemma leq_vararr lim lim' base add co off a a' s : lim <= lim' ->
  leq (dec_vararr st bits nbits past lim base add co off a s) (dec_vararr false bits nbits past lim' base add co off a' s).
Proof. intros H. unfold dec_vararr. cbv zeta. go; apply leq_octet; auto. Qed.
Lemma leq_recarr fuel lim lim' base b co off a a' : lim <= lim' -> forall i s,
  leq (dec_recarr st bits nbits past fuel lim base b co off a i s) (dec_recarr false bits nbits past fuel lim' base b co off a' i s).
Proof.
  intros H. induction fuel as [|fuel IH]; intros i s; cbn [dec_recarr]; [apply leq_refl|]. cbv zeta.
  destruct (tag bits nbits (s_ri s)); [|apply leq_store; auto]. apply leq_bind; [apply leq_octet; auto|]. intros t. go. apply IH.
Qed.
Lemma leq_callback lim lim' base c p q a a' s : lim <= lim' ->
  leq (dec_callback st bits nbits past lim base c p q a s) (dec_callback false bits nbits past lim' base c p q a' s).
Proof. intros H. unfold dec_callback. destruct c; cbv zeta; go. Qed.
Lemma leq_rec_elems lim lim' base co cap (f f' : Z -> cst -> dres) : lim <= lim' -> (forall i s, leq (f i s) (f' i s)) ->
  forall fuel i s, leq (rec_elems st bits nbits fuel lim base co cap i f s) (rec_elems false bits nbits fuel lim' base co cap i f' s).
Proof.
  intros H Hf. induction fuel as [|fuel IH]; intros i s; cbn [rec_elems]; [apply leq_refl|]. cbv zeta.
  destruct (tag bits nbits (s_ri s)); [|apply leq_store; auto]. destruct (cap <? i + 1); [apply leq_refl|].
  apply leq_bind; auto. intros t. go. apply IH.
Qed.
Lemma leq_rec_elems1 lim lim' base co cap (f f' : Z -> cst -> dres) : lim <= lim' -> (forall i s, leq (f i s) (f' i s)) ->
  forall fuel i s, leq (rec_elems1 st bits nbits fuel lim base co cap i f s) (rec_elems1 false bits nbits fuel lim' base co cap i f' s).
Proof.
  intros H Hf. induction fuel as [|fuel IH]; intros i s; cbn [rec_elems1]; [apply leq_refl|]. cbv zeta.
  destruct (cap <? i + 1); [apply leq_refl|]. apply leq_bind; auto. intros t. go. apply IH.
Qed.

(** Modes that differ only in the room of the member of a CHOICE. *)
Inductive msame : mode -> mode -> Prop :=
| ms_skip n : msame (Skip n) (Skip n)
| ms_sel k n : msame (Sel k n) (Sel k n)
| ms_alts i o a b : msame (Alts i o a) (Alts i o b).
Lemma leq_control md md' s next next' run run' uni uni' :
  msame md md' -> (forall m m' t, msame m m' -> leq (next m t) (next' m' t)) -> leq run run' -> (forall n, leq (uni n) (uni' n)) ->
  leq (control md s next run uni) (control md' s next' run' uni').
Proof.
  intros [ [|n] | [|k] n | i o a b ] Hn Hr Hu; cbn [control]; auto using leq_refl; apply Hn; constructor.
Qed.
Lemma inner_le lim lim' base off room room' : lim <= lim' -> inner st lim base off room <= inner false lim' base off room'.
Proof. unfold inner. destruct st; lia. Qed.

Lemma dec_leq d d' : same d d' -> forall lim lim' base md md' s, lim <= lim' -> msame md md' ->
  leq (dec st bits nbits past lim base d md s) (dec false bits nbits past lim' base d' md' s).
Proof.
  assert (SK : forall n, msame (Skip n) (Skip n)) by constructor.
  induction 1; intros lim lim' base md md' s Hl Hm; cbn [dec]; unfold run_mode;
    try (apply leq_control; [exact Hm|intros; apply IHsame; auto| |intros; apply leq_refl];
         apply leq_after; [|intros; apply IHsame; auto]).
  - destruct Hm as [ [|n] | k n | i o a b ]; apply leq_refl.
  - apply leq_control; auto; [|intros]; apply leq_after; auto.
    + apply leq_bit; auto.
    + destruct (read bits nbits past (s_ri s) 1). apply leq_store; auto.
  - cbv zeta. apply leq_control; auto; [|intros]; apply leq_after; auto using leq_refl.
  - apply leq_control; auto; [|intros]; apply leq_after; auto; apply leq_uint; auto.
  - cbv zeta. apply leq_control; auto; [|intros]; apply leq_after; auto; apply leq_uintoff; auto.
  - cbv zeta. apply leq_control; auto; [|intros]; apply leq_after; auto; apply leq_uintlh; auto.
  - apply leq_control; auto; [|intros]; apply leq_after; auto; apply leq_uintarr; auto.
  - cbv zeta. apply leq_control; auto; [|intros]; apply leq_after; auto; apply leq_rep; intros; apply leq_call;
      apply IHsame1; auto; apply inner_le; auto.
  - apply leq_control; auto; [|intros]; apply leq_after; auto; [apply leq_bitmap|apply leq_bitmap_u]; auto.
  - cbv zeta. apply leq_control; auto; [|intros]; apply leq_after; auto;
      (destruct (n && (s_rem s =? 0)); [apply leq_refl|]; apply leq_call; apply IHsame1; auto; apply inner_le; auto).
  - apply leq_control; auto; [|intros; apply leq_refl]. apply leq_after; auto. apply IHsame1; auto. constructor.
  - destruct Hm as [ m | m m' | i o a b ]; try apply leq_refl. destruct (read bits nbits past (s_ri s) x) as [y ri].
    destruct (y mod 256 =? v).
    + apply leq_bind; [apply leq_store; auto|]. intros t. apply leq_call. apply IHsame1; auto.
    + apply IHsame2; auto. constructor.
  - apply leq_control; auto; [|intros; apply leq_refl]. apply leq_after; auto.
    destruct (read bits nbits past (s_ri s) x) as [y ri]. cbv zeta. apply leq_bind; [|intros; apply leq_refl].
    apply leq_call. apply IHsame1; auto. apply inner_le; auto.
  - apply leq_control; auto; [|intros; apply leq_refl]. destruct (_ || _); [apply leq_refl|].
    destruct (union_index bits nbits past _ l 0 s) as [ix t]. apply leq_bind; [apply leq_store; auto|]. intros. apply IHsame; auto. constructor.
  - apply leq_control; auto; [|intros; apply leq_refl].
    destruct (if l then masked bits nbits past (s_ri s) (s_off s) 1 else read bits nbits past (s_ri s) 1) as [v ri].
    apply leq_bind; [apply leq_store; auto|]. intros t. destruct (v mod 256 =? 0); [apply leq_refl|]. apply leq_after; auto using leq_refl.
  - apply leq_control; auto; [|intros; apply leq_refl]. rewrite (all_null_same n r r') by auto.
    destruct (z && (s_rem s =? 0)); [apply leq_after; auto; apply leq_store; auto|].
    destruct (if l then masked bits nbits past (s_ri s) (s_off s) 1 else read bits nbits past (s_ri s) 1) as [v ri].
    cbv zeta. apply leq_after; auto. apply leq_store; auto.
  - apply leq_varbmp; auto.
  - apply leq_refl.
  - apply leq_vararr; auto.
  - apply leq_recarr; auto.
  - cbv zeta. apply leq_control; auto; [|intros; apply leq_refl]. apply leq_after; auto.
    destruct f; [apply leq_rec_elems1|apply leq_rec_elems]; auto; intros; apply leq_call; apply IHsame1; auto; apply inner_le; auto.
  - apply leq_refl.
  - apply leq_callback; auto.
  - apply leq_control; auto; intros; apply leq_refl.
Qed.
End Lax.

(** A member-wise safe decoding is the same when only the whole structure counts. *)
Theorem decode_lax bits nbits past size d rem off ri m :
  leq (decode true bits nbits past size d rem off ri m) (decode false bits nbits past size d rem off ri m).
Proof. unfold decode. apply leq_call. apply dec_leq; [apply same_refl|lia|constructor]. Qed.

(** Decoding with a table whose flat form passes the check never leaves the structure. *)
Theorem decode_flat_safe bits nbits past :
  (forall ri n, 0 <= n -> 0 <= fst (past ri n) < 2 ^ n) -> forall d size rm rem off ri m,
  safe_table rm size (flat size d) = true -> 0 <= rm -> rem <= rm -> octets m ->
  match decode false bits nbits past size d rem off ri m with
  | DOk t => s_rem t <= rem /\ octets (s_mem t) /\ (forall x, x < 0 \/ size <= x -> s_mem t x = m x)
  | DErr _ => True
  | DUB => False
  end.
Proof.
  intros Hp d size rm rem off ri m H H0 H1 O.
  pose proof (decode_safe bits nbits past Hp (flat size d) size rm rem off ri m H H0 H1 O) as G.
  assert (L : leq (decode true bits nbits past size (flat size d) rem off ri m) (decode false bits nbits past size d rem off ri m)).
  { unfold decode. apply leq_call. apply dec_leq; [apply flat_same|lia|constructor]. }
  destruct L as [E|E]; [rewrite E in G; contradiction|]. rewrite <- E. exact G.
Qed.
