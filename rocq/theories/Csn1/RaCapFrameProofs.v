(** Where the decoder of MS radio access capabilities stands in the vector (for C128). *)
From Coq Require Import ZArith List Bool Lia.
From Verif Require Import Lib.Base Csn1.Csn1Model Csn1.Csn1Tables Csn1.Csn1Check Csn1.Csn1Takes Csn1.Csn1Safe Csn1.RaCapModel Csn1.RaCapFrameSpec.
Import ListNotations.
Open Scope Z_scope.

Section Frame.
Variable bits : Z -> bool.
Variable nbits : Z.
Variable past : Z -> Z -> Z * Z.
Notation DEC := (dec true bits nbits past).

Lemma number_field n : forall p, field bits p n = number bits p n.
Proof.
  induction n as [|n IH]; intros p; [reflexivity|]. cbn [field number]. rewrite IH. destruct (bits p); unfold b2z; lia.
Qed.
Lemma number_bound n : forall p, 0 <= number bits p n < 2 ^ Z.of_nat n.
Proof.
  induction n as [|n IH]; intros p; [cbn; lia|]. cbn [number]. specialize (IH (p + 1)).
  replace (Z.of_nat (S n)) with (Z.of_nat n + 1) by lia. rewrite Z.pow_add_r by lia. destruct (bits p); lia.
Qed.

(** The bits that are left end at bit [K]. *)
Definition pos (K : Z) (s : cst) : Prop := 0 <= s_ri s /\ 0 <= s_rem s /\ s_ri s + s_rem s = K.

Lemma after_ok r k t : after r k = DOk t -> exists u, r = DOk u /\ 0 <= s_rem u /\ k u = DOk t.
Proof.
  unfold after, bindd. destruct r as [u|c|]; try discriminate. destruct (Z.ltb_spec (s_rem u) 0); try discriminate. eauto.
Qed.
Lemma store_ok lim base off room k n v s t : store true lim base off room k n v s = DOk t ->
  t = set_mem s (upds (s_mem s) (base + off + k) n v).
Proof. unfold store. destruct (_ && _); intros H; [|discriminate]. injection H as <-. reflexivity. Qed.
Lemma read_in ri n : 0 < n -> 0 <= ri -> ri + n <= nbits -> read bits nbits past ri n = (number bits ri (Z.to_nat n), ri + n).
Proof.
  intros A B C. unfold read. rewrite (proj2 (Z.eqb_neq n 0)) by lia.
  rewrite (proj2 (Z.leb_le 0 ri)), (proj2 (Z.leb_le (ri + n) nbits)) by lia. cbn [andb]. rewrite number_field. reflexivity.
Qed.

(** Descriptions whose entries take as many bits as they count. *)
Fixpoint aligned (d : descr) : bool :=
  match d with
  | DEnd => true
  | DUint b _ _ _ r => (0 <? b) && aligned r
  | DNext lh _ _ _ _ r => negb lh && aligned r
  | DType _ _ _ sub r => aligned sub && aligned r
  | DRecTArr first _ _ _ _ _ sub r => negb first && aligned sub && aligned r
  | _ => false
  end.

Lemma rec_elems_pos K lim base coff cap elem : K <= nbits ->
  (forall i s t, pos K s -> elem i s = DOk t -> pos K t) -> (forall i s t, elem i s = DOk t -> 0 <= s_rem s) ->
  forall fuel i s t, pos K s -> rec_elems true bits nbits fuel lim base coff cap i elem s = DOk t -> 0 <= s_rem t -> pos K t.
Proof.
  intros HK He Hr. induction fuel as [|fuel IH]; intros i s t P H R; cbn [rec_elems] in H; [discriminate|].
  destruct (tag bits nbits (s_ri s)).
  - cbv zeta in H. destruct (cap <? i + 1); try discriminate. unfold bindd in H.
    destruct (elem i (adv s 1 (s_ri s + 1))) as [u|c|] eqn:E; try discriminate.
    destruct (Z.ltb_spec (s_rem u) 0); try discriminate.
    apply IH in H; auto. eapply He; [|exact E]. apply Hr in E. unfold pos, adv in *. cbn [s_rem s_ri] in *. lia.
  - apply store_ok in H. subst t. unfold pos, adv, set_mem in *. cbn [s_rem s_ri] in *. lia.
Qed.

Lemma dec_aligned d : aligned d = true -> forall n lim base s t K, K <= nbits -> pos K s ->
  DEC lim base d (Skip n) s = DOk t -> pos K t.
Proof.
  induction d as [ | off room null r IH | n r IH | b off room null r IH | b off room add r IH | b off room r IH
    | b n off room r IH | c off room stride sub IHs r IH | b off room r IH | off room null sub IHs r IH
    | off room alts IHa r IH | b v kp one IHo r IH | lb off room sub IHs r IH | lh n off room r IH | lh off room r IH
    | lh n off room null r IH | la te add co off room r IH | r IH | add co off room r IH | b co off room r IH
    | fi co off room stride cap sub IHs r IH | b v r IH | c p1 p2 room r IH | code r IH ];
  intros A k lim base s t K HK P H; cbn [aligned] in A; try discriminate A.
  - destruct k; cbn [dec] in H; [|discriminate]. injection H as <-. exact P.
  - apply andb_true_iff in A as [A1 A2]. apply Z.ltb_lt in A1.
    destruct k as [|k]; cbn [dec] in H; unfold control in H; [|eapply IH; eauto].
    apply after_ok in H as (u & E & R & H). eapply IH; [assumption|exact HK| |exact H].
    unfold dec_uint in E. destruct (Z.leb_spec b (s_rem s)).
    + destruct (32 <? b); try discriminate. destruct P as (P1 & P2 & P3).
      rewrite read_in in E by lia. apply store_ok in E. subst u. unfold pos, set_mem, adv. cbn [s_rem s_ri]. lia.
    + destruct null; try discriminate. apply store_ok in E. subst u. exact P.
  - apply andb_true_iff in A as [A1 A2].
    destruct k as [|k]; cbn [dec] in H; unfold control in H; [|eapply IH; eauto].
    apply after_ok in H as (u & E & R & H). eapply IH; [assumption|exact HK| |exact H].
    destruct (null && (s_rem s =? 0)); [injection E as <-; exact P|].
    unfold call in E. destruct (s_rem s <? 0); try discriminate. eapply IHs; eauto.
  - apply andb_true_iff in A as [A1 A2]. destruct lh; [discriminate|].
    destruct k as [|k]; cbn [dec] in H; unfold control in H; [|eapply IH; eauto].
    destruct (null && (s_rem s =? 0)).
    + apply after_ok in H as (u & E & R & H). eapply IH; [assumption|exact HK| |exact H].
      apply store_ok in E. subst u. exact P.
    + destruct P as (P1 & P2 & P3).
      destruct (Z.eq_dec (s_rem s) 0) as [Z0|Z0].
      * destruct (read bits nbits past (s_ri s) 1) as [v ri]. apply after_ok in H as (u & E & R & H).
        apply store_ok in E. subst u. unfold set_mem, adv in R. cbn [s_rem] in R. lia.
      * rewrite read_in in H by lia. apply after_ok in H as (u & E & R & H). eapply IH; [assumption|exact HK| |exact H].
        apply store_ok in E. subst u. unfold pos, set_mem, adv. cbn [s_rem s_ri]. lia.
  - apply andb_true_iff in A as [A1 A2]. apply andb_true_iff in A1 as [A0 A1]. destruct fi; [discriminate|].
    destruct k as [|k]; cbn [dec] in H; unfold control in H; [|eapply IH; eauto].
    apply after_ok in H as (u & E & R & H). eapply IH; [assumption|exact HK| |exact H].
    eapply rec_elems_pos in E; eauto.
    + intros i s' t' P' E'. unfold call in E'. destruct (s_rem s' <? 0); try discriminate. eapply IHs; eauto.
    + intros i s' t' E'. unfold call in E'. destruct (Z.ltb_spec (s_rem s') 0); [discriminate|lia].
Qed.

Hypothesis Hp : forall ri n, 0 <= n -> 0 <= fst (past ri n) < 2 ^ n.

Lemma call_ok f s t : call f s = DOk t -> 0 <= s_rem s /\ f s = DOk t.
Proof. unfold call. destruct (Z.ltb_spec (s_rem s) 0); [discriminate|auto]. Qed.

(** The length and the contents of an element. *)
Lemma ser_frame lim base room sub s t K : aligned sub = true -> chk false 127 room [] [] 0 sub = true ->
  0 <= room -> 0 <= base -> base + 1 + room <= lim -> K <= nbits -> pos K s -> octets (s_mem s) ->
  DEC lim base (DSer 7 1 room sub DEnd) run_mode s = DOk t -> 0 < number bits (s_ri s) 7 ->
  pos K t /\ s_ri t = s_ri s + 7 + number bits (s_ri s) 7 /\ s_mem t base = s_mem s base.
Proof.
  intros A C HR HB HL HK (P1 & P2 & P3) O H N. cbn [dec] in H. unfold control, run_mode in H.
  apply after_ok in H as (u & E & R & H). cbn [dec] in H. injection H as <-.
  destruct (Z_lt_dec (s_rem s) 7) as [S7|S7].
  - exfalso. destruct (read bits nbits past (s_ri s) 7) as [v ri]. cbv zeta in E. unfold bindd in E.
    destruct (call _ _) as [w|c|] eqn:F in E; try discriminate. injection E as <-.
    pose proof (Z.mod_pos_bound v 256 ltac:(lia)) as B.
    destruct (Z.ltb_spec 0 (v mod 256)); [cbn [s_rem adv] in R; lia|].
    apply call_ok in F as [F _]. cbn [s_rem adv] in F. lia.
  - rewrite read_in in E by lia. change (Z.to_nat 7) with 7%nat in E. cbv zeta in E.
    pose proof (number_bound 7 (s_ri s)) as B. change (2 ^ Z.of_nat 7) with 128 in B.
    rewrite (Z.mod_small (number bits (s_ri s) 7) 256) in E by lia. set (n := number bits (s_ri s) 7) in *.
    rewrite (proj2 (Z.ltb_lt 0 n) N) in E. unfold bindd in E.
    destruct (call _ _) as [w|c|] eqn:F in E; try discriminate. injection E as <-. cbn [s_rem s_ri s_mem adv] in *.
    apply call_ok in F as [_ F].
    assert (Q : pos (s_ri s + 7 + n) w).
    { eapply dec_aligned; [exact A| | |exact F]; [lia|]. unfold pos, set_pos, adv. cbn [s_rem s_ri]. lia. }
    pose proof (dec_safe bits nbits past Hp sub false 127 room [] [] 0%nat (inner true lim base 1 room) (base + 1) run_mode
      (set_pos (adv s 7 (s_ri s + 7)) n (s_off (adv s 7 (s_ri s + 7))) (s_ri (adv s 7 (s_ri s + 7))))) as G.
    unfold adv, set_pos in G. cbn [s_off s_ri s_mem s_rem] in G. unfold adv, set_pos in F. cbn [s_off s_ri s_mem s_rem] in F.
    change (Skip 0) with run_mode in F. rewrite F in G. cbn [good] in G.
    assert (W : within (reg (base + 1) (base + 1 + room)) (mkcst n (s_off s + 7) (s_ri s + 7) (s_mem s)) w).
    { apply G; auto; try lia.
      - cbn [mok run_mode]. split; [reflexivity|]. split; [reflexivity|constructor].
      - unfold inner. lia. }
    destruct W as (_ & _ & W). destruct Q as (Q1 & Q2 & Q3).
    split; [unfold pos; cbn [s_ri s_rem]; lia|]. split; [lia|]. rewrite W by (unfold reg; lia). reflexivity.
Qed.

(** Alternatives with fewer than four bits left. *)
Fixpoint four (d : descr) : bool :=
  match d with DEnd => true | DAlt b _ keep _ r => (b =? 4) && negb keep && four r | _ => false end.
Lemma alts_short d : four d = true -> forall lim base i off room s t, s_rem s < 4 -> DEC lim base d (Alts i off room) s <> DOk t.
Proof.
  induction d; intros F lim base i0 off0 room0 s t R; cbn [four] in F; try discriminate F; cbn [dec]; [discriminate|].
  apply andb_true_iff in F as [F F2]. apply andb_true_iff in F as [F1 F3]. apply Z.eqb_eq in F1. subst. destruct keep; [discriminate|].
  destruct (read bits nbits past (s_ri s) 4) as [v ri]. destruct (_ =? _).
  - unfold bindd. destruct (store _ _ _ _ _ _ _ _ _) as [u|c|] eqn:E; try discriminate. apply store_ok in E. subst u.
    intros H. apply call_ok in H as [H _]. cbn [s_rem set_mem adv] in H. lia.
  - apply IHd2; [assumption|exact R].
Qed.
Lemma alt_step lim base v one r i off room s : 0 <= s_ri s -> s_ri s + 4 <= nbits ->
  DEC lim base (DAlt 4 v false one r) (Alts i off room) s =
  if number bits (s_ri s) 4 =? v then
    bindd (store true lim base off room 0 1 i (adv s 4 (s_ri s + 4))) (call (DEC lim base one run_mode))
  else DEC lim base r (Alts (i + 1) off room) s.
Proof.
  intros A B. cbn [dec]. rewrite read_in by lia. change (Z.to_nat 4) with 4%nat.
  pose proof (number_bound 4 (s_ri s)) as N. change (2 ^ Z.of_nat 4) with 16 in N. rewrite Z.mod_small by lia.
  destruct (_ =? _); [reflexivity|]. f_equal. destruct s as [s1 s2 s3 s4]. unfold set_pos. cbn [s_rem s_off s_ri s_mem]. f_equal. lia.
Qed.

Lemma hit lim base room sub i s t K tech : aligned sub = true -> chk false 127 room [] [] 0 sub = true ->
  0 <= room -> 0 <= base -> base + 1 + room <= lim -> K <= nbits -> pos K s -> 4 <= s_rem s -> octets (s_mem s) -> 0 <= i < 256 ->
  bindd (store true lim base 0 1 0 1 i (adv s 4 (s_ri s + 4))) (call (DEC lim base (DSer 7 1 room sub DEnd) run_mode)) = DOk t ->
  0 < number bits (s_ri s + 4) 7 -> index_of tech = i ->
  pos K t /\ s_ri t = s_ri s + 11 + number bits (s_ri s + 4) 7 /\ s_mem t base = index_of tech.
Proof.
  intros A C HR HB HL HK (P1 & P2 & P3) R O I H N T. unfold bindd in H.
  destruct (store _ _ _ _ _ _ _ _ _) as [u|c|] eqn:E in H; try discriminate. apply store_ok in E. subst u.
  apply call_ok in H as [_ H]. cbn [upds adv s_mem] in H. rewrite !Z.add_0_r, Z.mod_small in H by lia.
  apply (ser_frame lim base room sub _ _ K) in H; auto; unfold set_mem, adv in *; cbn [s_rem s_ri s_mem] in *.
  - destruct H as (H1 & H2 & H3). split; [exact H1|]. split; [lia|]. rewrite H3. unfold upd1. rewrite Z.eqb_refl. auto.
  - unfold pos. cbn [s_rem s_ri]. lia.
  - intros x. unfold upd1. destruct (x =? base); [lia|apply O].
Qed.

Lemma content_chk : chk false 127 68 [] [] 0 Content_t = true. Proof. vm_compute. reflexivity. Qed.
Lemma add_chk : chk false 127 31 [] [] 0 Additional_access_technologies_t = true. Proof. vm_compute. reflexivity. Qed.

(** One element. *)
Lemma choice_step lim base off room alts s : DEC lim base (DChoice off room alts DEnd) run_mode s =
  after (DEC lim base alts (Alts 0 off room) s) (DEC lim base DEnd run_mode).
Proof. reflexivity. Qed.
Lemma dend_step lim base s : DEC lim base DEnd run_mode s = DOk s.
Proof. reflexivity. Qed.
Lemma element_gen c a lim base s t K :
  aligned c = true -> aligned a = true -> chk false 127 68 [] [] 0 c = true -> chk false 127 31 [] [] 0 a = true ->
  0 <= base -> base + 69 <= lim -> K <= nbits -> pos K s -> octets (s_mem s) ->
  DEC lim base (DChoice 0 1 
    (DAlt 4 0 false (DSer 7 1 68 c DEnd) (DAlt 4 1 false (DSer 7 1 68 c DEnd) (DAlt 4 2 false (DSer 7 1 68 c DEnd) (DAlt 4 3 false (DSer 7 1 68 c DEnd) (DAlt 4 4 false (DSer 7 1 68 c DEnd) (DAlt 4 5 false (DSer 7 1 68 c DEnd) (DAlt 4 6 false (DSer 7 1 68 c DEnd) (DAlt 4 7 false (DSer 7 1 68 c DEnd) (DAlt 4 8 false (DSer 7 1 68 c DEnd) (DAlt 4 9 false (DSer 7 1 68 c DEnd) (DAlt 4 10 false (DSer 7 1 68 c DEnd) (DAlt 4 11 false (DSer 7 1 68 c DEnd) (DAlt 4 12 false (DSer 7 1 68 c DEnd) (DAlt 4 13 false (DSer 7 1 68 c DEnd) (DAlt 4 15 false (DSer 7 1 31 a DEnd) DEnd)))))))))))))))
    DEnd) run_mode s = DOk t -> 0 < number bits (s_ri s + 4) 7 ->
  pos K t /\ s_ri t = s_ri s + 11 + number bits (s_ri s + 4) 7 /\ s_mem t base = index_of (number bits (s_ri s) 4).
Proof.
  intros Ac Aa Cc Ca HB HL HK P O H N. rewrite choice_step in H.
  apply after_ok in H as (u & E & R & H). rewrite dend_step in H. injection H as <-.
  destruct (Z_lt_dec (s_rem s) 4) as [S4|S4].
  { exfalso. revert E. apply alts_short; [reflexivity|exact S4]. }
  pose proof P as (P1 & P2 & P3).
  assert (S4' : 4 <= s_rem s) by lia.
  do 15 (rewrite alt_step in E by lia;
    match type of E with (if ?x =? ?v then _ else _) = _ => destruct (Z.eqb_spec x v) as [V|V];
      [rewrite V; first
        [ refine (hit lim base 68 c _ s u K v Ac Cc _ _ _ HK P S4' O _ E N _); first [lia|assumption|reflexivity]
        | refine (hit lim base 31 a _ s u K v Aa Ca _ _ _ HK P S4' O _ E N _); first [lia|assumption|reflexivity] ]|clear V] end).
  discriminate E.
Qed.
Lemma element_frame lim base s t K : 0 <= base -> base + 69 <= lim -> K <= nbits -> pos K s -> octets (s_mem s) ->
  DEC lim base MS_RA_capability_value_t run_mode s = DOk t -> 0 < number bits (s_ri s + 4) 7 ->
  pos K t /\ s_ri t = s_ri s + 11 + number bits (s_ri s + 4) 7 /\ s_mem t base = index_of (number bits (s_ri s) 4).
Proof.
  apply (element_gen Content_t Additional_access_technologies_t); [vm_compute; reflexivity|vm_compute; reflexivity|exact content_chk|exact add_chk].
Qed.

Definition elem (i : Z) (s : cst) : dres := call (DEC 760 (0 + 1 + i * 69) MS_RA_capability_value_t run_mode) s.

Lemma element_within i s t : 0 <= i < 11 -> octets (s_mem s) -> s_rem s <= 2040 -> elem i s = DOk t ->
  octets (s_mem t) /\ s_rem t <= s_rem s /\ (forall x, ~ (1 + 69 * i <= x < 70 + 69 * i) -> s_mem t x = s_mem s x).
Proof.
  intros I O R H. unfold elem in H. apply call_ok in H as [R0 H].
  pose proof (dec_safe bits nbits past Hp MS_RA_capability_value_t false 2040 69 [] [] 0%nat 760 (0 + 1 + i * 69) run_mode s) as G.
  rewrite H in G. cbn [good] in G.
  assert (W : within (reg (0 + 1 + i * 69) (0 + 1 + i * 69 + 69)) s t).
  { apply G; try assumption; try lia; [vm_compute; reflexivity|]. cbn [mok run_mode]. split; [reflexivity|]. split; [reflexivity|constructor]. }
  destruct W as (W1 & W2 & W3). split; [exact W2|]. split; [exact W1|]. intros x X. apply W3. unfold reg. lia.
Qed.

Lemma rectarr_step lim co off room stride cap sub r s :
  DEC lim 0 (DRecTArr true co off room stride cap sub r) run_mode s =
  after (rec_elems1 true bits nbits (S (Z.to_nat cap)) lim 0 co cap 0
           (fun i => call (DEC (inner true lim 0 off room) (0 + off + i * stride) sub run_mode)) s) (DEC lim 0 r run_mode).
Proof. reflexivity. Qed.
Lemma pad_step lim s t : DEC lim 0 (DPad DEnd) run_mode s = DOk t -> s_mem t = s_mem s.
Proof.
  intros H. cbn [dec] in H. unfold control, run_mode in H. apply after_ok in H as (w & D & _ & H). injection H as <-.
  unfold dec_pad in D. destruct (0 <? s_rem s); injection D as <-; reflexivity.
Qed.

Lemma elements_frame p l q : elements bits p l q -> (forall e, In e l -> 0 < snd e) ->
  forall K fuel i s t, K <= nbits -> s_ri s = p -> pos K s -> octets (s_mem s) -> s_rem s <= 2040 -> 0 <= i ->
  rec_elems1 true bits nbits fuel 760 0 0 11 i elem s = DOk t -> 0 <= s_rem t ->
  q <= K /\ s_mem t 0 = i + zlen l /\
  (forall k e, nth_error l k = Some e -> s_mem t (1 + 69 * (i + Z.of_nat k)) = index_of (fst e)) /\
  (forall x, 1 <= x < 1 + 69 * i -> s_mem t x = s_mem s x).
Proof.
  induction 1 as [p n En Hb|p n l q En Hb Hl IH]; intros Hpos K fuel i s t HK Hs P O R I H Rt; destruct fuel as [|fuel];
    cbn [rec_elems1] in H; try discriminate; destruct (Z.ltb_spec 11 (i + 1)) as [C|C]; try discriminate; unfold bindd in H;
    destruct (elem i s) as [u|c|] eqn:E; try discriminate; destruct (Z.ltb_spec (s_rem u) 0) as [U|U]; try discriminate; cbv zeta in H;
    assert (N : 0 < n) by (apply (Hpos (number bits p 4, n)); left; reflexivity);
    destruct (element_within i s u ltac:(lia) O R E) as (O1 & R1 & W);
    unfold elem in E; apply call_ok in E as [_ E];
    (apply (element_frame 760 (0 + 1 + i * 69) s u K) in E; [|lia|lia|assumption|assumption|assumption|rewrite Hs, <- En; exact N]);
    destruct E as (Pu & Ri & Mi); rewrite Hs, <- En in Ri; rewrite Hs in Mi; destruct Pu as (Pu1 & Pu2 & Pu3);
    replace (0 + 1 + i * 69) with (1 + 69 * i) in * by lia.
  - assert (T : tag bits nbits (s_ri u) = false).
    { unfold tag. rewrite Ri, Hb, andb_false_r. reflexivity. }
    rewrite T in H. apply store_ok in H. subst t. cbn [upds set_mem adv s_mem s_rem] in *.
    change (0 + 0 + 0) with 0. rewrite (Z.mod_small (i + 1)), (Z.mod_small (i + 1)) by lia.
    split; [lia|]. split; [unfold upd1; cbn; reflexivity|]. split.
    + intros k e Hk. destruct k as [|k]; [|destruct k; discriminate]. injection Hk as <-. cbn [fst].
      rewrite Z.add_0_r. unfold upd1. rewrite (proj2 (Z.eqb_neq _ _)) by lia. exact Mi.
    + intros x X. unfold upd1. rewrite (proj2 (Z.eqb_neq _ _)) by lia. apply W. lia.
  - assert (RR : s_rem u <> 0 \/ tag bits nbits (s_ri u) = true \/ tag bits nbits (s_ri u) = false) by (destruct (tag _ _ _); auto).
    destruct (Z.eq_dec (s_rem u) 0) as [Z0|Z0].
    { exfalso. destruct (tag bits nbits (s_ri u)).
      - destruct fuel as [|fuel]; cbn [rec_elems1] in H; try discriminate. destruct (11 <? _); try discriminate. unfold bindd in H.
        destruct (elem (i + 1) _) as [w|c|] eqn:F; try discriminate. unfold elem in F. apply call_ok in F as [F _].
        cbn [adv s_rem] in F. lia.
      - apply store_ok in H. subst t. cbn [set_mem adv s_rem] in Rt. lia. }
    assert (T : tag bits nbits (s_ri u) = true).
    { unfold tag. rewrite (proj2 (Z.leb_le 0 (s_ri u))), (proj2 (Z.ltb_lt (s_ri u) nbits)), Ri, Hb by lia. reflexivity. }
    rewrite T in H.
    apply (IH (fun e He => Hpos e (or_intror He)) K) in H; auto; cbn [adv s_ri s_rem s_mem] in *; try lia.
    2:{ unfold pos, adv. cbn [s_ri s_rem]. lia. }
    destruct H as (H1 & H2 & H3 & H4). split; [exact H1|]. split; [rewrite zlen_cons; lia|]. split.
    + intros k e Hk. destruct k as [|k].
      * injection Hk as <-. cbn [fst Z.of_nat]. rewrite Z.add_0_r, H4 by lia. exact Mi.
      * cbn [nth_error] in Hk. rewrite <- (H3 k e Hk). f_equal. lia.
    + intros x X. rewrite H4 by lia. apply W. lia.
Qed.
End Frame.
