(** P1 above 4096: an N-PDU of up to 1917 octets does not fill the dictionary, and nothing is different from P1 = 4096. *)
From Verif.Lib Require Import Base Outcome.
From Verif.Comp Require Import V42Model V42Dict.

(** Entries behind [c1] without children, but for some. *)
Definition bud (d : Z -> node) (c1 m : Z) : Prop :=
  exists l, (forall e, c1 < e < 4096 -> ~ In e l -> n_child (d e) = 0) /\ c1 + zlen l <= m.
Definition kbud (k : dct) (m : Z) : Prop := bud (d_node k) (d_c1 k) m /\ 259 <= d_c1 k /\ (d_la k = 0 \/ 259 <= d_la k).

Section Wide.
Variables (n2 n7 : Z).
Hypothesis Hn2 : 4096 <= n2.

Lemma filter_less (l : list Z) x : In x l -> zlen (filter (fun y => negb (y =? x)) l) + 1 <= zlen l.
Proof.
  unfold zlen. assert (forall l : list Z, (length (filter (fun y => negb (y =? x)%Z) l) <= length l)%nat) as Q by (intros q; induction q as [|y q IH]; cbn; [lia|destruct (negb (y =? x)); cbn; lia]).
  induction l as [|y l IH]; intros H; [destruct H|]. cbn [filter length]. destruct (y =? x) eqn:E; cbn [negb].
  - specialize (Q l). lia.
  - cbn [length]. destruct H as [->|H]; [lia|]. specialize (IH H). lia.
Qed.

Lemma scan_same d fuel : forall l c, 259 <= c -> (forall e, c < e < 4096 -> ~ In e l -> n_child (d e) = 0) -> c + zlen l <= 4094 -> zlen l < Z.of_nat fuel ->
  exists r, (forall n f, 4096 <= n -> (fuel <= f)%nat -> scan f n d c = Ok r) /\ c < r < 4096 /\ n_child (d r) = 0 /\ bud d r (c + zlen l + 1).
Proof.
  induction fuel as [|fuel IH]; intros l c Hc H L F; [pose proof (zlen_nonneg l); lia|]. pose proof (zlen_nonneg l).
  destruct (Z.eq_dec (n_child (d (c + 1))) 0) as [Z0|NZ].
  - exists (c + 1). split; [|split; [lia|split; [exact Z0|]]].
    + intros n f Hn Hf. destruct f as [|f]; [lia|]. cbn [scan]. replace (c + 1 =? n) with false by lia. unfold need. replace (c + 1 <? 4096) with true by lia. rewrite Z0. reflexivity.
    + exists l. split; [|lia]. intros e He. apply H. lia.
  - assert (In (c + 1) l) as I by (destruct (in_dec Z.eq_dec (c + 1) l) as [I|I]; [exact I|exfalso; apply NZ, H; [lia|exact I]]).
    pose proof (filter_less l (c + 1) I) as FL. set (l' := filter (fun y => negb (y =? c + 1)) l) in *.
    destruct (IH l' (c + 1)) as (r & S & R & C & (m & M1 & M2)); [lia| |lia|lia|].
    { intros e He N. apply H; [lia|]. intros J. apply N. apply filter_In. split; [exact J|lia]. }
    exists r. split; [|split; [lia|split; [exact C|exists m; split; [exact M1|lia]]]].
    intros n f Hn Hf. destruct f as [|f]; [lia|]. cbn [scan]. replace (c + 1 =? n) with false by lia. unfold need. replace (c + 1 <? 4096) with true by lia.
    replace (n_child (d (c + 1)) =? 0) with false by lia. apply S; [exact Hn|lia].
Qed.

Lemma unlink_child fuel : forall d e nx d', unlink fuel d e nx = Ok d' -> forall p, n_child (d' p) = n_child (d p).
Proof.
  induction fuel as [|f IH]; intros d e nx d' H p; cbn [unlink] in H; [discriminate|]. unfold need in H. destruct (e <? 4096); [|discriminate].
  destruct (n_next (d e) =? nx); [|exact (IH _ _ _ _ H p)]. injection H as <-. unfold put. destruct (p =? e) eqn:E; [|reflexivity]. assert (p = e) by lia. subst p. reflexivity.
Qed.
Lemma detach_child d nx d' : detach d nx = Ok d' -> nx <> 0 -> forall p, n_child (d p) = 0 -> n_child (d' p) = 0.
Proof.
  unfold detach. destruct (n_par (d nx) =? 0); [intros H; injection H as <-; auto|]. unfold need. destruct (n_par (d nx) <? 4096); [|discriminate].
  destruct (n_child (d (n_par (d nx))) =? nx) eqn:E.
  - intros H N p P. injection H as <-. unfold put. destruct (p =? n_par (d nx)) eqn:E2; [|exact P]. assert (p = n_par (d nx)) by lia. subst p. lia.
  - intros H N p P. rewrite (unlink_child _ _ _ _ _ H). exact P.
Qed.

Lemma add_same d c1 at_ x m : bud d c1 m -> 259 <= c1 -> m <= 4093 ->
  add_octet n2 d c1 at_ x = add_octet 4096 d c1 at_ x /\ (forall d' c', add_octet 4096 d c1 at_ x = Ok (d', c') -> bud d' c' (m + 2) /\ 259 <= c').
Proof.
  intros (l & L1 & L2) Hc Hm. unfold add_octet, need. destruct ((c1 <? 4096) && (at_ <? 4096)); [|split; [reflexivity|discriminate]]. cbv zeta.
  set (d1 := put d c1 _). set (d2 := put d1 c1 _). set (d3 := put d2 at_ _).
  assert (forall e, c1 < e < 4096 -> ~ In e (at_ :: l) -> n_child (d3 e) = 0) as P.
  { intros e He N. unfold d3, d2, d1. rewrite !put_ne; [apply L1; [exact He|]; intros J; apply N; now right|lia|lia|]. intros ->. apply N. now left. }
  clearbody d3. pose proof (zlen_nonneg l) as Hl. assert (zlen (at_ :: l) = zlen l + 1) as Hz by (unfold zlen; cbn [length]; lia).
  destruct (scan_same d3 (Z.to_nat 4096) (at_ :: l) c1 Hc P ltac:(lia) ltac:(lia)) as (r & S & R & _ & (l' & Q1 & Q2)).
  rewrite (S n2 (Z.to_nat n2)), (S 4096 (Z.to_nat 4096)) by lia. cbn [bind]. split; [reflexivity|].
  intros d' c' H. destruct (detach d3 r) as [d4| |] eqn:D; cbn [bind] in H; try discriminate. injection H as <- <-. split; [|lia].
  exists l'. split; [|lia]. intros e He N. apply (detach_child _ _ _ D); [lia|]. apply Q1; assumption.
Qed.

Lemma bud_more d c m m' : bud d c m -> m <= m' -> bud d c m'.
Proof. intros (l & A & B) H. exists l. split; [exact A|lia]. Qed.
Lemma kbud_more k m m' : kbud k m -> m <= m' -> kbud k m'.
Proof. intros (A & B) H. split; [eapply bud_more; eauto|exact B]. Qed.

Lemma refresh_same k x m : kbud k m -> m <= 4093 -> refresh n2 k x = refresh 4096 k x /\
  (forall k', refresh 4096 k x = Ok k' -> kbud k' (m + 2) /\ (d_upd k = 0 -> k' = k) /\ d_upd k' = 0 /\ d_lm k' = d_lm k).
Proof.
  intros (B & C & L) Hm. unfold refresh. destruct (d_upd k =? 0) eqn:U.
  - split; [reflexivity|]. intros k' H. injection H as <-. split; [split; [eapply bud_more; [exact B|lia]|split; assumption]|]. split; [reflexivity|]. split; [lia|reflexivity].
  - destruct (match_octet (d_node k) (d_upd k) x) as [r| |]; cbn [bind]; try (split; [reflexivity|discriminate]).
    destruct (r =? 0).
    + destruct (add_same _ _ (d_upd k) x _ B C Hm) as (E & Q). rewrite E. split; [reflexivity|]. intros k' H.
      destruct (add_octet 4096 (d_node k) (d_c1 k) (d_upd k) x) as [[d' c']| |]; cbn [bind fst snd] in H; try discriminate. injection H as <-.
      destruct (Q _ _ eq_refl) as (Q1 & Q2). split; [split; [exact Q1|split; [exact Q2|right; exact C]]|]. split; [lia|]. split; reflexivity.
    + split; [reflexivity|]. intros k' H. injection H as <-. split; [split; [eapply bud_more; [exact B|lia]|split; assumption]|]. split; [lia|]. split; reflexivity.
Qed.

(** ** The compressor *)
Lemma push_code_d s c : v_d (fst (push_code s c)) = v_d s.
Proof. unfold push_code. destruct (drain _ _). reflexivity. Qed.
Lemma push_align_d s : v_d (fst (push_align s)) = v_d s.
Proof. unfold push_align. destruct (v_bc s mod 8 =? 0); [reflexivity|]. destruct (drain _ _). reflexivity. Qed.
Lemma step_up_d fuel : forall s c s' o, step_up fuel s c = Ok (s', o) -> v_d s' = v_d s.
Proof.
  induction fuel as [|f IH]; intros s c s' o H; cbn [step_up] in H; (destruct (c <? v_c3 s); [injection H as <- <-; reflexivity|]); [discriminate|].
  pose proof (push_code_d s 2) as P. destruct (push_code s 2) as [s1 o1]. cbn [fst] in P. destruct (step_up f _ c) as [[s2 p]| |] eqn:E; cbn [bind] in H; try discriminate. injection H as <- <-.
  rewrite (IH _ _ _ _ E). exact P.
Qed.
Lemma send_d s c s' o : send_encoded s c = Ok (s', o) -> v_d s' = v_d s.
Proof.
  unfold send_encoded. cbv zeta. destruct (v_tr _); [intros H; injection H as <- <-; reflexivity|].
  destruct (step_up 16 _ c) as [[s1 o1]| |] eqn:E; cbn [bind]; try discriminate. pose proof (push_code_d s1 c) as P. destruct (push_code s1 c) as [s2 p]. intros H. injection H as <- <-.
  cbn [set_str v_d fst] in *. rewrite P, (step_up_d _ _ _ _ _ E). reflexivity.
Qed.
Definition same_d (k k' : dct) : Prop := d_node k' = d_node k /\ d_c1 k' = d_c1 k /\ (d_la k' = d_la k \/ d_la k' = 0).
Lemma same_bud k k' m : same_d k k' -> kbud k m -> kbud k' m.
Proof. intros (A & B & C) (D & E & F). unfold kbud. rewrite A, B. split; [exact D|]. split; [exact E|]. destruct C as [-> | ->]; auto. Qed.

Lemma matching_d buf : forall s s' o r, matching n7 s buf = Ok (s', o, r) -> same_d (v_d s) (v_d s').
Proof.
  induction buf as [|x buf IH]; intros s s' o r H; cbn [matching] in H; [injection H as <- <- <-; unfold same_d; auto|].
  destruct (match_octet _ _ x) as [c| |]; cbn [bind] in H; try discriminate. destruct (c =? 0); [|destruct (c =? d_la (v_d s))].
  - destruct (send_encoded _ _) as [[s1 o1]| |] eqn:E; cbn [bind] in H; try discriminate. injection H as <- <- <-. cbn [set_d v_d]. rewrite (send_d _ _ _ _ E). unfold same_d; auto.
  - destruct (send_encoded _ _) as [[s1 o1]| |] eqn:E; cbn [bind] in H; try discriminate. injection H as <- <- <-. cbn [set_d v_d]. rewrite (send_d _ _ _ _ E). unfold same_d; auto.
  - unfold need in H. destruct (zlen (v_str s) <? 250); [|discriminate]. cbv zeta in H. destruct (zlen _ =? n7).
    + destruct (send_encoded _ _) as [[s1 o1]| |] eqn:E; cbn [bind] in H; try discriminate. injection H as <- <- <-. cbn [set_d v_d]. rewrite (send_d _ _ _ _ E). unfold same_d; auto.
    + exact (IH _ _ _ _ H).
Qed.
Lemma rest_d s s' o : send_rest s = Ok (s', o) -> same_d (v_d s) (v_d s').
Proof.
  unfold send_rest. destruct (d_lm (v_d s) =? 0); [intros H; injection H as <- <-; unfold same_d; auto|].
  destruct (send_encoded _ _) as [[s1 o1]| |] eqn:E; cbn [bind]; try discriminate. intros H. injection H as <- <-. cbn [set_d v_d]. rewrite (send_d _ _ _ _ E). unfold same_d; auto.
Qed.
Lemma monitor_d s s' o : monitor s = Ok (s', o) -> same_d (v_d s) (v_d s').
Proof.
  unfold monitor, go_compressed, go_transparent. destruct (v_tr s) eqn:T; cbn [negb].
  - destruct (v_perf s <? 2048 - 11); [|intros H; injection H as <- <-; unfold same_d; auto]. destruct (send_rest s) as [[s1 o1]| |] eqn:E; cbn [bind]; try discriminate. intros H. injection H as <- <-. exact (rest_d _ _ _ E).
  - destruct (2048 <? v_perf s); [|intros H; injection H as <- <-; unfold same_d; auto]. destruct (send_rest s) as [[s1 o1]| |] eqn:E; cbn [bind]; try discriminate.
    pose proof (push_code_d (set_d s1 (set_la (v_d s1) 0)) 0) as P. destruct (push_code _ 0) as [s2 p]. pose proof (push_align_d s2) as Q. destruct (push_align s2) as [s3 q]. intros H. injection H as <- <-.
    cbn [fst] in *. cbn [set_tr v_d]. rewrite Q, P. destruct (rest_d _ _ _ E) as (A & B & C). cbn. unfold same_d. auto.
Qed.

Lemma compress_same fuel : forall s buf m, kbud (v_d s) m -> m + 2 * Z.of_nat fuel <= 4095 -> compress_loop fuel n2 n7 s buf = compress_loop fuel 4096 n7 s buf.
Proof.
  induction fuel as [|f IH]; intros s buf m B H; destruct buf as [|x buf]; try reflexivity. cbn [compress_loop].
  destruct (refresh_same (v_d s) x m B ltac:(lia)) as (E & Q). rewrite E. destruct (refresh 4096 (v_d s) x) as [k| |]; cbn [bind]; try reflexivity.
  destruct (matching n7 (set_d s k) (x :: buf)) as [[[s1 o] rest]| |] eqn:M; cbn [bind]; try reflexivity. destruct (monitor s1) as [[s2 p]| |] eqn:Mo; cbn [bind]; try reflexivity.
  rewrite (IH s2 rest (m + 2)); [reflexivity| |lia]. destruct (Q _ eq_refl) as (Q1 & _).
  eapply same_bud; [exact (monitor_d _ _ _ Mo)|]. eapply same_bud; [exact (matching_d _ _ _ _ _ M)|]. exact Q1.
Qed.

(** ** The expander *)
Definition sbud (s : vst) (m : Z) : Prop := kbud (v_d s) m /\ (d_upd (v_d s) <> 0 -> d_lm (v_d s) = 0) /\ (v_tr s = false -> d_lm (v_d s) = 0) /\ byte (v_esc s).
Lemma sbud_more s m m' : sbud s m -> m <= m' -> sbud s m'.
Proof. intros (A & B) H. split; [eapply kbud_more; eauto|exact B]. Qed.

(** After an entry is added the octet is used. *)
Lemma try_same s x m : sbud s m -> v_tr s = true -> byte x -> m <= 4093 -> one_try n2 n7 s x = one_try 4096 n7 s x /\
  (forall s' o a, one_try 4096 n7 s x = Ok (s', o, a) -> v_tr s' = true /\ sbud s' (if a : bool then m else m + 2) /\ (a = true -> d_lm (v_d s) <> 0 /\ d_lm (v_d s') = 0)).
Proof.
  intros (K & UL & TL & Ee) T Hx Hm. unfold one_try. destruct (refresh_same (v_d s) x m K Hm) as (E & Q). rewrite E. split; [reflexivity|]. intros s' o a H.
  destruct (refresh 4096 (v_d s) x) as [k| |]; cbn [bind] in H; try discriminate. destruct (Q _ eq_refl) as (Q1 & Q2 & Q3 & Q4). rewrite Q4 in H.
  assert (forall z : Z, v_tr s = false -> z = 0) as TT by (intros; congruence).
  destruct (Z.eq_dec (d_lm (v_d s)) 0) as [Z0|NZ].
  - rewrite Z0 in H. unfold match_octet in H. change (0 =? 0) with true in H. cbv iota in H. cbn [bind] in H. replace (x + 3 =? 0) with false in H by (unfold byte in Hx; lia).
    replace (x + 3 =? d_la k) with false in H by (destruct Q1 as (_ & _ & [L|L]); unfold byte in Hx; lia). unfold need in H. destruct (zlen (v_str s) <? 250); [|discriminate]. cbv zeta in H.
    destruct (zlen (v_str s ++ [x]) =? n7); injection H as <- <- <-; (split; [exact T|]); (split; [|discriminate]).
    + split; [eapply same_bud; [|exact Q1]; unfold same_d; auto|]. split; [reflexivity|]. split; [exact (TT _)|exact Ee].
    + split; [eapply same_bud; [|exact Q1]; unfold same_d; auto|]. split; [intros N; exfalso; apply N; exact Q3|]. split; [exact (TT _)|exact Ee].
  - assert (d_upd (v_d s) = 0) as U0 by (destruct (Z.eq_dec (d_upd (v_d s)) 0); [assumption|exfalso; apply NZ, UL; assumption]). specialize (Q2 U0). subst k.
    destruct (match_octet _ _ x) as [r| |]; cbn [bind] in H; try discriminate. destruct (r =? 0); [|destruct (r =? d_la (v_d s))].
    + injection H as <- <- <-. split; [exact T|]. split; [|intros _; split; [exact NZ|reflexivity]]. split; [eapply same_bud; [|exact K]; unfold same_d; auto|]. split; [reflexivity|]. split; [exact (TT _)|exact Ee].
    + injection H as <- <- <-. split; [exact T|]. split; [|intros _; split; [exact NZ|reflexivity]]. split; [eapply same_bud; [|exact K]; unfold same_d; auto|]. split; [reflexivity|]. split; [exact (TT _)|exact Ee].
    + unfold need in H. destruct (zlen (v_str s) <? 250); [|discriminate]. cbv zeta in H. destruct (zlen (v_str s ++ [x]) =? n7); injection H as <- <- <-; (split; [exact T|]); (split; [|discriminate]).
      * split; [eapply same_bud; [|exact Q1]; unfold same_d; auto|]. split; [reflexivity|]. split; [exact (TT _)|exact Ee].
      * split; [eapply same_bud; [|exact Q1]; unfold same_d; auto|]. split; [intros N; exfalso; apply N; exact U0|]. split; [exact (TT _)|exact Ee].
Qed.
Lemma tries_same s x m : sbud s m -> v_tr s = true -> byte x -> m <= 4093 -> two_tries n2 n7 s x = two_tries 4096 n7 s x /\
  (forall s' o u, two_tries 4096 n7 s x = Ok (s', o, u) -> sbud s' (m + 2)).
Proof.
  intros B T Hx Hm. unfold two_tries. destruct (try_same s x m B T Hx Hm) as (E & Q). rewrite E. destruct (one_try 4096 n7 s x) as [[[s1 o1] a]| |]; cbn [bind]; try (split; [reflexivity|discriminate]).
  destruct (Q _ _ _ eq_refl) as (T1 & B1 & A1). destruct a.
  - destruct (try_same s1 x m B1 T1 Hx Hm) as (E2 & Q2). rewrite E2. split; [reflexivity|]. intros s' o u H. destruct (one_try 4096 n7 s1 x) as [[[s2 o2] a2]| |]; cbn [bind] in H; try discriminate. injection H as <- <- <-.
    destruct (Q2 _ _ _ eq_refl) as (_ & B2 & _). eapply sbud_more; [exact B2|]. destruct a2; lia.
  - split; [reflexivity|]. intros s' o u H. injection H as <- <- <-. exact B1.
Qed.
Lemma esc_byte w : forall e, byte e -> byte (esc_after e w).
Proof. induction w as [|x w IH]; intros e H; cbn [esc_after]; [exact H|]. apply IH. destruct (x =? e); [unfold byte; lia|exact H]. Qed.
Lemma code_same s c m : sbud s m -> v_tr s = false -> m <= 4093 -> codeword n2 n7 s c = codeword 4096 n7 s c /\
  (forall s' o, codeword 4096 n7 s c = Ok (s', o) -> sbud s' (m + 2)).
Proof.
  intros (K & UL & TL & Ee) T Hm. specialize (TL T). unfold codeword. destruct (c =? d_c1 (v_d s)); [split; [reflexivity|discriminate]|].
  destruct (spell_out _ _ c) as [w| |]; cbn [bind]; try (split; [reflexivity|discriminate]). cbv zeta. unfold need. destruct (zlen _ <=? 250); [|split; [reflexivity|discriminate]].
  set (w' := v_str s ++ w). assert (forall k, kbud k (m + 2) -> d_lm k = 0 -> sbud (set_str (set_esc (set_d s (set_upd k (if zlen w' =? n7 then 0 else c))) (esc_after (v_esc s) w')) []) (m + 2)) as FIN.
  { intros k Bk Lk. split; [eapply same_bud; [|exact Bk]; unfold same_d; auto|]. split; [intros _; exact Lk|]. split; [intros _; exact Lk|apply esc_byte; exact Ee]. }
  destruct (d_upd (v_d s) =? 0) eqn:U; cbn [bind].
  - split; [reflexivity|]. intros s' o H. injection H as <- <-. apply FIN; [eapply kbud_more; [exact K|lia]|exact TL].
  - destruct (match_octet _ _ (nth 0 w' 0)) as [r| |]; cbn [bind]; try (split; [reflexivity|discriminate]). destruct (r =? 0).
    + destruct K as (K1 & K2 & K3). destruct (add_same _ _ (d_upd (v_d s)) (nth 0 w' 0) _ K1 K2 Hm) as (E & Q). rewrite E. split; [reflexivity|]. intros s' o H.
      destruct (add_octet 4096 _ _ _ _) as [[d' c']| |]; cbn [bind fst snd] in H; try discriminate. destruct (c =? c'); cbn [bind] in H; [discriminate|]. injection H as <- <-.
      destruct (Q _ _ eq_refl) as (Q1 & Q2). apply FIN; [split; [exact Q1|split; [exact Q2|right; exact K2]]|exact TL].
    + split; [reflexivity|]. intros s' o H. destruct (r =? d_la (v_d s)); cbn [bind] in H; injection H as <- <-; (apply FIN; [|exact TL]); [|eapply kbud_more; [exact K|lia]].
      eapply kbud_more; [eapply same_bud; [|exact K]; unfold same_d; auto|lia].
Qed.

Lemma init_bud : sbud init 259.
Proof.
  split; [split; [|split; [cbn; lia|left; reflexivity]]|].
  - exists []. split; [|cbn; lia]. intros e _ _. cbn. unfold dict0. destruct ((3 <=? e) && (e <? 259)); reflexivity.
  - split; [reflexivity|]. split; [reflexivity|cbn; unfold byte; lia].
Qed.

Lemma fill_bytes c2 inp : forall bb bc bb' bc' r, fill c2 bb bc inp = Ok (bb', bc', r) -> bytes inp -> bytes r.
Proof.
  induction inp as [|x inp IH]; intros bb bc bb' bc' r H B; cbn [fill] in H; (destruct (c2 <=? bc); [injection H as <- <- <-; exact B|]); [injection H as <- <- <-; exact B|].
  unfold need in H. destruct (bc <? 24); [|discriminate]. inversion B; subst. eapply IH; eauto.
Qed.
Lemma step_same s inp m : sbud s m -> 259 <= m <= 4093 -> bytes inp -> dec_step n2 n7 s inp = dec_step 4096 n7 s inp /\
  (forall s' r o, dec_step 4096 n7 s inp = Ok (s', r, o) -> bytes r /\ sbud s' (m + 2)).
Proof.
  intros B Hm Bi. unfold dec_step. destruct inp as [|x rest]; [split; [reflexivity|]; intros s' r o H; injection H as <- <- <-; split; [exact Bi|eapply sbud_more; [exact B|lia]]|].
  inversion Bi as [|? ? Bx Br]; subst. pose proof B as (K & UL & TL & Ee). destruct (v_tr s) eqn:T.
  - destruct (v_escd s) eqn:ES.
    + destruct (x =? 0); [|destruct (x =? 1); [|destruct (x =? 2)]].
      * split; [reflexivity|]. intros s' r o H. injection H as <- <- <-. split; [exact Br|]. split; [eapply kbud_more; [eapply same_bud; [|exact K]; unfold same_d; auto|lia]|]. split; [reflexivity|]. split; [reflexivity|exact Ee].
      * cbv zeta. destruct (tries_same (set_esc (set_escd s false) ((v_esc (set_escd s false) + 51) mod 256)) (v_esc (set_escd s false)) m) as (E & Q); [|exact T|exact Ee|lia|].
        { split; [exact K|]. split; [exact UL|]. split; [exact (fun H => TL (eq_trans (eq_sym T) H))|cbn; unfold byte; lia]. }
        rewrite E. split; [reflexivity|]. intros s' r o H. destruct (two_tries 4096 n7 _ _) as [[[s1 o1] u]| |]; cbn [bind] in H; try discriminate. injection H as <- <- <-.
        split; [destruct u; assumption|exact (Q _ _ _ eq_refl)].
      * split; [reflexivity|]. intros s' r o H. injection H as <- <- <-. split; [exact Br|]. eapply sbud_more; [exact init_bud|lia].
      * split; [reflexivity|discriminate].
    + destruct (x =? v_esc s).
      * split; [reflexivity|]. intros s' r o H. injection H as <- <- <-. split; [exact Br|]. eapply sbud_more; [exact B|lia].
      * cbv zeta. destruct (tries_same s x m B T Bx ltac:(lia)) as (E & Q). rewrite E. split; [reflexivity|]. intros s' r o H. destruct (two_tries 4096 n7 _ _) as [[[s1 o1] u]| |]; cbn [bind] in H; try discriminate. injection H as <- <- <-.
        split; [destruct u; assumption|exact (Q _ _ _ eq_refl)].
  - specialize (TL eq_refl). destruct (fill _ _ _ _) as [[[bb bc] r0]| |] eqn:EF; cbn [bind]; try (split; [reflexivity|discriminate]). pose proof (fill_bytes _ _ _ _ _ _ _ EF Bi) as B0.
    destruct (bc <? v_c2 s). { split; [reflexivity|]. intros s' r o H. injection H as <- <- <-. split; [exact B0|]. eapply sbud_more; [exact B|lia]. }
    unfold need. destruct (v_c2 s <? 31) eqn:C31; [|split; [reflexivity|discriminate]]. cbv zeta. set (code := Z.land bb _ mod 65536).
    destruct (code =? 0); [|destruct (code =? 1); [|destruct (code =? 2)]].
    + split; [reflexivity|]. intros s' r o H. injection H as <- <- <-. split; [exact B0|]. split; [eapply kbud_more; [eapply same_bud; [|exact K]; unfold same_d; auto|lia]|]. split; [reflexivity|]. split; [reflexivity|exact Ee].
    + split; [reflexivity|]. intros s' r o H. injection H as <- <- <-. split; [exact B0|]. split; [eapply kbud_more; [exact K|lia]|]. split; [exact UL|]. split; [intros _; exact TL|exact Ee].
    + cbn [set_width set_bits v_c2]. assert (512 <= Z.shiftr n2 3) as S8. { rewrite Z.shiftr_div_pow2 by lia. change (2 ^ 3) with 8. lia. }
      replace (Z.shiftr n2 3 <? v_c2 s + 1) with false by lia. change (Z.shiftr 4096 3) with 512. replace (512 <? v_c2 s + 1) with false by lia.
      split; [reflexivity|]. intros s' r o H. injection H as <- <- <-. split; [exact B0|]. split; [eapply kbud_more; [exact K|lia]|]. split; [exact UL|]. split; [intros _; exact TL|exact Ee].
    + destruct (code_same (set_bits s (Z.shiftr bb (v_c2 s)) (bc - v_c2 s)) code m) as (E & Q); [|exact T|lia|].
      { split; [exact K|]. split; [exact UL|]. split; [intros _; exact TL|exact Ee]. }
      rewrite E. split; [reflexivity|]. intros s' r o H. destruct (codeword 4096 n7 _ code) as [[s1 o1]| |]; cbn [bind] in H; try discriminate. injection H as <- <- <-. split; [exact B0|exact (Q _ _ eq_refl)].
Qed.
Lemma dec_same fuel : forall s inp m, sbud s m -> 259 <= m -> m + 2 * Z.of_nat fuel <= 4095 -> bytes inp -> dec_loop fuel n2 n7 s inp = dec_loop fuel 4096 n7 s inp.
Proof.
  induction fuel as [|f IH]; intros s inp m B Hm H Bi; destruct inp as [|x inp]; try reflexivity. cbn [dec_loop].
  destruct (step_same s (x :: inp) m B ltac:(lia) Bi) as (E & Q). rewrite E. destruct (dec_step 4096 n7 s (x :: inp)) as [[[s1 r] o]| |]; cbn [bind]; try reflexivity.
  destruct (Q _ _ _ eq_refl) as (Q1 & Q2). rewrite (IH s1 r (m + 2) Q2); [reflexivity|lia|lia|exact Q1].
Qed.
End Wide.

Theorem wide_compress n2 n7 data : 4096 <= n2 -> zlen data <= 1918 -> compress n2 n7 data = compress 4096 n7 data.
Proof.
  intros H L. unfold compress. rewrite (compress_same n2 n7 H (length data) init data 259); [reflexivity|apply init_bud|unfold zlen in L; lia].
Qed.
Theorem wide_decompress n2 n7 inp : 4096 <= n2 -> zlen inp <= 1918 -> bytes inp -> decompress n2 n7 inp = decompress 4096 n7 inp.
Proof.
  intros H L B. unfold decompress. rewrite (dec_same n2 n7 H (length inp) init inp 259); [reflexivity|apply init_bud|lia|unfold zlen in L; lia|exact B].
Qed.

(** ** What is sent is octets *)
Definition obytes (s : vst) : Prop := bytes (v_str s) /\ byte (v_esc s).
Lemma drain_bytes n : forall bb, bytes (fst (drain n bb)).
Proof.
  induction n as [|n IH]; intros bb; cbn [drain]; [constructor|]. specialize (IH (Z.shiftr bb 8)). destruct (drain n (Z.shiftr bb 8)) as [l b]. cbn [fst] in *. constructor; [|exact IH].
  change 255 with (Z.ones 8). rewrite Z.land_ones by lia. change (2 ^ 8) with 256. unfold byte. lia.
Qed.
Lemma push_code_b s c : obytes s -> obytes (fst (push_code s c)) /\ bytes (snd (push_code s c)).
Proof. intros H. unfold push_code. cbv zeta. pose proof (drain_bytes (Z.to_nat ((v_bc s + v_c2 s) / 8)) (Z.lor (v_bb s) (Z.shiftl c (v_bc s)))) as D. destruct (drain _ _). split; [exact H|exact D]. Qed.
Lemma push_align_b s : obytes s -> obytes (fst (push_align s)) /\ bytes (snd (push_align s)).
Proof.
  intros H. unfold push_align. destruct (v_bc s mod 8 =? 0); [split; [exact H|constructor]|]. cbv zeta. pose proof (drain_bytes (Z.to_nat ((v_bc s + (8 - v_bc s mod 8)) / 8)) (v_bb s)) as D. destruct (drain _ _). split; [exact H|exact D].
Qed.
Lemma step_up_b fuel : forall s c s' o, obytes s -> step_up fuel s c = Ok (s', o) -> obytes s' /\ bytes o.
Proof.
  induction fuel as [|f IH]; intros s c s' o B H; cbn [step_up] in H; (destruct (c <? v_c3 s); [injection H as <- <-; split; [exact B|constructor]|]); [discriminate|].
  destruct (push_code_b s 2 B) as (P1 & P2). destruct (push_code s 2) as [s1 o1]. cbn [fst snd] in *. destruct (step_up f _ c) as [[s2 p]| |] eqn:E; cbn [bind] in H; try discriminate. injection H as <- <-.
  apply IH in E; [|exact P1]. destruct E as (Q1 & Q2). split; [exact Q1|]. apply Forall_app. auto.
Qed.
Lemma esc_octets_b w : forall e, bytes w -> byte e -> bytes (esc_octets e w).
Proof.
  induction w as [|x w IH]; intros e B H; cbn [esc_octets]; [constructor|]. inversion B; subst. destruct (x =? e); constructor; auto; [|apply IH; assumption].
  constructor; [unfold byte; lia|]. apply IH; [assumption|unfold byte; lia].
Qed.
Lemma send_b s c s' o : obytes s -> send_encoded s c = Ok (s', o) -> obytes s' /\ bytes o.
Proof.
  intros (B1 & B2). unfold send_encoded. cbv zeta. destruct (v_tr _).
  - intros H; injection H as <- <-. split; [split; [constructor|apply esc_byte; exact B2]|apply esc_octets_b; assumption].
  - destruct (step_up 16 _ c) as [[s1 o1]| |] eqn:E; cbn [bind]; try discriminate.
    apply step_up_b in E; [|split; [exact B1|apply esc_byte; exact B2]]. destruct E as (E1 & E2). destruct (push_code_b s1 c E1) as (P1 & P2). destruct (push_code s1 c) as [s2 p]. intros H. injection H as <- <-.
    split; [split; [constructor|apply P1]|]. apply Forall_app. auto.
Qed.
Lemma rest_b s s' o : obytes s -> send_rest s = Ok (s', o) -> obytes s' /\ bytes o.
Proof.
  intros B. unfold send_rest. destruct (d_lm (v_d s) =? 0); [intros H; injection H as <- <-; split; [exact B|constructor]|].
  destruct (send_encoded _ _) as [[s1 o1]| |] eqn:E; cbn [bind]; try discriminate. intros H. injection H as <- <-. apply send_b in E; [exact E|exact B].
Qed.
Lemma monitor_b s s' o : obytes s -> monitor s = Ok (s', o) -> obytes s' /\ bytes o.
Proof.
  intros B. unfold monitor, go_compressed, go_transparent. destruct (v_tr s) eqn:T; cbn [negb].
  - destruct (v_perf s <? 2048 - 11); [|intros H; injection H as <- <-; split; [exact B|constructor]]. destruct (send_rest s) as [[s1 o1]| |] eqn:E; cbn [bind]; try discriminate. intros H. injection H as <- <-.
    apply rest_b in E; [|exact B]. destruct E as ((E1 & E3) & E2). split; [split; assumption|]. apply Forall_app. split; [exact E2|]. constructor; [exact E3|]. constructor; [unfold byte; lia|constructor].
  - destruct (2048 <? v_perf s); [|intros H; injection H as <- <-; split; [exact B|constructor]]. destruct (send_rest s) as [[s1 o1]| |] eqn:E; cbn [bind]; try discriminate.
    apply rest_b in E; [|exact B]. destruct E as (E1 & E2). destruct (push_code_b (set_d s1 (set_la (v_d s1) 0)) 0 E1) as (P1 & P2). destruct (push_code _ 0) as [s2 p]. destruct (push_align_b s2 P1) as (Q1 & Q2). destruct (push_align s2) as [s3 q].
    intros H. injection H as <- <-. cbn [fst snd] in *. split; [exact Q1|]. apply Forall_app. split; [exact E2|]. apply Forall_app. auto.
Qed.
Lemma matching_b n7 buf : forall s s' o r, obytes s -> bytes buf -> matching n7 s buf = Ok (s', o, r) -> obytes s' /\ bytes o /\ bytes r.
Proof.
  induction buf as [|x buf IH]; intros s s' o r B Bb H; cbn [matching] in H; [injection H as <- <- <-; split; [exact B|split; constructor]|]. inversion Bb; subst.
  destruct (match_octet _ _ x) as [c| |]; cbn [bind] in H; try discriminate. destruct (c =? 0); [|destruct (c =? d_la (v_d s))].
  - destruct (send_encoded _ _) as [[s1 o1]| |] eqn:E; cbn [bind] in H; try discriminate. injection H as <- <- <-. apply send_b in E; [|exact B]. destruct E. auto.
  - destruct (send_encoded _ _) as [[s1 o1]| |] eqn:E; cbn [bind] in H; try discriminate. injection H as <- <- <-. apply send_b in E; [|exact B]. destruct E. auto.
  - unfold need in H. destruct (zlen (v_str s) <? 250); [|discriminate]. cbv zeta in H. assert (obytes (set_str (set_d s (set_lm (v_d s) c)) (v_str s ++ [x]))) as B'.
    { split; [apply Forall_app; split; [apply B|constructor; [assumption|constructor]]|apply B]. }
    destruct (zlen _ =? n7); [|exact (IH _ _ _ _ B' ltac:(assumption) H)].
    destruct (send_encoded _ _) as [[s1 o1]| |] eqn:E; cbn [bind] in H; try discriminate. injection H as <- <- <-. apply send_b in E; [|exact B']. destruct E. auto.
Qed.
Lemma compress_loop_b n2 n7 fuel : forall s buf s' o, obytes s -> bytes buf -> compress_loop fuel n2 n7 s buf = Ok (s', o) -> obytes s' /\ bytes o.
Proof.
  induction fuel as [|f IH]; intros s buf s' o B Bb H; (destruct buf as [|x buf]; [injection H as <- <-; split; [exact B|constructor]|]); [discriminate|]. cbn [compress_loop] in H.
  destruct (refresh n2 (v_d s) x) as [k| |]; cbn [bind] in H; try discriminate. destruct (matching n7 (set_d s k) (x :: buf)) as [[[s1 o1] rest]| |] eqn:M; cbn [bind] in H; try discriminate.
  destruct (monitor s1) as [[s2 p]| |] eqn:Mo; cbn [bind] in H; try discriminate. destruct (compress_loop f n2 n7 s2 rest) as [[s3 q]| |] eqn:E; cbn [bind] in H; try discriminate. injection H as <- <-.
  destruct (matching_b n7 _ (set_d s k) _ _ _ B Bb M) as (M1 & M2 & M3). destruct (monitor_b _ _ _ M1 Mo) as (N1 & N2). destruct (IH _ _ _ _ N1 M3 E) as (E1 & E2). split; [exact E1|]. apply Forall_app. split; [exact M2|]. apply Forall_app. auto.
Qed.
Lemma compress_bytes n2 n7 data o : bytes data -> compress n2 n7 data = Ok o -> bytes o.
Proof.
  intros B. unfold compress. destruct (compress_loop _ _ _ _ _) as [[s q]| |] eqn:E; cbn [bind]; try discriminate. apply compress_loop_b in E as (E1 & E2); [|split; [constructor|cbn; unfold byte; lia]|exact B].
  unfold compress_flush. destruct (negb _); cbn [bind].
  - intros H. injection H as <-. unfold slice. cbn [skipn]. rewrite <- (firstn_skipn (Z.to_nat (zlen q / 1024 * 1024)) q) in E2. apply Forall_app in E2 as (E2 & _). exact E2.
  - assert (forall s' r, (if d_lm (v_d s) =? 0 then Ok (s, []) else send_encoded s (d_lm (v_d s))) = Ok (s', r) -> obytes s' /\ bytes r) as Q.
    { intros s' r. destruct (d_lm (v_d s) =? 0); [intros H; injection H as <- <-; split; [exact E1|constructor]|apply send_b; exact E1]. }
    destruct (if d_lm (v_d s) =? 0 then _ else _) as [[s1 r]| |]; cbn [bind]; try discriminate. destruct (Q _ _ eq_refl) as (Q1 & Q2). destruct (v_tr s1).
    + cbn [bind]. intros H. injection H as <-. apply Forall_app. auto.
    + destruct (push_code_b s1 1 Q1) as (P1 & P2). destruct (push_code s1 1) as [s2 p]. destruct (push_align_b s2 P1) as (R1 & R2). destruct (push_align s2) as [s3 q2]. cbn [bind fst snd] in *. intros H. injection H as <-.
      apply Forall_app. split; [exact E2|]. apply Forall_app. split; [exact Q2|]. apply Forall_app. auto.
Qed.
