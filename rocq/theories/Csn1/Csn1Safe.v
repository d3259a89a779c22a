(** The check of Csn1Check.v is sound: decoding with a table that passes it never leaves the members. *)
From Coq Require Import ZArith List Bool Lia.
From Verif Require Import Lib.Base Csn1.Csn1Model Csn1.Csn1Check Csn1.Csn1Takes.
Import ListNotations.
Open Scope Z_scope.

Definition octets (m : mem) : Prop := forall x, 0 <= m x < 256.
Definition reg (lo hi x : Z) : Prop := lo <= x < hi.
(** [t] comes after [s] with only octets of the region [R] changed. *)
Definition within (R : Z -> Prop) (s t : cst) : Prop :=
  s_rem t <= s_rem s /\ octets (s_mem t) /\ (forall x, ~ R x -> s_mem t x = s_mem s x).
Definition good (R : Z -> Prop) (s : cst) (r : dres) : Prop :=
  match r with DOk t => within R s t | DErr _ => True | DUB => False end.

Lemma within_refl R s : octets (s_mem s) -> within R s s.
Proof. intros H; split; [lia|]; split; auto. Qed.
Lemma within_trans R s t u : within R s t -> within R t u -> within R s u.
Proof.
  intros (A & B & C) (D & E & F); split; [lia|]; split; auto.
  intros x Hx; rewrite F, C; auto.
Qed.
Lemma within_wide (R R' : Z -> Prop) s t : (forall x, R x -> R' x) -> within R s t -> within R' s t.
Proof. intros H1 (A & B & C); split; auto; split; auto. Qed.
Lemma good_wide (R R' : Z -> Prop) s r : (forall x, R x -> R' x) -> good R s r -> good R' s r.
Proof. destruct r; simpl; auto. intros; eapply within_wide; eauto. Qed.
Lemma good_bind R s r k :
  good R s r -> (forall t, within R s t -> good R t (k t)) -> good R s (bindd r k).
Proof.
  destruct r; simpl; auto. intros W H. specialize (H _ W).
  destruct (k s0); simpl in *; auto. eapply within_trans; eauto.
Qed.
Lemma good_step R s t r : within R s t -> good R t r -> good R s r.
Proof. destruct r; simpl; auto. intros; eapply within_trans; eauto. Qed.
(** Only the position changed. *)
Lemma good_from R s s' r :
  s_rem s' <= s_rem s -> s_mem s' = s_mem s -> good R s' r -> good R s r.
Proof.
  intros H1 H2. destruct r; simpl; auto. intros (A & B & C). split; [lia|]. split; auto. intros x Hx. rewrite C, H2; auto.
Qed.

Lemma upds_octets n : forall m a v, octets m -> octets (upds m a n v).
Proof.
  induction n as [|n IH]; intros m a v H; cbn [upds]; auto.
  apply IH. intros x. unfold upd1. destruct (x =? a); auto. apply Z.mod_pos_bound; lia.
Qed.
Lemma upds_out n : forall m a v x, x < a \/ a + Z.of_nat n <= x -> upds m a n v x = m x.
Proof.
  induction n as [|n IH]; intros m a v x H; cbn [upds]; auto.
  rewrite IH by lia. unfold upd1. destruct (Z.eqb_spec x a); lia || auto.
Qed.
Lemma upds_first m a v : upds m a 1 v a = v mod 256.
Proof. cbn [upds]. unfold upd1. rewrite Z.eqb_refl. reflexivity. Qed.

Lemma store_good lim base off room w k n v s :
  octets (s_mem s) -> 0 <= k -> k + Z.of_nat n <= w -> w <= room -> 0 <= base + off -> base + off + w <= lim ->
  store true lim base off room k n v s = DOk (set_mem s (upds (s_mem s) (base + off + k) n v)) /\
  good (reg (base + off) (base + off + w)) s (store true lim base off room k n v s).
Proof.
  intros H H1 H2 Hw H0 H3. unfold store.
  rewrite (proj2 (Z.leb_le 0 k)), (proj2 (Z.leb_le (k + _) room)), (proj2 (Z.leb_le 0 (base + off + k))),
    (proj2 (Z.leb_le _ lim)) by lia.
  cbn [andb negb orb]. split; auto. simpl. split; [simpl; lia|]. simpl. split; [apply upds_octets; auto|].
  intros x Hx; apply upds_out; unfold reg in Hx; lia.
Qed.
Lemma store_good' lim base off room w k n v s :
  octets (s_mem s) -> 0 <= k -> k + Z.of_nat n <= w -> w <= room -> 0 <= base + off -> base + off + w <= lim ->
  good (reg (base + off) (base + off + w)) s (store true lim base off room k n v s).
Proof. intros; eapply store_good; eauto. Qed.

Lemma rep_good R (f : Z -> cst -> dres) n : forall i s,
  octets (s_mem s) ->
  (forall j t, i <= j < i + Z.of_nat n -> octets (s_mem t) -> s_rem t <= s_rem s -> good R t (f j t)) ->
  good R s (rep n i f s).
Proof.
  induction n as [|n IH]; intros i s O H; cbn [rep].
  - apply within_refl; auto.
  - apply good_bind; [apply H; lia || auto|].
    intros t (A & B & C). apply IH; auto. intros j u Hj Ou Hu. apply H; auto; lia.
Qed.

Section Safe.
Variable bits : Z -> bool.
Variable nbits : Z.
Variable past : Z -> Z -> Z * Z.
Hypothesis past_range : forall ri n, 0 <= n -> 0 <= fst (past ri n) < 2 ^ n.

Lemma field_range n : forall i, 0 <= field bits i n < 2 ^ Z.of_nat n.
Proof.
  induction n as [|n IH]; intros i; cbn [field].
  - simpl. lia.
  - specialize (IH (i + 1)). rewrite Nat2Z.inj_succ, Z.pow_succ_r by lia. unfold b2z. destruct (bits i); lia.
Qed.
Lemma read_range ri n : 0 <= n -> 0 <= fst (read bits nbits past ri n) < 2 ^ n.
Proof.
  intros H. unfold read. destruct (Z.eqb_spec n 0) as [->|]; [simpl; lia|].
  destruct ((0 <=? ri) && (ri + n <=? nbits)); auto.
  cbn [fst]. pose proof (field_range (Z.to_nat n) ri). rewrite Z2Nat.id in *; auto.
Qed.

Lemma octet_good lim base off room w b i s :
  octets (s_mem s) -> 0 <= i -> i + 1 <= w -> w <= room -> 0 <= base + off -> base + off + w <= lim ->
  good (reg (base + off) (base + off + w)) s (octet true bits nbits past lim base off room b i s).
Proof.
  intros O H1 H2 Hw H0 H3. unfold octet. destruct (read _ _ _ _ _) as [v ri].
  eapply good_from with (s' := set_pos s (s_rem s) (s_off s) ri); [cbn [s_rem s_mem set_pos adv set_mem]; lia|reflexivity|].
  apply store_good'; auto.
Qed.
(** The octet, with the position moved afterwards. *)
Lemma octet_then lim base off room w b i s (g : cst -> cst) :
  octets (s_mem s) -> 0 <= i -> i + 1 <= w -> w <= room -> 0 <= base + off -> base + off + w <= lim ->
  (forall t, s_rem (g t) <= s_rem t /\ s_mem (g t) = s_mem t) ->
  good (reg (base + off) (base + off + w)) s (bindd (octet true bits nbits past lim base off room b i s) (fun t => DOk (g t))).
Proof.
  intros O H1 H2 Hw H0 H3 Hg. apply good_bind; [apply octet_good; auto|].
  intros t (A & B & C). destruct (Hg t) as [G1 G2]. simpl. split; [lia|]. rewrite G2. split; auto.
Qed.

(** The value a store leaves in the first octet of its member. *)
Lemma store_first lim base off room k v s t :
  store true lim base off room k 1 v s = DOk t -> s_mem t (base + off + k) = v mod 256.
Proof.
  unfold store. destruct (_ && _); [|discriminate]. intros H; injection H as <-. cbn [s_mem set_mem]. apply upds_first.
Qed.

Lemma dec_uint_good lim base b off room w null err s :
  octets (s_mem s) -> 0 <= b -> Z.of_nat (width b) <= w -> w <= room -> 0 <= base + off -> base + off + w <= lim ->
  good (reg (base + off) (base + off + w)) s (dec_uint true bits nbits past lim base b off room null err s).
Proof.
  intros O Hb H2 Hw H0 H3. unfold dec_uint. destruct (b <=? s_rem s).
  - destruct (32 <? b); [exact I|]. destruct (read _ _ _ _ _) as [v ri].
    eapply good_from with (s' := adv s b ri); [cbn [s_rem s_mem set_pos adv set_mem]; lia|reflexivity|]. apply store_good'; auto; lia.
  - destruct null; [|exact I]. apply store_good'; auto; lia.
Qed.
Lemma dec_uint_fact lim base b off room null err s t :
  0 <= b <= 8 -> dec_uint true bits nbits past lim base b off room null err s = DOk t -> s_mem t (base + off) <= 2 ^ b - 1.
Proof.
  intros Hb. unfold dec_uint. replace (width b) with 1%nat by (unfold width; rewrite (proj2 (Z.leb_le b 8)); lia || auto).
  assert (P : 2 ^ b <= 256) by (change 256 with (2 ^ 8); apply Z.pow_le_mono_r; lia).
  assert (P0 : 0 < 2 ^ b) by (apply Z.pow_pos_nonneg; lia).
  destruct (b <=? s_rem s).
  - destruct (32 <? b); [discriminate|]. pose proof (read_range (s_ri s) b ltac:(lia)) as R.
    destruct (read _ _ _ _ _) as [v ri]. cbn [fst] in R. intros H. apply store_first in H.
    rewrite Z.add_0_r in H. rewrite H, Z.mod_small by lia. lia.
  - destruct null; [|discriminate]. intros H. apply store_first in H. rewrite Z.add_0_r in H. rewrite H. cbn. lia.
Qed.
Lemma dec_uintoff_good lim base b off room w add s :
  octets (s_mem s) -> 0 <= b -> Z.of_nat (width b) <= w -> w <= room -> 0 <= base + off -> base + off + w <= lim ->
  good (reg (base + off) (base + off + w)) s (dec_uintoff true bits nbits past lim base b off room add s).
Proof.
  intros O Hb H2 Hw H0 H3. unfold dec_uintoff. destruct (b <=? s_rem s); [|exact I].
  destruct (32 <? b); [exact I|]. destruct (read _ _ _ _ _) as [v ri].
  eapply good_from with (s' := adv s b ri); [cbn [s_rem s_mem set_pos adv set_mem]; lia|reflexivity|]. apply store_good'; auto; lia.
Qed.
Lemma dec_uintoff_fact lim base b off room add s t :
  0 <= b <= 8 -> 0 <= add -> dec_uintoff true bits nbits past lim base b off room add s = DOk t ->
  s_mem t (base + off) <= 2 ^ b - 1 + add.
Proof.
  intros Hb Ha. unfold dec_uintoff. replace (width b) with 1%nat by (unfold width; rewrite (proj2 (Z.leb_le b 8)); lia || auto).
  destruct (b <=? s_rem s); [|discriminate].
  destruct (32 <? b); [discriminate|]. pose proof (read_range (s_ri s) b ltac:(lia)) as R.
  destruct (read _ _ _ _ _) as [v ri]. cbn [fst] in R. intros H. apply store_first in H.
  rewrite Z.add_0_r in H. rewrite H. pose proof (Z.mod_le (v + add) 256). lia.
Qed.
Lemma dec_uintlh_good lim base b off room w s :
  octets (s_mem s) -> 0 <= b -> 1 <= w -> w <= room -> 0 <= base + off -> base + off + w <= lim ->
  good (reg (base + off) (base + off + w)) s (dec_uintlh true bits nbits past lim base b off room s).
Proof.
  intros O Hb H2 Hw H0 H3. unfold dec_uintlh. destruct (b <=? s_rem s); [|exact I].
  destruct (8 <? b); [exact I|]. destruct (masked _ _ _ _ _ _) as [v ri].
  eapply good_from with (s' := adv s b ri); [cbn [s_rem s_mem set_pos adv set_mem]; lia|reflexivity|]. apply store_good'; auto; lia.
Qed.
Lemma dec_bit_good lim base off room w null s :
  octets (s_mem s) -> 1 <= w -> w <= room -> 0 <= base + off -> base + off + w <= lim ->
  good (reg (base + off) (base + off + w)) s (dec_bit true bits nbits past lim base off room null s).
Proof.
  intros O H2 Hw H0 H3. unfold dec_bit. destruct (0 <? s_rem s).
  - destruct (read _ _ _ _ _) as [v ri].
    eapply good_from with (s' := adv s 1 ri); [cbn [s_rem s_mem set_pos adv set_mem]; lia|reflexivity|]. apply store_good'; auto; lia.
  - destruct null; [|exact I].
    eapply good_from with (s' := adv s 1 (s_ri s)); [cbn [s_rem s_mem set_pos adv set_mem]; lia|reflexivity|]. apply store_good'; auto; lia.
Qed.
Lemma dec_uintarr_good un lim base b n off room w s :
  octets (s_mem s) -> 0 <= b -> 0 <= n -> (if b <=? 8 then n else 2 * n) <= w -> w <= room -> 0 <= base + off -> base + off + w <= lim ->
  good (reg (base + off) (base + off + w)) s (dec_uintarr true bits nbits past un lim base b n off room s).
Proof.
  intros O Hb Hn H2 Hw H0 H3. unfold dec_uintarr. destruct (b * n <=? s_rem s); [|exact I].
  assert (0 <= b * n) by (apply Z.mul_nonneg_nonneg; lia).
  cbv zeta. destruct (b <=? 8) eqn:E8.
  - eapply good_from with (s' := set_pos s (s_rem s - b * n) (s_off s) (s_ri s)); [cbn [s_rem s_mem set_pos adv set_mem]; lia|reflexivity|].
    apply rep_good; [exact O|]. intros j t Hj Ot _. rewrite Z2Nat.id in Hj by lia.
    apply octet_then; auto; try lia. intros; split; [simpl; lia|reflexivity].
  - destruct (un && (b <=? 16)); [|destruct (b <=? 32); exact I].
    eapply good_from with (s' := set_pos s (s_rem s - b * n) (s_off s) (s_ri s)); [cbn [s_rem s_mem set_pos adv set_mem]; lia|reflexivity|].
    apply rep_good; [exact O|]. intros j t Hj Ot _. rewrite Z2Nat.id in Hj by lia.
    destruct (read _ _ _ _ _) as [v ri].
    eapply good_from with (s' := set_pos t (s_rem t) (s_off t + b) ri); [cbn [s_rem s_mem set_pos adv set_mem]; lia|reflexivity|].
    apply store_good'; auto; lia.
Qed.
Lemma dec_bitmap_good lim base b off room w s :
  octets (s_mem s) -> (if b <=? 32 then 4 else 8) <= w -> w <= room -> 0 <= base + off -> base + off + w <= lim ->
  good (reg (base + off) (base + off + w)) s (dec_bitmap true bits nbits past lim base b off room s).
Proof.
  intros O H2 Hw H0 H3. unfold dec_bitmap. destruct (Z.ltb_spec 0 b) as [E0|]; [|apply within_refl; auto].
  destruct (s_rem s <? b); [exact I|]. destruct (64 <? b); [exact I|].
  apply good_bind.
  - apply rep_good; auto. intros j t Hj Ot _. apply octet_good; auto; destruct (b <=? 32); lia.
  - intros t (A & B & C). simpl. split; [simpl; lia|]. split; auto.
Qed.
Lemma dec_bitmap_u_good lim base b off room w s :
  octets (s_mem s) -> (if b <=? 32 then 4 else 8) <= w -> w <= room -> 0 <= base + off -> base + off + w <= lim ->
  good (reg (base + off) (base + off + w)) s (dec_bitmap_u true bits nbits past lim base b off room s).
Proof.
  intros O H2 Hw H0 H3. unfold dec_bitmap_u. destruct (Z.ltb_spec 0 b) as [E0|]; [|apply within_refl; auto].
  destruct (s_rem s <? b); [exact I|]. destruct (64 <? b); [exact I|].
  destruct (read _ _ _ _ _) as [v ri].
  eapply good_from with (s' := adv s b ri); [cbn [s_rem s_mem set_pos adv set_mem]; lia|reflexivity|].
  apply store_good'; auto; destruct (b <=? 32); lia.
Qed.

(** The bitmap itself, after the length is known. *)
Lemma varbmp_good (la : bool) lim base off room n s :
  octets (s_mem s) -> 0 <= n -> (n + 7) / 8 <= room -> 0 <= base + off -> base + off + room <= lim ->
  let partial (i : Z) (s : cst) :=
    if 0 <? n mod 8 then bindd (octet true bits nbits past lim base off room (n mod 8) i s)
                          (fun s => DOk (set_pos s (s_rem s) (s_off s + n mod 8) (s_ri s)))
    else DOk s in
  good (reg (base + off) (base + off + room)) s
    (if la then bindd (rep (Z.to_nat (n / 8)) 0 (octet true bits nbits past lim base off room 8) s) (partial (n / 8))
     else bindd (partial 0 s) (rep (Z.to_nat (n / 8)) (if 0 <? n mod 8 then 1 else 0) (octet true bits nbits past lim base off room 8))).
Proof.
  intros O Hn Hr H0 Hl partial.
  assert (D : n / 8 <= (n + 7) / 8) by (apply Z.div_le_mono; lia).
  assert (D' : 0 < n mod 8 -> n / 8 + 1 <= (n + 7) / 8).
  { intros Hm. replace (n / 8 + 1) with ((n / 8 * 8 + 1 * 8) / 8) by (rewrite Z.div_add, Z.div_mul; lia).
    apply Z.div_le_mono; [lia|]. pose proof (Z.div_mod n 8 ltac:(lia)). lia. }
  assert (P : forall i t, 0 <= i -> i <= n / 8 -> octets (s_mem t) -> good (reg (base + off) (base + off + room)) t (partial i t)).
  { intros i t Hi1 Hi2 Ot. unfold partial. destruct (Z.ltb_spec 0 (n mod 8)); [|apply within_refl; auto].
    apply octet_then; auto; try lia. intros; split; [simpl; lia|reflexivity]. }
  assert (0 <= n / 8) by (apply Z.div_pos; lia).
  destruct la.
  - apply good_bind.
    + apply rep_good; auto. intros j t Hj Ot _. rewrite Z2Nat.id in Hj by lia. apply octet_good; auto; lia.
    + intros t (A & B & C). apply P; auto; lia.
  - apply good_bind; [apply P; auto; lia|]. intros t (A & B & C).
    apply rep_good; auto. intros j t' Hj Ot _. rewrite Z2Nat.id in Hj by lia.
    apply octet_good; auto; destruct (Z.ltb_spec 0 (n mod 8)); lia.
Qed.
Lemma dec_vararr_good lim base add coff off room rm mx s :
  octets (s_mem s) -> s_rem s <= rm -> s_mem s (base + coff) <= mx -> Z.min (mx + add) (rm / 8) <= room ->
  0 <= base + off -> base + off + room <= lim ->
  good (reg (base + off) (base + off + room)) s (dec_vararr true bits nbits past lim base add coff off room s).
Proof.
  intros O Hrm Hmx Hr H0 Hl. unfold dec_vararr. cbv zeta. set (n := s_mem s (base + coff) + add) in *.
  destruct (Z.ltb_spec 0 n); [|apply within_refl; auto].
  destruct (Z.ltb_spec (s_rem s - 8 * n) 0); [exact I|].
  assert (n <= rm / 8) by (apply Z.div_le_lower_bound; lia).
  eapply good_from with (s' := set_pos s (s_rem s - 8 * n) (s_off s) (s_ri s)); [cbn [s_rem s_mem set_pos adv set_mem]; lia|reflexivity|].
  apply rep_good; [exact O|]. intros j t Hj Ot _. rewrite Z2Nat.id in Hj by lia.
  apply octet_then; auto; try lia. intros; split; [simpl; lia|reflexivity].
Qed.
Lemma dec_pad_good R s : octets (s_mem s) -> good R s (dec_pad s).
Proof.
  intros O. unfold dec_pad. destruct (Z.ltb_spec 0 (s_rem s)); [|apply within_refl; auto].
  simpl. split; [simpl; lia|]. split; auto.
Qed.
Lemma dec_fixed_good R b v s : octets (s_mem s) -> 0 <= b -> good R s (dec_fixed bits nbits past b v s).
Proof.
  intros O Hb. unfold dec_fixed. destruct (32 <? b); [exact I|]. destruct (read _ _ _ _ _) as [x ri].
  destruct (x =? v); [|exact I]. simpl. split; [simpl; lia|]. split; auto.
Qed.
Lemma union_index_spec lh n : forall ix s,
  let '(_, t) := union_index bits nbits past n lh ix s in s_rem t <= s_rem s /\ s_mem t = s_mem s.
Proof.
  induction n as [|n IH]; intros ix s; cbn [union_index]; [split; [lia|reflexivity]|].
  destruct (if lh then masked bits nbits past (s_ri s) (s_off s) 1 else read bits nbits past (s_ri s) 1) as [v ri].
  specialize (IH (2 * ix + v mod 2) (adv s 1 ri)). destruct (union_index _ _ _ n _ _ _) as [a t].
  destruct IH as [A B]. simpl in A, B. split; [lia|auto].
Qed.

(** Two regions. *)
Definition reg2 (lo hi lo' hi' x : Z) : Prop := reg lo hi x \/ reg lo' hi' x.

Lemma dec_varbmp_good la toend lim base add coff off room rm mx s :
  octets (s_mem s) -> s_rem s <= rm -> (toend = false -> s_mem s (base + coff) <= mx) -> (toend = true -> 255 <= mx) ->
  (Z.min (mx + add) rm + 7) / 8 <= room ->
  0 <= base + off -> base + off + room <= lim -> (toend = true -> 0 <= base + coff /\ base + coff + 1 <= lim) ->
  good (reg2 (base + off) (base + off + room) (base + coff) (base + coff + if toend then 1 else 0)) s
    (dec_varbmp true bits nbits past la toend lim base add coff off room s).
Proof.
  intros O Hrm Hmx Hte Hr H0 Hl Hc. unfold dec_varbmp.
  assert (K : forall t, octets (s_mem t) -> s_rem t <= rm -> s_mem t (base + coff) <= mx ->
    good (reg2 (base + off) (base + off + room) (base + coff) (base + coff + if toend then 1 else 0)) t
      ((fun s => let n := s_mem s (base + coff) + add in
        if 0 <? n then
          if s_rem s - n <? 0 then DErr NEED_MORE
          else
            let s := set_pos s (s_rem s - n) (s_off s) (s_ri s) in
            let q := n / 8 in let p := n mod 8 in
            let partial (i : Z) (s : cst) :=
              if 0 <? p then bindd (octet true bits nbits past lim base off room p i s)
                              (fun s => DOk (set_pos s (s_rem s) (s_off s + p) (s_ri s)))
              else DOk s in
            if la then bindd (rep (Z.to_nat q) 0 (octet true bits nbits past lim base off room 8) s) (partial q)
            else bindd (partial 0 s) (rep (Z.to_nat q) (if 0 <? p then 1 else 0) (octet true bits nbits past lim base off room 8))
        else DOk s) t)).
  { intros t Ot Ht Hm. cbv beta zeta. set (n := s_mem t (base + coff) + add) in *.
    destruct (Z.ltb_spec 0 n) as [Hn|]; [|apply within_refl; auto].
    destruct (Z.ltb_spec (s_rem t - n) 0); [exact I|].
    eapply good_from with (s' := set_pos t (s_rem t - n) (s_off t) (s_ri t)); [cbn [s_rem s_mem set_pos adv set_mem]; lia|reflexivity|].
    eapply good_wide; [intros x Hx; left; exact Hx|].
    apply (varbmp_good la lim base off room n); auto; try lia. }
  destruct toend.
  - specialize (Hte eq_refl). specialize (Hc eq_refl).
    destruct (store_good lim base coff 1 1 0 1 (s_rem s) s O ltac:(lia) ltac:(lia) ltac:(lia) ltac:(lia) ltac:(lia)) as [E G].
    rewrite E in *. cbn [bindd]. cbn [good] in G.
    set (t := set_mem s _) in *. destruct G as (A & B & C).
    specialize (K t B ltac:(lia) ltac:(pose proof (B (base + coff)); lia)).
    eapply good_step; [|exact K]. eapply within_wide; [|split; [exact A|]; split; [exact B|exact C]].
    intros x Hx; right; exact Hx.
  - cbn [bindd]. apply (K s); auto.
Qed.

Lemma dec_recarr_good lim base b coff off room rm : 0 <= b -> 0 <= rm -> rm / (b + 1) + 1 <= room ->
  0 <= base + off -> base + off + room <= lim -> 0 <= base + coff -> base + coff + 1 <= lim -> forall fuel i s,
  octets (s_mem s) -> 0 <= i -> s_rem s + i * (b + 1) <= rm -> (Z.to_nat (s_rem s) < fuel)%nat -> i * (b + 1) <= rm ->
  good (reg2 (base + off) (base + off + room) (base + coff) (base + coff + 1)) s
    (dec_recarr true bits nbits past fuel lim base b coff off room i s).
Proof.
  intros Hb Hrm0 Hr H0 Hl H0' Hc. induction fuel as [|fuel IH]; intros i s O Hi Hrm Hf Hp; [lia|]. cbn [dec_recarr]. cbv zeta.
  destruct (tag bits nbits (s_ri s)) eqn:Et.
  - eapply good_from with (s' := set_pos s (s_rem s - 1) (s_off s + 1) (s_ri s + 1)); [cbn [s_rem set_pos]; lia|reflexivity|].
    assert (i + 1 <= room).
    { enough (i <= rm / (b + 1)) by lia. apply Z.div_le_lower_bound; lia. }
    apply good_bind.
    + eapply good_wide; [intros x Hx; left; exact Hx|]. apply octet_good; auto; lia.
    + intros t (A & B & C). cbn [s_rem set_pos s_mem] in A, C.
      destruct (Z.ltb_spec (s_rem t - b) 0); [exact I|].
      eapply good_from with (s' := adv t b (s_ri t)); [cbn [s_rem adv]; lia|reflexivity|].
      apply IH; cbn [s_rem s_mem adv]; auto; lia.
  - eapply good_from with (s' := adv s 1 (s_ri s + 1)); [cbn [s_rem adv]; lia|reflexivity|].
    eapply good_wide; [|apply store_good' with (room := 1) (w := 1); auto; lia]. intros x Hx; right; exact Hx.
Qed.

Lemma rec_elems_good lim base coff cap (R : Z -> Prop) (elem : Z -> cst -> dres) rm : 0 <= base + coff -> base + coff + 1 <= lim ->
  (forall x, reg (base + coff) (base + coff + 1) x -> R x) ->
  (forall j t, 0 <= j < cap -> octets (s_mem t) -> s_rem t <= rm -> good R t (elem j t)) ->
  forall fuel i s, octets (s_mem s) -> 0 <= i -> s_rem s <= rm -> (Z.to_nat (cap - i) < fuel)%nat ->
  good R s (rec_elems true bits nbits fuel lim base coff cap i elem s).
Proof.
  intros H0 Hc HR He. induction fuel as [|fuel IH]; intros i s O Hi Hrm Hf; [lia|]. cbn [rec_elems].
  destruct (tag bits nbits (s_ri s)) eqn:Et.
  - cbv zeta. destruct (Z.ltb_spec cap (i + 1)); [exact I|].
    eapply good_from with (s' := adv s 1 (s_ri s + 1)); [cbn [s_rem adv]; lia|reflexivity|].
    apply good_bind; [apply He; cbn [s_rem s_mem adv]; auto; lia|].
    intros t (A & B & C). cbn [s_rem adv] in A. destruct (s_rem t <? 0); [exact I|]. apply IH; auto; lia.
  - eapply good_from with (s' := adv s 1 (s_ri s + 1)); [cbn [s_rem adv]; lia|reflexivity|].
    eapply good_wide; [exact HR|]. apply store_good' with (room := 1) (w := 1); auto; lia.
Qed.
Lemma rec_elems1_good lim base coff cap (R : Z -> Prop) (elem : Z -> cst -> dres) rm : 0 <= base + coff -> base + coff + 1 <= lim ->
  (forall x, reg (base + coff) (base + coff + 1) x -> R x) ->
  (forall j t, 0 <= j < cap -> octets (s_mem t) -> s_rem t <= rm -> good R t (elem j t)) ->
  forall fuel i s, octets (s_mem s) -> 0 <= i -> s_rem s <= rm -> (Z.to_nat (cap - i) < fuel)%nat ->
  good R s (rec_elems1 true bits nbits fuel lim base coff cap i elem s).
Proof.
  intros H0 Hc HR He. induction fuel as [|fuel IH]; intros i s O Hi Hrm Hf; [lia|]. cbn [rec_elems1].
  destruct (Z.ltb_spec cap (i + 1)); [exact I|].
  apply good_bind; [apply He; auto; lia|].
  intros t (A & B & C). destruct (s_rem t <? 0); [exact I|]. cbv zeta.
  eapply good_from with (s' := adv t 1 (s_ri t + 1)); [cbn [s_rem adv]; lia|reflexivity|].
  destruct (tag bits nbits (s_ri t)).
  - apply IH; cbn [s_rem s_mem adv]; auto; lia.
  - eapply good_wide; [exact HR|]. apply store_good' with (room := 1) (w := 1); auto; lia.
Qed.
Lemma dec_callback_good lim base c p1 p2 room s :
  octets (s_mem s) -> (match c with CbTddInfo _ => True | _ => 0 <= base + p2 /\ base + p2 + room <= lim end) ->
  match c with
  | CbFreqDiff n stride doff => 0 <= doff /\ 0 <= stride /\ (n - 1) * stride + doff + 1 <= room
  | CbTddMap => 1 <= room
  | CbTddInfo _ => True
  end ->
  good (reg (base + p2) (base + p2 + room)) s (dec_callback true bits nbits past lim base c p1 p2 room s).
Proof.
  intros O Hl H. destruct c as [n stride doff| |boff]; cbn [dec_callback].
  - destruct H as (H1 & H2 & H3). apply rep_good; auto. intros j t Hj Ot _.
    assert (Hn : 0 <= j <= n - 1) by lia.
    assert (j * stride <= (n - 1) * stride) by (apply Z.mul_le_mono_nonneg_r; lia).
    assert (0 <= j * stride) by (apply Z.mul_nonneg_nonneg; lia).
    apply store_good'; auto; lia.
  - apply store_good'; auto; lia.
  - cbv zeta. cbn [good]. split; [|split; auto]. cbn [s_rem adv].
    match goal with |- context [?x mod 65536] => pose proof (Z.mod_pos_bound x 65536 ltac:(lia)) end. lia.
Qed.

(** *** The induction over a table *)
Definition fok (base : Z) (fs : facts) (m : mem) : Prop := Forall (fun f => m (base + fst f) <= snd f) fs.
(** What the mode may be at an entry. *)
Definition mok (alt : bool) (S base lim : Z) (fs : facts) (gs : list nat) (u : nat) (md : mode) (m : mem) : Prop :=
  match md with
  | Skip O => alt = false /\ u = O /\ fok base fs m
  | Skip (Datatypes.S n) => alt = false /\ In (Datatypes.S n) gs /\ (u <= Datatypes.S n)%nat
  | Sel k n => alt = false /\ (k < n)%nat /\ In n gs /\ u = n
  | Alts _ off room => alt = true /\ 0 <= off /\ off + room <= S /\ 1 <= room
  end.

Lemma fok_kill base off room fs (m m' : mem) :
  fok base fs m -> (forall x, ~ reg (base + off) (base + off + room) x -> m' x = m x) -> fok base (kill off room fs) m'.
Proof.
  unfold fok, kill. intros H E. rewrite Forall_forall in *. intros f Hf. apply filter_In in Hf as [Hf Hk].
  rewrite E; [apply H; auto|]. unfold reg. apply orb_true_iff in Hk. rewrite Z.ltb_lt, Z.leb_le in Hk. lia.
Qed.
Lemma fok_bound base fs m c : octets m -> fok base fs m -> m (base + c) <= bound fs c.
Proof.
  intros O H. unfold bound. destruct (find _ fs) as [f|] eqn:E; [|pose proof (O (base + c)); lia].
  apply find_some in E as [E1 E2]. apply Z.eqb_eq in E2. subst c.
  unfold fok in H. rewrite Forall_forall in H. specialize (H _ E1). pose proof (O (base + fst f)). lia.
Qed.
Lemma keep_fok base gs fs m : fok base fs m -> fok base (keep gs fs) m.
Proof. unfold keep. destruct (existsb _ gs); auto. intros _; constructor. Qed.
Lemma pass_in n gs : In (S n) gs -> n <> O -> In n (pass gs).
Proof.
  intros H Hn. unfold pass. apply filter_In. split; [apply in_map_iff; exists (S n); auto|].
  destruct n; [lia|reflexivity].
Qed.
Lemma keep_nil gs fs : In 1%nat gs -> keep gs fs = [].
Proof.
  intros H. unfold keep. replace (existsb _ gs) with true; auto. symmetry. apply existsb_exists.
  exists 1%nat; auto.
Qed.
(** One entry passed over in a skip, or the rest of a union skipped. *)
Lemma mok_skip S base lim fs fs' gs u n m :
  In (Datatypes.S n) gs -> (u <= Datatypes.S n)%nat -> fs' = keep gs fs ->
  mok false S base lim fs' (pass gs) (pred u) (Skip n) m.
Proof.
  intros H Hu ->. destruct n as [|n]; cbn [mok].
  - split; auto. split; [lia|]. rewrite keep_nil by auto. constructor.
  - split; auto. split; [apply pass_in; auto|lia].
Qed.
Lemma mok_skip0 S base lim gs u n m : In (Datatypes.S n) gs -> (u <= Datatypes.S n)%nat ->
  mok false S base lim [] (pass gs) (pred u) (Skip n) m.
Proof.
  intros H Hu. destruct n as [|n]; cbn [mok].
  - split; auto. split; [lia|]. constructor.
  - split; auto. split; [apply pass_in; auto|lia].
Qed.
Lemma mok_run S base lim fs gs u m : u = O -> fok base fs m -> mok false S base lim fs gs (pred u) (Skip 0) m.
Proof. intros -> H. cbn [mok]. auto. Qed.
Lemma mok_sel S base lim fs gs u k n m :
  (Datatypes.S k < n)%nat -> In n gs -> u = n -> mok false S base lim fs (pass gs) (pred u) (Sel k (n - 1)) m.
Proof.
  intros Hk H ->. cbn [mok]. split; auto. destruct n as [|n]; [lia|]. cbn [pred]. rewrite Nat.sub_succ, Nat.sub_0_r.
  split; [lia|]. split; auto. apply pass_in; auto; lia.
Qed.

Notation DEC := (dec true bits nbits past).
Lemma less_open n gs u rm c : In n gs -> less gs u rm c = rm.
Proof. destruct gs; [intros []|reflexivity]. Qed.
Lemma less_in_union gs n rm c : less gs (Datatypes.S n) rm c = rm.
Proof. destruct gs; reflexivity. Qed.
Lemma less_nn gs u rm c : 0 <= rm -> 0 <= less gs u rm c.
Proof. destruct gs; [destruct u|]; cbn [less]; lia. Qed.
Lemma less_run gs u rm c a b : 0 <= c -> b <= rm -> a <= b - c -> a <= less gs u rm c.
Proof. destruct gs; [destruct u|]; cbn [less]; lia. Qed.
Lemma took_fact s c r t : r = DOk t -> took s c r -> s_rem t <= s_rem s - c.
Proof. intros ->. exact (fun H => H). Qed.
Lemma takes_nn d : 0 <= takes d.
Proof. unfold takes. destruct (pos d) eqn:E; [apply mins_nn; auto|lia]. Qed.
Lemma control_ok (S base lim rm rm' : Z) fs gs u fs' gs' u' md s r run uni :
  (forall md s, mok false S base lim fs' gs' u' md (s_mem s) -> octets (s_mem s) -> s_rem s <= rm' ->
     good (reg base (base + S)) s (DEC lim base r md s)) ->
  mok false S base lim fs gs u md (s_mem s) -> octets (s_mem s) -> s_rem s <= rm ->
  (forall n, In n gs -> rm' = rm) ->
  (forall n, In (Datatypes.S n) gs -> (u <= Datatypes.S n)%nat -> mok false S base lim fs' gs' u' (Skip n) (s_mem s)) ->
  (forall k n, (Datatypes.S k < n)%nat -> In n gs -> u = n -> mok false S base lim fs' gs' u' (Sel k (n - 1)) (s_mem s)) ->
  (u = O -> fok base fs (s_mem s) -> good (reg base (base + S)) s run) ->
  (forall n, u = Datatypes.S n -> In (Datatypes.S n) gs -> good (reg base (base + S)) s (uni n)) ->
  good (reg base (base + S)) s (control md s (DEC lim base r) run uni).
Proof.
  intros IH Hm O Hrm Hopen Hskip Hsel Hrun Huni.
  destruct md as [[|n]|[|k] n|i off room]; cbn [mok] in Hm; cbn [control].
  - destruct Hm as (_ & Hu & Hf). auto.
  - destruct Hm as (_ & Hi & Hu). apply IH; auto. rewrite (Hopen _ Hi). lia.
  - destruct Hm as (_ & Hk & Hi & Hu). apply Huni; destruct n; try lia; cbn; rewrite ?Nat.sub_0_r; auto.
  - destruct Hm as (_ & Hk & Hi & Hu). apply IH; auto. rewrite (Hopen _ Hi). lia.
  - destruct Hm as (A & _). discriminate.
Qed.
Lemma after_ok (R R' : Z -> Prop) s e k : (forall x, R x -> R' x) -> good R s e ->
  (forall t, e = DOk t -> within R s t -> good R' t (k t)) -> good R' s (after e k).
Proof.
  intros HR He Hk. unfold after, bindd. destruct e as [t|c|]; cbn [good] in *; auto.
  destruct (s_rem t <? 0); [exact I|]. specialize (Hk t eq_refl He).
  eapply good_step; [eapply within_wide; [exact HR|exact He]|exact Hk].
Qed.
Lemma call_ok R f s : good R s (f s) -> good R s (call f s).
Proof. unfold call. destruct (s_rem s <? 0); auto. intros _; exact I. Qed.
Lemma no_union_ok R s n : good R s (no_union n).
Proof. exact I. Qed.
Lemma bound_255 fs c : bound fs c <= 255.
Proof. unfold bound. destruct (find _ fs); lia. Qed.
Lemma bound_nn fs c m base : octets m -> fok base fs m -> 0 <= bound fs c.
Proof. intros O H. pose proof (fok_bound base fs m c O H). pose proof (O (base + c)). lia. Qed.

Ltac ba := unfold wr, inside in *; repeat match goal with
  | H : _ && _ = true |- _ => apply andb_true_iff in H; destruct H
  | H : negb (negb _) = true |- _ => rewrite negb_involutive in H
  | H : negb _ = true |- _ => apply negb_true_iff in H
  | H : (_ <=? _) = true |- _ => apply Z.leb_le in H
  | H : Nat.eqb _ _ = true |- _ => apply Nat.eqb_eq in H
  end.
(** The cases in which the entry is passed over, for an entry after which [fs0] is still known. *)
Ltac std IH gs u fs0 :=
  eapply control_ok with (fs' := keep gs fs0) (gs' := pass gs) (u' := pred u);
  [ intros; eapply IH; first [eassumption | apply less_nn; assumption]
  | eassumption | assumption | eassumption
  | intros; solve [reflexivity | eapply less_open; eassumption]
  | intros; eapply mok_skip; eauto | intros; eapply mok_sel; eauto | | ].
Ltac next IH fs0 tac := eapply IH; [eassumption|tac|assumption|lia|assumption|assumption].
(** An entry that cannot stand in a union. *)
Ltac nou := let n := fresh in let H := fresh in intros n H; subst; discriminate.

Theorem dec_safe d : forall alt rm S fs gs u lim base md s,
  chk alt rm S fs gs u d = true -> mok alt S base lim fs gs u md (s_mem s) -> octets (s_mem s) ->
  s_rem s <= rm -> 0 <= rm -> base + S <= lim -> 0 <= base ->
  good (reg base (base + S)) s (DEC lim base d md s).
Proof.
  induction d as [ | off room null r IH | n r IH | b off room null r IH | b off room add r IH | b off room r IH
    | b n off room r IH | c off room stride sub IHs r IH | b off room r IH | off room null sub IHs r IH
    | off room alts IHa r IH | b v kp one IHo r IH | lb off room sub IHs r IH | lh n off room r IH | lh off room r IH
    | lh n off room null r IH | la te add co off room r IH | r IH | add co off room r IH | b co off room r IH
    | fi co off room stride cap sub IHs r IH | b v r IH | c p1 p2 room r IH | code r IH ];
  intros alt rm S fs gs u lim base md s Hc Hm O Hrm Hrm0 Hlim Hb0; cbn [chk] in Hc; cbv zeta in Hc; cbn [dec]; unfold inner.
  - (* DEnd *)
    destruct alt; cbn [orb] in Hc.
    + destruct md as [[|m]|k m|i o ro]; cbn [mok] in Hm; try (destruct Hm; discriminate). exact I.
    + apply andb_true_iff in Hc as [Hg Hu]. destruct gs; [|discriminate].
      destruct md as [[|m]|k m|i o ro]; cbn [mok] in Hm.
      * apply within_refl; auto.
      * destruct Hm as (_ & [] & _).
      * destruct Hm as (_ & _ & [] & _).
      * destruct Hm; discriminate.
  - (* DBit *)
    ba. subst alt. std IH gs u (kill off 1 fs).
    + intros Hu Hf. eapply after_ok with (R := reg (base + off) (base + off + 1)).
      * unfold reg; lia.
      * apply dec_bit_good; auto; lia.
      * intros t Et (A & B & C). pose proof (took_fact _ _ _ _ Et (took_bit _ _ _ _ _ _ _ _ _ _)) as T.
        eapply IH; eauto; [|eapply less_run; [|exact Hrm|exact T]; lia|apply less_nn; lia]. apply mok_run; auto. apply keep_fok. eapply fok_kill; eauto.
    + intros n Hu Hi. eapply after_ok with (R := reg (base + off) (base + off + 1)).
      * unfold reg; lia.
      * destruct (read bits nbits past (s_ri s) 1) as [v ri].
        eapply good_from with (s' := adv s 1 ri); [cbn [s_rem adv]; lia|reflexivity|].
        apply store_good'; auto; lia.
      * intros t _ (A & B & C). rewrite (less_open _ _ u rm 1 Hi) in *. eapply IH; eauto; [|lia]. eapply mok_skip; eauto; lia.
  - (* DNull *)
    ba. subst alt. cbv zeta. std IH gs u (kill 0 0 fs).
    + intros Hu Hf. eapply after_ok with (R := reg (base + 0) (base + 0 + 0)).
      * unfold reg; lia.
      * split; [cbn [s_rem set_pos]; lia|]. split; auto.
      * intros t _ (A & B & C). eapply IH; eauto; [|lia]. apply mok_run; auto. apply keep_fok. eapply fok_kill; eauto.
    + intros m Hu Hi. eapply after_ok with (R := reg base base).
      * unfold reg; lia.
      * split; [cbn [s_rem set_pos]; lia|]. split; auto.
      * intros t _ (A & B & C). eapply IH; eauto; [|lia]. eapply mok_skip; eauto; lia.
  - (* DUint *)
    ba. subst alt. std IH gs u ((if b <=? 8 then [(off, 2 ^ b - 1)] else []) ++ kill off (Z.of_nat (width b)) fs).
    + intros Hu Hf. eapply after_ok with (R := reg (base + off) (base + off + (Z.of_nat (width b)))).
      * unfold reg; lia.
      * apply dec_uint_good; auto; lia.
      * intros t Et (A & B & C). pose proof (took_fact _ _ _ _ Et (took_uint true bits nbits past lim base b off room null NEED_MORE s ltac:(assumption))) as T.
        eapply IH; eauto; [|eapply less_run; [|exact Hrm|exact T]; destruct null; lia|apply less_nn; lia]. apply mok_run; auto. apply keep_fok. apply Forall_app. split.
        -- destruct (Z.leb_spec b 8); [|constructor]. constructor; [|constructor]. cbn [fst snd].
           eapply dec_uint_fact; eauto.
        -- eapply fok_kill; eauto.
    + intros m Hu Hi. eapply after_ok with (R := reg (base + off) (base + off + (Z.of_nat (width b)))).
      * unfold reg; lia.
      * apply dec_uint_good; auto; lia.
      * intros t _ (A & B & C). rewrite (less_open _ _ u rm _ Hi) in *. eapply IH; eauto; [|lia]. eapply mok_skip; eauto; lia.
  - (* DUintOff *)
    ba. subst alt. cbv zeta. std IH gs u ((if b <=? 8 then [(off, 2 ^ b - 1 + add)] else []) ++ kill off (Z.of_nat (width b)) fs).
    + intros Hu Hf. eapply after_ok with (R := reg (base + off) (base + off + (Z.of_nat (width b)))).
      * unfold reg; lia.
      * apply dec_uintoff_good; auto; lia.
      * intros t Et (A & B & C). eapply IH; eauto; [|lia]. apply mok_run; auto. apply keep_fok. apply Forall_app. split.
        -- destruct (Z.leb_spec b 8); [|constructor]. constructor; [|constructor]. cbn [fst snd].
           eapply dec_uintoff_fact; eauto.
        -- eapply fok_kill; eauto.
    + intros m Hu Hi. eapply after_ok with (R := reg (base + off) (base + off + (Z.of_nat (width b)))).
      * unfold reg; lia.
      * apply dec_uintoff_good; auto; lia.
      * intros t _ (A & B & C). eapply IH; eauto; [|lia]. eapply mok_skip; eauto; lia.
  - (* DUintLH *)
    ba. subst alt. cbv zeta. std IH gs u (kill off 1 fs).
    + intros Hu Hf. eapply after_ok with (R := reg (base + off) (base + off + 1)).
      * unfold reg; lia.
      * apply dec_uintlh_good; auto; lia.
      * intros t _ (A & B & C). eapply IH; eauto; [|lia]. apply mok_run; auto. apply keep_fok. eapply fok_kill; eauto.
    + intros m Hu Hi. eapply after_ok with (R := reg (base + off) (base + off + 1)).
      * unfold reg; lia.
      * apply dec_uintlh_good; auto; lia.
      * intros t _ (A & B & C). eapply IH; eauto; [|lia]. eapply mok_skip; eauto; lia.
  - (* DUintArr *)
    ba. subst alt. std IH gs u (kill off (if b <=? 8 then n else 2 * n) fs).
    + intros Hu Hf. eapply after_ok with (R := reg (base + off) (base + off + (if b <=? 8 then n else 2 * n))).
      * unfold reg; lia.
      * apply dec_uintarr_good; auto; lia.
      * intros t _ (A & B & C). eapply IH; eauto; [|lia]. apply mok_run; auto. apply keep_fok. eapply fok_kill; eauto.
    + intros m Hu Hi. eapply after_ok with (R := reg (base + off) (base + off + (if b <=? 8 then n else 2 * n))).
      * unfold reg; lia.
      * apply dec_uintarr_good; auto; lia.
      * intros t _ (A & B & C). eapply IH; eauto; [|lia]. eapply mok_skip; eauto; lia.
  - (* DTArr *)
    ba. subst alt. cbv zeta.
    set (mx := match c with CFix n => n | CVar co | CVarOff co => bound fs co end) in *.
    assert (EL : forall cnt t, cnt <= mx -> octets (s_mem t) -> s_rem t <= rm ->
      good (reg (base + off) (base + off + room)) t
        (rep (Z.to_nat cnt) 0 (fun i s => call (DEC (Z.min lim (base + off + room)) (base + off + i * stride) sub run_mode) s) t)).
    { intros cnt t Hcnt Ot Ht. apply rep_good; auto. intros j t' Hj Ot' Ht'. apply call_ok.
      assert (Hj2 : 0 <= j <= mx - 1) by lia.
      assert (j * stride <= (mx - 1) * stride) by (apply Z.mul_le_mono_nonneg_r; lia).
      assert (0 <= j * stride) by (apply Z.mul_nonneg_nonneg; lia).
      eapply good_wide; [|eapply IHs with (alt := false) (S := room - (mx - 1) * stride) (rm := rm); eauto; try lia].
      - unfold reg; lia.
      - cbn. repeat split; constructor. }
    std IH gs u (kill off room fs).
    + intros Hu Hf. eapply after_ok with (R := reg (base + off) (base + off + room)).
      * unfold reg; lia.
      * apply EL; auto. unfold mx. destruct c as [k|co|co]; try apply fok_bound; auto; lia.
      * intros t _ (A & B & C). eapply IH; eauto; [|lia]. apply mok_run; auto. apply keep_fok. eapply fok_kill; eauto.
    + intros m Hu Hi. eapply after_ok with (R := reg (base + off) (base + off + room)).
      * unfold reg; lia.
      * apply EL; auto. unfold mx. destruct c as [k|co|co]; ba; subst; lia || discriminate.
      * intros t _ (A & B & C). eapply IH; eauto; [|lia]. eapply mok_skip; eauto; lia.
  - (* DBitmap *)
    ba. subst alt. std IH gs u (kill off (if b <=? 32 then 4 else 8) fs).
    + intros Hu Hf. eapply after_ok with (R := reg (base + off) (base + off + (if b <=? 32 then 4 else 8))).
      * unfold reg; lia.
      * apply dec_bitmap_good; auto; lia.
      * intros t _ (A & B & C). eapply IH; eauto; [|lia]. apply mok_run; auto. apply keep_fok. eapply fok_kill; eauto.
    + intros m Hu Hi. eapply after_ok with (R := reg (base + off) (base + off + (if b <=? 32 then 4 else 8))).
      * unfold reg; lia.
      * apply dec_bitmap_u_good; auto; lia.
      * intros t _ (A & B & C). eapply IH; eauto; [|lia]. eapply mok_skip; eauto; lia.
  - (* DType *)
    ba. subst alt. cbv zeta.
    assert (EL : good (reg (base + off) (base + off + room)) s
      (if null && (s_rem s =? 0) then DOk s
       else call (DEC (Z.min lim (base + off + room)) (base + off) sub run_mode) s)).
    { destruct (null && (s_rem s =? 0)); [apply within_refl; auto|]. apply call_ok.
      eapply IHs with (alt := false) (rm := rm); eauto; try lia. cbn. repeat split; constructor. }
    assert (ET : took s (if null then 0 else takes sub) (if null && (s_rem s =? 0) then DOk s
       else call (DEC (Z.min lim (base + off + room)) (base + off) sub run_mode) s)).
    { destruct (null && (s_rem s =? 0)) eqn:E; [apply andb_true_iff in E as [-> _]; cbn; lia|].
      destruct null; unfold takes; destruct (pos sub) eqn:P.
      3: { apply took_call. apply (dec_takes true bits nbits past sub P _ _ run_mode). }
      all: destruct (call _ s) as [t| |]; cbn [took good] in *; auto; destruct EL; lia. }
    std IH gs u (kill off room fs).
    + intros Hu Hf. eapply after_ok with (R := reg (base + off) (base + off + room)).
      * unfold reg; lia.
      * exact EL.
      * intros t Et (A & B & C). pose proof (took_fact _ _ _ _ Et ET) as T. pose proof (takes_nn sub).
        eapply IH; eauto; [|eapply less_run; [|exact Hrm|exact T]; destruct null; lia|apply less_nn; lia]. apply mok_run; auto. apply keep_fok. eapply fok_kill; eauto.
    + intros m Hu Hi. eapply after_ok with (R := reg (base + off) (base + off + room)).
      * unfold reg; lia.
      * exact EL.
      * intros t _ (A & B & C). rewrite (less_open _ _ u rm _ Hi) in *. eapply IH; eauto; [|lia]. eapply mok_skip; eauto; lia.
  - (* DChoice *)
    ba. subst alt.
    eapply control_ok with (fs' := []) (gs' := pass gs) (u' := pred u).
    1: { intros; eapply IH; first [eassumption | apply less_nn; assumption]. }
    1: { eassumption. }
    1,2: eassumption.
    1: { intros; solve [reflexivity | eapply less_open; eassumption]. }
    + intros; eapply mok_skip0; eauto.
    + intros; lia.
    + intros Hu Hf. eapply after_ok with (R := reg base (base + S)); auto.
      * eapply IHa; eauto. cbn [mok]. repeat split; lia.
      * intros t _ (A & B & C). eapply IH; eauto; [|lia]. apply mok_run; auto. constructor.
    + intros; apply no_union_ok.
  - (* DAlt *)
    ba. subst alt. destruct md as [[|m]|k m|i off room]; cbn [mok] in Hm; try (destruct Hm; discriminate).
    destruct Hm as (_ & Q3 & Q4 & Q5). destruct (read bits nbits past (s_ri s) b) as [x ri].
    destruct (x mod 256 =? v).
    + set (s1 := if kp then set_pos s (s_rem s) (s_off s) ri else adv s b ri).
      assert (Q : s_rem s1 <= s_rem s /\ s_mem s1 = s_mem s)
        by (unfold s1; destruct kp; cbn [s_rem s_mem set_pos adv]; split; auto; lia).
      destruct Q as [Q1 Q2]. eapply good_from; [exact Q1|exact Q2|].
      apply good_bind.
      * eapply good_wide; [|apply store_good' with (w := 1); rewrite ?Q2; auto; lia]. unfold reg; lia.
      * intros t (A & B & C). apply call_ok. eapply IHo; eauto; [|lia]. cbn. repeat split; constructor.
    + eapply good_from with (s' := set_pos s (s_rem s) (s_off s) (ri - b)); [cbn [s_rem set_pos]; lia|reflexivity|].
      eapply IH; eauto. cbn [mok]. repeat split; lia.
  - (* DSer *)
    ba. subst alt. std IH gs u (kill off room fs).
    + intros Hu Hf. eapply after_ok with (R := reg (base + off) (base + off + room)).
      * unfold reg; lia.
      * destruct (read bits nbits past (s_ri s) lb) as [x ri]. cbv zeta.
        pose proof (Z.mod_pos_bound x 256 ltac:(lia)) as Hx. set (len := x mod 256) in *.
        set (s1 := if 0 <? len then set_pos (adv s lb ri) len (s_off (adv s lb ri)) (s_ri (adv s lb ri)) else adv s lb ri).
        assert (Q : s_mem s1 = s_mem s) by (unfold s1; destruct (0 <? len); reflexivity).
        assert (G : good (reg (base + off) (base + off + room)) s1
          (call (DEC (Z.min lim (base + off + room)) (base + off) sub run_mode) s1)).
        { apply call_ok. eapply IHs with (rm := Z.max rm 255); eauto; try lia.
          - cbn. repeat split; constructor.
          - rewrite Q; auto.
          - unfold s1. destruct (0 <? len); cbn [s_rem set_pos adv]; lia. }
        destruct (call _ s1) as [t|c|] eqn:Ec; cbn [bindd good] in *; auto.
        destruct G as (A & B & C). rewrite Q in C.
        unfold s1 in A. destruct (Z.ltb_spec 0 len); cbn [good s_rem s_mem set_pos adv] in *;
          (split; [cbn [s_rem set_pos]; lia|split; [exact B|exact C]]).
      * intros t _ (A & B & C). eapply IH; eauto; [|lia]. apply mok_run; auto. apply keep_fok. eapply fok_kill; eauto.
    + intros; apply no_union_ok.
  - (* DUnion *)
    ba. subst alt.
    match goal with H : Nat.leb 1 n = true |- _ => apply Nat.leb_le in H; rename H into Hn end.
    match goal with H : forallb _ _ = true |- _ => rewrite forallb_forall in H; rename H into Hg end.
    eapply control_ok with (fs' := []) (gs' := n :: pass gs) (u' := n).
    1: { intros; eapply IH; first [eassumption | apply less_nn; assumption]. }
    1: { eassumption. }
    1,2: eassumption.
    1: { intros; solve [reflexivity | eapply less_open; eassumption]. }
    + intros m Hi Hu. assert (In m (map pred gs)) by (apply in_map_iff; exists (Datatypes.S m); auto).
      assert (n <= m)%nat by (apply Nat.leb_le; auto). destruct m as [|m]; [lia|]. cbn [mok]. split; auto.
      split; [right; apply pass_in; auto|lia].
    + intros; lia.
    + intros Hu Hf. destruct (_ || _); [exact I|].
      pose proof (union_index_spec lh (Z.to_nat (nth n ix_bits 0)) 0 s) as U.
      pose proof (took_index bits nbits past lh (Z.to_nat (nth n ix_bits 0)) 0 s) as V.
      destruct (union_index bits nbits past (Z.to_nat (nth n ix_bits 0)) lh 0 s) as [ix s1]. destruct U as [U1 U2]. cbn [snd] in V.
      eapply good_from; [exact U1|exact U2|].
      apply good_bind.
      * eapply good_wide; [|apply store_good' with (w := 1); rewrite ?U2; auto; lia]. unfold reg; lia.
      * intros t (A & B & C). eapply IH; eauto; [|eapply less_run; [|exact Hrm|]; lia|apply less_nn; lia]. cbn [mok]. split; auto. split; [lia|]. split; [left; auto|auto].
    + intros; apply no_union_ok.
  - (* DExist *)
    ba. subst alt. std IH gs u (kill off 1 fs).
    + intros Hu Hf.
      destruct (if lh then masked bits nbits past (s_ri s) (s_off s) 1 else read bits nbits past (s_ri s) 1) as [v ri].
      eapply good_from with (s' := adv s 1 ri); [cbn [s_rem adv]; lia|reflexivity|].
      pose proof (store_good' lim base off room 1 0 1 v (adv s 1 ri) O ltac:(lia) ltac:(lia) ltac:(lia) ltac:(lia) ltac:(lia)) as G.
      destruct (store true lim base off room 0 1 v (adv s 1 ri)) as [t|c|]; cbn [good bindd] in *; auto.
      pose proof G as (A & B & C). cbn [s_rem s_mem adv] in A, C.
      eapply good_step; [eapply within_wide; [|exact G]; unfold reg; lia|].
      destruct (v mod 256 =? 0).
      * destruct (s_rem t <? 0); [exact I|apply within_refl; auto].
      * eapply after_ok with (R := reg (base + off) (base + off + 1)); [unfold reg; lia|apply within_refl; auto|].
        intros t' Et _. injection Et as <-. eapply IH; eauto; [|lia]. apply mok_run; auto. apply keep_fok. eapply fok_kill; eauto.
    + intros; apply no_union_ok.
  - (* DNext *)
    ba. subst alt.
    eapply control_ok with (fs' := keep gs (kill off 1 fs)) (gs' := if Nat.eqb n 0 then pass gs else n :: pass gs) (u' := pred u).
    1: { intros; eapply IH; first [eassumption | apply less_nn; assumption]. }
    1: { eassumption. }
    1,2: eassumption.
    1: { intros; solve [reflexivity | eapply less_open; eassumption]. }
    + intros m Hi Hu. pose proof (mok_skip S base lim (kill off 1 fs) _ gs u m (s_mem s) Hi Hu eq_refl) as M.
      destruct m as [|m]; cbn [mok] in *; auto. destruct M as (M1 & M2 & M3). split; auto. split; auto.
      destruct (Nat.eqb n 0); auto. right; auto.
    + intros; lia.
    + intros Hu Hf.
      assert (K : forall t isn, within (reg (base + off) (base + off + 1)) s t ->
        s_rem t <= s_rem s - (if null then 0 else 1) ->
        good (reg base (base + S)) t (DEC lim base r (Skip (if isn : bool then n else 0%nat)) t)).
      { intros t isn (A & B & C) T. eapply IH; eauto; [|eapply less_run; [|exact Hrm|exact T]; destruct null; lia|apply less_nn; lia].
        destruct isn; [destruct n as [|n]|].
        - subst u. apply mok_run; auto. apply keep_fok. eapply fok_kill; eauto.
        - cbn [mok Nat.eqb]. split; auto. split; [left; auto|lia].
        - subst u. apply mok_run; auto. apply keep_fok. eapply fok_kill; eauto. }
      destruct (null && (s_rem s =? 0)) eqn:E.
      * eapply after_ok with (R := reg (base + off) (base + off + 1)); [unfold reg; lia|apply store_good'; auto; lia|].
        intros t Et W. apply (K t true); auto. apply andb_true_iff in E as [-> _]. destruct W; lia.
      * destruct (if lh then masked bits nbits past (s_ri s) (s_off s) 1 else read bits nbits past (s_ri s) 1) as [v ri].
        cbv zeta. eapply after_ok with (R := reg (base + off) (base + off + 1)); [unfold reg; lia| |].
        -- eapply good_from with (s' := adv s 1 ri); [cbn [s_rem adv]; lia|reflexivity|]. apply store_good'; auto; lia.
        -- intros t Et W. apply K; auto.
           pose proof (took_fact _ _ _ _ Et (took_store true s (adv s 1 ri) 1 _ _ _ _ _ _ _ ltac:(cbn [adv s_rem]; lia))).
           destruct null; lia.
    + intros; apply no_union_ok.
  - (* DVarBmp *)
    ba. subst alt.
    match goal with H : negb te || _ = true |- _ => rename H into Hte end.
    std IH gs u (kill off room (if te then kill co 1 fs else fs)).
    + intros Hu Hf.
      set (mx := bound (if te then kill co 1 fs else fs) co) in *.
      assert (Hte' : te = true -> 255 <= mx /\ 0 <= co /\ co + 1 <= S).
      { intros ->. cbn [negb orb] in Hte. ba. split; [|lia]. unfold mx, bound.
        destruct (find _ _) as [f|] eqn:E; [|lia]. apply find_some in E as [E1 E2]. apply Z.eqb_eq in E2.
        unfold kill in E1. apply filter_In in E1 as [_ E1]. apply orb_true_iff in E1. rewrite Z.ltb_lt, Z.leb_le in E1. lia. }
      eapply after_ok with (R := reg2 (base + off) (base + off + room) (base + co) (base + co + if te then 1 else 0)).
      * unfold reg2, reg. intros x. destruct te; [|lia]. specialize (Hte' eq_refl). lia.
      * apply dec_varbmp_good with (rm := rm) (mx := mx); auto; try lia.
        -- intros ->. apply fok_bound; auto.
      * intros t _ (A & B & C). eapply IH; eauto; [|lia]. apply mok_run; auto. apply keep_fok.
        destruct te.
        -- unfold fok, kill in *. rewrite Forall_forall in *. intros f Hx. apply filter_In in Hx as [Hx K7].
           apply filter_In in Hx as [Hx K8]. apply orb_true_iff in K7, K8. rewrite Z.ltb_lt, Z.leb_le in K7, K8.
           rewrite C; [apply Hf; auto|]. unfold reg2, reg. lia.
        -- eapply fok_kill; eauto. intros x Hx. apply C. unfold reg2, reg in *. lia.
    + intros; apply no_union_ok.
  - (* DPad *)
    ba. subst alt. std IH gs u (kill 0 0 fs).
    + intros Hu Hf. eapply after_ok with (R := reg (base + 0) (base + 0 + 0)).
      * unfold reg; lia.
      * apply dec_pad_good; auto.
      * intros t _ (A & B & C). eapply IH; eauto; [|lia]. apply mok_run; auto. apply keep_fok. eapply fok_kill; eauto.
    + intros; apply no_union_ok.
  - (* DVarArr *)
    ba. subst alt. std IH gs u (kill off room fs).
    + intros Hu Hf. eapply after_ok with (R := reg (base + off) (base + off + room)).
      * unfold reg; lia.
      * apply dec_vararr_good with (rm := rm) (mx := bound fs co); auto; try lia. apply fok_bound; auto.
      * intros t _ (A & B & C). eapply IH; eauto; [|lia]. apply mok_run; auto. apply keep_fok. eapply fok_kill; eauto.
    + intros; apply no_union_ok.
  - (* DRecArr *)
    ba. subst alt. std IH gs u (kill co 1 (kill off room fs)).
    + intros Hu Hf. eapply after_ok with (R := reg2 (base + off) (base + off + room) (base + co) (base + co + 1)).
      * unfold reg2, reg; lia.
      * apply dec_recarr_good with (rm := rm); auto; lia.
      * intros t _ (A & B & C). eapply IH; eauto; [|lia]. apply mok_run; auto. apply keep_fok.
        unfold fok, kill in *. rewrite Forall_forall in *. intros f Hx. apply filter_In in Hx as [Hx K7].
        apply filter_In in Hx as [Hx K8]. apply orb_true_iff in K7, K8. rewrite Z.ltb_lt, Z.leb_le in K7, K8.
        rewrite C; [apply Hf; auto|]. unfold reg2, reg. lia.
    + intros; apply no_union_ok.
  - (* DRecTArr *)
    ba. subst alt. cbv zeta.
    std IH gs u (kill co 1 (kill off room fs)).
    + intros Hu Hf. eapply after_ok with (R := reg2 (base + off) (base + off + room) (base + co) (base + co + 1)).
      * unfold reg2, reg; lia.
      * assert (EL : forall j t, 0 <= j < cap -> octets (s_mem t) -> s_rem t <= rm ->
          good (reg2 (base + off) (base + off + room) (base + co) (base + co + 1)) t
            (call (DEC (Z.min lim (base + off + room)) (base + off + j * stride) sub run_mode) t)).
        { intros j t Hj Ot Ht. apply call_ok.
          assert (j * stride <= (cap - 1) * stride) by (apply Z.mul_le_mono_nonneg_r; lia).
          assert (0 <= j * stride) by (apply Z.mul_nonneg_nonneg; lia).
          eapply good_wide; [|eapply IHs with (alt := false) (S := room - (cap - 1) * stride) (rm := rm); eauto; try lia].
          - unfold reg2, reg; lia.
          - cbn. repeat split; constructor. }
        destruct fi.
        -- eapply rec_elems1_good; eauto; try lia. intros x Hx; right; exact Hx.
        -- eapply rec_elems_good; eauto; try lia. intros x Hx; right; exact Hx.
      * intros t _ (A & B & C). eapply IH; eauto; [|lia]. apply mok_run; auto. apply keep_fok.
        unfold fok, kill in *. rewrite Forall_forall in *. intros f Hx. apply filter_In in Hx as [Hx K7].
        apply filter_In in Hx as [Hx K8]. apply orb_true_iff in K7, K8. rewrite Z.ltb_lt, Z.leb_le in K7, K8.
        rewrite C; [apply Hf; auto|]. unfold reg2, reg. lia.
    + intros; apply no_union_ok.
  - (* DFixed *)
    ba. subst alt. std IH gs u (kill 0 0 fs).
    + intros Hu Hf. eapply after_ok with (R := reg (base + 0) (base + 0 + 0)).
      * unfold reg; lia.
      * apply dec_fixed_good; auto.
      * intros t _ (A & B & C). eapply IH; eauto; [|lia]. apply mok_run; auto. apply keep_fok. eapply fok_kill; eauto.
    + intros; apply no_union_ok.
  - (* DCallback *)
    ba. subst alt. std IH gs u (kill p2 room fs).
    + intros Hu Hf. destruct c as [n stride doff| |boff]; ba.
      * eapply after_ok with (R := reg (base + p2) (base + p2 + room)).
        -- unfold reg; lia.
        -- apply dec_callback_good; auto; lia.
        -- intros t _ (A & B & C). eapply IH; eauto; [|lia]. apply mok_run; auto. apply keep_fok. eapply fok_kill; eauto.
      * eapply after_ok with (R := reg (base + p2) (base + p2 + room)).
        -- unfold reg; lia.
        -- apply dec_callback_good; auto; lia.
        -- intros t _ (A & B & C). eapply IH; eauto; [|lia]. apply mok_run; auto. apply keep_fok. eapply fok_kill; eauto.
      * eapply after_ok with (R := reg base base).
        -- unfold reg; lia.
        -- cbn [dec_callback good]. cbv zeta. split; [|split; auto]. cbn [s_rem adv].
           match goal with |- context [?x mod 65536] => pose proof (Z.mod_pos_bound x 65536 ltac:(lia)) end. lia.
        -- intros t _ (A & B & C). eapply IH; eauto; [|lia]. apply mok_run; auto. apply keep_fok. eapply fok_kill; eauto.
           intros x _. apply C. unfold reg; lia.
    + intros; apply no_union_ok.
  - (* DTrap *)
    ba. subst alt. std IH gs u (kill 0 0 fs).
    + intros; exact I.
    + intros; apply no_union_ok.
Qed.

(** Decoding with a checked table. *)
Theorem decode_safe d size rm rem off ri m :
  safe_table rm size d = true -> 0 <= rm -> rem <= rm -> octets m ->
  match decode true bits nbits past size d rem off ri m with
  | DOk t => s_rem t <= rem /\ octets (s_mem t) /\ (forall x, x < 0 \/ size <= x -> s_mem t x = m x)
  | DErr _ => True
  | DUB => False
  end.
Proof.
  intros H H0 H1 O. unfold decode, call. cbn [s_rem]. destruct (rem <? 0); [exact I|].
  pose proof (dec_safe d false rm size [] [] 0 size 0 run_mode (mkcst rem off ri m) H) as G.
  cbn [s_mem s_rem] in G. specialize (G ltac:(cbn; repeat split; constructor) O H1 H0 ltac:(lia) ltac:(lia)).
  destruct (dec _ _ _ _ _ _ _ _) as [t|c|]; cbn [good] in G; auto.
  destruct G as (A & B & C). cbn [s_rem s_mem] in *. repeat split; auto; try apply B.
  intros x Hx. apply C. unfold reg. lia.
Qed.
End Safe.
