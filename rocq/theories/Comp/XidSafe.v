(** How far the decoder reads. *)
From Verif.Lib Require Import Base Outcome.
From Verif.Comp Require Import SlhcModel XidModel XidSpec XidProofs XidRead.

Definition safe {A} (r : res A) (Q : A -> Prop) : Prop := exists a, r = Ok a /\ Q a.
Lemma safe_bind {A B} (r : res A) (k : A -> res B) Q R : safe r Q -> (forall a, Q a -> safe (k a) R) -> safe (bind r k) R.
Proof. intros (a & -> & H) K. cbn [bind]. apply K. exact H. Qed.
Lemma safe_ok {A} (a : A) (Q : A -> Prop) : Q a -> safe (Ok a) Q.
Proof. intros H. exists a. auto. Qed.
Lemma safe_imp {A} (r : res A) (Q R : A -> Prop) : safe r Q -> (forall a, Q a -> R a) -> safe r R.
Proof. intros (a & E & H) I. exists a. auto. Qed.
Lemma rd_safe m i : Forall byte m -> 0 <= i < zlen m -> safe (rd m i) (fun v => 0 <= v <= 255).
Proof.
  intros B H. exists (nth (Z.to_nat i) m 0). split; [apply rd_ok; exact H|]. rewrite Forall_forall in B. assert (byte (nth (Z.to_nat i) m 0)) by (apply B, nth_In; unfold zlen in H; lia).
  unfold byte in *. lia.
Qed.

Lemma filter_len {A} (p : A -> bool) l : (length (filter p l) <= length l)%nat.
Proof. induction l as [|x l IH]; cbn [filter length]; [lia|]. destruct (p x); cbn [length]; lia. Qed.
Ltac fin := apply safe_ok; cbv beta iota in *; first [exact I | lia | cbn [snd fst]; lia | cbn; lia].

Section Over.
  Variable m : list Z.
  Hypothesis B : Forall byte m.

  Lemma num_safe w i n lo hi : w = 1 \/ w = 2 -> 0 <= i -> i + w <= zlen m -> safe (dec_num w m i n lo hi) (fun _ => True).
  Proof.
    intros Hw Hi Hl. unfold dec_num. destruct (n <? w); [fin|]. apply safe_bind with (fun _ => True); [|intros; fin].
    destruct Hw as [-> | ->]; cbn [Z.eqb Pos.eqb].
    - eapply safe_imp; [apply rd_safe; [exact B|lia]|auto].
    - eapply safe_bind; [apply rd_safe; [exact B|lia]|]. intros. eapply safe_bind; [apply rd_safe; [exact B|lia]|]. intros. fin.
  Qed.
  Definition width (tab : list (Z * Z * Z)) : Z := fold_right (fun t w => fst (fst t) + w) 0 tab.
  Definition ones (tab : list (Z * Z * Z)) : Prop := Forall (fun t => fst (fst t) = 1 \/ fst (fst t) = 2) tab.
  Lemma width_nonneg tab : ones tab -> 0 <= width tab.
  Proof. induction 1; cbn [width fold_right]; [lia|]. unfold width in *. lia. Qed.
  Lemma vals_safe a tab : ones tab -> forall done i n, 0 <= i -> i + width tab <= zlen m ->
    safe (dec_vals a done tab m i n) (fun r => match r with Some (_, c, _) => 0 <= c <= width tab | None => True end).
  Proof.
    induction 1 as [|[[w lo] hi] tab Hw F IH]; intros done i n Hi Hl; cbn [dec_vals].
    - fin.
    - pose proof (width_nonneg tab F). cbn [fst] in Hw. change (width ((w, lo, hi) :: tab)) with (w + width tab) in *.
      eapply safe_bind; [apply num_safe; [exact Hw|lia|lia]|]. intros [v|] _; [|fin].
      destruct (negb (related a (done ++ [v]))); [fin|]. eapply safe_bind; [apply IH; lia|].
      intros [[[vs c] e]|] Hc; fin.
  Qed.
  Lemma prof_safe k : forall i n, 0 <= i -> i + 2 * Z.of_nat k <= zlen m -> safe (dec_prof k m i n) (fun r => 0 <= snd r).
  Proof.
    induction k as [|k IH]; intros i n Hi Hl; cbn [dec_prof]; [fin|].
    eapply safe_bind; [apply num_safe; [auto|lia|lia]|]. intros [v|] _; [|fin].
    eapply safe_bind; [apply IH; lia|]. intros y Hy. fin.
  Qed.
  (** Octets the parameters may take. *)
  Definition reach (a : alg) : Z := match a with RFC1144 => 3 | RFC2507 => 9 | ROHC => 38 | V42BIS => 6 | V44 => 12 end.
  Lemma params_safe a i n : 0 <= i -> i + reach a <= zlen m ->
    safe (dec_params a m i n) (fun r => match r with Some (_, c) => 0 <= c | None => True end).
  Proof.
    intros Hi Hl. assert (reach a = 2 + width (dtab a) + (match a with ROHC => 32 | _ => 0 end)) as Er by (destruct a; reflexivity).
    assert (ones (dtab a)) as Ho by (destruct a; unfold ones, dtab; repeat (apply Forall_cons; [cbn [fst]; lia|]); apply Forall_nil). pose proof (width_nonneg _ Ho) as Hw.
    assert (0 <= match a with ROHC => 32 | _ => 0 end) as H32 by (destruct a; lia).
    unfold dec_params. apply safe_bind with (fun _ => True).
    { unfold dec_sapis. destruct (n <? 2); [fin|]. eapply safe_bind; [apply rd_safe; [exact B|lia]|]. intros. eapply safe_bind; [apply rd_safe; [exact B|lia]|]. intros. fin. }
    intros [ns|] _; [|fin]. eapply safe_bind; [apply (vals_safe a (dtab a) Ho); lia|]. intros [[[vs c] all]|] Hc; [|fin].
    destruct a; [fin|fin| |fin|fin]. destruct all; [|fin].
    eapply safe_bind; [apply prof_safe; lia|]. intros z Hz. fin.
  Qed.
  Lemma nibbles_safe k : forall (odd : bool) i, 0 <= i -> i + (Z.of_nat k + (if odd then 2 else 1)) / 2 <= zlen m -> safe (dec_nibbles k odd m i) (fun _ => True).
  Proof.
    induction k as [|k IH]; intros odd i Hi Hl; cbn [dec_nibbles]; [fin|].
    assert (1 <= (Z.of_nat (S k) + (if odd then 2 else 1)) / 2) by (apply Z.div_le_lower_bound; destruct odd; lia).
    eapply safe_bind; [apply rd_safe; [exact B|lia]|]. intros o _. eapply safe_bind; [apply IH|intros; fin].
    - destruct odd; lia.
    - destruct odd; cbn [negb].
      + replace (Z.of_nat (S k) + 2) with (Z.of_nat k + 1 + 1 * 2) in Hl by lia. rewrite Z.div_add in Hl by lia. lia.
      + replace (Z.of_nat k + 2) with (Z.of_nat (S k) + 1) by lia. exact Hl.
  Qed.
  Lemma alg_cases cls a al : alg_of cls a = Some al -> In al [RFC1144; RFC2507; ROHC; V42BIS; V44].
  Proof. intros _. destruct al; cbn; tauto. Qed.
  Lemma field_safe i n lt cls : 0 <= i -> i + 42 <= zlen m ->
    safe (dec_field m i n lt cls) (fun r => match r with Some (_, c) => 2 <= c | None => True end).
  Proof.
    intros Hi Hl. unfold dec_field. destruct (n <? 1); [fin|]. eapply safe_bind; [apply rd_safe; [exact B|lia]|]. intros b0 _. cbv zeta.
    apply safe_bind with (fun _ => True).
    { destruct (128 <=? b0); [|fin]. eapply safe_bind; [apply rd_safe; [exact B|lia]|]. intros; fin. }
    intros a _. eapply safe_bind; [apply rd_safe; [exact B|destruct (128 <=? b0); lia]|]. intros len Hlen.
    destruct (128 <=? b0).
    - destruct (alg_of cls a) as [al|]; [|fin].
      eapply safe_bind; [apply nibbles_safe; [lia|]|].
      { destruct al; cbn [num_comps Z.to_nat Pos.to_nat]; match goal with |- context [(?x + 1) / 2] => assert ((x + 1) / 2 <= 3) by (apply Z.div_le_upper_bound; lia) end; lia. }
      intros cs _. assert (1 <= (num_comps al + 1) / 2 /\ (num_comps al + 1) / 2 + reach al <= 39) as [H1 H2] by (destruct al; cbn; lia).
      eapply safe_bind; [apply params_safe; lia|]. intros [[pr c']|] Hc; fin.
    - cbn [dec_nibbles Z.to_nat bind]. change ((0 + 1) / 2) with 0.
      destruct (alg_of cls a) as [al|].
      + assert (reach al <= 38) by (destruct al; cbn; lia). eapply safe_bind; [apply params_safe; lia|]. intros [[pr c']|] Hc; fin.
      + destruct (sint ((len - 0) mod 2 ^ 32) <? 0) eqn:?; fin.
  Qed.
  Lemma block_safe fuel : forall i n lt cls cnt, 0 <= i -> i + n + 41 <= zlen m -> safe (dec_block fuel m i n lt cls cnt) (fun _ => True).
  Proof.
    induction fuel as [|fuel IH]; intros i n lt cls cnt Hi Hl; cbn [dec_block]; destruct (64 <? cnt); try (fin).
    destruct (Z.lt_ge_cases n 1) as [Hn|Hn].
    - unfold dec_field. destruct (n <? 1) eqn:?; [|lia]. cbn [bind]. fin.
    - eapply safe_bind; [apply field_safe; lia|]. intros [[f c]|] Hc; [|fin]. destruct (0 <? n - c) eqn:?; [|fin].
      eapply safe_bind; [apply IH; lia|]. intros; fin.
  Qed.
  Lemma xid_safe fuel : forall i n lt v fs, 0 <= i -> i + n + 41 <= zlen m -> safe (dec_xid fuel m i n lt v fs) (fun _ => True).
  Proof.
    induction fuel as [|fuel IH]; intros i n lt v fs Hi Hl; cbn [dec_xid]; [fin|].
    apply safe_bind with (fun r => match r with Some (_, l) => 0 <= l <= n - 2 | None => True end).
    { unfold tlv_one. destruct (n <? 1) eqn:?; [fin|]. eapply safe_bind; [apply rd_safe; [exact B|lia]|]. intros t Ht.
      destruct (2 <? t); [fin|]. destruct (n <? 2) eqn:?; [fin|]. eapply safe_bind; [apply rd_safe; [exact B|lia]|]. intros l Hll.
      destruct (n <? l + 2) eqn:?; fin. }
    intros [[t l]|] Htl; [|fin]. apply safe_bind with (fun _ => True).
    { destruct v; [|fin]. destruct (t =? 0); [|fin]. eapply safe_bind; [apply rd_safe; [exact B|lia]|]. intros; fin. }
    intros v' _. apply safe_bind with (fun _ => True). { destruct (t =? 0); [fin|]. apply block_safe; lia. }
    intros [new|] _; [|fin]. cbv zeta. destruct (n - (l + 2) <=? 2); [fin|]. apply IH; lia.
  Qed.
  Lemma parse_safe want n req : 0 <= n -> n + 41 <= zlen m -> (forall fs, req = Some fs -> zlen fs <= 64) -> safe (parse_xid want m n req) (fun _ => True).
  Proof.
    intros Hn Hl Hr. unfold parse_xid. destruct (n =? 0); [fin|]. cbv zeta. destruct req as [fs|]; [|apply xid_safe; lia].
    apply safe_bind with (fun _ => True).
    { unfold fill_table. specialize (Hr fs eq_refl). replace (zlen _ <=? 64) with true; [fin|]. symmetry. apply Z.leb_le. unfold zlen in *. rewrite map_length.
      pose proof (filter_len (fun f => negb (class f =? 3)) fs). lia. }
    intros lt _. eapply safe_bind; [apply xid_safe; lia|]. intros [[v' fs']|] _; fin.
  Qed.
End Over.
