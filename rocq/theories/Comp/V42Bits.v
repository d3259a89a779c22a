(** Codewords in octets: what [push_code] packs, [fill] unpacks. *)
From Verif.Lib Require Import Base Outcome.
From Verif.Comp Require Import V42Model.

Lemma lor_plus a b n : 0 <= n -> 0 <= a < 2 ^ n -> 0 <= b -> Z.lor a (Z.shiftl b n) = a + b * 2 ^ n.
Proof.
  intros Hn Ha Hb. rewrite Z.shiftl_mul_pow2 by lia. symmetry. apply Z.add_nocarry_lxor in Hn as _ || idtac.
  rewrite <- Z.lxor_lor; [apply Z.add_nocarry_lxor|].
  - apply Z.bits_inj'. intros i Hi. rewrite Z.land_spec, Z.bits_0. destruct (Z_lt_dec i n) as [L|L].
    + rewrite Z.mul_pow2_bits_low by lia. apply andb_false_r.
    + destruct (Z.eq_dec a 0) as [->|N]; [rewrite Z.bits_0; reflexivity|].
      rewrite (Z.bits_above_log2 a i); [reflexivity|lia|]. apply Z.log2_lt_pow2; [lia|].
      apply Z.lt_le_trans with (2 ^ n); [lia|]. apply Z.pow_le_mono_r; lia.
  - apply Z.bits_inj'. intros i Hi. rewrite Z.land_spec, Z.bits_0. destruct (Z_lt_dec i n) as [L|L].
    + rewrite Z.mul_pow2_bits_low by lia. apply andb_false_r.
    + destruct (Z.eq_dec a 0) as [->|N]; [rewrite Z.bits_0; reflexivity|].
      rewrite (Z.bits_above_log2 a i); [reflexivity|lia|]. apply Z.log2_lt_pow2; [lia|].
      apply Z.lt_le_trans with (2 ^ n); [lia|]. apply Z.pow_le_mono_r; lia.
Qed.

(** The octets to come begin with the bits waiting in the compressor. *)
Definition fits (bb bc : Z) (F : list Z) : Prop :=
  (bc = 0 /\ bb = 0) \/ (0 < bc < 8 /\ exists f F', F = f :: F' /\ 0 <= f < 256 /\ f mod 2 ^ bc = bb).
(** Where the decompressor is: it has taken the octet with the bits waiting in the compressor. *)
Definition start (bc dbb dbc : Z) (F r : list Z) : Prop :=
  (bc = 0 /\ dbb = 0 /\ dbc = 0 /\ r = F) \/
  (0 < bc < 8 /\ exists f, F = f :: r /\ 0 <= f < 256 /\ dbc = 8 - bc /\ dbb = f / 2 ^ bc).

(** [push_code] on the three numbers it depends on. *)
Definition packed (bb bc c2 code : Z) : list Z * Z := drain (Z.to_nat ((bc + c2) / 8)) (Z.lor bb (Z.shiftl code bc)).

Lemma push_code_packed s code :
  push_code s code = (set_bits s (snd (packed (v_bb s) (v_bc s) (v_c2 s) code)) ((v_bc s + v_c2 s) mod 8),
                      fst (packed (v_bb s) (v_bc s) (v_c2 s) code)).
Proof. unfold push_code, packed. destruct (drain _ _); reflexivity. Qed.

Lemma land255 a : Z.land a 255 = a mod 256.
Proof. change 255 with (Z.ones 8). rewrite Z.land_ones by lia. reflexivity. Qed.
Lemma shr8 a : Z.shiftr a 8 = a / 256.
Proof. rewrite Z.shiftr_div_pow2 by lia. reflexivity. Qed.

Lemma cases8 P : (forall k, In k [0; 1; 2; 3; 4; 5; 6; 7] -> P k) -> forall k, 0 <= k < 8 -> P k.
Proof. intros H k Hk. apply H. cbn. lia. Qed.
Lemma cases4 P : (forall k, In k [9; 10; 11; 12] -> P k) -> forall k, 9 <= k <= 12 -> P k.
Proof. intros H k Hk. apply H. cbn. lia. Qed.

Lemma packed_eq bb bc c2 code : 0 <= bc < 8 -> 9 <= c2 <= 12 -> 0 <= bb < 2 ^ bc -> 0 <= code < 2 ^ c2 ->
  let X := bb + code * 2 ^ bc in
  packed bb bc c2 code = (if (bc + c2) / 8 =? 1 then ([X mod 256], X / 256) else ([X mod 256; (X / 256) mod 256], X / 65536)) /\
  0 <= X / (if (bc + c2) / 8 =? 1 then 256 else 65536) < 2 ^ ((bc + c2) mod 8) /\
  (X mod 256) mod 2 ^ bc = bb.
Proof.
  intros H1 H2 H3 H4 X. unfold packed. rewrite lor_plus by lia. fold X.
  assert (E : forall a, a / 256 / 256 = a / 65536) by (intros; rewrite Z.div_div by lia; reflexivity).
  revert X. revert bc H1 H3. refine (cases8 _ _). intros bc HB. revert c2 H2 H4. refine (cases4 _ _). intros c2 HC.
  cbn [In] in HB, HC.
  repeat destruct HB as [<-|HB]; [..|destruct HB]; (repeat destruct HC as [<-|HC]; [..|destruct HC]);
  intros H4 H3 X; cbn [Z.add Z.div Z.eqb Z.modulo]; 
  match goal with |- context [Z.to_nat ?n] => let m := eval vm_compute in (Z.to_nat n) in change (Z.to_nat n) with m end;
  match goal with |- context [?n =? 1] => let m := eval vm_compute in (n =? 1) in change (n =? 1) with m end;
  cbn [drain]; rewrite ?land255, ?shr8, ?E;
  (split; [reflexivity|]); unfold X; clear X E;
  repeat match goal with |- context [2 ^ ?n] => let m := eval vm_compute in (2 ^ n) in progress change (2 ^ n) with m in * end;
  repeat match type of H3 with context [2 ^ ?n] => let m := eval vm_compute in (2 ^ n) in progress change (2 ^ n) with m in * end;
  repeat match type of H4 with context [2 ^ ?n] => let m := eval vm_compute in (2 ^ n) in progress change (2 ^ n) with m in * end;
  lia.
Time Qed.

Lemma fits_packed bb bc c2 code F : 0 <= bc < 8 -> 9 <= c2 <= 12 -> 0 <= bb < 2 ^ bc -> 0 <= code < 2 ^ c2 ->
  fits bb bc (fst (packed bb bc c2 code) ++ F).
Proof.
  intros H1 H2 H3 H4. destruct (packed_eq bb bc c2 code H1 H2 H3 H4) as (E & _ & M). rewrite E.
  destruct (Z.eq_dec bc 0) as [->|N]; [left; cbn in H3; lia|]. right. split; [lia|].
  set (X := bb + code * 2 ^ bc) in *.
  destruct ((bc + c2) / 8 =? 1); cbn [fst app]; (eexists; eexists; split; [reflexivity|]; split; [apply Z.mod_pos_bound; lia|exact M]).
Qed.

Lemma fill_enough c2 bb bc inp : c2 <= bc -> fill c2 bb bc inp = Ok (bb, bc, inp).
Proof. intros H. destruct inp; cbn [fill]; (destruct (c2 <=? bc) eqn:E; [reflexivity|lia]). Qed.
Lemma fill_more c2 bb bc x r : bc < c2 -> 0 <= bc < 24 -> 0 <= bb < 2 ^ bc -> 0 <= x ->
  fill c2 bb bc (x :: r) = fill c2 (bb + x * 2 ^ bc) (bc + 8) r.
Proof.
  intros H1 H2 H3 H4. cbn [fill]. destruct (c2 <=? bc) eqn:E; [lia|]. unfold need. destruct (bc <? 24) eqn:E2; [|lia].
  rewrite lor_plus by lia. reflexivity.
Qed.

Lemma unpack bb bc c2 code dbb dbc F r : 0 <= bc < 8 -> 9 <= c2 <= 12 -> 0 <= bb < 2 ^ bc -> 0 <= code < 2 ^ c2 ->
  start bc dbb dbc (fst (packed bb bc c2 code) ++ F) r ->
  fits (snd (packed bb bc c2 code)) ((bc + c2) mod 8) F ->
  exists V n r', fill c2 dbb dbc r = Ok (V, n, r') /\ c2 <= n /\ V mod 2 ^ c2 = code /\
    start ((bc + c2) mod 8) (V / 2 ^ c2) (n - c2) F r' /\ r <> [].
Proof.
  intros H1 H2 H3 H4. destruct (packed_eq bb bc c2 code H1 H2 H3 H4) as (E & _ & _). rewrite E. clear E.
  set (X := bb + code * 2 ^ bc). intros S FT.
  assert (LP : forall a b n, 0 <= n < 32 -> 0 <= a < 2 ^ n -> 0 <= b -> Z.lor a (Z.shiftl b n) = a + b * 2 ^ n) by (intros; apply lor_plus; lia).
  revert bc H1 H3 X S FT. refine (cases8 _ _). intros bc HB. revert c2 H2 H4. refine (cases4 _ _). intros c2 HC.
  cbn [In] in HB, HC.
  repeat destruct HB as [<-|HB]; [..|destruct HB]; (repeat destruct HC as [<-|HC]; [..|destruct HC]);
  intros H4 H3 X S FT;
  match type of S with context [?n =? 1] => let m := eval vm_compute in (n =? 1) in change (n =? 1) with m in S, FT end;
  match goal with |- context [?n mod 8] => let m := eval vm_compute in (n mod 8) in change (n mod 8) with m in FT |- * end;
  cbn [fst snd app] in S, FT;
  (destruct S as [(S0 & -> & -> & ->)|(S0 & f & S1 & S2 & -> & ->)]; try lia);
  try (injection S1 as <- <-);
  (destruct FT as [(F0 & FT)|(F0 & g & F' & -> & G & FT)]; try lia);
  unfold X in *; clear X;
  repeat match goal with |- context [2 ^ ?n] => let m := eval vm_compute in (2 ^ n) in progress change (2 ^ n) with m in * end;
  repeat match goal with H : context [2 ^ ?n] |- _ => let m := eval vm_compute in (2 ^ n) in progress change (2 ^ n) with m in * end;
  (do 3 eexists; split;
    [repeat (rewrite fill_more; [|lia|lia|
       repeat match goal with |- context [2 ^ ?n] => let m := eval vm_compute in (2 ^ n) in progress change (2 ^ n) with m end; lia|lia]);
     rewrite fill_enough by lia; reflexivity|]);
  repeat match goal with |- context [2 ^ ?n] => let m := eval vm_compute in (2 ^ n) in progress change (2 ^ n) with m end;
  (split; [lia|]); (split; [lia|]); (split; [|discriminate]);
  (left; split; [reflexivity|]; split; [lia|]; split; [lia|reflexivity]) ||
  (right; split; [lia|]; exists g; split; [reflexivity|]; split; [exact G|]; split; [lia|];
   repeat match goal with |- context [2 ^ ?n] => let m := eval vm_compute in (2 ^ n) in progress change (2 ^ n) with m end; lia).
Time Qed.
