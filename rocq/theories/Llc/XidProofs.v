(** Proofs about the XID codec model. *)
From Verif.Lib Require Import Base Outcome.
From Verif.Llc Require Import XidModel XidSpec.

(** ** Reads in concatenations *)
Lemma rd_app_r pre l i : 0 <= i -> rd (pre ++ l) (zlen pre + i) = rd l i.
Proof.
  intros Hi. pose proof (zlen_nonneg pre) as Hp. unfold rd. rewrite zlen_app.
  replace (0 <=? zlen pre + i) with (0 <=? i) by lia.
  replace (zlen pre + i <? zlen pre + zlen l) with (i <? zlen l) by lia.
  destruct ((0 <=? i) && (i <? zlen l)); [|reflexivity]. f_equal.
  rewrite app_nth2 by (unfold zlen; lia). f_equal. unfold zlen; lia.
Qed.

Lemma slice_app_r {A} (pre l : list A) i n : slice (length pre + i) n (pre ++ l) = slice i n l.
Proof. unfold slice. f_equal. rewrite skipn_app, skipn_all2 by lia. cbn. f_equal. lia. Qed.

Lemma rdn_app_r pre l i n : 0 <= i -> rdn (pre ++ l) (zlen pre + i) n = rdn l i n.
Proof.
  intros Hi. pose proof (zlen_nonneg pre) as Hp. unfold rdn. rewrite zlen_app.
  replace (0 <=? zlen pre + i) with (0 <=? i) by lia.
  replace (zlen pre + i + n <=? zlen pre + zlen l) with (i + n <=? zlen l) by lia.
  destruct ((0 <=? i) && (0 <=? n) && (i + n <=? zlen l)); [|reflexivity]. f_equal.
  replace (Z.to_nat (zlen pre + i)) with (length pre + Z.to_nat i)%nat by (unfold zlen; lia).
  apply slice_app_r.
Qed.

Lemma rdn_prefix h v rest : rdn (h ++ v ++ rest) (zlen h) (zlen v) = Ok v.
Proof.
  pose proof (zlen_nonneg v). pose proof (zlen_nonneg rest).
  replace (zlen h) with (zlen h + 0) by lia. rewrite rdn_app_r by lia.
  rewrite rdn_ok by (rewrite ?zlen_app; lia). f_equal. unfold slice. cbn [skipn Z.to_nat].
  unfold zlen. rewrite Nat2Z.id. rewrite firstn_app, firstn_all, Nat.sub_diag. cbn. apply app_nil_r.
Qed.

(** ** Validity *)
Lemma valid_sound f : xid_is_valid f = true -> 0 <= x_type f -> xid_is_var (x_type f) = false -> 0 <= x_val f ->
  permitted (x_type f) (x_val f).
Proof.
  intros Hv Ht Hvar Hval. destruct f as [t v var]. cbn [x_type x_val] in *.
  unfold xid_is_valid in Hv. cbn [x_type x_val x_var] in Hv.
  destruct (Z.lt_ge_cases t 16) as [Hlt|Hge].
  2:{ destruct (xid_desc t) as [[[[? ?] ?] ?] ?]. destruct (16 <=? t) eqn:E; [discriminate|lia]. }
  assert (Hcases : t = 0 \/ t = 1 \/ t = 2 \/ t = 3 \/ t = 4 \/ t = 5 \/ t = 6 \/ t = 7 \/ t = 8 \/ t = 9 \/ t = 10
    \/ t = 11 \/ t = 12 \/ t = 13 \/ t = 14 \/ t = 15) by lia.
  change (2 ^ 32) with 4294967296 in *.
  repeat destruct Hcases as [->|Hcases]; [..|subst t];
    try (discriminate Hvar);
    unfold xid_desc in Hv;
    match type of Hv with context [Z.to_nat ?x] => let y := eval compute in (Z.to_nat x) in change (Z.to_nat x) with y in Hv end;
    cbv beta iota in Hv; cbn [andb] in Hv;
    repeat match type of Hv with
    | (if ?b then _ else _) = true => destruct b eqn:?; try discriminate Hv
    end;
    rewrite ?negb_true_iff in Hv;
    try (constructor; change (2 ^ 32) with 4294967296; lia).
  assert (v = 0) as -> by lia. constructor.
Qed.

Lemma permitted_facts f : permitted (x_type f) (x_val f) -> x_var f = [] ->
  0 <= x_type f < 16 /\ xid_is_var (x_type f) = false /\ xid_is_valid f = true /\
  xid_get_len f = value_octets f /\ value_octets f = xid_desc_len (x_type f) /\
  ((value_octets f = 0 /\ x_val f = 0) \/ (value_octets f = 1 /\ 0 <= x_val f < 256) \/
   (value_octets f = 2 /\ 0 <= x_val f < 65536) \/ (value_octets f = 4 /\ 0 <= x_val f < 4294967296)).
Proof.
  destruct f as [t v var]. cbn [x_type x_val x_var]. intros Hp ->.
  change (2 ^ 32) with 4294967296.
  inversion Hp; subst; change (2 ^ 32) with 4294967296 in *;
    (split; [lia|]); (split; [reflexivity|]);
    (split; [|split; [reflexivity|]; split; [reflexivity|]; cbn [value_octets x_type existsb Z.eqb Pos.eqb orb]; lia]);
    unfold xid_is_valid, xid_desc; cbn [x_type x_val x_var];
    match goal with |- context [Z.to_nat ?x] => let y := eval compute in (Z.to_nat x) in change (Z.to_nat x) with y end;
    cbv beta iota; cbn [andb]; change (0 <? zlen (@nil Z)) with false; cbv iota;
    repeat match goal with |- (if ?b then _ else _) = true => destruct b eqn:?; try reflexivity; try lia end;
    try reflexivity; lia.
Qed.

Lemma var_facts f : x_type f = 11 -> bytes (x_var f) -> zlen (x_var f) <= 255 ->
  xid_is_var (x_type f) = true /\ xid_is_valid f = true /\ xid_get_len f = value_octets f /\
  value_octets f = zlen (x_var f).
Proof.
  intros Ht Hb Hl. destruct f as [t v var]. cbn [x_type x_var] in *. subst t.
  pose proof (zlen_nonneg var).
  split; [reflexivity|]. split; [reflexivity|]. unfold xid_get_len, value_octets. cbn [x_type x_var].
  change (xid_is_var 11) with true. cbv iota. cbn [Z.eqb Pos.eqb]. split; [|reflexivity]. apply Z.mod_small. lia.
Qed.

(** ** The header octets *)
Definition xhdr (t len : Z) : list Z :=
  let h0 := Z.shiftl (Z.land t 31) 2 in
  if len <? 4 then [Z.lor h0 len]
  else [Z.lor (Z.lor h0 128) (Z.land (Z.shiftr len 6) 3); Z.land (Z.shiftl len 2) 255].

Lemma xhdr_short t len : 0 <= t < 16 -> 0 <= len < 4 ->
  let h0 := Z.lor (Z.shiftl (Z.land t 31) 2) len in
  byte h0 /\ Z.land (Z.shiftr h0 2) 31 = t /\ tst h0 128 = false /\ Z.land h0 3 = len.
Proof.
  intros Ht Hl. cbv zeta.
  assert (E : Z.lor (Z.shiftl (Z.land t 31) 2) len = 4 * t + len).
  { bits2arith. rewrite (lor_add _ _ 2) by (change (2 ^ 2) with 4; lia). lia. }
  rewrite E. unfold byte. bits2arith. lia.
Qed.

Lemma xhdr_long t len : 0 <= t < 16 -> 4 <= len < 256 ->
  let h0 := Z.lor (Z.lor (Z.shiftl (Z.land t 31) 2) 128) (Z.land (Z.shiftr len 6) 3) in
  let h1 := Z.land (Z.shiftl len 2) 255 in
  byte h0 /\ byte h1 /\ Z.land (Z.shiftr h0 2) 31 = t /\ tst h0 128 = true /\
  Z.lor (Z.shiftl (Z.land h0 7) 6 mod 256) (Z.shiftr h1 2) mod 256 = len.
Proof.
  intros Ht Hl. cbv zeta.
  assert (E : Z.lor (Z.lor (Z.shiftl (Z.land t 31) 2) 128) (Z.land (Z.shiftr len 6) 3) = 128 + 4 * t + len / 64).
  { bits2arith. rewrite (Z.lor_comm _ 128).
    rewrite (lor_add 128 _ 7) by (change (2 ^ 7) with 128; lia).
    rewrite (lor_add _ _ 2) by (change (2 ^ 2) with 4; lia). lia. }
  rewrite E. unfold byte. bits2arith.
  rewrite (lor_add _ _ 6) by (change (2 ^ 6) with 64; lia). lia.
Qed.

Lemma load_store len v b : store_be len v = Some b -> (len = 1 /\ 0 <= v < 256) \/ (len = 2 /\ 0 <= v < 65536) \/
  (len = 4 /\ 0 <= v < 4294967296) -> load_be b = v /\ zlen b = len /\ bytes b.
Proof.
  intros Hs Hc. unfold store_be in Hs.
  destruct Hc as [[-> Hv]|[[-> Hv]|[-> Hv]]]; cbn in Hs; inversion Hs; subst b; clear Hs;
    unfold load_be; cbn [fold_left]; (split; [lia|]; split; [reflexivity|]);
    unfold bytes, byte; repeat constructor; lia.
Qed.

(** One field: what is appended. *)
Definition field_octets (f : xfield) : list Z :=
  xhdr (x_type f) (value_octets f) ++
  (if xid_is_var (x_type f) then x_var f
   else match store_be (value_octets f) (x_val f) with Some b => b | None => [] end).

Lemma valid_cases f : valid_field f ->
  0 <= x_type f < 16 /\ xid_is_valid f = true /\ xid_get_len f = value_octets f /\ 0 <= value_octets f <= 255 /\
  ((xid_is_var (x_type f) = true /\ value_octets f = zlen (x_var f) /\ bytes (x_var f) /\ x_val f = 0) \/
   (xid_is_var (x_type f) = false /\ x_var f = [] /\ 
   ((value_octets f = 0 /\ x_val f = 0) \/ (value_octets f = 1 /\ 0 <= x_val f < 256) \/
   (value_octets f = 2 /\ 0 <= x_val f < 65536) \/ (value_octets f = 4 /\ 0 <= x_val f < 4294967296)))).
Proof.
  intros [(Ht & Hv & Hb & Hl)|(Hp & Hv)].
  - destruct (var_facts f Ht Hb Hl) as (A & B & C & D). pose proof (zlen_nonneg (x_var f)).
    repeat split; try lia; try assumption. left. repeat split; assumption.
  - destruct (permitted_facts f Hp Hv) as (A & B & C & D & E & F).
    repeat split; try lia; try assumption. right. repeat split; assumption.
Qed.

Lemma field_octets_len f : valid_field f -> zlen (field_octets f) = wire_octets f /\ bytes (field_octets f).
Proof.
  intros Hv. destruct (valid_cases f Hv) as (Ht & Hval & Hgl & Hr & Hc).
  unfold field_octets, wire_octets, xhdr. rewrite zlen_app.
  assert (Hh : zlen (if value_octets f <? 4 then [Z.lor (Z.shiftl (Z.land (x_type f) 31) 2) (value_octets f)]
     else [Z.lor (Z.lor (Z.shiftl (Z.land (x_type f) 31) 2) 128) (Z.land (Z.shiftr (value_octets f) 6) 3);
        Z.land (Z.shiftl (value_octets f) 2) 255]) = 1 + (if 4 <=? value_octets f then 1 else 0)).
  { destruct (value_octets f <? 4) eqn:E; destruct (4 <=? value_octets f) eqn:E'; try lia; reflexivity. }
  assert (Hhb : bytes (if value_octets f <? 4 then [Z.lor (Z.shiftl (Z.land (x_type f) 31) 2) (value_octets f)]
     else [Z.lor (Z.lor (Z.shiftl (Z.land (x_type f) 31) 2) 128) (Z.land (Z.shiftr (value_octets f) 6) 3);
        Z.land (Z.shiftl (value_octets f) 2) 255])).
  { destruct (value_octets f <? 4) eqn:E.
    - constructor; [apply xhdr_short; lia|constructor].
    - destruct (xhdr_long (x_type f) (value_octets f)) as (A & B & _); [lia|lia|]. constructor; [exact A|]. constructor; [exact B|constructor]. }
  rewrite Hh.
  destruct Hc as [(Hvar & Hl & Hb & _)|(Hvar & Hnil & Hc)]; rewrite Hvar.
  - split; [lia|]. apply Forall_app; split; assumption.
  - destruct Hc as [(H0 & Hz)|Hc].
    + rewrite H0 in *. change (store_be 0 (x_val f)) with (@None (list Z)). rewrite app_nil_r. split; [reflexivity|exact Hhb].
    + destruct (store_be (value_octets f) (x_val f)) as [b|] eqn:Eb.
      * destruct (load_store _ _ _ Eb Hc) as (_ & Hbl & Hbb). rewrite Hbl. split; [lia|].
        apply Forall_app; split; assumption.
      * exfalso. destruct Hc as [[E _]|[[E _]|[E _]]]; rewrite E in Eb; discriminate.
Qed.

Lemma enc_field_ok cap out f : valid_field f -> zlen out + wire_octets f <= cap ->
  xid_enc_field cap out f = Ok (out ++ field_octets f).
Proof.
  intros Hv Hcap. destruct (valid_cases f Hv) as (Ht & Hval & Hgl & Hr & Hc).
  unfold xid_enc_field. rewrite Hval. cbn [negb]. rewrite Hgl. unfold wire_octets in Hcap.
  destruct (cap <=? zlen out) eqn:E1; [destruct (4 <=? value_octets f); lia|].
  unfold field_octets, xhdr.
  destruct (value_octets f =? 0) eqn:E0.
  { replace (value_octets f) with 0 in * by lia. cbn [Z.ltb Z.compare]. rewrite Z.lor_0_r.
    destruct Hc as [(Hvar & Hl & Hb & _)|(Hvar & Hnil & Hc)]; rewrite Hvar.
    - destruct (x_var f); [rewrite app_nil_r; reflexivity|]. rewrite zlen_cons in Hl. pose proof (zlen_nonneg l). lia.
    - rewrite app_nil_r. reflexivity. }
  destruct (value_octets f <? 4) eqn:E4; cbn [bind].
  - replace (4 <=? value_octets f) with false in Hcap by lia.
    rewrite zlen_app. change (zlen [_]) with 1.
    destruct (cap <? zlen out + 1 + value_octets f) eqn:E5; [lia|].
    destruct Hc as [(Hvar & Hl & Hb & _)|(Hvar & Hnil & Hc)]; rewrite Hvar.
    + rewrite <- app_assoc. rewrite Hl. unfold zlen. rewrite Nat2Z.id, firstn_all. reflexivity.
    + destruct (store_be (value_octets f) (x_val f)) eqn:Eb; [rewrite <- app_assoc; reflexivity|].
      exfalso. destruct Hc as [[E _]|[[E _]|[[E _]|[E _]]]]; rewrite E in *; try discriminate.
  - replace (4 <=? value_octets f) with true in Hcap by lia.
    destruct (cap <=? zlen out + 1) eqn:E6; [lia|]. cbn [bind].
    rewrite zlen_app. change (zlen [_; _]) with 2.
    destruct (cap <? zlen out + 2 + value_octets f) eqn:E5; [lia|].
    destruct Hc as [(Hvar & Hl & Hb & _)|(Hvar & Hnil & Hc)]; rewrite Hvar.
    + rewrite <- app_assoc. rewrite Hl. unfold zlen. rewrite Nat2Z.id, firstn_all. reflexivity.
    + destruct (store_be (value_octets f) (x_val f)) eqn:Eb; [rewrite <- app_assoc; reflexivity|].
      exfalso. destruct Hc as [[E _]|[[E _]|[[E _]|[E _]]]]; rewrite E in *; try discriminate.
Qed.

Lemma wire_octets_pos f : valid_field f -> 1 <= wire_octets f.
Proof. intros Hv. destruct (valid_cases f Hv) as (_ & _ & _ & Hr & _). unfold wire_octets. destruct (4 <=? value_octets f); lia. Qed.

Lemma wire_size_nonneg fs : Forall valid_field fs -> 0 <= wire_size fs.
Proof. induction 1 as [|f fs Hf _ IH]; cbn [wire_size fold_right]; [lia|]. fold (wire_size fs). pose proof (wire_octets_pos f Hf). lia. Qed.

Lemma enc_loop_ok cap fs : Forall valid_field fs -> forall out, zlen out + wire_size fs <= cap ->
  xid_enc_loop cap out fs = Ok (out ++ flat_map field_octets fs).
Proof.
  induction 1 as [|f fs Hf Hfs IH]; intros out Hcap; cbn [xid_enc_loop flat_map].
  - now rewrite app_nil_r.
  - cbn [wire_size fold_right] in Hcap. fold (wire_size fs) in Hcap.
    pose proof (wire_size_nonneg fs Hfs).
    rewrite enc_field_ok by (assumption || lia). cbn [bind].
    rewrite IH; [now rewrite <- app_assoc|].
    rewrite zlen_app. destruct (field_octets_len f Hf) as [-> _]. lia.
Qed.

(** One iteration of the decoder on one encoded field. *)
Lemma dec_field fuel pre f rest cnt max : valid_field f -> cnt + 1 <= max ->
  xid_dec_loop (S fuel) (pre ++ field_octets f ++ rest) (zlen pre) (zlen (field_octets f ++ rest)) cnt max =
  (do r <- xid_dec_loop fuel (pre ++ field_octets f ++ rest) (zlen (pre ++ field_octets f)) (zlen rest) (cnt + 1) max;
   Ok (f :: r)).
Proof.
  intros Hv Hmax. destruct (valid_cases f Hv) as (Ht & Hval & Hgl & Hr & Hc).
  destruct (field_octets_len f Hv) as (Hlen & _).
  pose proof (zlen_nonneg rest) as Hrest. pose proof (wire_octets_pos f Hv) as Hwp.
  cbn [xid_dec_loop]. rewrite zlen_app, Hlen.
  destruct (wire_octets f + zlen rest <=? 0) eqn:E0; [lia|].
  destruct (max <? cnt + 1) eqn:E1; [lia|].
  (* value octets *)
  set (val := if xid_is_var (x_type f) then x_var f
              else match store_be (value_octets f) (x_val f) with Some b => b | None => [] end).
  assert (Hvl : zlen val = value_octets f).
  { unfold val. destruct Hc as [(Hvar & Hl & Hb & _)|(Hvar & Hnil & Hc)]; rewrite Hvar; [lia|].
    destruct Hc as [(H0 & Hz)|Hc]; [rewrite H0; reflexivity|].
    destruct (store_be (value_octets f) (x_val f)) as [b|] eqn:Eb; [apply (load_store _ _ _ Eb Hc)|].
    exfalso. destruct Hc as [[E _]|[[E _]|[E _]]]; rewrite E in Eb; discriminate. }
  assert (Hfo : field_octets f = xhdr (x_type f) (value_octets f) ++ val) by reflexivity.
  assert (Hpayload : rdn (pre ++ field_octets f ++ rest) (zlen pre + zlen (xhdr (x_type f) (value_octets f))) (value_octets f) = Ok val).
  { rewrite rdn_app_r by apply zlen_nonneg. rewrite Hfo, <- app_assoc, <- Hvl. apply rdn_prefix. }
  assert (Hdone : forall pos', pos' = zlen (pre ++ field_octets f) -> forall dl', dl' = zlen rest ->
     (do f' <- (if xid_is_var (x_type f) then
               do v <- Ok val; Ok (mkx (x_type f) 0 v)
             else if (value_octets f =? 0) || (value_octets f =? 1) || (value_octets f =? 2) || (value_octets f =? 4) then
               do v <- Ok val;
               let f := mkx (x_type f) (load_be v) [] in
               if xid_is_valid f then Ok f else Err (- EINVAL)
             else Err (- EINVAL));
      do r <- xid_dec_loop fuel (pre ++ field_octets f ++ rest) pos' dl' (cnt + 1) max; Ok (f' :: r)) =
     (do r <- xid_dec_loop fuel (pre ++ field_octets f ++ rest) (zlen (pre ++ field_octets f)) (zlen rest) (cnt + 1) max;
      Ok (f :: r))).
  { intros pos' -> dl' ->. unfold val in *.
    destruct Hc as [(Hvar & Hl & Hb & Hz)|(Hvar & Hnil & Hc)]; rewrite Hvar in *; cbn [bind].
    - replace (mkx (x_type f) 0 (x_var f)) with f; [reflexivity|]. destruct f; cbn in *; subst; reflexivity.
    - assert (Hmem : (value_octets f =? 0) || (value_octets f =? 1) || (value_octets f =? 2) || (value_octets f =? 4) = true) by lia.
      rewrite Hmem.
      assert (Hload : load_be match store_be (value_octets f) (x_val f) with Some b => b | None => [] end = x_val f).
      { destruct Hc as [(H0 & Hz)|Hc]; [rewrite H0, Hz; reflexivity|].
        destruct (store_be (value_octets f) (x_val f)) as [b|] eqn:Eb; [apply (load_store _ _ _ Eb Hc)|].
        exfalso. destruct Hc as [[E _]|[[E _]|[E _]]]; rewrite E in Eb; discriminate. }
      rewrite Hload. replace (mkx (x_type f) (x_val f) []) with f by (destruct f; cbn in *; subst; reflexivity).
      rewrite Hval. reflexivity. }
  unfold xhdr in Hfo, Hpayload.
  destruct (value_octets f <? 4) eqn:E4.
  - destruct (xhdr_short (x_type f) (value_octets f) Ht ltac:(lia)) as (B0 & B1 & B2 & B3).
    set (h0 := Z.lor (Z.shiftl (Z.land (x_type f) 31) 2) (value_octets f)) in *.
    assert (R0 : rd (pre ++ field_octets f ++ rest) (zlen pre) = Ok h0).
    { rewrite <- (Z.add_0_r (zlen pre)). rewrite rd_app_r by lia. rewrite Hfo. rewrite rd_ok; [reflexivity|].
      rewrite !zlen_app. change (zlen [h0]) with 1. pose proof (zlen_nonneg val). lia. }
    rewrite R0. cbn [bind]. rewrite B1, B2, B3.
    destruct (16 <=? x_type f) eqn:E16; [lia|]. cbn [bind]. cbv beta iota.
    unfold wire_octets. replace (4 <=? value_octets f) with false by lia.
    destruct (1 + 0 + value_octets f + zlen rest - 1 - (1 - 1) <? value_octets f) eqn:E5; [lia|].
    change (zlen [h0]) with 1 in Hpayload. rewrite Hpayload.
    apply Hdone; [rewrite zlen_app, Hlen; unfold wire_octets; replace (4 <=? value_octets f) with false by lia; lia|lia].
  - destruct (xhdr_long (x_type f) (value_octets f) Ht ltac:(lia)) as (B0 & Bb & B1 & B2 & B3).
    set (h0 := Z.lor (Z.lor (Z.shiftl (Z.land (x_type f) 31) 2) 128) (Z.land (Z.shiftr (value_octets f) 6) 3)) in *.
    set (h1 := Z.land (Z.shiftl (value_octets f) 2) 255) in *.
    pose proof (zlen_nonneg val).
    assert (R0 : rd (pre ++ field_octets f ++ rest) (zlen pre) = Ok h0).
    { rewrite <- (Z.add_0_r (zlen pre)). rewrite rd_app_r by lia. rewrite Hfo. rewrite rd_ok; [reflexivity|].
      rewrite !zlen_app. change (zlen [h0; h1]) with 2. lia. }
    assert (R1 : rd (pre ++ field_octets f ++ rest) (zlen pre + 1) = Ok h1).
    { rewrite rd_app_r by lia. rewrite Hfo. rewrite rd_ok; [reflexivity|].
      rewrite !zlen_app. change (zlen [h0; h1]) with 2. lia. }
    rewrite R0. cbn [bind]. rewrite B1, B2.
    destruct (16 <=? x_type f) eqn:E16; [lia|].
    unfold wire_octets. replace (4 <=? value_octets f) with true by lia.
    destruct (1 + 1 + value_octets f + zlen rest - 1 <? 1) eqn:E6; [lia|].
    rewrite R1. cbn [bind]. rewrite B3. cbv beta iota.
    destruct (1 + 1 + value_octets f + zlen rest - 1 - (2 - 1) <? value_octets f) eqn:E5; [lia|].
    change (zlen [h0; h1]) with 2 in Hpayload. rewrite Hpayload.
    apply Hdone; [rewrite zlen_app, Hlen; unfold wire_octets; replace (4 <=? value_octets f) with true by lia; lia|lia].
Qed.

Lemma dec_loop_ok fs : Forall valid_field fs -> forall fuel pre cnt max,
  (length fs <= fuel)%nat -> cnt + zlen fs <= max ->
  xid_dec_loop fuel (pre ++ flat_map field_octets fs) (zlen pre) (zlen (flat_map field_octets fs)) cnt max = Ok fs.
Proof.
  induction 1 as [|f fs Hf Hfs IH]; intros fuel pre cnt max Hfuel Hmax.
  - cbn [flat_map]. change (zlen (@nil Z)) with 0. destruct fuel; reflexivity.
  - destruct fuel as [|fuel]; [cbn in Hfuel; lia|]. cbn [length] in Hfuel.
    rewrite zlen_cons in Hmax. pose proof (zlen_nonneg fs).
    cbn [flat_map]. rewrite dec_field by (assumption || lia).
    rewrite app_assoc. rewrite IH by lia. reflexivity.
Qed.

Lemma flat_len fs : Forall valid_field fs -> (length fs <= length (flat_map field_octets fs))%nat /\ bytes (flat_map field_octets fs)
  /\ zlen (flat_map field_octets fs) = wire_size fs.
Proof.
  induction 1 as [|f fs Hf Hfs IH]; cbn [flat_map length]; [repeat split; [lia|constructor]|].
  destruct IH as (IH & IHb & IHl).
  destruct (field_octets_len f Hf) as (Hl & Hb). pose proof (wire_octets_pos f Hf). rewrite app_length. unfold zlen in Hl.
  split; [lia|]. split; [apply Forall_app; split; assumption|]. rewrite zlen_app. cbn [wire_size fold_right]. fold (wire_size fs). rewrite IHl. unfold zlen. lia.
Qed.

Lemma xid_round_trip fs cap max : Forall valid_field fs -> wire_size fs <= cap -> zlen fs <= max ->
  exists bs, xid_encode cap fs = Ok bs /\ bytes bs /\ zlen bs = wire_size fs /\ xid_decode bs max = Ok fs.
Proof.
  intros Hv Hcap Hmax. exists (flat_map field_octets fs).
  destruct (flat_len fs Hv) as (Hl & Hb & Hz).
  split; [|split; [exact Hb|split; [exact Hz|]]].
  - unfold xid_encode. rewrite enc_loop_ok; [reflexivity|exact Hv|]. change (zlen (@nil Z)) with 0. lia.
  - unfold xid_decode. apply (dec_loop_ok fs Hv _ []); lia.
Qed.

(** ** The encoder never overflows its buffer and only emits valid fields *)
Definition enc_good (cap : Z) (r : res (list Z)) : Prop :=
  match r with Ok bs => zlen bs <= cap | Err e => e = - EINVAL | UB => False end.

Lemma load_be_bound l : bytes l -> 0 <= load_be l < 256 ^ zlen l.
Proof.
  intros Hb. unfold load_be.
  assert (G : forall a k, 0 <= k -> 0 <= a < 256 ^ k -> 0 <= fold_left (fun a b => a * 256 + b) l a < 256 ^ (k + zlen l)).
  { induction Hb as [|x l Hx Hl IH]; intros a k Hk Ha; cbn [fold_left].
    - change (zlen (@nil Z)) with 0. rewrite Z.add_0_r. exact Ha.
    - rewrite zlen_cons. replace (k + (zlen l + 1)) with (k + 1 + zlen l) by lia. apply IH; [lia|].
      rewrite Z.pow_add_r by lia. unfold byte in Hx. change (256 ^ 1) with 256. lia. }
  specialize (G 0 0 ltac:(lia) ltac:(cbn; lia)). exact G.
Qed.

Definition dec_good (max cnt : Z) (r : res (list xfield)) : Prop :=
  match r with
  | Ok fs => cnt + zlen fs <= max /\ Forall valid_field fs
  | Err e => e = - EINVAL \/ e = - ENOMEM
  | UB => False
  end.

Lemma dec_safe data max : bytes data -> forall fuel pos dl cnt,
  0 <= pos -> 0 <= dl -> pos + dl = zlen data -> dl <= Z.of_nat fuel -> cnt <= max ->
  dec_good max cnt (xid_dec_loop fuel data pos dl cnt max).
Proof.
  intros Hb. induction fuel as [|fuel IH]; intros pos dl cnt Hpos Hdl Heq Hf Hcnt.
  - cbn. destruct (dl <=? 0) eqn:E; [|lia]. cbn. change (zlen (@nil xfield)) with 0. split; [lia|constructor].
  - cbn [xid_dec_loop]. destruct (dl <=? 0) eqn:E0; [cbn; change (zlen (@nil xfield)) with 0; split; [lia|constructor]|].
    destruct (max <? cnt + 1) eqn:E1; [right; reflexivity|].
    rewrite (rd_ok data pos) by lia. cbn [bind].
    pose proof (nth_byte data pos Hb ltac:(lia)) as Hh0. set (h0 := nth (Z.to_nat pos) data 0) in *.
    set (t := Z.land (Z.shiftr h0 2) 31).
    assert (Htr : 0 <= t < 32) by (unfold t; bits2arith; lia).
    destruct (16 <=? t) eqn:E2; [left; reflexivity|].
    set (HL := if tst h0 128 then _ else _).
    assert (HHL : match HL with
                  | Ok (hlen, len) => 1 <= hlen <= 2 /\ 0 <= len < 256 /\ hlen <= dl
                  | Err e => e = - EINVAL | UB => False end).
    { unfold HL. destruct (tst h0 128).
      - destruct (dl - 1 <? 1) eqn:E3; [reflexivity|]. rewrite rd_ok by lia. cbn [bind].
        split; [lia|]. split; [|lia]. apply Z.mod_pos_bound. lia.
      - split; [lia|]. split; [|lia]. bits2arith. lia. }
    destruct HL as [[hlen len]|e|]; [|cbn; left; exact HHL|exact HHL].
    destruct HHL as (Hhl & Hlen & Hle). cbn [bind].
    destruct (dl - 1 - (hlen - 1) <? len) eqn:E4; [left; reflexivity|].
    assert (Hrest : forall f, valid_field f ->
      dec_good max cnt (do f' <- Ok f; do r <- xid_dec_loop fuel data (pos + hlen + len) (dl - 1 - (hlen - 1) - len) (cnt + 1) max; Ok (f' :: r))).
    { intros f Hvf. cbn [bind].
      specialize (IH (pos + hlen + len) (dl - 1 - (hlen - 1) - len) (cnt + 1) ltac:(lia) ltac:(lia) ltac:(lia) ltac:(lia) ltac:(lia)).
      destruct (xid_dec_loop fuel data _ _ _ _) as [r|e|]; cbn [bind]; cbn [dec_good] in IH |- *; [|exact IH|exact IH].
      rewrite zlen_cons. destruct IH as [IH1 IH2]. split; [lia|constructor; assumption]. }
    destruct (xid_is_var t) eqn:Ev.
    + rewrite rdn_ok by lia. cbn [bind]. apply Hrest. left. cbn [x_type x_val x_var].
      assert (Hbs : bytes (slice (Z.to_nat (pos + hlen)) (Z.to_nat len) data)) by (apply bytes_slice, Hb).
      split; [|split; [reflexivity|split; [exact Hbs|]]].
      * assert (Hcases : t = 0 \/ t = 1 \/ t = 2 \/ t = 3 \/ t = 4 \/ t = 5 \/ t = 6 \/ t = 7 \/ t = 8 \/ t = 9 \/ t = 10
          \/ t = 11 \/ t = 12 \/ t = 13 \/ t = 14 \/ t = 15) by lia.
        clearbody t. repeat destruct Hcases as [->|Hcases]; try discriminate Ev; try reflexivity. subst t; discriminate Ev.
      * unfold zlen, slice. rewrite firstn_length. lia.
    + destruct ((len =? 0) || (len =? 1) || (len =? 2) || (len =? 4)); [|left; reflexivity].
      rewrite rdn_ok by lia. cbn [bind].
      set (v := slice _ _ data). assert (Hbv : bytes v) by (apply bytes_slice, Hb).
      pose proof (load_be_bound v Hbv) as Hld.
      destruct (xid_is_valid (mkx t (load_be v) [])) eqn:Eval; [|left; reflexivity].
      apply Hrest. right. split; [|reflexivity].
      apply (valid_sound _ Eval); cbn [x_type x_val]; [lia|exact Ev|lia].
Qed.

Lemma xid_decode_safe data max : bytes data -> 0 <= max -> dec_good max 0 (xid_decode data max).
Proof. intros Hb Hm. unfold xid_decode. apply dec_safe; try lia; [exact Hb|apply zlen_nonneg|unfold zlen; lia]. Qed.

Lemma enc_field_safe cap out f : 0 <= cap -> 0 <= x_type f -> zlen out <= cap -> enc_good cap (xid_enc_field cap out f).
Proof.
  intros Hc Ht Ho. unfold xid_enc_field. pose proof (zlen_nonneg out).
  destruct (xid_is_valid f) eqn:Ev; cbn [negb]; [|reflexivity].
  destruct (cap <=? zlen out) eqn:E1; [reflexivity|].
  set (len := xid_get_len f).
  assert (Hlen : 0 <= len < 256 /\ (xid_is_var (x_type f) = false -> len = 0 \/ len = 1 \/ len = 2 \/ len = 4)).
  { unfold len, xid_get_len. destruct (xid_is_var (x_type f)) eqn:Evar.
    - split; [apply Z.mod_pos_bound; lia|discriminate].
    - assert (Hd : xid_desc_len (x_type f) = 0 \/ xid_desc_len (x_type f) = 1 \/ xid_desc_len (x_type f) = 2 \/ xid_desc_len (x_type f) = 4).
      { unfold xid_desc_len, xid_desc. generalize (Z.to_nat (x_type f)) as k. intros k.
        do 16 (destruct k as [|k]; [cbn; lia|]). cbn. lia. }
      split; [lia|intros _; exact Hd]. }
  destruct Hlen as (Hl & Hfix).
  destruct (len =? 0) eqn:E0.
  { cbn [enc_good]. rewrite zlen_app. change (zlen [_]) with 1. lia. }
  set (HD := if len <? 4 then _ else _).
  assert (HHD : match HD with Ok hd => zlen out + zlen hd <= cap | Err e => e = - EINVAL | UB => False end).
  { unfold HD. destruct (len <? 4); [change (zlen [_]) with 1; lia|].
    destruct (cap <=? zlen out + 1) eqn:E2; [reflexivity|]. change (zlen [_; _]) with 2. lia. }
  destruct HD as [hd|e|]; cbn [bind]; [|exact HHD|exact HHD].
  rewrite zlen_app.
  destruct (cap <? zlen out + zlen hd + len) eqn:E3; [reflexivity|].
  destruct (xid_is_var (x_type f)) eqn:Evar.
  - cbn [enc_good]. rewrite !zlen_app. assert (zlen (firstn (Z.to_nat len) (x_var f)) <= len); [|lia].
    unfold zlen. rewrite firstn_length. lia.
  - destruct (Hfix eq_refl) as [->|[->|[->| ->]]]; [lia|..]; cbn [store_be Z.eqb Pos.eqb enc_good];
      rewrite !zlen_app; match goal with |- context [zlen ?l] => idtac end;
      repeat match goal with |- context [zlen (?a :: ?l)] => let n := eval cbv [length] in (length (a :: l)) in
        let m := eval compute in (Z.of_nat n) in change (zlen (a :: l)) with m end; lia.
Qed.

Lemma enc_loop_safe cap fs : 0 <= cap -> Forall (fun f => 0 <= x_type f) fs ->
  forall out, zlen out <= cap -> enc_good cap (xid_enc_loop cap out fs).
Proof.
  intros Hc. induction 1 as [|f fs Hf Hfs IH]; intros out Ho; [exact Ho|].
  cbn [xid_enc_loop]. pose proof (enc_field_safe cap out f Hc Hf Ho) as H1.
  destruct (xid_enc_field cap out f) as [o|e|]; cbn [bind]; [|exact H1|exact H1]. apply IH, H1.
Qed.

Lemma xid_encode_safe cap fs : 0 <= cap -> Forall (fun f => 0 <= x_type f) fs -> enc_good cap (xid_encode cap fs).
Proof. intros Hc Hf. apply enc_loop_safe; [exact Hc|exact Hf|exact Hc]. Qed.
