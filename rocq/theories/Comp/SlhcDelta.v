(** Proofs about slhc.c: the change list restores the headers. *)
From Verif.Lib Require Import Base Outcome.
From Verif.Comp Require Import SlhcModel SlhcSpec SlhcProofs.

Lemma len20 (l : list Z) : length l = 20%nat -> exists a b c d e f g h i j k m n o p q r s t u, l = [a;b;c;d;e;f;g;h;i;j;k;m;n;o;p;q;r;s;t;u].
Proof. intros H. do 20 (destruct l as [|? l]; [discriminate|]). destruct l; [|discriminate]. do 20 eexists. reflexivity. Qed.

(** ** What [delta] says *)
Definition dW (c : cst) (th : list Z) : Z := at16 th 14 - at16 (c_tcp c) 14.
Definition dA (c : cst) (th : list Z) : Z := (at32 th 8 - at32 (c_tcp c) 8) mod 2 ^ 32.
Definition dS (c : cst) (th : list Z) : Z := (at32 th 4 - at32 (c_tcp c) 4) mod 2 ^ 32.
Definition dI (c : cst) (ip : list Z) : Z := at16 ip 4 - at16 (c_ip c) 4.
Definition isurg (th : list Z) : bool := tst (at8 th 13) 32.
Definition ispsh (th : list Z) : bool := tst (at8 th 13) 8.

Lemma delta_inv c ip ipopt th topt hlen ch seq : delta c ip ipopt th topt hlen = Some (ch, seq) ->
  unchanged c ip ipopt th topt = true /\ (isurg th = true \/ at16 th 18 = at16 (c_tcp c) 18) /\ dA c th <= 65535 /\ dS c th <= 65535 /\
  let i := negb (dI c ip =? 1) in let p := ispsh th in
  ((let u := isurg th in let w := negb (dW c th =? 0) in let a := negb (dA c th =? 0) in let s := negb (dS c th =? 0) in
    ch = mask u w a s i p /\ seq = oenc u (at16 th 18) ++ oenc w (dW c th) ++ oenc a (dA c th) ++ oenc s (dS c th) ++ oenc i (dI c ip) /\
    b2z u * 1 + b2z w * 2 + b2z a * 4 + b2z s * 8 <> 11 /\ b2z u * 1 + b2z w * 2 + b2z a * 4 + b2z s * 8 <> 15)
   \/ (isurg th = false /\ dW c th = 0 /\ dA c th = dS c th /\ dS c th = at16 (c_ip c) 2 - hlen /\ ch = mask true true false true i p /\ seq = oenc i (dI c ip))
   \/ (isurg th = false /\ dW c th = 0 /\ dA c th = 0 /\ dS c th = at16 (c_ip c) 2 - hlen /\ ch = mask true true true true i p /\ seq = oenc i (dI c ip))).
Proof.
  unfold delta. fold (dW c th) (dA c th) (dS c th) (dI c ip) (isurg th) (ispsh th). cbv zeta.
  destruct (unchanged c ip ipopt th topt); [|discriminate]. cbn [negb].
  destruct (negb (isurg th) && negb (at16 th 18 =? at16 (c_tcp c) 18)) eqn:EU; [discriminate|].
  destruct ((65535 <? dA c th) || (65535 <? dS c th)) eqn:EA; [discriminate|].
  intros H. split; [reflexivity|]. split; [destruct (isurg th); [left; reflexivity|right; cbn in EU; lia]|]. split; [lia|]. split; [lia|].
  revert H. unfold NEW_U, NEW_W, NEW_A, NEW_S, SPECIAL_I, SPECIAL_D, NEW_I, TCP_PUSH, mask, oenc.
  destruct (isurg th) eqn:Eu, (dW c th =? 0) eqn:Ew, (dA c th =? 0) eqn:Ea, (dS c th =? 0) eqn:Es; cbn [b2z negb]; cbn [Z.mul Z.add Z.eqb Pos.eqb Pos.mul Pos.add orb app];
    intros H;
    repeat match goal with
    | H : context [if ?b then _ else _] |- _ => let E := fresh "E" in destruct b eqn:E
    end; try discriminate; inversion H; subst; clear H; cbn [negb];
    repeat match goal with |- context [if ?b then _ else _] => let E := fresh "E" in destruct b eqn:E; try discriminate end;
    rewrite ?app_nil_r, <- ?app_assoc; cbn [app];
    try (left; repeat split; [reflexivity..|lia|lia]);
    try (right; left; repeat split; lia || reflexivity);
    try (right; right; repeat split; lia || reflexivity).
Qed.

(** ** The decompressor's side *)
Lemma dec_stage {A} (c : bool) N pre rest (f : Z -> A) g :
  (if c then do x <- decode (pre ++ oenc c N ++ rest) (zlen pre); Ok (f (fst x), snd x) else Ok (g, zlen pre)) =
  Ok (if c then f (N mod 65536) else g, zlen (pre ++ oenc c N)).
Proof. destruct c; unfold oenc; [rewrite (decode_encode pre N rest _ eq_refl); cbn [bind fst snd]; rewrite zlen_app; reflexivity|rewrite app_nil_r; reflexivity]. Qed.
Lemma dec_stage' (c : bool) N pre rest (f : list Z -> Z -> list Z) g :
  (if c then do x <- decode (pre ++ oenc c N ++ rest) (snd (g, zlen pre)); Ok (f (fst (g, zlen pre)) (fst x), snd x) else Ok (g, zlen pre)) =
  Ok (if c then f g (N mod 65536) else g, zlen (pre ++ oenc c N)).
Proof. exact (dec_stage c N pre rest (f g) g). Qed.

Definition set_u (u : bool) (U : Z) (th : list Z) : list Z :=
  if u then ow (ow th 13 [Z.lor (at8 th 13) 0x20]) 18 (be16 U) else ow th 13 [Z.land (at8 th 13) 0xdf].
Definition set_w (w : bool) (W : Z) (th : list Z) : list Z := if w then ow th 14 (be16 (at16 th 14 + W)) else th.
Definition set_a (a : bool) (A : Z) (th : list Z) : list Z := if a then ow th 8 (be32 (at32 th 8 + A)) else th.
Definition set_s (s : bool) (S : Z) (th : list Z) : list Z := if s then ow th 4 (be32 (at32 th 4 + S)) else th.

Lemma un_tcp_normal u w a s i p c U W A S pre post ip th hdrlen :
  b2z u * 1 + b2z w * 2 + b2z a * 4 + b2z s * 8 <> 11 -> b2z u * 1 + b2z w * 2 + b2z a * 4 + b2z s * 8 <> 15 ->
  un_tcp (Z.lor (mask u w a s i p) (if c : bool then 64 else 0)) ip th hdrlen (pre ++ oenc u U ++ oenc w W ++ oenc a A ++ oenc s S ++ post) (zlen pre) =
  Ok (set_s s (S mod 65536) (set_a a (A mod 65536) (set_w w (W mod 65536) (set_u u (U mod 65536) th))),
      zlen ((((pre ++ oenc u U) ++ oenc w W) ++ oenc a A) ++ oenc s S)).
Proof.
  intros N1 N2. unfold un_tcp. destruct (mask_bits u w a s i p c) as (B1 & B2 & B3 & B4 & _ & _ & _ & B5 & _).
  set (m := Z.lor _ _) in *. cbv zeta in *. unfold SPECIALS_MASK, SPECIAL_I, SPECIAL_D. rewrite B5.
  rewrite (proj2 (Z.eqb_neq _ _) N1), (proj2 (Z.eqb_neq _ _) N2). rewrite B1, B2, B3, B4. clear B1 B2 B3 B4 B5 m N1 N2.
  rewrite (dec_stage u U pre _ (fun x => ow (ow th 13 [Z.lor (at8 th 13) 0x20]) 18 (be16 x)) (ow th 13 [Z.land (at8 th 13) 0xdf])).
  fold (set_u u (U mod 65536) th). cbn [bind]. rewrite app_assoc.
  rewrite (dec_stage' w W (pre ++ oenc u U) _ (fun t x => ow t 14 (be16 (at16 t 14 + x)))). fold (set_w w (W mod 65536) (set_u u (U mod 65536) th)). cbn [bind]. rewrite app_assoc.
  rewrite (dec_stage' a A _ _ (fun t x => ow t 8 (be32 (at32 t 8 + x)))). fold (set_a a (A mod 65536) (set_w w (W mod 65536) (set_u u (U mod 65536) th))). cbn [bind]. rewrite app_assoc.
  rewrite (dec_stage' s S _ _ (fun t x => ow t 4 (be32 (at32 t 4 + x)))). reflexivity.
Qed.

(** ** Headers *)
Lemma flag_form f : byte f -> f mod 8 = 0 -> f / 16 mod 2 = 1 ->
  f = f / 64 * 64 + b2z (tst f 32) * 32 + 16 + b2z (tst f 8) * 8 /\ 0 <= f / 64 < 4.
Proof.
  intros Hb H1 H2. set (P := fun f => negb ((f mod 8 =? 0) && (f / 16 mod 2 =? 1)) || (f =? f / 64 * 64 + b2z (tst f 32) * 32 + 16 + b2z (tst f 8) * 8)).
  assert (P f = true) as HP by (apply (byte_sweep P); [vm_compute; reflexivity|exact Hb]). unfold P in HP. unfold byte in Hb. lia.
Qed.
Lemma urg_bit f : tst f 32 = negb (f / 32 mod 2 =? 0).
Proof. apply (tst_bit f 5). lia. Qed.
(** The flags octet after [psh] and [urg] were assigned. *)
Lemma flags_restored f f0 : byte f -> byte f0 -> f mod 8 = 0 -> f / 16 mod 2 = 1 -> f0 mod 8 = 0 -> f0 / 16 mod 2 = 1 -> f / 64 = f0 / 64 ->
  let f1 := if tst f 8 then Z.lor f0 8 else Z.land f0 0xf7 in
  (if tst f 32 then Z.lor f1 32 else Z.land f1 0xdf) = f /\ (tst f 32 = false -> tst f0 32 = false -> f1 = f).
Proof.
  intros B B0 H1 H2 H3 H4 HK. destruct (flag_form f B H1 H2) as [E Hk]. destruct (flag_form f0 B0 H3 H4) as [E0 Hk0].
  rewrite <- HK in E0. set (k := f / 64) in *. set (u := tst f 32) in *. set (p := tst f 8) in *. set (u0 := tst f0 32) in *. set (p0 := tst f0 8) in *.
  clearbody u p u0 p0 k. cbv zeta. rewrite E, E0.
  assert (k = 0 \/ k = 1 \/ k = 2 \/ k = 3) as [->|[->|[->| ->]]] by lia; destruct u, p, u0, p0; cbv; repeat split; discriminate || reflexivity.
Qed.
Lemma frag_same a b c d : byte a -> byte b -> byte c -> byte d -> (a * 256 + b) mod 0x4000 = 0 -> (c * 256 + d) mod 0x4000 = 0 ->
  Z.land (a * 256 + b) 0x4000 = Z.land (c * 256 + d) 0x4000 -> a / 128 = c / 128 -> a = c /\ b = d.
Proof.
  unfold byte. intros Ha Hb Hc Hd H1 H2 H3 H4. change 0x4000 with (2 ^ 14) in *. rewrite !land_single_bit in H3 by lia. change (2 ^ 14) with 16384 in *. lia.
Qed.

(** The headers of a packet, taken apart. *)
Record parts (p ip ipopt th topt data : list Z) : Prop := mkParts {
  P_eq : p = ip ++ ipopt ++ th ++ topt ++ data; P_b : bytes p; P_ip : length ip = 20%nat; P_th : length th = 20%nat;
  P_io : zlen ipopt = (ihl ip - 5) * 4; P_to : zlen topt = (doff th - 5) * 4; P_v : at8 ip 0 / 16 = 4; P_p : at8 ip 9 = 6;
  P_f : at16 ip 6 mod 0x4000 = 0; P_f1 : at8 th 13 mod 8 = 0; P_f2 : at8 th 13 / 16 mod 2 = 1 }.
(** What a state keeps of them: a sender, and a receiver (whose IP checksum may be gone). *)
Definition keeps (c : cst) (ip ipopt th topt : list Z) : Prop :=
  c_ip c = ip /\ c_tcp c = th /\ firstn (length ipopt) (c_ipopt c) = ipopt /\ firstn (length topt) (c_tcpopt c) = topt.
Definition keepr (c : cst) (ip ipopt th topt : list Z) : Prop :=
  (exists ck, length ck = 2%nat /\ bytes ck /\ c_ip c = ow ip 10 ck) /\ c_tcp c = th /\ firstn (length ipopt) (c_ipopt c) = ipopt /\ firstn (length topt) (c_tcpopt c) = topt.

Ltac bytes20 H := unfold bytes in H; repeat match type of H with Forall _ (_ :: _) => let H1 := fresh "B" in let H2 := fresh "BT" in inversion H as [|? ? H1 H2]; clear H; subst; rename H2 into H end; clear H.

Lemma set_u_eq (u : bool) U t0 t1 t2 t3 t4 t5 t6 t7 t8 t9 t10 t11 t12 t13 t14 t15 t16 t17 t18 t19 f x y :
  (if u then Z.lor t13 32 else Z.land t13 0xdf) = f -> (if u then be16 U else [t18; t19]) = [x; y] ->
  set_u u U [t0;t1;t2;t3;t4;t5;t6;t7;t8;t9;t10;t11;t12;t13;t14;t15;t16;t17;t18;t19] = [t0;t1;t2;t3;t4;t5;t6;t7;t8;t9;t10;t11;t12;f;t14;t15;t16;t17;x;y].
Proof. intros <- H. destruct u; unfold set_u, at8; cbn [nth]; [rewrite H; reflexivity|injection H as <- <-; reflexivity]. Qed.
Lemma set_w_eq (w : bool) W t0 t1 t2 t3 t4 t5 t6 t7 t8 t9 t10 t11 t12 t13 t14 t15 t16 t17 t18 t19 x y :
  (if w then be16 (t14 * 256 + t15 + W) else [t14; t15]) = [x; y] ->
  set_w w W [t0;t1;t2;t3;t4;t5;t6;t7;t8;t9;t10;t11;t12;t13;t14;t15;t16;t17;t18;t19] = [t0;t1;t2;t3;t4;t5;t6;t7;t8;t9;t10;t11;t12;t13;x;y;t16;t17;t18;t19].
Proof. intros H. destruct w; unfold set_w, at16, at8; cbn [nth Nat.add]; [rewrite H; reflexivity|injection H as <- <-; reflexivity]. Qed.
Lemma set_a_eq (a : bool) A t0 t1 t2 t3 t4 t5 t6 t7 t8 t9 t10 t11 t12 t13 t14 t15 t16 t17 t18 t19 w x y z :
  (if a then be32 ((t8 * 256 + t9) * 65536 + (t10 * 256 + t11) + A) else [t8; t9; t10; t11]) = [w; x; y; z] ->
  set_a a A [t0;t1;t2;t3;t4;t5;t6;t7;t8;t9;t10;t11;t12;t13;t14;t15;t16;t17;t18;t19] = [t0;t1;t2;t3;t4;t5;t6;t7;w;x;y;z;t12;t13;t14;t15;t16;t17;t18;t19].
Proof. intros H. destruct a; unfold set_a, at32, at16, at8; cbn [nth Nat.add]; [rewrite H; reflexivity|injection H as <- <- <- <-; reflexivity]. Qed.
Lemma set_s_eq (a : bool) A t0 t1 t2 t3 t4 t5 t6 t7 t8 t9 t10 t11 t12 t13 t14 t15 t16 t17 t18 t19 w x y z :
  (if a then be32 ((t4 * 256 + t5) * 65536 + (t6 * 256 + t7) + A) else [t4; t5; t6; t7]) = [w; x; y; z] ->
  set_s a A [t0;t1;t2;t3;t4;t5;t6;t7;t8;t9;t10;t11;t12;t13;t14;t15;t16;t17;t18;t19] = [t0;t1;t2;t3;w;x;y;z;t8;t9;t10;t11;t12;t13;t14;t15;t16;t17;t18;t19].
Proof. intros H. destruct a; unfold set_s, at32, at16, at8; cbn [nth Nat.add]; [rewrite H; reflexivity|injection H as <- <- <- <-; reflexivity]. Qed.
Lemma num32_eq a b c d e f g h D : byte a -> byte b -> byte c -> byte d -> byte e -> byte f -> byte g -> byte h ->
  D = ((a * 256 + b) * 65536 + (c * 256 + d) - ((e * 256 + f) * 65536 + (g * 256 + h))) mod 4294967296 -> D <= 65535 ->
  (if negb (D =? 0) then be32 ((e * 256 + f) * 65536 + (g * 256 + h) + D mod 65536) else [e; f; g; h]) = [a; b; c; d].
Proof.
  intros Ba Bb Bc Bd Be Bf Bg Bh HD HL. destruct (D =? 0) eqn:E; cbn [negb].
  - unfold byte in *. repeat (f_equal; try lia).
  - apply be32_at; try assumption. change (2 ^ 32) with 4294967296. unfold byte in *. lia.
Qed.

(** The TCP header restored from the one before. *)
Lemma tcp_restored c ip ipopt th topt hlen ch seq (cc : bool) pre post ip' th0 :
  delta c ip ipopt th topt hlen = Some (ch, seq) -> c_tcp c = th0 -> length th = 20%nat -> length th0 = 20%nat -> bytes th -> bytes th0 ->
  at8 th 13 mod 8 = 0 -> at8 th 13 / 16 mod 2 = 1 -> at8 th0 13 mod 8 = 0 -> at8 th0 13 / 16 mod 2 = 1 ->
  slice 0 4 th = slice 0 4 th0 -> at8 th 12 mod 16 = at8 th0 12 mod 16 -> at8 th 13 / 64 = at8 th0 13 / 64 -> (isurg th0 = true -> isurg th = true) ->
  at16 ip' 2 = at16 (c_ip c) 2 -> at16 (c_ip c) 2 - hlen <= 32767 ->
  let t1 := ow th0 16 (slice 16 2 th) in let t2 := ow t1 13 [if ispsh th then Z.lor (at8 t1 13) 8 else Z.land (at8 t1 13) 0xf7] in
  exists s0, seq = s0 ++ oenc (negb (dI c ip =? 1)) (dI c ip) /\
  un_tcp (Z.lor ch (if cc then 64 else 0)) ip' t2 hlen (pre ++ seq ++ post) (zlen pre) = Ok (th, zlen (pre ++ s0)).
Proof.
  intros HD Hc L L0 B B0 F1 F2 F3 F4 HK HR HE HU HT Hsm. apply delta_inv in HD as (HN & HUP & HA & HS & HD).
  assert (doff th = doff th0) as Hdo. { unfold unchanged in HN. rewrite Hc in HN. rewrite !andb_true_iff in HN. apply Z.eqb_eq. tauto. }
  clear HN. unfold dA, dS, dW in *. rewrite Hc in *. clear Hc.
  destruct (len20 th L) as (n0&n1&n2&n3&n4&n5&n6&n7&n8&n9&n10&n11&n12&n13&n14&n15&n16&n17&n18&n19&->).
  destruct (len20 th0 L0) as (t0&t1&t2&t3&t4&t5&t6&t7&t8&t9&t10&t11&t12&t13&t14&t15&t16&t17&t18&t19&->). clear L L0.
  cbn [slice skipn firstn] in HK. unfold doff, isurg, ispsh, at32, at16, at8 in *. cbn [nth Nat.add] in *.
  injection HK as <- <- <- <-. cbv zeta. cbn [ow firstn skipn app length Nat.add slice nth].
  bytes20 B. bytes20 B0.
  assert (t12 = n12) as -> by (unfold byte in *; lia). clear Hdo HR.
  destruct (flags_restored n13 t13) as [FR1 FR2]; [assumption..|]. cbv zeta in FR1, FR2.
  rewrite ?(urg_bit n13), ?(urg_bit t13) in *.
  set (f1 := if tst n13 8 then Z.lor t13 8 else Z.land t13 247) in *.
  change (2 ^ 32) with 4294967296 in *.
  destruct HD as [(-> & -> & N1 & N2)|[(HU0 & HW & HAS & HSL & -> & ->)|(HU0 & HW & HA0 & HSL & -> & ->)]].
  - eexists. split; [rewrite !app_assoc; reflexivity|].
    rewrite <- !app_assoc. rewrite un_tcp_normal; [|exact N1|exact N2]. f_equal. f_equal; [|rewrite <- !app_assoc; reflexivity]. clear N1 N2.
    rewrite (set_u_eq _ _ _ _ _ _ _ _ _ _ _ _ _ _ _ _ _ _ _ _ _ _ n13 n18 n19); [|exact FR1|].
    2: { destruct (negb (n13 / 32 mod 2 =? 0)) eqn:E; [apply be16_at; try assumption; unfold byte in *; lia|]. destruct HUP as [H|H]; [discriminate|]. unfold byte in *. f_equal; [lia|f_equal; lia]. }
    rewrite (set_w_eq _ _ _ _ _ _ _ _ _ _ _ _ _ _ _ _ _ _ _ _ _ _ n14 n15).
    2: { match goal with |- context [negb (?d =? 0)] => destruct (d =? 0) eqn:E end; cbn [negb]; [unfold byte in *; f_equal; [lia|f_equal; lia]|]. apply be16_at; try assumption. unfold byte in *. lia. }
    rewrite (set_a_eq _ _ _ _ _ _ _ _ _ _ _ _ _ _ _ _ _ _ _ _ _ _ n8 n9 n10 n11); [|apply num32_eq; try assumption; reflexivity].
    rewrite (set_s_eq _ _ _ _ _ _ _ _ _ _ _ _ _ _ _ _ _ _ _ _ _ _ n4 n5 n6 n7); [|apply num32_eq; try assumption; reflexivity].
    reflexivity.
  - exists []. split; [reflexivity|]. rewrite app_nil_r. unfold un_tcp.
    destruct (mask_bits true true false true (negb (dI c ip =? 1)) (tst n13 8) cc) as (_ & _ & _ & _ & _ & _ & _ & M & _). cbv zeta in *.
    unfold SPECIALS_MASK. rewrite M. change (b2z true * 1 + b2z true * 2 + b2z false * 4 + b2z true * 8 =? SPECIAL_I) with true. cbv iota.
    f_equal. f_equal. unfold at32, at16, at8. cbn [nth Nat.add]. rewrite HT.
    assert (negb (t13 / 32 mod 2 =? 0) = false) as HU1. { destruct (negb (t13 / 32 mod 2 =? 0)); [|reflexivity]. rewrite HU in HU0 by reflexivity. discriminate. }
    rewrite FR2; [|exact HU0|exact HU1].
    unfold at32, at16, at8. cbn [nth Nat.add]. 
    assert (short (nth 2 (c_ip c) 0 * 256 + nth 3 (c_ip c) 0 - hlen) = nth 2 (c_ip c) 0 * 256 + nth 3 (c_ip c) 0 - hlen) as Hsh by (unfold short; lia).
    rewrite Hsh, <- HSL. clear Hsh.
    rewrite (be32_at n8 n9 n10 n11); [|assumption..|change (2 ^ 32) with 4294967296; unfold byte in *; lia].
    cbn [ow firstn skipn app length Nat.add nth].
    rewrite (be32_at n4 n5 n6 n7); [|assumption..|change (2 ^ 32) with 4294967296; unfold byte in *; lia].
    cbn [ow firstn skipn app length Nat.add nth].
    assert (n14 = t14 /\ n15 = t15 /\ n18 = t18 /\ n19 = t19) as (-> & -> & -> & ->). { destruct HUP as [H|H]; [congruence|]. unfold byte in *. lia. }
    reflexivity.
  - exists []. split; [reflexivity|]. rewrite app_nil_r. unfold un_tcp.
    destruct (mask_bits true true true true (negb (dI c ip =? 1)) (tst n13 8) cc) as (_ & _ & _ & _ & _ & _ & _ & M & _). cbv zeta in *.
    unfold SPECIALS_MASK. rewrite M. change (b2z true * 1 + b2z true * 2 + b2z true * 4 + b2z true * 8 =? SPECIAL_I) with false.
    change (b2z true * 1 + b2z true * 2 + b2z true * 4 + b2z true * 8 =? SPECIAL_D) with true. cbv iota.
    f_equal. f_equal. unfold at32, at16, at8. cbn [nth Nat.add]. rewrite HT.
    assert (negb (t13 / 32 mod 2 =? 0) = false) as HU1. { destruct (negb (t13 / 32 mod 2 =? 0)); [|reflexivity]. rewrite HU in HU0 by reflexivity. discriminate. }
    rewrite FR2; [|exact HU0|exact HU1].
    unfold at32, at16, at8. cbn [nth Nat.add]. rewrite <- Z.add_sub_assoc. rewrite <- HSL.
    rewrite (be32_at n4 n5 n6 n7); [|assumption..|change (2 ^ 32) with 4294967296; unfold byte in *; lia].
    cbn [ow firstn skipn app length Nat.add nth].
    assert (n14 = t14 /\ n15 = t15 /\ n18 = t18 /\ n19 = t19) as (-> & -> & -> & ->). { destruct HUP as [H|H]; [congruence|]. unfold byte in *. lia. }
    assert (n8 = t8 /\ n9 = t9 /\ n10 = t10 /\ n11 = t11) as (-> & -> & -> & ->). { unfold byte in *. lia. }
    reflexivity.
Qed.
