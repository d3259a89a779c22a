(** C136: ciphered UI frames are deciphered to what was sent. *)
From Verif.Lib Require Import Base Outcome.
From Verif.Llc Require Import GeaModel GeaSpec.

Lemma xor_add2 a b : xor a b = add2 a b.
Proof. unfold add2. revert b; induction a as [|x a IH]; intros [|y b]; cbn [xor combine map fst snd]; try reflexivity. rewrite IH. reflexivity. Qed.
Lemma add2_length a b : length a = length b -> length (add2 a b) = length a.
Proof. intros H. unfold add2. rewrite map_length, combine_length. lia. Qed.
Lemma add2_twice a g h : length a = length g -> length g = length h ->
  add2 (add2 a g) h = a <-> g = h.
Proof.
  unfold add2. revert g h; induction a as [|x a IH]; intros [|y g] [|z h] L M; cbn [length combine map fst snd] in *; try lia; [split; reflexivity|].
  specialize (IH g h ltac:(lia) ltac:(lia)). split; intros H; injection H as H1 H2.
  - apply IH in H2. f_equal; [|exact H2]. apply (f_equal (Z.lxor x)) in H1. rewrite <- !Z.lxor_assoc, Z.lxor_nilpotent, Z.lxor_0_l in H1.
    apply Z.lxor_eq. exact H1.
  - subst z. f_equal; [|apply IH; exact H2]. rewrite Z.lxor_assoc, Z.lxor_nilpotent, Z.lxor_0_r. reflexivity.
Qed.
Lemma le24_byte f : bytes (le24 f).
Proof. unfold le24, bytes. repeat constructor; lia. Qed.

Section C136.
  Variable cipher : Z -> list Z -> Z -> dir -> Z -> option (list Z).
  Variable gen_input : Z -> Z -> Z -> Z -> Z.
  Variable crc : list Z -> Z.
  Let gea := apply_gea cipher gen_input crc.
  Let rx := rx_ui cipher gen_input crc.

  (** Deciphering [d] octets and nothing else. *)
  Lemma gea_all l n nu oc sapi d g : l_algo l <> 0 -> n = zlen d -> n <= 1523 -> length g = length d ->
    cipher (l_algo l) (l_kc l) (gen_input (l_iov l) sapi nu oc) Ms2Sgsn n = Some g -> gea l n nu oc sapi None d = Ok (add2 d g).
  Proof.
    intros A N M L E. unfold gea, apply_gea. rewrite (proj2 (Z.eqb_neq _ _) A). cbv zeta.
    assert (P : 0 <= n) by (unfold zlen in N; lia). rewrite Z.mod_small by lia. unfold max_block. rewrite (proj2 (Z.ltb_ge 1523 n)) by lia. rewrite E.
    unfold xor_at. rewrite rdn_ok by lia. cbn [bind]. unfold slice. change (Z.to_nat 0) with 0%nat. cbn [skipn].
    rewrite firstn_all2 by (unfold zlen in N; lia). rewrite xor_add2. unfold store.
    assert (X : length (add2 d g) = length d) by (apply add2_length; lia).
    rewrite (proj2 (Z.leb_le (0 + zlen (add2 d g)) (zlen d))) by (unfold zlen; rewrite X; lia). cbn [Z.leb Z.compare andb].
    change (Z.to_nat 0) with 0%nat. cbn [firstn app]. rewrite Nat.add_0_l, skipn_all2 by lia. rewrite app_nil_r. reflexivity.
  Qed.
  Lemma fcs_at info f : let d := info ++ le24 f in
    rd d (zlen info) = Ok (f mod 256) /\ rd d (zlen info + 1) = Ok (f / 256 mod 256) /\ rd d (zlen info + 2) = Ok (f / 65536 mod 256).
  Proof.
    intros d. assert (Z3 : zlen d = zlen info + 3) by (unfold d, zlen; rewrite app_length; cbn [length le24]; lia).
    assert (N : forall i, (i < 3)%nat -> rd d (zlen info + Z.of_nat i) = Ok (nth i (le24 f) 0)).
    { intros i Hi. rewrite rd_ok by (unfold zlen in *; lia). f_equal. unfold d. rewrite app_nth2 by (unfold zlen; lia). f_equal. unfold zlen. lia. }
    split; [rewrite <- (Z.add_0_r (zlen info)); exact (N 0%nat ltac:(lia))|]. split; [exact (N 1%nat ltac:(lia))|exact (N 2%nat ltac:(lia))].
  Qed.
  Lemma covered_ok prot hdr info f : length hdr = 3%nat -> zlen info <= 1520 ->
    rdn (hdr ++ info ++ le24 f) 0 (if prot : bool then (zlen (hdr ++ info ++ le24 f) - 3) mod 65536 else Z.min ((zlen (hdr ++ info ++ le24 f) - 3) mod 65536) 7) = Ok (covered prot hdr info).
  Proof.
    intros H I. assert (Z3 : zlen (hdr ++ info ++ le24 f) = zlen info + 6) by (unfold zlen; rewrite !app_length; cbn [length le24]; lia).
    rewrite Z3. assert (P : 0 <= zlen info) by (unfold zlen; lia). rewrite Z.mod_small by lia.
    rewrite rdn_ok by (destruct prot; lia). f_equal. unfold slice, covered. change (Z.to_nat 0) with 0%nat. cbn [skipn]. rewrite app_assoc.
    assert (L : length (hdr ++ info) = Z.to_nat (zlen info + 6 - 3)) by (rewrite app_length; unfold zlen; lia).
    destruct prot.
    - rewrite <- L, firstn_app, firstn_all, Nat.sub_diag. cbn [firstn]. apply app_nil_r.
    - rewrite Z2Nat.inj_min, <- L. change (Z.to_nat 7) with 7%nat. rewrite firstn_app.
      replace (Nat.min (length (hdr ++ info)) 7 - length (hdr ++ info))%nat with 0%nat by lia. rewrite firstn_O, app_nil_r.
      destruct (Nat.le_ge_cases (length (hdr ++ info)) 7) as [G|G].
      + rewrite Nat.min_l by exact G. rewrite firstn_all, firstn_all2 by exact G. reflexivity.
      + rewrite Nat.min_r by exact G. reflexivity.
  Qed.

  (** Frames from the mobile (partial): whatever the algorithm, its key, the counters and the information of at most 1520 octets, what is received is the
      frame as it was before ciphering, and its FCS fits.  Missing: the other direction, larger frames. *)
  Theorem C136_uplink_partial : forall l oc sapi nu prot hdr info g fcs, l_algo l <> 0 -> length hdr = 3%nat -> zlen info <= 1520 ->
    (forall m, 0 <= crc m < 2 ^ 24) ->
    cipher (l_algo l) (l_kc l) (gen_input (l_iov l) sapi nu oc) Ms2Sgsn (zlen info + 3) = Some g -> zlen g = zlen info + 3 ->
    rx l oc sapi (ciphered crc prot hdr info g) (zlen info) nu true prot fcs = Ok (Some (plain crc prot hdr info)).
  Proof.
    intros l oc sapi nu prot hdr info g fcs A H I C E G. unfold rx, rx_ui. cbv zeta. rewrite (proj2 (Z.eqb_neq _ _) A).
    set (f := crc (covered prot hdr info)). unfold ciphered. fold f.
    assert (S : skipn 3 (hdr ++ add2 (info ++ le24 f) g) = add2 (info ++ le24 f) g) by (rewrite <- H, skipn_app, skipn_all, Nat.sub_diag; reflexivity).
    assert (F : firstn 3 (hdr ++ add2 (info ++ le24 f) g) = hdr) by (rewrite <- H, firstn_app, firstn_all, Nat.sub_diag; cbn [firstn]; apply app_nil_r).
    rewrite S, F.
    assert (L : length (info ++ le24 f) = length g) by (rewrite app_length; unfold zlen in *; cbn [length le24]; lia).
    assert (LA : length (add2 (info ++ le24 f) g) = length g) by (rewrite add2_length; lia).
    pose proof (gea_all l (zlen info + 3) nu oc sapi (add2 (info ++ le24 f) g) g A ltac:(unfold zlen in *; lia) ltac:(lia) ltac:(lia) E) as Q.
    unfold gea in Q. rewrite Q. cbn [bind]. rewrite (proj2 (add2_twice (info ++ le24 f) g g L eq_refl) eq_refl).
    destruct (fcs_at info f) as (R1 & R2 & R3). rewrite R1, R2, R3. cbn [bind].
    rewrite (covered_ok prot hdr info f H I). cbn [bind].
    assert (B : 0 <= f < 2 ^ 24) by apply C. change (2 ^ 24) with 16777216 in B.
    fold f. replace (f mod 256 + f / 256 mod 256 * 256 + f / 65536 mod 256 * 65536) with f by lia. rewrite Z.eqb_refl. reflexivity.
  Qed.
  (** Frames from the network (refuted): an entity of the mobile uses the same direction.  For every algorithm whose output differs with the direction, no
      frame is received as it was sent. *)
  Theorem C136_downlink_refuted : forall l oc sapi nu prot hdr info g h fcs p, l_algo l <> 0 -> length hdr = 3%nat -> zlen info <= 1520 ->
    cipher (l_algo l) (l_kc l) (gen_input (l_iov l) sapi nu oc) Sgsn2Ms (zlen info + 3) = Some g -> zlen g = zlen info + 3 ->
    cipher (l_algo l) (l_kc l) (gen_input (l_iov l) sapi nu oc) Ms2Sgsn (zlen info + 3) = Some h -> zlen h = zlen info + 3 -> g <> h ->
    rx l oc sapi (ciphered crc prot hdr info g) (zlen info) nu true prot fcs = Ok (Some p) -> p <> plain crc prot hdr info.
  Proof.
    intros l oc sapi nu prot hdr info g h fcs p A H I E G E2 G2 D R X. subst p. unfold rx, rx_ui in R. cbv zeta in R. rewrite (proj2 (Z.eqb_neq _ _) A) in R.
    set (f := crc (covered prot hdr info)) in *. unfold ciphered in R. fold f in R.
    assert (S : skipn 3 (hdr ++ add2 (info ++ le24 f) g) = add2 (info ++ le24 f) g) by (rewrite <- H, skipn_app, skipn_all, Nat.sub_diag; reflexivity).
    assert (F : firstn 3 (hdr ++ add2 (info ++ le24 f) g) = hdr) by (rewrite <- H, firstn_app, firstn_all, Nat.sub_diag; cbn [firstn]; apply app_nil_r).
    rewrite S, F in R.
    assert (L : length (info ++ le24 f) = length g) by (rewrite app_length; unfold zlen in *; cbn [length le24]; lia).
    assert (LA : length (add2 (info ++ le24 f) g) = length g) by (rewrite add2_length; lia).
    pose proof (gea_all l (zlen info + 3) nu oc sapi (add2 (info ++ le24 f) g) h A ltac:(unfold zlen in *; lia) ltac:(lia) ltac:(unfold zlen in *; lia) E2) as Q.
    unfold gea in Q. rewrite Q in R. cbn [bind] in R.
    destruct (rd _ (zlen info)); try discriminate R. cbn [bind] in R. destruct (rd _ (zlen info + 1)); try discriminate R. cbn [bind] in R.
    destruct (rd _ (zlen info + 2)); try discriminate R. cbn [bind] in R.
    match type of R with bind ?m _ = _ => destruct m as [c| |] end; try discriminate R. cbn [bind] in R.
    match type of R with (if ?b then _ else _) = _ => destruct b end; [|discriminate R]. injection R as R. unfold plain in R. fold f in R.
    apply app_inv_head in R. apply add2_twice in R; [contradiction|exact L|unfold zlen in *; lia].
  Qed.
  (** A ciphered frame of more than 1520 octets of information (refuted): the output of the algorithm is written beyond the array for it. *)
  Theorem C136_size_refuted : forall l oc sapi nu prot pdu n fcs, l_algo l <> 0 -> 1520 < n < 65533 -> rx l oc sapi pdu n nu true prot fcs = UB.
  Proof.
    intros l oc sapi nu prot pdu n fcs A N. unfold rx, rx_ui, apply_gea. rewrite (proj2 (Z.eqb_neq _ _) A). cbv zeta. rewrite Z.mod_small by lia.
    unfold max_block. rewrite (proj2 (Z.ltb_lt 1523 (n + 3))) by lia. reflexivity.
  Qed.
  (** Without an algorithm a ciphered frame is dropped; a frame that is not ciphered stays as it is and passes exactly if its FCS fits. *)
  Theorem C136_plain : forall l oc sapi nu prot hdr info f fcs, length hdr = 3%nat -> zlen info <= 1520 ->
    (forall pdu n, l_algo l = 0 -> rx l oc sapi pdu n nu true prot fcs = Ok None) /\
    rx l oc sapi (hdr ++ info ++ le24 f) (zlen info) nu false prot fcs =
      if fcs =? crc (covered prot hdr info) then Ok (Some (hdr ++ info ++ le24 f)) else Err EIO.
  Proof.
    intros l oc sapi nu prot hdr info f fcs H I. split.
    - intros pdu n A. unfold rx, rx_ui. rewrite A. reflexivity.
    - unfold rx, rx_ui. cbv zeta. rewrite (covered_ok prot hdr info f H I). reflexivity.
  Qed.
  (** Ciphering (no caller at this commit): a frame whose information is protected becomes the ciphered frame, with the bit E set, in the direction from the
      network. *)
  Theorem C136_sender : forall l oc sapi nu a c0 c1 info x y z g, l_algo l <> 0 -> zlen info <= 1520 ->
    cipher (l_algo l) (l_kc l) (gen_input (l_iov l) sapi nu oc) Sgsn2Ms (zlen info + 3) = Some g -> zlen g = zlen info + 3 ->
    gea l (zlen info + 3) nu oc sapi (Some (zlen info + 3)) ([a; c0; c1] ++ info ++ [x; y; z]) = Ok (ciphered crc true [a; c0; Z.lor c1 2] info g).
  Proof.
    intros l oc sapi nu a c0 c1 info x y z g A I E G. unfold gea, apply_gea. rewrite (proj2 (Z.eqb_neq _ _) A). cbv zeta.
    assert (P : 0 <= zlen info) by (unfold zlen; lia). rewrite Z.mod_small by lia. unfold max_block. rewrite (proj2 (Z.ltb_ge 1523 _)) by lia. rewrite E.
    assert (ST : forall u m v w i, zlen u = i -> length m = length w -> store (u ++ m ++ v) i w = Ok (u ++ w ++ v)).
    { intros u m v w i U M. unfold store. assert (0 <= i) by (unfold zlen in U; lia). rewrite (proj2 (Z.leb_le 0 i)) by lia.
      rewrite (proj2 (Z.leb_le _ _)) by (unfold zlen in *; rewrite !app_length; lia). cbn [andb].
      assert (N : Z.to_nat i = length u) by (unfold zlen in U; lia). rewrite N, firstn_app, firstn_all, Nat.sub_diag, firstn_O, app_nil_r.
      rewrite skipn_app, skipn_all2 by lia. replace (length u + length w - length u)%nat with (length m) by lia.
      rewrite skipn_app, skipn_all, Nat.sub_diag. reflexivity. }
    rewrite rd_ok by (unfold zlen; rewrite !app_length; cbn [length]; lia). cbn [bind].
    change (nth (Z.to_nat 2) ([a; c0; c1] ++ info ++ [x; y; z]) 0) with c1.
    change ([a; c0; c1] ++ info ++ [x; y; z]) with ([a; c0] ++ [c1] ++ (info ++ [x; y; z])).
    rewrite (ST [a; c0] [c1] (info ++ [x; y; z]) [Z.lor c1 2] 2 eq_refl eq_refl). cbn [bind].
    set (h3 := [a; c0; Z.lor c1 2]).
    change ([a; c0] ++ [Z.lor c1 2] ++ info ++ [x; y; z]) with (h3 ++ info ++ [x; y; z]).
    rewrite rdn_ok by (unfold zlen; rewrite ?app_length; cbn [length h3]; lia). cbn [bind]. unfold slice. change (Z.to_nat 0) with 0%nat. rewrite skipn_O.
    assert (K : firstn (Z.to_nat (zlen info + 3)) (h3 ++ info ++ [x; y; z]) = h3 ++ info).
    { rewrite app_assoc. replace (Z.to_nat (zlen info + 3)) with (length (h3 ++ info)) by (rewrite app_length; cbn [length h3]; unfold zlen; lia).
      rewrite firstn_app, firstn_all, Nat.sub_diag, firstn_O. apply app_nil_r. }
    rewrite K. set (f := crc (h3 ++ info)).
    assert (F : [Z.land f 255; Z.land (Z.shiftr f 8) 255; Z.land (Z.shiftr f 16) 255] = le24 f).
    { unfold le24. change 255 with (Z.ones 8). rewrite !Z.land_ones, !Z.shiftr_div_pow2 by lia. reflexivity. }
    rewrite F. pose proof (ST (h3 ++ info) [x; y; z] [] (le24 f) (zlen info + 3)) as S2. rewrite !app_nil_r, <- !app_assoc in S2.
    rewrite S2; [|unfold zlen; rewrite app_length; cbn [length h3]; lia|reflexivity]. cbn [bind]. unfold xor_at.
    assert (ZF : zlen (info ++ le24 f) = zlen info + 3) by (unfold zlen; rewrite app_length; cbn [length le24]; lia).
    rewrite rdn_ok by (try lia; unfold zlen in *; rewrite app_length; cbn [length h3]; lia). cbn [bind].
    assert (K2 : slice (Z.to_nat 3) (Z.to_nat (zlen info + 3)) (h3 ++ info ++ le24 f) = info ++ le24 f).
    { unfold slice. change (Z.to_nat 3) with (length h3). rewrite skipn_app, skipn_all, Nat.sub_diag, skipn_O. cbn [app].
      apply firstn_all2. unfold zlen in *. lia. }
    rewrite K2, xor_add2. pose proof (ST h3 (info ++ le24 f) [] (add2 (info ++ le24 f) g) 3 eq_refl) as S3. rewrite !app_nil_r in S3.
    rewrite S3; [reflexivity|]. symmetry. apply add2_length. unfold zlen in *. lia.
  Qed.
End C136.
Print Assumptions C136_sender.
Print Assumptions C136_uplink_partial.
Print Assumptions C136_downlink_refuted.
Print Assumptions C136_size_refuted.
Print Assumptions C136_plain.

(** Cases: an algorithm whose output depends on length and direction. *)
Definition toy (a : Z) (kc : list Z) (iv : Z) (d : dir) (n : Z) : option (list Z) :=
  Some (map (fun i => (Z.of_nat i * 7 + iv + match d with Ms2Sgsn => 1 | Sgsn2Ms => 2 end) mod 256) (seq 0 (Z.to_nat n))).
Definition toy_crc (m : list Z) : Z := fold_left (fun a x => (a * 31 + x) mod 2 ^ 24) m 12345.
Definition toy_in (a b c d : Z) : Z := a + b + c + d.
Example C136_case_up : exists g, toy 1 [] (toy_in 5 3 2 0) Ms2Sgsn (4 + 3) = Some g /\ zlen g = 7 /\
  ciphered toy_crc true [3; 192; 9] [1; 2; 3; 4] g <> plain toy_crc true [3; 192; 9] [1; 2; 3; 4] /\
  rx_ui toy toy_in toy_crc (mkL 1 [] 5) 0 3 (ciphered toy_crc true [3; 192; 9] [1; 2; 3; 4] g) 4 2 true true 0 = Ok (Some (plain toy_crc true [3; 192; 9] [1; 2; 3; 4])).
Proof. eexists. split; [reflexivity|]. split; [reflexivity|]. split; [vm_compute; discriminate|vm_compute; reflexivity]. Qed.
(** One whose output differs with the direction in the first octet only, and a checksum that does not see it: the frame is taken, with another octet. *)
Definition toy2 (a : Z) (kc : list Z) (iv : Z) (d : dir) (n : Z) : option (list Z) :=
  Some (match d with Ms2Sgsn => 1 | Sgsn2Ms => 2 end :: repeat 77 (Z.to_nat (n - 1))).
Example C136_case_down : exists g h p, toy2 1 [] 10 Sgsn2Ms 7 = Some g /\ toy2 1 [] 10 Ms2Sgsn 7 = Some h /\ zlen g = 7 /\ zlen h = 7 /\ g <> h /\
  rx_ui toy2 toy_in (fun _ => 0) (mkL 1 [] 5) 0 3 (ciphered (fun _ => 0) true [3; 192; 9] [1; 2; 3; 4] g) 4 2 true true 0 = Ok (Some p) /\ p = [3; 192; 9; 2; 2; 3; 4; 0; 0; 0].
Proof. do 3 eexists. split; [reflexivity|]. split; [reflexivity|]. split; [reflexivity|]. split; [reflexivity|]. split; [vm_compute; discriminate|]. split; [vm_compute; reflexivity|reflexivity]. Qed.
