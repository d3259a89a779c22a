(** The codec for RLC data blocks of CS-1. *)
From Verif.Lib Require Import Base Outcome.
From Verif.Rlcmac Require Import RlcDataModel RlcDataSpec RlcDataProofs RlcDataProofs2.
From Verif.Rlcmac Require Import BlockModel BlockSpec BlockProofs.
From Verif.Rlcmac Require Import AirSpec AirProperties.
From Verif.Rlcmac Require AirModel PdchModel CsModel.

Lemma mod2 x : x mod 2 = 0 \/ x mod 2 = 1.
Proof. Z.to_euclidean_division_equations; lia. Qed.
Lemma take_n {A} n (l : list A) : (n <= length l)%nat -> exists a b, l = a ++ b /\ length a = n.
Proof. intros H. exists (firstn n l), (skipn n l). split; [symmetry; apply firstn_skipn|apply firstn_length_le; exact H]. Qed.

(** *** C116: decoding uplink blocks.  Whatever the 23 octets are: no assertion fails and nothing behind them is read; the octets behind the
    header are taken apart into extension octets, TLLI, PFI and data as TS 44.060 has it.  The structure is left exactly if six or more
    extension octets are announced. *)
Theorem C116_any_partial : forall v, zlen v = 23 ->
  (u_pt v <> 0 -> decode_ul v = Ok None) /\
  (u_pt v = 0 -> six v -> decode_ul v = UB) /\
  (u_pt v = 0 -> ~ six v -> exists ex tl pf d, skipn 3 v = ex ++ tl ++ pf ++ d /\
    decode_ul v = Ok (Some (mkudata 0 (u_cv v) (u_si v) (u_r v) (u_spare v) (u_pi v) (u_tfi v) (u_ti v) (u_bsn v) (u_e v) (map mark ex)
      (if u_ti v =? 1 then Some (fold_left (fun acc o => acc * 256 + o) tl 0) else None)
      (if (u_ti v =? 1) && (u_pi v =? 1) then Some (nth 0 pf 0 / 2 mod 128, nth 0 pf 0 mod 2) else None) d)) /\
    (u_e v = 1 -> ex = []) /\
    (u_e v = 0 -> exists p o, ex = p ++ [o] /\ Forall (fun o => o mod 4 = 2) p /\ o mod 4 <> 2 /\ (length p < 5)%nat) /\
    zlen tl = (if u_ti v =? 1 then 4 else 0) /\ zlen pf = (if (u_ti v =? 1) && (u_pi v =? 1) then 1 else 0)).
Proof.
  intros v Hz. destruct v as [|a [|b [|c r]]]; try discriminate Hz. rewrite !zlen_cons in Hz. assert (zlen r = 20) as Hr by lia. clear Hz.
  unfold u_pt, u_cv, u_si, u_r, u_spare, u_pi, u_tfi, u_ti, u_bsn, u_e, field. cbn [nth skipn]. rewrite !Z.pow_0_r, !Z.div_1_r.
  change (2 ^ 6) with 64. change (2 ^ 4) with 16. change (2 ^ 2) with 4. change (2 ^ 1) with 2. change (2 ^ 7) with 128. change (2 ^ 5) with 32.
  assert (exists ex r', e_shape (c mod 2) ex /\ r = ex ++ r' /\ zlen ex <= 5 \/ c mod 2 = 0 /\ Forall (fun o => o mod 4 = 2) (firstn 5 r)) as D.
  { destruct (mod2 c) as [E|E]; rewrite E; cbn [e_shape].
    - destruct (split_two 5 r) as [F|(p & o & r' & -> & F & G & L)]; [unfold zlen in Hr; lia|exists [], []; right; auto|].
      exists (p ++ [o]), r'. left. split; [exists p, o; auto|]. split; [rewrite <- app_assoc; reflexivity|]. unfold zlen. rewrite app_length. cbn [length]. lia.
    - exists [], r. left. split; [reflexivity|]. split; [reflexivity|]. unfold zlen; cbn; lia. }
  split; [|split].
  - intros Hp. unfold decode_ul. rewrite (oct_app [] (b :: c :: r) a 0 eq_refl : oct (a :: b :: c :: r) 0 = Ok a). cbn [bind]. replace (a / 64 mod 4 =? 0) with false by lia. reflexivity.
  - intros Hp [S1 S2]. cbn [nth skipn] in S1, S2. unfold decode_ul.
    rewrite (oct_app [] (b :: c :: r) a 0 eq_refl : oct (a :: b :: c :: r) 0 = Ok a). cbn [bind]. rewrite Hp. cbn [Z.eqb negb].
    rewrite (oct_app [a] (c :: r) b 1 eq_refl : oct (a :: b :: c :: r) 1 = Ok b). cbn [bind].
    rewrite (oct_app [a; b] r c 2 eq_refl : oct (a :: b :: c :: r) 2 = Ok c). cbn [bind]. cbv zeta. rewrite S1. cbn [Z.eqb].
    rewrite <- (firstn_skipn 5 r). change (a :: b :: c :: firstn 5 r ++ skipn 5 r) with ([a; b; c] ++ firstn 5 r ++ skipn 5 r).
    change 3 with (zlen [a; b; c]). rewrite ext_in_over; [reflexivity|exact S2|]. clear -Hr. rewrite firstn_length. unfold zlen, MAX_PDU in *. lia.
  - intros Hp Hs. destruct D as (ex & r' & [(He & -> & Hx)|D]); [|exfalso; apply Hs; exact D]. rewrite zlen_app in Hr.
    pose (nt := if b mod 2 =? 1 then 4%nat else 0%nat). pose (np := if (b mod 2 =? 1) && (b / 64 mod 2 =? 1) then 1%nat else 0%nat).
    destruct (take_n nt r') as (tl & r2 & -> & Lt). { unfold zlen in *. subst nt. destruct (b mod 2 =? 1); lia. }
    rewrite zlen_app in Hr.
    destruct (take_n np r2) as (pf & d & -> & Lp). { unfold zlen in *. subst nt np. destruct (b mod 2 =? 1), (b / 64 mod 2 =? 1); cbn [andb] in *; lia. }
    rewrite zlen_app in Hr. exists ex, tl, pf, d. split; [reflexivity|]. split; [|split; [|split; [|split]]].
    + rewrite decode_shape; [reflexivity|exact Hp|exact He| | | | |lia].
      * intros E. subst nt. rewrite E in Lt. change (1 =? 1) with true in Lt. cbv iota in Lt. unfold zlen. lia.
      * intros E. subst nt. rewrite E in Lt. destruct tl; [reflexivity|discriminate Lt].
      * intros [E1 E2]. subst np. rewrite E1, E2 in Lp. change ((1 =? 1) && (1 =? 1)) with true in Lp. cbv iota in Lp. unfold zlen. lia.
      * intros N. subst np. replace ((b mod 2 =? 1) && (b / 64 mod 2 =? 1)) with false in Lp by lia. destruct pf; [reflexivity|discriminate Lp].
    + intros E. rewrite E in He. exact He.
    + intros E. rewrite E in He. exact He.
    + subst nt. unfold zlen. rewrite Lt. destruct (b mod 2 =? 1); reflexivity.
    + subst np. unfold zlen. rewrite Lp. destruct ((b mod 2 =? 1) && (b / 64 mod 2 =? 1)); reflexivity.
Qed.
Print Assumptions C116_any_partial.

(** Not all blocks can be decoded without writing outside of the structure. *)
Theorem C116_any_refuted : ~ (forall v, bytes v -> zlen v = 23 -> decode_ul v <> UB).
Proof.
  intros H. apply (H ([0; 0; 0] ++ repeat 6 20)); [|reflexivity|vm_compute; reflexivity].
  unfold bytes. repeat constructor; lia.
Qed.
Print Assumptions C116_any_refuted.

Lemma sent_fields tfi u m : 0 <= tfi < 32 -> sent_as tfi u m -> u_pt m = 0 /\ u_pi m = 0 /\ u_tfi m = tfi /\ heard m = u.
Proof.
  intros Ht H. assert (map heard [m] = [u]) as Hh by (apply (C111_network_hears tfi [u] [m] Ht); constructor; [exact H|constructor]).
  injection Hh as Hh. destruct H as (s & bsn & s' & k & c & f & Hn & (Hc & Hi & Hz & (rest & Hb) & Hti & He & Hcv & Hf) & E). pose proof (zlen_nonneg rest).
  assert (0 <= (if RlcDataSpec.u_ti u then 1 else 0) <= 1) as R1 by (destruct (RlcDataSpec.u_ti u); lia). assert (0 <= (if RlcDataSpec.u_e u then 1 else 0) <= 1) as R2 by (destruct (RlcDataSpec.u_e u); lia).
  destruct (C111_uplink_block s tfi bsn Hc Hi) as (s2 & m2 & E2 & P1 & P2 & P3 & P4 & P5 & P6 & P7 & P8 & _); try lia; [rewrite Hb, zlen_app; lia|].
  rewrite E in E2. injection E2 as <- <- _ _ _. auto.
Qed.
Lemma tlli_back tlli : 0 <= tlli < 2 ^ 32 -> tlli_of (tlli_octets tlli) = tlli.
Proof.
  intros H. unfold tlli_of, tlli_octets. cbn [fold_left]. change 255 with (Z.ones 8). rewrite !Z.land_ones, !Z.shiftr_div_pow2 by lia.
  change (2 ^ 32) with 4294967296 in H. change (2 ^ 24) with 16777216. change (2 ^ 16) with 65536. change (2 ^ 8) with 256. Z.to_euclidean_division_equations; lia.
Qed.

(** What the mobile sends with CS-1 for frames of at least five octets (all LLC frames are; of the first one [pend] may have the rest only)
    is decoded without leaving the structure, and the pieces of frames that are marked in it are those that the mobile has put in. *)
Lemma block_decodes : forall tfi (ti : bool) tlli final pend e o rest m, 0 <= tfi < 32 -> 0 <= tlli < 2 ^ 32 ->
  pend <> [] -> Forall (fun f => f <> []) pend -> Forall (fun f => 5 <= zlen f) (List.tl pend) ->
  (let space := if ti then 16 else 20 in final = true -> need pend <= space /\ (need pend = space -> exists f, pend = [f])) ->
  create_block 20 ti tlli final pend = Ok (e, o, rest) -> sent_as tfi (mkublk ti final (e =? 1) o) m -> zlen m = 23 ->
  exists d new t, decode_ul m = Ok (Some d) /\ d_tfi d = tfi /\ d_tlli d = (if ti then Some tlli else None) /\ (d_cv d =? 0) = final /\
    cut_up d = pieces final new t /\ flow final new t pend rest /\ (final = true -> rest = []) /\ Forall (fun f => f <> []) rest /\ Forall (fun f => 5 <= zlen f) (List.tl rest).
Proof.
  intros tfi ti tlli final pend e o rest m Ht Hl Hp Hne H5 Hfin Ec Hs Zm.
  destruct (create_spec 20 ti tlli final pend ltac:(lia) Hp Hne) as (e0 & o0 & r0 & new & t & E0 & Hlen & Hoct & He & Hw & Hfl & Hr & Hfr). { destruct ti; exact Hfin. }
  rewrite Ec in E0. injection E0 as <- <- <-. destruct (sent_fields tfi _ m Ht Hs) as (Fp & Fi & Ft & Fh).
  unfold heard in Fh. injection Fh as G1 G2 G3 G4. unfold u_data in G4. rewrite Zm in G4. cbn [Z.eqb Pos.eqb] in G4.
  destruct m as [|a [|b [|c r]]]; try discriminate Zm. rewrite !zlen_cons in Zm. cbn [skipn] in G4. rewrite firstn_all2 in G4 by (unfold zlen in Zm; lia). subst r.
  unfold u_pt, u_pi, u_tfi, u_ti, u_e, u_cv, field in Fp, Fi, Ft, G1, G2, G3. cbn [nth] in Fp, Fi, Ft, G1, G2, G3. rewrite !Z.pow_0_r, !Z.div_1_r in *.
  change (2 ^ 6) with 64 in *. change (2 ^ 4) with 16 in *. change (2 ^ 2) with 4 in *. change (2 ^ 1) with 2 in *. change (2 ^ 5) with 32 in *.
  assert (Forall (fun s => 1 <= zlen s <= 63) new) as Hn by apply Hw.
  assert (exists tp, List.tl pend = tp /\ Forall (fun s => 5 <= zlen s) (List.tl new) /\ Forall (fun f => 5 <= zlen f) (List.tl rest)) as (_ & _ & Hn5 & Hr5).
  { eexists. split; [reflexivity|]. clear -Hfl H5.
    assert (forall y, pend = new ++ y -> Forall (fun s => 5 <= zlen s) (List.tl new) /\ Forall (fun s => 5 <= zlen s) (List.tl y)) as K.
    { intros y ->. destruct new as [|s new]; [split; [constructor|exact H5]|]. cbn [app List.tl] in *. apply Forall_app in H5 as [A B]. split; [exact A|]. destruct y; [constructor|]. inversion B; assumption. }
    destruct t as [p|d|d]; cbn [flow] in Hfl.
    - destruct (K rest Hfl). auto.
    - destruct Hfl as [(_ & E & ->)|(_ & x & q & _ & E & ->)]; destruct (K _ E); auto.
    - destruct Hfl as (_ & x & q & _ & E & ->). destruct (K _ E); auto. }
  assert (length (exts new t) <= 5)%nat as Lx.
  { apply (x_room (tl_of ti tlli)); [eapply Forall_impl; [|exact Hn]; cbv beta; intros; lia|exact Hn5|]. rewrite <- Hoct. lia. }
  assert (e_shape (c mod 2) (exts new t)) as Sh.
  { assert ((c mod 2 =? 1) = e_bit new t) as G3' by (rewrite G3; exact He). unfold e_bit in G3'. destruct (mod2 c) as [E|E]; rewrite E in *; cbn [e_shape].
    - change (0 =? 1) with false in G3'. destruct (x_shape new t) as [X|(p & x & X & F & G)]; [rewrite X in G3'; discriminate G3'|]. exists p, x. rewrite X in Lx. rewrite app_length in Lx. cbn [length] in Lx. repeat split; auto. lia.
    - change (1 =? 1) with true in G3'. destruct (exts new t); [reflexivity|discriminate G3']. }
  assert (a :: b :: c :: o = a :: b :: c :: exts new t ++ tl_of ti tlli ++ [] ++ (concat new ++ tail_data t)) as Em by (rewrite Hoct; reflexivity).
  eexists. exists new, t. split; [rewrite Em; apply decode_shape|].
  - exact Fp.
  - exact Sh.
  - intros E. rewrite E in G1. change (1 =? 1) with true in G1. subst ti. apply tlli_len.
  - intros E. rewrite E in G1. change (0 =? 1) with false in G1. subst ti. reflexivity.
  - intros [_ E]. rewrite E in Fi. discriminate Fi.
  - intros _. reflexivity.
  - pose proof Hlen as HL. rewrite Hoct in HL. unfold layout in HL. rewrite !zlen_app in *. change (zlen (@nil Z)) with 0. lia.
  - cbn [d_tfi d_tlli d_cv]. split; [exact Ft|]. split; [|split; [exact G2|]].
    + rewrite G1. destruct ti; [|reflexivity]. cbn [tl_of]. rewrite tlli_back by exact Hl. reflexivity.
    + split; [|auto]. unfold cut_up. cbn [d_cv d_ext d_data]. rewrite G2, x_marks by exact Hn. apply cut_pieces. exact Hw.
Qed.

(** A whole transfer: from what is decoded the frames handed over can be put together again. *)
Theorem C116_transfer : forall tfi tlli sub blks pend ms, 0 <= tfi < 32 -> 0 <= tlli < 2 ^ 32 ->
  transfer1 tlli sub blks pend -> Forall2 (sent_as tfi) blks ms -> Forall (fun m => zlen m = 23) ms ->
  exists ds fs part, map decode_ul ms = map (fun d => Ok (Some d)) ds /\
    Forall (fun d => d_tfi d = tfi /\ (d_tlli d = None \/ d_tlli d = Some tlli)) ds /\
    join [] (flat_map cut_up ds) = (fs, part) /\ sub = fs ++ glue part pend /\ (pend = [] -> part = []).
Proof.
  intros tfi tlli sub blks pend ms Ht Hl H. revert ms.
  enough (Forall (fun f => f <> []) pend /\ Forall (fun f => 5 <= zlen f) (List.tl pend) /\ forall ms, Forall2 (sent_as tfi) blks ms -> Forall (fun m => zlen m = 23) ms ->
    exists ds fs part, map decode_ul ms = map (fun d => Ok (Some d)) ds /\
    Forall (fun d => d_tfi d = tfi /\ (d_tlli d = None \/ d_tlli d = Some tlli)) ds /\
    join [] (flat_map cut_up ds) = (fs, part) /\ sub = fs ++ glue part pend /\ (pend = [] -> part = [])) as X by apply X.
  induction H as [|sub blks pend f HT IH Hf|sub blks pend ti final e o pend' HT IH Hp Hfin E].
  - split; [constructor|]. split; [constructor|]. intros ms H _. inversion H; subst. exists [], [], []. cbn. auto.
  - destruct IH as (Hne & H5 & IH). assert (f <> []) as Nf by (intros ->; cbn in Hf; lia).
    split; [apply Forall_app; split; [exact Hne|constructor; [exact Nf|constructor]]|].
    split. { destruct pend as [|p q]; [constructor|]. cbn [app List.tl] in *. apply Forall_app. split; [exact H5|constructor; [exact Hf|constructor]]. }
    intros ms H2 H3. destruct (IH ms H2 H3) as (ds & fs & part & A & B & C & D & F). exists ds, fs, part. split; [exact A|]. split; [exact B|]. split; [exact C|].
    split; [|destruct pend; discriminate]. destruct pend as [|p q].
    + rewrite (F eq_refl) in *. cbn [glue app] in *. rewrite D, app_nil_r. reflexivity.
    + rewrite D. cbn [glue app]. rewrite <- app_assoc. reflexivity.
  - destruct IH as (Hne & H5 & IH).
    assert (Forall (fun f => f <> []) pend' /\ Forall (fun f => 5 <= zlen f) (List.tl pend')) as [N5 N6].
    { destruct (create_spec 20 ti tlli final pend ltac:(lia) Hp Hne) as (e0 & o0 & r0 & new & t & E0 & _ & _ & _ & _ & Hfl & Hr & _). { destruct ti; exact Hfin. }
      rewrite E in E0. injection E0 as <- <- <-. split; [exact Hr|].
      assert (forall y, pend = new ++ y -> Forall (fun s => 5 <= zlen s) (List.tl y)) as K.
      { clear -H5. intros y ->. destruct new as [|s new]; [exact H5|]. cbn [app List.tl] in *. apply Forall_app in H5 as [A B]. destruct y; [constructor|]. inversion B; assumption. }
      destruct t as [p|d|d]; cbn [flow] in Hfl.
      - exact (K _ Hfl).
      - destruct Hfl as [(_ & Q & ->)|(_ & x & q & _ & Q & ->)]; [constructor|exact (K _ Q)].
      - destruct Hfl as (_ & x & q & _ & Q & ->). exact (K _ Q). }
    split; [exact N5|]. split; [exact N6|]. intros ms H2 H3. apply Forall2_app_inv_l in H2 as (m1 & m2 & H2a & H2b & ->). apply Forall_app in H3 as [H3a H3b].
    inversion H2b as [|u m us ms' Hs Hn]; subst u us. inversion Hn; subst ms' m2. inversion H3b as [|x y Zm _]; subst x y.
    destruct (IH m1 H2a H3a) as (ds & fs & part & A & B & C & D & F).
    destruct (block_decodes tfi ti tlli final pend e o pend' m Ht Hl Hp Hne H5 Hfin E Hs Zm) as (d & new & t & P1 & P2 & P3 & _ & P5 & P6 & P7 & _).
    destruct (flow_join final new t part pend pend' P6 P7 Hp) as (fs' & part' & Ej' & Hg & Hz').
    exists (ds ++ [d]), (fs ++ fs'), part'. rewrite !map_app, A. cbn [map]. rewrite P1. split; [reflexivity|].
    split; [apply Forall_app; split; [exact B|constructor; [split; [exact P2|destruct ti; auto]|constructor]]|].
    rewrite flat_map_app. cbn [flat_map]. rewrite app_nil_r, P5, join_app, C, Ej'. split; [reflexivity|]. split; [|exact Hz']. rewrite D, <- Hg, app_assoc. reflexivity.
Qed.
Print Assumptions C116_transfer.

(** The two blocks of the frame of 30 octets of [C111_case]; then a block with a TLLI, the end of one frame and the start of another. *)
Example C116_case :
  match send_all stored 9 [5; 6] with
  | Ok (_, [m1; m2]) => match decode_ul m1, decode_ul m2 with
      | Ok (Some d1), Ok (Some d2) => d_bsn d1 = 5 /\ d_ext d1 = [] /\ d_bsn d2 = 6 /\ d_ext d2 = [(10, 0, 1)] /\ join [] (cut_up d1 ++ cut_up d2) = ([frame30], [])
      | _, _ => False end
  | _ => False end /\
  match create_block 20 true 0xc0ffee01 false [[1; 2; 3; 4; 5]; [6; 7; 8; 9; 10; 11; 12; 13; 14; 15; 16]] with
  | Ok (e, o, r) => e = 0 /\ r = [[16]] /\ match decode_ul ([20; 19; 0] ++ o) with
      | Ok (Some d) => d_cv d = 5 /\ d_tfi d = 9 /\ d_tlli d = Some 0xc0ffee01 /\ d_ext d = [(5, 1, 1)] /\ cut_up d = [([1; 2; 3; 4; 5], true); ([6; 7; 8; 9; 10; 11; 12; 13; 14; 15], false)]
      | _ => False end
  | _ => False end.
Proof. vm_compute. auto 20. Qed.
Example C116_six : six ([0; 0; 0] ++ repeat 6 20) /\ ~ six ([0; 0; 0; 6; 6; 6; 6; 5] ++ repeat 43 15) /\
  match decode_ul ([0; 0; 0; 6; 6; 6; 6; 5] ++ repeat 43 15) with Ok (Some d) => length (d_ext d) = 5%nat /\ zlen (d_data d) = 15 | _ => False end.
Proof.
  split; [split; [reflexivity|repeat constructor]|]. split; [|vm_compute; auto].
  intros [_ H]. cbn [skipn app firstn] in H. do 4 (apply Forall_inv_tail in H). apply Forall_inv in H. discriminate H.
Qed.
Example C116_transfer_case : exists e o, transfer1 1 [[1; 2; 3; 4; 5; 6]] [mkublk false true e o] [] /\ zlen o = 20.
Proof.
  destruct (create_block 20 false 1 true [[1; 2; 3; 4; 5; 6]]) as [[[e o] r]| |] eqn:E; [|vm_compute in E; discriminate E|vm_compute in E; discriminate E].
  exists (e =? 1), o. assert (r = [] /\ zlen o = 20) as [Er Zo] by (clear -E; vm_compute in E; injection E as _ E1 E2; rewrite <- E1, <- E2; auto). subst r. split; [|exact Zo].
  apply (t1_block 1 [[1; 2; 3; 4; 5; 6]] [] [[1; 2; 3; 4; 5; 6]] false true e o []); [|discriminate|cbv zeta; intros _; split; [cbn; lia|intros _; eexists; reflexivity]|exact E].
  apply (t1_submit 1 [] [] [] [1; 2; 3; 4; 5; 6]); [constructor|cbn; lia].
Qed.

(** *** C117: encoding downlink blocks. *)
Lemma more_dec x : {more x} + {~ more x}.
Proof. destruct x as [[li m] e]. cbn. destruct (Z.eq_dec m 1), (Z.eq_dec e 0); tauto. Qed.
Lemma more_b li m e : (m =? 1) && (e =? 0) = true <-> more (li, m, e).
Proof. cbn. rewrite andb_true_iff, !Z.eqb_eq. tauto. Qed.
Definition mark_octet (x : Z * Z * Z) : Z := let '(li, m, e) := x in li mod 64 * 4 + m mod 2 * 2 + e mod 2.
Lemma ext_out_over l : Forall more l -> ext_out l = UB.
Proof. induction 1 as [|[[li m] e] l H _ IH]; [reflexivity|]. cbn [ext_out]. rewrite (proj2 (more_b li m e) H), IH. reflexivity. Qed.
Lemma ext_out_stop p : forall x r, Forall more p -> ~ more x -> ext_out (p ++ x :: r) = Ok (map mark_octet (p ++ [x])).
Proof.
  induction p as [|[[li m] e] p IH]; intros x r H Hx.
  - destruct x as [[li m] e]. cbn [app ext_out]. destruct ((m =? 1) && (e =? 0)) eqn:E; [apply (more_b li) in E; contradiction|]. reflexivity.
  - inversion H as [|y z Hy Hz]; subst y z. cbn [app ext_out]. rewrite (proj2 (more_b li m e) Hy), (IH x r Hz Hx). reflexivity.
Qed.
Lemma split_more l : Forall more l \/ exists p x r, l = p ++ x :: r /\ Forall more p /\ ~ more x.
Proof.
  induction l as [|a l IH]; [left; constructor|]. destruct (more_dec a) as [H|H].
  - destruct IH as [F|(p & x & r & -> & F & N)]; [left; constructor; assumption|]. right. exists (a :: p), x, r. split; [reflexivity|]. split; [constructor; assumption|exact N].
  - right. exists [], a, l. split; [reflexivity|]. split; [constructor|exact H].
Qed.

(** Whatever is in the structure: only the structure is read, and 23 octets are written, except that the arrays are left exactly if
    extension octets follow and no entry ends them. *)
Theorem C117_any_partial : forall d, w_pt d = 0 -> length (w_ext d) = 5%nat -> zlen (w_data d) = 20 ->
  (w_e1 d = 0 /\ Forall more (w_ext d) -> encode_dl d = UB) /\
  (~ (w_e1 d = 0 /\ Forall more (w_ext d)) -> exists m, encode_dl d = Ok m /\ zlen m = 23 /\
     field m 0 6 2 = 0 /\ field m 0 4 2 = w_rrbp d mod 4 /\ field m 0 3 1 = w_sp d mod 2 /\ field m 0 0 3 = w_usf d mod 8 /\
     field m 1 6 2 = w_pr d mod 4 /\ field m 1 1 5 = w_tfi d mod 32 /\ field m 1 0 1 = w_fbi d mod 2 /\ field m 2 1 7 = w_bsn d mod 128 /\ field m 2 0 1 = w_e1 d mod 2).
Proof.
  intros d Hp Hx Hd. unfold encode_dl. rewrite Hp. cbn [Z.eqb negb]. split.
  - intros [E F]. rewrite E. cbn [Z.eqb]. rewrite ext_out_over by exact F. reflexivity.
  - intros N. assert (exists x, (if w_e1 d =? 0 then ext_out (w_ext d) else Ok []) = Ok x /\ (length x <= 5)%nat) as (x & -> & L).
    { destruct (w_e1 d =? 0) eqn:E; [|exists []; cbn; auto with arith]. apply Z.eqb_eq in E.
      destruct (split_more (w_ext d)) as [F|(p & y & r & Ex & F & G)]; [exfalso; apply N; auto|]. rewrite Ex. eexists. split; [apply ext_out_stop; assumption|].
      rewrite Ex in Hx. rewrite map_length, !app_length in *. cbn [length] in *. lia. }
    cbn [bind]. assert (0 <= zlen x <= 5) as Lz by (unfold zlen; lia). replace ((23 - (3 + zlen x) <? 0) || (20 <? 23 - (3 + zlen x))) with false by lia.
    rewrite rdn_ok by lia. cbn [bind]. eexists. split; [reflexivity|]. split.
    + rewrite !zlen_app. unfold slice. change (Z.to_nat 0) with 0%nat. cbn [skipn]. unfold zlen in *. rewrite firstn_length. cbn [length]. lia.
    + unfold field. cbn [app nth]. rewrite !Z.pow_0_r, !Z.div_1_r. change (2 ^ 6) with 64. change (2 ^ 4) with 16. change (2 ^ 3) with 8. change (2 ^ 2) with 4. change (2 ^ 1) with 2. change (2 ^ 7) with 128. change (2 ^ 5) with 32.
      clear. repeat split; Z.to_euclidean_division_equations; lia.
Qed.
Print Assumptions C117_any_partial.
Theorem C117_any_refuted : ~ (forall d, length (w_ext d) = 5%nat -> zlen (w_data d) = 20 -> encode_dl d <> UB).
Proof. intros H. apply (H (mkddata 0 0 0 0 0 0 0 0 0 (repeat (1, 1, 0) 5) (repeat 43 20))); reflexivity. Qed.
Print Assumptions C117_any_refuted.

(** The octets are those of TS 44.060, and the mobile finds in them what was put in. *)
Theorem C117_block : forall tfi bsn f b d, 0 <= tfi < 32 -> 0 <= bsn < 128 -> df_ok f ->
  well_formed (n_last b) (n_segs b) (n_tail b) -> zlen (n_octets b) = 20 -> filled tfi bsn f b d ->
  encode_dl d = Ok (dl_message 1 tfi bsn f b) /\
  forall rfn past sys who tn fn, fn mod 104 <> 12 ->
  PdchModel.pdch_data_ind rfn past sys who tn fn (dl_message 1 tfi bsn f b) = PdchModel.PData 1 /\
  exists h, AirModel.dl_data 1 (dl_message 1 tfi bsn f b) = Ok (h, n_stored b) /\
    AirModel.dh_tfi h = tfi /\ AirModel.dh_bsn h = bsn /\ AirModel.dh_sp h = f_sp f /\ AirModel.dh_rrbp h = f_rrbp f /\ AirModel.dh_usf h = f_usf f /\ AirModel.dh_pr h = f_pr f.
Proof.
  intros tfi bsn f b d Ht Hn Hf Hw Hz (x & y & fbi & e1 & -> & -> & -> & Lx & Ld). split.
  2:{ intros. apply C112_downlink_block; try assumption; try lia. }
  cbn [w_ext w_data] in Lx, Ld. unfold encode_dl. cbn [w_pt w_rrbp w_sp w_usf w_pr w_tfi w_fbi w_bsn w_e1 w_ext w_data Z.eqb negb].
  assert (Forall (fun s => 1 <= zlen s <= 63) (n_segs b)) as Hs by apply Hw.
  assert ((if (if e_bit (n_segs b) (n_tail b) then 1 else 0) =? 0 then ext_out (marks (n_segs b) (n_tail b) ++ x) else Ok []) = Ok (exts (n_segs b) (n_tail b))) as ->.
  { unfold e_bit. rewrite <- (x_marks _ (n_tail b) Hs).
    assert (Forall (fun o => 0 <= o < 256) (exts (n_segs b) (n_tail b))) as Bx.
    { clear -Hs. destruct (snoc_cases (n_segs b)) as [E|(q & s & E)]; rewrite E in *.
      - destruct (n_tail b); cbn [exts]; repeat constructor; lia.
      - apply Forall_app in Hs as [Hq Hl]. apply Forall_inv in Hl. rewrite exts_snoc. apply Forall_app. split.
        + clear -Hq. induction Hq as [|a q Ha _ IH]; [constructor|]. cbn [map]. constructor; [unfold x2; lia|exact IH].
        + unfold x2. destruct (n_tail b); repeat constructor; lia. }
    assert (forall o, 0 <= o < 256 -> mark_octet (mark o) = o) as Back by (intros o Ho; unfold mark_octet, mark; Z.to_euclidean_division_equations; lia).
    assert (forall o, more (mark o) <-> o mod 4 = 2) as Mo by (intros o; unfold more, mark; Z.to_euclidean_division_equations; lia).
    destruct (x_shape (n_segs b) (n_tail b)) as [X|(p & o & X & F & G)]; rewrite X in *; [reflexivity|].
    replace (match p ++ [o] with [] => true | _ => false end) with false by (destruct p; reflexivity). cbn [Z.eqb].
    rewrite map_app, <- app_assoc. cbn [map app]. rewrite ext_out_stop; [| |rewrite Mo; exact G].
    - rewrite map_app. cbn [map]. apply Forall_app in Bx as [B1 B2]. f_equal. f_equal; [|f_equal; apply Back, (Forall_inv B2)].
      rewrite map_map. clear -B1 Back. induction B1 as [|a p Ha _ IH]; [reflexivity|]. cbn [map]. rewrite Back by exact Ha. f_equal. exact IH.
    - clear -F Mo. induction F as [|a p Ha _ IH]; [constructor|]. cbn [map]. constructor; [apply Mo; exact Ha|exact IH]. }
  cbn [bind]. unfold n_octets, layout in Hz. rewrite !zlen_app in Hz. change (zlen (@nil Z)) with 0 in Hz.
  pose proof (zlen_nonneg (exts (n_segs b) (n_tail b))). pose proof (zlen_nonneg (concat (n_segs b))). pose proof (zlen_nonneg (tail_data (n_tail b))).
  replace ((23 - (3 + zlen (exts (n_segs b) (n_tail b))) <? 0) || (20 <? 23 - (3 + zlen (exts (n_segs b) (n_tail b))))) with false by lia.
  rewrite rdn_ok by lia. cbn [bind]. unfold dl_message. change (1 =? 1) with true. cbv iota. rewrite app_nil_r. unfold n_octets, layout. cbn [app].
  unfold slice. change (Z.to_nat 0) with 0%nat. cbn [skipn]. rewrite (app_assoc (concat (n_segs b))), firstn_app_exact by (rewrite app_length; unfold zlen in *; lia).
  destruct Hf as (F1 & F2 & F3 & F4 & F5). f_equal. f_equal; [|f_equal; [|f_equal]].
  - rewrite !Z.mod_small by lia. reflexivity.
  - rewrite !Z.mod_small by (destruct (n_last b); lia). reflexivity.
  - rewrite !Z.mod_small by (destruct (e_bit (n_segs b) (n_tail b)); lia). reflexivity.
Qed.
Print Assumptions C117_block.
(** The structure has room for every block that the network may send (of each LLC frame but the first the block has all octets or ends in it). *)
Theorem C117_room : forall tfi bsn f b, lawful b -> zlen (n_octets b) = 20 -> exists d, filled tfi bsn f b d.
Proof.
  intros tfi bsn f b (Hw & _ & H5) Hz. pose proof (x_room [] (n_segs b) (n_tail b)) as R. destruct Hw as [Hs _].
  specialize (R ltac:(eapply Forall_impl; [|exact Hs]; cbv beta; intros; lia) H5). unfold n_octets in Hz. specialize (R ltac:(lia)).
  rewrite <- (map_length mark), (x_marks _ _ Hs) in R. unfold layout in Hz. rewrite !zlen_app in Hz. change (zlen (@nil Z)) with 0 in Hz.
  pose proof (zlen_nonneg (exts (n_segs b) (n_tail b))).
  eexists. exists (repeat (0, 0, 0) (5 - length (marks (n_segs b) (n_tail b)))), (repeat 0 (20 - length (concat (n_segs b) ++ tail_data (n_tail b)))). do 2 eexists.
  split; [reflexivity|]. split; [reflexivity|]. split; [reflexivity|]. cbn [w_ext w_data]. split.
  - rewrite app_length, repeat_length. lia.
  - unfold zlen in *. rewrite !app_length, repeat_length. lia.
Qed.
Print Assumptions C117_room.

(** Two frames of five octets and the beginning of a third; a poll in it. *)
Definition nb20 : nblk := mknblk false [[1; 2; 3; 4; 5]; [6; 7; 8; 9; 10]] (TCont [11; 12; 13; 14; 15; 16; 17; 18]).
Definition ms20 : ddata := mkddata 0 2 1 5 0 17 0 100 0 [(5, 1, 0); (5, 1, 1); (9, 9, 9); (9, 9, 9); (9, 9, 9)] (map Z.of_nat (seq 1 20)).
Example C117_case : filled 17 100 (mkdf 5 1 2 0 0) nb20 ms20 /\ lawful nb20 /\ zlen (n_octets nb20) = 20 /\
  encode_dl ms20 = Ok ([45; 34; 200; 22; 23] ++ map Z.of_nat (seq 1 18)).
Proof.
  split; [|split; [|split; [reflexivity|vm_compute; reflexivity]]].
  - exists [(9, 9, 9); (9, 9, 9); (9, 9, 9)], [19; 20], 0, 0. repeat split.
  - split; [split; [repeat constructor; cbn; lia|discriminate]|]. split; [cbn; lia|]. cbn [nb20 n_segs List.tl]. repeat constructor. cbn. lia.
Qed.
