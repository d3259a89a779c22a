(** Proofs about EGPRS blocks sent again. *)
From Verif.Lib Require Import Base Outcome.
From Verif.Rlcmac Require Import CsModel AirModel AirSpec AirEdgeSpec AirProofs AirProofs2.

(** The schemes a block can be sent in. *)
Definition pairs : list (Z * Z) :=
  [(5, 5); (6, 6); (7, 7); (8, 8); (8, 5); (9, 9); (9, 6); (9, 11); (10, 10); (10, 7); (10, 13); (11, 6); (11, 9); (11, 11); (12, 12); (13, 7); (13, 10); (13, 13)].
(** A block between two transmissions. *)
Record inv (b : ablk) : Prop := mkinv {
  i_pair : In (a_init b, a_cur b) pairs;
  i_buf : bytes (a_buf b) /\ zlen (a_buf b) = 74;
  i_ps : 0 <= a_ps b <= 2;
  i_six : a_last b = 10 -> a_ps b <= 1;
  i_seg : a_seg b = SEG_DEFAULT \/ a_seg b = SEG_FIRST \/ a_seg b = SEG_SECOND }.

Lemma edge_cases c : 5 <= c <= 13 -> c = 5 \/ c = 6 \/ c = 7 \/ c = 8 \/ c = 9 \/ c = 10 \/ c = 11 \/ c = 12 \/ c = 13.
Proof. lia. Qed.
Lemma retx_pair init cmd arq : 5 <= init <= 13 -> 5 <= cmd <= 13 -> exists c, retx_cs init cmd arq = Ok c /\ In (init, c) pairs.
Proof.
  intros Hi Hc. destruct (edge_cases _ Hi) as [D|[D|[D|[D|[D|[D|[D|[D|D]]]]]]]]; subst init;
    destruct (edge_cases _ Hc) as [D|[D|[D|[D|[D|[D|[D|[D|D]]]]]]]]; subst cmd; destruct arq; (eexists; split; [vm_compute; reflexivity|vm_compute; tauto]).
Qed.

Lemma get_range p last cur spb : 0 <= p <= 2 -> (last = 10 -> p <= 1) -> 0 <= get_punct p last cur spb <= 2.
Proof.
  intros H1 H2. unfold get_punct, PS_INVALID. repeat match goal with |- context [if ?b then _ else _] => let E := fresh in destruct b eqn:E end; lia.
Qed.
Lemma upd_range p cs : 0 <= p <= 2 -> 5 <= cs <= 13 -> 0 <= update_punct p cs <= 2 /\ (cs = 10 -> update_punct p cs <= 1).
Proof.
  intros H1 H2. unfold update_punct. destruct (edge_cases _ H2) as [D|[D|[D|[D|[D|[D|[D|[D|D]]]]]]]]; subst cs; cbn [Z.eqb Pos.eqb orb];
    pose proof (Z.mod_pos_bound (p + 1) 2 ltac:(lia)); pose proof (Z.mod_pos_bound (p + 1) 3 ltac:(lia)); lia.
Qed.

(** One data block. *)
Lemma one_ok s cs spb bsn i pad msg from seg offs len : 5 <= cs <= 13 -> bytes (a_buf (s bsn)) -> zlen (a_buf (s bsn)) = 74 -> 0 <= a_ps (s bsn) <= 2 -> (a_last (s bsn) = 10 -> a_ps (s bsn) <= 1) ->
  get_data (s bsn) = Ok (from, seg) -> data_offs_bits cs pad true i = Ok offs -> block_data_len cs pad = Ok len ->
  0 <= from -> 0 <= len -> from + len <= 74 -> 0 <= offs -> offs + 8 * len <= 8 * zlen msg -> bytes msg ->
  let b := s bsn in let p := get_punct (a_ps b) (a_last b) cs spb in let first := (spb =? SPB_FIRST_10PAD) || (spb =? SPB_FIRST_6NOPAD) in
  exists m, copy_from offs len msg (skipn (Z.to_nat from) (a_buf b)) = Ok m /\ bytes m /\ zlen m = zlen msg /\
    one_block s cs spb bsn i pad msg = Ok (sset s bsn (mkablk (a_buf b) (a_ti b) (a_e b) (a_cv b) cs (a_cur b) (a_init b) (if first then p else update_punct p cs) seg), m, p, first,
      mkulh 0 0 (a_cv b) (a_ti b) 0 (a_e b) bsn) /\ 0 <= p <= 2.
Proof.
  intros Hcs Bb Zb Hp Hs Eg Eo El H1 H2 H3 H4 H5 Bm b p first.
  destruct (copy_from_ok offs len msg (skipn (Z.to_nat from) (a_buf b)) H4 H2 H5) as (m & E & B & Zm & _); [subst b; unfold zlen in *; rewrite skipn_length; lia|exact Bm|apply Forall_skipn, Bb|].
  exists m. split; [exact E|]. split; [exact B|]. split; [exact Zm|].
  assert (0 <= p <= 2) as Rp by (apply get_range; assumption). split; [|exact Rp].
  unfold one_block. fold b. fold p. replace (is_edge cs && negb ((0 <=? p) && (p <=? 2))) with false by (unfold is_edge; lia). subst b. rewrite Eg. cbn [bind]. rewrite Eo, El. cbn [bind]. rewrite E. reflexivity.
Qed.

(** What a transmission of a block with status [b] carries: how it is called (SPB), the scheme, padding, and which octets of the block. *)
Record plan := mkplan { p_spb : Z; p_cs : Z; p_pad : bool; p_from : Z; p_len : Z; p_offs : Z; p_num : Z; p_size : Z; p_seg : Z }.
Definition plan_of (b : ablk) : res plan :=
  let '(cs, pad) := choose_cs b false in
  do spb <- get_spb b; do g <- get_data b; do len <- block_data_len cs pad; do offs <- data_offs_bits cs pad true 0; do num <- num_data_blocks cs; do n <- size_ul cs;
  Ok (mkplan spb cs pad (fst g) len offs num n (snd g)).
Lemma plan_ok b : inv b -> exists p, plan_of b = Ok p /\ 5 <= p_cs p <= 13 /\ 0 <= p_from p /\ 0 <= p_len p /\ p_from p + p_len p <= 74 /\ 0 <= p_offs p /\ p_offs p + 8 * p_len p <= 8 * p_size p /\
  0 <= p_size p /\ (p_num p = 1 /\ p_cs p <= 10 \/ p_num p = 2 /\ p_cs p = 12 /\ p_spb p = SPB_NO /\ p_pad p = false /\ a_cur b = 12 /\ p_from p = 0) /\
  (p_seg p = SEG_DEFAULT \/ p_seg p = SEG_FIRST \/ p_seg p = SEG_SECOND) /\
  ((p_spb p =? SPB_FIRST_10PAD) || (p_spb p =? SPB_FIRST_6NOPAD) = true -> p_cs p <> 10).
Proof.
  intros [Hp _ _ _ Hs]. unfold plan_of, choose_cs, get_spb, get_data, header_type. destruct b as [buf ti e cv last cur init ps seg]. cbn [a_buf a_ti a_e a_cv a_last a_cur a_init a_ps a_seg] in *.
  unfold pairs in Hp. cbn [In] in Hp.
  destruct Hp as [H|[H|[H|[H|[H|[H|[H|[H|[H|[H|[H|[H|[H|[H|[H|[H|[H|[H|[]]]]]]]]]]]]]]]]]]]; injection H as <- <-; destruct Hs as [->|[-> | ->]]; (eexists; split; [vm_compute; reflexivity|cbn; repeat split; try lia; try discriminate; auto]).
  all: right; repeat split.
Qed.

Lemma data_same b b' : a_init b' = a_init b -> a_cur b' = a_cur b -> a_seg b' = a_seg b -> get_data b' = get_data b.
Proof. intros H1 H2 H3. unfold get_data. rewrite H1, H2, H3. reflexivity. Qed.

(** A transmission of the block alone. *)
Lemma edge_ok s tfi bsn : inv (s bsn) -> exists p s' m k c f, plan_of (s bsn) = Ok p /\ acked_block s tfi bsn None = Ok (s', m, k, Some c, f) /\
  inv (s' bsn) /\ a_init (s' bsn) = a_init (s bsn) /\ a_buf (s' bsn) = a_buf (s bsn) /\ a_seg (s' bsn) = p_seg p /\ a_cur (s' bsn) = a_cur (s bsn) /\
  (forall j, j <> bsn -> s' j = s j) /\ zlen m = p_size p /\ bytes m /\ 5 <= p_cs p <= 13 /\
  copy_to (p_offs p) (p_len p) m = Ok (slice (Z.to_nat (p_from p)) (Z.to_nat (p_len p)) (a_buf (s bsn))) /\
  exists p1 p2, 0 <= p1 <= 2 /\ (p_cs p <= 10 /\ p2 = PS_INVALID \/ p_cs p = 12 /\ 0 <= p2 <= 2) /\ mcs_cps (p_cs p) p1 p2 (p_pad p) = Ok c.
Proof.
  intros I. destruct (plan_ok _ I) as (p & Ep & H1 & H2 & H3 & H4 & H5 & H6 & H6b & H7 & H8 & H9). destruct I as [Ip [Ib Iz] Iq Ix Is].
  exists p. pose proof Ep as Ep0. unfold plan_of in Ep. unfold acked_block. destruct (choose_cs (s bsn) false) as [cs pad] eqn:Ec.
  destruct (get_spb (s bsn)) as [spb| |] eqn:Eb; cbn [bind] in Ep; try discriminate Ep.
  destruct (get_data (s bsn)) as [[from seg]| |] eqn:Eg; cbn [bind] in Ep; try discriminate Ep.
  destruct (block_data_len cs pad) as [len| |] eqn:El; cbn [bind] in Ep; try discriminate Ep.
  destruct (data_offs_bits cs pad true 0) as [offs| |] eqn:Eo; cbn [bind] in Ep; try discriminate Ep.
  destruct (num_data_blocks cs) as [num| |] eqn:En; cbn [bind] in Ep; try discriminate Ep.
  destruct (size_ul cs) as [n| |] eqn:Es; cbn [bind] in Ep; try discriminate Ep.
  injection Ep as Ep. subst p. cbn [p_spb p_cs p_pad p_from p_len p_offs p_num p_size p_seg fst snd] in *. cbn [bind].
  set (msg := repeat 0 (Z.to_nat n)). assert (zlen msg = n) as Zm by (subst msg; unfold zlen; rewrite repeat_length; lia).
  assert (bytes msg) as Bm by (subst msg; apply Forall_forall; intros y Hy; apply repeat_spec in Hy as ->; unfold byte; lia).
  replace (negb ((0 <? num) && (num <=? 2))) with false by lia.
  destruct (one_ok s cs spb bsn 0 pad msg from seg offs len) as (m & E1 & B1 & Z1 & E2 & R1); try assumption; try lia.
  rewrite E2. cbn [bind]. cbn [uh_cv uh_ti uh_e uh_bsn].
  set (p1 := get_punct (a_ps (s bsn)) (a_last (s bsn)) cs spb) in *. set (fst_ := (spb =? SPB_FIRST_10PAD) || (spb =? SPB_FIRST_6NOPAD)) in *.
  set (s1 := sset s bsn _). assert (s1 bsn = mkablk (a_buf (s bsn)) (a_ti (s bsn)) (a_e (s bsn)) (a_cv (s bsn)) cs (a_cur (s bsn)) (a_init (s bsn)) (if fst_ then p1 else update_punct p1 cs) seg) as Es1 by (subst s1; unfold sset; rewrite Z.eqb_refl; reflexivity).
  pose proof (upd_range p1 cs R1 H1) as [U1 U2].
  assert (inv (s1 bsn)) as I1.
  { rewrite Es1. constructor; cbn [a_buf a_ti a_e a_cv a_last a_cur a_init a_ps a_seg]; auto; [destruct fst_; assumption|]. intros Hc. destruct fst_; [exfalso; apply H9; auto|auto]. }
  assert (forall j, j <> bsn -> s1 j = s j) as O1 by (intros j Hj; subst s1; unfold sset; replace (j =? bsn) with false by lia; reflexivity).
  assert (write_ul_header cs (mkulh 0 0 (a_cv (s bsn)) (a_ti (s bsn)) tfi (a_e (s bsn)) bsn) = fun x => Ok x) as Ew.
  { unfold write_ul_header. destruct (edge_cases _ H1) as [D|[D|[D|[D|[D|[D|[D|[D|D]]]]]]]]; rewrite D; reflexivity. }
  assert (forall d : list Z, slice (Z.to_nat from) (Z.to_nat len) d = firstn (Z.to_nat len) (skipn (Z.to_nat from) d)) as Sl by reflexivity.
  assert (len <= zlen (skipn (Z.to_nat from) (a_buf (s bsn)))) as Lsk by (unfold zlen in *; rewrite skipn_length; lia).
  assert (bytes (skipn (Z.to_nat from) (a_buf (s bsn)))) as Bsk by (apply Forall_skipn, Ib).
  destruct H7 as [[N1 N2]|(N1 & N2 & N3 & N4 & N5 & N6)].
  - subst num. change (1 =? 2) with false. cbn [bind]. rewrite Ew. cbn [bind].
    assert (exists c, mcs_cps cs p1 PS_INVALID pad = Ok c) as (c & Ecps).
    { unfold mcs_cps, PS_INVALID. replace (is_edge cs) with true by (unfold is_edge; lia). replace (11 <=? cs) with false by lia. replace (p1 =? 3) with false by lia. cbn [negb andb]. eauto. }
    exists s1, m, (((if fst_ then [bsn] else []) : list Z) ++ []), c, ((a_cv (s bsn) =? 0) || false). replace (is_edge cs) with true by (unfold is_edge; lia). rewrite Ecps.
    split; [exact Ep0|]. split; [reflexivity|]. split; [exact I1|]. rewrite Es1. cbn [a_init a_buf a_seg a_cur]. split; [reflexivity|]. split; [reflexivity|]. split; [reflexivity|]. split; [reflexivity|]. split; [exact O1|]. split; [lia|]. split; [exact B1|]. split; [exact H1|].
    split; [rewrite Sl; apply (back_ok offs len msg); try assumption; lia|]. exists p1, PS_INVALID. auto.
  - subst num cs. change (2 =? 2) with true. cbv iota. rewrite N3, N4 in *.
    assert (data_offs_bits 12 false true 1 = Ok (offs + 8 * len + 2)) as Eo1.
    { vm_compute in Eo, El. injection Eo as <-. injection El as <-. reflexivity. }
    assert (offs + 8 * len + 2 + 8 * len <= 8 * n) as Fit. { vm_compute in Eo, El, Es. injection Eo as <-. injection El as <-. injection Es as <-. lia. }
    assert (get_data (s1 bsn) = Ok (from, SEG_DEFAULT)) as Eg1.
    { rewrite Es1. subst from. unfold get_data, header_type. cbn [a_init a_cur a_seg]. rewrite N5. destruct Ip as [Hp|Hp] eqn:Q; clear Q; [congruence|].
      assert (a_init (s bsn) = 12) as Hi. { rewrite N5 in Hp. unfold pairs in Hp. cbn [In] in Hp. repeat (destruct Hp as [Hp|Hp]; [injection Hp; intros; lia|]). contradiction. } rewrite Hi. reflexivity. }
    destruct I1 as [J1 [J2 J3] J4 J5 J6].
    destruct (one_ok s1 12 SPB_NO bsn 1 false m from SEG_DEFAULT (offs + 8 * len + 2) len) as (m2 & F1 & B2 & Z2 & F2 & R2); try assumption; try lia.
    rewrite F2. cbn [bind]. rewrite Ew. cbn [bind]. cbn [uh_cv]. change (is_edge 12) with true. cbv iota.
    set (p2 := get_punct (a_ps (s1 bsn)) (a_last (s1 bsn)) 12 SPB_NO) in *. 
    assert (exists c, mcs_cps 12 p1 p2 false = Ok c) as (c & Ecps).
    { unfold mcs_cps, PS_INVALID. replace (p2 =? 3) with false by lia. replace (p1 =? 3) with false by lia. rewrite andb_false_r. eexists. reflexivity. }
    change (SPB_NO =? SPB_FIRST_10PAD) with false in *. change (SPB_NO =? SPB_FIRST_6NOPAD) with false in *. cbn [orb] in *. rewrite Ecps.
    eexists. exists m2. eexists. exists c. eexists. split; [exact Ep0|]. split; [reflexivity|].
    pose proof (upd_range p2 12 R2 ltac:(lia)) as [V1 V2]. unfold sset at 1 2 3 4 5. rewrite Z.eqb_refl. cbn [a_init a_buf a_seg a_cur].
    assert (seg = SEG_DEFAULT) as Sg. { rewrite Es1 in Eg1. cbn in Eg1. unfold get_data, header_type in Eg, Eg1. cbn [a_init a_cur a_seg] in Eg1. rewrite N5 in Eg, Eg1.
      destruct (info (a_init (s bsn))) as [mi| |]; cbn [bind] in Eg, Eg1; try discriminate Eg. vm_compute in Eg. injection Eg as _ <-. reflexivity. }
    split; [constructor; rewrite ?Es1; cbn [a_buf a_ti a_e a_cv a_last a_cur a_init a_ps a_seg]; [assumption|split; assumption|lia|intros; discriminate|left; reflexivity]|].
    rewrite Es1. cbn [a_init a_buf a_seg a_cur]. split; [reflexivity|]. split; [reflexivity|]. split; [congruence|]. split; [reflexivity|].
    split; [intros j Hj; unfold sset; replace (j =? bsn) with false by lia; apply O1, Hj|]. split; [lia|]. split; [exact B2|]. split; [lia|]. split.
    + rewrite Sl. destruct (two_ok offs (offs + 8 * len + 2) len msg (skipn (Z.to_nat from) (a_buf (s bsn))) (skipn (Z.to_nat from) (a_buf (s1 bsn)))) as (x0 & x1 & X0 & X1 & _ & _ & X2 & _); try assumption; try lia.
      { rewrite Es1. exact Lsk. } { rewrite Es1. exact Bsk. }
      rewrite E1 in X0. injection X0 as <-. rewrite F1 in X1. injection X1 as <-. exact X2.
    + exists p1, p2. auto.
Qed.

Lemma new_inv cs ti e cv buf : 5 <= cs <= 13 -> bytes buf -> zlen buf = 74 -> inv (new_ablk cs ti e cv buf).
Proof.
  intros Hc Hb Hz. constructor; cbn [new_ablk a_buf a_ti a_e a_cv a_last a_cur a_init a_ps a_seg]; auto; try lia.
  destruct (edge_cases _ Hc) as [D|[D|[D|[D|[D|[D|[D|[D|D]]]]]]]]; subst cs; vm_compute; tauto.
Qed.

(** The plan in terms of the standard. *)
Lemma plan_std b p : inv b -> plan_of b = Ok p -> p_len p = octets (p_cs p - 4) (p_pad p) /\ p_offs p = start (p_cs p - 4) (p_pad p) /\ p_size p = message (p_cs p - 4) (p_pad p) /\
  (p_pad p = true -> p_cs p = 7 \/ p_cs p = 10) /\ get_spb b = Ok (p_spb p).
Proof.
  intros [Hp _ _ _ Hs]. unfold plan_of, choose_cs, get_spb, get_data, header_type. destruct b as [buf ti e cv last cur init ps seg]. cbn [a_buf a_ti a_e a_cv a_last a_cur a_init a_ps a_seg] in *.
  unfold pairs in Hp. cbn [In] in Hp.
  destruct Hp as [H|[H|[H|[H|[H|[H|[H|[H|[H|[H|[H|[H|[H|[H|[H|[H|[H|[H|[]]]]]]]]]]]]]]]]]]]; injection H as <- <-; destruct Hs as [->|[-> | ->]]; intros E; vm_compute in E; injection E as <-; cbn; repeat split; try discriminate; auto.
Qed.
(** A block not of MCS-4 at first: all of it, its first half, or its second half. *)
Lemma plan_cases b p : inv b -> a_init b <> 8 -> (a_seg b = SEG_FIRST -> In (a_init b) [9; 10; 11; 13]) -> plan_of b = Ok p ->
  (p_spb p = 0 /\ p_from p = 0 /\ p_len p = octets (a_init b - 4) false /\ p_seg p = SEG_DEFAULT) \/
  (p_spb p = 2 /\ a_seg b <> SEG_FIRST /\ p_from p = 0 /\ 0 < p_len p /\ 2 * p_len p = octets (a_init b - 4) false /\ p_seg p = SEG_FIRST /\ In (a_init b) [9; 10; 11; 13]) \/
  (p_spb p = 3 /\ a_seg b = SEG_FIRST /\ 2 * p_from p = octets (a_init b - 4) false /\ p_len p = p_from p /\ p_seg p = SEG_SECOND).
Proof.
  intros [Hp _ _ _ Hs] N8 HF. unfold plan_of, choose_cs, get_spb, get_data, header_type. destruct b as [buf ti e cv last cur init ps seg]. cbn [a_buf a_ti a_e a_cv a_last a_cur a_init a_ps a_seg] in *.
  unfold pairs in Hp. cbn [In] in Hp.
  destruct Hp as [H|[H|[H|[H|[H|[H|[H|[H|[H|[H|[H|[H|[H|[H|[H|[H|[H|[H|[]]]]]]]]]]]]]]]]]]]; injection H as <- <-; try (exfalso; apply N8; reflexivity);
    destruct Hs as [->|[-> | ->]]; intros E; vm_compute in E; injection E as <-; cbn;
    first [left; repeat split; reflexivity | right; left; repeat split; [discriminate|tauto] | right; right; repeat split; reflexivity
          | exfalso; specialize (HF eq_refl); cbn in HF; lia].
Qed.
