(** Proofs about the length-indicator decoder and reassembly. *)
From Verif.Lib Require Import Base Outcome.
From Verif.Rlcmac Require Import RlcDataModel RlcDataSpec.

Lemma ext_li n k : 0 <= k < 4 -> Z.shiftr (4 * n + k) 2 = n.
Proof. intros H. rewrite shiftr_div by lia. change (2 ^ 2) with 4. lia. Qed.
Lemma ext_bit0 n k : Z.testbit (4 * n + k) 0 = Z.testbit k 0.
Proof. rewrite !Z.bit0_odd, Z.odd_add, Z.odd_mul. change (Z.odd 4) with false. now destruct (Z.odd k). Qed.
Lemma ext_bit1 n k : 0 <= k < 4 -> Z.testbit (4 * n + k) 1 = Z.testbit k 1.
Proof.
  intros H. rewrite !Z.testbit_odd, !shiftr_div by lia. change (2 ^ 1) with 2.
  replace ((4 * n + k) / 2) with (2 * n + k / 2) by lia. rewrite Z.odd_add, Z.odd_mul. change (Z.odd 2) with false. now destruct (Z.odd (k / 2)).
Qed.
Local Ltac Zify.zify_post_hook ::= idtac.

Lemma rd_app pre x post : rd (pre ++ x :: post) (zlen pre) = Ok x.
Proof.
  rewrite rd_ok; [|rewrite zlen_app, zlen_cons; pose proof (zlen_nonneg pre); pose proof (zlen_nonneg post); lia].
  f_equal. unfold zlen. rewrite Nat2Z.id, app_nth2, Nat.sub_diag; [reflexivity|lia].
Qed.
Lemma slice_app_exact (a b c : list Z) : slice (Z.to_nat (zlen a)) (Z.to_nat (zlen b)) (a ++ b ++ c) = b.
Proof. unfold slice, zlen. rewrite !Nat2Z.id, skipn_app_exact by reflexivity. now apply firstn_app_exact. Qed.
Lemma rdn_app_exact (a b c : list Z) : rdn (a ++ b ++ c) (zlen a) (zlen b) = Ok b.
Proof.
  rewrite rdn_ok; [|apply zlen_nonneg|apply zlen_nonneg|rewrite !zlen_app; pose proof (zlen_nonneg c); lia].
  now rewrite slice_app_exact.
Qed.

(** Lengths the decoder extracts from the extension octets. *)
Definition lens (last : bool) (segs : list (list Z)) (t : tail) : list (Z * bool) :=
  map (fun s => (zlen s, true)) segs ++ match t with TFill _ => [] | _ => [(LENGTH_TO_END, last)] end.

Lemma parse_exts last size segs t rest : forall fuel pre acc dlen,
  Forall (fun s => 1 <= zlen s <= 63) segs -> exts segs t <> [] -> zlen pre + zlen (exts segs t) <= dlen + 1 ->
  (length (exts segs t) <= fuel)%nat -> zlen acc + zlen (lens last segs t) <= size ->
  parse_gprs fuel (pre ++ exts segs t ++ rest) dlen (zlen pre) last size acc
  = Ok (rev acc ++ lens last segs t, zlen pre + zlen (exts segs t)).
Proof.
  induction segs as [|s segs IH]; intros fuel pre acc dlen Hs Hne Hd Hf Hsz.
  - destruct t as [p|d|d]; cbn [exts] in Hne; [congruence|congruence|]. destruct fuel as [|fuel]; [cbn in Hf; lia|].
    cbn [exts app lens map] in *. cbn [parse_gprs]. rewrite !zlen_cons in *. change (zlen (@nil Z)) with 0 in *. change (zlen (@nil (Z * bool))) with 0 in *.
    replace (dlen <? zlen pre) with false by lia.
    rewrite rd_app. cbn [bind]. change (Z.shiftr 1 2) with 0. cbn [Z.eqb negb andb orb].
    pose proof (zlen_nonneg acc). replace (zlen acc =? size) with false by lia. reflexivity.
  - inversion Hs as [|? ? Hs1 Hs2]; subst.
    destruct fuel as [|fuel]; [cbn in Hf; lia|].
    cbn [exts] in *. set (more := exts segs t) in *.
    set (k := match more, t with _ :: _, _ => 2 | [], TFill _ => 1 | [], _ => 3 end) in *.
    assert (Hk : 0 <= k < 4) by (unfold k; destruct more, t; lia).
    rewrite zlen_cons in Hd. cbn [app parse_gprs]. pose proof (zlen_nonneg more).
    replace (dlen <? zlen pre) with false by lia. rewrite rd_app. cbn [bind].
    rewrite ext_li, ext_bit0, ext_bit1 by exact Hk. replace (zlen s =? 0) with false by lia.
    assert (Hl : lens last (s :: segs) t = (zlen s, true) :: lens last segs t) by reflexivity.
    rewrite Hl, zlen_cons in Hsz. pose proof (zlen_nonneg (lens last segs t)). pose proof (zlen_nonneg acc).
    assert (Em : negb (Z.testbit k 1) && negb (Z.testbit k 0) = false) by (unfold k; destruct more, t; reflexivity).
    rewrite Em. replace (zlen acc =? size) with false by lia. cbn [negb orb].
    assert (Hsegs : more = [] -> segs = [] /\ match t with TLi0 _ => False | _ => True end).
    { unfold more. destruct segs; cbn [exts]; [destruct t; auto; discriminate|discriminate]. }
    destruct more as [|o more'] eqn:Emore.
    + destruct (Hsegs eq_refl) as [-> Ht]. rewrite Hl. destruct t as [p|d|d]; [|unfold k|contradiction]; cbn [Z.testbit Pos.testbit].
      * subst k. cbn [Z.testbit Pos.testbit]. rewrite zlen_cons. change (zlen (@nil Z)) with 0. unfold lens. cbn [map app rev]. replace (zlen pre + (0 + 1)) with (zlen pre + 1) by lia. reflexivity.
      * rewrite !zlen_cons in *. cbn [lens map app] in Hsz. change (zlen [(LENGTH_TO_END, last)]) with 1 in Hsz.
        replace (zlen acc + 1 =? size) with false by lia. unfold lens. cbn [map app rev]. rewrite <- app_assoc. cbn [app]. change (zlen (@nil Z)) with 0. replace (zlen pre + (0 + 1)) with (zlen pre + 1) by lia. reflexivity.
    + subst k. change (Z.testbit 2 0) with false. cbn iota. rewrite <- Emore in *.
      replace (pre ++ (4 * zlen s + 2) :: more ++ rest) with ((pre ++ [4 * zlen s + 2]) ++ more ++ rest) by (rewrite <- app_assoc; reflexivity).
      replace (zlen pre + 1) with (zlen (pre ++ [4 * zlen s + 2])) by (rewrite zlen_app; reflexivity).
      unfold more. rewrite IH; [|exact Hs2|fold more; rewrite Emore; discriminate| | |].
      * fold more. cbn [rev]. rewrite <- app_assoc. cbn [app]. rewrite zlen_app, (zlen_cons _ more), Hl.
        change (zlen [4 * zlen s + 2]) with 1. replace (zlen pre + 1 + zlen more) with (zlen pre + (zlen more + 1)) by lia. reflexivity.
      * fold more. rewrite zlen_app. change (zlen [4 * zlen s + 2]) with 1. lia.
      * fold more. cbn in Hf. lia.
      * rewrite zlen_cons. lia.
Qed.

(** What the chunk descriptors denote. *)
Definition content (data : list Z) (c : chunk) : list Z * bool := (slice (Z.to_nat (c_off c)) (Z.to_nat (c_len c)) data, c_done c).
Definition inside (data : list Z) (c : chunk) : Prop := 0 <= c_off c /\ 0 <= c_len c /\ c_off c + c_len c <= zlen data.
Definition got (last : bool) (segs : list (list Z)) (t : tail) : list (list Z * bool) :=
  map (fun s => (s, true)) segs ++ match t with TFill _ => [] | TCont d | TLi0 d => match d with [] => [] | _ => [(d, last)] end end.

Lemma place_spec last segs t : forall pre,
  Forall (fun s => 1 <= zlen s <= 63) segs -> zlen (pre ++ concat segs ++ tail_data t) <= 255 ->
  let data := pre ++ concat segs ++ tail_data t in
  exists cs, place (zlen data) (zlen pre) (lens last segs t) = Ok cs /\ map (content data) cs = got last segs t /\ Forall (inside data) cs.
Proof.
  induction segs as [|s segs IH]; intros pre Hs Hlen data; subst data.
  - cbn [concat app lens map] in *. unfold got. cbn [map app].
    assert (Hend : forall d, zlen (pre ++ d) <= 255 ->
      exists cs, place (zlen (pre ++ d)) (zlen pre) [(LENGTH_TO_END, last)] = Ok cs /\
        map (content (pre ++ d)) cs = match d with [] => [] | _ => [(d, last)] end /\ Forall (inside (pre ++ d)) cs).
    { intros d Hl. cbn [place]. change (LENGTH_TO_END =? LENGTH_TO_END) with true. cbn [andb].
      rewrite zlen_app in *. pose proof (zlen_nonneg pre). pose proof (zlen_nonneg d).
      destruct d as [|x d].
      - change (zlen (@nil Z)) with 0. replace (zlen pre =? zlen pre + 0) with true by lia. exists []. auto.
      - replace (zlen pre =? zlen pre + zlen (x :: d)) with false by (rewrite zlen_cons in *; pose proof (zlen_nonneg d); lia).
        replace (zlen pre + zlen (x :: d) - zlen pre) with (zlen (x :: d)) by lia. rewrite !Z.mod_small by lia.
        replace (zlen pre + zlen (x :: d) <? zlen pre + zlen (x :: d)) with false by lia. cbn [bind].
        eexists. split; [reflexivity|]. cbn [map content c_off c_len c_done]. split.
        + unfold content. cbn [c_off c_len c_done]. rewrite <- (app_nil_r (x :: d)) at 2. rewrite slice_app_exact. reflexivity.
        + constructor; [|constructor]. red. cbn [c_off c_len]. rewrite zlen_app. lia. }
    destruct t as [p|d|d]; cbn [tail_data] in *; [|apply Hend, Hlen|apply Hend, Hlen].
    exists []. auto.
  - inversion Hs as [|? ? Hs1 Hs2]; subst. cbn [concat] in *. unfold lens. cbn [map app place].
    replace (zlen s =? LENGTH_TO_END) with false by (unfold LENGTH_TO_END; lia). cbn [andb].
    replace (pre ++ (s ++ concat segs) ++ tail_data t) with ((pre ++ s) ++ concat segs ++ tail_data t) in * by (rewrite <- !app_assoc; reflexivity).
    set (data := (pre ++ s) ++ concat segs ++ tail_data t) in *.
    assert (Hle : zlen pre + zlen s <= zlen data) by (unfold data; rewrite !zlen_app; pose proof (zlen_nonneg (concat segs)); pose proof (zlen_nonneg (tail_data t)); lia).
    replace (zlen data <? zlen pre + zlen s) with false by lia.
    destruct (IH (pre ++ s) Hs2 Hlen) as (cs & E & Hc & Hi). fold data in E, Hc, Hi.
    rewrite zlen_app in E. unfold lens in E. rewrite E. cbn [bind].
    pose proof (zlen_nonneg pre). rewrite Z.mod_small by lia.
    eexists. split; [reflexivity|]. split.
    + cbn [map]. unfold got. cbn [map app]. fold (got last segs t). rewrite Hc. f_equal. unfold content. cbn [c_off c_len c_done].
      unfold data. rewrite <- app_assoc, slice_app_exact. reflexivity.
    + constructor; [|exact Hi]. red. cbn [c_off c_len]. lia.
Qed.

(** Decoding a block laid out as the standard says. *)
Lemma decode_layout last segs t size : well_formed last segs t -> zlen (layout [] segs t) <= 255 -> zlen segs + 1 <= size ->
  exists cs, data_from_dl (e_bit segs t) last false (layout [] segs t) size = Ok cs /\
    map (content (layout [] segs t)) cs = got last segs t /\ Forall (inside (layout [] segs t)) cs.
Proof.
  intros [Hs Ht] Hlen Hsz. unfold data_from_dl, e_bit, layout in *. rewrite app_nil_l in *.
  pose proof (place_spec last segs t (exts segs t) Hs Hlen) as (cs & E & Hc & Hi).
  pose proof (zlen_nonneg segs) as H0.
  assert (Hl : zlen (lens last segs t) <= zlen segs + 1).
  { unfold lens. rewrite zlen_app. unfold zlen. rewrite map_length. destruct t; cbn [length]; lia. }
  destruct (exts segs t) as [|o ex] eqn:Ex.
  - replace (0 <? size) with true by lia.
    destruct segs; [|discriminate]. destruct t as [p|d|d]; [congruence| |discriminate].
    cbn [app] in *. exists cs. auto.
  - rewrite <- Ex in *. destruct (exts segs t) as [|o' ex'] eqn:Ex'; [congruence|]. rewrite <- Ex' in *. clear o ex Ex.
    pose proof (parse_exts last size segs t (concat segs ++ tail_data t) (S (S (length (exts segs t ++ concat segs ++ tail_data t)))) [] []
      (zlen (exts segs t ++ concat segs ++ tail_data t)) Hs) as Hp.
    cbn [app] in Hp. change (zlen (@nil Z)) with 0 in Hp. change (zlen (@nil (Z * bool))) with 0 in Hp.
    rewrite Hp.
    + cbn [bind rev app]. replace (size =? 0) with false by lia. rewrite Z.add_0_l. exists cs. auto.
    + rewrite Ex'. discriminate.
    + rewrite zlen_app. pose proof (zlen_nonneg (concat segs ++ tail_data t)). lia.
    + rewrite app_length. lia.
    + lia.
Qed.

(** *** Reassembly *)
Lemma join_app part a b : join part (a ++ b) =
  let '(f1, p1) := join part a in let '(f2, p2) := join p1 b in (f1 ++ f2, p2).
Proof.
  revert part. induction a as [|[d c] a IH]; intros part; cbn [app join].
  - destruct (join part b). reflexivity.
  - destruct c; rewrite IH.
    + destruct (join [] a) as [f1 p1]. destruct (join p1 b) as [f2 p2]. reflexivity.
    + reflexivity.
Qed.
Lemma join_got part last segs t : well_formed last segs t -> join part (got last segs t) = join part (pieces last segs t).
Proof.
  intros [Hs Ht]. unfold got, pieces. rewrite !join_app. destruct (join part (map (fun s => (s, true)) segs)) as [f p].
  destruct t as [pd|d|d]; [reflexivity| |].
  - destruct d; [congruence|reflexivity].
  - subst last. destruct d; [cbn; now rewrite !app_nil_r|reflexivity].
Qed.

Definition held (rx : option (list Z)) : list Z := match rx with Some m => m | None => [] end.
Lemma assemble_spec data cs : forall rx, Forall (inside data) cs -> fits (held rx) (map (content data) cs) ->
  exists rx' out, assemble rx data cs = Ok (rx', out) /\ join (held rx) (map (content data) cs) = (out, held rx').
Proof.
  induction cs as [|c cs IH]; intros rx Hi Hf; [exists rx, []; auto|].
  inversion Hi as [|? ? Hc Hi']; subst. cbn [map fits] in Hf. cbn [map assemble join].
  unfold content at 1 in Hf. unfold content at 1. destruct Hc as (H1 & H2 & H3).
  set (sl := slice (Z.to_nat (c_off c)) (Z.to_nat (c_len c)) data) in *.
  assert (Es : (if c_len c =? 0 then Ok [] else rdn data (c_off c) (c_len c)) = Ok sl).
  { destruct (Z.eqb_spec (c_len c) 0) as [E0|]; [|apply rdn_ok; lia]. unfold sl. rewrite E0. reflexivity. }
  rewrite Es. cbn [bind]. destruct Hf as [Hf1 Hf2]. fold (held rx). rewrite zlen_app in Hf1.
  unfold LLC_PDU_MAX_LEN. replace (1543 <? zlen (held rx) + zlen sl) with false by lia.
  destruct (c_done c).
  - destruct (IH None Hi' Hf2) as (rx' & out & E & Ej). cbn [held] in Ej. rewrite E. cbn [bind]. rewrite Ej.
    exists rx', ((held rx ++ sl) :: out). auto.
  - destruct (IH (Some (held rx ++ sl)) Hi' Hf2) as (rx' & out & E & Ej). cbn [held] in Ej. rewrite E, Ej.
    exists rx', out. auto.
Qed.

Lemma fits_app part a b : fits part (a ++ b) <-> fits part a /\ fits (snd (join part a)) b.
Proof.
  revert part. induction a as [|[d c] a IH]; intros part; cbn [app fits join snd]; [tauto|].
  rewrite IH. destruct c; [destruct (join [] a)|]; cbn [snd]; tauto.
Qed.
Lemma fits_got part last segs t : well_formed last segs t -> fits part (pieces last segs t) -> fits part (got last segs t).
Proof.
  intros [Hs Ht]. unfold got, pieces. rewrite !fits_app. intros [H1 H2]. split; [exact H1|].
  destruct t as [pd|d|d]; [exact H2| |]; destruct d; cbn [fits] in *; try tauto.
Qed.

Lemma assemble_forward_spec b rx : n_wf b -> fits (held rx) (n_pieces b) ->
  exists rx' out, assemble_forward rx (n_stored b) = Ok (rx', out) /\ join (held rx) (n_pieces b) = (out, held rx').
Proof.
  intros (Hw & Hl & Hn) Hf. unfold assemble_forward, n_stored. cbn [k_e k_last k_edge k_data].
  destruct (decode_layout (n_last b) (n_segs b) (n_tail b) 16 Hw Hl) as (cs & E & Hc & Hi); [unfold zlen; lia|].
  unfold n_octets. rewrite E. unfold n_pieces in *.
  destruct (assemble_spec (layout [] (n_segs b) (n_tail b)) cs rx Hi) as (rx' & out & E1 & E2).
  { rewrite Hc. apply fits_got; assumption. }
  rewrite E1. rewrite Hc, join_got in E2 by exact Hw. eauto.
Qed.

Lemma assemble_all_spec blks : forall rx, Forall n_wf blks -> fits (held rx) (flat_map n_pieces blks) ->
  exists rx' out, assemble_all rx (map n_stored blks) = Ok (rx', out) /\ join (held rx) (flat_map n_pieces blks) = (out, held rx').
Proof.
  induction blks as [|b blks IH]; intros rx Hw Hf; [exists rx, []; auto|].
  inversion Hw; subst. cbn [flat_map map assemble_all] in *. apply fits_app in Hf as [Hf1 Hf2].
  destruct (assemble_forward_spec b rx) as (rx1 & o1 & E1 & J1); [assumption|assumption|].
  rewrite J1 in Hf2. cbn [snd] in Hf2. destruct (IH rx1) as (rx2 & o2 & E2 & J2); [assumption|assumption|].
  rewrite E1. cbn [bind]. rewrite E2. cbn [bind]. rewrite join_app, J1, J2. eauto.
Qed.

(** A list of pieces whose frames and rest are short fits. *)
Lemma fits_frames l : forall part, Forall (fun f => zlen f <= 1543) (fst (join part l)) ->
  zlen (snd (join part l)) <= 1543 -> fits part l.
Proof.
  assert (Hmono : forall l part, zlen part <= zlen (hd (snd (join part l)) (fst (join part l)))).
  { clear. induction l as [|[d c] l IH]; intros part; cbn [join]; [cbn; lia|]. destruct c.
    - destruct (join [] l) as [f p]. cbn [fst snd hd]. rewrite zlen_app. pose proof (zlen_nonneg d). lia.
    - specialize (IH (part ++ d)). rewrite zlen_app in IH. pose proof (zlen_nonneg d). lia. }
  induction l as [|[d c] l IH]; intros part Hf Hs; cbn [fits]; [trivial|].
  cbn [join] in *. destruct c.
  - destruct (join [] l) as [f p] eqn:Ej. cbn [fst snd] in *. inversion Hf; subst. split; [assumption|].
    apply IH; rewrite Ej; assumption.
  - split; [|apply IH; assumption]. pose proof (Hmono l (part ++ d)) as Hm.
    destruct (join (part ++ d) l) as [f p]. cbn [fst snd] in *. destruct f; cbn [hd] in Hm; [lia|]. inversion Hf; subst. lia.
Qed.
