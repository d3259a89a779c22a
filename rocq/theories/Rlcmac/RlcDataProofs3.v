(** Safety of the length-indicator parsers and of reassembly for arbitrary block contents. *)
From Verif.Lib Require Import Base Outcome.
From Verif.Rlcmac Require Import RlcDataModel RlcDataSpec RlcDataProofs.

(** Parsed lengths: only the last one may be "to the end". *)
Fixpoint lens_ok (l : list (Z * bool)) : Prop :=
  match l with
  | [] => True
  | (n, _) :: r => (0 <= n < 255 \/ (n = 255 /\ r = [])) /\ lens_ok r
  end.
Lemma lens_ok_snoc l x : Forall (fun p => 0 <= fst p < 255) l -> lens_ok [x] -> lens_ok (l ++ [x]).
Proof.
  induction 1 as [|[n c] l H _ IH]; [auto|]. intros Hx. cbn [app lens_ok fst] in *. auto.
Qed.
Lemma lens_ok_all l : Forall (fun p => 0 <= fst p < 255) l -> lens_ok l.
Proof. induction 1 as [|[n c] l H _ IH]; cbn [lens_ok fst] in *; auto. Qed.

Lemma zlen_rev {A} (l : list A) : zlen (rev l) = zlen l.
Proof. unfold zlen. now rewrite rev_length. Qed.

Lemma parse_gprs_safe last size data : bytes data -> zlen data <= 255 -> 0 <= size < zlen data ->
  forall fuel acc offs, 0 <= offs -> zlen acc = offs -> offs <= size -> (Z.to_nat (size - offs) < fuel)%nat ->
  Forall (fun p => 0 <= fst p < 255) acc ->
  match parse_gprs fuel data (zlen data) offs last size acc with
  | Ok (l, o) => 0 <= o <= zlen data /\ zlen l <= size /\ lens_ok l
  | Err _ => True
  | UB => False
  end.
Proof.
  intros Hb Hlen Hsz. induction fuel as [|fuel IH]; intros acc offs H0 Ha Hs Hf Hacc; [lia|].
  cbn [parse_gprs]. replace (zlen data <? offs) with false by lia. rewrite rd_ok by lia. cbn [bind].
  set (o := nth (Z.to_nat offs) data 0). assert (Ho : 0 <= o < 256) by (apply nth_byte; [exact Hb|lia]).
  assert (Hli : 0 <= Z.shiftr o 2 < 64) by (rewrite shiftr_div by lia; change (2 ^ 2) with 4; lia).
  clearbody o. set (li := Z.shiftr o 2) in *. clearbody li.
  destruct (Z.eqb_spec li 0) as [->|Hl0].
  - cbn [negb andb orb]. destruct (Z.eqb_spec (zlen acc) size) as [|Hne]; [exact I|].
    split; [lia|]. split; [rewrite zlen_rev, zlen_cons; lia|]. cbn [rev]. apply lens_ok_snoc; [now apply Forall_rev|]. cbn [lens_ok]. unfold LENGTH_TO_END. auto.
  - destruct (Z.testbit o 0) eqn:E0.
    + rewrite andb_false_r. destruct (Z.eqb_spec (zlen acc) size) as [|Hne]; [exact I|].
      destruct (Z.testbit o 1).
      * destruct (Z.eqb_spec (zlen ((li, negb false || last) :: acc)) size) as [|Hne2]; [exact I|]. rewrite zlen_cons in Hne2.
        split; [lia|]. split; [rewrite zlen_rev, !zlen_cons; lia|]. cbn [rev]. apply lens_ok_snoc.
        -- apply Forall_app. split; [now apply Forall_rev|]. constructor; [cbn; lia|constructor].
        -- cbn [lens_ok]. unfold LENGTH_TO_END. auto.
      * split; [lia|]. split; [rewrite zlen_rev, zlen_cons; lia|]. apply lens_ok_all. apply Forall_rev. constructor; [cbn; lia|exact Hacc].
    + cbn [negb andb]. rewrite andb_true_r. destruct (Z.testbit o 1); cbn [negb].
      * destruct (Z.eqb_spec (zlen acc) size) as [|Hne]; [exact I|].
        apply IH; [lia|rewrite zlen_cons; lia|lia|lia|]. constructor; [cbn; lia|exact Hacc].
      * split; [lia|]. split; [change (zlen (@nil (Z * bool))) with 0; lia|exact I].
Qed.

Lemma parse_egprs_safe last size data : bytes data -> zlen data <= 255 -> 0 <= size < zlen data ->
  forall fuel acc offs, 0 <= offs -> zlen acc = offs -> offs <= size -> (Z.to_nat (size - offs) < fuel)%nat ->
  Forall (fun p => 0 <= fst p < 255) acc ->
  match parse_egprs fuel data (zlen data) offs last size acc with
  | Ok (l, o) => 0 <= o <= zlen data /\ zlen l <= size /\ lens_ok l
  | Err _ => True
  | UB => False
  end.
Proof.
  intros Hb Hlen Hsz. induction fuel as [|fuel IH]; intros acc offs H0 Ha Hs Hf Hacc; [lia|].
  cbn [parse_egprs]. replace (zlen data <? offs) with false by lia. rewrite rd_ok by lia. cbn [bind].
  set (o := nth (Z.to_nat offs) data 0). assert (Ho : 0 <= o < 256) by (apply nth_byte; [exact Hb|lia]).
  assert (Hli : 0 <= Z.shiftr o 1 < 128) by (rewrite shiftr_div by lia; change (2 ^ 1) with 2; lia).
  clearbody o. set (li := Z.shiftr o 1) in *. clearbody li.
  destruct (Z.eqb_spec (zlen acc) size) as [|Hne]; [exact I|].
  destruct (negb ((li =? 0) && (zlen acc =? 0)) && ((li =? 127) && Z.testbit o 0)).
  { split; [lia|]. split; [rewrite zlen_rev; lia|]. apply lens_ok_all. now apply Forall_rev. }
  destruct (negb ((li =? 0) && (zlen acc =? 0)) && negb (0 <? li)); [exact I|].
  destruct (Z.testbit o 0).
  - destruct (Z.eqb_spec (zlen ((li, true) :: acc)) size) as [|Hne2]; [exact I|]. rewrite zlen_cons in Hne2.
    split; [lia|]. split; [rewrite zlen_rev, !zlen_cons; lia|]. cbn [rev]. apply lens_ok_snoc.
    + apply Forall_app. split; [now apply Forall_rev|]. constructor; [cbn; lia|constructor].
    + cbn [lens_ok]. unfold LENGTH_TO_END. auto.
  - apply IH; [lia|rewrite zlen_cons; lia|lia|lia|]. constructor; [cbn; lia|exact Hacc].
Qed.

Lemma place_safe dlen : dlen <= 255 -> forall l offs, 0 <= offs <= dlen -> lens_ok l ->
  match place dlen offs l with
  | Ok cs => chain dlen offs cs /\ zlen cs <= zlen l
  | Err _ => True
  | UB => False
  end.
Proof.
  intros Hd. induction l as [|[n c] l IH]; intros offs Ho Hl; cbn [place]; [split; [exact I|apply Z.le_refl]|].
  destruct Hl as [Hn Hl]. unfold LENGTH_TO_END.
  destruct ((n =? 255) && (offs =? dlen)) eqn:E1.
  { destruct Hn as [Hn|[-> ->]]; [lia|]. split; [exact I|]. change (zlen (@nil chunk)) with 0. rewrite zlen_cons. pose proof (zlen_nonneg (@nil (Z*bool))). lia. }
  set (len' := if n =? 255 then (dlen - offs) mod 256 else n).
  assert (Hl' : 0 <= len' /\ (n = 255 -> len' = dlen - offs)).
  { unfold len'. destruct (Z.eqb_spec n 255); [rewrite Z.mod_small by lia; lia|lia]. }
  clearbody len'. destruct (Z.ltb_spec dlen (offs + len')) as [|Hle]; [exact I|].
  specialize (IH (offs + len') ltac:(lia) Hl).
  destruct (place dlen (offs + len') l) as [cs| |]; cbn [bind]; [|exact I|exact IH].
  destruct IH as [Hc Hz]. split; [|rewrite !zlen_cons; lia]. cbn [chain c_off c_len]. rewrite Z.mod_small by lia. split; [reflexivity|]. split; [lia|]. split; [lia|exact Hc].
Qed.

Lemma data_from_dl_safe e last edge data size : bytes data -> zlen data <= 255 -> 1 <= size < zlen data ->
  match data_from_dl e last edge data size with
  | Ok cs => (exists offs, 0 <= offs /\ chain (zlen data) offs cs) /\ zlen cs <= size
  | Err _ => True
  | UB => False
  end.
Proof.
  intros Hb Hl Hs. unfold data_from_dl. destruct e.
  - replace (0 <? size) with true by lia.
    pose proof (place_safe (zlen data) Hl [(LENGTH_TO_END, last)] 0 ltac:(lia)) as H.
    destruct (place (zlen data) 0 [(LENGTH_TO_END, last)]) as [cs| |]; [|exact I|apply H; cbn; auto].
    destruct H as [H1 H2]; [cbn; auto|]. change (zlen [(LENGTH_TO_END, last)]) with 1 in H2. split; [exists 0; split; [lia|exact H1]|lia].
  - assert (HP : match (if edge then parse_egprs (S (S (length data))) data (zlen data) 0 last size []
             else parse_gprs (S (S (length data))) data (zlen data) 0 last size []) with
      | Ok (l, o) => 0 <= o <= zlen data /\ zlen l <= size /\ lens_ok l | Err _ => True | UB => False end).
    { destruct edge; [apply parse_egprs_safe|apply parse_gprs_safe]; auto; try lia; try reflexivity; try (unfold zlen in *; lia). }
    destruct (if edge then _ else _) as [[l o]| |]; cbn [bind]; [|exact I|exact HP].
    destruct HP as (H1 & H2 & H3). replace (size =? 0) with false by lia.
    pose proof (place_safe (zlen data) Hl l o H1 H3) as H. destruct (place (zlen data) o l); [|exact I|exact H].
    destruct H. split; [exists o; split; [lia|assumption]|lia].
Qed.

(** *** Reassembly of arbitrary blocks *)
(** What the parser makes of a block: pieces of frames; nothing if it refuses the block. *)
Definition decoded (b : rblk) : list (list Z * bool) :=
  match data_from_dl (k_e b) (k_last b) (k_edge b) (k_data b) 16 with
  | Ok cs => map (content (k_data b)) cs | _ => [] end.

Lemma chain_inside (data : list Z) l : zlen data <= 255 -> forall offs, 0 <= offs -> chain (zlen data) offs l -> Forall (inside data) l.
Proof.
  intros Hd. induction l as [|c l IH]; intros offs Ho Hc; [constructor|]. destruct Hc as (H1 & H2 & H3 & H4).
  constructor; [unfold inside; lia|]. apply (IH (offs + c_len c)); [lia|exact H4].
Qed.

Lemma slice_zlen_eq (data : list Z) off len : 0 <= off -> 0 <= len -> off + len <= zlen data -> zlen (slice (Z.to_nat off) (Z.to_nat len) data) = len.
Proof. intros. unfold zlen in *. rewrite slice_length; lia. Qed.

Lemma fits_dec part l : {fits part l} + {~ fits part l}.
Proof.
  revert part. induction l as [|[d c] l IH]; intros part; cbn [fits]; [left; exact I|].
  destruct (Z_le_dec (zlen (part ++ d)) 1543); [|right; tauto].
  destruct (IH (if c then [] else part ++ d)); [left; tauto|right; tauto].
Qed.

Lemma assemble_crash data cs : forall rx, Forall (inside data) cs -> ~ fits (held rx) (map (content data) cs) -> assemble rx data cs = UB.
Proof.
  induction cs as [|c cs IH]; intros rx Hi Hf; [cbn in Hf; tauto|].
  inversion Hi as [|? ? Hc Hi']; subst. cbn [map fits] in Hf. cbn [assemble]. destruct Hc as (H1 & H2 & H3).
  unfold content at 1 in Hf. set (sl := slice (Z.to_nat (c_off c)) (Z.to_nat (c_len c)) data) in *.
  assert (Hrd : (if c_len c =? 0 then Ok [] else rdn data (c_off c) (c_len c)) = Ok sl).
  { destruct (Z.eqb_spec (c_len c) 0) as [E|]; [|unfold sl; rewrite rdn_ok by lia; reflexivity].
    unfold sl. rewrite E. reflexivity. }
  fold (held rx). rewrite Hrd. cbn [bind]. rewrite zlen_app in Hf.
  unfold LLC_PDU_MAX_LEN. destruct (Z.ltb_spec 1543 (zlen (held rx) + zlen sl)) as [|Hle]; [reflexivity|].
  destruct (c_done c).
  - rewrite (IH None); [reflexivity|exact Hi'|]. cbn [held]. tauto.
  - apply IH; [exact Hi'|]. cbn [held]. tauto.
Qed.

Definition sized (b : rblk) : Prop := bytes (k_data b) /\ 17 <= zlen (k_data b) <= 255.

Lemma assemble_forward_any b rx : sized b ->
  (fits (held rx) (decoded b) /\ exists rx' out, assemble_forward rx b = Ok (rx', out) /\ join (held rx) (decoded b) = (out, held rx')) \/
  (~ fits (held rx) (decoded b) /\ assemble_forward rx b = UB).
Proof.
  intros [Hb Hz]. pose proof (data_from_dl_safe (k_e b) (k_last b) (k_edge b) (k_data b) 16 Hb ltac:(lia) ltac:(lia)) as HS.
  unfold assemble_forward, decoded. destruct (data_from_dl (k_e b) (k_last b) (k_edge b) (k_data b) 16) as [cs| |]; [|left|destruct HS].
  - destruct HS as [(offs & Ho & Hc) _]. apply chain_inside in Hc; [|lia|exact Ho].
    destruct (fits_dec (held rx) (map (content (k_data b)) cs)) as [Hf|Hf]; [left|right].
    + split; [exact Hf|]. apply assemble_spec; assumption.
    + split; [exact Hf|]. now apply assemble_crash.
  - split; [exact I|]. exists rx, []. auto.
Qed.

Lemma assemble_all_any blks : forall rx, Forall sized blks ->
  (fits (held rx) (flat_map decoded blks) /\ exists rx' out, assemble_all rx blks = Ok (rx', out) /\ join (held rx) (flat_map decoded blks) = (out, held rx')) \/
  (~ fits (held rx) (flat_map decoded blks) /\ assemble_all rx blks = UB).
Proof.
  induction blks as [|b blks IH]; intros rx Hw.
  - left. split; [exact I|]. exists rx, []. auto.
  - inversion Hw; subst. cbn [flat_map assemble_all]. rewrite fits_app.
    destruct (assemble_forward_any b rx ltac:(assumption)) as [(Hf & rx1 & o1 & E1 & J1)|(Hf & E1)].
    + rewrite E1. cbn [bind]. rewrite join_app, J1. cbn [snd].
      destruct (IH rx1 ltac:(assumption)) as [(Hf2 & rx2 & o2 & E2 & J2)|(Hf2 & E2)]; rewrite E2; cbn [bind].
      * left. split; [tauto|]. rewrite J2. exists rx2, (o1 ++ o2). auto.
      * right. split; [tauto|reflexivity].
    + right. rewrite E1. split; [tauto|reflexivity].
Qed.

(** The pieces of one block together are never longer than the block. *)
Lemma chain_total (data : list Z) l : forall offs, 0 <= offs -> chain (zlen data) offs l ->
  zlen (concat (map (fun c => fst (content data c)) l)) + offs <= Z.max offs (zlen data).
Proof.
  induction l as [|c l IH]; intros offs Ho Hc; cbn [map concat]; [change (zlen (@nil Z)) with 0; lia|].
  destruct Hc as (H1 & H2 & H3 & H4). specialize (IH (offs + c_len c) ltac:(lia) H4).
  rewrite zlen_app. unfold content at 1. cbn [fst]. rewrite slice_zlen_eq by lia. lia.
Qed.
