(** C94-C97: the SNDCP-XID block (sndcp_xid.c). *)
From Verif.Lib Require Import Base Outcome.
From Verif.Comp Require Import SlhcModel XidModel XidSpec XidProofs XidRead XidCode XidSafe.

(** ** C94: proposals are understood *)

(** Up to three elements, all fields of which are proposals. *)
Definition proposal (es : list elem) : Prop :=
  (1 <= length es <= 3)%nat /\ Forall elem_ok es /\ forall x, In x (concat (map e_fields es)) -> exists cs, x_prop x = Some cs.

(** Missing: profiles of ROHC unless there are 16 or none, and codebooks of V.44 with 256 to 264 codewords. *)
Theorem C94_decode_partial es room : proposal es ->
  (forall x, In x (concat (map e_fields es)) -> x_prof x = [] \/ length (x_prof x) = 16%nat) ->
  (forall x i v, In x (concat (map e_fields es)) -> x_alg x = V44 -> i = 2%nat \/ i = 3%nat -> nth_error (x_vals x) i = Some v -> 265 <= v) ->
  parse_xid true (concat (map elem_oct es) ++ room) (zlen (concat (map elem_oct es))) None = Ok (Some (Some (version_of es), fields_of es)).
Proof.
  intros (Hl & He & Hp) Hr Hv. change (concat (map elem_oct es)) with (msg es). apply parse_elems; [exact Hl|].
  apply Forall_forall. intros e Hin. rewrite Forall_forall in He. split; [apply He; exact Hin|]. apply Forall_forall. intros x Hx.
  assert (In x (concat (map e_fields es))) as Hxs by (apply in_concat; exists (e_fields e); split; [apply in_map; exact Hin|exact Hx]).
  split; [split|].
  - intros Ha i Hi Hlt. apply (Hv x i _ Hxs Ha Hi). apply nth_error_nth'. exact Hlt.
  - destruct (Hr x Hxs) as [->|E]; [left; reflexivity|right; exact E].
  - intros Hn. destruct (Hp x Hxs) as [cs Hc]. congruence.
Qed.

Definition ex_tcp : xf := mkX 0 RFC1144 (Some [1; 2]) [5; 7] [15] [].
Definition ex_v42 : xf := mkX 1 V42BIS (Some [1]) [5] [3; 2048; 20] [].
Definition ex_v44 : xf := mkX 2 V44 (Some [2; 3]) [6; 15] [192; 3; 525; 525; 2100; 2100] [].
Definition ex_rfc2507 : xf := mkX 3 RFC2507 (Some [3; 4; 5; 6; 7]) [5; 6] [256; 5] [].
Definition ex_rohc : xf := mkX 4 ROHC (Some [8; 9]) [5] [15; 168] (repeat 1 16).
Ltac sorted := split; cbn; [repeat (constructor; [|repeat (constructor; [lia|]); constructor]); constructor|repeat (constructor; [lia|]); constructor].
Ltac okx := split; [cbn; lia|split; [sorted|split;
  [|split; [split; [reflexivity|cbn; repeat (constructor; [lia|]); constructor]|split; [cbn; intros H; try congruence; split; reflexivity|split; [cbn; lia|]]]]]].
Lemma ex_tcp_ok : xf_ok ex_tcp. Proof. okx; [exists []; cbn; lia|constructor]. Qed.
Lemma ex_v42_ok : xf_ok ex_v42. Proof. okx; [exists []; cbn; lia|constructor]. Qed.
Lemma ex_v44_ok : xf_ok ex_v44. Proof. okx; [exists []; cbn; lia|constructor]. Qed.
Lemma ex_rfc2507_ok : xf_ok ex_rfc2507. Proof. okx; [exists [60; 3; 3]; cbn; lia|constructor]. Qed.
Lemma ex_rohc_ok : xf_ok ex_rohc. Proof. okx; [exists []; cbn; lia|cbn [repeat x_prof ex_rohc]; repeat (constructor; [lia|]); constructor]. Qed.
Definition ex_es : list elem := [Version 0; Fields 1 [ex_v42; ex_v44]; Fields 2 [ex_tcp; ex_rfc2507; ex_rohc]].
(** All five algorithms, one of them with parameters left out. *)
Example C94_case : proposal ex_es /\ zlen (concat (map elem_oct ex_es)) = 93 /\
  (forall x, In x (concat (map e_fields ex_es)) -> x_prof x = [] \/ length (x_prof x) = 16%nat) /\
  (forall x i v, In x (concat (map e_fields ex_es)) -> x_alg x = V44 -> i = 2%nat \/ i = 3%nat -> nth_error (x_vals x) i = Some v -> 265 <= v).
Proof.
  split; [|split; [vm_compute; reflexivity|split]].
  - split; [cbn; lia|]. split.
    + pose proof ex_tcp_ok. pose proof ex_v42_ok. pose proof ex_v44_ok. pose proof ex_rfc2507_ok. pose proof ex_rohc_ok.
      constructor; [cbn; lia|]. constructor; [|constructor; [|constructor]].
      * split; [discriminate|]. split; [auto|]. split; [repeat (constructor; [split; [reflexivity|assumption]|]); constructor|]. vm_compute. discriminate.
      * split; [discriminate|]. split; [auto|]. split; [repeat (constructor; [split; [reflexivity|assumption]|]); constructor|]. vm_compute. discriminate.
    + cbn. intros x H. repeat (destruct H as [<-|H]; [eexists; reflexivity|]). destruct H.
  - cbn. intros x H. repeat (destruct H as [<-|H]; [cbn; auto|]). destruct H.
  - cbn. intros x i v H. repeat (destruct H as [<-|H]; [intros Ha [->| ->] Hn; cbn in Ha, Hn; try discriminate; injection Hn; lia|]). destruct H.
Qed.

(** The list of ROHC profiles is lost if it has less than 16 entries. *)
Theorem C94_profiles_refuted : exists es, proposal es /\
  parse_xid true (concat (map elem_oct es)) (zlen (concat (map elem_oct es))) None <> Ok (Some (Some (version_of es), fields_of es)).
Proof.
  exists [Fields 2 [mkX 4 ROHC (Some [8; 9]) [5] [15; 168] [1; 2]]]. split.
  - split; [cbn; lia|]. split.
    + constructor; [|constructor]. split; [discriminate|]. split; [auto|]. split; [constructor; [split; [reflexivity|]|constructor]|vm_compute; discriminate].
      okx; [exists []; cbn; lia|repeat (constructor; [lia|]); constructor].
    + cbn. intros x [<-|[]]. eexists. reflexivity.
  - vm_compute. discriminate.
Qed.
(** A codebook of 256 codewords is not accepted, though TS 44.065 and the encoder allow it; what comes after it is taken for more fields. *)
Theorem C94_v44_refuted : exists es, proposal es /\ length (fields_of es) = 1%nat /\
  exists v fs, parse_xid true (concat (map elem_oct es)) (zlen (concat (map elem_oct es))) None = Ok (Some (v, fs)) /\ length fs = 5%nat.
Proof.
  exists [Fields 1 [mkX 2 V44 (Some [2; 3]) [6] [192; 3; 256; 256; 512; 512] []]]. split.
  - split; [cbn; lia|]. split.
    + constructor; [|constructor]. split; [discriminate|]. split; [auto|]. split; [constructor; [split; [reflexivity|]|constructor]|vm_compute; discriminate].
      okx; [exists []; cbn; lia|constructor].
    + cbn. intros x [<-|[]]. eexists. reflexivity.
  - split; [reflexivity|]. eexists _, _. split; [vm_compute; reflexivity|reflexivity].
Qed.
(** Octets behind the parameters that are known are not skipped: inside a single field, a second one is found. *)
Theorem C94_extra_refuted : exists x more, xf_ok x /\
  let body := skipn 3 (x_oct x) ++ more in
  let f := firstn 2 (x_oct x) ++ zlen body :: body in
  exists y, parse_xid true (2 :: zlen f :: f) (zlen f + 2) None = Ok (Some (Some (-1), [y; x_field x])) /\ f_entity y <> x_entity x /\ f_p y = true.
Proof.
  exists ex_tcp, [134; 0; 4; 0x34; 1; 0; 9]. split; [exact ex_tcp_ok|]. cbv zeta. eexists. split; [vm_compute; reflexivity|]. split; [vm_compute; discriminate|reflexivity].
Qed.

(** ** C95: what is coded is decoded *)

(** Missing: the same as in C94, and blocks of more than 255 octets. *)
Theorem C95_round_trip_partial dst xs v : request xs -> -1 <= v <= 255 -> 0 <= v \/ xs <> [] ->
  (forall x, In x xs -> x_prof x = [] \/ length (x_prof x) = 16%nat) ->
  (forall x i w, In x xs -> x_alg x = V44 -> i = 2%nat \/ i = 3%nat -> nth_error (x_vals x) i = Some w -> 265 <= w) ->
  (forall cls, cls = 1 \/ cls = 2 -> zlen (concat (map x_oct (of_class cls xs))) <= 255) -> 517 <= zlen dst ->
  exists n rest, compile_xid dst (map x_field xs) v = Ok (concat (map elem_oct (block_of v xs)) ++ rest, n) /\ n = zlen (concat (map elem_oct (block_of v xs))) /\
    parse_xid true (concat (map elem_oct (block_of v xs)) ++ rest) n None = Ok (Some (Some v, map x_field (of_class 2 xs ++ of_class 1 xs))).
Proof.
  intros [R _] Hv Hne Hpr Hs Hlen Hd. change (concat (map elem_oct (block_of v xs))) with (msg (block_of v xs)).
  assert (forall cls, zlen (concat (map x_oct (of_class cls (rev xs)))) = zlen (concat (map x_oct (of_class cls xs)))) as Hrev.
  { intros cls. rewrite of_class_rev. generalize (of_class cls xs). intros l. induction l as [|x l IH]; [reflexivity|]. cbn [rev]. rewrite map_app, concat_app, zlen_app, IH. cbn [map concat]. rewrite app_nil_r, zlen_app. lia. }
  assert (H1 : zlen (concat (map x_oct (of_class 1 (rev xs)))) <= 255) by (rewrite Hrev; apply Hlen; auto).
  assert (H2 : zlen (concat (map x_oct (of_class 2 (rev xs)))) <= 255) by (rewrite Hrev; apply Hlen; auto).
  assert (zlen (msg (block_of v xs)) <= 517) as Hm.
  { unfold block_of. rewrite !msg_app, !zlen_app.
    assert (forall cls, zlen (concat (map x_oct (of_class cls (rev xs)))) <= 255 -> zlen (msg (elems_for cls (rev xs))) <= 257) as Hb.
    { intros cls. rewrite elems_oct. destruct (concat (map x_oct (of_class cls (rev xs)))) as [|o b]; cbv zeta; [change (zlen (@nil Z)) with 0; lia|].
      rewrite (zlen_cons cls), (zlen_cons (zlen (o :: b)) (o :: b)). lia. }
    pose proof (Hb 1 H1). pose proof (Hb 2 H2). assert (zlen (msg (if 0 <=? v then [Version v] else [])) <= 3) by (destruct (0 <=? v); unfold msg, zlen; cbn; lia). lia. }
  assert (Forall full xs) as Ff by (revert R; apply Forall_impl; unfold full; tauto).
  eexists _, _. split; [|split; [reflexivity|]].
  - apply compile_ok; assumption || lia.
  - assert (Forall (fun x => xf_ok x /\ readable x /\ exists cs, x_prop x = Some cs) (rev xs)) as Fr.
    { apply Forall_rev. apply Forall_forall. intros x Hx. rewrite Forall_forall in R. destruct (R x Hx) as (K1 & K2 & K3). split; [exact K1|]. split; [|exact K3]. split.
      - intros Ha i Hi Hlt. apply (Hs x i _ Hx Ha Hi). apply nth_error_nth'. exact Hlt.
      - destruct (Hpr x Hx) as [->|E]; auto. }
    rewrite parse_elems.
    + rewrite version_block, fields_block by lia. reflexivity.
    + split; [|apply block_len]. destruct Hne as [Hv0|Hx].
      * unfold block_of. destruct (0 <=? v) eqn:?; [cbn; lia|lia].
      * pose proof (fields_block v xs) as E. destruct (block_of v xs) eqn:Eb; [|cbn; lia]. exfalso. destruct xs as [|x xs]; [congruence|]. change (fields_of []) with (@nil field) in E.
        assert (In x (of_class 2 (x :: xs) ++ of_class 1 (x :: xs))) as Hi. { apply in_or_app. unfold of_class. rewrite !filter_In. cbn [In]. destruct (x_alg x); auto. }
        symmetry in E. apply map_eq_nil in E. rewrite E in Hi. destruct Hi.
    + unfold block_of. apply Forall_app. split; [|apply Forall_app; split; apply elems_read; auto].
      destruct (0 <=? v) eqn:?; constructor; [|constructor]. split; [cbn; lia|constructor].
Qed.
Definition ex_req : list xf := [ex_v42; ex_tcp; ex_v44].
Example C95_case : request ex_req /\ (forall cls, cls = 1 \/ cls = 2 -> zlen (concat (map x_oct (of_class cls ex_req))) <= 255) /\
  compile_xid (repeat 0 1024) (map x_field ex_req) 0 = Ok ([0; 1; 0; 1; 26; 130; 1; 13; 35; 128; 64; 192; 3; 2; 13; 2; 13; 8; 52; 8; 52; 129; 0; 7; 16; 0; 32; 3; 8; 0; 20; 2; 7; 128; 0; 4; 18; 0; 160; 15] ++ repeat 0 984, 40).
Proof.
  split; [split|split].
  - repeat (constructor; [split; [first [exact ex_tcp_ok|exact ex_v42_ok|exact ex_v44_ok]|split; [cbn; lia|eexists; reflexivity]]|]). constructor.
  - cbn. repeat (constructor; [cbn; lia|]). constructor.
  - intros cls [-> | ->]; vm_compute; discriminate.
  - vm_compute. reflexivity.
Qed.
(** With more than 255 octets in a block the length octet wraps, and the length returned is not that of what was written. *)
Definition many : list xf := map (fun e => mkX e RFC2507 (Some [1; 2; 3; 4; 5]) [5] [256; 5; 168; 15; 15] []) (map Z.of_nat (seq 0 18)).
Theorem C95_long_refuted : exists xs, request xs /\ of_class 2 xs = xs /\
  exists b n, compile_xid (repeat 0 1024) (map x_field xs) 0 = Ok (b, n) /\ zlen (concat (map elem_oct (block_of 0 xs))) = n /\
    parse_xid true b n None = Ok None.
Proof.
  exists many. split; [split|split; [reflexivity|]].
  - apply Forall_forall. intros x Hx. apply in_map_iff in Hx as (e & <- & He). apply in_map_iff in He as (k & <- & Hk). apply in_seq in Hk. cbn [x_alg x_vals x_prop].
    split; [|split; [cbn; lia|eexists; reflexivity]]. split; [cbn [x_entity]; lia|].
    split; [sorted|]. split; [exists []; cbn; lia|].
    split; [split; [reflexivity|repeat (constructor; [lia|]); constructor]|]. split; [cbn; congruence|]. split; [cbn; lia|constructor].
  - cbn. repeat (constructor; [cbn; lia|]). constructor.
  - eexists _, _. split; [vm_compute; reflexivity|]. split; [vm_compute; reflexivity|vm_compute; reflexivity].
Qed.
(** The size of the buffer is not looked at. *)
Theorem C95_room_refuted : exists dst xs, request xs /\ 3 <= zlen dst /\ compile_xid dst (map x_field xs) 0 = UB.
Proof. exists (repeat 0 32), ex_req. split; [apply C95_case|]. split; vm_compute; [discriminate|reflexivity]. Qed.

(** ** C96: an answer means what was requested *)

(** Missing: ROHC. *)
Theorem C96_answer_partial xs es room : request xs -> (1 <= length es <= 3)%nat -> Forall elem_ok es ->
  (forall y, In y (concat (map e_fields es)) -> answers xs y /\ x_alg y <> ROHC /\
     (x_alg y = V44 -> forall i v, i = 2%nat \/ i = 3%nat -> nth_error (x_vals y) i = Some v -> 265 <= v)) ->
  parse_xid true (concat (map elem_oct es) ++ room) (zlen (concat (map elem_oct es))) (Some (map x_field xs)) =
  Ok (Some (Some (version_of es), rev (map (meaning xs) (concat (map e_fields es))))).
Proof.
  intros R Hl Fe H. change (concat (map elem_oct es)) with (msg es). apply answer_ok; [exact R|exact Hl|exact Fe|].
  apply Forall_forall. intros y Hy. destruct (H y Hy) as (Ha & Hn & Hv). apply in_concat in Hy as (l & Hin & Hy). apply in_map_iff in Hin as (e & <- & He).
  rewrite Forall_forall in Fe. specialize (Fe e He).
  assert (xf_ok y) as Hok. { destruct e as [v|cls ys]; [destruct Hy|]. destruct Fe as (_ & _ & F & _). rewrite Forall_forall in F. apply F. exact Hy. }
  split; [exact Hok|]. split; [|split; assumption]. split.
  - intros HV i Hi Hlt. apply (Hv HV i _ Hi). apply nth_error_nth'. exact Hlt.
  - left. destruct Hok as (_ & _ & _ & _ & Hr & _). destruct (x_prof y); [reflexivity|]. exfalso. apply Hn. apply Hr. discriminate.
Qed.
(** Both entities of a request are answered, with some of the parameters. *)
Definition ex_answer : list elem := [Version 0; Fields 1 [mkX 1 V42BIS None [5] [1] []]; Fields 2 [mkX 0 RFC1144 None [7] [] []]].
Example C96_case : Forall elem_ok ex_answer /\ (forall y, In y (concat (map e_fields ex_answer)) -> answers ex_req y /\ x_alg y <> ROHC) /\
  rev (map (meaning ex_req) (concat (map e_fields ex_answer))) =
    [mkF false 0 0 [1; 2] (Some (mkPar RFC1144 [7] [15] [])); mkF false 1 0 [1] (Some (mkPar V42BIS [5] [1; 2048; 20] []))].
Proof.
  split; [|split; [|vm_compute; reflexivity]].
  - constructor; [cbn; lia|]. constructor; [|constructor; [|constructor]];
      (split; [discriminate|]; split; [auto|]; split; [constructor; [split; [reflexivity|]|constructor]|vm_compute; discriminate]);
      (split; [cbn; lia|]; split; [sorted|]; split;
       [first [exists [2048; 20]; cbn; lia|exists [15]; cbn; lia]|]; split; [exact I|]; split; [cbn; congruence|]; split; [cbn; lia|constructor]).
  - cbn. intros y [<-|[<-|[]]]; (split; [split; [reflexivity|]|discriminate]); [exists ex_v42|exists ex_tcp]; cbn; auto.
Qed.
(** The profiles of ROHC are not taken from the request. *)
Theorem C96_rohc_refuted : exists xs es, request xs /\ Forall elem_ok es /\ (forall y, In y (concat (map e_fields es)) -> answers xs y) /\
  parse_xid true (concat (map elem_oct es)) (zlen (concat (map elem_oct es))) (Some (map x_field xs)) <>
  Ok (Some (Some (version_of es), rev (map (meaning xs) (concat (map e_fields es))))).
Proof.
  exists [ex_rohc], [Fields 2 [mkX 4 ROHC None [5] [] []]]. split; [split|split; [|split]].
  - constructor; [|constructor]. split; [exact ex_rohc_ok|]. split; [cbn; lia|eexists; reflexivity].
  - constructor; [intros []|constructor].
  - constructor; [|constructor]. split; [discriminate|]. split; [auto|]. split; [constructor; [split; [reflexivity|]|constructor]|vm_compute; discriminate].
    split; [cbn; lia|]. split; [sorted|]. split; [exists [15; 168]; cbn; lia|]. split; [exact I|]. split; [cbn; congruence|]. split; [cbn; lia|constructor].
  - cbn. intros y [<-|[]]. split; [reflexivity|]. exists ex_rohc. cbn. auto.
  - vm_compute. discriminate.
Qed.
(** If header and data compression use the same number, which TS 44.065 allows (they are different kinds of entities), a correct answer is refused. *)
Theorem C96_number_refuted : exists x1 x2 y, xf_ok x1 /\ xf_ok x2 /\ xf_ok y /\ kind (x_alg x1) <> kind (x_alg x2) /\ x_entity x1 = x_entity x2 /\
  answers [x1; x2] y /\ parse_xid true (concat (map elem_oct [Fields 2 [y]])) (zlen (concat (map elem_oct [Fields 2 [y]]))) (Some (map x_field [x1; x2])) = Ok None.
Proof.
  exists ex_tcp, (mkX 0 V42BIS (Some [1]) [5] [3; 2048; 20] []), (mkX 0 RFC1144 None [5] [] []).
  split; [exact ex_tcp_ok|]. split; [okx; [exists []; cbn; lia|constructor]|].
  split. { split; [cbn; lia|]. split; [sorted|]. split; [exists [15]; cbn; lia|]. split; [exact I|]. split; [cbn; congruence|]. split; [cbn; lia|constructor]. }
  split; [discriminate|]. split; [reflexivity|]. split; [|vm_compute; reflexivity]. split; [reflexivity|]. exists ex_tcp. cbn. auto.
Qed.

(** ** C97: reading stays inside the block *)

(** Missing: that nothing behind the block is read.  It is enough that 41 octets behind it exist. *)
Theorem C97_reads_partial want m n req : bytes m -> 0 <= n -> n + 41 <= zlen m -> (forall fs, req = Some fs -> zlen fs <= 64) ->
  exists r, parse_xid want m n req = Ok r.
Proof. intros B Hn Hl Hr. destruct (parse_safe m B want n req Hn Hl Hr) as (r & E & _). exists r. exact E. Qed.
Example C97_case : bytes (repeat 255 100) /\ parse_xid true (repeat 255 100) 59 None = Ok None.
Proof. split; [apply Forall_forall; intros x Hx; apply repeat_spec in Hx; subst x; unfold byte; lia|vm_compute; reflexivity]. Qed.
(** Three octets are enough to make it read behind them; and there must indeed be 41 more. *)
Theorem C97_reads_refuted : exists m, bytes m /\ parse_xid true m (zlen m) None = UB.
Proof. exists [2; 1; 128]. split; [repeat (constructor; [unfold byte; lia|]); constructor|vm_compute; reflexivity]. Qed.
Theorem C97_far_refuted : exists m n, bytes m /\ zlen m = n + 40 /\ parse_xid true m n None = UB.
Proof.
  exists ([2; 1; 128; 2; 0; 0x12; 0; 32; 0; 15; 0; 168] ++ repeat 0 31), 3. split; [|split; vm_compute; reflexivity].
  apply Forall_app. split; [repeat (constructor; [unfold byte; lia|]); constructor|]. apply Forall_forall. intros x Hx. apply repeat_spec in Hx. subst x. unfold byte. lia.
Qed.

Print Assumptions C94_decode_partial.
Print Assumptions C94_profiles_refuted.
Print Assumptions C94_v44_refuted.
Print Assumptions C94_extra_refuted.
Print Assumptions C95_round_trip_partial.
Print Assumptions C95_long_refuted.
Print Assumptions C95_room_refuted.
Print Assumptions C96_answer_partial.
Print Assumptions C96_rohc_refuted.
Print Assumptions C96_number_refuted.
Print Assumptions C97_reads_partial.
Print Assumptions C97_reads_refuted.
Print Assumptions C97_far_refuted.
