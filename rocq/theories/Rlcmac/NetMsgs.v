(** Blocks that a network makes with the encoder of this library: the fields they carry, for C122. *)
From Coq Require Import ZArith List Bool Lia.
From Verif Require Import Lib.Base Csn1.Csn1Model Csn1.Csn1EncModel Csn1.Csn1Tables Csn1.Csn1DlModel Csn1.Csn1UlModel Csn1.Csn1UlProofs.
From Verif Require Import Csn1.Csn1RoundProofs Csn1.Csn1Layout Csn1.Csn1Step Csn1.Csn1DnModel Csn1.Csn1DnSpec Csn1.Csn1DnProperties.
From Verif Require Import Rlcmac.CcchSpec Rlcmac.PdchSpec Rlcmac.NetSpec.
Import ListNotations.
Open Scope Z_scope.

Lemma wr_number v n : wr v n = number v n.
Proof. induction n as [|n IH]; [reflexivity|]. rewrite number_S. cbn [wr]. rewrite IH. reflexivity. Qed.

(** The header that the encoder writes is the one of the specification. *)
Lemma net_bits rrbp sp usf o : (forall x, o = Some x -> opt_ok x) -> items_ok (header rrbp sp usf o) ->
  dn_bits (net_header rrbp sp usf o) = lay 0 (header rrbp sp usf o) /\ (n_pt (net_header rrbp sp usf o) =? 0) || (n_pt (net_header rrbp sp usf o) =? 3) = false.
Proof.
  intros K I. destruct o as [o|]; [|split; reflexivity]. specialize (K o eq_refl). destruct o as [rbsn rti fs ac ext]. unfold opt_ok in K.
  assert (E : (rbsn =? 1) && (fs =? 0) = if ext then true else false).
  { cbn [o_rbsn o_fs o_ext] in K. destruct ext as [x|].
    - destruct K as [_ K]. destruct K as [-> ->]; [discriminate|reflexivity].
    - destruct (Z.eqb_spec rbsn 1), (Z.eqb_spec fs 0); try reflexivity. destruct K as [K _]. destruct K; auto. }
  unfold net_header. cbn [o_ac o_ext o_rbsn o_rti o_fs].
  destruct ac as [[[pr tfi] d]|], ext as [[[e f] x]|]; (split; [|reflexivity]); unfold dn_bits; cbn [n_pt n_rbsn n_fs n_ac]; rewrite E; reflexivity.
Qed.

Lemma lay_app a : forall p b, lay p (a ++ b) = lay p a ++ lay (p + size a) b.
Proof.
  induction a as [|[n v|h|x] a IH]; intros p b; cbn [app lay size width_of].
  - f_equal. lia.
  - rewrite IH, <- app_assoc, Z.add_assoc. reflexivity.
  - rewrite IH, Z.add_assoc. reflexivity.
  - rewrite IH, <- app_assoc, Z.add_assoc. reflexivity.
Qed.

Lemma pack_octets n : forall b, length (pack n b) = n /\ Forall (fun x => 0 <= x < 256) (pack n b).
Proof. intros b. split; [apply pack_length|apply pack_bytes]. Qed.

(** A block whose contents are encoded into these fields. *)
Lemma net_block rrbp sp usf o m d sz c : (forall x, o = Some x -> opt_ok x) -> items_ok (header rrbp sp usf o ++ c) ->
  dl_table (m 0) = Some (d, sz) -> size (header rrbp sp usf o) + size c = 184 ->
  encode m d (184 - size (header rrbp sp usf o)) = EOk (lay (size (header rrbp sp usf o)) c) 0 ->
  exists l, create_dl (net_header rrbp sp usf o) m = Some l /\ PdchSpec.block l rrbp sp usf o c.
Proof.
  intros O I T S E. assert (Ih : items_ok (header rrbp sp usf o)) by (apply Forall_app in I; tauto).
  destruct (net_bits rrbp sp usf o O Ih) as [B P]. unfold create_dl, encode_downlink. rewrite P, T, B, lay_length, E. cbn [Z.ltb Z.compare].
  eexists. split; [reflexivity|]. split; [exact O|]. set (bb := lay 0 (header rrbp sp usf o) ++ _).
  assert (L : length bb = 184%nat).
  { unfold bb. apply Nat2Z.inj. rewrite app_length, Nat2Z.inj_add. change (Z.of_nat (length (lay 0 (header rrbp sp usf o)))) with (zlen (lay 0 (header rrbp sp usf o))).
    change (Z.of_nat (length (lay (size (header rrbp sp usf o)) c))) with (zlen (lay (size (header rrbp sp usf o)) c)). rewrite !lay_length. lia. }
  unfold Csn1UlModel.block. rewrite firstn_all2 by lia. rewrite L. change (skipn 184 zero_vec) with (@nil bool). rewrite app_nil_r.
  destruct (pack_octets 23 bb) as [L23 O23]. split; [exact L23|]. split; [exact O23|]. split; [reflexivity|]. split; [exact I|].
  unfold Csn1Layout.carried. cbn [length skipn]. rewrite L23, Nat.sub_0_r, lay_app, Z.add_0_l. etransitivity; [|exact (pack_bits 23 bb L)].
  apply map_ext. intros i. unfold bit_at, msg_bits. rewrite <- (Nat2Z.id (i / 8)), Nat2Z.inj_div. f_equal.
  rewrite Nat2Z.inj_sub by (pose proof (Nat.mod_upper_bound i 8); lia). rewrite Nat2Z.inj_mod. reflexivity.
Qed.

(** *** Packet Uplink Ack/Nack *)
(** The padding that the encoder writes from bit [n] on. *)
Definition pad_from (n : Z) : list bool := match enc_pad (184 - n) with EOk b _ => b | _ => [] end.
Definition ack_add (est : option Z) (more : list bool) : option (list bool) + (option Z * Z) * list bool :=
  match est with None => inl (Some more) | Some e => inr ((None, e), more) end.
Lemma le4 t : 0 <= t < 2 ^ 32 -> t mod 256 + 256 * ((t / 256) mod 256 + 256 * ((t / 256 / 256) mod 256 + 256 * ((t / 256 / 256 / 256) mod 256 + 256 * 0))) = t.
Proof. intros H. Z.to_euclidean_division_equations. lia. Qed.
Lemma enc_ack p mode tfi ccc final ssn bm tlli est : In p [8; 16; 24; 32] -> length bm = 8%nat -> (forall t, tlli = Some t -> 0 <= t < 2 ^ 32) ->
  exists more, let c := ul_ack_nack mode tfi ccc final ssn bm tlli None None None 0 (ack_add est more) in
  encode (net_ack mode tfi ccc final ssn bm tlli est) Packet_Uplink_Ack_Nack_t (184 - p) = EOk (lay p c) 0 /\ size c = 184 - p.
Proof.
  intros P L T. do 9 (destruct bm as [|? bm]; try discriminate L). clear L.
  exists (pad_from (p + 95 + (if tlli then 33 else 1) + (if est then 3 else 1))). cbv zeta. split.
  - transitivity (EOk (lay p (ul_ack_nack (mode + 256 * 0) (tfi + 256 * 0) (ccc + 256 * 0) (final + 256 * 0) (ssn + 256 * 0)
      [z + 256 * 0; z0 + 256 * 0; z1 + 256 * 0; z2 + 256 * 0; z3 + 256 * 0; z4 + 256 * 0; z5 + 256 * 0; z6 + 256 * 0]
      (option_map (fun t => t mod 256 + 256 * ((t / 256) mod 256 + 256 * ((t / 256 / 256) mod 256 + 256 * ((t / 256 / 256 / 256) mod 256 + 256 * 0)))) tlli)
      None None None 0 (ack_add (option_map (fun e => e + 256 * 0) est) (pad_from (p + 95 + (if tlli then 33 else 1) + (if est then 3 else 1)))))) 0).
    + cbn [In] in P. destruct P as [<-|[<-|[<-|[<-|[]]]]]; destruct tlli as [t|], est as [e|]; reflexivity.
    + assert (X : forall o, o + 256 * 0 = o) by (intros; lia). rewrite !X.
      assert (Y : option_map (fun e => e + 256 * 0) est = est) by (destruct est; cbn [option_map]; rewrite ?X; reflexivity). rewrite Y.
      destruct tlli as [t|]; [|reflexivity]. cbn [option_map]. rewrite le4 by auto. reflexivity.
  - cbn [In] in P. destruct P as [<-|[<-|[<-|[<-|[]]]]]; destruct tlli as [t|], est as [e|]; reflexivity.
Qed.
(** *** Packet Downlink Assignment *)
Definition one (v : Z) : Z := v + 256 * 0.
Definition two (v : Z) : Z := v mod 256 + 256 * (v / 256 mod 256 + 256 * 0).
Definition four (t : Z) : Z := t mod 256 + 256 * ((t / 256) mod 256 + 256 * ((t / 256 / 256) mod 256 + 256 * ((t / 256 / 256 / 256) mod 256 + 256 * 0))).
Lemma one_id v : one v = v.
Proof. unfold one. lia. Qed.
Lemma two_id v : 0 <= v < 2 ^ 16 -> two v = v.
Proof. unfold two. intros H. Z.to_euclidean_division_equations. lia. Qed.
Definition id_map (w : (Z + Z) + Z) : (Z + Z) + Z := match w with inl (inl u) => inl (inl (one u)) | inl (inr d) => inl (inr (one d)) | inr t => inr (four t) end.
Definition start_map (f : Z * Z * Z + Z) : Z * Z * Z + Z := match f with inl (a, b, c) => inl (one a, one b, one c) | inr k => inr (two k) end.
Definition freq_map (f : Z * Z) : Z * freq_params := (one (fst f), FArfcn (two (snd f))).
Definition freq_of (f : Z * Z) : Z * freq_params := (fst f, FArfcn (snd f)).
Lemma maps_id who start freq : (forall t, who = inr t -> 0 <= t < 2 ^ 32) -> (forall k, start = Some (inr k) -> 0 <= k < 2 ^ 16) ->
  (forall f, freq = Some f -> 0 <= snd f < 2 ^ 16) ->
  id_map who = who /\ option_map start_map start = start /\ option_map freq_map freq = option_map freq_of freq.
Proof.
  intros W S F. split; [|split].
  - destruct who as [[u|d]|t]; cbn [id_map]; rewrite ?one_id; try reflexivity. unfold four. rewrite le4 by auto. reflexivity.
  - destruct start as [[[[a b] c]|k]|]; cbn [option_map start_map]; rewrite ?one_id; try reflexivity. rewrite two_id by auto. reflexivity.
  - destruct freq as [f|]; [|reflexivity]. cbn [option_map]. unfold freq_map, freq_of. rewrite one_id, two_id by auto. reflexivity.
Qed.
Lemma map_one o : option_map one o = o.
Proof. destruct o; cbn [option_map]; rewrite ?one_id; reflexivity. Qed.
Notation pda mode who mac rlc ack slots ta freq tfi start add :=
  (dl_assignment mode None who mac rlc ack slots (ta, None) None freq tfi None start None add).
Lemma enc_dl_ass p mode who mac rlc ack slots ta freq tfi start : In p [8; 16; 24; 32] ->
  (forall t, who = inr t -> 0 <= t < 2 ^ 32) -> (forall k, start = Some (inr k) -> 0 <= k < 2 ^ 16) -> (forall f, freq = Some f -> 0 <= snd f < 2 ^ 16) ->
  exists more, let c := pda mode who mac rlc ack slots ta (option_map freq_of freq) tfi start (inl (Some more)) in
  encode (net_dl_ass mode who mac rlc ack slots ta freq tfi start) Packet_Downlink_Assignment_t (184 - p) = EOk (lay p c) 0 /\ size c = 184 - p.
Proof.
  intros P W S F. destruct (maps_id who start freq W S F) as (Ew & Es & Ef).
  set (q := p + size (pda mode who mac rlc ack slots ta (option_map freq_of freq) tfi start (inl (Some [])))).
  exists (pad_from q). cbv zeta. split.
  - transitivity (EOk (lay p (pda (one mode) (id_map who) (one mac) (one rlc) (one ack) (one slots) (option_map one ta) (option_map freq_map freq)
      (option_map one tfi) (option_map start_map start) (inl (Some (pad_from q))))) 0).
    + subst q. clear - P. cbn [In] in P. destruct P as [<-|[<-|[<-|[<-|[]]]]];
        destruct who as [[?|?]|?], ta, freq as [[? ?]|], tfi, start as [[[[? ?] ?]|?]|]; reflexivity.
    + rewrite Ew, Es, Ef, !map_one, !one_id. reflexivity.
  - subst q. cbn [In] in P. destruct P as [<-|[<-|[<-|[<-|[]]]]];
        destruct who as [[?|?]|?], ta, freq as [[? ?]|], tfi, start as [[[[? ?] ?]|?]|]; reflexivity.
Qed.
(** *** Packet Uplink Assignment *)
Definition one_slot (tn : nat) (usf : Z) : list (option Z) := map (fun i => if (i =? tn)%nat then Some usf else None) (seq 0 8).
Notation pua mode who ccc tbcc freq tfi start slots add :=
  (ul_assignment mode None who ccc tbcc (None, None) freq 0 None 0 (Some tfi) None start (inl slots) add).
Lemma enc_ul_ass p mode who ccc tbcc freq tfi start tn usf : In p [8; 16; 24; 32] -> (tn < 8)%nat ->
  (forall t, who = inr t -> 0 <= t < 2 ^ 32) -> (forall k, start = Some (inr k) -> 0 <= k < 2 ^ 16) -> (forall f, freq = Some f -> 0 <= snd f < 2 ^ 16) ->
  exists more, let c := pua mode who ccc tbcc (option_map freq_of freq) tfi start (one_slot tn usf) (inl (Some more)) in
  encode (net_ul_ass mode who ccc tbcc freq tfi start tn usf) Packet_Uplink_Assignment_t (184 - p) = EOk (lay p c) 0 /\ size c = 184 - p.
Proof.
  intros P N W S F. destruct (maps_id who start freq W S F) as (Ew & Es & Ef).
  set (q := p + size (pua mode who ccc tbcc (option_map freq_of freq) tfi start (one_slot tn usf) (inl (Some [])))).
  exists (pad_from q). cbv zeta. split.
  - transitivity (EOk (lay p (pua (one mode) (id_map who) (one ccc) (one tbcc) (option_map freq_map freq)
      (one tfi) (option_map start_map start) (one_slot tn (one usf)) (inl (Some (pad_from q))))) 0).
    + subst q. clear - P N. cbn [In] in P. do 8 (destruct tn as [|tn]; [destruct P as [<-|[<-|[<-|[<-|[]]]]];
        destruct who as [[?|?]|?], freq as [[? ?]|], start as [[[[? ?] ?]|?]|]; reflexivity|]). lia.
    + rewrite Ew, Es, Ef, !one_id. reflexivity.
  - subst q. clear - P N. cbn [In] in P. do 8 (destruct tn as [|tn]; [destruct P as [<-|[<-|[<-|[<-|[]]]]];
        destruct who as [[?|?]|?], freq as [[? ?]|], start as [[[[? ?] ?]|?]|]; reflexivity|]). lia.
Qed.
