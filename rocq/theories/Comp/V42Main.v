(** Whatever the compressor is given, the decompressor gives it back. *)
From Verif.Lib Require Import Base Outcome.
From Verif.Comp Require Import V42Model V42Dict V42Bits V42Sync V42Send.

Section Main.
Variables n2 n7 : Z.
Hypothesis Hn2 : 512 <= n2 <= 4096.
Hypothesis Hn7 : 6 <= n7 <= 250.
Notation dsteps := (dsteps n2 n7).
Notation lag := (lag n2).

(** A control code and the filling up of the octet. *)
Lemma aligned k c2 pf esc tr ed str bb bc code : bits_ok bb bc -> 9 <= c2 <= 12 -> 0 <= code <= 1 ->
  exists p q,
    (let (s, p) := push_code (mkV k c2 (2 ^ c2) str pf bb bc esc tr ed) code in
     let (s, q) := push_align s in (s, p ++ q)) = (mkV k c2 (2 ^ c2) str pf 0 0 esc tr ed, p ++ q) /\
    push_code (mkV k c2 (2 ^ c2) str pf bb bc esc tr ed) code = (fst (push_code (mkV k c2 (2 ^ c2) str pf bb bc esc tr ed) code), p) /\
    push_align (fst (push_code (mkV k c2 (2 ^ c2) str pf bb bc esc tr ed) code)) = (mkV k c2 (2 ^ c2) str pf 0 0 esc tr ed, q) /\
    8 * zlen (p ++ q) <= bc + 19 /\
    (forall F, fits bb bc ((p ++ q) ++ F)) /\
    (forall kd pfd e0 dbb dbc F r, start bc dbb dbc ((p ++ q) ++ F) r ->
       exists n, r <> [] /\ (length F < length r)%nat /\
         dec_step n2 n7 (mkV kd c2 (2 ^ c2) [] pfd dbb dbc e0 false false) r =
         after_code n2 n7 (mkV kd c2 (2 ^ c2) [] pfd 0 n e0 false false) code F).
Proof.
  intros B H Hc. pose proof (pow_range c2 H) as PR.
  destruct (packed_ok bb bc c2 code B H) as ((B1 & B2) & Z'); [lia|].
  rewrite push_code_packed. cbv beta iota zeta delta [v_bb v_bc v_c2 fst]. set (P := packed bb bc c2 code) in *.
  change (let (_, y) := P in y) with (snd P) in *. change (let (y, _) := P in y) with (fst P).
  set (bc1 := (bc + c2) mod 8) in *.
  set (q := if bc1 =? 0 then [] else [snd P]).
  assert (AL : push_align (set_bits (mkV k c2 (2 ^ c2) str pf bb bc esc tr ed) (snd P) bc1) = (mkV k c2 (2 ^ c2) str pf 0 0 esc tr ed, q)).
  { unfold push_align. cbv beta iota zeta delta [set_bits v_d v_c2 v_c3 v_str v_perf v_bb v_bc v_esc v_tr v_escd]. rewrite Z.mod_small by lia. unfold q. destruct (bc1 =? 0) eqn:E.
    - assert (E0 : bc1 = 0) by lia. rewrite E0 in B2 |- *. change (2 ^ 0) with 1 in B2. assert (S0 : snd P = 0) by lia. rewrite S0. reflexivity.
    - replace (bc1 + (8 - bc1)) with 8 by lia. change (Z.to_nat (8 / 8)) with 1%nat. cbn [drain]. rewrite land255, shr8.
      assert (2 ^ bc1 <= 256). { change 256 with (2 ^ 8). apply Z.pow_le_mono_r; lia. }
      rewrite (Z.mod_small (snd P) 256), (Z.div_small (snd P) 256) by lia. reflexivity. }
  exists (fst P), q. rewrite AL. split; [reflexivity|]. split; [reflexivity|]. split; [reflexivity|].
  split; [unfold q, zlen in *; rewrite app_length; destruct (bc1 =? 0) eqn:E; cbn [length]; lia|].
  split; [intros F; rewrite <- app_assoc; destruct B; apply fits_packed; lia|].
  intros kd pfd e0 dbb dbc F r S. rewrite <- app_assoc in S.
  assert (FT : fits (snd P) bc1 (q ++ F)).
  { unfold q. destruct (bc1 =? 0) eqn:E.
    - left. assert (E0 : bc1 = 0) by lia. rewrite E0 in B2. change (2 ^ 0) with 1 in B2. lia.
    - right. split; [lia|]. exists (snd P), F. split; [reflexivity|].
      assert (2 ^ bc1 <= 256). { change 256 with (2 ^ 8). apply Z.pow_le_mono_r; lia. }
      split; [lia|]. apply Z.mod_small. lia. }
  destruct (read_code n2 n7 kd c2 (2 ^ c2) [] pfd e0 bb bc code dbb dbc (q ++ F) r B H ltac:(lia) S FT) as (b & n & r' & S' & N & LE & DS).
  fold bc1 in S'.
  assert (R : b = 0 /\ r' = F).
  { unfold q in S'. destruct (bc1 =? 0) eqn:E.
    - destruct S' as [(_ & -> & _ & ->)|(S' & _)]; [split; reflexivity|lia].
    - destruct S' as [(S' & _)|(_ & f & S' & _ & _ & ->)]; [lia|]. injection S' as <- <-. split; [apply Z.div_small; lia|reflexivity]. }
  destruct R as (-> & ->). exists n. auto.
Qed.

(** The decompressor gets to the end and has given what it owed and the octets [buf]. *)
Definition good (nd : Z -> node) (c1 lac updc c2 bc esc : Z) (tr : bool) (buf F : list Z) : Prop :=
  forall lad updd lmd str pfd dbb dbc r,
    (match buf with [] => True | x :: _ => lag tr nd c1 lac updc lad updd lmd str x end) ->
    (tr = false -> str = []) -> start bc dbb dbc F r ->
    exists D' out, dsteps (mkV (mkD nd c1 lad updd lmd) c2 (2 ^ c2) str pfd dbb dbc esc tr false) r D' [] out /\
      out ++ v_str D' = str ++ buf.

(** The same when a string has just been sent. *)
Definition good_sent (nd : Z -> node) (c1 lac updc c2 bc esc : Z) (tr : bool) (buf F : list Z) : Prop :=
  forall lad updd lmd str pfd dbb dbc r,
    (match buf with [] => True | x :: _ => lag tr nd c1 lac updc lad updd lmd str x end) -> (tr = true -> updd = 0) ->
    (tr = false -> str = []) -> start bc dbb dbc F r ->
    exists D' out, dsteps (mkV (mkD nd c1 lad updd lmd) c2 (2 ^ c2) str pfd dbb dbc esc tr false) r D' [] out /\
      out ++ v_str D' = str ++ buf.

Definition cinv (nd : Z -> node) (c1 lac updc c2 bb bc : Z) (tr : bool) (buf : list Z) : Prop :=
  dok n2 nd c1 /\ (lac = 0 \/ 259 <= lac) /\ (updc = 0 \/ (3 <= updc < n2 /\ updc <> c1)) /\
  9 <= c2 <= 12 /\ bits_ok bb bc /\ (tr = true -> bc = 0) /\ (buf = [] -> updc = 0) /\ bytes buf.
Definition stable (tr : bool) (pf : Z) : Prop := if tr then 2037 <= pf else pf <= 2048.

Definition runs (fuel : nat) (buf : list Z) : Prop :=
  forall nd c1 lac updc c2 pf bb bc esc tr ed, cinv nd c1 lac updc c2 bb bc tr buf -> stable tr pf ->
  exists C' o p,
    compress_loop fuel n2 n7 (mkV (mkD nd c1 lac updc 0) c2 (2 ^ c2) [] pf bb bc esc tr ed) buf = Ok (C', o) /\
    compress_flush C' = Ok (Some p) /\
    8 * zlen (o ++ p) <= bc + 12 * (12 - c2) + 48 * zlen buf + 24 /\
    fits bb bc (o ++ p) /\ good nd c1 lac updc c2 bc esc tr buf (o ++ p).

Lemma zlen_cat (a b : list Z) : zlen (a ++ b) = zlen a + zlen b.
Proof. unfold zlen. rewrite app_length. lia. Qed.

Lemma bits_zero bb bc : bits_ok bb bc -> bc = 0 -> bb = 0.
Proof. intros (_ & H) ->. change (2 ^ 0) with 1 in H. lia. Qed.

Lemma runs_nil fuel : runs fuel [].
Proof.
  intros nd c1 lac updc c2 pf bb bc esc tr ed (OK & HL & HU & H2 & B & TB & UN & HB) ST. rewrite (UN eq_refl) in *. clear UN HU.
  assert (CL : forall s, compress_loop fuel n2 n7 s [] = Ok (s, [])) by (intros; destruct fuel; reflexivity).
  rewrite CL. unfold compress_flush. vcb. change (0 =? 0) with true. cbv iota. destruct tr.
  - rewrite (TB eq_refl) in *. exists (mkV (mkD nd c1 lac 0 0) c2 (2 ^ c2) [] pf bb 0 esc true ed), [], [].
    split; [reflexivity|]. split; [reflexivity|]. split; [unfold zlen; cbn [length app]; lia|]. split; [left; split; [reflexivity|now apply bits_zero with 0]|].
    intros lad updd lmd str pfd dbb dbc r _ _ S. destruct S as [(_ & -> & -> & ->)|(S & _)]; [|lia].
    eexists; eexists; split; [constructor|]. cbn [app v_str]. now rewrite app_nil_r.
  - destruct (aligned (mkD nd c1 lac 0 0) c2 pf esc false ed [] bb bc 1 B H2 ltac:(lia)) as (p & q & E & E1 & E2 & L & FT & DS).
    exists (mkV (mkD nd c1 lac 0 0) c2 (2 ^ c2) [] pf bb bc esc false ed), [], (p ++ q).
    split; [reflexivity|]. split.
    { vcb. change (0 =? 0) with true. cbv iota. rewrite E1, E2. reflexivity. }
    cbn [app]. split; [unfold zlen in *; cbn [length] in *; lia|]. split; [rewrite <- (app_nil_r (p ++ q)); apply FT|].
    intros lad updd lmd str pfd dbb dbc r _ SN S. rewrite (SN eq_refl). rewrite <- (app_nil_r (p ++ q)) in S.
    destruct (DS (mkD nd c1 lad updd lmd) pfd esc dbb dbc [] r S) as (n & N & LE & D).
    eexists; eexists; split; [apply ds_one; [exact N| |exact LE]; rewrite D; reflexivity|]. reflexivity.
Qed.

(** After a string has been sent the mode may change. *)
Lemma change fuel buf nd c1 lac updc c2 pf bb bc esc tr ed : runs fuel buf -> cinv nd c1 lac updc c2 bb bc tr buf ->
  exists C3 p0 C' o p,
    monitor (mkV (mkD nd c1 lac updc 0) c2 (2 ^ c2) [] pf bb bc esc tr ed) = Ok (C3, p0) /\
    compress_loop fuel n2 n7 C3 buf = Ok (C', o) /\ compress_flush C' = Ok (Some p) /\
    8 * zlen (p0 ++ o ++ p) <= bc + 12 * (12 - c2) + 48 * zlen buf + 44 /\
    fits bb bc (p0 ++ o ++ p) /\ good_sent nd c1 lac updc c2 bc esc tr buf (p0 ++ o ++ p).
Proof.
  intros R (OK & HL & HU & H2 & B & TB & UN & HB). unfold monitor. vcb.
  assert (SAME : stable tr pf -> exists C' o p,
    compress_loop fuel n2 n7 (mkV (mkD nd c1 lac updc 0) c2 (2 ^ c2) [] pf bb bc esc tr ed) buf = Ok (C', o) /\ compress_flush C' = Ok (Some p) /\
    8 * zlen ([] ++ o ++ p) <= bc + 12 * (12 - c2) + 48 * zlen buf + 44 /\
    fits bb bc ([] ++ o ++ p) /\ good_sent nd c1 lac updc c2 bc esc tr buf ([] ++ o ++ p)).
  { intros ST. destruct (R nd c1 lac updc c2 pf bb bc esc tr ed) as (C' & o & p & G1 & G2 & G3 & G4 & G5); [exact (conj OK (conj HL (conj HU (conj H2 (conj B (conj TB (conj UN HB)))))))|exact ST|].
    exists C', o, p. cbn [app]. split; [exact G1|]. split; [exact G2|]. split; [lia|]. split; [exact G4|].
    intros lad updd lmd str pfd dbb dbc r LG _. apply G5, LG. }
  destruct tr.
  - rewrite (TB eq_refl) in *. pose proof (bits_zero _ _ B eq_refl) as ->.
    destruct (pf <? 2048 - 11) eqn:E.
    + unfold go_compressed, send_rest. vcb. change (0 =? 0) with true. cbv iota.
      destruct (R nd c1 lac updc c2 pf 0 0 esc false ed) as (C' & o & p & G1 & G2 & G3 & G4 & G5);
        [refine (conj OK (conj HL (conj HU (conj H2 (conj B (conj _ (conj UN HB))))))); discriminate|unfold stable; lia|].
      exists (mkV (mkD nd c1 lac updc 0) c2 (2 ^ c2) [] pf 0 0 esc false ed), [esc; 0], C', o, p.
      split; [reflexivity|]. split; [exact G1|]. split; [exact G2|].
      split; [rewrite zlen_cat; unfold zlen at 1; cbn [length]; lia|]. split; [left; split; reflexivity|].
      intros lad updd lmd str pfd dbb dbc r LG U0 _ S. destruct S as [(_ & -> & -> & ->)|(S & _)]; [|lia]. rewrite (U0 eq_refl) in *. clear U0.
      destruct (G5 lad lmd 0 [] pfd 0 0 (o ++ p)) as (D' & out & DS & EQ).
      { destruct buf as [|x buf]; [exact I|]. destruct LG as [(-> & _ & -> & -> & ->)|[(A1 & A2 & A3 & P)|(-> & -> & m & e & A1 & A2 & A3 & P & LA)]].
        - left. auto.
        - right; left. repeat split; try lia; auto. left. destruct P as [(P & _)|(_ & _ & ->)]; [lia|auto].
        - right; right. split; [reflexivity|]. split; [reflexivity|]. exists m, e. split; [lia|]. split; [exact A2|]. split; [exact A3|].
          destruct P as [(P & _)|(_ & _ & ->)]; [lia|]. split; [left; auto|]. destruct LA as [(_ & LA)|(-> & _)]; [lia|]. right. split; [reflexivity|discriminate]. }
      { reflexivity. } { left. auto. }
      exists D', (str ++ out). split; [|rewrite <- app_assoc, EQ; reflexivity].
      change (str ++ out) with ([] ++ str ++ out).
      apply (ds_step n2 n7 _ _ (mkV (mkD nd c1 lad 0 lmd) c2 (2 ^ c2) str pfd 0 0 esc true true) (0 :: o ++ p)); [discriminate| |cbn; lia|].
      { cbn [app]. unfold dec_step. vcb. rewrite Z.eqb_refl. reflexivity. }
      apply (ds_step n2 n7 _ _ (mkV (mkD nd c1 lad lmd 0) c2 (2 ^ c2) [] pfd 0 0 esc false false) (o ++ p)); [discriminate|reflexivity|cbn; lia|exact DS].
    + exists (mkV (mkD nd c1 lac updc 0) c2 (2 ^ c2) [] pf 0 0 esc true ed), []. destruct SAME as (C' & o & p & S1 & S2); [unfold stable; lia|].
      exists C', o, p. split; [reflexivity|]. split; [exact S1|exact S2].
  - destruct (2048 <? pf) eqn:E.
    + unfold go_transparent, send_rest. vcb. change (0 =? 0) with true. cbv iota.
      destruct (aligned (mkD nd c1 0 updc 0) c2 pf esc false ed [] bb bc 0 B H2 ltac:(lia)) as (p1 & q1 & E0 & E1 & E2 & L & FT & DS0).
      destruct (R nd c1 0 updc c2 pf 0 0 esc true ed) as (C' & o & p & G1 & G2 & G3 & G4 & G5);
        [refine (conj OK (conj (or_introl eq_refl) (conj HU (conj H2 (conj _ (conj (fun _ => eq_refl) (conj UN HB))))))); split; [lia|change (2 ^ 0) with 1; lia]|unfold stable; lia|].
      exists (mkV (mkD nd c1 0 updc 0) c2 (2 ^ c2) [] pf 0 0 esc true ed), (p1 ++ q1), C', o, p.
      split. { rewrite E1. cbv iota. rewrite E2. reflexivity. }
      split; [exact G1|]. split; [exact G2|]. split; [rewrite zlen_cat; lia|]. split; [apply FT|].
      intros lad updd lmd str pfd dbb dbc r LG _ SN S. rewrite (SN eq_refl) in *. clear SN.
      destruct (DS0 (mkD nd c1 lad updd lmd) pfd esc dbb dbc (o ++ p) r S) as (n & N & LE & D).
      destruct (G5 0 updd 0 [] pfd 0 0 (o ++ p)) as (D' & out & DS & EQ).
      { destruct buf as [|x buf]; [exact I|]. destruct LG as [(-> & -> & -> & -> & _)|[(A1 & A2 & A3 & P)|(-> & -> & m & e & A1 & A2 & A3 & P & LA)]].
        - left. auto.
        - right; left. repeat split; try lia; auto. left. destruct P as [(-> & -> & _)|(P & _)]; [auto|discriminate P].
        - right; right. split; [reflexivity|]. split; [reflexivity|]. exists m, e. split; [lia|]. split; [exact A2|]. split; [exact A3|].
          destruct P as [(-> & -> & _)|(P & _)]; [|discriminate P]. split; [left; auto|]. left. auto. }
      { reflexivity. } { left. auto. }
      exists D', out. split; [|exact EQ]. change out with ([] ++ out). eapply ds_step; [exact N| |exact LE|exact DS].
      rewrite D. reflexivity.
    + exists (mkV (mkD nd c1 lac updc 0) c2 (2 ^ c2) [] pf bb bc esc false ed), []. destruct SAME as (C' & o & p & S1 & S2); [unfold stable; lia|].
      exists C', o, p. split; [reflexivity|]. split; [exact S1|exact S2].
Qed.

Lemma esc_octets_length w : forall esc, zlen (esc_octets esc w) <= 2 * zlen w.
Proof.
  induction w as [|x w IH]; intros esc; [unfold zlen; cbn; lia|]. cbn [esc_octets]. unfold zlen in *.
  destruct (x =? esc); cbn [length]; [specialize (IH ((esc + 51) mod 256))|specialize (IH esc)]; lia.
Qed.

Lemma runs_all : forall fuel buf, (length buf <= fuel)%nat -> runs fuel buf.
Proof.
  induction fuel as [|f IH]; intros buf LB; [destruct buf; [apply runs_nil|cbn in LB; lia]|].
  destruct buf as [|x buf]; [apply runs_nil|].
  intros nd c1 lac updc c2 pf bb bc esc tr ed (OK & HL & HU & H2 & B & TB & UN & HB) ST. clear UN.
  destruct (byte_in x buf HB) as (Hx & HB').
  destruct (refresh_ok n2 Hn2 nd c1 lac updc 0 x OK HL HU) as (nd' & c1' & la' & RF & OK' & HL' & AG & CC).
  assert (C1' : 259 <= c1' < n2) by (destruct OK' as (kids & I); apply (di_c1 _ _ _ _ I)).
  assert (C1 : 259 <= c1 < n2) by (destruct OK as (kids & I); apply (di_c1 _ _ _ _ I)).
  assert (SP0 : spelled nd (x + 3) [x]).
  { destruct OK as (kids & I). destruct (di_root _ _ _ _ I x Hx). now constructor. }
  destruct (longest_ok n2 n7 Hn2 Hn7 nd nd' c1' la' buf OK' HL' AG HB' (x + 3) [x] SP0) as (m & v & rest & e & LO & SPL & SP & Hm & Nc & Nl & EN);
    [lia|lia|lia|unfold zlen; cbn [length]; lia|].
  cbn [app] in LO, SP, EN.
  assert (Nc1 : m <> c1) by (destruct CC; congruence).
  assert (HR : bytes rest). { rewrite SPL in HB'. apply Forall_app in HB'. apply HB'. }
  assert (LR : (length rest <= f)%nat). { rewrite SPL in LB. cbn [length] in LB. rewrite app_length in LB. lia. }
  assert (LV : zlen (x :: buf) = zlen (x :: v) + zlen rest). { rewrite SPL. unfold zlen. cbn [length]. rewrite app_length. lia. }
  assert (V1 : 1 <= zlen (x :: v)) by (unfold zlen; cbn [length]; lia).
  assert (W7 : zlen (x :: v) <= n7) by (destruct e; lia).
  (* the next octets, whatever mode: the decompressor comes to the end of the string *)
  assert (DTR : tr = true -> forall lad updd lmd str pfd dbb dbc F, lag tr nd c1 lac updc lad updd lmd str x ->
    dsteps (mkV (mkD nd c1 lad updd lmd) c2 (2 ^ c2) str pfd dbb dbc esc tr false) (esc_octets esc (x :: v) ++ F)
      (mkV (mkD nd' c1' la' 0 (match e with Full => 0 | _ => m end)) c2 (2 ^ c2) (match e with Full => [] | _ => x :: v end) pfd dbb dbc
           (esc_after esc (x :: v)) tr false) F (str ++ match e with Full => x :: v | _ => [] end)).
  { intros -> lad updd lmd str pfd dbb dbc F LG. cbn [esc_octets esc_after].
    replace (if x =? esc then x :: 1 :: esc_octets ((esc + 51) mod 256) v else x :: esc_octets esc v)
      with ((if x =? esc then [x; 1] else [x]) ++ esc_octets (if x =? esc then (esc + 51) mod 256 else esc) v)
      by (destruct (x =? esc); reflexivity).
    rewrite <- app_assoc. eapply dsteps_trans.
    - apply octet_step. apply (resolve_tr n2 n7 Hn7 nd c1 lac updc lad updd lmd str x c2 (2 ^ c2) pfd dbb dbc _ nd' c1' la' LG Hx RF HL').
    - apply (follow n2 n7 buf nd' c1' la' (x + 3) [x] c2 (2 ^ c2) pfd dbb dbc _ m v rest e F); [exact LO|exact SPL|unfold zlen; cbn [length]; lia]. }
  cbn [compress_loop]. cbv beta iota zeta delta [v_d]. rewrite RF. cbn [bind]. unfold set_d. cbn [v_d v_c2 v_c3 v_str v_perf v_bb v_bc v_esc v_tr v_escd].
  rewrite matching_longest. cbn [d_node d_la d_lm]. rewrite (longest_first n7 Hn7) by assumption. rewrite LO. cbn [bind].
  assert (MM : (if zlen (x :: v) =? n7 then 0 else m) = match e with Full => 0 | _ => m end).
  { destruct (zlen (x :: v) =? n7) eqn:E; destruct e; try reflexivity; lia. }
  (* a string that is sent and followed by others *)
  assert (SENT : forall lac2 updc2, (lac2 = 0 \/ 259 <= lac2) -> (updc2 = 0 \/ (3 <= updc2 < n2 /\ updc2 <> c1')) -> (rest = [] -> updc2 = 0) ->
    (match rest with [] => True | y :: _ => True ->
       lag tr nd' c1' lac2 updc2 la' (if tr then 0 else match e with Full => 0 | _ => m end)
         (if tr then match e with Full => 0 | _ => m end else 0) (if tr then match e with Full => [] | _ => x :: v end else []) y end) ->
    exists C' o p,
      (do r <- (do r <- send_encoded (mkV (mkD nd' c1' lac2 updc2 m) c2 (2 ^ c2) (x :: v) pf bb bc esc tr ed) m;
                let (s, o) := (r : vst * list Z) in Ok (set_d s (set_lm (v_d s) 0), o, rest));
       let '(s, o, rest) := (r : vst * list Z * list Z) in
       do r <- monitor s;
       let (s, p) := (r : vst * list Z) in
       do r <- compress_loop f n2 n7 s rest;
       let (s, q) := (r : vst * list Z) in Ok (s, o ++ p ++ q)) = Ok (C', o) /\
      compress_flush C' = Ok (Some p) /\
      8 * zlen (o ++ p) <= bc + 12 * (12 - c2) + 48 * zlen (x :: buf) + 24 /\
      fits bb bc (o ++ p) /\ good nd c1 lac updc c2 bc esc tr (x :: buf) (o ++ p)).
  { intros lac2 updc2 A1 A2 A3 LG2. specialize (IH rest LR). destruct tr.
    - rewrite (TB eq_refl) in *. pose proof (bits_zero _ _ B eq_refl) as ->.
      set (pf' := (pf + (c2 - pf * zlen (x :: v) * 8 / 2048)) mod 65536).
      destruct (change f rest nd' c1' lac2 updc2 c2 pf' 0 0 (esc_after esc (x :: v)) true ed IH) as (C3 & p0 & C' & o & p & G1 & G2 & G3 & G4 & G5 & G6).
      { exact (conj OK' (conj A1 (conj A2 (conj H2 (conj B (conj (fun _ => eq_refl) (conj A3 HR))))))). }
      exists C', (esc_octets esc (x :: v) ++ p0 ++ o), p.
      split. { unfold send_encoded. cbv beta iota zeta delta [v_tr v_str set_perf v_perf v_c2 set_esc v_esc v_d v_c3 v_bb v_bc v_escd set_str bind set_d set_lm d_node d_c1 d_la d_upd]. fold pf'.
        rewrite G1. cbv beta iota. rewrite G2. reflexivity. }
      split; [exact G3|]. rewrite <- !app_assoc. pose proof (esc_octets_length (x :: v) esc).
      split; [rewrite zlen_cat; lia|]. split; [left; split; reflexivity|].
      intros lad updd lmd str pfd dbb dbc r LG _ S. destruct S as [(_ & -> & -> & ->)|(S & _)]; [|lia].
      specialize (DTR eq_refl lad updd lmd str pfd 0 0 (p0 ++ o ++ p) LG).
      destruct (G6 la' 0 (match e with Full => 0 | _ => m end) (match e with Full => [] | _ => x :: v end) pfd 0 0 (p0 ++ o ++ p)) as (D' & out & DS & EQ).
      { destruct rest; [exact I|apply LG2; exact I]. } { reflexivity. } { discriminate. } { left; auto. }
      exists D', ((str ++ match e with Full => x :: v | _ => [] end) ++ out). split; [eapply dsteps_trans; [exact DTR|exact DS]|].
      rewrite <- app_assoc, EQ, SPL, <- app_assoc. f_equal. destruct e; reflexivity.
    - destruct (send_cw n2 n7 Hn2 (mkD nd' c1' lac2 updc2 m) (x :: v) pf esc ed c2 bb bc m ltac:(lia) B H2) as (o1 & c2' & bb' & bc' & pf' & S1 & S2 & S3 & S4 & S5 & S6).
      destruct (change f rest nd' c1' lac2 updc2 c2' pf' bb' bc' (esc_after esc (x :: v)) false ed IH) as (C3 & p0 & C' & o & p & G1 & G2 & G3 & G4 & G5 & G6).
      { refine (conj OK' (conj A1 (conj A2 (conj _ (conj S3 (conj _ (conj A3 HR))))))); [lia|discriminate]. }
      exists C', (o1 ++ p0 ++ o), p.
      split. { rewrite S1. cbv beta iota zeta delta [v_tr v_str set_perf v_perf v_c2 set_esc v_esc v_d v_c3 v_bb v_bc v_escd set_str bind set_d set_lm d_node d_c1 d_la d_upd].
        rewrite G1. cbv beta iota. rewrite G2. reflexivity. }
      split; [exact G3|]. rewrite <- !app_assoc. split; [rewrite zlen_cat; lia|]. split; [apply S5|].
      intros lad updd lmd str pfd dbb dbc r LG SN S. rewrite (SN eq_refl) in *. clear SN.
      destruct (S6 (mkD nd c1 lad updd lmd) pfd dbb dbc (p0 ++ o ++ p) r esc G5 S) as (b & n & r' & ST' & CW).
      specialize (CW _ _ (resolve_cw n2 n7 Hn7 nd c1 lac updc lad updd lmd x v c2' (2 ^ c2') pfd b n esc nd' c1' la' m LG RF SP Nc1 Nc W7)).
      rewrite MM in CW.
      destruct (G6 la' (match e with Full => 0 | _ => m end) 0 [] pfd b n r') as (D' & out & DS & EQ).
      { destruct rest; [exact I|apply LG2; exact I]. } { discriminate. } { reflexivity. } { exact ST'. }
      exists D', ((x :: v) ++ out). split; [eapply dsteps_trans; [exact CW|exact DS]|].
      rewrite <- app_assoc, EQ, SPL. reflexivity. }
  destruct e.
  4: { clear SENT MM. (* the end of the octets *)
    destruct EN as (-> & LW). cbn [bind]. rewrite app_nil_r in SPL. subst buf.
    unfold set_lm. cbn [d_node d_la d_lm d_c1 d_upd].
    assert (MO : monitor (mkV (mkD nd' c1' la' 0 m) c2 (2 ^ c2) (x :: v) pf bb bc esc tr ed) = Ok (mkV (mkD nd' c1' la' 0 m) c2 (2 ^ c2) (x :: v) pf bb bc esc tr ed, [])).
    { unfold monitor. vcb. unfold stable in ST. destruct tr; [destruct (pf <? 2048 - 11) eqn:E; [lia|reflexivity]|destruct (2048 <? pf) eqn:E; [lia|reflexivity]]. }
    rewrite MO. cbn [bind].
    assert (CL : forall s, compress_loop f n2 n7 s [] = Ok (s, [])) by (intros; destruct f; reflexivity). rewrite CL. cbn [bind app].
    unfold compress_flush. 
    destruct tr.
    - rewrite (TB eq_refl) in *. pose proof (bits_zero _ _ B eq_refl) as ->.
      exists (mkV (mkD nd' c1' la' 0 m) c2 (2 ^ c2) (x :: v) pf 0 0 esc true ed), [], (esc_octets esc (x :: v)).
      split; [reflexivity|]. split. { vcb. change (0 =? 0) with true. cbv iota. destruct (m =? 0) eqn:E; [lia|]. reflexivity. }
      cbn [app]. pose proof (esc_octets_length (x :: v) esc). split; [lia|]. split; [left; split; reflexivity|].
      intros lad updd lmd str pfd dbb dbc r LG _ S. destruct S as [(_ & -> & -> & ->)|(S & _)]; [|lia].
      specialize (DTR eq_refl lad updd lmd str pfd 0 0 [] LG). rewrite !app_nil_r in DTR.
      eexists; eexists; split; [exact DTR|]. reflexivity.
    - destruct (send_cw n2 n7 Hn2 (mkD nd' c1' la' 0 m) (x :: v) pf esc ed c2 bb bc m ltac:(lia) B H2) as (o & c2' & bb' & bc' & pf' & S1 & S2 & S3 & S4 & S5 & S6).
      destruct (aligned (mkD nd' c1' la' 0 m) c2' pf' (esc_after esc (x :: v)) false ed [] bb' bc' 1 S3 ltac:(lia) ltac:(lia)) as (p & q & E0 & E1 & E2 & L & FT & DS).
      exists (mkV (mkD nd' c1' la' 0 m) c2 (2 ^ c2) (x :: v) pf bb bc esc false ed), [], (o ++ p ++ q).
      split; [reflexivity|]. split.
      { cbv beta iota zeta delta [v_d d_upd d_lm negb]. change (0 =? 0) with true. cbv iota. destruct (m =? 0) eqn:E; [lia|]. rewrite S1. cbn [bind v_tr]. rewrite E1, E2. reflexivity. }
      cbn [app]. split; [rewrite zlen_cat; lia|]. split; [apply S5|].
      intros lad updd lmd str pfd dbb dbc r LG SN S. rewrite (SN eq_refl) in *. clear SN.
      assert (FP : fits bb' bc' (p ++ q)) by (rewrite <- (app_nil_r (p ++ q)); apply FT).
      destruct (S6 (mkD nd c1 lad updd lmd) pfd dbb dbc (p ++ q) r esc FP S) as (b & n & r' & ST' & CW).
      specialize (CW _ _ (resolve_cw n2 n7 Hn7 nd c1 lac updc lad updd lmd x v c2' (2 ^ c2') pfd b n esc nd' c1' la' m LG RF SP Nc1 Nc W7)).
      rewrite <- (app_nil_r (p ++ q)) in ST'.
      destruct (DS (mkD nd' c1' la' (if zlen (x :: v) =? n7 then 0 else m) 0) pfd (esc_after esc (x :: v)) b n [] r' ST') as (n' & N & LE & D).
      eexists; eexists; split; [eapply dsteps_trans; [exact CW|apply ds_one; [exact N| |exact LE]; rewrite D; reflexivity]|].
      cbn [v_str set_bits]. rewrite !app_nil_r. reflexivity. }
  - destruct EN as (LW & y & q & -> & M). unfold set_upd, set_lm. cbn [d_node d_la d_lm d_c1 d_upd].
    apply (SENT la' m HL'); [right; split; [lia|exact Nc]|discriminate|].
    intros _. right; left. split; [lia|]. split; [exact Nc|]. split; [exact M|]. destruct tr; [right|left]; auto.
  - destruct EN as (LW & NL & y & q & -> & M). unfold set_la, set_lm. cbn [d_node d_la d_lm d_c1 d_upd].
    apply (SENT 0 0); [now left|now left|reflexivity|].
    intros _. right; right. split; [reflexivity|]. split; [reflexivity|]. exists m, la'. split; [lia|]. split; [exact M|]. split; [exact NL|].
    destruct tr; [split; [right; auto|right; auto]|split; [left; auto|right; split; [reflexivity|discriminate]]].
  - unfold set_lm. cbn [d_node d_la d_lm d_c1 d_upd]. apply (SENT la' 0 HL'); [now left|reflexivity|].
    destruct rest as [|y q]; [exact I|]. intros _. left. destruct tr; auto.
Qed.

Theorem lossless data : bytes data ->
  exists o, compress n2 n7 data = Ok o /\ decompress n2 n7 o = Ok data /\ 8 * zlen o <= 48 * zlen data + 60.
Proof.
  intros HB. destruct (runs_all (length data) data (le_n _) dict0 259 0 0 9 2048 0 0 0 true false) as (C' & o & p & G1 & G2 & G3 & G4 & G5).
  { refine (conj (dict0_ok n2 Hn2) (conj (or_introl eq_refl) (conj (or_introl eq_refl) (conj _ (conj _ (conj (fun _ => eq_refl) (conj (fun _ => eq_refl) HB)))))));
    [lia|split; [lia|change (2 ^ 0) with 1; lia]]. }
  { unfold stable. lia. }
  change (mkV (mkD dict0 259 0 0 0) 9 (2 ^ 9) [] 2048 0 0 0 true false) with init in G1.
  exists (o ++ p). split; [unfold compress; rewrite G1; cbn [bind]; rewrite G2; reflexivity|].
  split; [|lia].
  destruct (G5 0 0 0 [] 2048 0 0 (o ++ p)) as (D' & out & DS & EQ).
  { destruct data; [exact I|]. left. auto. } { reflexivity. } { left. auto. }
  change (mkV (mkD dict0 259 0 0 0) 9 (2 ^ 9) [] 2048 0 0 0 true false) with init in DS.
  unfold decompress. rewrite (dsteps_loop n2 n7 _ _ _ _ _ DS eq_refl _ (le_n _)). cbn [bind]. rewrite EQ. reflexivity.
Qed.
End Main.
