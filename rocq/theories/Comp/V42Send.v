(** What the compressor sends for one string, and what the decompressor makes of it. *)
From Verif.Lib Require Import Base Outcome.
From Verif.Comp Require Import V42Model V42Dict V42Bits V42Sync.

Section Send.
Variables n2 n7 : Z.
Hypothesis Hn2 : 512 <= n2 <= 4096.
Hypothesis Hn7 : 6 <= n7 <= 250.
Notation dsteps := (dsteps n2 n7).

Definition bits_ok (bb bc : Z) : Prop := 0 <= bc < 8 /\ 0 <= bb < 2 ^ bc.

(** The rest of a turn once the code is there. *)
Definition after_code (s : vst) (code : Z) (rest : list Z) : res (vst * list Z * list Z) :=
  if code =? 0 then
    Ok (set_tr (set_d (set_bits s (v_bb s) 0) (set_la (set_lm (v_d s) 0) 0)) true, rest, [])
  else if code =? 1 then Ok (set_bits s (v_bb s) 0, rest, [])
  else if code =? 2 then
    let s := set_width s (v_c2 s + 1) ((v_c3 s * 2) mod 65536) in
    if Z.shiftr n2 3 <? v_c2 s then Err EINVAL else Ok (s, rest, [])
  else
    do r <- codeword n2 n7 s code;
    let (s, o) := (r : vst * list Z) in Ok (s, rest, o).

Lemma fill_shorter c2 : forall r bb bc V n r', fill c2 bb bc r = Ok (V, n, r') -> (length r' <= length r)%nat.
Proof.
  induction r as [|x r IH]; intros bb bc V n r' H; cbn [fill] in H.
  - destruct (c2 <=? bc); injection H as _ _ <-; lia.
  - destruct (c2 <=? bc); [injection H as _ _ <-; lia|]. unfold need in H. destruct (bc <? 24); [|discriminate].
    apply IH in H. cbn. lia.
Qed.

Lemma read_code kd c2 c3 w pf esc bb bc code dbb dbc F r : bits_ok bb bc -> 9 <= c2 <= 12 -> 0 <= code < 2 ^ c2 ->
  start bc dbb dbc (fst (packed bb bc c2 code) ++ F) r ->
  fits (snd (packed bb bc c2 code)) ((bc + c2) mod 8) F ->
  exists b k r', start ((bc + c2) mod 8) b k F r' /\ r <> [] /\ (length r' < length r)%nat /\
    dec_step n2 n7 (mkV kd c2 c3 w pf dbb dbc esc false false) r =
    after_code (mkV kd c2 c3 w pf b k esc false false) code r'.
Proof.
  intros (H1 & H2) H3 H4 S FT. destruct (unpack bb bc c2 code dbb dbc F r H1 H3 H2 H4 S FT) as (V & n & r' & E & L & M & S' & N).
  exists (V / 2 ^ c2), (n - c2), r'. split; [exact S'|]. split; [exact N|]. destruct r as [|x r]; [congruence|].
  assert (DB : dbc < 8) by (destruct S as [(? & ? & ? & ?)|(? & f & ? & ? & ? & ?)]; lia).
  split.
  - cbn [fill] in E. destruct (c2 <=? dbc) eqn:E1; [lia|]. unfold need in E. destruct (dbc <? 24) eqn:E2; [|lia].
    apply fill_shorter in E. cbn. lia.
  - unfold dec_step. cbv beta iota zeta delta [v_tr v_c2 v_bb v_bc]. rewrite E. cbn [bind].
    destruct (n <? c2) eqn:E1; [lia|]. unfold need. destruct (c2 <? 31) eqn:E2; [|lia].
    assert (C : Z.land V (Z.shiftl 1 c2 - 1) mod 65536 = code).
    { replace (Z.shiftl 1 c2 - 1) with (Z.ones c2) by (unfold Z.ones; lia). rewrite Z.land_ones by lia. rewrite M.
      apply Z.mod_small. split; [lia|]. apply Z.lt_le_trans with (2 ^ c2); [lia|]. change 65536 with (2 ^ 16). apply Z.pow_le_mono_r; lia. }
    rewrite C. rewrite Z.shiftr_div_pow2 by lia. reflexivity.
Qed.

Lemma packed_ok bb bc c2 code : bits_ok bb bc -> 9 <= c2 <= 12 -> 0 <= code < 2 ^ c2 ->
  bits_ok (snd (packed bb bc c2 code)) ((bc + c2) mod 8) /\ 8 * zlen (fst (packed bb bc c2 code)) + (bc + c2) mod 8 = bc + c2.
Proof.
  intros (H1 & H2) H3 H4. destruct (packed_eq bb bc c2 code H1 H3 H2 H4) as (E & B & _). rewrite E.
  set (X := bb + code * 2 ^ bc) in *. assert (D : (bc + c2) / 8 = 1 \/ (bc + c2) / 8 = 2) by lia.
  split; [split; [apply Z.mod_pos_bound; lia|]|].
  - destruct ((bc + c2) / 8 =? 1); cbn [snd]; exact B.
  - destruct ((bc + c2) / 8 =? 1) eqn:E1; cbn [fst]; unfold zlen; cbn [length]; lia.
Qed.

Lemma pow_range c2 : 9 <= c2 <= 12 -> 512 <= 2 ^ c2 <= 4096.
Proof. intros H. assert (c2 = 9 \/ c2 = 10 \/ c2 = 11 \/ c2 = 12) as [->|[->|[->| ->]]] by lia; cbn; lia. Qed.

Lemma step_up_ok k w pf esc ed code : 3 <= code < 4096 -> forall fuel c2 bb bc, bits_ok bb bc -> 9 <= c2 <= 12 -> 12 - c2 < Z.of_nat fuel ->
  exists o c2' bb' bc',
    step_up fuel (mkV k c2 (2 ^ c2) w pf bb bc esc false ed) code = Ok (mkV k c2' (2 ^ c2') w pf bb' bc' esc false ed, o) /\
    c2 <= c2' <= 12 /\ code < 2 ^ c2' /\ bits_ok bb' bc' /\ 8 * zlen o + bc' <= bc + 12 * (c2' - c2) /\
    (forall F, fits bb' bc' F -> fits bb bc (o ++ F)) /\
    (forall kd pfd dbb dbc F r, fits bb' bc' F -> start bc dbb dbc (o ++ F) r ->
       exists b n r', start bc' b n F r' /\
         dsteps (mkV kd c2 (2 ^ c2) [] pfd dbb dbc esc false false) r (mkV kd c2' (2 ^ c2') [] pfd b n esc false false) r' []).
Proof.
  intros Hc. induction fuel as [|f IH]; intros c2 bb bc B H L; [lia|]. cbn [step_up]. cbv beta iota zeta delta [v_c3].
  destruct (code <? 2 ^ c2) eqn:E.
  - exists [], c2, bb, bc. split; [reflexivity|]. split; [lia|]. split; [lia|]. split; [exact B|]. split; [unfold zlen; cbn [length]; lia|].
    split; [intros F HF; exact HF|]. intros kd pfd dbb dbc F r HF HS. exists dbb, dbc, r. split; [exact HS|constructor].
  - assert (H12 : c2 < 12).
    { destruct (Z.eq_dec c2 12) as [->|N]; [|lia]. change (2 ^ 12) with 4096 in E. lia. }
    pose proof (pow_range c2 H) as PR.
    rewrite push_code_packed. vcb.
    assert (P3 : (2 ^ c2 * 2) mod 65536 = 2 ^ (c2 + 1)).
    { rewrite Z.pow_add_r by lia. change (2 ^ 1) with 2. apply Z.mod_small. lia. }
    rewrite P3. destruct (packed_ok bb bc c2 2 B H) as (B' & Z'); [lia|].
    destruct (IH (c2 + 1) (snd (packed bb bc c2 2)) ((bc + c2) mod 8) B') as (o & c2' & bb' & bc' & E1 & G1 & G2 & G3 & G4 & G5 & G6); [lia|lia|].
    change (let (_, y) := packed bb bc c2 2 in y) with (snd (packed bb bc c2 2)). rewrite E1.
    change (let (x, _) := packed bb bc c2 2 in x) with (fst (packed bb bc c2 2)).
    exists (fst (packed bb bc c2 2) ++ o), c2', bb', bc'. split; [reflexivity|]. split; [lia|]. split; [lia|]. split; [exact G3|].
    split; [unfold zlen in *; rewrite app_length; lia|]. split.
    + intros F HF. rewrite <- app_assoc. destruct B. apply fits_packed; lia.
    + intros kd pfd dbb dbc F r HF HS. rewrite <- app_assoc in HS.
      destruct (read_code kd c2 (2 ^ c2) [] pfd esc bb bc 2 dbb dbc (o ++ F) r B H) as (b & n & r' & S' & N & LE & DS); [lia|exact HS|apply G5, HF|].
      destruct (G6 kd pfd b n F r' HF S') as (b2 & n2' & r2 & S2 & D2). exists b2, n2', r2. split; [exact S2|].
      change (@nil Z) with (@nil Z ++ []) at 3. eapply ds_step; [exact N| |exact LE|exact D2].
      rewrite DS. unfold after_code. cbn [Z.eqb]. vcb. rewrite P3. 
      assert (SH : Z.shiftr n2 3 <? c2 + 1 = false). { rewrite Z.shiftr_div_pow2 by lia. change (2 ^ 3) with 8. lia. }
      rewrite SH. reflexivity.
Qed.

(** One string in compressed mode. *)
Lemma send_cw k w pf esc ed c2 bb bc m : 3 <= m < 4096 -> bits_ok bb bc -> 9 <= c2 <= 12 ->
  exists o c2' bb' bc' pf',
    send_encoded (mkV k c2 (2 ^ c2) w pf bb bc esc false ed) m = Ok (mkV k c2' (2 ^ c2') [] pf' bb' bc' (esc_after esc w) false ed, o) /\
    c2 <= c2' <= 12 /\ bits_ok bb' bc' /\ 8 * zlen o + bc' <= bc + 12 * (c2' - c2) + 12 /\
    (forall F, fits bb bc (o ++ F)) /\
    (forall kd pfd dbb dbc F r e0, fits bb' bc' F -> start bc dbb dbc (o ++ F) r ->
       exists b n r', start bc' b n F r' /\
         forall D' out, codeword n2 n7 (mkV kd c2' (2 ^ c2') [] pfd b n e0 false false) m = Ok (D', out) ->
         dsteps (mkV kd c2 (2 ^ c2) [] pfd dbb dbc e0 false false) r D' r' out).
Proof.
  intros Hm B H. set (pf' := (pf + (c2 - pf * zlen w * 8 / 2048)) mod 65536).
  pose proof (fun e => step_up_ok k w pf' e ed m Hm 16 c2 bb bc B H ltac:(lia)) as SU.
  destruct (SU (esc_after esc w)) as (o & c2' & bb' & bc' & E & G1 & G2 & G3 & G4 & G5 & G6). 
  destruct (packed_ok bb' bc' c2' m G3) as (B' & Z'); [lia|lia|].
  exists (o ++ fst (packed bb' bc' c2' m)), c2', (snd (packed bb' bc' c2' m)), ((bc' + c2') mod 8), pf'.
  split.
  { unfold send_encoded. cbv beta iota zeta delta [v_tr v_str set_perf v_perf v_c2 set_esc v_esc v_d v_c3 v_bb v_bc v_escd]. fold pf'.
    rewrite E. cbn [bind]. rewrite push_code_packed. reflexivity. }
  split; [lia|]. split; [exact B'|]. split; [unfold zlen in *; rewrite app_length; lia|].
  assert (FP : forall F, fits bb' bc' (fst (packed bb' bc' c2' m) ++ F)) by (intros F; destruct G3; apply fits_packed; lia).
  split; [intros F; rewrite <- app_assoc; apply G5, FP|].
  intros kd pfd dbb dbc F r e0 HF HS.
  destruct (SU e0) as (o2 & c2'2 & bb'2 & bc'2 & E2 & _ & _ & _ & _ & _ & G62).
  assert (SAME : o2 = o /\ c2'2 = c2' /\ bb'2 = bb' /\ bc'2 = bc').
  { clear - E E2. revert E E2. generalize (esc_after esc w) as e1. intros e1.
    assert (Q : forall fuel a2 a3 b0 b1, 
      match step_up fuel (mkV k a2 a3 w pf' b0 b1 e1 false ed) m, step_up fuel (mkV k a2 a3 w pf' b0 b1 e0 false ed) m with
      | Ok (s, p), Ok (t, q) => p = q /\ v_c2 s = v_c2 t /\ v_bb s = v_bb t /\ v_bc s = v_bc t | _, _ => True end).
    { induction fuel as [|f IH]; intros a2 a3 b0 b1; cbn [step_up]; cbv beta iota zeta delta [v_c3].
      - destruct (m <? a3); [|exact I]. auto.
      - destruct (m <? a3); [auto|]. rewrite !push_code_packed. vcb.
        specialize (IH (a2 + 1) ((a3 * 2) mod 65536) (snd (packed b0 b1 a2 2)) ((b1 + a2) mod 8)).
        change (let (_, y) := packed b0 b1 a2 2 in y) with (snd (packed b0 b1 a2 2)).
        destruct (step_up f _ m) as [[s p]|?|]; [|exact I|exact I].
        destruct (step_up f _ m) as [[t q]|?|]; [|exact I|exact I]. vcb. destruct IH as (-> & IH). split; [reflexivity|exact IH]. }
    intros E E2. specialize (Q 16%nat c2 (2 ^ c2) bb bc). rewrite E, E2 in Q. cbn [v_c2 v_bb v_bc] in Q. intuition congruence. }
  destruct SAME as (-> & -> & -> & ->). rewrite <- app_assoc in HS.
  destruct (G62 kd pfd dbb dbc _ r (FP F) HS) as (b & n & r1 & S1 & D1).
  destruct (read_code kd c2' (2 ^ c2') [] pfd e0 bb' bc' m b n F r1 G3) as (b2 & nn & r' & S' & N & LE & DS); [lia|lia|exact S1|exact HF|].
  exists b2, nn, r'. split; [exact S'|]. intros D' out CW. change out with ([] ++ out). eapply dsteps_trans; [exact D1|].
  apply ds_one; [exact N| |exact LE]. rewrite DS. unfold after_code.
  destruct (m =? 0) eqn:Q0; [lia|]. destruct (m =? 1) eqn:Q1; [lia|]. destruct (m =? 2) eqn:Q2; [lia|]. rewrite CW. reflexivity.
Qed.

(** Where the two are between two strings: the decompressor has yet to see the octet [x] that ends its string. *)
Definition pend (tr : bool) (m updd lmd : Z) (str : list Z) : Prop :=
  (updd = m /\ lmd = 0 /\ str = []) \/ (tr = true /\ updd = 0 /\ lmd = m).
Definition lag (tr : bool) (nd : Z -> node) (c1 lac updc lad updd lmd : Z) (str : list Z) (x : Z) : Prop :=
  (updc = 0 /\ updd = 0 /\ lmd = 0 /\ lac = lad /\ str = []) \/
  (3 <= updc < n2 /\ updc <> c1 /\ match_octet nd updc x = Ok 0 /\ pend tr updc updd lmd str) \/
  (updc = 0 /\ lac = 0 /\ exists m e, 3 <= m < n2 /\ match_octet nd m x = Ok e /\ e <> 0 /\ pend tr m updd lmd str /\
     ((lad = 0 /\ updd = m) \/ (lad = e /\ (tr = true -> lmd = m)))).

Lemma refresh_ok nd c1 la upd lm x : dok n2 nd c1 -> (la = 0 \/ 259 <= la) -> (upd = 0 \/ (3 <= upd < n2 /\ upd <> c1)) ->
  exists nd' c1' la', refresh n2 (mkD nd c1 la upd lm) x = Ok (mkD nd' c1' la' 0 lm) /\ dok n2 nd' c1' /\ (la' = 0 \/ 259 <= la') /\
    (forall e, e <> la' -> n_par (nd' e) = n_par (nd e) /\ n_oct (nd' e) = n_oct (nd e)) /\
    (c1 = c1' \/ c1 = la').
Proof.
  intros OK HL HU. unfold refresh. vcb. destruct (upd =? 0) eqn:E.
  - assert (upd = 0) by lia. subst upd. exists nd, c1, la. repeat split; auto.
  - destruct HU as [->|(HU & NU)]; [lia|]. destruct (match_ok n2 nd c1 upd x OK) as (r & R & Q); [lia|]. rewrite R.
    destruct (r =? 0) eqn:E0.
    + destruct (add_ok n2 nd c1 upd x OK ltac:(lia) NU) as (d' & c1' & A & OK' & AG & _). rewrite A.
      exists d', c1', c1. split; [reflexivity|]. split; [exact OK'|]. split; [destruct OK as (kids & I); pose proof (di_c1 _ _ _ _ I); lia|].
      split; [exact AG|now right].
    + exists nd, c1, la. repeat split; auto.
Qed.

Lemma resolve_tr nd c1 lac updc lad updd lmd str x c2 c3 pf bb bc esc nd' c1' la' :
  lag true nd c1 lac updc lad updd lmd str x -> 0 <= x < 256 ->
  refresh n2 (mkD nd c1 lac updc 0) x = Ok (mkD nd' c1' la' 0 0) -> (la' = 0 \/ 259 <= la') ->
  two_tries n2 n7 (mkV (mkD nd c1 lad updd lmd) c2 c3 str pf bb bc esc true false) x =
  Ok (mkV (mkD nd' c1' la' 0 (x + 3)) c2 c3 [x] pf bb bc esc true false, str, true).
Proof.
  intros LG Hx RF HL.
  assert (X0 : (x + 3 =? 0) = false) by lia. assert (XL : (x + 3 =? la') = false) by lia. assert (XZ : (x + 3 =? 0) = false) by lia.
  assert (W1 : (zlen (@nil Z) <? 250) = true) by reflexivity.
  assert (W2 : (zlen [x] =? n7) = false) by (unfold zlen; cbn [length]; lia).
  unfold refresh in RF. revert RF. vcb. intros RF.
  destruct LG as [(-> & -> & -> & -> & ->)|[(HU & NU & M & P)|(-> & -> & m & e & Hm & M & Ne & P & LA)]].
  - injection RF as <- <- <-. unfold two_tries, one_try, refresh. vcb. rewrite match_root. vcb. cbn [Z.eqb]. cbv iota. rewrite match_root. vcb. rewrite X0, XL. unfold need. rewrite W1. cbn [app]. rewrite W2. reflexivity.
  - assert (U0 : (updc =? 0) = false) by lia. rewrite U0, M in RF. change (0 =? 0) with true in RF. cbv iota in RF.
    destruct (add_octet n2 nd c1 updc x) as [[d2 c12]|?|] eqn:A; cbv beta iota in RF; try discriminate RF. injection RF as <- <- <-.
    destruct P as [(-> & -> & ->)|(_ & -> & ->)]; unfold two_tries, one_try, refresh; vcb.
    + rewrite U0, M. change (0 =? 0) with true. cbv iota. rewrite A. vcb. rewrite match_root. vcb. rewrite X0, XL. unfold need. rewrite W1. cbn [app]. rewrite W2. reflexivity.
    + change (0 =? 0) with true. cbv iota. rewrite M. vcb. change (0 =? 0) with true. cbv iota. vcb. rewrite U0, M. change (0 =? 0) with true. cbv iota. rewrite A. vcb.
      rewrite match_root. vcb. rewrite X0, XL. unfold need. rewrite W1. cbn [app]. rewrite W2. vcb. rewrite app_nil_r. reflexivity.
  - injection RF as <- <- <-. assert (E0 : (e =? 0) = false) by lia. assert (M0 : (m =? 0) = false) by lia.
    destruct P as [(-> & -> & ->)|(_ & -> & ->)]; unfold two_tries, one_try, refresh; vcb.
    + destruct LA as [(-> & _)|(_ & LA)]; [|specialize (LA eq_refl); lia].
      rewrite M0, M. cbv iota. rewrite E0. vcb. rewrite match_root. vcb. rewrite X0. unfold need. rewrite W1. cbn [app]. rewrite W2. reflexivity.
    + destruct LA as [(-> & LA)|(-> & _)]; [lia|]. change (0 =? 0) with true. cbv iota. rewrite M. vcb. rewrite E0, Z.eqb_refl. vcb.
      change (0 =? 0) with true. cbv iota. rewrite match_root. vcb. rewrite X0. unfold need. rewrite W1. cbn [app]. rewrite W2. vcb. rewrite app_nil_r. reflexivity.
Qed.

Lemma resolve_cw nd c1 lac updc lad updd lmd x v c2 c3 pf bb bc esc nd' c1' la' m :
  lag false nd c1 lac updc lad updd lmd [] x ->
  refresh n2 (mkD nd c1 lac updc 0) x = Ok (mkD nd' c1' la' 0 0) ->
  spelled nd m (x :: v) -> m <> c1 -> m <> c1' -> zlen (x :: v) <= n7 ->
  codeword n2 n7 (mkV (mkD nd c1 lad updd lmd) c2 c3 [] pf bb bc esc false false) m =
  Ok (mkV (mkD nd' c1' la' (if zlen (x :: v) =? n7 then 0 else m) 0) c2 c3 [] pf bb bc (esc_after esc (x :: v)) false false, x :: v).
Proof.
  intros LG RF SP N1 N2 L. unfold codeword. vcb. destruct (m =? c1) eqn:E1; [lia|].
  rewrite (spelled_out nd m (x :: v) SP) by (unfold zlen in L; lia). vcb. cbn [app]. unfold need.
  destruct (zlen (x :: v) <=? 250) eqn:E2; [|lia]. cbn [nth].
  unfold refresh in RF. revert RF. vcb. intros RF.
  destruct LG as [(-> & -> & -> & -> & _)|[(HU & NU & M & P)|(-> & -> & m' & e & Hm & M & Ne & P & LA)]].
  - injection RF as <- <- <-. reflexivity.
  - assert (U0 : (updc =? 0) = false) by lia. rewrite U0, M in RF. change (0 =? 0) with true in RF. cbv iota in RF.
    destruct (add_octet n2 nd c1 updc x) as [[d2 c12]|?|] eqn:A; cbv beta iota in RF; try discriminate RF. injection RF as <- <- <-.
    destruct P as [(-> & -> & _)|(P & _)]; [|discriminate P]. rewrite U0, M. change (0 =? 0) with true. cbv iota. rewrite A. vcb.
    destruct (m =? c12) eqn:E3; [lia|]. reflexivity.
  - injection RF as <- <- <-. assert (E0 : (e =? 0) = false) by lia. assert (M0 : (m' =? 0) = false) by lia.
    destruct P as [(-> & -> & _)|(P & _)]; [|discriminate P]. rewrite M0, M. cbv iota. rewrite E0.
    destruct LA as [(-> & _)|(-> & _)]; [rewrite E0|rewrite Z.eqb_refl]; reflexivity.
Qed.
End Send.
