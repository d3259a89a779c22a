(** Compressor and decompressor in step. *)
From Verif.Lib Require Import Base Outcome.
From Verif.Comp Require Import V42Model V42Dict V42Bits.

Ltac vcb := cbv beta iota zeta delta [set_d set_str set_esc set_escd set_tr set_perf set_bits set_width set_la set_upd set_lm
  v_d v_c2 v_c3 v_str v_perf v_bb v_bc v_esc v_tr v_escd d_node d_c1 d_la d_upd d_lm bind fst snd negb].

Section Sync.
Variables n2 n7 : Z.
Hypothesis Hn2 : 512 <= n2 <= 4096.
Hypothesis Hn7 : 6 <= n7 <= 250.

(** Turns of the loop of the decompressor. *)
Inductive dsteps : vst -> list Z -> vst -> list Z -> list Z -> Prop :=
| ds_nil s r : dsteps s r s r []
| ds_step s r s1 r1 o s2 r2 p : r <> [] -> dec_step n2 n7 s r = Ok (s1, r1, o) -> (length r1 < length r)%nat ->
    dsteps s1 r1 s2 r2 p -> dsteps s r s2 r2 (o ++ p).

Lemma dsteps_trans s r s1 r1 o s2 r2 p : dsteps s r s1 r1 o -> dsteps s1 r1 s2 r2 p -> dsteps s r s2 r2 (o ++ p).
Proof.
  induction 1 as [|? ? ? ? ? ? ? ? N E L H IH]; intros Q; [exact Q|]. rewrite <- app_assoc. eapply ds_step; eauto.
Qed.
Lemma ds_one s r s1 r1 o : r <> [] -> dec_step n2 n7 s r = Ok (s1, r1, o) -> (length r1 < length r)%nat -> dsteps s r s1 r1 o.
Proof. intros N E L. rewrite <- (app_nil_r o). eapply ds_step; eauto. constructor. Qed.

Lemma dsteps_loop s r s' r' o : dsteps s r s' r' o -> r' = [] -> forall fuel, (length r <= fuel)%nat ->
  dec_loop fuel n2 n7 s r = Ok (s', o).
Proof.
  induction 1 as [|s r s1 r1 o s2 r2 p N E L H IH]; intros -> fuel Hf.
  - destruct fuel; reflexivity.
  - destruct r as [|x r]; [congruence|]. destruct fuel as [|f]; [cbn in Hf; lia|]. cbn [dec_loop]. rewrite E. cbn [bind].
    rewrite (IH eq_refl f) by (cbn in Hf, L; lia). reflexivity.
Qed.

Inductive ending := Miss | Hit | Full | Over.

(** The search of [matching] without what is sent. *)
Fixpoint longest (d : Z -> node) (la lm : Z) (w buf : list Z) {struct buf} : res (Z * list Z * list Z * ending) :=
  match buf with
  | [] => Ok (lm, w, [], Over)
  | x :: rest =>
    do code <- match_octet d lm x;
    if code =? 0 then Ok (lm, w, buf, Miss)
    else if code =? la then Ok (lm, w, buf, Hit)
    else need (zlen w <? 250)
      (if zlen (w ++ [x]) =? n7 then Ok (code, w ++ [x], rest, Full) else longest d la code (w ++ [x]) rest)
  end.

Lemma matching_longest buf : forall k c2 c3 w pf bb bc esc tr ed,
  matching n7 (mkV k c2 c3 w pf bb bc esc tr ed) buf =
  do r <- longest (d_node k) (d_la k) (d_lm k) w buf;
  let '(m, w', rest, e) := (r : Z * list Z * list Z * ending) in
  match e with
  | Over => Ok (mkV (set_lm k m) c2 c3 w' pf bb bc esc tr ed, [], rest)
  | _ =>
    do r <- send_encoded (mkV (match e with Miss => set_upd (set_lm k m) m | Hit => set_la (set_lm k m) 0 | _ => set_lm k m end)
                              c2 c3 w' pf bb bc esc tr ed) m;
    let (s, o) := (r : vst * list Z) in Ok (set_d s (set_lm (v_d s) 0), o, rest)
  end.
Proof.
  induction buf as [|x rest IH]; intros k c2 c3 w pf bb bc esc tr ed.
  - cbn [matching longest bind]. destruct k; reflexivity.
  - cbn [matching longest v_d v_str]. destruct (match_octet (d_node k) (d_lm k) x) as [code|e|]; cbn [bind]; [|reflexivity|reflexivity].
    destruct (code =? 0). { cbn [bind set_d]. destruct k; reflexivity. }
    destruct (code =? d_la k). { cbn [bind set_d]. destruct k; reflexivity. }
    unfold need. destruct (zlen w <? 250); [|reflexivity].
    cbv zeta. unfold set_str, set_d, set_lm. cbn [v_d v_str v_c2 v_c3 v_perf v_bb v_bc v_esc v_tr v_escd].
    destruct (zlen (w ++ [x]) =? n7); [reflexivity|].
    rewrite IH. cbn [set_lm d_node d_la d_lm d_c1 d_upd]. reflexivity.
Qed.

Lemma byte_in x l : bytes (x :: l) -> 0 <= x < 256 /\ bytes l.
Proof. intros H. inversion H; subst. split; [assumption|assumption]. Qed.

(** Spelled by the entries of the dictionary, without the entry [la]. *)
Inductive spelled (d : Z -> node) : Z -> list Z -> Prop :=
| sp_root x : 0 <= x < 256 -> n_par (d (x + 3)) = 0 -> n_oct (d (x + 3)) = x -> spelled d (x + 3) [x]
| sp_kid e w : 0 < e < 4096 -> spelled d (n_par (d e)) w -> spelled d e (w ++ [n_oct (d e)]).

Lemma spelled_out d m w : spelled d m w -> forall fuel, (length w <= fuel)%nat -> spell_out fuel d m = Ok w.
Proof.
  induction 1 as [x Hx P O|e w He H IH]; intros fuel L.
  - destruct fuel as [|f]; [cbn in L; lia|]. cbn [spell_out]. destruct (x + 3 =? 0) eqn:E; [lia|]. unfold need.
    destruct (x + 3 <? 4096) eqn:E2; [|lia]. rewrite P. destruct f; cbn [spell_out Z.eqb bind app]; rewrite O; reflexivity.
  - rewrite app_length in L. destruct fuel as [|f]; [cbn in L; lia|]. cbn [spell_out]. destruct (e =? 0) eqn:E; [lia|]. unfold need.
    destruct (e <? 4096) eqn:E2; [|lia]. rewrite IH by (cbn in L; lia). reflexivity.
Qed.

(** What the search finds. *)
Lemma longest_ok d0 d c1 la buf : dok n2 d c1 -> (la = 0 \/ 259 <= la) ->
  (forall e, e <> la -> n_par (d e) = n_par (d0 e) /\ n_oct (d e) = n_oct (d0 e)) -> bytes buf ->
  forall lm w, spelled d0 lm w -> 3 <= lm < n2 -> lm <> c1 -> lm <> la -> zlen w < n7 ->
  exists m v rest e, longest d la lm w buf = Ok (m, w ++ v, rest, e) /\ buf = v ++ rest /\
    spelled d0 m (w ++ v) /\ 3 <= m < n2 /\ m <> c1 /\ m <> la /\
    match e with
    | Full => zlen (w ++ v) = n7
    | Over => rest = [] /\ zlen (w ++ v) < n7
    | Miss => zlen (w ++ v) < n7 /\ exists y q, rest = y :: q /\ match_octet d m y = Ok 0
    | Hit => zlen (w ++ v) < n7 /\ la <> 0 /\ exists y q, rest = y :: q /\ match_octet d m y = Ok la
    end.
Proof.
  intros OK HL AG. induction buf as [|x buf IH]; intros HB lm w S Hlm Nc Nl L.
  - exists lm, [], [], Over. rewrite app_nil_r. cbn [longest]. repeat split; auto; lia.
  - apply byte_in in HB as (Hx & HB). cbn [longest].
    destruct (match_ok n2 d c1 lm x OK) as (r & R & Q); [lia|]. rewrite R. cbn [bind].
    destruct (r =? 0) eqn:E0.
    { assert (r = 0) by lia. subst r. exists lm, [], (x :: buf), Miss. rewrite app_nil_r. repeat split; auto; try lia. eauto. }
    destruct (r =? la) eqn:E1.
    { assert (r = la) by lia. subst r. exists lm, [], (x :: buf), Hit. rewrite app_nil_r. repeat split; auto; try lia. eauto. }
    destruct Q as [->|(Q1 & Q2 & Q3 & Q4)]; [lia|]. unfold need. destruct (zlen w <? 250) eqn:E2; [|lia].
    assert (S' : spelled d0 r (w ++ [x])).
    { destruct (AG r) as (A1 & A2); [lia|]. rewrite <- Q4, A2. apply sp_kid; [lia|]. rewrite <- A1, Q3. exact S. }
    assert (LL : zlen (w ++ [x]) = zlen w + 1) by (unfold zlen; rewrite app_length; cbn; lia).
    destruct (zlen (w ++ [x]) =? n7) eqn:E3.
    + exists r, [x], buf, Full. repeat split; auto; lia.
    + destruct (IH HB r (w ++ [x]) S' ltac:(lia) Q2 ltac:(lia) ltac:(lia)) as (m & v & rest & e & G1 & G2 & G3 & G4 & G5 & G6 & G7).
      exists m, (x :: v), rest, e. replace (w ++ x :: v) with ((w ++ [x]) ++ v) by (rewrite <- app_assoc; reflexivity).
      split; [exact G1|]. split; [rewrite G2; reflexivity|]. split; [exact G3|]. split; [lia|]. split; [lia|]. split; [lia|exact G7].
Qed.

Lemma longest_first d la x rest : (la = 0 \/ 259 <= la) -> 0 <= x < 256 ->
  longest d la 0 [] (x :: rest) = longest d la (x + 3) [x] rest.
Proof.
  intros HL Hx. cbn [longest]. rewrite match_root. cbn [bind]. destruct (x + 3 =? 0) eqn:E; [lia|].
  destruct (x + 3 =? la) eqn:E2; [lia|]. unfold need. destruct (zlen (@nil Z) <? 250) eqn:E3; [|discriminate E3].
  cbn [app]. destruct (zlen [x] =? n7) eqn:E4; [unfold zlen in E4; cbn [length] in E4; lia|]. reflexivity.
Qed.

(** One octet, marked if it is like the escape code, in transparent mode. *)
Lemma octet_step k c2 c3 w pf bb bc esc x r D' out :
  two_tries n2 n7 (mkV k c2 c3 w pf bb bc (if x =? esc then (esc + 51) mod 256 else esc) true false) x = Ok (D', out, true) ->
  dsteps (mkV k c2 c3 w pf bb bc esc true false) ((if x =? esc then [x; 1] else [x]) ++ r) D' r out.
Proof.
  intros H. destruct (x =? esc) eqn:E.
  - assert (x = esc) by lia. subst x. cbn [app]. change out with ([] ++ out).
    apply (ds_step _ _ (mkV k c2 c3 w pf bb bc esc true true) (1 :: r)); [discriminate| |cbn; lia|].
    + cbn [dec_step v_tr v_escd v_esc]. rewrite Z.eqb_refl. reflexivity.
    + apply ds_one; [discriminate| |cbn; lia]. unfold dec_step. vcb. cbn [Z.eqb]. cbv iota. rewrite H. reflexivity.
  - cbn [app]. apply ds_one; [discriminate| |cbn; lia]. cbn [dec_step v_tr v_escd v_esc]. rewrite E, H. reflexivity.
Qed.

(** The decompressor follows the search octet by octet. *)
Lemma follow buf : forall nd c1 la lm w c2 c3 pf bb bc esc m v rest e F,
  longest nd la lm w buf = Ok (m, w ++ v, rest, e) -> buf = v ++ rest -> zlen w < n7 ->
  dsteps (mkV (mkD nd c1 la 0 lm) c2 c3 w pf bb bc esc true false) (esc_octets esc v ++ F)
    (mkV (mkD nd c1 la 0 (match e with Full => 0 | _ => m end)) c2 c3 (match e with Full => [] | _ => w ++ v end) pf bb bc (esc_after esc v) true false)
    F (match e with Full => w ++ v | _ => [] end).
Proof.
  induction buf as [|x buf IH]; intros nd c1 la lm w c2 c3 pf bb bc esc m v rest e F H B L.
  - destruct v; [|discriminate B]. cbn [longest] in H. injection H as <- _ _ <-. rewrite app_nil_r. constructor.
  - cbn [longest] in H. destruct (match_octet nd lm x) as [code|?|] eqn:M; cbn [bind] in H; try discriminate H.
    destruct (code =? 0) eqn:E0.
    { injection H as <- W R <-. rewrite <- R in B. destruct v as [|y v].
      - rewrite app_nil_r. constructor.
      - apply (f_equal (@length Z)) in B. rewrite app_length in B. cbn in B. lia. }
    destruct (code =? la) eqn:E1.
    { injection H as <- W R <-. rewrite <- R in B. destruct v as [|y v].
      - rewrite app_nil_r. constructor.
      - apply (f_equal (@length Z)) in B. rewrite app_length in B. cbn in B. lia. }
    unfold need in H. destruct (zlen w <? 250) eqn:E2; [|discriminate H].
    assert (NV : exists v', v = x :: v').
    { destruct v as [|y v]; [|injection B as -> _; eauto]. exfalso. cbn [app] in B.
      destruct (zlen (w ++ [x]) =? n7); [injection H as _ _ R _; rewrite <- R in B; apply (f_equal (@length Z)) in B; cbn in B; lia|].
      assert (Q : forall b lm w m w' r e, longest nd la lm w b = Ok (m, w', r, e) -> (length r <= length b)%nat).
      { clear. induction b as [|z b IHb]; intros lm w m w' r e H; cbn [longest] in H; [injection H as _ _ <- _; cbn; lia|].
        destruct (match_octet nd lm z); cbn [bind] in H; try discriminate. destruct (a =? 0); [injection H as _ _ <- _; lia|].
        destruct (a =? la); [injection H as _ _ <- _; lia|]. unfold need in H. destruct (zlen w <? 250); [|discriminate].
        destruct (zlen (w ++ [z]) =? n7); [injection H as _ _ <- _; cbn; lia|]. apply IHb in H. cbn. lia. }
      apply Q in H. rewrite <- B in H. cbn in H. lia. }
    destruct NV as (v' & ->). injection B as B.
    cbn [esc_octets esc_after].
    replace (if x =? esc then x :: 1 :: esc_octets ((esc + 51) mod 256) v' else x :: esc_octets esc v')
      with ((if x =? esc then [x; 1] else [x]) ++ esc_octets (if x =? esc then (esc + 51) mod 256 else esc) v')
      by (destruct (x =? esc); reflexivity).
    rewrite <- app_assoc.
    set (esc' := if x =? esc then (esc + 51) mod 256 else esc).
    assert (T : two_tries n2 n7 (mkV (mkD nd c1 la 0 lm) c2 c3 w pf bb bc esc' true false) x =
      if zlen (w ++ [x]) =? n7 then Ok (mkV (mkD nd c1 la 0 0) c2 c3 [] pf bb bc esc' true false, w ++ [x], true)
      else Ok (mkV (mkD nd c1 la 0 code) c2 c3 (w ++ [x]) pf bb bc esc' true false, [], true)).
    { unfold two_tries, one_try, refresh. cbn [v_d d_upd Z.eqb bind d_node d_lm]. rewrite M. cbn [bind]. rewrite E0. cbn [d_la].
      rewrite E1. unfold need. cbn [v_str]. rewrite E2. destruct (zlen (w ++ [x]) =? n7); reflexivity. }
    destruct (zlen (w ++ [x]) =? n7) eqn:E3.
    + injection H as <- W R <-. assert (V : v' = []).
      { rewrite <- R in B. destruct v' as [|z v']; [reflexivity|]. apply (f_equal (@length Z)) in B. rewrite app_length in B. cbn in B. lia. }
      subst v'. cbn [esc_octets esc_after app]. apply octet_step. exact T.
    + replace (w ++ x :: v') with ((w ++ [x]) ++ v') in H |- * by (rewrite <- app_assoc; reflexivity).
      change (match e with Full => (w ++ [x]) ++ v' | _ => [] end) with ([] ++ match e with Full => (w ++ [x]) ++ v' | _ => [] end).
      eapply dsteps_trans; [apply octet_step; exact T|]. apply (IH nd c1 la code (w ++ [x]) c2 c3 pf bb bc esc' m v' rest e F H B).
      unfold zlen in *. rewrite app_length in *. cbn [length] in *. lia.
Qed.
End Sync.
