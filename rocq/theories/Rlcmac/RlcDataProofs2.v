(** Proofs about the encoder of uplink data blocks. *)
From Verif.Lib Require Import Base Outcome.
From Verif.Rlcmac Require Import RlcDataModel RlcDataSpec RlcDataProofs.

Lemma ext_ops n : 0 <= n < 64 ->
  Z.lor (4 * n + 1) 1 = 4 * n + 1 /\ Z.lor (4 * n + 1) 2 = 4 * n + 3 /\ Z.lor (Z.land (4 * n + 1) 254) 2 = 4 * n + 2 /\
  li_octet n 0 1 = 4 * n + 1.
Proof.
  intros H.
  pose proof (sweep (fun n => (Z.lor (4 * n + 1) 1 =? 4 * n + 1) && (Z.lor (4 * n + 1) 2 =? 4 * n + 3) &&
    (Z.lor (Z.land (4 * n + 1) 254) 2 =? 4 * n + 2) && (li_octet n 0 1 =? 4 * n + 1)) 64 ltac:(vm_compute; reflexivity) n ltac:(lia)) as S.
  cbv beta in S. rewrite !andb_true_iff, !Z.eqb_eq in S. tauto.
Qed.
Local Ltac Zify.zify_post_hook ::= idtac.

(** *** Buffer operations on split buffers *)
Lemma put_mid (a b c b' : list Z) i : i = zlen a -> length b' = length b -> put (a ++ b ++ c) i b' = Ok (a ++ b' ++ c).
Proof.
  intros -> Hl. unfold put. rewrite !zlen_app. pose proof (zlen_nonneg a). pose proof (zlen_nonneg c).
  assert (zlen b' = zlen b) by (unfold zlen; lia).
  replace ((0 <=? zlen a) && (zlen a + zlen b' <=? zlen a + (zlen b + zlen c))) with true by lia.
  f_equal. unfold zlen. rewrite Nat2Z.id. rewrite firstn_app_exact by reflexivity. do 2 f_equal.
  rewrite app_assoc. apply skipn_app_exact. rewrite app_length. lia.
Qed.
Lemma shift_mid (a m c : list Z) x i n : i = zlen a -> n = zlen m ->
  exists y, shift1 (a ++ m ++ x :: c) i n = Ok (a ++ y :: m ++ c).
Proof.
  intros -> ->. unfold shift1. rewrite rdn_app_exact. cbn [bind]. destruct m as [|m0 m].
  - exists x. cbn [app]. replace (a ++ x :: c) with ((a ++ [x]) ++ [] ++ c) by (rewrite <- app_assoc; reflexivity).
    rewrite put_mid; [reflexivity| |reflexivity]. rewrite zlen_app. reflexivity.
  - exists m0. replace (a ++ (m0 :: m) ++ x :: c) with ((a ++ [m0]) ++ (m ++ [x]) ++ c) by (rewrite <- !app_assoc; reflexivity).
    rewrite put_mid with (b := m ++ [x]); [|rewrite zlen_app; reflexivity|rewrite app_length; cbn; lia].
    rewrite <- !app_assoc. reflexivity.
Qed.
Lemma prev_mid (l r : list Z) o f st : b_nc st = zlen l + 1 -> prev_li st f (l ++ o :: r) = Ok (l ++ f o :: r).
Proof.
  intros E. unfold prev_li. pose proof (zlen_nonneg l). replace (b_nc st =? 0) with false by lia.
  replace (b_nc st - 1) with (zlen l) by lia. rewrite rd_app. cbn [bind].
  change (l ++ o :: r) with (l ++ [o] ++ r). rewrite put_mid; reflexivity.
Qed.

(** *** Extension octets in closed form *)
Definition x2 (s : list Z) : Z := 4 * zlen s + 2.
Lemma exts_snoc segs s t : exts (segs ++ [s]) t =
  map x2 segs ++ match t with TFill _ => [4 * zlen s + 1] | TCont _ => [4 * zlen s + 3] | TLi0 _ => [x2 s; 1] end.
Proof.
  induction segs as [|a segs IH]; cbn [app exts map]; [destruct t; reflexivity|]. rewrite IH.
  destruct segs; destruct t; reflexivity.
Qed.
Lemma exts_li0 segs d : exts segs (TLi0 d) = map x2 segs ++ [1].
Proof. destruct segs as [|s segs] using rev_ind; [reflexivity|]. rewrite exts_snoc, map_app, <- app_assoc. reflexivity. Qed.
Lemma exts_len segs t : zlen (exts segs t) = zlen segs + match t with TLi0 _ => 1 | _ => 0 end.
Proof.
  destruct segs as [|s segs] using rev_ind; [destruct t; reflexivity|]. rewrite exts_snoc, !zlen_app.
  unfold zlen. rewrite map_length. destruct t; cbn; lia.
Qed.

(** *** Building a block *)
Record laid (tl : list Z) (segs : list (list Z)) (pad : list Z) (st : bst) : Prop := mklaid {
  l_buf : b_buf st = exts segs (TFill []) ++ tl ++ concat segs ++ pad;
  l_off : b_off st = zlen segs + zlen tl + zlen (concat segs);
  l_nc : b_nc st = zlen segs;
  l_e : b_e st = match segs with [] => 1 | _ => 0 end;
  l_seg : Forall (fun s => 1 <= zlen s <= 63) segs }.

Lemma snoc_cases {A} (l : list A) : l = [] \/ exists l' x, l = l' ++ [x].
Proof. destruct l as [|x l' _] using rev_ind; [auto|right; eauto]. Qed.

Lemma append_spec final tl segs pad st msg :
  laid tl segs pad st -> msg <> [] -> pad <> [] -> zlen (b_buf st) <= 64 ->
  exists ar st' rest, append_ul final st msg = Ok (ar, st', rest) /\ zlen (b_buf st') = zlen (b_buf st) /\
    ((zlen pad < zlen msg /\ ar = NEED_MORE_BLOCKS /\ b_buf st' = layout tl segs (TCont (firstn (Z.to_nat (zlen pad)) msg)) /\
      b_e st' = b_e st /\ rest = skipn (Z.to_nat (zlen pad)) msg) \/
     (zlen pad = zlen msg /\ final = true /\ ar = COMPLETED_BLOCK_FILLED /\ b_e st' = b_e st /\ rest = [] /\
      b_buf st' = layout tl segs (match segs with [] => TCont msg | _ => TFill msg end)) \/
     (zlen pad = zlen msg /\ final = false /\ ar = NEED_MORE_BLOCKS /\ b_e st' = 0 /\
      b_buf st' = layout tl segs (TLi0 (firstn (Z.to_nat (zlen pad - 1)) msg)) /\ rest = skipn (Z.to_nat (zlen pad - 1)) msg) \/
     (zlen msg < zlen pad /\ rest = [] /\ exists pad', laid tl (segs ++ [msg]) pad' st' /\ zlen pad' = zlen pad - 1 - zlen msg /\
      ar = if 0 <? zlen pad' then COMPLETED_SPACE_LEFT else COMPLETED_BLOCK_FILLED)).
Proof.
  intros [Hb Ho Hn He Hs] Hmsg Hpad Hmax.
  assert (Hm1 : 1 <= zlen msg) by (destruct msg; [congruence|rewrite zlen_cons; pose proof (zlen_nonneg msg); lia]).
  assert (Hp1 : 1 <= zlen pad) by (destruct pad; [congruence|rewrite zlen_cons; pose proof (zlen_nonneg pad); lia]).
  assert (Hlen : zlen (b_buf st) = zlen segs + zlen tl + zlen (concat segs) + zlen pad).
  { rewrite Hb, !zlen_app, exts_len. lia. }
  pose proof (zlen_nonneg segs) as N1. pose proof (zlen_nonneg tl) as N2. pose proof (zlen_nonneg (concat segs)) as N3.
  assert (Hsp : zlen (b_buf st) - b_off st = zlen pad) by lia.
  unfold append_ul. cbv zeta. rewrite Hsp.
  (* the updates of the previous length indicator *)
  assert (Hprev : forall f g r, (forall s, 1 <= zlen s <= 63 -> f (4 * zlen s + 1) = g s) ->
    prev_li st f (exts segs (TFill []) ++ r) =
    Ok (match segs with [] => [] | _ => map x2 (removelast segs) ++ [g (last segs [])] end ++ r)).
  { intros f g r Hfg. destruct (snoc_cases segs) as [->|(segs' & s & ->)].
    - unfold prev_li. rewrite Hn. reflexivity.
    - rewrite exts_snoc, <- app_assoc. cbn [app]. rewrite prev_mid.
      + apply Forall_app in Hs as [_ Hs]. inversion Hs; subst. rewrite Hfg by assumption. rewrite removelast_last, last_last.
        destruct (segs' ++ [s]) eqn:E; [destruct segs'; discriminate|]. rewrite <- app_assoc. reflexivity.
      + rewrite Hn, zlen_app. unfold zlen at 3. rewrite map_length. reflexivity. }
  assert (Hcont : forall d, exts segs (TCont d) = match segs with [] => [] | _ => map x2 (removelast segs) ++ [4 * zlen (last segs []) + 3] end).
  { intros d. destruct (snoc_cases segs) as [->|(segs' & s & ->)]; [reflexivity|]. rewrite exts_snoc, removelast_last, last_last.
    destruct (segs' ++ [s]) eqn:E; [destruct segs'; discriminate|]. reflexivity. }
  assert (Hfill : forall d, exts segs (TFill d) = match segs with [] => [] | _ => map x2 (removelast segs) ++ [4 * zlen (last segs []) + 1] end).
  { intros d. destruct (snoc_cases segs) as [->|(segs' & s & ->)]; [reflexivity|]. rewrite exts_snoc, removelast_last, last_last.
    destruct (segs' ++ [s]) eqn:E; [destruct segs'; discriminate|]. reflexivity. }
  assert (Hx2 : match segs with [] => [] | _ => map x2 (removelast segs) ++ [4 * zlen (last segs []) + 2] end = map x2 segs).
  { destruct (snoc_cases segs) as [->|(segs' & s & ->)]; [reflexivity|]. rewrite removelast_last, last_last.
    destruct (segs' ++ [s]) eqn:E; [destruct segs'; discriminate|]. rewrite <- E, map_app. reflexivity. }
  destruct (Z.ltb_spec (zlen pad) (zlen msg)) as [Hlt|Hge].
  { (* the frame does not fit *)
    rewrite Hb, (Hprev _ (fun s => 4 * zlen s + 3)) by (intros s Hss; apply ext_ops; lia). cbn [bind]. rewrite <- (Hcont (firstn (Z.to_nat (zlen pad)) msg)).
    set (d := firstn (Z.to_nat (zlen pad)) msg).
    assert (Hd : length d = length pad) by (unfold d; rewrite firstn_length; unfold zlen in *; lia).
    replace (exts segs (TCont d) ++ tl ++ concat segs ++ pad) with ((exts segs (TCont d) ++ tl ++ concat segs) ++ pad ++ []) by (rewrite app_nil_r, <- !app_assoc; reflexivity).
    rewrite put_mid with (b := pad); [|rewrite !zlen_app, exts_len; lia|exact Hd]. cbn [bind].
    eexists _, _, _. split; [reflexivity|]. cbn [b_buf b_e]. split.
    - rewrite !zlen_app, !exts_len. unfold zlen at 4. rewrite Hd. fold (zlen pad). change (zlen (@nil Z)) with 0. lia.
    - left. split; [exact Hlt|]. split; [reflexivity|]. split; [|auto]. unfold layout. cbn [tail_data]. rewrite app_nil_r, <- !app_assoc. reflexivity. }
  destruct (Z.eqb_spec (zlen msg) (zlen pad)) as [Heq|Hne].
  - destruct final; cbn [andb].
    + (* exact fit in the final block *)
      rewrite Hb, (Hprev _ (fun s => 4 * zlen s + 1)) by (intros s Hss; apply ext_ops; lia). cbn [bind]. rewrite <- (Hfill msg).
      assert (Hd : length msg = length pad) by (unfold zlen in *; lia).
      replace (exts segs (TFill msg) ++ tl ++ concat segs ++ pad) with ((exts segs (TFill msg) ++ tl ++ concat segs) ++ pad ++ []) by (rewrite app_nil_r, <- !app_assoc; reflexivity).
      rewrite put_mid with (b := pad); [|rewrite !zlen_app, exts_len; lia|exact Hd]. cbn [bind].
      eexists _, _, _. split; [reflexivity|]. cbn [b_buf b_e]. split.
      * rewrite !zlen_app, !exts_len. change (zlen (@nil Z)) with 0. lia.
      * right. left. repeat split; auto. unfold layout. rewrite app_nil_r, <- !app_assoc. destruct segs; reflexivity.
    + (* exact fit, LI = 0 *)
      rewrite Hb, (app_assoc tl). destruct pad as [|p0 pad0]; [congruence|].
      destruct (shift_mid (exts segs (TFill [])) (tl ++ concat segs) pad0 p0 (b_nc st) (b_off st - b_nc st)) as (y & Ey).
      { rewrite exts_len. lia. } { rewrite zlen_app. lia. }
      rewrite Ey. cbn [bind]. rewrite (Hprev _ x2) by (intros s Hss; apply ext_ops; lia). cbn [bind]. unfold x2 at 2. rewrite Hx2.
      change (li_octet 0 0 1) with 1. change (map x2 segs ++ y :: (tl ++ concat segs) ++ pad0) with (map x2 segs ++ [y] ++ ((tl ++ concat segs) ++ pad0)).
      rewrite put_mid; [|rewrite Hn; unfold zlen; rewrite map_length; reflexivity|reflexivity]. cbn [bind].
      set (d := firstn (Z.to_nat (zlen (p0 :: pad0) - 1)) msg).
      assert (Hd : length d = length pad0) by (unfold d; rewrite firstn_length; rewrite zlen_cons in *; unfold zlen in *; lia).
      replace (map x2 segs ++ [1] ++ (tl ++ concat segs) ++ pad0) with ((map x2 segs ++ [1] ++ tl ++ concat segs) ++ pad0 ++ []) by (rewrite app_nil_r, <- !app_assoc; reflexivity).
      assert (Hz2 : zlen (map x2 segs) = zlen segs) by (unfold zlen; rewrite map_length; reflexivity).
      rewrite put_mid with (b := pad0); [|rewrite !zlen_app, Hz2; change (zlen [1]) with 1; lia|exact Hd]. cbn [bind].
      eexists _, _, _. split; [reflexivity|]. cbn [b_buf b_e]. split.
      * rewrite !zlen_app, Hz2, exts_len. change (zlen [1]) with 1. unfold zlen at 4. rewrite Hd. fold (zlen pad0). rewrite (zlen_cons p0). change (zlen (@nil Z)) with 0. lia.
      * right. right. left. split; [lia|]. split; [reflexivity|]. split; [reflexivity|]. split; [reflexivity|]. split; [|reflexivity].
        unfold layout. cbn [tail_data]. rewrite exts_li0, app_nil_r, <- !app_assoc. reflexivity.
  - (* the frame ends in the block *)
    cbn [andb].
    rewrite Hb, (app_assoc tl). destruct pad as [|p0 pad0]; [congruence|].
    destruct (shift_mid (exts segs (TFill [])) (tl ++ concat segs) pad0 p0 (b_nc st) (b_off st - b_nc st)) as (y & Ey).
    { rewrite exts_len. lia. } { rewrite zlen_app. lia. }
    rewrite Ey. cbn [bind]. rewrite (Hprev _ x2) by (intros s Hss; apply ext_ops; lia). cbn [bind]. unfold x2 at 2. rewrite Hx2.
    rewrite (proj2 (proj2 (proj2 (ext_ops (zlen msg) ltac:(lia))))).
    change (map x2 segs ++ y :: (tl ++ concat segs) ++ pad0) with (map x2 segs ++ [y] ++ ((tl ++ concat segs) ++ pad0)).
    rewrite put_mid; [|rewrite Hn; unfold zlen; rewrite map_length; reflexivity|reflexivity]. cbn [bind].
    rewrite zlen_cons in *.
    set (k := length msg).
    assert (Hk : (k <= length pad0)%nat) by (unfold k, zlen in *; lia).
    replace (map x2 segs ++ [4 * zlen msg + 1] ++ (tl ++ concat segs) ++ pad0)
      with ((map x2 segs ++ [4 * zlen msg + 1] ++ tl ++ concat segs) ++ firstn k pad0 ++ skipn k pad0) by (rewrite firstn_skipn, <- !app_assoc; reflexivity).
    assert (Hz2 : zlen (map x2 segs) = zlen segs) by (unfold zlen; rewrite map_length; reflexivity).
    rewrite put_mid with (b := firstn k pad0); [|rewrite !zlen_app, Hz2; change (zlen [4 * zlen msg + 1]) with 1; lia|rewrite firstn_length; unfold k in *; lia]. cbn [bind].
    assert (Hsk : zlen (skipn k pad0) = zlen pad0 - zlen msg) by (unfold zlen; rewrite skipn_length; unfold k, zlen in *; lia).
    eexists _, _, _. split; [reflexivity|]. cbn [b_buf b_e]. split.
    + rewrite !zlen_app, Hz2, exts_len, Hsk, (zlen_cons p0). change (zlen [4 * zlen msg + 1]) with 1. lia.
    + right. right. right. split; [lia|]. split; [reflexivity|]. exists (skipn k pad0). split; [|split].
      * constructor; cbn [b_buf b_off b_nc b_e].
        -- rewrite exts_snoc, concat_app. cbn [concat]. rewrite app_nil_r, <- !app_assoc. reflexivity.
        -- rewrite concat_app, !zlen_app. cbn [concat]. rewrite app_nil_r. change (zlen [msg]) with 1. lia.
        -- rewrite Hn, zlen_app. reflexivity.
        -- destruct (segs ++ [msg]) eqn:E; [destruct segs; discriminate|reflexivity].
        -- apply Forall_app. split; [exact Hs|]. constructor; [lia|constructor].
      * rewrite Hsk. lia.
      * rewrite Hsk. replace (zlen pad0 + 1 - 1 - zlen msg) with (zlen pad0 - zlen msg) by lia. reflexivity.
Qed.

(** How the frames of [pend] went into the block: whole frames [new], then the tail; [rest] is left. *)
Definition flow (final : bool) (new : list (list Z)) (t : tail) (pend rest : list (list Z)) : Prop :=
  match t with
  | TFill _ => pend = new ++ rest
  | TCont d => (final = true /\ pend = new ++ [d] /\ rest = []) \/
               (final = false /\ exists r q, r <> [] /\ pend = new ++ (d ++ r) :: q /\ rest = r :: q)
  | TLi0 d => final = false /\ exists r q, r <> [] /\ pend = new ++ (d ++ r) :: q /\ rest = r :: q
  end.

Lemma skipn_nonnil {A} n (l : list A) : (n < length l)%nat -> skipn n l <> [].
Proof. intros H E. pose proof (skipn_length n l). rewrite E in H0. cbn in H0. lia. Qed.
Lemma firstn_nonnil {A} n (l : list A) : (0 < n)%nat -> l <> [] -> firstn n l <> [].
Proof. destruct n; [lia|]. destruct l; [congruence|]. discriminate. Qed.
Lemma pos_nonnil {A} (l : list A) : l <> [] -> 1 <= zlen l.
Proof. destruct l; [congruence|]. intros _. rewrite zlen_cons. pose proof (zlen_nonneg l). lia. Qed.

Lemma fill_spec final pend : forall tl segs pad st,
  laid tl segs pad st -> pad <> [] -> zlen (b_buf st) <= 64 -> Forall (fun f => f <> []) pend -> (segs = [] -> pend <> []) ->
  (final = true -> need pend <= zlen pad /\ (need pend = zlen pad -> segs = [] /\ exists f, pend = [f])) ->
  exists st' rest new t, fill final st pend = Ok (st', rest) /\ zlen (b_buf st') = zlen (b_buf st) /\
    b_buf st' = layout tl (segs ++ new) t /\ (b_e st' =? 1) = e_bit (segs ++ new) t /\ well_formed final (segs ++ new) t /\
    flow final new t pend rest /\ Forall (fun f => f <> []) rest /\ (final = true -> rest = []).
Proof.
  induction pend as [|msg pend IH]; intros tl segs pad st HL Hpad Hmax Hne Hseg Hfin.
  - assert (segs <> []) by (intros E; now apply Hseg in E). cbn [fill]. rewrite (l_nc _ _ _ _ HL).
    pose proof (pos_nonnil segs ltac:(assumption)). replace (0 <? zlen segs) with true by lia.
    exists st, [], [], (TFill pad). split; [reflexivity|]. split; [reflexivity|]. rewrite app_nil_r.
    split; [rewrite (l_buf _ _ _ _ HL); unfold layout; cbn [tail_data]; destruct (snoc_cases segs) as [->|(a & b & ->)]; [reflexivity|]; rewrite !exts_snoc; reflexivity|].
    split. { rewrite (l_e _ _ _ _ HL). unfold e_bit. destruct segs; [congruence|]. reflexivity. }
    split; [split; [apply (l_seg _ _ _ _ HL)|assumption]|]. cbn [flow]. auto.
  - inversion Hne as [|? ? Hm Hne']; subst. cbn [fill]. pose proof (pos_nonnil msg Hm) as Hm1.
    replace (zlen msg =? 0) with false by lia.
    destruct (append_spec final tl segs pad st msg HL Hm Hpad Hmax) as (ar & st' & rest & E & Hl' & HC). rewrite E. cbn [bind].
    pose proof (pos_nonnil pad Hpad) as Hp1. pose proof (l_seg _ _ _ _ HL) as Hs.
    assert (Hpn : zlen pad = Z.of_nat (length pad)) by reflexivity. assert (Hmn : zlen msg = Z.of_nat (length msg)) by reflexivity.
    assert (Hneed : zlen msg <= need (msg :: pend)).
    { cbn [need]. destruct pend as [|p0 ps]; [lia|].
      assert (forall l, 0 <= need l). { clear. induction l as [|a l IHl]; cbn [need]; [lia|]. pose proof (zlen_nonneg a). destruct l; lia. }
      pose proof (H (p0 :: ps)). lia. }
    destruct HC as [(Hlt & -> & Hb & He & ->)|[(Heq & -> & -> & He & -> & Hb)|[(Heq & -> & -> & He & Hb & ->)|(Hlt & -> & pad' & HL' & Hpz & ->)]]].
    + exists st', (skipn (Z.to_nat (zlen pad)) msg :: pend), [], (TCont (firstn (Z.to_nat (zlen pad)) msg)).
      rewrite app_nil_r. split; [reflexivity|]. split; [exact Hl'|]. split; [exact Hb|].
      destruct final; [exfalso; destruct (Hfin eq_refl); lia|].
      split. { rewrite He, (l_e _ _ _ _ HL). unfold e_bit. destruct segs; reflexivity. }
      split; [split; [exact Hs|apply firstn_nonnil; [lia|exact Hm]]|].
      assert (Hr : skipn (Z.to_nat (zlen pad)) msg <> []) by (apply skipn_nonnil; lia).
      split. { right. split; [reflexivity|]. do 2 eexists. split; [exact Hr|]. split; [cbn [app]; rewrite firstn_skipn; reflexivity|reflexivity]. }
      split; [constructor; assumption|discriminate].
    + destruct (Hfin eq_refl) as [Hf1 Hf2].
      assert (Hnp : need (msg :: pend) = zlen pad) by lia. destruct (Hf2 Hnp) as [-> [f Ef]]. injection Ef as -> ->.
      exists st', [], [], (TCont f). split; [reflexivity|]. split; [exact Hl'|]. split; [exact Hb|].
      split. { rewrite He, (l_e _ _ _ _ HL). reflexivity. }
      split; [split; [constructor|exact Hm]|]. split; [left; auto|]. auto.
    + exists st', (skipn (Z.to_nat (zlen pad - 1)) msg :: pend), [], (TLi0 (firstn (Z.to_nat (zlen pad - 1)) msg)).
      rewrite app_nil_r. split; [reflexivity|]. split; [exact Hl'|]. split; [exact Hb|].
      split. { rewrite He. unfold e_bit. rewrite exts_li0. destruct (map x2 segs); reflexivity. }
      split; [split; [exact Hs|reflexivity]|].
      assert (Hr : skipn (Z.to_nat (zlen pad - 1)) msg <> []) by (apply skipn_nonnil; lia).
      split. { split; [reflexivity|]. do 2 eexists. split; [exact Hr|]. split; [cbn [app]; rewrite firstn_skipn; reflexivity|reflexivity]. }
      split; [constructor; assumption|discriminate].
    + destruct (Z.ltb_spec 0 (zlen pad')) as [Hpos|Hzero].
      * assert (Hpad' : pad' <> []) by (intros ->; cbn in Hpos; lia).
        destruct (IH tl (segs ++ [msg]) pad' st' HL' Hpad') as (st2 & rest2 & new & t & E2 & Hl2 & Hb2 & He2 & Hw2 & Hfl & Hr2 & Hf2).
        { lia. } { exact Hne'. } { intros E'. destruct segs; discriminate. }
        { intros Hf. destruct (Hfin Hf) as [H1 H2]. cbn [need] in H1, H2. destruct pend as [|p0 ps].
          - cbn [need]. split; [lia|]. intros. lia.
          - split; [lia|]. intros Hnp. destruct H2 as [_ [f Ef]]; [lia|]. discriminate. }
        exists st2, rest2, (msg :: new), t. rewrite <- app_assoc in Hb2, He2, Hw2. cbn [app] in *.
        split; [exact E2|]. split; [lia|]. split; [exact Hb2|]. split; [exact He2|]. split; [exact Hw2|].
        split; [|auto]. destruct t; cbn [flow] in *.
        -- cbn [app]. now f_equal.
        -- destruct Hfl as [(H1 & H2 & H3)|(H1 & r & q & H2 & H3 & H4)]; [left; rewrite H2; auto|right; split; [exact H1|]; exists r, q; rewrite H3; auto].
        -- destruct Hfl as (H1 & r & q & H2 & H3 & H4). split; [exact H1|]. exists r, q. rewrite H3. auto.
      * assert (pad' = []) as -> by (destruct pad'; [reflexivity|rewrite zlen_cons in Hzero; pose proof (zlen_nonneg pad'); lia]).
        exists st', pend, [msg], (TFill []). split; [reflexivity|]. split; [exact Hl'|].
        split; [rewrite (l_buf _ _ _ _ HL'); reflexivity|].
        split. { rewrite (l_e _ _ _ _ HL'). unfold e_bit. rewrite exts_snoc. destruct segs; reflexivity. }
        split; [split; [apply (l_seg _ _ _ _ HL')|destruct segs; discriminate]|]. split; [reflexivity|]. split; [exact Hne'|].
        intros Hf. destruct (Hfin Hf) as [H1 H2]. destruct pend as [|p0 ps]; [reflexivity|exfalso].
        cbn [need] in H1. inversion Hne' as [|? ? Hp0 _]; subst. pose proof (pos_nonnil p0 Hp0).
        assert (1 <= need (p0 :: ps)). { cbn [need]. destruct ps; [lia|]. assert (forall l, 0 <= need l). { clear. induction l as [|a l IHl]; cbn [need]; [lia|]. pose proof (zlen_nonneg a). destruct l; lia. } pose proof (H0 (l :: ps)). lia. }
        change (zlen (@nil Z)) with 0 in *. cbn [need] in *. lia.
Qed.

Lemma tlli_len tlli : zlen (tlli_octets tlli) = 4.
Proof. reflexivity. Qed.
Definition tl_of (ti : bool) (tlli : Z) : list Z := if ti then tlli_octets tlli else [].

Lemma create_spec dlen (ti : bool) tlli final pend :
  5 <= dlen <= 64 -> pend <> [] -> Forall (fun f => f <> []) pend ->
  (let space := if ti then dlen - 4 else dlen in
   final = true -> need pend <= space /\ (need pend = space -> exists f, pend = [f])) ->
  exists e oct rest new t, create_block dlen ti tlli final pend = Ok (e, oct, rest) /\ zlen oct = dlen /\
    oct = layout (tl_of ti tlli) new t /\ (e =? 1) = e_bit new t /\ well_formed final new t /\
    flow final new t pend rest /\ Forall (fun f => f <> []) rest /\ (final = true -> rest = []).
Proof.
  intros Hd Hp Hne Hfin. cbv zeta in Hfin. unfold create_block. set (pad := repeat 43 (Z.to_nat (if ti then dlen - 4 else dlen))).
  assert (Hpz : zlen pad = if ti then dlen - 4 else dlen) by (unfold pad, zlen; rewrite repeat_length; destruct ti; lia).
  assert (Hb0 : (if ti then put (repeat 43 (Z.to_nat dlen)) 0 (tlli_octets tlli) else Ok (repeat 43 (Z.to_nat dlen))) = Ok (tl_of ti tlli ++ pad)).
  { destruct ti; [|reflexivity]. unfold pad. replace (Z.to_nat dlen) with (4 + Z.to_nat (dlen - 4))%nat by lia.
    rewrite repeat_app. change (repeat 43 4 ++ repeat 43 (Z.to_nat (dlen - 4))) with ([] ++ repeat 43 4 ++ repeat 43 (Z.to_nat (dlen - 4))).
    rewrite put_mid; reflexivity. }
  rewrite Hb0. cbn [bind].
  set (st0 := mkbst (tl_of ti tlli ++ pad) (if ti then 4 else 0) 0 1).
  assert (Hz0 : zlen (b_buf st0) = dlen) by (unfold st0; cbn [b_buf]; rewrite zlen_app, Hpz; destruct ti; [change (zlen (tl_of true tlli)) with 4|change (zlen (tl_of false tlli)) with 0]; lia).
  destruct (fill_spec final pend (tl_of ti tlli) [] pad st0) as (st' & rest & new & t & E & Hl & Hb & He & Hw & Hfl & Hr & Hf).
  - constructor; unfold st0; cbn [b_buf b_off b_nc b_e exts concat app]; try reflexivity; [|constructor].
    destruct ti; reflexivity.
  - intros E. rewrite E in Hpz. change (zlen (@nil Z)) with 0 in Hpz. destruct ti; lia.
  - lia.
  - exact Hne.
  - auto.
  - rewrite Hpz. intros Hf. destruct (Hfin Hf) as [H1 H2]. split; [exact H1|]. intros Hn. split; [reflexivity|auto].
  - rewrite E. cbn [bind]. cbn [app] in *. exists (b_e st'), (b_buf st'), rest, new, t.
    split; [reflexivity|]. split; [lia|]. auto 10.
Qed.

(** *** Whole transfers *)
Lemma flow_join final new t : forall part pend rest, flow final new t pend rest -> (final = true -> rest = []) -> pend <> [] ->
  exists done part', join part (pieces final new t) = (done, part') /\ done ++ glue part' rest = glue part pend /\ (rest = [] -> part' = []).
Proof.
  induction new as [|s new IH]; intros part pend rest Hfl Hr Hp.
  - destruct t as [p|d|d]; cbn [flow app] in Hfl; unfold pieces; cbn [map app].
    + (* only possible when nothing was taken; excluded by the caller, but true anyway *)
      subst rest. exists [], part. cbn [join]. split; [reflexivity|]. split; [reflexivity|]. congruence.
    + destruct Hfl as [(-> & -> & ->)|(-> & r & q & Hrn & -> & ->)].
      * exists [part ++ d], []. cbn. auto.
      * exists [], (part ++ d). cbn [join app glue]. rewrite app_assoc. split; [reflexivity|]. split; [reflexivity|discriminate].
    + destruct Hfl as (-> & r & q & Hrn & -> & ->). exists [], (part ++ d). cbn [join app glue]. rewrite app_assoc. split; [reflexivity|]. split; [reflexivity|discriminate].
  - unfold pieces. cbn [map app join]. fold (pieces final new t).
    assert (Hsub : exists pend', pend = s :: pend' /\ flow final new t pend' rest).
    { destruct t; cbn [flow app] in *.
      - exists (new ++ rest). auto.
      - destruct Hfl as [(H1 & H2 & H3)|(H1 & r & q & H2 & H3 & H4)]; [exists (new ++ [d]); auto|].
        exists (new ++ (d ++ r) :: q). split; [exact H3|]. right. split; [exact H1|]. exists r, q. auto.
      - destruct Hfl as (H1 & r & q & H2 & H3 & H4). exists (new ++ (d ++ r) :: q). split; [exact H3|]. split; [exact H1|]. exists r, q. auto. }
    destruct Hsub as (pend' & -> & Hfl').
    destruct pend' as [|p' ps].
    + (* the frame was the last one *)
      assert (Hnew : new = [] /\ (exists p, t = TFill p) /\ rest = []).
      { destruct t; cbn [flow] in Hfl'.
        - symmetry in Hfl'. apply app_eq_nil in Hfl' as [-> ->]. eauto.
        - destruct Hfl' as [(_ & H & _)|(_ & r & q & _ & H & _)]; destruct new; discriminate.
        - destruct Hfl' as (_ & r & q & _ & H & _); destruct new; discriminate. }
      destruct Hnew as (-> & [p ->] & ->). exists [part ++ s], []. cbn. auto.
    + destruct (IH [] (p' :: ps) rest Hfl' Hr ltac:(discriminate)) as (done & part' & Ej & Hg & Hz).
      rewrite Ej. exists ((part ++ s) :: done), part'. split; [reflexivity|]. split; [|exact Hz]. cbn [app glue]. rewrite Hg. reflexivity.
Qed.

Lemma n_ext_exts segs t r : exts segs t <> [] -> n_ext (exts segs t ++ r) = length (exts segs t).
Proof.
  assert (Hx : forall (l : list (list Z)) o r, Z.odd o = true -> n_ext ((map x2 l ++ [o]) ++ r) = length (map x2 l ++ [o])).
  { clear. induction l as [|a l IH]; intros o r Ho; cbn [map app n_ext length]; [rewrite Ho; reflexivity|].
    replace (Z.odd (x2 a)) with false by (unfold x2; rewrite Z.odd_add, Z.odd_mul; reflexivity). now rewrite IH. }
  assert (Hodd : forall n k, Z.odd (4 * n + k) = Z.odd k) by (intros; rewrite Z.odd_add, Z.odd_mul; change (Z.odd 4) with false; now destruct (Z.odd k)).
  intros Hne. destruct (snoc_cases segs) as [->|(segs' & s & ->)].
  - destruct t; cbn [exts] in *; [congruence|congruence|reflexivity].
  - rewrite exts_snoc. destruct t.
    + apply Hx. rewrite Hodd. reflexivity.
    + apply Hx. rewrite Hodd. reflexivity.
    + replace (map x2 segs' ++ [x2 s; 1]) with (map x2 (segs' ++ [s]) ++ [1]) by (rewrite map_app, <- app_assoc; reflexivity). apply Hx. reflexivity.
Qed.
Lemma strip_layout (ti : bool) tlli final new t :
  strip (mkublk ti final (e_bit new t) (layout (tl_of ti tlli) new t)) = layout [] new t.
Proof.
  unfold strip. cbn [u_e u_oct u_ti]. unfold e_bit, layout.
  destruct (exts new t) as [|o ex] eqn:Ex.
  - cbn [app firstn]. destruct ti; [|reflexivity]. cbn [Nat.add]. apply skipn_app_exact. reflexivity.
  - rewrite <- Ex. rewrite n_ext_exts by (rewrite Ex; discriminate). rewrite firstn_app_exact by reflexivity. f_equal.
    destruct ti.
    + rewrite app_assoc. apply skipn_app_exact. rewrite app_length. reflexivity.
    + apply skipn_app_exact. reflexivity.
Qed.

Lemma read_all_app a b : read_all (a ++ b) = do x <- read_all a; do y <- read_all b; Ok (x ++ y).
Proof.
  induction a as [|u a IH]; cbn [app read_all]; [cbn; destruct (read_all b); reflexivity|].
  rewrite IH. destruct (read_block u); cbn [bind]; [|reflexivity|reflexivity].
  destruct (read_all a); cbn [bind]; [|reflexivity|reflexivity]. destruct (read_all b); cbn [bind]; [|reflexivity|reflexivity]. now rewrite app_assoc.
Qed.

Theorem transfer_ok sub blks pend : transfer sub blks pend ->
  Forall (fun f => f <> []) pend /\
  exists ps done part, read_all blks = Ok ps /\ join [] ps = (done, part) /\ sub = done ++ glue part pend /\ (pend = [] -> part = []).
Proof.
  induction 1 as [|sub blks pend f HT IH Hf|sub blks pend dlen ti tlli final e oct pend' HT IH Hp Hd Hfin E].
  - split; [constructor|]. exists [], [], []. cbn. auto.
  - destruct IH as (Hne & ps & done & part & Er & Ej & Hs & Hz). split; [apply Forall_app; split; [exact Hne|constructor; [exact Hf|constructor]]|].
    exists ps, done, part. split; [exact Er|]. split; [exact Ej|]. split; [|destruct pend; discriminate].
    destruct pend as [|p r].
    + rewrite (Hz eq_refl) in *. cbn [glue app] in *. rewrite Hs, app_nil_r. reflexivity.
    + rewrite Hs. cbn [glue app]. rewrite <- app_assoc. reflexivity.
  - destruct IH as (Hne & ps & done & part & Er & Ej & Hs & Hz).
    destruct (create_spec dlen ti tlli final pend Hd Hp Hne Hfin) as (e0 & oct0 & rest & new & t & E0 & Hlen & Hoct & He & Hw & Hfl & Hr & Hfr).
    rewrite E in E0. injection E0 as <- <- <-. split; [exact Hr|].
    assert (Hrb : read_block (mkublk ti final (e =? 1) oct) = Ok (got final new t)).
    { unfold read_block. rewrite He, Hoct, strip_layout. cbn [u_e u_final].
      assert (Hll : zlen (layout [] new t) <= 64).
      { rewrite Hoct in Hlen. unfold layout in *. rewrite !zlen_app in *. change (zlen (@nil Z)) with 0. pose proof (zlen_nonneg (tl_of ti tlli)). lia. }
      assert (zlen new <= 64). { unfold layout in Hll. rewrite !zlen_app, exts_len in Hll. change (zlen (@nil Z)) with 0 in Hll. pose proof (zlen_nonneg (concat new)). pose proof (zlen_nonneg (tail_data t)). destruct t; lia. }
      destruct (decode_layout final new t 65 Hw ltac:(lia) ltac:(lia)) as (cs & Ec & Hc & _). rewrite Ec. cbn [bind]. unfold content in Hc. rewrite Hc. reflexivity. }
    destruct (flow_join final new t part pend pend' Hfl Hfr Hp) as (done' & part' & Ej' & Hg & Hz').
    exists (ps ++ got final new t), (done ++ done'), part'. rewrite read_all_app, Er. cbn [bind read_all]. rewrite Hrb. cbn [bind]. rewrite app_nil_r.
    split; [reflexivity|]. rewrite join_app, Ej, join_got, Ej' by exact Hw. split; [reflexivity|]. split; [|exact Hz'].
    rewrite Hs, <- Hg, app_assoc. reflexivity.
Qed.
