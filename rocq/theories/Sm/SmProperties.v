(** * Properties of session management: the request that is sent, session ids, confirmations. *)
From Verif.Lib Require Import Base Outcome.
From Verif.Sm Require Import SmModel SmProofs SmProofs2 SmProofs3 SmExec SmRun.

(** ** C72: the octets of ACTIVATE PDP CONTEXT REQUEST *)

(** A reader of the message, from 3GPP TS 24.008, 9.5.1. *)
Definition take (n : Z) (l : list Z) : option (list Z * list Z) :=
  if (0 <=? n) && (n <=? zlen l) then Some (firstn (Z.to_nat n) l, skipn (Z.to_nat n) l) else None.
Definition lv (l : list Z) : option (list Z * list Z) := match l with n :: r => take n r | [] => None end.
(** An access point name: labels, each after its length; read as text with dots. *)
Fixpoint dots (f : nat) (l : list Z) : option (list Z) :=
  match f, lv l with
  | S f, Some (a, []) => Some a
  | S f, Some (a, r) => match dots f r with Some b => Some (a ++ 46 :: b) | None => None end
  | _, _ => None end.
Definition opt_tlv (t : Z) (l : list Z) : option (option (list Z) * list Z) :=
  match l with
  | u :: r => if u =? t then match lv r with Some (a, r') => Some (Some a, r') | None => None end else Some (None, l)
  | [] => Some (None, []) end.
Record reading := mkReading {
  r_pd : Z; r_nsapi : Z; r_sapi : Z; r_qos : list Z; r_org : Z; r_type : Z; r_addr : list Z; r_apn : list Z; r_pco : list Z }.
Definition read_act_req (l : list Z) : option reading :=
  match l with
  | h :: 0x41 :: n :: s :: r =>
      match lv r with
      | Some (q, r) =>
          match lv r with
          | Some (og :: ty :: ad, r) =>
              match opt_tlv 0x28 r with
              | Some (ap, r) =>
                  match opt_tlv 0x27 r with
                  | Some (pc, []) =>
                      match (match ap with Some e => dots (length e) e | None => Some [] end) with
                      | Some name => Some (mkReading (h mod 16) n s q og ty ad name (match pc with Some p => p | None => [] end))
                      | None => None end
                  | _ => None end
              | None => None end
          | _ => None end
      | None => None end
  | _ => None end.
(** The address asked for: none if it is absent or all zeros. *)
Definition given (a : option (list Z)) : list Z :=
  match a with Some l => if forallb (fun x => x =? 0) l then [] else l | None => [] end.
Definition addr_of (q : actreq) : list Z :=
  if q_atype q =? 0x21 then given (q_v4 q) else if q_atype q =? 0x57 then given (q_v6 q) else given (q_v4 q) ++ given (q_v6 q).

Lemma take_app (a r : list Z) : take (zlen a) (a ++ r) = Some (a, r).
Proof.
  unfold take. pose proof (zlen_nonneg a). pose proof (zlen_nonneg r). rewrite zlen_app. replace (_ && _) with true by lia.
  unfold zlen. rewrite Nat2Z.id, firstn_app_exact, skipn_app_exact by reflexivity. reflexivity.
Qed.
Lemma dots_ok s : forall lab f, (length s < f)%nat -> dots f (apn_enc s lab) = Some (rev lab ++ s).
Proof.
  induction s as [|c s IH]; intros lab f Hf; cbn [apn_enc].
  - destruct f; [lia|]. cbn [dots lv].
    replace (zlen lab) with (zlen (rev lab)) by (unfold zlen; rewrite rev_length; reflexivity).
    rewrite <- (app_nil_r (rev lab)) at 2. rewrite take_app. cbn. rewrite app_nil_r. reflexivity.
  - destruct (c =? 46) eqn:E.
    + destruct f; [lia|]. cbn [dots lv]. replace (zlen lab) with (zlen (rev lab)) by (unfold zlen; rewrite rev_length; reflexivity).
      rewrite take_app. cbn [length] in Hf. specialize (IH [] f ltac:(lia)). cbn [rev app] in IH.
      assert (exists a b, apn_enc s [] = a :: b) as [a [b Eab]].
      { destruct s as [|c' s']; cbn [apn_enc]; [eauto|]. destruct (c' =? 46); [eauto|]. clear. revert c'. generalize (@nil Z).
        induction s' as [|d s' IH]; intros l c'; cbn [apn_enc]; [eauto|]. destruct (d =? 46); [eauto|]. apply IH. }
      rewrite Eab in *. rewrite IH. replace c with 46 by lia. reflexivity.
    + rewrite IH by (cbn [length] in Hf; lia). cbn [rev]. rewrite <- app_assoc. reflexivity.
Qed.
Lemma apn_len s : forall lab, zlen (apn_enc s lab) = zlen s + zlen lab + 1.
Proof.
  induction s as [|c s IH]; intros lab; cbn [apn_enc].
  - rewrite zlen_cons. unfold zlen. rewrite rev_length. cbn [length]. lia.
  - destruct (c =? 46).
    + rewrite zlen_cons, zlen_app, IH, zlen_cons. unfold zlen at 1 3. rewrite rev_length. cbn. unfold zlen. lia.
    + rewrite IH, !zlen_cons. lia.
Qed.

Lemma given_arg a : given a = match addr_arg a with Some l => l | None => [] end.
Proof.
  unfold given, addr_arg, addr_any. destruct a as [l|]; [|reflexivity].
  replace (forallb (fun x => x =? 0) l) with (forallb (Z.eqb 0) l); [destruct (forallb _ l); reflexivity|].
  induction l as [|x l IH]; [reflexivity|]. cbn [forallb]. rewrite IH. f_equal; try apply Z.eqb_sym.
Qed.
Lemma given_len n a : (forall l, a = Some l -> zlen l = n) -> 0 <= n -> 0 <= zlen (given a) <= n.
Proof. intros H Hn. unfold given. destruct a as [l|]; [|cbn; lia]. specialize (H l eq_refl). destruct (forallb _ l); cbn; [lia|]. pose proof (zlen_nonneg l). lia. Qed.

Lemma opt_tlv_yes t (a r : list Z) : opt_tlv t (t :: zlen a :: a ++ r) = Some (Some a, r).
Proof. unfold opt_tlv. rewrite Z.eqb_refl. cbn [lv]. rewrite take_app. reflexivity. Qed.

Definition req_sound (q : actreq) : Prop :=
  req_typed q /\ req_fits q /\ 5 <= q_nsapi q <= 15 /\ 0 <= q_sapi q < 256 /\ In (q_atype q) [0x21; 0x57; 0x8d] /\
  (forall l, q_v4 q = Some l -> zlen l = 4) /\ (forall l, q_v6 q = Some l -> zlen l = 16) /\ zlen (q_apn q) <= 100.

Lemma qos_read id q : req_typed q -> req_fits q -> slice 0 (Z.to_nat (qlen (entity_of id q))) (qos (entity_of id q)) = firstn (Z.to_nat (q_qlen q)) (q_qos q)
  /\ slice 0 (Z.to_nat (plen (entity_of id q))) (pco (entity_of id q)) = firstn (Z.to_nat (q_plen q)) (q_pco q).
Proof.
  intros [T1 T2 T3 T4 T5 T6 _] [F1 F2]. cbn [entity_of qlen qos plen pco]. unfold slice, overlay. rewrite !skipn_O. split; apply firstn_app_exact;
  rewrite firstn_length; unfold zlen in *; lia.
Qed.

Lemma read_act_pdu id q : req_sound q ->
  exists pd, read_act_req (act_pdu (entity_of id q)) =
    Some (mkReading pd (q_nsapi q) (if q_sapi q =? 0 then 3 else q_sapi q) (firstn (Z.to_nat (q_qlen q)) (q_qos q)) 1 (q_atype q) (addr_of q) (q_apn q)
            (firstn (Z.to_nat (q_plen q)) (q_pco q))) /\ pd = 10.
Proof.
  intros (T & F & Hn & Hs & Ht & H4 & H6 & Hap). destruct (qos_read id q T F) as [Eq Ep].
  unfold act_pdu. rewrite Eq, Ep. cbn [entity_of nsapi sapi qlen atype v4 v6 apn plen]. destruct T as [T1 T2 T3 T4 T5 T6 _]. destruct F as [F1 F2].
  set (a := pdp_addr_enc _ _ _).
  assert (Ea : a = 1 :: q_atype q :: addr_of q).
  { unfold a, pdp_addr_enc, addr_of. rewrite !given_arg. unfold T_IPV4, T_IPV6, T_IPV4V6.
    destruct Ht as [E|[E|[E|[]]]]; rewrite <- E; cbn [Z.eqb Pos.eqb]; try reflexivity.
    change (0x8d mod 256) with 0x8d. do 2 f_equal. destruct (addr_arg (q_v4 q)); reflexivity. }
  assert (Es : sapi_of q mod 256 = if q_sapi q =? 0 then 3 else q_sapi q) by (unfold sapi_of; apply Z.mod_small; destruct (q_sapi q =? 0); lia).
  rewrite Es, Ea.
  set (qs := firstn (Z.to_nat (q_qlen q)) (q_qos q)). assert (Lq : zlen qs = q_qlen q) by (unfold qs; unfold zlen in *; rewrite firstn_length; lia).
  set (ps := firstn (Z.to_nat (q_plen q)) (q_pco q)). assert (Lp : zlen ps = q_plen q) by (unfold ps; unfold zlen in *; rewrite firstn_length; lia).
  exists 10. split; [|reflexivity].
  set (ad := 1 :: q_atype q :: addr_of q).
  cbn [app read_act_req]. cbn [lv]. rewrite <- Lq, take_app. cbn [lv]. rewrite take_app. unfold ad. rewrite <- Lp.
  assert (Pp : opt_tlv 0x27 (if 0 <? zlen ps then IE_PCO :: zlen ps :: ps else []) = Some (if 0 <? zlen ps then Some ps else None, [])).
  { destruct (0 <? zlen ps); [|reflexivity]. rewrite <- (app_nil_r ps) at 2. apply opt_tlv_yes. }
  assert (Pn : (match (if 0 <? zlen ps then Some ps else None) with Some p => p | None => [] end) = ps).
  { destruct (0 <? zlen ps) eqn:E; [reflexivity|]. symmetry. apply length_zero_iff_nil. unfold zlen in E. lia. }
  change (0x8a mod 16) with 10.
  destruct (q_apn q) as [|ch nm] eqn:Eap.
  - cbn [app]. set (tl := if 0 <? zlen ps then _ else _) in *.
    assert (E28 : opt_tlv 0x28 tl = Some (None, tl)) by (unfold tl; destruct (0 <? zlen ps); reflexivity).
    rewrite E28, Pp. rewrite Pn. reflexivity.
  - rewrite <- Eap in *. set (e := apn_enc (q_apn q) []).
    assert (Le : zlen e = zlen (q_apn q) + 1) by (unfold e; rewrite apn_len; cbn; lia).
    pose proof (zlen_nonneg (q_apn q)). cbv zeta. rewrite (Z.mod_small (zlen e) 256) by lia.
    change (IE_APN) with 0x28. rewrite <- !app_comm_cons. rewrite opt_tlv_yes, Pp.
    assert (Ed : dots (length e) e = Some (q_apn q)) by (apply (dots_ok (q_apn q) []); unfold zlen in Le; lia).
    rewrite Ed, Pn. reflexivity.
Qed.

(** When GMM has a connection, the message that is sent reads back as what the user asked for. *)
Theorem C72_request c i q t sig tl r :
  reached c -> req_sound q -> slots c i (Z.to_nat (q_nsapi q)) = None ->
  exists c' o pdu pd,
    run c [IActReq i q; IEstAcc (next c) t sig tl r] = Ok (c', [o; OUnitReq i pdu]) /\
    o = OEstReq (next c) (q_ptmsi q =? 0xffffffff) (q_ptmsi q) (q_sig q)
          (match q_imsi q with [] => imsi (ident c i) | l => l end) (match q_imei q with [] => imei (ident c i) | l => l end)
          (match q_imeisv q with [] => imeisv (ident c i) | l => l end) (q_rai q) /\
    read_act_req pdu = Some (mkReading pd (q_nsapi q) (if q_sapi q =? 0 then 3 else q_sapi q) (firstn (Z.to_nat (q_qlen q)) (q_qos q)) 1
                               (q_atype q) (addr_of q) (q_apn q) (firstn (Z.to_nat (q_plen q)) (q_pco q))) /\ pd = 10.
Proof.
  intros Hr Hq Hs. destruct (reached_inv c Hr) as [N [HN Hc]].
  pose proof Hq as (T & F & Hn & _).
  destruct (act_req_exec 255 N c Hc i q T F Hn Hs) as [c1 [E1 [S1 [G1 [X1 _]]]]].
  assert (E1' : step c (IActReq i q) = Ok (c1, [est_out (ids_of (ident c i) q) (entity_of (next c) q)], 0)) by exact E1.
  destruct (step_inv 255 N c (IActReq i q) _ _ _ Hc T (or_introl eq_refl) E1') as [N1 [HN1 [_ Hc1]]].
  destruct (est_acc_exec 255 N1 c1 i _ _ t sig tl r Hc1 ltac:(lia) ltac:(lia) S1 eq_refl) as [c2 [E2 _]].
  change (sess (entity_of (next c) q)) with (next c) in E2.
  destruct (read_act_pdu (next c) q Hq) as [pd [Er Epd]].
  exists c2. eexists. exists (act_pdu (entity_of (next c) q)), pd. split; [|split; [|split; assumption]].
  - rewrite run_cons, E1', run_cons, E2. reflexivity.
  - reflexivity.
Qed.

(** ** C74: one context per NSAPI, distinct session ids *)

Theorem C74_in_use c i q s :
  q_qlen q <= 22 -> q_plen q <= 253 -> req_typed q -> 5 <= q_nsapi q <= 15 -> slots c i (Z.to_nat (q_nsapi q)) = Some s ->
  step c (IActReq i q) = Ok (c, [], -22).
Proof. intros H1 H2 [_ _ Q1 _ _ Q2 _] H3 Hs. cbn [step]. apply (act_req_refused c i q s); try lia. exact Hs. Qed.

Theorem C74_sessions_partial c i n s i' n' s' :
  reached c -> slots c i n = Some s -> slots c i' n' = Some s' -> sess s = sess s' -> i = i' /\ n = n'.
Proof. intros Hr A B E. destruct (reached_inv c Hr) as [N [HN Hc]]. exact (ci_uniq _ _ _ Hc ltac:(lia) _ _ _ _ _ _ A B E). Qed.

(** ** C75: at most one confirmation per request *)

Definition is_cnf (i n : Z) (x : out) : bool := match x with OActCnf a b _ _ => (a =? i) && (b =? n) | _ => false end.
Definition is_req (i n : Z) (x : input) : bool := match x with IActReq a q => (a =? i) && (q_nsapi q =? n) | _ => false end.
Definition count {A} (p : A -> bool) (l : list A) : Z := zlen (filter p l).
Lemma count_app {A} (p : A -> bool) a b : count p (a ++ b) = count p a + count p b.
Proof. unfold count. rewrite filter_app, zlen_app. reflexivity. Qed.
Lemma count_nonneg {A} (p : A -> bool) l : 0 <= count p l.
Proof. apply zlen_nonneg. Qed.
Lemma count_cnfs i n o : count (is_cnf i n) o <= cnfs o.
Proof.
  unfold count. induction o as [|x o IH]; [cbn; lia|]. cbn [filter cnfs fold_right]. fold (cnfs o).
  destruct x; cbn [is_cnf]; try exact IH. destruct (_ && _); [rewrite zlen_cons; lia|lia].
Qed.
Lemma count_none {A} (p : A -> bool) l : (forall x, In x l -> p x = false) -> count p l = 0.
Proof.
  unfold count. induction l as [|x l IH]; intros H; [reflexivity|]. cbn [filter]. rewrite (H x (or_introl eq_refl)). apply IH. intros y Hy. apply H. right. exact Hy.
Qed.
Definition pend_at (c : ctx) (i : Z) (n : nat) : Z := match slots c i n with Some s => pend s | None => 0 end.
Lemma pend_bound s : 0 <= pend s <= 1.
Proof. unfold pend. destruct (st s); lia. Qed.
Lemma pend_at_bound c i n : 0 <= pend_at c i n <= 1.
Proof. unfold pend_at. destruct (slots c i n); [apply pend_bound|lia]. Qed.

Lemma step_count N c x c' o z i n : cinv 255 N c -> typed x -> step c x = Ok (c', o, z) ->
  count (is_cnf i (Z.of_nat n)) o + pend_at c' i n <= count (is_req i (Z.of_nat n)) [x] + pend_at c i n.
Proof.
  intros Hc Hx E. pose proof (step_ok True 255 N c x Hc Hx (or_introl (conj I eq_refl))) as G. rewrite E in G.
  destruct G as [N' [_ [_ [_ Ef]]]]. pose proof (count_nonneg (is_req i (Z.of_nat n)) [x]) as Hq.
  pose proof (count_cnfs i (Z.of_nat n) o) as Hcn. unfold pend_at.
  destruct Ef as [A B _|i0 n0 s s' A B K D _|i0 n0 s A B C D F _|i0 q n0 s' Ex En A B _ St D F _].
  - rewrite A. lia.
  - destruct (slots_ok _ _ _ _ _ _ Hc A) as [_ [Hns _]].
    destruct (Z.eq_dec i i0) as [->|Hi]; [destruct (Nat.eq_dec n n0) as [->|Hn]|].
    + rewrite A, B. pose proof (k_cnf _ _ _ _ K). lia.
    + rewrite (D i0 n) by congruence. rewrite (count_none (is_cnf i0 (Z.of_nat n)) o); [lia|].
      intros y Hy. destruct y; try reflexivity. destruct (k_mine _ _ _ _ K _ _ _ _ Hy) as [E1 E2]. cbn [is_cnf]. subst. rewrite Hns. apply andb_false_iff. right. lia.
    + rewrite (D i n) by congruence. rewrite (count_none (is_cnf i (Z.of_nat n)) o); [lia|].
      intros y Hy. destruct y; try reflexivity. destruct (k_mine _ _ _ _ K _ _ _ _ Hy) as [E1 E2]. cbn [is_cnf]. subst. apply andb_false_iff. left. lia.
  - subst o. destruct (Z.eq_dec i i0) as [->|Hi]; [destruct (Nat.eq_dec n n0) as [->|Hn]|].
    + rewrite A, C. pose proof (pend_bound s). change (count (is_cnf i0 (Z.of_nat n0)) []) with 0 in *. lia.
    + rewrite (F i0 n) by congruence. change (count (is_cnf i0 (Z.of_nat n)) []) with 0 in *. lia.
    + rewrite (F i n) by congruence. change (count (is_cnf i (Z.of_nat n)) []) with 0 in *. lia.
  - destruct (Z.eq_dec i i0) as [->|Hi]; [destruct (Nat.eq_dec n n0) as [->|Hn]|].
    + rewrite A, B. subst x. assert (Hqn : 0 <= q_nsapi q) by (cbn [typed] in Hx; destruct Hx; lia).
      assert (Hr : is_req i0 (Z.of_nat (Z.to_nat (q_nsapi q))) (IActReq i0 q) = true) by (cbn [is_req]; rewrite Z.eqb_refl; cbn [andb]; lia).
      rewrite En. unfold count at 2. cbn [filter]. rewrite Hr. change (zlen [IActReq i0 q]) with 1.
      pose proof (pend_bound s'). rewrite <- En. lia.
    + rewrite (F i0 n) by congruence. lia.
    + rewrite (F i n) by congruence. lia.
Qed.
Lemma run_count l : forall N c c' o i n, cinv 255 N c -> Forall typed l -> run c l = Ok (c', o) ->
  count (is_cnf i (Z.of_nat n)) o + pend_at c' i n <= count (is_req i (Z.of_nat n)) l + pend_at c i n.
Proof.
  induction l as [|x l IH]; intros N c c' o i n Hc Ht H.
  - injection H as <- <-. cbn. lia.
  - pose proof (Forall_inv Ht) as Hx. pose proof (Forall_inv_tail Ht) as Hl. rewrite run_cons in H.
    destruct (step c x) as [[[c1 o1] z]| |] eqn:E; try discriminate.
    destruct (run c1 l) as [[c2 o2]| |] eqn:E2; try discriminate. injection H as <- <-.
    destruct (step_inv 255 N c x c1 o1 z Hc Hx (or_introl eq_refl) E) as [N1 [_ [_ Hc1]]].
    pose proof (step_count N c x c1 o1 z i n Hc Hx E). pose proof (IH N1 c1 c2 o2 i n Hc1 Hl E2).
    rewrite count_app. change (x :: l) with ([x] ++ l). rewrite count_app. lia.
Qed.
Theorem C75_confirmed_once l c o i n :
  Forall typed l -> run ctx0 l = Ok (c, o) -> 0 <= n -> count (is_cnf i n) o <= count (is_req i n) l.
Proof.
  intros Ht H Hn. pose proof (run_count l 0 ctx0 c o i (Z.to_nat n) (cinv0 255) Ht H) as G. rewrite Z2Nat.id in G by exact Hn.
  pose proof (pend_at_bound c i (Z.to_nat n)). change (pend_at ctx0 i (Z.to_nat n)) with 0 in G. lia.
Qed.

Print Assumptions C72_request.
Print Assumptions C74_in_use.
Print Assumptions C74_sessions_partial.
Print Assumptions C75_confirmed_once.
