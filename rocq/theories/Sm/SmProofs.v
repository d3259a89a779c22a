(** Proofs about the model of session management: what every step keeps. *)
From Verif.Lib Require Import Base Outcome.
From Verif.Sm Require Import SmModel.

(** ** Rules for functions of one entity; [U] says whether undefined behaviour may happen. *)
Definition wp {A} (U : Prop) (m : M A) (Q : St -> list out -> A -> Prop) (x : St) : Prop :=
  match m x with Ok (x', o, a) => Q x' o a | Err _ => False | UB => U end.

Lemma wp_bind {A B} U (m : M A) (f : A -> M B) Q x :
  wp U m (fun x1 o1 a => wp U (f a) (fun x2 o2 b => Q x2 (o1 ++ o2) b) x1) x -> wp U (bindM m f) Q x.
Proof.
  unfold wp, bindM. destruct (m x) as [[[x1 o1] a]| |]; try tauto.
  destruct (f a x1) as [[[x2 o2] b]| |]; tauto.
Qed.
Lemma wp_weaken {A} U (m : M A) (Q R : St -> list out -> A -> Prop) x :
  wp U m Q x -> (forall x' o a, Q x' o a -> R x' o a) -> wp U m R x.
Proof. unfold wp. destruct (m x) as [[[x1 o1] a]| |]; auto. Qed.
Lemma wp_ret {A} U (a : A) (Q : St -> list out -> A -> Prop) x : Q x [] a -> wp U (ret a) Q x.
Proof. auto. Qed.
Lemma wp_gets {A} U (f : St -> A) (Q : St -> list out -> A -> Prop) x : Q x [] (f x) -> wp U (gets f) Q x.
Proof. auto. Qed.
Lemma wp_upd U f (Q : St -> list out -> unit -> Prop) i s : Q (i, f s) [] tt -> wp U (upd f) Q (i, s).
Proof. auto. Qed.
Lemma wp_updi U f (Q : St -> list out -> unit -> Prop) i s : Q (f i, s) [] tt -> wp U (updi f) Q (i, s).
Proof. auto. Qed.
Lemma wp_send U o (Q : St -> list out -> unit -> Prop) x : Q x [o] tt -> wp U (send o) Q x.
Proof. auto. Qed.
Lemma wp_rd U l k (Q : St -> list out -> Z -> Prop) x : (U \/ 0 <= k < zlen l) -> (0 <= k < zlen l -> Q x [] (nth (Z.to_nat k) l 0)) -> wp U (liftr (rd l k)) Q x.
Proof.
  intros H K. unfold wp, liftr, rd. destruct ((0 <=? k) && (k <? zlen l)) eqn:E.
  - apply K. lia.
  - destruct H; [assumption|]. lia.
Qed.
Lemma wp_rdn U l k n (Q : St -> list out -> list Z -> Prop) x :
  (U \/ (0 <= k /\ 0 <= n /\ k + n <= zlen l)) ->
  (0 <= k -> 0 <= n -> k + n <= zlen l -> Q x [] (slice (Z.to_nat k) (Z.to_nat n) l)) -> wp U (liftr (rdn l k n)) Q x.
Proof.
  intros H K. unfold wp, liftr, rdn. destruct ((0 <=? k) && (0 <=? n) && (k + n <=? zlen l)) eqn:E.
  - apply K; lia.
  - destruct H; [assumption|]. lia.
Qed.

(** ** One entity *)

Definition cnfs (o : list out) : Z := fold_right (fun x n => match x with OActCnf _ _ _ _ => n + 1 | _ => n end) 0 o.
Lemma cnfs_app a b : cnfs (a ++ b) = cnfs a + cnfs b.
Proof. induction a as [|x a IH]; [reflexivity|]. cbn [app cnfs fold_right]. fold (cnfs (a ++ b)). fold (cnfs a). destruct x; lia. Qed.
Definition pend (s : sme) : Z := match st s with Pending => 1 | _ => 0 end.

(** What is true of every entity at rest: [P] is the number of octets of options it may hold. *)
Record sme_ok (P : Z) (s : sme) : Prop := mkSmeOk {
  ok_qos : zlen (qos s) = 22; ok_qb : bytes (qos s); ok_qlen : 0 <= qlen s <= 22;
  ok_pco : zlen (pco s) = 255; ok_pb : bytes (pco s); ok_plen : 0 <= plen s <= P;
  ok_ti : ti s = 0;
  ok_st : (st s = Inactive /\ fT s = 0 /\ fon s = true)
       \/ (st s = Pending /\ fT s = 3380 /\ fon s = true /\ 0 <= tries s <= 3)
       \/ (st s = Active /\ fon s = false) }.

(** The same before the first state change of a new entity, and in the middle of a function. *)
Record sme_pre (P : Z) (s : sme) : Prop := mkSmePre {
  pr_qos : zlen (qos s) = 22; pr_qb : bytes (qos s); pr_qlen : 0 <= qlen s <= 22;
  pr_pco : zlen (pco s) = 255; pr_pb : bytes (pco s); pr_plen : 0 <= plen s <= P; pr_ti : ti s = 0 }.
Lemma ok_pre P s : sme_ok P s -> sme_pre P s.
Proof. intros []. constructor; assumption. Qed.

(** What a function may do to an entity: the session and NSAPI stay, a confirmation ends the activation. *)
Record kept (m : Z) (s : sme) (o : list out) (s' : sme) : Prop := mkKept {
  k_sess : sess s' = sess s; k_nsapi : nsapi s' = nsapi s;
  k_cnf : cnfs o + pend s' <= pend s;
  k_mine : forall a b p v, In (OActCnf a b p v) o -> a = m /\ b = nsapi s }.

Lemma overlay_len v a : zlen v <= zlen a -> zlen (overlay v a) = zlen a.
Proof. intros H. unfold overlay, zlen in *. rewrite app_length, skipn_length. lia. Qed.
Lemma overlay_bytes v a : bytes v -> bytes a -> bytes (overlay v a).
Proof. intros H K. unfold overlay, bytes in *. apply Forall_app. split; [assumption|]. apply Forall_skipn. assumption. Qed.
Lemma zlen_slice k n (l : list Z) : 0 <= k -> 0 <= n -> k + n <= zlen l -> zlen (slice (Z.to_nat k) (Z.to_nat n) l) = n.
Proof. intros. unfold zlen in *. rewrite slice_length; lia. Qed.

Ltac wpstep :=
  match goal with
  | |- wp _ (bindM _ _) _ _ => apply wp_bind
  | |- wp _ (ret _) _ _ => apply wp_ret
  | |- wp _ (gets _) _ _ => apply wp_gets
  | |- wp _ (upd _) _ (_, _) => apply wp_upd
  | |- wp _ (updi _) _ (_, _) => apply wp_updi
  | |- wp _ (send _) _ _ => apply wp_send
  end.

(** *** The state machine *)

Lemma may_inactive s : st s <> Inactive -> may_go (st s) Inactive = true.
Proof. destruct (st s); intros H; try reflexivity; congruence. Qed.

Lemma wp_chg_inactive U i s (Q : St -> list out -> unit -> Prop) :
  st s <> Inactive -> Q (i, set_fT 0 (set_fon true (set_st Inactive s))) [] tt -> wp U (state_chg Inactive) Q (i, s).
Proof.
  intros H K. unfold state_chg. repeat wpstep. cbn [snd]. rewrite may_inactive by assumption. cbn [negb]. repeat wpstep. exact K.
Qed.
Definition est_out (i : ids) (s : sme) : out :=
  OEstReq (sess s) (ptmsi i =? RESERVED_TMSI) (ptmsi i) (psig i) (imsi i) (imei i) (imeisv i) (ra i).
Lemma wp_chg_pending U i s (Q : St -> list out -> unit -> Prop) :
  st s = Inactive \/ st s = Pending -> Q (i, set_fT 3380 (set_fon true (set_st Pending s))) [est_out i s] tt ->
  wp U (state_chg Pending) Q (i, s).
Proof.
  intros H K. unfold state_chg. repeat wpstep. cbn [snd].
  replace (may_go (st s) Pending) with true by (destruct H as [-> | ->]; reflexivity). cbn [negb].
  unfold submit_est_req. repeat wpstep. exact K.
Qed.
Lemma wp_chg_active U i s (Q : St -> list out -> unit -> Prop) :
  st s = Pending -> Q (i, set_fT 0 (set_fon false (set_st Active s))) [] tt -> wp U (state_chg Active) Q (i, s).
Proof. intros H K. unfold state_chg. repeat wpstep. cbn [snd]. rewrite H. cbn [may_go negb]. repeat wpstep. exact K. Qed.

Definition cnf_out (m cause : Z) (i : ids) (s : sme) : out :=
  OActCnf m (nsapi s) (slice 0 (Z.to_nat (plen s)) (pco s))
    (if cause =? 0 then Accepted (atype s) (v4 s) (v6 s) (prio s) (slice 0 (Z.to_nat (qlen s)) (qos s)) (ptmsi i) (psig i) (tlli i) (ra i)
     else Rejected (cause mod 256)).
Lemma wp_act_cnf U m cause P i s (Q : St -> list out -> unit -> Prop) :
  sme_pre P s -> U \/ P <= 253 -> Q (i, s) [cnf_out m cause i s] tt -> wp U (submit_act_cnf m cause) Q (i, s).
Proof.
  intros Hp HU K. destruct Hp. unfold submit_act_cnf. do 4 wpstep. cbn [fst snd]. unfold PCO_MAX.
  destruct (253 <? plen s) eqn:E.
  { unfold wp, abort. destruct HU; [assumption|]. lia. }
  wpstep. apply wp_rdn; [right; lia|]. intros _ _ _.
  unfold cnf_out in K. destruct (cause =? 0) eqn:Ec.
  - wpstep. apply wp_rdn; [right; lia|]. intros _ _ _. wpstep. cbn [app]. change (Z.to_nat 0) with O. exact K.
  - wpstep. cbn [app]. change (Z.to_nat 0) with O. exact K.
Qed.
Definition snact_out (i : ids) (s : sme) : out :=
  OSnAct (tlli i) (nsapi s) (sapi s) (prio s) (slice 0 (Z.to_nat (qlen s)) (qos s)).
Lemma wp_sn_act U P i s (Q : St -> list out -> unit -> Prop) :
  sme_pre P s -> Q (i, s) [snact_out i s] tt -> wp U submit_sn_act Q (i, s).
Proof.
  intros Hp K. destruct Hp. unfold submit_sn_act. do 4 wpstep. cbn [fst snd].
  wpstep. apply wp_rdn; [right; lia|]. intros _ _ _. wpstep. exact K.
Qed.

(** The message an entity sends. *)
Definition act_pdu (s : sme) : list Z :=
  let a := pdp_addr_enc (atype s) (addr_arg (v4 s)) (addr_arg (v6 s)) in
  [0x8a; 0x41; nsapi s; sapi s mod 256]
  ++ qlen s :: slice 0 (Z.to_nat (qlen s)) (qos s)
  ++ zlen a :: a
  ++ (match apn s with [] => [] | _ => let e := apn_enc (apn s) [] in IE_APN :: zlen e mod 256 :: e end)
  ++ (if 0 <? plen s then IE_PCO :: plen s :: slice 0 (Z.to_nat (plen s)) (pco s) else []).
Lemma build_act_req_ok P s : sme_pre P s -> P <= 255 -> build_act_req s = Ok (act_pdu s).
Proof.
  intros Hp HP. destruct Hp as [H1 H2 H3 H4 H5 H6 H7]. unfold build_act_req. rewrite rdn_ok by lia. cbn [bind].
  rewrite rdn_ok by lia. cbn [bind]. rewrite H7. change (Z.to_nat 0) with O. reflexivity.
Qed.
Lemma wp_tx_act_req U m P i s (Q : St -> list out -> unit -> Prop) :
  sme_pre P s -> P <= 255 -> Q (i, s) [OUnitReq m (act_pdu s)] tt -> wp U (tx_act_req m) Q (i, s).
Proof.
  intros Hp HP K. unfold tx_act_req. do 2 wpstep. cbn [snd]. wpstep. rewrite (build_act_req_ok P s Hp HP).
  unfold wp at 1, liftr. wpstep. exact K.
Qed.

(** What an event does to an entity at rest. *)
Definition ev_ok (e : pev) : Prop := match e with EvEstCnf | EvEstRej | EvRxRej _ | EvRxAcc | EvNsapi | EvRelease => True | _ => False end.

Lemma sme_ok_parts P s s' :
  qos s' = qos s -> qlen s' = qlen s -> pco s' = pco s -> plen s' = plen s -> ti s' = ti s -> sme_pre P s -> sme_pre P s'.
Proof. intros A B C D E []. constructor; congruence. Qed.

Lemma sme_ok_inactive P s : sme_pre P s -> sme_ok P (set_fT 0 (set_fon true (set_st Inactive s))).
Proof. intros []. constructor; try assumption. left. repeat split. Qed.
Lemma sme_ok_active P s : sme_pre P s -> sme_ok P (set_fT 0 (set_fon false (set_st Active s))).
Proof. intros []. constructor; try assumption. right. right. split; reflexivity. Qed.
Lemma sme_ok_pending P s : sme_pre P s -> 0 <= tries s <= 3 -> sme_ok P (set_fT 3380 (set_fon true (set_st Pending s))).
Proof. intros [] H. constructor; try assumption. right. left. repeat split; try exact H; try reflexivity; apply H. Qed.

Lemma pend_pos s : 0 <= pend s <= 1.
Proof. unfold pend. destruct (st s); lia. Qed.

Lemma dispatch_kept U m e P i s :
  sme_ok P s -> P <= 255 -> U \/ P <= 253 -> ev_ok e ->
  wp U (dispatch m e) (fun x o z => fst x = i /\ sme_ok P (snd x) /\ kept m s o (snd x) /\ (z = 0 \/ (z = -1 /\ o = [] /\ snd x = s))) (i, s).
Proof.
  intros Hok HP HU He. pose proof (ok_pre P s Hok) as Hp.
  unfold dispatch. wpstep. wpstep. cbn [snd].
  destruct (permitted (st s) e) eqn:Ep.
  2:{ wpstep. cbn [app fst snd]. split; [reflexivity|]. split; [exact Hok|]. split; [|right; repeat split].
      constructor; [reflexivity|reflexivity|cbn; lia|]. intros ? ? ? ? []. }
  wpstep.
  assert (K : forall s' o, sess s' = sess s -> nsapi s' = nsapi s -> cnfs o + pend s' <= pend s ->
     (forall a b p v, In (OActCnf a b p v) o -> a = m /\ b = nsapi s) -> sme_ok P s' ->
     fst (i, s') = i /\ sme_ok P (snd (i, s')) /\ kept m s o (snd (i, s')) /\ (0 = 0 \/ (0 = -1 /\ o = [] /\ snd (i, s') = s))).
  { intros s' o A B C D E. split; [reflexivity|]. split; [exact E|]. split; [constructor; assumption | left; reflexivity]. }
  pose proof (pend_pos s) as Hpp.
  destruct (ok_st P s Hok) as [[S1 [S2 S3]]|[[S1 [S2 [S3 S4]]]|[S1 S2]]]; rewrite S1 in Ep |- *; destruct e; try discriminate Ep; try contradiction He; cbn [action].
  - (* EstCnf *) apply (wp_tx_act_req U m P); [exact Hp|lia|]. wpstep. apply K; [reflexivity|reflexivity|cbn; lia | | exact Hok]. intros ? ? ? ? [C|[]]; discriminate C.
  - apply wp_chg_inactive; [congruence|]. wpstep. apply K; [reflexivity|reflexivity|cbn; lia| |apply sme_ok_inactive; exact Hp]. intros ? ? ? ? [].
  - wpstep. apply wp_chg_inactive; [congruence|].
    apply (wp_act_cnf U m cause P); [exact (ok_pre _ _ (sme_ok_inactive P s Hp)) | exact HU |].
    wpstep. apply K; [reflexivity|reflexivity|unfold pend; rewrite S1; cbn; lia | | apply sme_ok_inactive; exact Hp].
    intros a b p v [C|[]]. unfold cnf_out in C. injection C. intros. subst. split; reflexivity.
  - apply (wp_sn_act U P); [exact Hp|]. wpstep. apply K; [reflexivity|reflexivity|cbn; lia| |exact Hok]. intros ? ? ? ? [C|[]]; discriminate C.
  - wpstep. apply wp_chg_active; [exact S1|].
    apply (wp_act_cnf U m 0 P); [exact (ok_pre _ _ (sme_ok_active P s Hp)) | exact HU |].
    wpstep. apply K; [reflexivity|reflexivity|unfold pend; rewrite S1; cbn; lia | | apply sme_ok_active; exact Hp].
    intros a b p v [C|[]]. unfold cnf_out in C. injection C. intros. subst. split; reflexivity.
  - apply wp_chg_inactive; [congruence|]. wpstep. apply K; [reflexivity|reflexivity|cbn; lia| |apply sme_ok_inactive; exact Hp]. intros ? ? ? ? [].
  - apply wp_chg_inactive; [congruence|]. wpstep. apply K; [reflexivity|reflexivity|cbn; lia| |apply sme_ok_inactive; exact Hp]. intros ? ? ? ? [].
Qed.

(** ** Messages received *)

(** Members the parameters of an answer do not touch. *)
Record same (s s' : sme) : Prop := mkSame {
  m_sess : sess s' = sess s; m_nsapi : nsapi s' = nsapi s; m_qlen : qlen s' = qlen s; m_apn : apn s' = apn s;
  m_ti : ti s' = ti s; m_st : st s' = st s; m_fT : fT s' = fT s; m_fon : fon s' = fon s; m_tries : tries s' = tries s }.
Lemma same_refl s : same s s.
Proof. constructor; reflexivity. Qed.
Lemma same_trans a b c : same a b -> same b c -> same a c.
Proof. intros [] []. constructor; congruence. Qed.
Lemma same_kept m s s' : same s s' -> kept m s [] s'.
Proof. intros []. constructor; try assumption; [cbn; unfold pend; rewrite m_st0; lia|]. intros ? ? ? ? []. Qed.
Lemma kept_trans m a o1 b o2 c : kept m a o1 b -> kept m b o2 c -> kept m a (o1 ++ o2) c.
Proof.
  intros [A1 A2 A3 A4] [B1 B2 B3 B4]. constructor; [congruence|congruence|rewrite cnfs_app; lia|].
  intros x y p v H. apply in_app_or in H. destruct H as [H|H]; [eauto|]. rewrite <- A2. eauto.
Qed.

Definition J (P : Z) (s s' : sme) : Prop := sme_ok P s' /\ same s s'.
Lemma J_refl P s : sme_ok P s -> J P s s.
Proof. split; [assumption|apply same_refl]. Qed.
Ltac J_set := intros [[] []]; split; [constructor; assumption | constructor; assumption].
Lemma J_sapi P s s' v : J P s s' -> J P s (set_sapi v s'). Proof. J_set. Qed.
Lemma J_prio P s s' v : J P s s' -> J P s (set_prio v s'). Proof. J_set. Qed.
Lemma J_atype P s s' v : J P s s' -> J P s (set_atype v s'). Proof. J_set. Qed.
Lemma J_v4 P s s' v : J P s s' -> J P s (set_v4 v s'). Proof. J_set. Qed.
Lemma J_v6 P s s' v : J P s s' -> J P s (set_v6 v s'). Proof. J_set. Qed.
Lemma J_qos P s s' v : bytes v -> zlen v <= 22 -> J P s s' -> J P s (set_qos (overlay v (qos s')) s').
Proof.
  intros Hb Hv [[] []]. split; [|constructor; assumption].
  constructor; try assumption; cbn [set_qos qos]; [rewrite overlay_len; lia | apply overlay_bytes; assumption].
Qed.
Lemma J_pco P s s' v n : bytes v -> zlen v = n -> n <= P -> P <= 255 -> J P s s' -> J P s (set_pco (overlay v (pco s')) (set_plen n s')).
Proof.
  intros Hb Hv Hn HP [[] []]. split; [|constructor; assumption].
  assert (0 <= zlen v) by (unfold zlen; lia).
  constructor; try assumption; cbn [set_pco set_plen pco plen]; [rewrite overlay_len; lia | apply overlay_bytes; assumption | lia].
Qed.

(** *** Elements, as TS 24.008 codes them: the tag and the octets of the value *)
Definition tlv_tag (t : Z) : Prop := In t [0x28; 0x27; 0x2b; 0x30; 0x31; 0x34; 0x43; 0x45; 0x48].
Inductive elements : list Z -> list (Z * list Z) -> Prop :=
| el_nil : elements [] []
| el_half o r l : 0x80 <= o <= 0x8f -> elements r l -> elements (o :: r) ((0x80, [o]) :: l)
| el_one t a r l : In t [0x29; 0x32; 0x46] -> elements r l -> elements (t :: a :: r) ((t, [a]) :: l)
| el_seven t v r l : t = 0x47 -> length v = 7%nat -> elements r l -> elements (t :: v ++ r) ((t, v) :: l)
| el_tlv t v r l : tlv_tag t -> elements r l -> elements (t :: zlen v :: v ++ r) ((t, v) :: l).
Fixpoint el_find (t : Z) (l : list (Z * list Z)) : option (list Z) :=
  match l with [] => None | (u, v) :: r => if u =? t then Some v else el_find t r end.

Definition value_of (pdu : list Z) (x : Z * (Z * Z)) : Z * list Z :=
  (fst x, slice (Z.to_nat (fst (snd x))) (Z.to_nat (snd (snd x))) pdu).
Definition in_pdu (pdu : list Z) (x : Z * (Z * Z)) : Prop :=
  0 <= fst (snd x) /\ 0 <= snd (snd x) /\ fst (snd x) + snd (snd x) <= zlen pdu.

Lemma tlv_parse_step f pdu ofs :
  tlv_parse (S f) pdu ofs =
  if zlen pdu <=? ofs then Some [] else
      let t := nth (Z.to_nat ofs) pdu 0 in
      let more (tag pos len n : Z) :=
        if zlen pdu - ofs <? n then None
        else match tlv_parse f pdu (ofs + n) with Some r => Some ((tag, (pos, len)) :: r) | None => None end in
      match ie_def (Z.land t 0xf0) with
      | ISingle => more (Z.land t 0xf0) ofs 1 1
      | _ =>
        match ie_def t with
        | IFixed n => more t (ofs + 1) n (1 + n)
        | ITlv => if zlen pdu - ofs <? 2 then None
                  else let l := nth (Z.to_nat (ofs + 1)) pdu 0 in more t (ofs + 2) l (2 + l)
        | _ => None
        end
      end.
Proof. reflexivity. Qed.

Lemma half_tag t : 0 <= t < 256 ->
  (ie_def (Z.land t 0xf0) = ISingle <-> 0x80 <= t <= 0x8f) /\ (0x80 <= t <= 0x8f -> Z.land t 0xf0 = 0x80).
Proof.
  intros H. assert (E : Z.land t 0xf0 = 16 * (t / 16)).
  { apply Z.bits_inj'. intros n Hn. rewrite Z.land_spec. change 16 with (2 ^ 4). rewrite (Z.mul_comm (2 ^ 4)).
    destruct (Z.ltb_spec n 4).
    - rewrite Z.mul_pow2_bits_low by lia. replace (Z.testbit 0xf0 n) with false; [apply andb_false_r|].
      assert (n = 0 \/ n = 1 \/ n = 2 \/ n = 3) as [->|[->|[->| ->]]] by lia; reflexivity.
    - rewrite Z.mul_pow2_bits by lia. rewrite Z.div_pow2_bits by lia. replace (n - 4 + 4) with n by lia.
      destruct (Z.ltb_spec n 8).
      + assert (n = 4 \/ n = 5 \/ n = 6 \/ n = 7) as [->|[->|[->| ->]]] by lia; apply andb_true_r.
      + replace (Z.testbit t n) with false; [reflexivity|]. symmetry. apply Z.bits_above_log2; [lia|].
        destruct (Z.eq_dec t 0) as [->|]; [cbn; lia|]. apply Z.log2_lt_pow2; [lia|].
        apply Z.lt_le_trans with (2 ^ 8); [lia|]. apply Z.pow_le_mono_r; lia. }
  split.
  - rewrite E. unfold ie_def. split.
    + destruct (16 * (t / 16) =? 128) eqn:Q; [intros _; lia|].
      repeat match goal with |- context [if ?c then _ else _] => destruct c end; discriminate.
    + intros K. replace (16 * (t / 16) =? 128) with true by lia. reflexivity.
  - intros K. rewrite E. lia.
Qed.
Lemma ie_tlv t : ie_def t = ITlv <-> tlv_tag t.
Proof.
  unfold ie_def, tlv_tag. split.
  - destruct (t =? 0x80) eqn:A; [discriminate|].
    destruct ((t =? 0x28) || (t =? 0x27) || (t =? 0x2b) || (t =? 0x30) || (t =? 0x31) || (t =? 0x34) || (t =? 0x43) || (t =? 0x45) || (t =? 0x48)) eqn:B.
    + intros _. cbn [In]. lia.
    + repeat match goal with |- context [if ?c then _ else _] => destruct c end; discriminate.
  - cbn [In]. intros H. repeat destruct H as [<-|H]; try reflexivity. contradiction.
Qed.
Lemma ie_fixed t n : ie_def t = IFixed n <-> (n = 1 /\ In t [0x29; 0x32; 0x46]) \/ (n = 7 /\ t = 0x47).
Proof.
  unfold ie_def. split.
  - destruct (t =? 0x80) eqn:A; [discriminate|].
    destruct ((t =? 0x28) || (t =? 0x27) || (t =? 0x2b) || (t =? 0x30) || (t =? 0x31) || (t =? 0x34) || (t =? 0x43) || (t =? 0x45) || (t =? 0x48)) eqn:B; [discriminate|].
    destruct ((t =? 0x29) || (t =? 0x32) || (t =? 0x46)) eqn:C.
    + intros [= <-]. left. split; [reflexivity|]. cbn [In]. lia.
    + destruct (t =? 0x47) eqn:D; [intros [= <-]; right; split; [reflexivity|lia] | discriminate].
  - intros [[-> H]|[-> ->]]; [|reflexivity]. cbn [In] in H. repeat destruct H as [<-|H]; try reflexivity. contradiction.
Qed.

Lemma nth_byte0 l n : bytes l -> 0 <= nth n l 0 < 256.
Proof. intros H. destruct (Nat.lt_ge_cases n (length l)) as [K|K]; [exact (proj1 (Forall_forall _ _) H _ (nth_In l 0 K)) | rewrite nth_overflow by exact K; lia]. Qed.
Lemma skipn_skipn a b (l : list Z) : skipn a (skipn b l) = skipn (a + b) l.
Proof. revert l. induction b as [|b IH]; intros l; [rewrite Nat.add_0_r; reflexivity|]. destruct l; [rewrite !skipn_nil; reflexivity|]. rewrite Nat.add_succ_r. cbn [skipn]. apply IH. Qed.
Lemma skipn_cons (l : list Z) n d : (n < length l)%nat -> skipn n l = nth n l d :: skipn (S n) l.
Proof. revert n. induction l as [|x l IH]; intros n H; cbn [length] in H; [lia|]. destruct n; [reflexivity|]. cbn [skipn nth]. apply IH. lia. Qed.
Lemma skipn_slice k n (l : list Z) : (k + n <= length l)%nat -> skipn k l = slice k n l ++ skipn (k + n) l.
Proof.
  intros H. unfold slice. rewrite <- (firstn_skipn n (skipn k l)) at 1. f_equal. rewrite skipn_skipn. f_equal. lia.
Qed.

Lemma tlv_sound f pdu ofs L :
  bytes pdu -> 0 <= ofs <= zlen pdu -> (Z.to_nat (zlen pdu - ofs) <= f)%nat -> tlv_parse f pdu ofs = Some L ->
  elements (skipn (Z.to_nat ofs) pdu) (map (value_of pdu) L) /\ Forall (in_pdu pdu) L.
Proof.
  intros Hb. revert ofs L. induction f as [|f IH]; intros ofs L Ho Hf HL.
  - assert (ofs = zlen pdu) by lia. subst ofs. cbn [tlv_parse] in HL. rewrite Z.leb_refl in HL. injection HL as <-.
    unfold zlen. rewrite Nat2Z.id, skipn_all. split; [constructor | constructor].
  - rewrite tlv_parse_step in HL. destruct (zlen pdu <=? ofs) eqn:E.
    { injection HL as <-. assert (ofs = zlen pdu) by lia. subst ofs.
      unfold zlen. rewrite Nat2Z.id, skipn_all. split; [constructor | constructor]. }
    cbv zeta in HL. assert (Hl : (Z.to_nat ofs < length pdu)%nat) by (unfold zlen in *; lia).
    assert (Hs : skipn (Z.to_nat ofs) pdu = nth (Z.to_nat ofs) pdu 0 :: skipn (Z.to_nat (ofs + 1)) pdu)
      by (rewrite (skipn_cons pdu (Z.to_nat ofs) 0) by lia; do 2 f_equal; lia).
    assert (Ht : 0 <= nth (Z.to_nat ofs) pdu 0 < 256) by (apply nth_byte0; assumption).
    set (t := nth (Z.to_nat ofs) pdu 0) in *.
    assert (rec : forall tag pos len n, 1 <= n -> 0 <= pos -> 0 <= len -> pos + len = ofs + n ->
       (if zlen pdu - ofs <? n then None else match tlv_parse f pdu (ofs + n) with Some r => Some ((tag, (pos, len)) :: r) | None => None end) = Some L ->
       exists r, L = (tag, (pos, len)) :: r /\ pos + len <= zlen pdu /\ elements (skipn (Z.to_nat (ofs + n)) pdu) (map (value_of pdu) r) /\ Forall (in_pdu pdu) r).
    { intros tag pos len n Hn Hp Hle Hpl HR. destruct (zlen pdu - ofs <? n) eqn:En; [discriminate|].
      destruct (tlv_parse f pdu (ofs + n)) as [r|] eqn:Er; [|discriminate]. injection HR as <-.
      exists r. split; [reflexivity|]. split; [lia|]. apply IH; [lia|lia|exact Er]. }
    destruct (half_tag t Ht) as [Hh1 Hh2].
    destruct (ie_def (Z.land t 240)) eqn:Eh.
    2:{ pose proof (proj1 Hh1 eq_refl) as Hr. rewrite (Hh2 Hr) in HL.
        apply rec in HL; try lia. destruct HL as [r [-> [Hin [He Hf']]]]. split.
        - rewrite Hs. cbn [map]. replace (value_of pdu (128, (ofs, 1))) with (0x80, [t]).
          { apply el_half; [lia|exact He]. }
          unfold value_of, slice. cbn [fst snd]. rewrite Hs. reflexivity.
        - constructor; [|exact Hf']. unfold in_pdu. cbn [fst snd]. lia. }
    all: destruct (ie_def t) eqn:Ei; try discriminate HL.
    all: try (apply ie_fixed in Ei; destruct Ei as [[-> Hin]|[-> Hin]];
        (apply rec in HL; try lia); destruct HL as [r [-> [Hend [He Hf']]]];
        (split; [|constructor; [unfold in_pdu; cbn [fst snd]; lia|exact Hf']]); rewrite Hs; cbn [map]; unfold value_of at 1; cbn [fst snd]).
    all: try (rewrite (skipn_slice (Z.to_nat (ofs + 1)) (Z.to_nat 1) pdu) by (unfold zlen in *; lia);
        replace (Z.to_nat (ofs + 1) + Z.to_nat 1)%nat with (Z.to_nat (ofs + (1 + 1))) by lia;
        remember (slice (Z.to_nat (ofs + 1)) (Z.to_nat 1) pdu) as v eqn:Ev;
        (assert (Hv : length v = 1%nat) by (subst v; rewrite slice_length; unfold zlen in *; lia));
        destruct v as [|a [|? ?]]; try discriminate Hv; cbn [app]; apply el_one; assumption).
    all: try (rewrite (skipn_slice (Z.to_nat (ofs + 1)) (Z.to_nat 7) pdu) by (unfold zlen in *; lia);
        replace (Z.to_nat (ofs + 1) + Z.to_nat 7)%nat with (Z.to_nat (ofs + (1 + 7))) by lia;
        apply el_seven; [assumption|rewrite slice_length; [reflexivity|unfold zlen in *; lia]|assumption]).
    all: apply ie_tlv in Ei; destruct (zlen pdu - ofs <? 2) eqn:E2; [discriminate HL|];
      assert (Hll : 0 <= nth (Z.to_nat (ofs + 1)) pdu 0 < 256) by (apply nth_byte0; assumption);
      (apply rec in HL; try lia); destruct HL as [r [-> [Hend [He Hf']]]];
      (split; [|constructor; [unfold in_pdu; cbn [fst snd]; lia|exact Hf']]);
      rewrite Hs; cbn [map]; unfold value_of at 1; cbn [fst snd];
      rewrite (skipn_cons pdu (Z.to_nat (ofs + 1)) 0) by (unfold zlen in *; lia);
      set (ln := nth (Z.to_nat (ofs + 1)) pdu 0) in *;
      replace (S (Z.to_nat (ofs + 1))) with (Z.to_nat (ofs + 2)) by lia;
      rewrite (skipn_slice (Z.to_nat (ofs + 2)) (Z.to_nat ln) pdu) by (unfold zlen in *; lia);
      replace (Z.to_nat (ofs + 2) + Z.to_nat ln)%nat with (Z.to_nat (ofs + (2 + ln))) by lia;
      (replace ln with (zlen (slice (Z.to_nat (ofs + 2)) (Z.to_nat ln) pdu)) at 1 by (apply zlen_slice; lia));
      apply el_tlv; assumption.
Qed.

Lemma tlv_complete f pdu ofs l :
  bytes pdu -> 0 <= ofs <= zlen pdu -> (Z.to_nat (zlen pdu - ofs) <= f)%nat -> elements (skipn (Z.to_nat ofs) pdu) l ->
  exists L, tlv_parse f pdu ofs = Some L /\ map (value_of pdu) L = l.
Proof.
  intros Hb. revert ofs l. induction f as [|f IH]; intros ofs l Ho Hf He.
  - assert (ofs = zlen pdu) by lia. subst ofs. cbn [tlv_parse]. rewrite Z.leb_refl.
    unfold zlen in He. rewrite Nat2Z.id, skipn_all in He. inversion He. exists []. split; reflexivity.
  - rewrite tlv_parse_step. destruct (zlen pdu <=? ofs) eqn:E.
    { assert (ofs = zlen pdu) by lia. subst ofs. unfold zlen in He. rewrite Nat2Z.id, skipn_all in He. inversion He. exists []. split; reflexivity. }
    cbv zeta. assert (Hl : (Z.to_nat ofs < length pdu)%nat) by (unfold zlen in *; lia).
    assert (Hs : skipn (Z.to_nat ofs) pdu = nth (Z.to_nat ofs) pdu 0 :: skipn (Z.to_nat (ofs + 1)) pdu)
      by (rewrite (skipn_cons pdu (Z.to_nat ofs) 0) by lia; do 2 f_equal; lia).
    assert (Ht : 0 <= nth (Z.to_nat ofs) pdu 0 < 256) by (apply nth_byte0; assumption).
    assert (Hsl : length (skipn (Z.to_nat ofs) pdu) = (length pdu - Z.to_nat ofs)%nat) by apply skipn_length.
    assert (rec : forall tag pos len n r v, 1 <= n -> ofs + n <= zlen pdu ->
       elements (skipn (Z.to_nat (ofs + n)) pdu) r -> value_of pdu (tag, (pos, len)) = (tag, v) ->
       exists L, (if zlen pdu - ofs <? n then None else match tlv_parse f pdu (ofs + n) with Some r => Some ((tag, (pos, len)) :: r) | None => None end) = Some L
         /\ map (value_of pdu) L = (tag, v) :: r).
    { intros tag pos len n r v Hn Hp Hr Hv. replace (zlen pdu - ofs <? n) with false by lia.
      destruct (IH (ofs + n) r) as [L [-> <-]]; [lia|lia|exact Hr|]. eexists. split; [reflexivity|]. cbn [map]. rewrite Hv. reflexivity. }
    destruct (half_tag (nth (Z.to_nat ofs) pdu 0) Ht) as [Hh1 Hh2].
    rewrite Hs in He.
    assert (Hns : forall t, t = nth (Z.to_nat ofs) pdu 0 -> ~ (0x80 <= t <= 0x8f) -> forall A (x y : A),
       (match ie_def (Z.land (nth (Z.to_nat ofs) pdu 0) 240) with ISingle => x | _ => y end) = y).
    { intros t -> Hno A x y. destruct (ie_def (Z.land (nth (Z.to_nat ofs) pdu 0) 240)) eqn:Q; try reflexivity.
      exfalso. apply Hno. apply Hh1. reflexivity. }
    inversion He as [|o r l' Ho' Hr [Q1 Q2] Q3|t a r l' Ho' Hr [Q1 Q2] Q3|t v r l' Ho' Hv Hr [Q1 Q2] Q3|t v r l' Ho' Hr [Q1 Q2] Q3]; subst l.
    + subst o. rewrite (proj2 Hh1 Ho'). rewrite (Hh2 Ho'). subst r.
      apply rec; [lia|lia|exact Hr|]. unfold value_of, slice. cbn [fst snd]. rewrite Hs. reflexivity.
    + subst t. rewrite (Hns _ eq_refl) by (cbn [In] in Ho'; lia).
      rewrite (proj2 (ie_fixed _ 1)) by (left; split; [reflexivity|exact Ho']).
      assert (Hle : ofs + 2 <= zlen pdu).
      { assert (HQ : length (a :: r) = length (skipn (Z.to_nat (ofs + 1)) pdu)) by (rewrite Q2; reflexivity). rewrite skipn_length in HQ. cbn [length] in HQ. unfold zlen in *. lia. }
      apply rec; [lia|lia| |].
      * replace (skipn (Z.to_nat (ofs + (1 + 1))) pdu) with r; [exact Hr|].
        replace (Z.to_nat (ofs + (1 + 1))) with (1 + Z.to_nat (ofs + 1))%nat by lia. rewrite <- skipn_skipn. rewrite <- Q2. reflexivity.
      * unfold value_of, slice. cbn [fst snd]. rewrite <- Q2. reflexivity.
    + subst t. rewrite (Hns _ eq_refl) by lia. rewrite (proj2 (ie_fixed _ 7)) by (right; split; [reflexivity|exact Ho']).
      assert (Hle : ofs + 8 <= zlen pdu).
      { assert (HQ : length (v ++ r) = length (skipn (Z.to_nat (ofs + 1)) pdu)) by (rewrite Q2; reflexivity). rewrite skipn_length, app_length in HQ. unfold zlen in *. lia. }
      apply rec; [lia|lia| |].
      * replace (skipn (Z.to_nat (ofs + (1 + 7))) pdu) with r; [exact Hr|].
        replace (Z.to_nat (ofs + (1 + 7))) with (7 + Z.to_nat (ofs + 1))%nat by lia. rewrite <- skipn_skipn. rewrite <- Q2.
        symmetry. apply skipn_app_exact. symmetry. exact Hv.
      * unfold value_of, slice. cbn [fst snd]. rewrite <- Q2. rewrite firstn_app_exact by (rewrite Hv; reflexivity). reflexivity.
    + subst t. rewrite (Hns _ eq_refl) by (unfold tlv_tag in Ho'; cbn [In] in Ho'; lia). rewrite (proj2 (ie_tlv _) Ho').
      assert (Hle : ofs + 2 + zlen v <= zlen pdu).
      { assert (HQ : length (zlen v :: v ++ r) = length (skipn (Z.to_nat (ofs + 1)) pdu)) by (rewrite Q2; reflexivity).
        rewrite skipn_length in HQ. cbn [length] in HQ. rewrite app_length in HQ. unfold zlen in *. lia. }
      assert (Hz : 0 <= zlen v) by (unfold zlen; lia).
      replace (zlen pdu - ofs <? 2) with false by lia.
      assert (Hn : nth (Z.to_nat (ofs + 1)) pdu 0 = zlen v).
      { rewrite (skipn_cons pdu (Z.to_nat (ofs + 1)) 0) in Q2 by (unfold zlen in *; lia). congruence. }
      assert (Hk : skipn (Z.to_nat (ofs + 2)) pdu = v ++ r).
      { replace (Z.to_nat (ofs + 2)) with (1 + Z.to_nat (ofs + 1))%nat by lia. rewrite <- skipn_skipn. rewrite <- Q2. reflexivity. }
      rewrite Hn. apply rec; [lia|lia| |].
      * replace (skipn (Z.to_nat (ofs + (2 + zlen v))) pdu) with r; [exact Hr|].
        replace (Z.to_nat (ofs + (2 + zlen v))) with (length v + Z.to_nat (ofs + 2))%nat by (unfold zlen in *; lia).
        rewrite <- skipn_skipn, Hk. symmetry. apply skipn_app_exact. reflexivity.
      * unfold value_of, slice. cbn [fst snd]. rewrite Hk. rewrite firstn_app_exact by (unfold zlen; lia). reflexivity.
Qed.

Lemma app_inj_len {A} (a b c d : list A) : a ++ b = c ++ d -> length a = length c -> a = c /\ b = d.
Proof.
  revert c. induction a as [|x a IH]; intros [|y c] H L; cbn [length] in L; try lia.
  - split; [reflexivity|exact H].
  - cbn [app] in H. injection H as -> H. destruct (IH c H) as [-> ->]; [lia|]. split; reflexivity.
Qed.
Lemma elements_fun p : forall l, elements p l -> forall l', elements p l' -> l = l'.
Proof.
  assert (G : forall n p, (length p <= n)%nat -> forall l, elements p l -> forall l', elements p l' -> l = l').
  { clear p. induction n as [|n IH]; intros p Hn l H l' H'.
    - destruct p; [|cbn [length] in Hn; lia]. inversion H; inversion H'; reflexivity.
    - inversion H as [|o r l1 A1 A2 Q1 Q2|t a r l1 A1 A2 Q1 Q2|t v r l1 A1 A2 A3 Q1 Q2|t v r l1 A1 A2 Q1 Q2]; subst p l;
      inversion H' as [|o' r' l1' B1 B2 R1 R2|t' a' r' l1' B1 B2 R1 R2|t' v' r' l1' B1 B2 B3 R1 R2|t' v' r' l1' B1 B2 R1 R2]; subst;
        try (unfold tlv_tag in *; cbn [In] in *; lia); try reflexivity; cbn [length] in Hn; rewrite ?app_length in Hn; cbn [length] in Hn.
      + f_equal. eapply IH; [|eassumption|eassumption]. lia.
      + f_equal. eapply IH; [|eassumption|eassumption]. lia.
      + match goal with Q : _ ++ _ = _ ++ _ |- _ => apply app_inj_len in Q end; [|congruence].
        match goal with Q : _ /\ _ |- _ => destruct Q; subst end. f_equal. eapply IH; [|eassumption|eassumption]. lia.
      + match goal with Q : _ ++ _ = _ ++ _ |- _ => apply app_inj_len in Q end; [|unfold zlen in *; lia].
        match goal with Q : _ /\ _ |- _ => destruct Q; subst end. f_equal. eapply IH; [|eassumption|eassumption]. lia. }
  intros l H l' H'. eapply G; [apply Nat.le_refl|eassumption|eassumption].
Qed.
