(** C24: the uplink LLC queue is a priority FIFO with exact counters, as long as CoDel does not decide to drop and no more
    than one frame of a class is handed back; both exceptions are refuted below. *)
From Verif.Lib Require Import Base Outcome.
From Verif.Rlcmac Require Import CodelModel LlcQueueModel.
From Coq Require Import Permutation.

(** ---------- specification ---------- *)
(** The class of a frame: radio priority 1..4 first (anything else counts as the nearest), then signalling before
    TOM and SMS before the rest. *)
Definition klass (radio sapi : Z) : Z :=
  3 * (Z.max 1 (Z.min 4 radio) - 1) +
  match sapi with 1 => 0 | 2 | 7 | 8 => 1 | _ => 2 end.
(** Frames waiting, in order of arrival, with their classes. *)
Notation waiting := (list (Z * list Z)) (only parsing).
Definition of_class (c : Z) (a : waiting) : list (list Z) := map snd (filter (fun x => fst x =? c) a).
(** [served a f a']: [f] is the oldest frame of the best class that has one; the others stay. *)
Definition served (a : waiting) (f : list Z) (a' : waiting) : Prop :=
  exists c a1 a2, a = a1 ++ (c, f) :: a2 /\ a' = a1 ++ a2 /\
    Forall (fun x => c < fst x) a1 /\ Forall (fun x => c <= fst x) a2.
Definition octets (a : waiting) : Z := fold_right (fun x s => zlen (snd x) + s) 0 a.
(** One operation on the pair (waiting frames, frames reserved for the running countdown). *)
Inductive spec_step : waiting * option (waiting) -> qop -> option (list Z) -> waiting * option (waiting) -> Prop :=
| spec_send a b t r s d : spec_step (a, b) (Send t r s d) None (a ++ [(klass r s, d)], b)
| spec_take_none t : spec_step ([], None) (Take t) None ([], None)
| spec_take a f a' t : served a f a' -> spec_step (a, None) (Take t) (Some f) (a', None)
| spec_take_frozen_none a t : spec_step (a, Some []) (Take t) None (a, Some [])
| spec_take_frozen a b f b' t : served b f b' -> spec_step (a, Some b) (Take t) (Some f) (a, Some b')
| spec_freeze a : spec_step (a, None) Freeze None ([], Some a)
| spec_freeze_again a b : spec_step (a, Some b) Freeze None (a, Some b)
| spec_return_none a : spec_step (a, None) Return None (a, None)
(* handed back: nothing lost or duplicated; a class of which at most one frame comes back keeps its order, and newer
   frames always stay behind the ones that come back *)
| spec_return a b a' : Permutation a' (b ++ a) ->
    (forall c, (length (of_class c b) <= 1)%nat -> of_class c a' = of_class c b ++ of_class c a) ->
    (forall c, exists back, Permutation back (of_class c b) /\ of_class c a' = back ++ of_class c a) ->
    spec_step (a, Some b) Return None (a', None).
Inductive spec_run : waiting * option (waiting) -> list qop -> list (option (list Z)) -> waiting * option (waiting) -> Prop :=
| spec_nil s : spec_run s [] [] s
| spec_cons s o x s1 l y s2 : spec_step s o x s1 -> spec_run s1 l y s2 -> spec_run s (o :: l) (x :: y) s2.
(** What the code reports: frames and octets of each queue. *)
Definition reports (s : ent) : (Z * Z) * option (Z * Z) :=
  ((q_size (en_q s), q_octets (en_q s)), option_map (fun f => (q_size f, q_octets f)) (en_frozen s)).
Definition contents (s : waiting * option (waiting)) : (Z * Z) * option (Z * Z) :=
  ((zlen (fst s), octets (fst s)), option_map (fun b => (zlen b, octets b)) (snd s)).
Definition sent (l : list qop) : Z := fold_right (fun o s => match o with Send _ _ _ d => zlen d + s | _ => s end) 0 l.
Definition frame_ok (o : qop) : Prop := match o with Send _ _ _ d => d <> [] | _ => True end.
(** A history that fits in the memory of the machine and sends no empty frame. *)
Definition sane (l : list qop) : Prop := Forall frame_ok l /\ zlen l < 2 ^ 64 /\ sent l < 2 ^ 64.

(** ---------- proofs ---------- *)
Definition cq (l : list pclass) (c : nat) : list (list Z) := map e_data (pc_queue (nth c l (mkClass codel_init []))).
Record R (q : llcq) (a : waiting) : Prop := mkR {
  R_len : length (q_pq q) = 12%nat;
  R_cls : forall c, (c < 12)%nat -> cq (q_pq q) c = of_class (Z.of_nat c) a;
  R_dom : Forall (fun x => 0 <= fst x < 12 /\ snd x <> []) a;
  R_size : q_size q = zlen a;
  R_oct : q_octets q = octets a }.

Lemma octets_app a b : octets (a ++ b) = octets a + octets b.
Proof. induction a as [|x a IH]; cbn [app octets fold_right]; [reflexivity|]. fold (octets (a ++ b)). fold (octets a). lia. Qed.
Lemma octets_nonneg a : 0 <= octets a.
Proof. induction a as [|x a IH]; cbn [octets fold_right]; [lia|]. fold (octets a). pose proof (zlen_nonneg (snd x)). lia. Qed.
Lemma sent_nonneg l : 0 <= sent l.
Proof. induction l as [|x a IH]; cbn [sent fold_right]; [lia|]. fold (sent a). destruct x; try lia. pose proof (zlen_nonneg data). lia. Qed.
Lemma octets_perm a b : Permutation a b -> octets a = octets b.
Proof. induction 1; cbn [octets fold_right] in *; try fold (octets l) in *; try fold (octets l') in *; try lia. Qed.
Lemma zlen_perm {A} (a b : list A) : Permutation a b -> zlen a = zlen b.
Proof. intros H. unfold zlen. rewrite (Permutation_length H). reflexivity. Qed.

Lemma upd_length {A} (l : list A) n f : length (upd l n f) = length l.
Proof. revert n; induction l as [|x l IH]; intros [|n]; cbn [upd length]; [reflexivity..|]. rewrite IH. reflexivity. Qed.
Lemma upd_nth {A} (l : list A) n f d c : (n < length l)%nat -> nth c (upd l n f) d = if Nat.eqb c n then f (nth n l d) else nth c l d.
Proof.
  revert n c; induction l as [|x l IH]; intros n c H; [cbn in H; lia|].
  destruct n as [|n], c as [|c]; cbn [upd nth Nat.eqb]; try reflexivity. apply IH. cbn in H; lia.
Qed.

Lemma klass_code r s : 3 * trim_prio r + sapi2prio s = klass r s.
Proof.
  unfold trim_prio, sapi2prio, klass.
  assert (Hs : (if s =? 1 then 0 else if (s =? 2) || (s =? 7) || (s =? 8) then 1 else 2) =
               match s with 1 => 0 | 2 | 7 | 8 => 1 | _ => 2 end).
  { destruct s as [|p|p]; try reflexivity. do 4 (destruct p as [p|p|]; try reflexivity). }
  rewrite <- Hs. destruct (r <? 1) eqn:?; [|destruct (4 <? r) eqn:?]; lia.
Qed.
Lemma klass_range r s : 0 <= klass r s < 12.
Proof. rewrite <- klass_code. unfold trim_prio, sapi2prio. destruct (r <? 1) eqn:?, (4 <? r) eqn:?, (s =? 1), ((s =? 2) || (s =? 7) || (s =? 8)); lia. Qed.

Lemma of_class_app c a b : of_class c (a ++ b) = of_class c a ++ of_class c b.
Proof. unfold of_class. rewrite filter_app, map_app. reflexivity. Qed.
Lemma of_class_one c k d : of_class c [(k, d)] = if k =? c then [d] else [].
Proof. unfold of_class; cbn. destruct (k =? c); reflexivity. Qed.

Lemma R_enqueue q a t r s d : R q a -> d <> [] -> zlen a + 1 < 2 ^ 64 -> octets a + zlen d < 2 ^ 64 ->
  R (enqueue q t d s (trim_prio r)) (a ++ [(klass r s, d)]).
Proof.
  intros [HL HC HD HS HO] Hd Hz Ho. pose proof (klass_range r s) as Hk. pose proof (zlen_nonneg a). pose proof (zlen_nonneg d).
  pose proof (octets_nonneg a).
  unfold enqueue. rewrite klass_code. split; cbn [q_pq q_size q_octets].
  - rewrite upd_length. exact HL.
  - intros c Hc. unfold cq. rewrite upd_nth by lia. rewrite of_class_app, of_class_one.
    destruct (Nat.eqb_spec c (Z.to_nat (klass r s))) as [->|Hne].
    + rewrite Z2Nat.id by lia. rewrite Z.eqb_refl. cbn [pc_queue]. rewrite map_app.
      specialize (HC (Z.to_nat (klass r s)) Hc). unfold cq in HC. rewrite HC. rewrite Z2Nat.id by lia. reflexivity.
    + replace (klass r s =? Z.of_nat c) with false by (symmetry; apply Z.eqb_neq; lia). rewrite app_nil_r. apply (HC c Hc).
  - apply Forall_app; split; [exact HD|]. constructor; [cbn; split; [exact Hk|exact Hd]|constructor].
  - rewrite HS, Z.mod_small by lia. rewrite zlen_app. reflexivity.
  - rewrite HO, Z.mod_small by lia. rewrite octets_app. cbn. lia.
Qed.

Lemma find_none l : find_msg l = None -> forall c, cq l c = [].
Proof.
  induction l as [|p l IH]; intros H c; [destruct c; reflexivity|]. cbn [find_msg] in H.
  destruct (pc_queue p) eqn:E; [|discriminate]. destruct (find_msg l); [discriminate|].
  destruct c as [|c]; unfold cq; cbn [nth]; [rewrite E; reflexivity|]. apply (IH eq_refl c).
Qed.
Lemma find_some l n : find_msg l = Some n -> (n < length l)%nat /\ cq l n <> [] /\ forall c, (c < n)%nat -> cq l c = [].
Proof.
  revert n; induction l as [|p l IH]; intros n H; [discriminate|]. cbn [find_msg] in H.
  destruct (pc_queue p) eqn:E.
  - destruct (find_msg l) as [m|]; [|discriminate]. cbn [option_map] in H. injection H as <-.
    destruct (IH m eq_refl) as (H1 & H2 & H3). split; [cbn; lia|]. split; [exact H2|].
    intros [|c] Hc; unfold cq; cbn [nth]; [rewrite E; reflexivity|]. apply (H3 c). lia.
  - injection H as <-. split; [cbn; lia|]. split; [unfold cq; cbn [nth]; rewrite E; discriminate|]. intros; lia.
Qed.

Lemma of_class_nil_all a : Forall (fun x => 0 <= fst x < 12 /\ snd x <> []) a ->
  (forall c, (c < 12)%nat -> of_class (Z.of_nat c) a = []) -> a = [].
Proof.
  destruct a as [|[k d] a]; [reflexivity|]. intros HD H. inversion HD as [|? ? [Hk _] _]; subst. cbn [fst] in Hk.
  specialize (H (Z.to_nat k) ltac:(lia)). rewrite Z2Nat.id in H by lia. unfold of_class in H. cbn [filter fst map] in H.
  rewrite Z.eqb_refl in H. discriminate.
Qed.

(** The first entry of class [c]. *)
Lemma split_class c a f rest : of_class c a = f :: rest ->
  exists a1 a2, a = a1 ++ (c, f) :: a2 /\ Forall (fun x => fst x <> c) a1.
Proof.
  induction a as [|[k d] a IH]; intros H; [discriminate|].
  unfold of_class in H. cbn [filter fst map] in H. destruct (Z.eqb_spec k c) as [->|Hne].
  - cbn [map snd] in H. injection H as -> _. exists [], a. split; [reflexivity|constructor].
  - destruct (IH H) as (a1 & a2 & -> & HF). exists ((k, d) :: a1), a2. split; [reflexivity|]. constructor; assumption.
Qed.

Lemma of_class_skip c a : Forall (fun x => fst x <> c) a -> of_class c a = [].
Proof.
  induction 1 as [|[k d] a H _ IH]; [reflexivity|]. unfold of_class; cbn [filter fst]. cbn [fst] in H.
  destruct (Z.eqb_spec k c); [contradiction|exact IH].
Qed.

Lemma dequeue_sound q a t cd x q1 : R q a -> zlen a < 2 ^ 64 -> octets a < 2 ^ 64 -> dequeue q t cd = Ok (x, q1) ->
  (x = None /\ a = [] /\ q1 = q) \/ exists f a', x = Some f /\ served a f a' /\ R q1 a'.
Proof.
  intros [HL HC HD HS HO] Hz Ho H. unfold dequeue in H.
  destruct (find_msg (q_pq q)) as [n|] eqn:Ef.
  - right. destruct (find_some _ _ Ef) as (Hn & Hne & Hbefore).
    assert (Hn12 : (n < 12)%nat) by lia.
    pose proof (HC n Hn12) as HCn. unfold cq in Hne, HCn.
    destruct (pc_queue (nth n (q_pq q) (mkClass codel_init []))) as [|e rest] eqn:Eq; [discriminate|].
    cbn [map] in HCn. symmetry in HCn.
    destruct (split_class _ _ _ _ HCn) as (a1 & a2 & Ha & Hskip).
    destruct (zlen (e_data e) =? 0); [discriminate|].
    assert (Hmin : Forall (fun x => Z.of_nat n <= fst x) a).
    { apply Forall_forall. intros [k d] Hin. cbn [fst]. rewrite Forall_forall in HD. pose proof (HD _ Hin) as [Hk _]. cbn [fst] in Hk.
      destruct (Z.le_gt_cases (Z.of_nat n) k) as [|Hlt]; [assumption|].
      exfalso. specialize (Hbefore (Z.to_nat k) ltac:(lia)). rewrite (HC (Z.to_nat k) ltac:(lia)) in Hbefore.
      rewrite Z2Nat.id in Hbefore by lia. unfold of_class in Hbefore. apply map_eq_nil in Hbefore.
      assert (Hi : In (k, d) (filter (fun x => fst x =? k) a)) by (apply filter_In; split; [exact Hin|cbn; apply Z.eqb_refl]).
      rewrite Hbefore in Hi. destruct Hi. }
    exists (e_data e), (a1 ++ a2).
    assert (Hserved : served a (e_data e) (a1 ++ a2)).
    { exists (Z.of_nat n), a1, a2. split; [exact Ha|]. split; [reflexivity|].
      rewrite Ha in Hmin. apply Forall_app in Hmin. destruct Hmin as [Hm1 Hm2]. inversion Hm2; subst. split; [|assumption].
      rewrite Forall_forall in *. intros y Hy. specialize (Hm1 y Hy). specialize (Hskip y Hy). cbn in Hm1, Hskip. lia. }
    assert (HR : forall st, R (mkQ ((q_size q - 1) mod 2 ^ 64) ((q_octets q - zlen (e_data e)) mod 2 ^ 64) (q_use q)
                    (upd (q_pq q) n (fun _ => mkClass st rest))) (a1 ++ a2)).
    { intros st. pose proof (octets_nonneg a1). pose proof (octets_nonneg a2). pose proof (zlen_nonneg a1). pose proof (zlen_nonneg a2).
      assert (Hza : zlen a = zlen (a1 ++ a2) + 1) by (rewrite Ha, !zlen_app, (zlen_cons (Z.of_nat n, e_data e) a2); lia).
      assert (Hoa : octets a = octets (a1 ++ a2) + zlen (e_data e)).
      { rewrite Ha, !octets_app. cbn [octets fold_right snd]. fold (octets a2). lia. }
      split; cbn [q_pq q_size q_octets].
      - rewrite upd_length; exact HL.
      - intros c Hc. unfold cq. rewrite upd_nth by lia. destruct (Nat.eqb_spec c n) as [->|Hne2].
        + cbn [pc_queue]. rewrite Ha in HCn. rewrite of_class_app in HCn. rewrite (of_class_skip _ a1 Hskip) in HCn.
          unfold of_class in HCn at 1. cbn [filter fst app map] in HCn. rewrite Z.eqb_refl in HCn. cbn [map snd] in HCn.
          injection HCn as HCn. rewrite of_class_app, (of_class_skip _ a1 Hskip). symmetry; exact HCn.
        + fold (cq (q_pq q) c). rewrite (HC c Hc), Ha, !of_class_app. f_equal. unfold of_class at 1. cbn [filter fst].
          destruct (Z.eqb_spec (Z.of_nat n) (Z.of_nat c)); [lia|reflexivity].
      - rewrite Ha in HD. apply Forall_app in HD. destruct HD as [HD1 HD2]. inversion HD2; subst. apply Forall_app; split; assumption.
      - rewrite HS, Z.mod_small; [lia|]. rewrite zlen_app in Hza. lia.
      - rewrite HO, Z.mod_small; [lia|]. pose proof (octets_nonneg (a1 ++ a2)). pose proof (zlen_nonneg (e_data e)). lia. }
    destruct (cd && q_use q).
    + destruct (codel_control _ _ _ _) as [dr st]. destruct dr; [discriminate|]. injection H as <- <-. auto.
    + injection H as <- <-. auto.
  - left. injection H as <- <-. split; [reflexivity|]. split; [|reflexivity].
    apply of_class_nil_all; [exact HD|]. intros c Hc. rewrite <- (HC c Hc). apply find_none, Ef.
Qed.

Lemma fold_rev {A} (l acc : list A) : fold_left (fun l e => e :: l) l acc = rev l ++ acc.
Proof.
  revert acc; induction l as [|x l IH]; intros acc; cbn [fold_left rev app]; [reflexivity|].
  rewrite IH, <- app_assoc. reflexivity.
Qed.
Lemma merge_cq l old c : length l = length old -> cq (merge_pq l old) c = rev (cq old c) ++ cq l c.
Proof.
  revert old c; induction l as [|p l IH]; intros [|o old] c H; try discriminate.
  - destruct c; reflexivity.
  - destruct c as [|c]; cbn [merge_pq].
    + unfold cq; cbn [nth merge_class pc_queue]. rewrite fold_rev, map_app, map_rev. reflexivity.
    + apply (IH old c). cbn in H; congruence.
Qed.
Lemma merge_length l old : length (merge_pq l old) = length l.
Proof. revert old; induction l as [|p l IH]; intros [|o old]; cbn [merge_pq length]; try reflexivity. rewrite IH. reflexivity. Qed.

Lemma of_class_rev c a : of_class c (rev a) = rev (of_class c a).
Proof. 
  induction a as [|[k d] a IH]; [reflexivity|]. cbn [rev]. rewrite of_class_app, IH.
  change ((k, d) :: a) with ([(k, d)] ++ a). rewrite of_class_app, rev_app_distr, of_class_one. f_equal. destruct (k =? c); reflexivity.
Qed.

Lemma R_merge q a old b : R q a -> R old b -> zlen a + zlen b < 2 ^ 64 -> octets a + octets b < 2 ^ 64 ->
  R (merge_prepend q old) (rev b ++ a).
Proof.
  intros [HL HC HD HS HO] [HL' HC' HD' HS' HO'] Hz Ho.
  pose proof (zlen_nonneg a). pose proof (zlen_nonneg b). pose proof (octets_nonneg a). pose proof (octets_nonneg b).
  assert (Hzr : zlen (rev b ++ a) = zlen a + zlen b) by (rewrite zlen_app; unfold zlen; rewrite rev_length; lia).
  assert (Hor : octets (rev b ++ a) = octets a + octets b).
  { rewrite octets_app, <- (octets_perm _ _ (Permutation_rev b)). lia. }
  unfold merge_prepend. destruct (q_size old =? 0) eqn:E0.
  - apply Z.eqb_eq in E0. rewrite HS' in E0. destruct b as [|x b]; [split; assumption|]. rewrite zlen_cons in E0. pose proof (zlen_nonneg b). lia.
  - split; cbn [q_pq q_size q_octets].
    + rewrite merge_length; exact HL.
    + intros c Hc. rewrite merge_cq by congruence. rewrite (HC c Hc), (HC' c Hc), of_class_app, of_class_rev. reflexivity.
    + apply Forall_app; split; [|exact HD]. apply Forall_rev, HD'.
    + rewrite HS, HS', Z.mod_small by lia. lia.
    + rewrite HO, HO', Z.mod_small by lia. lia.
Qed.

Lemma R_alloc : R queue_alloc [].
Proof.
  split; try reflexivity; try constructor. intros c Hc. do 12 (destruct c as [|c]; [reflexivity|]). lia.
Qed.
Lemma R_params q a use ms : R q a -> R (set_codel_params q use ms) a.
Proof.
  intros [HL HC HD HS HO]. split; unfold set_codel_params; cbn [q_pq q_size q_octets]; try assumption.
  - destruct use; [rewrite map_length|]; exact HL.
  - intros c Hc. rewrite <- (HC c Hc). destruct use; [|reflexivity]. unfold cq.
    set (g := fun p => mkClass (set_interval (pc_codel p) ms) (pc_queue p)).
    rewrite (nth_indep _ _ (g (mkClass codel_init []))) by (rewrite map_length; lia). rewrite map_nth. reflexivity.
Qed.

Definition RS (s : ent) (p : waiting * option (waiting)) : Prop :=
  R (en_q s) (fst p) /\ match en_frozen s, snd p with None, None => True | Some f, Some b => R f b | _, _ => False end.
Definition sz (p : waiting * option (waiting)) : Z := zlen (fst p) + match snd p with Some b => zlen b | None => 0 end.
Definition oc (p : waiting * option (waiting)) : Z := octets (fst p) + match snd p with Some b => octets b | None => 0 end.

Lemma served_zlen a f a' : served a f a' -> zlen a' <= zlen a /\ octets a' <= octets a.
Proof.
  intros (c & a1 & a2 & -> & -> & _). rewrite !zlen_app, !octets_app, (zlen_cons (c, f) a2).
  cbn [octets fold_right snd]. fold (octets a2). pose proof (zlen_nonneg f). lia.
Qed.

Lemma step_refines s p o x s1 l : RS s p -> frame_ok o -> sz p + zlen (o :: l) < 2 ^ 64 -> oc p + sent (o :: l) < 2 ^ 64 ->
  qstep s o = Ok (x, s1) -> exists p1, spec_step p o x p1 /\ RS s1 p1 /\ sz p1 + zlen l < 2 ^ 64 /\ oc p1 + sent l < 2 ^ 64.
Proof.
  destruct p as [a b]. unfold RS, sz, oc; cbn [fst snd]. intros [HR Hf] Hok Hz Ho H.
  rewrite (zlen_cons o l) in Hz. pose proof (zlen_nonneg l) as Hl0. pose proof (zlen_nonneg a) as Ha0. pose proof (octets_nonneg a) as Hoa.
  pose proof (sent_nonneg l) as Hs0.
  destruct o as [t r sp d|t| |]; cbn [qstep sent fold_right] in *; fold (sent l) in *.
  - injection H as <- <-. cbn [frame_ok] in Hok.
    assert (Hb0 : 0 <= match b with Some b => zlen b | None => 0 end) by (destruct b as [b|]; [apply zlen_nonneg|lia]).
    assert (Hb1 : 0 <= match b with Some b => octets b | None => 0 end) by (destruct b as [b|]; [apply octets_nonneg|lia]).
    pose proof (zlen_nonneg d).
    exists (a ++ [(klass r sp, d)], b). cbn [fst snd en_q en_frozen]. split; [constructor|]. split.
    + split; [apply R_enqueue; [assumption|assumption|lia|lia]|exact Hf].
    + rewrite zlen_app, octets_app. change (zlen [(klass r sp, d)]) with 1.
      change (octets [(klass r sp, d)]) with (zlen d + 0). lia.
  - destruct (en_frozen s) as [f|] eqn:Ef; destruct b as [b|]; try contradiction.
    + destruct (dequeue f t false) as [[y q1]| |] eqn:Ed; try discriminate. cbn [bind fst snd] in H. injection H as <- <-.
      destruct (dequeue_sound f b t false y q1 Hf ltac:(lia) ltac:(lia) Ed) as [(-> & -> & ->)|(g & b' & -> & Hsv & HR')].
      * exists (a, Some []). cbn [fst snd en_q en_frozen]. split; [constructor|]. split; [split; assumption|]. lia.
      * exists (a, Some b'). cbn [fst snd en_q en_frozen]. split; [constructor; exact Hsv|]. split; [split; assumption|].
        apply served_zlen in Hsv. lia.
    + destruct (dequeue (en_q s) t true) as [[y q1]| |] eqn:Ed; try discriminate. cbn [bind fst snd] in H. injection H as <- <-.
      destruct (dequeue_sound (en_q s) a t true y q1 HR ltac:(lia) ltac:(lia) Ed) as [(-> & -> & ->)|(g & b' & -> & Hsv & HR')].
      * exists ([], None). cbn [fst snd en_q en_frozen]. split; [constructor|]. split; [split; [assumption|exact I]|]. lia.
      * exists (b', None). cbn [fst snd en_q en_frozen]. split; [constructor; exact Hsv|]. split; [split; [assumption|exact I]|].
        apply served_zlen in Hsv. lia.
  - destruct (en_frozen s) as [f|] eqn:Ef; destruct b as [b|]; try contradiction; injection H as <- <-.
    + exists (a, Some b). split; [constructor|]. rewrite Ef. split; [split; assumption|]. cbn [fst snd]. lia.
    + exists ([], Some a). cbn [fst snd en_q en_frozen]. split; [constructor|]. split; [split; [apply R_alloc|assumption]|].
      change (zlen (@nil (Z * list Z))) with 0. change (octets []) with 0. lia.
  - destruct (en_frozen s) as [f|] eqn:Ef; destruct b as [b|]; try contradiction; injection H as <- <-.
    + pose proof (zlen_nonneg b). pose proof (octets_nonneg b).
      exists (rev b ++ a, None). cbn [fst snd en_q en_frozen]. split.
      * constructor.
        -- apply Permutation_app_tail. symmetry. apply Permutation_rev.
        -- intros c Hc. rewrite of_class_app, of_class_rev. f_equal. destruct (of_class c b) as [|x [|y r]]; [reflexivity..|cbn in Hc; lia].
        -- intros c. exists (rev (of_class c b)). split; [symmetry; apply Permutation_rev|]. rewrite of_class_app, of_class_rev. reflexivity.
      * split; [split; [apply R_merge; [assumption|assumption|lia|lia]|exact I]|].
        rewrite zlen_app, octets_app, <- (octets_perm _ _ (Permutation_rev b)), <- (zlen_perm _ _ (Permutation_rev b)). lia.
    + exists (a, None). split; [constructor|]. rewrite Ef. split; [split; [assumption|exact I]|]. cbn [fst snd]. lia.
Qed.

Lemma run_refines l : forall s p x s1, RS s p -> Forall frame_ok l -> sz p + zlen l < 2 ^ 64 -> oc p + sent l < 2 ^ 64 ->
  qrun s l = Ok (x, s1) -> exists p1, spec_run p l x p1 /\ RS s1 p1.
Proof.
  induction l as [|o l IH]; intros s p x s1 HR Hok Hz Ho H.
  - injection H as <- <-. exists p. split; [constructor|assumption].
  - inversion Hok; subst. cbn [qrun] in H.
    destruct (qstep s o) as [[y s2]| |] eqn:E1; try discriminate. cbn [bind fst snd] in H.
    destruct (qrun s2 l) as [[ys s3]| |] eqn:E2; try discriminate. cbn [bind fst snd] in H. injection H as <- <-.
    destruct (step_refines s p o y s2 l HR ltac:(assumption) Hz Ho E1) as (p1 & Hs1 & HR1 & Hz1 & Ho1).
    destruct (IH s2 p1 ys s3 HR1 ltac:(assumption) Hz1 Ho1 E2) as (p2 & Hs2 & HR2).
    exists p2. split; [econstructor; eassumption|assumption].
Qed.

Lemma RS_reports s p : RS s p -> reports s = contents p.
Proof.
  destruct p as [a b]. unfold RS, reports, contents; cbn [fst snd]. intros [[_ _ _ H1 H2] Hf]. rewrite H1, H2.
  destruct (en_frozen s) as [f|], b as [b|]; try contradiction; [|reflexivity].
  destruct Hf as [_ _ _ H3 H4]. cbn [option_map]. rewrite H3, H4. reflexivity.
Qed.
Lemma RS_alloc use ms : RS (entity_alloc use ms) ([], None).
Proof. split; [apply R_params, R_alloc|exact I]. Qed.

(** C24.  Every history of sending, taking, freezing and handing back that the code survives follows the specification,
    and the reported numbers of frames and octets are those of the contents.  Missing from the full claim: histories in
    which CoDel drops (undefined behaviour, [C24_codel_drop_refuted]) and the order among several frames of one class
    that are handed back ([C24_return_order_refuted]). *)
Theorem C24_priority_fifo_partial : forall use ms l x s,
  sane l -> qrun (entity_alloc use ms) l = Ok (x, s) ->
  exists p, spec_run ([], None) l x p /\ reports s = contents p.
Proof.
  intros use ms l x s (Hok & Hz & Ho) H.
  destruct (run_refines l (entity_alloc use ms) ([], None) x s (RS_alloc use ms) Hok) as (p & Hr & HR); try assumption.
  exists p. split; [exact Hr|apply RS_reports, HR].
Qed.
Print Assumptions C24_priority_fifo_partial.

Lemma step_total s p o : RS s p -> q_use (en_q s) = false -> (forall f, en_frozen s = Some f -> q_use f = false) ->
  exists x s1, qstep s o = Ok (x, s1) /\ q_use (en_q s1) = false /\ (forall f, en_frozen s1 = Some f -> q_use f = false).
Proof.
  destruct p as [a b]. unfold RS; cbn [fst snd]. intros [HR Hf] Hu Hfu.
  assert (HD : forall q w t cd, R q w -> q_use q = false -> exists x q1, dequeue q t cd = Ok (x, q1) /\ q_use q1 = false).
  { intros q w t cd [HL HC HDm _ _] Hq. unfold dequeue. destruct (find_msg (q_pq q)) as [n|] eqn:Ef; [|eauto].
    destruct (find_some _ _ Ef) as (Hn & Hne & _). pose proof (HC n ltac:(lia)) as HCn. unfold cq in Hne, HCn.
    destruct (pc_queue (nth n (q_pq q) (mkClass codel_init []))) as [|e rest] eqn:Eq; [contradiction Hne; reflexivity|].
    cbn [map] in HCn. symmetry in HCn. destruct (split_class _ _ _ _ HCn) as (a1 & a2 & Ha & _).
    rewrite Ha in HDm. apply Forall_app in HDm. destruct HDm as [_ HDm]. inversion HDm as [|? ? [_ Hd] _]; subst. cbn [snd] in Hd.
    destruct (e_data e) as [|y r] eqn:Ee; [contradiction|].
    destruct (zlen (y :: r) =? 0) eqn:E0; [apply Z.eqb_eq in E0; rewrite zlen_cons in E0; pose proof (zlen_nonneg r); lia|].
    rewrite Hq, andb_false_r. do 2 eexists. split; [reflexivity|]. cbn [q_use]. reflexivity. }
  destruct o as [t r sp d|t| |]; cbn [qstep].
  - do 2 eexists. split; [reflexivity|]. cbn [en_q en_frozen]. split; [exact Hu|exact Hfu].
  - destruct (en_frozen s) as [f|] eqn:Ef; destruct b as [b|]; try contradiction.
    + destruct (HD f b t false Hf (Hfu f eq_refl)) as (x & q1 & -> & Hq1). cbn [bind fst snd].
      do 2 eexists. split; [reflexivity|]. cbn [en_q en_frozen]. split; [exact Hu|]. intros g Hg. injection Hg as <-. exact Hq1.
    + destruct (HD (en_q s) a t true HR Hu) as (x & q1 & -> & Hq1). cbn [bind fst snd].
      do 2 eexists. split; [reflexivity|]. cbn [en_q en_frozen]. split; [exact Hq1|]. discriminate.
  - destruct (en_frozen s) as [f|] eqn:Ef.
    + do 2 eexists. split; [reflexivity|]. split; [exact Hu|]. rewrite Ef. exact Hfu.
    + do 2 eexists. split; [reflexivity|]. cbn [en_q en_frozen]. split; [reflexivity|]. intros g Hg. injection Hg as <-. exact Hu.
  - destruct (en_frozen s) as [f|] eqn:Ef.
    + do 2 eexists. split; [reflexivity|]. cbn [en_q en_frozen]. split; [|discriminate].
      unfold merge_prepend. destruct (q_size f =? 0); exact Hu.
    + do 2 eexists. split; [reflexivity|]. split; [exact Hu|]. rewrite Ef. exact Hfu.
Qed.

Lemma run_total l : forall s p, RS s p -> Forall frame_ok l -> sz p + zlen l < 2 ^ 64 -> oc p + sent l < 2 ^ 64 ->
  q_use (en_q s) = false -> (forall f, en_frozen s = Some f -> q_use f = false) -> exists x s1, qrun s l = Ok (x, s1).
Proof.
  induction l as [|o l IH]; intros s p HR Hok Hz Ho Hu Hfu; [cbn [qrun]; eauto|].
  inversion Hok; subst. destruct (step_total s p o HR Hu Hfu) as (x & s1 & E & Hu1 & Hfu1).
  destruct (step_refines s p o x s1 l HR ltac:(assumption) Hz Ho E) as (p1 & _ & HR1 & Hz1 & Ho1).
  destruct (IH s1 p1 HR1 ltac:(assumption) Hz1 Ho1 Hu1 Hfu1) as (y & s2 & E2).
  cbn [qrun]. rewrite E. cbn [bind fst snd]. rewrite E2. cbn [bind fst snd]. eauto.
Qed.

(** With CoDel switched off the code survives every history, so that the theorem above applies to all of them. *)
Theorem C24_without_codel_partial : forall ms l, sane l ->
  exists x s p, qrun (entity_alloc false ms) l = Ok (x, s) /\ spec_run ([], None) l x p /\ reports s = contents p.
Proof.
  intros ms l Hs. pose proof Hs as (Hok & Hz & Ho).
  destruct (run_total l (entity_alloc false ms) ([], None) (RS_alloc false ms) Hok) as (x & s & E).
  - unfold sz; cbn [fst snd]. change (zlen (@nil (Z * list Z))) with 0. lia.
  - unfold oc; cbn [fst snd]. change (octets []) with 0. lia.
  - reflexivity.
  - discriminate.
  - destruct (C24_priority_fifo_partial false ms l x s Hs E) as (p & H1 & H2). exists x, s, p. auto.
Qed.
Print Assumptions C24_without_codel_partial.

(** Example: eleven frames of all kinds, a freeze in between, one handed back. *)
Definition mixed : list qop :=
  [Send 1 4 11 [1]; Send 2 1 3 [2]; Send 3 1 1 [3]; Take 4; Send 5 0 1 [4]; Freeze; Send 6 9 7 [5]; Send 7 1 3 [6];
   Take 8; Return; Take 9; Take 10; Send 11 2 8 [7; 7]; Take 12; Take 13].
Example C24_mixed_sane : sane mixed.
Proof.
  split; [|split; reflexivity]. repeat (constructor; [try exact I; discriminate|]). constructor.
Qed.
Example C24_mixed_runs : exists s, qrun (entity_alloc true 4000) mixed =
  Ok ([None; None; None; Some [3]; None; None; None; None; Some [4]; None; Some [2]; Some [6]; None; Some [7; 7]; Some [5]], s) /\
  reports s = ((1, 1), None).
Proof. eexists. split; vm_compute; reflexivity. Qed.

(** Refuted: order.  Two frames of one class that are handed back come out in reverse. *)
Definition two_back : list qop := [Send 1 1 3 [1]; Send 2 1 3 [2]; Freeze; Return; Take 3; Take 4].
Theorem C24_return_order_refuted : sane two_back /\
  match qrun (entity_alloc true 4000) two_back with
  | Ok (x, _) => x = [None; None; None; None; Some [2]; Some [1]]
  | _ => False
  end.
Proof.
  split; [split; [repeat (constructor; [try exact I; discriminate|]); constructor|split; reflexivity]|].
  vm_compute. reflexivity.
Qed.
Print Assumptions C24_return_order_refuted.

(** Refuted: with the default configuration, a queue that stays two seconds behind for nine seconds ends in the use of a
    frame after it was freed. *)
Definition sec (k : nat) : Z := Z.of_nat k * 1000000000.
Definition slow_queue (n : nat) : list qop :=
  map (fun k => Send (sec k) 1 3 (repeat 0 600)) (seq 1 n) ++ map (fun k => Take (sec (k + n))) (seq 1 n).
Definition is_ub {A} (r : res A) : bool := match r with UB => true | _ => false end.
Theorem C24_codel_drop_refuted : sane (slow_queue 11) /\ is_ub (qrun (entity_alloc true 4000) (slow_queue 11)) = true.
Proof.
  split; [split|].
  - unfold slow_queue. apply Forall_app; split; apply Forall_forall; intros o Ho; apply in_map_iff in Ho; destruct Ho as (k & <- & _);
      [discriminate|exact I].
  - split; vm_compute; reflexivity.
  - vm_compute. reflexivity.
Qed.
Print Assumptions C24_codel_drop_refuted.

(** Refuted: a primitive with an empty frame. *)
Theorem C24_empty_frame_refuted : is_ub (qrun (entity_alloc true 4000) [Send 1 1 3 []; Take 2]) = true.
Proof. vm_compute. reflexivity. Qed.
Print Assumptions C24_empty_frame_refuted.
