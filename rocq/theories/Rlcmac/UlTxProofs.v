(** Lemmas: the window, seen from V(A), is a list of block states, and the C loops are list functions on it. *)
From Verif.Lib Require Import Base Outcome.
From Verif.Rlcmac Require Import UlTxModel UlTxSpec.

Lemma modsns_mod p x : valid_par p -> modsns p x = x mod sns p.
Proof.
  intros [H _]. unfold modsns. cbn [In] in H.
  destruct H as [<-|[<-|[<-|[<-|[<-|[]]]]]];
    [apply (land_ones_mod x 7)|apply (land_ones_mod x 8)|apply (land_ones_mod x 9)|apply (land_ones_mod x 10)|apply (land_ones_mod x 11)]; lia.
Qed.
Lemma slot_mod x : slot x = x mod 1024.
Proof. apply (land_ones_mod x 10). lia. Qed.

Definition key (p : wpar) (a : Z) (i : Z) : Z := (a + i) mod sns p mod 1024.

Ltac cases_par H := destruct H as (H & ? & ?); cbn [In] in H; intros;
  destruct H as [H|[H|[H|[H|[H|[]]]]]]; rewrite <- H in *; lia.

Lemma key_inj p a i j : valid_par p -> 0 <= i < ws p -> 0 <= j < ws p -> key p a i = key p a j -> i = j.
Proof. intros Hp Hi Hj. unfold key. cases_par Hp. Qed.
Lemma num_inj p a i j : valid_par p -> 0 <= i <= ws p -> 0 <= j <= ws p -> (a + i) mod sns p = (a + j) mod sns p -> i = j.
Proof. intros Hp Hi Hj. cases_par Hp. Qed.
Lemma num_next p a i : valid_par p -> modsns p ((a + i) mod sns p + 1) = (a + (i + 1)) mod sns p.
Proof. intros Hp. rewrite modsns_mod by exact Hp. cases_par Hp. Qed.
Lemma num_dist p a d : valid_par p -> 0 <= d <= ws p -> modsns p ((a + d) mod sns p - a mod sns p) = d.
Proof. intros Hp Hd. rewrite modsns_mod by exact Hp. cases_par Hp. Qed.
Lemma num_range p a : valid_par p -> 0 <= a mod sns p < sns p.
Proof. intros Hp. cases_par Hp. Qed.
Lemma num_mod p a k : valid_par p -> modsns p (a mod sns p + k) = (a + k) mod sns p.
Proof. intros Hp. rewrite modsns_mod by exact Hp. cases_par Hp. Qed.
Lemma num_mod_sub p a k : valid_par p -> modsns p (k - a mod sns p) = (k - a) mod sns p.
Proof. intros Hp. rewrite modsns_mod by exact Hp. cases_par Hp. Qed.
Lemma sns_ws p : valid_par p -> 64 <= ws p /\ 2 * ws p <= sns p.
Proof. intros (_ & ? & ?). auto. Qed.

(** [rel p w a l]: the window starts at absolute number [a] and holds blocks in states [l]. *)
Record rel (p : wpar) (w : ulw) (a : Z) (l : list bst) : Prop := mkrel {
  rel_len : zlen l <= ws p;
  rel_a : v_a w = a mod sns p;
  rel_s : v_s w = (a + zlen l) mod sns p;
  rel_b : forall i b, nth_error l i = Some b -> v_b w (key p a (Z.of_nat i)) = b }.

Lemma nth_error_zlen {A} (l : list A) i x : nth_error l i = Some x -> Z.of_nat i < zlen l.
Proof. intros H. unfold zlen. assert (i < length l)%nat by (apply nth_error_Some; congruence). lia. Qed.

Lemma rel_get p w a l1 b l2 : valid_par p -> rel p w a (l1 ++ b :: l2) -> get_b w ((a + zlen l1) mod sns p) = b.
Proof.
  intros Hp H. unfold get_b. rewrite slot_mod. apply (rel_b _ _ _ _ H).
  rewrite nth_error_app2 by lia. now rewrite Nat.sub_diag.
Qed.

Lemma rel_mark p w a l1 b l2 x : valid_par p -> rel p w a (l1 ++ b :: l2) ->
  rel p (mark_b w ((a + zlen l1) mod sns p) x) a (l1 ++ x :: l2).
Proof.
  intros Hp H. pose proof (rel_len _ _ _ _ H) as Hlen. constructor; cbn [mark_b v_a v_s v_b].
  - rewrite zlen_app, zlen_cons in *. exact Hlen.
  - exact (rel_a _ _ _ _ H).
  - rewrite (rel_s _ _ _ _ H). rewrite !zlen_app, !zlen_cons. reflexivity.
  - intros i c Hi. unfold fupd. rewrite slot_mod.
    change ((a + zlen l1) mod sns p mod 1024) with (key p a (zlen l1)).
    destruct (Z.eqb_spec (key p a (Z.of_nat i)) (key p a (zlen l1))) as [E|E].
    + assert (Hi2 : Z.of_nat i = zlen l1).
      { apply nth_error_zlen in Hi. rewrite zlen_app, zlen_cons in *.
        pose proof (zlen_nonneg l1). pose proof (zlen_nonneg l2).
        apply (key_inj p a _ _ Hp); [lia|lia|exact E]. }
      replace i with (length l1) in Hi by (unfold zlen in Hi2; lia).
      rewrite nth_error_app2 in Hi by lia. rewrite Nat.sub_diag in Hi. cbn in Hi. congruence.
    + apply (rel_b _ _ _ _ H). assert (i <> length l1) by (intros ->; apply E; reflexivity).
      destruct (Nat.lt_ge_cases i (length l1)) as [Hlt|Hge].
      * rewrite nth_error_app1 in * by exact Hlt. exact Hi.
      * rewrite nth_error_app2 in * by exact Hge. destruct (i - length l1)%nat eqn:E2; [lia|exact Hi].
Qed.

Lemma end_test p w a l1 l2 : valid_par p -> rel p w a (l1 ++ l2) ->
  ((a + zlen l1) mod sns p =? v_s w) = match l2 with [] => true | _ => false end.
Proof.
  intros Hp H. rewrite (rel_s _ _ _ _ H). pose proof (rel_len _ _ _ _ H) as Hl. rewrite zlen_app in *.
  pose proof (zlen_nonneg l1). pose proof (zlen_nonneg l2).
  destruct (Z.eqb_spec ((a + zlen l1) mod sns p) ((a + (zlen l1 + zlen l2)) mod sns p)) as [E|E].
  - apply (num_inj p a) in E; [|exact Hp|lia|lia]. destruct l2; [reflexivity|]. rewrite zlen_cons in E. pose proof (zlen_nonneg l2). lia.
  - destruct l2; [|reflexivity]. exfalso. apply E. f_equal. rewrite zlen_nil. lia.
Qed.

Lemma app_snoc {A} (l1 : list A) b l2 : l1 ++ b :: l2 = (l1 ++ [b]) ++ l2.
Proof. rewrite <- app_assoc. reflexivity. Qed.
Lemma zlen_snoc {A} (l : list A) b : zlen (l ++ [b]) = zlen l + 1.
Proof. rewrite zlen_app. reflexivity. Qed.

(** Search. *)
Fixpoint find_due (l : list bst) : option nat :=
  match l with [] => None | b :: r => if is_due b then Some 0%nat else option_map S (find_due r) end.

Lemma resend_loop_spec p w a : valid_par p -> forall l2 l1 fuel, rel p w a (l1 ++ l2) -> (length l2 <= fuel)%nat ->
  resend_loop p w fuel ((a + zlen l1) mod sns p) =
  Ok (match find_due l2 with Some j => (a + zlen l1 + Z.of_nat j) mod sns p | None => -1 end).
Proof.
  intros Hp. induction l2 as [|b l2 IH]; intros l1 fuel H Hf.
  - destruct fuel; cbn [resend_loop]; rewrite (end_test p w a l1 [] Hp H); reflexivity.
  - destruct fuel as [|fuel]; [cbn in Hf; lia|]. cbn [resend_loop find_due].
    rewrite (end_test p w a l1 (b :: l2) Hp H), (rel_get p w a l1 b l2 Hp H).
    destruct (is_due b).
    + f_equal. f_equal. lia.
    + rewrite num_next by exact Hp. rewrite app_snoc in H.
      specialize (IH (l1 ++ [b]) fuel H). rewrite zlen_snoc in IH. rewrite IH by (cbn in Hf; lia).
      destruct (find_due l2); cbn [option_map]; [|reflexivity]. f_equal. f_equal. lia.
Qed.

(** Marking everything unacknowledged. *)
Definition mark1 (b : bst) : bst := if is_unacked b then RESEND else b.
Definition count_unacked (l : list bst) : Z := zlen (filter is_unacked l).
Lemma mark_loop_spec p a : valid_par p -> forall l2 l1 fuel n w, rel p w a (l1 ++ l2) -> (length l2 <= fuel)%nat ->
  exists w', mark_loop p w fuel ((a + zlen l1) mod sns p) n = Ok (w', n + count_unacked l2) /\ rel p w' a (l1 ++ map mark1 l2).
Proof.
  intros Hp. induction l2 as [|b l2 IH]; intros l1 fuel n w H Hf.
  - exists w. unfold count_unacked. cbn [filter]. rewrite zlen_nil, Z.add_0_r.
    destruct fuel; cbn [mark_loop]; rewrite (end_test p w a l1 [] Hp H); auto.
  - destruct fuel as [|fuel]; [cbn in Hf; lia|]. cbn [mark_loop].
    rewrite (end_test p w a l1 (b :: l2) Hp H), (rel_get p w a l1 b l2 Hp H).
    rewrite num_next by exact Hp. unfold count_unacked in *. cbn [filter map]. unfold mark1 at 1.
    destruct (is_unacked b).
    + apply (rel_mark p w a l1 b l2 RESEND Hp) in H. rewrite app_snoc in H.
      destruct (IH (l1 ++ [RESEND]) fuel (n + 1) _ H ltac:(cbn in Hf; lia)) as (w' & E & R).
      rewrite zlen_snoc in E. exists w'. rewrite E. split; [f_equal; f_equal; rewrite zlen_cons; lia|].
      rewrite app_snoc. exact R.
    + rewrite app_snoc in H. destruct (IH (l1 ++ [b]) fuel n _ H ltac:(cbn in Hf; lia)) as (w' & E & R).
      rewrite zlen_snoc in E. exists w'. rewrite E. split; [reflexivity|]. rewrite app_snoc. exact R.
Qed.

(** Applying acknowledgement bits. *)
Fixpoint over (bits : list bool) (l : list bst) : list bst :=
  match bits, l with
  | b :: r, _ :: l' => (if b then ACKED else NACKED) :: over r l'
  | _, _ => l
  end.
Lemma update_loop_spec p a : valid_par p -> forall bits l2 l1 w k, rel p w a (l1 ++ l2) -> (length bits <= length l2)%nat ->
  k = a mod sns p + zlen l1 -> rel p (update_loop p w k bits) a (l1 ++ over bits l2).
Proof.
  intros Hp. induction bits as [|b bits IH]; intros l2 l1 w k H Hl Hk; [exact H|].
  destruct l2 as [|c l2]; [cbn in Hl; lia|]. cbn [update_loop over]. subst k.
  rewrite (num_mod p a (zlen l1) Hp). rewrite (rel_a _ _ _ _ H).
  assert (E : ((a + zlen l1) mod sns p =? modsns p (a mod sns p - 1)) = false).
  { rewrite modsns_mod by exact Hp. pose proof (rel_len _ _ _ _ H) as Hlen. rewrite zlen_app, zlen_cons in Hlen.
    pose proof (zlen_nonneg l1). pose proof (zlen_nonneg l2). cases_par Hp. }
  rewrite E. apply (rel_mark p w a l1 c l2 (if b then ACKED else NACKED) Hp) in H.
  rewrite app_snoc. rewrite app_snoc in H. apply IH; [exact H|cbn in Hl; lia|rewrite zlen_snoc; lia].
Qed.

(** Moving the window. *)
Fixpoint lead (l : list bst) : nat := match l with b :: r => if is_acked b then S (lead r) else O | [] => O end.
Lemma move_loop_spec p a : valid_par p -> forall l2 l1 fuel n w, rel p w a (l1 ++ l2) -> (length l2 <= fuel)%nat ->
  exists w' l1', move_loop p w fuel ((a + zlen l1) mod sns p) n = Ok (w', n + Z.of_nat (lead l2)) /\
    length l1' = (length l1 + lead l2)%nat /\ rel p w' a (l1' ++ skipn (lead l2) l2).
Proof.
  intros Hp. induction l2 as [|b l2 IH]; intros l1 fuel n w H Hf.
  - exists w, l1. cbn [lead skipn]. rewrite Z.add_0_r, Nat.add_0_r.
    destruct fuel; cbn [move_loop]; rewrite (end_test p w a l1 [] Hp H); auto.
  - destruct fuel as [|fuel]; [cbn in Hf; lia|]. cbn [move_loop lead].
    rewrite (end_test p w a l1 (b :: l2) Hp H), (rel_get p w a l1 b l2 Hp H).
    rewrite num_next by exact Hp. destruct (is_acked b).
    + apply (rel_mark p w a l1 b l2 INVALID Hp) in H. rewrite app_snoc in H.
      destruct (IH (l1 ++ [INVALID]) fuel (n + 1) _ H ltac:(cbn in Hf; lia)) as (w' & l1' & E & L & R).
      rewrite zlen_snoc in E. exists w', l1'. rewrite E. split; [f_equal; f_equal; lia|].
      split; [rewrite L, app_length; cbn; lia|]. exact R.
    + exists w, l1. cbn [skipn]. rewrite Z.add_0_r, Nat.add_0_r. auto.
Qed.

Lemma rel_raise p w a l1 l2 : valid_par p -> rel p w a (l1 ++ l2) -> rel p (w_raise p w (zlen l1)) (a + zlen l1) l2.
Proof.
  intros Hp H. pose proof (rel_len _ _ _ _ H) as Hlen. rewrite zlen_app in Hlen. pose proof (zlen_nonneg l1).
  constructor; cbn [w_raise v_a v_s v_b].
  - lia.
  - rewrite (rel_a _ _ _ _ H). apply num_mod, Hp.
  - rewrite (rel_s _ _ _ _ H), zlen_app. f_equal. lia.
  - intros i b Hi. replace (key p (a + zlen l1) (Z.of_nat i)) with (key p a (Z.of_nat (length l1 + i))).
    + apply (rel_b _ _ _ _ H). rewrite nth_error_app2 by lia. now replace (length l1 + i - length l1)%nat with i by lia.
    + unfold key, zlen. f_equal. f_equal. lia.
Qed.

Lemma fuel_enough p w a l : valid_par p -> rel p w a l -> (length l <= fuel_of p)%nat.
Proof. intros Hp H. pose proof (rel_len _ _ _ _ H). pose proof (sns_ws p Hp). unfold fuel_of, zlen in *. lia. Qed.

Lemma start p a : (a + zlen (@nil bst)) mod sns p = a mod sns p.
Proof. rewrite zlen_nil, Z.add_0_r. reflexivity. Qed.

Lemma resend_needed_spec p w a l : valid_par p -> rel p w a l ->
  resend_needed p w = Ok (match find_due l with Some j => (a + Z.of_nat j) mod sns p | None => -1 end).
Proof.
  intros Hp H. unfold resend_needed. rewrite (rel_a _ _ _ _ H). rewrite <- (start p a).
  rewrite (resend_loop_spec p w a Hp l [] _ H (fuel_enough p w a l Hp H)).
  rewrite zlen_nil, Z.add_0_r. reflexivity.
Qed.
Lemma mark_for_resend_spec p w a l : valid_par p -> rel p w a l ->
  exists w', mark_for_resend p w = Ok (w', count_unacked l) /\ rel p w' a (map mark1 l).
Proof.
  intros Hp H. unfold mark_for_resend. rewrite (rel_a _ _ _ _ H). rewrite <- (start p a).
  exact (mark_loop_spec p a Hp l [] _ 0 w H (fuel_enough p w a l Hp H)).
Qed.
Lemma distance_spec p w a l : valid_par p -> rel p w a l -> distance p w = zlen l.
Proof.
  intros Hp H. unfold distance. rewrite (rel_a _ _ _ _ H), (rel_s _ _ _ _ H).
  apply num_dist; [exact Hp|]. pose proof (rel_len _ _ _ _ H). pose proof (zlen_nonneg l). lia.
Qed.
Lemma w_update_spec p w a l bits : valid_par p -> rel p w a l -> rel p (w_update p w (v_a w) bits) a (over bits l).
Proof.
  intros Hp H. unfold w_update. rewrite (distance_spec p w a l Hp H).
  assert (E : over bits l = over (firstn (Z.to_nat (Z.min (zlen l) (zlen bits))) bits) l).
  { replace (Z.to_nat (Z.min (zlen l) (zlen bits))) with (Nat.min (length l) (length bits)) by (unfold zlen; lia).
    clear. revert l. induction bits as [|b bits IH]; intros [|c l]; try reflexivity. cbn. f_equal. apply IH. }
  rewrite E. apply (update_loop_spec p a Hp _ l []).
  - exact H.
  - rewrite firstn_length. unfold zlen. lia.
  - rewrite (rel_a _ _ _ _ H), zlen_nil. lia.
Qed.
Lemma move_window_spec p w a l : valid_par p -> rel p w a l ->
  exists w', move_window p w = Ok (w', Z.of_nat (lead l)) /\
    rel p (w_raise p w' (Z.of_nat (lead l))) (a + Z.of_nat (lead l)) (skipn (lead l) l).
Proof.
  intros Hp H. unfold move_window. rewrite (rel_a _ _ _ _ H). rewrite <- (start p a).
  destruct (move_loop_spec p a Hp l [] _ 0 w H (fuel_enough p w a l Hp H)) as (w' & l1' & E & L & R).
  exists w'. split; [exact E|]. apply (rel_raise p w' a l1') in R; [|exact Hp].
  cbn [length] in L. replace (zlen l1') with (Z.of_nat (lead l)) in R by (unfold zlen; lia). exact R.
Qed.

Lemma stalled_spec p w a l : valid_par p -> rel p w a l -> stalled p w = (zlen l =? ws p).
Proof. intros Hp H. unfold stalled. change (modsns p (v_s w - v_a w)) with (distance p w). now rewrite (distance_spec p w a l Hp H). Qed.
Lemma w_empty_spec p w a l : valid_par p -> rel p w a l -> w_empty w = match l with [] => true | _ => false end.
Proof.
  intros Hp H. unfold w_empty. rewrite Z.eqb_sym. rewrite (rel_a _ _ _ _ H), <- (start p a).
  exact (end_test p w a [] l Hp H).
Qed.

Lemma rel_create p w a l : valid_par p -> rel p w a l -> zlen l < ws p ->
  rel p (increment_send p (mark_b w (v_s w) UNACKED)) a (l ++ [UNACKED]).
Proof.
  intros Hp H Hlt. constructor; cbn [increment_send mark_b v_a v_s v_b].
  - rewrite zlen_snoc. lia.
  - exact (rel_a _ _ _ _ H).
  - rewrite (rel_s _ _ _ _ H), zlen_snoc. apply num_next, Hp.
  - intros i c Hi. unfold fupd. rewrite slot_mod, (rel_s _ _ _ _ H).
    change ((a + zlen l) mod sns p mod 1024) with (key p a (zlen l)).
    pose proof (nth_error_zlen _ _ _ Hi) as Hi2. rewrite zlen_snoc in Hi2. pose proof (zlen_nonneg l).
    destruct (Z.eqb_spec (key p a (Z.of_nat i)) (key p a (zlen l))) as [E|E].
    + apply (key_inj p a) in E; [|exact Hp|lia|lia]. replace i with (length l) in Hi by (unfold zlen in E; lia).
      rewrite nth_error_app2, Nat.sub_diag in Hi by lia. cbn in Hi. congruence.
    + apply (rel_b _ _ _ _ H). assert (i <> length l) by (intros ->; apply E; reflexivity).
      rewrite nth_error_app1 in Hi by (unfold zlen in Hi2; lia). exact Hi.
Qed.
