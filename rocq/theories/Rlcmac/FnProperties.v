(** Theorems about frame numbers (C22, C40). *)
From Verif.Lib Require Import Base Outcome.
From Verif.Rlcmac Require Import FnModel.

(** *** Specification: in the 52-multiframe a radio block starts in frames 0, 4, 8 of every 13 (TS 45.002). *)
Definition block_start (fn : Z) : Prop := fn mod 13 = 0 \/ fn mod 13 = 4 \/ fn mod 13 = 8.
(** The first block start [d] or more frames after [fn]; frame numbers count modulo the hyperframe. *)
Definition first_block_from (fn d : Z) (p : Z) : Prop :=
  0 <= p < 2715648 /\ block_start p /\
  exists e, d <= e /\ p = (fn + e) mod 2715648 /\ forall e', d <= e' < e -> ~ block_start (fn + e').

Lemma valid_spec fn : fn_valid fn = true <-> block_start fn.
Proof. unfold fn_valid, block_start. cbv zeta. lia. Qed.
Lemma mod13 x : (x mod 2715648) mod 13 = x mod 13.
Proof. lia. Qed.
Lemma start_mod x : block_start (x mod 2715648) <-> block_start x.
Proof. unfold block_start. now rewrite mod13. Qed.
Lemma fbf fn d e : d <= e -> block_start (fn + e) -> (forall e', d <= e' < e -> ~ block_start (fn + e')) -> first_block_from fn d ((fn + e) mod 2715648).
Proof. intros H1 H2 H3. split; [apply Z.mod_pos_bound; lia|]. split; [now apply start_mod|]. exists e. auto. Qed.

Lemma sum_sum a b c : ((a + b) mod 2715648 + c) mod 2715648 = (a + (b + c)) mod 2715648.
Proof. rewrite Zplus_mod_idemp_l. f_equal. lia. Qed.
Lemma poll_step fn d : block_start fn -> In d [13; 17; 21; 26] ->
  exists p, (let p := fn_sum fn d in if fn_valid p then Ok p else let p' := fn_sum p 1 in if fn_valid p' then Ok p' else UB) = Ok p /\ first_block_from fn d p.
Proof.
  intros Hs Hd. cbv zeta. unfold fn_sum, MAX_FN. rewrite sum_sum.
  destruct (fn_valid ((fn + d) mod 2715648)) eqn:E1.
  - exists ((fn + d) mod 2715648). split; [reflexivity|]. apply fbf; [lia| |intros; lia]. now apply start_mod, valid_spec.
  - assert (Hn : ~ block_start (fn + d)) by (intros H; apply start_mod, valid_spec in H; congruence).
    assert (Hb : block_start (fn + (d + 1))).
    { unfold block_start in *. cbn [In] in Hd. destruct Hd as [<-|[<-|[<-|[<-|[]]]]]; lia. }
    replace (fn_valid ((fn + (d + 1)) mod 2715648)) with true by (symmetry; apply valid_spec, start_mod; exact Hb).
    eexists. split; [reflexivity|]. apply fbf; [lia|exact Hb|]. intros e' He'. replace e' with d by lia. exact Hn.
Qed.

(** *** C22: the poll frame is the first block start at or after N+13, N+17, N+21, N+26, and the computation never
    fails; the next block is the first block start after the given one. *)
Theorem C22_poll_frame : forall fn rrbp, block_start fn -> 0 <= rrbp < 4 ->
  exists p d, rrbp2fn fn rrbp = Ok p /\ nth_error [13; 17; 21; 26] (Z.to_nat rrbp) = Some d /\ first_block_from fn d p.
Proof.
  intros fn rrbp Hs Hr. unfold rrbp2fn. rewrite rd_ok by (unfold rrbp_list; change (zlen [13; 17; 21; 26]) with 4; lia). cbn [bind].
  assert (Hc : rrbp = 0 \/ rrbp = 1 \/ rrbp = 2 \/ rrbp = 3) by lia.
  assert (Hd : exists d, nth (Z.to_nat rrbp) rrbp_list 0 = d /\ nth_error [13; 17; 21; 26] (Z.to_nat rrbp) = Some d /\ In d [13; 17; 21; 26]).
  { destruct Hc as [-> | [-> | [-> | ->]]]; eexists; (split; [reflexivity|]); (split; [reflexivity|]); cbn; tauto. }
  destruct Hd as (d & -> & Hn & Hin). destruct (poll_step fn d Hs Hin) as (p & E & Hp). exists p, d. auto.
Qed.
Print Assumptions C22_poll_frame.
Theorem C22_next_block : forall fn, 0 <= fn < 2715648 -> block_start fn -> first_block_from fn 1 (fn_next_block fn).
Proof.
  intros fn Hr Hs. unfold fn_next_block, fn2bn, MAX_FN. cbv zeta.
  assert (Hq : exists q r, fn = 52 * q + r /\ fn mod 52 = r /\ In r [0; 4; 8; 13; 17; 21; 26; 30; 34; 39; 43; 47]).
  { exists (fn / 52), (fn mod 52). split; [lia|]. split; [reflexivity|]. unfold block_start in Hs.
    assert (0 <= fn mod 52 < 52) by (apply Z.mod_pos_bound; lia). assert (fn mod 13 = (fn mod 52) mod 13) by lia.
    set (r := fn mod 52) in *. clearbody r. cbn [In]. lia. }
  destruct Hq as (q & r & Hf & -> & Hin).
  assert (He : exists e, (r / 4 + 1) * 4 + (r / 4 + 1) / 3 = r + e /\ 1 <= e <= 5 /\ block_start (fn + e) /\ forall e', 1 <= e' < e -> ~ block_start (fn + e')).
  { exists ((r / 4 + 1) * 4 + (r / 4 + 1) / 3 - r). split; [lia|]. subst fn. unfold block_start. clear Hr Hs. cbn [In] in Hin.
    repeat (destruct Hin as [<-|Hin]; [match goal with |- context [1 <= ?x <= 5] => let v := eval vm_compute in x in change x with v end;
      (split; [lia|]); (split; [lia|]); intros e' He'; lia|]). contradiction. }
  destruct He as (e & -> & H1 & H2 & H3). replace (fn - r + (r + e)) with (fn + e) by lia. apply fbf; [lia|assumption|assumption].
Qed.
Print Assumptions C22_next_block.

(** *** C40: starting frames.  A relative frame number k names the (k+1)-th block after the current one; the absolute
    encoding names the frame with the given T1', T2, T3. *)
Inductive blocks_after : nat -> Z -> Z -> Prop :=
| ba_here : forall fn, blocks_after 0 fn fn
| ba_next : forall n fn p r, blocks_after n fn p -> first_block_from p 1 r -> blocks_after (S n) fn r.

(** The first frame of block number [b], counted from frame 0. *)
Definition start_of (b : Z) : Z := 13 * (b / 3) + 4 * (b mod 3).
Lemma start_is_block b : block_start (start_of b).
Proof. unfold block_start, start_of. lia. Qed.
Lemma block_is_start fn : block_start fn -> exists b, fn = start_of b.
Proof. unfold block_start, start_of. intros H. exists (3 * (fn / 13) + (fn mod 13) / 4). lia. Qed.
Lemma start_next b : first_block_from (start_of b mod 2715648) 1 (start_of (b + 1) mod 2715648).
Proof.
  set (e := start_of (b + 1) - start_of b).
  assert (He : 1 <= e <= 5) by (unfold e, start_of; lia).
  replace (start_of (b + 1) mod 2715648) with ((start_of b mod 2715648 + e) mod 2715648).
  2:{ rewrite Zplus_mod_idemp_l. f_equal. unfold e. lia. }
  apply fbf; [lia| |].
  - apply start_mod. rewrite Zplus_mod_idemp_l. apply start_mod. replace (start_of b + e) with (start_of (b + 1)) by (unfold e; lia). apply start_is_block.
  - intros e' He' H. apply start_mod in H. rewrite Zplus_mod_idemp_l in H. apply start_mod in H. revert H He'. unfold e, block_start, start_of. clear. lia.
Qed.
Lemma starts_after b n : blocks_after n (start_of b mod 2715648) (start_of (b + Z.of_nat n) mod 2715648).
Proof.
  induction n as [|n IH]; [replace (b + Z.of_nat 0) with b by lia; constructor|].
  econstructor; [exact IH|]. replace (b + Z.of_nat (S n)) with (b + Z.of_nat n + 1) by lia. apply start_next.
Qed.

Theorem C40_relative_start : forall k fn, 0 <= k -> 0 <= fn < 2715648 -> block_start fn ->
  exists p, k_to_fn k fn = Ok p /\ blocks_after (Z.to_nat k + 1) fn p.
Proof.
  intros k fn Hk Hr Hs. destruct (block_is_start fn Hs) as (b & Hb).
  assert (E : fn = start_of b mod 2715648) by (rewrite <- Hb; symmetry; apply Z.mod_small; exact Hr).
  exists (start_of (b + Z.of_nat (Z.to_nat k + 1)) mod 2715648). split; [|rewrite E; apply starts_after].
  replace (b + Z.of_nat (Z.to_nat k + 1)) with (b + k + 1) by lia.
  assert (V : forall x, fn_valid (x mod 2715648) = fn_valid x) by (intros x; unfold fn_valid; now rewrite mod13).
  assert (W : fn_valid (start_of (b + k + 1)) = true) by apply valid_spec, start_is_block.
  unfold k_to_fn, fn_sum, MAX_FN. cbv zeta. rewrite sum_sum, Hb. clear Hb Hs Hr E fn.
  destruct (k mod 3 =? 2) eqn:Ek.
  - replace (start_of b + (5 + 4 * k + k / 3)) with (start_of (b + k + 1)) by (unfold start_of; clear V W; lia).
    now rewrite V, W.
  - rewrite !V. destruct (fn_valid (start_of b + (4 + 4 * k + k / 3))) eqn:E2.
    + replace (start_of b + (4 + 4 * k + k / 3)) with (start_of (b + k + 1)); [now rewrite V, W|].
      apply valid_spec in E2. revert E2. unfold block_start, start_of. clear V W. lia.
    + replace (start_of b + (4 + 4 * k + k / 3 + 1)) with (start_of (b + k + 1)); [now rewrite V, W|].
      assert (E3 : ~ block_start (start_of b + (4 + 4 * k + k / 3))) by (intros H; apply valid_spec in H; congruence).
      revert E3. unfold block_start, start_of. clear V W E2. lia.
Qed.
Print Assumptions C40_relative_start.

Theorem C40_absolute_start : forall t1p t3 t2, 0 <= t1p < 32 -> 0 <= t3 < 51 -> 0 <= t2 < 26 ->
  let rfn := starting_time_rfn t1p t3 t2 in
  0 <= rfn < 32 * 26 * 51 /\ rfn mod 51 = t3 /\ rfn mod 26 = t2 /\ rfn / (26 * 51) = t1p.
Proof. intros t1p t3 t2 H1 H3 H2. cbv zeta. unfold starting_time_rfn. rewrite (Z.mod_small _ 65536) by lia. lia. Qed.
Print Assumptions C40_absolute_start.

(** *** Non-vacuity. *)
Example C22_nonvacuous : block_start 2715643 /\
  rrbp2fn 2715643 0 = Ok 8 /\ fn_next_block 2715643 = 0 /\ rrbp2fn 0 1 = Ok 17 /\ rrbp2fn 4 1 = Ok 21 /\ rrbp2fn 8 1 = Ok 26.
Proof. split; [right; right; reflexivity|]. now vm_compute. Qed.
Example C40_nonvacuous : k_to_fn 0 8 = Ok 13 /\ k_to_fn 5 2715643 = Ok 21 /\ starting_time_rfn 3 17 20 = 3 * 1326 + 51 * 23 + 17.
Proof. now vm_compute. Qed.
(** [fn_next_block] is only right for block starts: from an idle frame (12 modulo 13) it skips a block. *)
Example C22_idle_frame_skips : fn_next_block 12 = 17 /\ fn_next_block 11 = 13.
Proof. now vm_compute. Qed.
