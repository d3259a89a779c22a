(** EGPRS blocks sent again: coding and puncturing schemes, segments. *)
From Verif.Lib Require Import Base Outcome.
From Verif.Rlcmac Require Import CsModel AirModel AirSpec AirEdgeSpec AirProofs AirProofs2 AirEdge.

(** *** C114: CPS is what the tables of TS 44.060 10.4.8a have. *)
Theorem C114_cps : forall cs p1 p2 pad c, 5 <= cs <= 13 -> 0 <= p1 <= 2 -> (if 11 <=? cs then 0 <= p2 <= 2 else True) -> (pad = true -> cs = 7 \/ cs = 10) ->
  (mcs_cps cs p1 p2 pad = Ok c <->
   In (mkrow (type_of (cs - 4)) c (cs - 4) pad (p1 mod schemes (cs - 4) + 1) (if 11 <=? cs then p2 + 1 else 0)) cps_table).
Proof.
  intros cs p1 p2 pad c Hc H1 H2 Hp.
  assert (forall r, mcs_cps cs p1 p2 pad = Ok r -> In (mkrow (type_of (cs - 4)) r (cs - 4) pad (p1 mod schemes (cs - 4) + 1) (if 11 <=? cs then p2 + 1 else 0)) cps_table) as A.
  { intros r. assert (p1 = 0 \/ p1 = 1 \/ p1 = 2) as D by lia.
    destruct (edge_cases _ Hc) as [E|[E|[E|[E|[E|[E|[E|[E|E]]]]]]]]; subst cs; cbn [Z.leb Z.compare Pos.compare Pos.compare_cont] in *;
      (destruct pad; [specialize (Hp eq_refl); try lia|]); destruct D as [D|[D|D]]; subst p1; unfold mcs_cps, PS_INVALID.
    all: try (assert (p2 = 0 \/ p2 = 1 \/ p2 = 2) as D by lia; destruct D as [D|[D|D]]; subst p2).
    all: cbn; intros E; injection E as <-; tauto. }
  split; [apply A|]. intros Hi.
  assert (exists r, mcs_cps cs p1 p2 pad = Ok r) as (r & Er).
  { unfold mcs_cps, PS_INVALID. replace (is_edge cs) with true by (unfold is_edge; lia). replace (p1 =? 3) with false by lia. destruct (11 <=? cs); [replace (p2 =? 3) with false by lia|]; cbn [negb andb]; eauto. }
  pose proof (A r Er) as Hr. rewrite Er. f_equal.
  assert (forall x y, In x cps_table -> In y cps_table -> r_type x = r_type y -> r_mcs x = r_mcs y -> r_pad x = r_pad y -> r_p1 x = r_p1 y -> r_p2 x = r_p2 y -> r_cps x = r_cps y) as U.
  { pose (same := fun x y => (r_mcs x =? r_mcs y) && Bool.eqb (r_pad x) (r_pad y) && (r_p1 x =? r_p1 y) && (r_p2 x =? r_p2 y)).
    assert (forallb (fun x => forallb (fun y => implb (same x y) (r_cps x =? r_cps y)) cps_table) cps_table = true) as F by (vm_compute; reflexivity).
    intros x y Hx Hy _ E1 E2 E3 E4. rewrite forallb_forall in F. specialize (F x Hx). rewrite forallb_forall in F. specialize (F y Hy).
    unfold same in F. rewrite E1, E2, E3, E4, !Z.eqb_refl, Bool.eqb_reflx in F. cbn [andb implb] in F. lia. }
  exact (U _ _ Hr Hi eq_refl eq_refl eq_refl eq_refl eq_refl).
Qed.
Print Assumptions C114_cps.

(** Header type and CPS tell the network scheme, padding and puncturing. *)
Theorem C114_cps_tells : forall cs p1 p2 pad cs' p1' p2' pad' c,
  5 <= cs <= 13 -> 0 <= p1 < schemes (cs - 4) -> (if 11 <=? cs then 0 <= p2 <= 2 else p2 = 0) -> (pad = true -> cs = 7 \/ cs = 10) ->
  5 <= cs' <= 13 -> 0 <= p1' < schemes (cs' - 4) -> (if 11 <=? cs' then 0 <= p2' <= 2 else p2' = 0) -> (pad' = true -> cs' = 7 \/ cs' = 10) ->
  type_of (cs - 4) = type_of (cs' - 4) -> mcs_cps cs p1 p2 pad = Ok c -> mcs_cps cs' p1' p2' pad' = Ok c -> cs = cs' /\ p1 = p1' /\ p2 = p2' /\ pad = pad'.
Proof.
  intros cs p1 p2 pad cs' p1' p2' pad' c A1 A2 A3 A4 B1 B2 B3 B4 T E E'.
  assert (forall z, schemes z <= 3) as S3 by (intros z; unfold schemes; destruct (_ || _); lia). pose proof (S3 (cs - 4)). pose proof (S3 (cs' - 4)).
  apply C114_cps in E; try assumption; [|lia|destruct (11 <=? cs); auto]. apply C114_cps in E'; try assumption; [|lia|destruct (11 <=? cs'); auto].
  rewrite Z.mod_small in E, E' by lia.
  assert (forall x y, In x cps_table -> In y cps_table -> r_type x = r_type y -> r_cps x = r_cps y -> r_mcs x = r_mcs y /\ r_pad x = r_pad y /\ r_p1 x = r_p1 y /\ r_p2 x = r_p2 y) as U.
  { pose (same := fun x y => (r_mcs x =? r_mcs y) && Bool.eqb (r_pad x) (r_pad y) && (r_p1 x =? r_p1 y) && (r_p2 x =? r_p2 y)).
    assert (forallb (fun x => forallb (fun y => implb ((r_type x =? r_type y) && (r_cps x =? r_cps y)) (same x y)) cps_table) cps_table = true) as F by (vm_compute; reflexivity).
    intros x y Hx Hy E1 E2. rewrite forallb_forall in F. specialize (F x Hx). rewrite forallb_forall in F. specialize (F y Hy).
    rewrite E1, E2, !Z.eqb_refl in F. cbn [andb implb] in F. unfold same in F. rewrite !andb_true_iff, Bool.eqb_true_iff in F. destruct F as [[[F1 F2] F3] F4]. repeat split; [lia|assumption|lia|lia]. }
  destruct (U _ _ E E' T eq_refl) as (U1 & U2 & U3 & U4). cbn [r_mcs r_pad r_p1 r_p2] in *. assert (cs = cs') as <- by lia. repeat split; [lia| |assumption]. destruct (11 <=? cs); lia.
Qed.
Print Assumptions C114_cps_tells.

(** *** Any transmissions *)
Definition half_ok (b : ablk) (h : option (list Z)) : Prop :=
  match h with
  | None => a_seg b <> SEG_FIRST
  | Some x => a_seg b = SEG_FIRST /\ In (a_init b) [9; 10; 11; 13] /\ x = firstn (Z.to_nat (octets (a_init b - 4) false / 2)) (a_buf b)
  end.
Definition out_ok (s : store) (o : Z * Z * list Z * option Z) (d : list Z) : Prop :=
  let '(n, spb, m, c) := o in exists cps ht from, c = Some cps /\ reads ht cps m d /\ d = slice from (length d) (a_buf (s n)).
Definition of_block (n : Z) (out : list (Z * Z * list Z * option Z)) (ds : list (list Z)) : list (Z * list Z) :=
  flat_map (fun z => let '((n', spb, _, _), d) := z in if n' =? n then [(spb, d)] else []) (combine out ds).
Definition cmd_ok (x : Z * option (Z * bool)) : Prop := match snd x with Some (cmd, _) => 5 <= cmd <= 13 | None => True end.

Lemma step_ok s tfi x : inv (s (fst x)) -> cmd_ok x -> exists b spb s' m k c f d from,
  status s x = Ok b /\ get_spb b = Ok spb /\ once s tfi x = Ok (s', m, k, Some c, f) /\ inv (s' (fst x)) /\
  a_init (s' (fst x)) = a_init (s (fst x)) /\ a_buf (s' (fst x)) = a_buf (s (fst x)) /\ (forall j, j <> fst x -> s' j = s j) /\
  (exists ht, reads ht c m d) /\ d = slice from (length d) (a_buf (s (fst x))) /\
  (forall h, a_init (s (fst x)) <> 8 -> half_ok (s (fst x)) h ->
    (spb = 0 /\ d = firstn (Z.to_nat (octets (a_init (s (fst x)) - 4) false)) (a_buf (s (fst x))) /\ half_ok (s' (fst x)) None) \/
    (spb = 2 /\ h = None /\ (exists y, y <> [] /\ firstn (Z.to_nat (octets (a_init (s (fst x)) - 4) false)) (a_buf (s (fst x))) = d ++ y) /\ d <> [] /\ half_ok (s' (fst x)) (Some d)) \/
    (spb = 3 /\ (exists g, h = Some g /\ firstn (Z.to_nat (octets (a_init (s (fst x)) - 4) false)) (a_buf (s (fst x))) = g ++ d) /\ half_ok (s' (fst x)) None)).
Proof.
  intros I Hc. destruct x as [n q]. cbn [fst] in *.
  assert (exists b s0, status s (n, q) = Ok b /\ once s tfi (n, q) = acked_block s0 tfi n None /\ s0 n = b /\ (forall j, j <> n -> s0 j = s j) /\ inv b /\
    a_init b = a_init (s n) /\ a_buf b = a_buf (s n) /\ a_seg b = a_seg (s n)) as (b & s0 & E1 & E2 & E3 & E4 & Ib & Ei & Eb & Es).
  { destruct q as [[cmd arq]|]; [|exists (s n), s; auto 10]. unfold cmd_ok in Hc. cbn [snd] in Hc. unfold status, once, resend. cbn [fst snd].
    assert (5 <= a_init (s n) <= 13) as Ri. { destruct I as [Hp _ _ _ _]. unfold pairs in Hp. cbn [In] in Hp. repeat (destruct Hp as [Hp|Hp]; [injection Hp; lia|]). destruct Hp. }
    destruct (retx_pair (a_init (s n)) cmd arq Ri Hc) as (c & Ec & Pc). rewrite Ec. cbn [bind]. eexists. eexists. split; [reflexivity|]. split; [reflexivity|].
    split; [unfold sset; rewrite Z.eqb_refl; reflexivity|]. split; [intros j Hj; unfold sset; replace (j =? n) with false by lia; reflexivity|].
    destruct I as [J1 J2 J3 J4 J5]. cbn [a_init a_buf a_seg]. split; [constructor; assumption|auto]. }
  assert (inv (s0 n)) as I0 by (rewrite E3; exact Ib).
  destruct (edge_ok s0 tfi n I0) as (p & s' & m & k & c & f & P0 & P1 & P2 & P3 & P4 & P5 & P6 & P7 & P8 & P9 & P10 & P11 & p1 & p2 & P12 & P13 & P14).
  rewrite E3 in *. rewrite Eb in *. rewrite Ei in *.
  destruct (plan_std b p Ib P0) as (Q1 & Q2 & Q3 & Q4 & Q5).
  destruct (plan_ok b Ib) as (p' & P0' & _ & R2 & R3 & R4 & R5 & R6 & R7 & _). rewrite P0 in P0'. injection P0' as <-.
  destruct (copy_to_ok (p_offs p) (p_len p) m R5 R3 ltac:(lia) P9) as (d & D1 & D2 & D3 & D4). rewrite P11 in D1. injection D1 as D1.
  assert (Z.to_nat (p_len p) = length d) as Ld by (unfold zlen in D3; lia).
  exists b, (p_spb p), s', m, k, c, f, d, (Z.to_nat (p_from p)). split; [exact E1|]. split; [exact Q5|]. split; [rewrite E2; exact P1|]. split; [exact P2|].
  split; [exact P3|]. split; [exact P4|]. split; [intros j Hj; rewrite P7 by exact Hj; apply E4, Hj|].
  split.
  { exists (type_of (p_cs p - 4)). eexists. split; [apply (proj1 (C114_cps (p_cs p) p1 p2 (p_pad p) c P10 P12 ltac:(destruct (11 <=? p_cs p) eqn:G; [lia|exact Logic.I]) Q4) P14)|].
    cbn [r_type r_cps r_mcs r_pad]. split; [reflexivity|]. split; [reflexivity|]. split; [lia|]. split; [exact D2|]. rewrite <- Q1, <- Q2. exact D4. }
  split; [rewrite <- Ld; symmetry; exact D1|]. intros h N8 Hh.
  assert (zlen (a_buf (s n)) = 74) as Zb by (rewrite <- Eb; apply (i_buf b Ib)).
  assert (a_seg b = SEG_FIRST -> In (a_init b) [9; 10; 11; 13]) as HF. { rewrite Es, Ei. destruct h as [x|]; cbn [half_ok] in Hh; [intros _; apply Hh|intros; contradiction]. }
  assert (forall z, octets z false <= 74) as O74 by (intros z; unfold octets; repeat match goal with |- context [if ?c then _ else _] => destruct c end; lia). pose proof (O74 (a_init (s n) - 4)) as O.
  rewrite <- Ei in N8. destruct (plan_cases b p Ib N8 HF P0) as [(C1 & C2 & C3 & C4)|[(C1 & C2 & C3 & C4 & C5 & C6 & C7)|(C1 & C2 & C3 & C4 & C5)]]; rewrite ?Ei in *.
  - left. split; [exact C1|]. split; [rewrite <- D1, C2, C3; reflexivity|]. cbn [half_ok]. rewrite P5, C4. discriminate.
  - right; left. split; [exact C1|]. split; [destruct h as [x|]; [cbn [half_ok] in Hh; rewrite <- Es in Hh; destruct Hh; contradiction|reflexivity]|].
    assert (d = firstn (Z.to_nat (p_len p)) (a_buf (s n))) as Dd by (rewrite <- D1, C3; reflexivity).
    split; [|split].
    + exists (firstn (Z.to_nat (p_len p)) (skipn (Z.to_nat (p_len p)) (a_buf (s n)))). split.
      * intros K. apply (f_equal (@length Z)) in K. rewrite firstn_length, skipn_length in K. cbn [length] in K. unfold zlen in Zb. lia.
      * rewrite Dd. rewrite <- C5. replace (Z.to_nat (2 * p_len p)) with (Z.to_nat (p_len p) + Z.to_nat (p_len p))%nat by lia.
        rewrite <- (firstn_skipn (Z.to_nat (p_len p)) (a_buf (s n))) at 1. rewrite firstn_app, firstn_firstn, firstn_length_le by (unfold zlen in Zb; lia).
        rewrite Nat.min_r by lia. f_equal. f_equal. lia.
    + intros K. rewrite K in Ld. cbn [length] in Ld. lia.
    + cbn [half_ok]. rewrite P5, P3, P4, Dd. split; [exact C6|]. split; [exact C7|]. rewrite <- C5. f_equal. rewrite Z.mul_comm, Z.div_mul by lia. reflexivity.
  - right; right. split; [exact C1|]. split; [|cbn [half_ok]; rewrite P5, C5; discriminate].
    destruct h as [x|]; cbn [half_ok] in Hh; [|rewrite <- Es in Hh; contradiction]. destruct Hh as (_ & _ & Hx). exists x. split; [reflexivity|].
    rewrite Hx, <- D1, <- C3, C4. replace (2 * p_from p / 2) with (p_from p) by (rewrite Z.mul_comm, Z.div_mul by lia; reflexivity).
    unfold slice. replace (Z.to_nat (2 * p_from p)) with (Z.to_nat (p_from p) + Z.to_nat (p_from p))%nat by lia.
    rewrite <- (firstn_skipn (Z.to_nat (p_from p)) (a_buf (s n))) at 1. rewrite firstn_app, firstn_firstn, firstn_length_le by (unfold zlen in Zb; lia).
    rewrite Nat.min_r by lia. f_equal. f_equal. lia.
Qed.

Lemma Forall2_weak {A B} (P Q : A -> B -> Prop) l l' : (forall a b, P a b -> Q a b) -> Forall2 P l l' -> Forall2 Q l l'.
Proof. intros H. induction 1; constructor; auto. Qed.

Lemma several_ok tfi l : forall s h, Forall cmd_ok l -> (forall n, inv (s n)) -> (forall n, a_init (s n) <> 8 -> half_ok (s n) (h n)) ->
  exists out ds, several s tfi l = Ok out /\ map (fun o => fst (fst (fst o))) out = map fst l /\ Forall2 (out_ok s) out ds /\
    forall n, a_init (s n) <> 8 -> fits (firstn (Z.to_nat (octets (a_init (s n) - 4) false)) (a_buf (s n))) (h n) (of_block n out ds).
Proof.
  induction l as [|x l IH]; intros s h Hl Hi Hh; [exists [], []; split; [reflexivity|]; split; [reflexivity|]; split; [constructor|]; intros n _; exact Logic.I|].
  inversion Hl as [|? ? Hx Hr]; subst.
  destruct (step_ok s tfi x (Hi _) Hx) as (b & spb & s' & m & k & c & f & d & from & E1 & E2 & E3 & E4 & E5 & E6 & E7 & (ht & E8) & E9 & E10).
  pose (h' := fun n => if n =? fst x then (if spb =? 2 then Some d else None) else h n).
  assert (forall j, a_init (s' j) = a_init (s j) /\ a_buf (s' j) = a_buf (s j)) as Same.
  { intros j. destruct (Z.eq_dec j (fst x)) as [->|J]; [auto|rewrite E7 by exact J; auto]. }
  destruct (IH s' h' Hr) as (out & ds & F1 & F2 & F3 & F4).
  { intros j. destruct (Z.eq_dec j (fst x)) as [->|J]; [exact E4|rewrite E7 by exact J; apply Hi]. }
  { intros j N8. subst h'. cbv beta. destruct (j =? fst x) eqn:J; [|rewrite E7 in * by lia; apply Hh, N8]. apply Z.eqb_eq in J. subst j. rewrite E5 in N8.
    destruct (E10 (h (fst x)) N8 (Hh _ N8)) as [(-> & _ & K)|[(-> & _ & _ & _ & K)|(-> & _ & K)]]; exact K. }
  exists ((fst x, spb, m, Some c) :: out), (d :: ds). cbn [several]. rewrite E1. cbn [bind]. rewrite E2. cbn [bind]. rewrite E3. cbn [bind]. rewrite F1. cbn [bind].
  split; [reflexivity|]. split; [cbn [map fst]; rewrite F2; reflexivity|]. split.
  { constructor; [exists c, ht, from; auto|]. eapply Forall2_weak; [|exact F3]. intros [[[n' spb'] m'] c'] d'. unfold out_ok. rewrite (proj2 (Same n')). auto. }
  intros n N8. specialize (F4 n). rewrite (proj1 (Same n)), (proj2 (Same n)) in F4. specialize (F4 N8). unfold of_block in *. cbn [combine flat_map]. subst h'. cbv beta in F4.
  destruct (n =? fst x) eqn:J.
  - apply Z.eqb_eq in J. subst n. rewrite Z.eqb_refl. cbn [app fits].
    destruct (E10 (h (fst x)) N8 (Hh _ N8)) as [(-> & K & _)|[(-> & K1 & K2 & K3 & _)|(-> & K & _)]]; [left|right; left|right; right]; cbn [Z.eqb Pos.eqb] in F4; auto 10.
  - replace (fst x =? n) with false by lia. exact F4.
Qed.

(** Blocks that are in the store for the first time, and messages with one block, for any commands of the network, in any order: what is
    sent can be read, as far as scheme and puncturing are concerned, and the data read are octets of the block. *)
Theorem C114_sent_again_partial : forall s tfi l,
  (forall n, exists cs ti e cv buf, s n = new_ablk cs ti e cv buf /\ 5 <= cs <= 13 /\ bytes buf /\ zlen buf = 74) -> Forall cmd_ok l ->
  exists out ds, several s tfi l = Ok out /\ map (fun o => fst (fst (fst o))) out = map fst l /\
    Forall2 (fun o d => let '(n, spb, m, c) := o in exists cps ht from, c = Some cps /\ reads ht cps m d /\ d = slice from (length d) (a_buf (s n))) out ds.
Proof.
  intros s tfi l Hs Hl. destruct (several_ok tfi l s (fun _ => None) Hl) as (out & ds & E1 & E2 & E3 & _).
  - intros n. destruct (Hs n) as (cs & ti & e & cv & buf & -> & H1 & H2 & H3). apply new_inv; assumption.
  - intros n _. destruct (Hs n) as (cs & ti & e & cv & buf & -> & _). discriminate.
  - exists out, ds. auto.
Qed.
Print Assumptions C114_sent_again_partial.

(** *** C115: segments.  A block whose first scheme is not MCS-4 is read whole, or in two segments one right after the other. *)
Theorem C115_segments_partial : forall s tfi l,
  (forall n, exists cs ti e cv buf, s n = new_ablk cs ti e cv buf /\ 5 <= cs <= 13 /\ bytes buf /\ zlen buf = 74) -> Forall cmd_ok l ->
  exists out ds, several s tfi l = Ok out /\ map (fun o => fst (fst (fst o))) out = map fst l /\
    Forall2 (fun o d => let '(n, spb, m, c) := o in exists cps ht, c = Some cps /\ reads ht cps m d) out ds /\
    forall n, a_init (s n) <> 8 ->
      fits (firstn (Z.to_nat (octets (a_init (s n) - 4) false)) (a_buf (s n))) None
        (flat_map (fun z => let '((n', spb, _, _), d) := z in if n' =? n then [(spb, d)] else []) (combine out ds)).
Proof.
  intros s tfi l Hs Hl. destruct (several_ok tfi l s (fun _ => None) Hl) as (out & ds & E1 & E2 & E3 & E4).
  - intros n. destruct (Hs n) as (cs & ti & e & cv & buf & -> & H1 & H2 & H3). apply new_inv; assumption.
  - intros n _. destruct (Hs n) as (cs & ti & e & cv & buf & -> & _). discriminate.
  - exists out, ds. split; [exact E1|]. split; [exact E2|]. split; [|exact E4]. eapply Forall2_weak; [|exact E3].
    intros [[[n spb] m] c] d (cps & ht & from & A & B & _). exists cps, ht. auto.
Qed.
Print Assumptions C115_segments_partial.

(** A block of MCS-4: sent again with MCS-1 commanded, the first 22 octets are sent; sent again with MCS-4 commanded, the "second segment" has
    44 octets from the 23rd on, the last 22 of which are not part of the block. *)
Definition blk4 : store := fun _ => new_ablk 8 0 0 0 (map Z.of_nat (seq 0 74)).
Lemma seq_blk : bytes (map Z.of_nat (seq 0 74)).
Proof. apply Forall_forall. intros z Hz. apply in_map_iff in Hz as (k & <- & Hk). apply in_seq in Hk. unfold byte. lia. Qed.
Theorem C115_segments_refuted : exists s tfi l out, (forall n, s n = new_ablk 8 0 0 0 (map Z.of_nat (seq 0 74))) /\ Forall cmd_ok l /\ several s tfi l = Ok out /\
  forall ds, Forall2 (fun o d => let '(n, spb, m, c) := o in exists cps, c = Some cps /\ reads 3 cps m d) out ds ->
    ~ fits (map Z.of_nat (seq 0 44)) None (flat_map (fun z => let '((n', spb, _, _), d) := z in if n' =? 5 then [(spb, d)] else []) (combine out ds)).
Proof.
  exists blk4, 0, [(5, None); (5, Some (5, true)); (5, Some (8, true))]. eexists. split; [reflexivity|]. split; [repeat constructor; discriminate|].
  split; [vm_compute; reflexivity|]. intros ds H. inversion H as [|? d0 ? ds0 A0 H0]; subst. inversion H0 as [|? d1 ? ds1 A1 H1]; subst. inversion H1 as [|? d2 ? ds2 A2 H2]; subst. inversion H2; subst.
  clear H H0 H1 H2 A0 A1. destruct A2 as (cps & Ec & r & Hr & Ht & Hc & Hm & Bd & Hd). injection Ec as <-.
  assert (r_mcs r = 4 /\ r_pad r = false) as [M P]. { unfold cps_table in Hr. cbn [In] in Hr. repeat (destruct Hr as [Hr|Hr]; [subst r; first [discriminate Ht|discriminate Hc|split; reflexivity]|]). destruct Hr. }
  rewrite M, P in Hd. assert (d2 = map Z.of_nat (seq 22 44)) as ->. { apply bits_inj; [exact Bd| |rewrite Hd; vm_compute; reflexivity]. apply Forall_forall. intros z Hz. apply in_map_iff in Hz as (k & <- & Hk). apply in_seq in Hk. unfold byte. lia. }
  cbn [combine flat_map Z.eqb Pos.eqb app fits]. intros F.
  assert (forall h, fits (map Z.of_nat (seq 0 44)) h [(3, map Z.of_nat (seq 22 44))] -> False) as N.
  { intros h [K|[K|(_ & (g & _ & K) & _)]]; [destruct K as [K _]; discriminate K|destruct K as [[K|K] _]; discriminate K|]. apply (f_equal (@rev Z)) in K. rewrite rev_app_distr in K. vm_compute in K. discriminate K. }
  destruct F as [(_ & _ & F)|[([K|K] & _)|(K & _)]]; try discriminate.
  destruct F as [(K & _)|[(_ & _ & _ & _ & F)|(K & _)]]; try discriminate. exact (N _ F).
Qed.
Print Assumptions C115_segments_refuted.

(** A block of MCS-9: sent alone in MCS-6, then in two halves in MCS-3, then half and whole again. *)
Definition blk9 : store := fun _ => new_ablk 13 0 1 3 (map Z.of_nat (seq 0 74)).
Example C114_case : (forall n, exists cs ti e cv buf, blk9 n = new_ablk cs ti e cv buf /\ 5 <= cs <= 13 /\ bytes buf /\ zlen buf = 74) /\
  match several blk9 0 [(5, None); (5, Some (7, true)); (6, None); (5, Some (7, true)); (5, Some (7, true)); (5, Some (10, true))] with
  | Ok out => map (fun o => (fst (fst (fst o)), snd (fst (fst o)), zlen (snd (fst o)), snd o)) out =
      [(5, 0, 79, Some 0); (5, 2, 42, Some 3); (6, 0, 79, Some 0); (5, 3, 42, Some 3); (5, 2, 42, Some 4); (5, 0, 79, Some 0)]
  | _ => False
  end.
Proof.
  split; [|vm_compute; reflexivity]. intros n. exists 13, 0, 1, 3, (map Z.of_nat (seq 0 74)). split; [reflexivity|]. split; [lia|]. split; [exact seq_blk|reflexivity].
Qed.
