(** C134: the descriptions of UTRAN neighbour cells (csn1_ts_44_060.c:2316-2426). *)
From Coq Require Import ZArith List Bool Lia.
From Verif Require Import Lib.Base Csn1.Csn1Model Csn1.Csn1Tables Csn1.UtranSpec.
Import ListNotations.
Open Scope Z_scope.

Lemma field_range bits n : forall i, 0 <= field bits i n < 2 ^ Z.of_nat n.
Proof.
  induction n as [|n IH]; intros i; [cbn; lia|]. cbn [field]. specialize (IH (i + 1)). rewrite Nat2Z.inj_succ, Z.pow_succ_r by lia. destruct (bits i); cbn [b2z]; lia.
Qed.
Lemma read_in bits nbits past p b : 0 <= p -> 0 < b -> p + b <= nbits -> read bits nbits past p b = (field bits p (Z.to_nat b), p + b).
Proof. intros P B N. unfold read. replace (b =? 0) with false by lia. replace (0 <=? p) with true by lia. replace (p + b <=? nbits) with true by lia. reflexivity. Qed.
Lemma store_in strict lim base off room n v s : 0 <= base + off -> Z.of_nat n <= room -> base + off + Z.of_nat n <= lim ->
  store strict lim base off room 0 n v s = DOk (set_mem s (upds (s_mem s) (base + off) n v)).
Proof.
  intros A B C. unfold store. rewrite !Z.add_0_r. change (0 <=? 0) with true. replace (0 <=? base + off) with true by lia. replace (base + off + Z.of_nat n <=? lim) with true by lia.
  replace (0 + Z.of_nat n <=? room) with true by lia. rewrite orb_true_r. reflexivity.
Qed.
Lemma uint_in strict bits nbits past lim base b off room null err s : 0 <= s_ri s -> 0 < b <= 32 -> s_ri s + b <= nbits -> b <= s_rem s ->
  0 <= base + off -> Z.of_nat (width b) <= room -> base + off + Z.of_nat (width b) <= lim ->
  dec_uint strict bits nbits past lim base b off room null err s =
  DOk (mkcst (s_rem s - b) (s_off s + b) (s_ri s + b) (upds (s_mem s) (base + off) (width b) (field bits (s_ri s) (Z.to_nat b)))).
Proof.
  intros P B N R O W L. unfold dec_uint. replace (b <=? s_rem s) with true by lia. replace (32 <? b) with false by lia. rewrite read_in by lia. rewrite store_in by assumption. reflexivity.
Qed.
Lemma after_in s k : 0 <= s_rem s -> after (DOk s) k = k s.
Proof. intros H. unfold after. cbn [bindd]. replace (s_rem s <? 0) with false by lia. reflexivity. Qed.
Lemma upds1 m a v x : upds m a 1 v x = if x =? a then v mod 256 else m x.
Proof. reflexivity. Qed.
Lemma upds2 m a v x : x <> a -> x <> a + 1 -> upds m a 2 v x = m x.
Proof. intros A B. cbn [upds]. unfold upd1. replace (x =? a + 1) with false by lia. replace (x =? a) with false by lia. reflexivity. Qed.

(** The four fields in front. *)
Section Front.
Variables (strict : bool) (bits : Z -> bool) (nbits : Z) (past : Z -> Z -> Z * Z).
Lemma front lim base r s : 0 <= s_ri s -> s_ri s + 21 <= nbits -> 21 <= s_rem s -> 0 <= base -> base + 24 <= lim ->
  exists m, (forall x, x = base + 6 \/ base + 24 <= x -> m x = s_mem s x) /\ m (base + 5) = field bits (s_ri s + 16) 5 /\
    dec strict bits nbits past lim base (DUint 1 0 1 false (DUint 14 2 2 false (DUint 1 4 1 false (DUint 5 5 1 false r)))) run_mode s =
    dec strict bits nbits past lim base r run_mode (mkcst (s_rem s - 21) (s_off s + 21) (s_ri s + 21) m).
Proof.
  intros P N R B L. eexists. split; [|split].
  3:{ unfold run_mode. cbn [dec control].
      rewrite uint_in by (cbn [width Z.leb Z.compare Pos.compare Pos.compare_cont]; lia). rewrite after_in by (cbn [s_rem]; lia). cbn [dec control run_mode].
      rewrite uint_in by (cbn [s_ri s_rem]; try (change (width 14) with 2%nat); lia). rewrite after_in by (cbn [s_rem]; lia). cbn [dec control run_mode].
      rewrite uint_in by (cbn [s_ri s_rem]; try (change (width 1) with 1%nat); lia). rewrite after_in by (cbn [s_rem]; lia). cbn [dec control run_mode].
      rewrite uint_in by (cbn [s_ri s_rem]; try (change (width 5) with 1%nat); lia). rewrite after_in by (cbn [s_rem]; lia). cbn [s_rem s_off s_ri s_mem].
      replace (s_rem s - 1 - 14 - 1 - 5) with (s_rem s - 21) by lia. replace (s_off s + 1 + 14 + 1 + 5) with (s_off s + 21) by lia. replace (s_ri s + 1 + 14 + 1 + 5) with (s_ri s + 21) by lia.
      reflexivity. }
  - intros x Hx. cbn [s_mem s_ri]. change (width 1) with 1%nat. change (width 5) with 1%nat. change (width 14) with 2%nat. rewrite !upds1.
    replace (x =? base + 5) with false by lia. replace (x =? base + 4) with false by lia. rewrite upds2 by lia. rewrite upds1. replace (x =? base + 0) with false by lia. reflexivity.
  - cbn [s_mem s_ri]. change (width 5) with 1%nat. rewrite upds1, Z.eqb_refl. replace (s_ri s + 1 + 14 + 1) with (s_ri s + 16) by lia. change (Z.to_nat 5) with 5%nat.
    apply Z.mod_small. pose proof (field_range bits 5 (s_ri s + 16)). change (2 ^ Z.of_nat 5) with 32 in *. lia.
Qed.
End Front.

(** C134 (partial): the decoder takes a description of FDD cells to be as long as the front, whatever the number of cells: it is right exactly if the
    table gives no bits for it. *)
Theorem C134_fdd_partial : forall strict bits nbits past lim base s, 0 <= s_ri s -> s_ri s + 21 <= nbits -> 21 <= s_rem s -> 0 <= base -> base + 24 <= lim -> s_mem s (base + 6) = 0 ->
  exists t, dec strict bits nbits past lim base UTRAN_FDD_NeighbourCells_t run_mode s = DOk t /\
    let n := s_mem t (base + 5) in n = field bits (s_ri s + 16) 5 /\
    (s_ri t = s_ri s + head_bits + fdd_bits n <-> n = 0 \/ 17 <= n).
Proof.
  intros strict bits nbits past lim base s P N R B L Z0. unfold UTRAN_FDD_NeighbourCells_t.
  destruct (front strict bits nbits past lim base (DVarBmp false false 0 6 7 16 DEnd) s P N R B L) as (m & M6 & M5 & ->).
  exists (mkcst (s_rem s - 21) (s_off s + 21) (s_ri s + 21) m). split.
  - unfold run_mode. cbn [dec control]. unfold dec_varbmp. cbn [bindd s_mem s_rem]. rewrite M6 by lia. rewrite Z0. change (0 <? 0 + 0) with false. cbn match.
    rewrite after_in by (cbn [s_rem]; lia). reflexivity.
  - cbn [s_mem s_ri]. cbv zeta. rewrite M5. split; [reflexivity|]. pose proof (field_range bits 5 (s_ri s + 16)) as F. change (2 ^ Z.of_nat 5) with 32 in F.
    set (n := field bits (s_ri s + 16) 5) in *. clearbody n. unfold head_bits, fdd_bits.
    assert (n < 17 \/ 17 <= n) as [H|H] by lia.
    + replace n with (Z.of_nat (Z.to_nat n)) by lia. rewrite Nat2Z.id. assert (Z.to_nat n < 17)%nat as H' by lia. revert H'. generalize (Z.to_nat n). clear. intros k H.
      do 17 (destruct k as [|k]; [cbn [nth]; lia|]). lia.
    + rewrite nth_overflow by (cbn [length]; lia). lia.
Qed.

(** The widths of the words the decoder reads for TDD cells, whatever their number. *)
Definition widths : list Z := [10] ++ repeat 9 2 ++ repeat 8 4 ++ repeat 7 8 ++ repeat 6 16.
(** None of the words of these widths from [p] on is zero, as far as [left] bits go. *)
Fixpoint nonzero (bits : Z -> bool) (ws : list Z) (p left : Z) : Prop :=
  match ws with [] => True | w :: r => 0 < left -> field bits p (Z.to_nat w) <> 0 /\ nonzero bits r (p + w) (left - w) end.
Fixpoint gen (f : nat) (w nwi jwi : Z) : list Z :=
  match f with O => [] | S f => w :: (if jwi + 1 =? nwi then gen f (w - 1) (nwi * 2) 0 else gen f w nwi (jwi + 1)) end.
Fixpoint sum (l : list Z) : Z := match l with [] => 0 | x :: r => x + sum r end.
Lemma words bits nbits past f : forall fuel idx w nwi jwi ri, (f < fuel)%nat -> Forall (fun x => 0 < x <= 10) (gen f w nwi jwi) -> idx <= sum (gen f w nwi jwi) ->
  nonzero bits (gen f w nwi jwi) ri idx -> 0 <= ri -> ri + idx + 10 <= nbits -> tdd_words bits nbits past fuel idx w nwi jwi ri = ri + idx.
Proof.
  induction f as [|f IH]; intros fuel idx w nwi jwi ri Hf HF Hs Hn Hr Hb; (destruct fuel as [|fuel]; [lia|]); cbn [tdd_words].
  - cbn [gen sum] in Hs. replace (0 <? idx) with false by lia. reflexivity.
  - destruct (0 <? idx) eqn:E; [|reflexivity]. cbn [gen] in *. inversion HF as [|? ? W F']; subst. cbn [nonzero] in Hn. destruct Hn as [N1 N2]; [lia|]. cbn [sum] in Hs.
    rewrite read_in by lia. pose proof (field_range bits (Z.to_nat w) ri) as G. assert (2 ^ Z.of_nat (Z.to_nat w) <= 2 ^ 10) as G2 by (apply Z.pow_le_mono_r; lia). change (2 ^ 10) with 1024 in G2.
    rewrite Z.mod_small by lia. replace (field bits ri (Z.to_nat w) =? 0) with false by lia.
    destruct (jwi + 1 =? nwi); rewrite IH; try assumption; lia.
Qed.

(** C134 (partial): the decoder passes a description of TDD cells as the table says if none of the words it reads is zero. *)
Theorem C134_tdd_partial : forall strict bits nbits past lim base s, 0 <= s_ri s -> 0 <= base -> base + 24 <= lim ->
  let n := field bits (s_ri s + 16) 5 in let e := head_bits + tdd_bits n in
  s_ri s + e + 10 <= nbits -> e <= s_rem s -> nonzero bits widths (s_ri s + 21) (tdd_bits n) ->
  exists t, dec strict bits nbits past lim base UTRAN_TDD_NeighbourCells_t run_mode s = DOk t /\ s_ri t = s_ri s + e /\ s_rem t = s_rem s - e /\ s_mem t (base + 5) = n.
Proof.
  intros strict bits nbits past lim base s P B L n e N R NZ. unfold UTRAN_TDD_NeighbourCells_t.
  pose proof (field_range bits 5 (s_ri s + 16)) as F. change (2 ^ Z.of_nat 5) with 32 in F. fold n in F.
  assert (nth (Z.to_nat n) tdd_map 0 = tdd_bits n /\ 0 <= tdd_bits n <= 126) as [T TB].
  { unfold tdd_bits. replace n with (Z.of_nat (Z.to_nat n)) by lia. rewrite Nat2Z.id. assert (Z.to_nat n < 32)%nat as H' by lia. revert H'. generalize (Z.to_nat n). clear. intros k H.
    do 32 (destruct k as [|k]; [split; [reflexivity|cbn [nth]; lia]|]). lia. }
  unfold head_bits in *.
  destruct (front strict bits nbits past lim base (DCallback CbTddMap 5 6 1 (DCallback (CbTddInfo 6) 0 7 16 DEnd)) s P ltac:(lia) ltac:(lia) B L) as (m & M6 & M5 & ->). fold n in M5.
  eexists. split.
  - unfold run_mode. cbn [dec control dec_callback s_mem]. rewrite M5. replace (n <? 32) with true by lia. rewrite T. rewrite store_in by lia. rewrite after_in by (cbn [set_mem s_rem]; lia).
    cbn [dec control run_mode dec_callback set_mem s_mem s_rem s_off s_ri]. rewrite upds1. replace (base + 0 + 6 =? base + 6) with true by lia.
    rewrite (Z.mod_small (tdd_bits n) 256) by lia.
    assert ((if 0 <? tdd_bits n then tdd_words bits nbits past 128 (tdd_bits n) 10 1 0 (s_ri s + 21) else s_ri s + 21) = s_ri s + e) as ->.
    { destruct (0 <? tdd_bits n) eqn:E0; [|unfold e; lia]. rewrite (words bits nbits past 31); [unfold e; lia|lia| | |exact NZ|lia|unfold e in N; lia].
      - change (gen 31 10 1 0) with widths. unfold widths. cbn [repeat app]. do 31 (constructor; [lia|]). constructor.
      - change (sum (gen 31 10 1 0)) with (sum widths). change (sum widths) with 212. lia. }
    rewrite (Z.mod_small (s_ri s + e - (s_ri s + 21)) 65536) by (unfold e; lia).
    rewrite after_in by (cbn [adv s_rem s_off s_ri s_mem set_mem]; unfold e in *; lia). reflexivity.
  - cbn [adv s_ri s_rem s_mem set_mem]. split; [reflexivity|]. split; [unfold e; lia|]. rewrite upds1. replace (base + 5 =? base + 6) with false by lia. exact M5.
Qed.

(** *** Wrong positions *)
Definition stream (l : list Z) (i : Z) : bool := nth (Z.to_nat i) l 0 =? 1.
Definition zero_past (ri n : Z) : Z * Z := (0, ri).
Definition blank : mem := fun _ => 0.
(** One frequency (UARFCN 10563) with one FDD cell, then no more: the decoder takes the first bit of the cell information for "there is another
    frequency", and reports two. *)
Definition fdd1 : list Z :=
  [0] ++ [1] ++ [0] ++ [1;0;1;0;0;1;0;1;0;0;0;0;1;1] ++ [0] ++ [0;0;0;0;1] ++ [1;0;0;0;0;0;0;0;1;1] ++ [0] ++ repeat 0 30.
Theorem C134_fdd_refuted : exists t, dec true (stream fdd1) (zlen fdd1) zero_past 200 0 UTRAN_FDD_Description_t run_mode (mkcst (zlen fdd1) 0 0 blank) = DOk t /\
  s_mem t (6 + 5) = 1 /\ s_mem t 5 = 2 /\ s_ri t <> 1 + 1 + head_bits + fdd_bits 1 + 1.
Proof. eexists. split; [vm_compute; reflexivity|]. split; [reflexivity|]. split; [reflexivity|]. vm_compute. discriminate. Qed.
(** One frequency with four TDD cells, whose words of 9, 8, 8 and 7 bits are 257, 128, 1 and 64; the decoder reads words of 10, 9, ... bits, of which the second is zero, and goes on
    13 bits too early. *)
Definition tdd4 : list Z :=
  [0] ++ [1;0;1;0;0;1;0;1;0;0;0;0;1;1] ++ [0] ++ [0;0;1;0;0] ++ [1;0;0;0;0;0;0;0;1] ++ [1;0;0;0;0;0;0;0] ++ [0;0;0;0;0;0;0;1] ++ [1;0;0;0;0;0;0] ++ repeat 0 30.
Theorem C134_tdd_refuted : exists t, dec true (stream tdd4) (zlen tdd4) zero_past 24 0 UTRAN_TDD_NeighbourCells_t run_mode (mkcst (zlen tdd4) 0 0 blank) = DOk t /\
  s_mem t 5 = 4 /\ map (fun '(p, n) => field (stream tdd4) p n) [(21, 9%nat); (30, 8%nat); (38, 8%nat); (46, 7%nat)] = [257; 128; 1; 64] /\
  s_ri t = head_bits + tdd_bits 4 - 13.
Proof. eexists. split; [vm_compute; reflexivity|]. split; [reflexivity|]. split; reflexivity. Qed.

(** Non-vacuity: three TDD cells without a zero word; FDD without cells. *)
Definition tdd3 : list Z := [0] ++ [1;0;1;0;0;1;0;1;0;0;0;0;1;1] ++ [0] ++ [0;0;0;1;1] ++ repeat 1 25 ++ repeat 0 30.
Example C134_case : field (stream tdd3) 16 5 = 3 /\ 0 + (head_bits + tdd_bits 3) + 10 <= zlen tdd3 /\ nonzero (stream tdd3) widths 21 (tdd_bits 3).
Proof.
  split; [reflexivity|]. split; [vm_compute; discriminate|]. unfold widths. cbn [repeat app nonzero]. change (tdd_bits 3) with 25.
  do 3 (intros _; split; [vm_compute; discriminate|]). intros H. lia.
Qed.
Example C134_case_fdd : exists t, dec true (stream (repeat 0 60)) 60 zero_past 24 0 UTRAN_FDD_NeighbourCells_t run_mode (mkcst 60 0 0 blank) = DOk t /\ s_ri t = 21.
Proof. eexists. split; [vm_compute; reflexivity|reflexivity]. Qed.

Print Assumptions C134_fdd_partial.
Print Assumptions C134_tdd_partial.
Print Assumptions C134_fdd_refuted.
Print Assumptions C134_tdd_refuted.
