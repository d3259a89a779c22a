(** The members of the decoded assignments that select an alternative have one of the values the code allows for, whatever the
    block was. *)
From Coq Require Import ZArith List Bool Lia.
From Verif Require Import Lib.Base Csn1.Csn1Model Csn1.Csn1Tables Csn1.Csn1DlModel Csn1.Csn1Check Csn1.Csn1Safe Csn1.Csn1Lax Csn1.Csn1Values Csn1.Csn1Properties.
Import ListNotations.
Open Scope Z_scope.

Definition bnd (w : world) (c lo hi : Z) : bool := existsb (fun f => (fst f =? c) && (lo <=? fst (snd f)) && (snd (snd f) <=? hi)) w.
Lemma bnd_ok w m c lo hi : holds w m -> bnd w c lo hi = true -> lo <= m c <= hi.
Proof.
  intros H B. apply existsb_exists in B as ([a [l h]] & I & B). unfold holds in H. rewrite Forall_forall in H. specialize (H _ I). cbn [fst snd] in *.
  assert (a = c) by lia. subst a. lia.
Qed.
Definition zeros (l : list Z) : world := map (fun c => (c, (0, 0))) l.

(** Packet Downlink Assignment *)
Definition da_cells : list Z := [12; 16; 108].
Definition da_subs : list (Z * Z) := [(12, 8); (16, 2); (108, 6)].
Definition da_world (w : world) : bool := bnd w 12 0 1 && (bnd w 12 1 1 || bnd w 16 0 1) && bnd w 108 0 1.
Lemma da_worlds : safe_table 176 sz_dl_union (wid 28 Packet_Downlink_Assignment_t) && offs (wid 28 Packet_Downlink_Assignment_t) &&
  forallb da_world (aev da_cells da_subs 0 (wid 28 Packet_Downlink_Assignment_t) run_mode (zeros da_cells)) = true.
Proof. vm_compute. reflexivity. Qed.

(** Packet Uplink Assignment: who it is for, and when it starts *)
Definition pi_cells : list Z := [8; 12; 16].
Definition pi_subs : list (Z * Z) := [(8, 8); (12, 2)].
Definition pi_world (w : world) : bool := (bnd w 8 1 3 || bnd w 12 0 1) && bnd w 16 0 1.
Lemma pi_worlds : safe_table 176 sz_dl_union (wid 28 Packet_Uplink_Assignment_t) && offs (wid 28 Packet_Uplink_Assignment_t) &&
  forallb pi_world (aev pi_cells pi_subs 0 (wid 28 Packet_Uplink_Assignment_t) run_mode (zeros pi_cells)) = true.
Proof. vm_compute. reflexivity. Qed.
Definition ps_cells : list Z := [16; 56; 67; 68].
Definition ps_subs : list (Z * Z) := [(20, 120); (58, 42); (68, 6)].
Definition ps_world (w : world) : bool := bnd w 16 1 1 || bnd w 56 0 0 || bnd w 56 2 3 || bnd w 67 0 0 || bnd w 68 0 1.
Lemma ps_worlds : forallb ps_world (aev ps_cells ps_subs 0 (wid 28 Packet_Uplink_Assignment_t) run_mode (zeros ps_cells)) = true.
Proof. vm_compute. reflexivity. Qed.

Lemma zero_holds l b : ~ In 0 l -> holds (zeros l) (upd1 (fun _ => 0) 0 b).
Proof.
  intros N. unfold holds, zeros. apply Forall_forall. intros f F. apply in_map_iff in F as (c & <- & I). cbn [fst snd]. unfold upd1.
  destruct (Z.eqb_spec c 0); [subst c; contradiction|lia].
Qed.
Section Blocks.
Variable past : Z -> Z -> Z * Z.
Variable bits : Z -> bool.
Hypothesis Hp : forall ri n, 0 <= n -> 0 <= fst (past ri n) < 2 ^ n.
Lemma field_lt i n : 0 <= field bits i n < 2 ^ Z.of_nat n.
Proof. exact (field_range bits past Hp n i). Qed.
(** A block that is decoded: its header, and the worlds of the table of its message. *)
Lemma decoded h s : decode_downlink false past bits (fun _ => 0) = (h, DOk s) ->
  (0 <= h_rrbp h < 4 /\ 0 <= h_sp h < 2) /\ octets (s_mem s) /\ exists mt d sz o, dl_table mt = Some (d, sz) /\ mt = field bits o 6 /\ 8 <= o <= 32 /\
  decode false bits 184 past sz_dl_union d (184 - o) o o (upd1 (fun _ => 0) 0 mt) = DOk s.
Proof.
  unfold decode_downlink. destruct (dl_header bits) as [h' o] eqn:E. intros X.
  assert (Ho : 8 <= o <= 32 /\ 0 <= h_rrbp h' < 4 /\ 0 <= h_sp h' < 2).
  { revert E. unfold dl_header. pose proof (field_lt 2 2). pose proof (field_lt 4 1). change (2 ^ Z.of_nat 2) with 4 in *. change (2 ^ Z.of_nat 1) with 2 in *.
    set (a := field bits 2 2) in *. set (b := field bits 4 1) in *. clearbody a b. destruct (_ =? 2); intros [= <- <-]; cbn [h_rrbp h_sp]; [|lia]. destruct (_ && _); destruct (_ =? 1); lia. }
  destruct (_ || _); [discriminate|]. apply pair_equal_spec in X as [<- X]. destruct (dl_table _) as [[d sz]|] eqn:T; [|discriminate].
  split; [tauto|]. pose proof (field_lt o 6) as B. change (2 ^ Z.of_nat 6) with 64 in B. split; [|exists (field bits o 6), d, sz, o; split; [exact T|split; [reflexivity|split; [tauto|exact X]]]].
  pose proof (Csn1Properties.dl_table_types _ _ _ T) as Hin. pose proof Csn1Properties.union_ok_all as U. rewrite forallb_forall in U. specialize (U _ Hin).
  unfold Csn1Properties.union_ok in U. rewrite T in U.
  pose proof (decode_flat_safe bits 184 past Hp d sz_dl_union 176 (184 - o) o o (upd1 (fun _ => 0) 0 (field bits o 6)) U ltac:(lia) ltac:(lia)) as G.
  rewrite X in G. apply G. intros x. unfold upd1. destruct (x =? 0); lia.
Qed.
(** The octet of the message type keeps its value. *)
Definition type_kept (mt : Z) : bool :=
  match dl_table mt with
  | Some (d, _) =>
      match flat sz_dl_union d with
      | DUint 6 0 _ false r => offs r && forallb (fun w => bnd w 0 mt mt) (aev [0] [] 0 r run_mode [(0, (mt, mt))])
      | r => offs r && forallb (fun w => bnd w 0 mt mt) (aev [0] [] 0 r run_mode [(0, (mt, mt))])
      end
  | None => false
  end.
Lemma types_kept : forallb type_kept Csn1Properties.dl_types = true.
Proof. vm_compute. reflexivity. Qed.
Lemma kept r mt s t : offs r && forallb (fun w => bnd w 0 mt mt) (aev [0] [] 0 r run_mode [(0, (mt, mt))]) = true -> s_mem s 0 = mt ->
  dec true bits 184 past sz_dl_union 0 r run_mode s = DOk t -> s_mem t 0 = mt.
Proof.
  intros H M E. apply andb_prop in H as [O H]. assert (W : holds [(0, (mt, mt))] (s_mem s)) by (constructor; [cbn; lia|constructor]).
  destruct (aev_sound bits 184 past [0] [] r sz_dl_union 0 run_mode _ t _ O Logic.I W E) as (w & I & Hw). rewrite forallb_forall in H. pose proof (bnd_ok _ _ _ _ _ Hw (H _ I)). lia.
Qed.
Lemma kept_type mt d sz o s : dl_table mt = Some (d, sz) -> mt = field bits o 6 -> 8 <= o <= 32 ->
  decode false bits 184 past sz_dl_union d (184 - o) o o (upd1 (fun _ => 0) 0 mt) = DOk s -> s_mem s 0 = mt.
Proof.
  intros T F O E. pose proof (Csn1Properties.dl_table_types _ _ _ T) as Hin. pose proof Csn1Properties.union_ok_all as U. rewrite forallb_forall in U. specialize (U _ Hin).
  unfold Csn1Properties.union_ok in U. rewrite T in U. assert (M : octets (upd1 (fun _ => 0) 0 mt)).
  { pose proof (field_lt o 6) as B. change (2 ^ Z.of_nat 6) with 64 in B. rewrite <- F in B. intros x. unfold upd1. destruct (x =? 0); lia. }
  pose proof (decode_safe bits 184 past Hp (flat sz_dl_union d) sz_dl_union 176 (184 - o) o o _ U ltac:(lia) ltac:(lia) M) as G.
  assert (L : leq (decode true bits 184 past sz_dl_union (flat sz_dl_union d) (184 - o) o o (upd1 (fun _ => 0) 0 mt)) (decode false bits 184 past sz_dl_union d (184 - o) o o (upd1 (fun _ => 0) 0 mt))).
  { unfold decode. apply leq_call. apply dec_leq; [apply flat_same|lia|constructor]. }
  destruct L as [L|L]; [rewrite L in G; contradiction|]. rewrite E in L. clear G E. unfold decode in L. apply call_ok' in L.
  pose proof types_kept as K. rewrite forallb_forall in K. specialize (K _ Hin). unfold type_kept in K. rewrite T in K.
  assert (M0 : upd1 (fun _ => 0) 0 mt 0 = mt) by reflexivity.
  set (m := upd1 (fun _ => 0) 0 mt) in *. clearbody m. destruct (flat sz_dl_union d) eqn:Fl; try (eapply kept; [exact K| |exact L]; exact M0).
  match type of Fl with _ = DUint ?x1 ?x2 ?x3 ?x4 ?x5 => rename x1 into b1, x2 into o1, x3 into q1, x4 into n1, x5 into r1 end.
  assert (D : (b1 = 6 /\ o1 = 0 /\ n1 = false /\ offs r1 && forallb (fun w => bnd w 0 mt mt) (aev [0] [] 0 r1 run_mode [(0, (mt, mt))]) = true) \/
    offs (DUint b1 o1 q1 n1 r1) && forallb (fun w => bnd w 0 mt mt) (aev [0] [] 0 (DUint b1 o1 q1 n1 r1) run_mode [(0, (mt, mt))]) = true).
  { destruct b1 as [|[[|[]|]|[[]|[]|]|]|]; try (right; exact K). destruct o1; try (right; exact K). destruct n1; [right; exact K|left; auto]. }
  clear K. destruct D as [(-> & -> & -> & K)|K]; [|eapply kept; [exact K| |exact L]; exact M0].
  cbn [dec control] in L. unfold run_mode in L at 1. cbn [control] in L. apply after_ok' in L as (u & E & L). unfold dec_uint in E. cbn [s_rem s_ri] in E.
  replace (6 <=? 184 - o) with true in E by lia. change (32 <? 6) with false in E. cbv iota in E. unfold read in E. change (6 =? 0) with false in E.
  replace ((0 <=? o) && (o + 6 <=? 184)) with true in E by lia. change (Z.to_nat 6) with 6%nat in E. rewrite <- F in E. cbv iota beta in E.
  unfold store in E. destruct (_ && _); [|discriminate]. injection E as <-. eapply kept; [exact K| |exact L]. cbn [s_mem set_mem adv]. change (0 + 0 + 0) with 0.
  change (width 6) with 1%nat. cbn [upds]. unfold upd1. cbn [Z.eqb]. pose proof (field_lt o 6) as B. change (2 ^ Z.of_nat 6) with 64 in B. rewrite <- F in B. apply Z.mod_small. lia.
Qed.
End Blocks.
