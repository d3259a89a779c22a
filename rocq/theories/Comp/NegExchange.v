From Verif.Lib Require Import Base Outcome.
From Verif.Comp Require Import SlhcModel XidModel XidSpec XidProofs XidRead XidCode NegModel NegSpec NegProofs NegAnswer NegAsk.

Lemma elems_ok_for cls xs : cls = 1 \/ cls = 2 -> Forall xf_ok xs -> zlen (concat (map x_oct (of_class cls xs))) <= 255 -> Forall elem_ok (elems_for cls xs).
Proof.
  intros Hc F H. unfold elems_for. assert (Forall (fun x => kind (x_alg x) = cls /\ xf_ok x) (of_class cls xs)) as G.
  { apply Forall_forall. intros x Hx. apply filter_In in Hx as [Hx E]. rewrite Forall_forall in F. split; [lia|apply F; exact Hx]. }
  destruct (of_class cls xs) as [|x l] eqn:E; constructor; [|constructor]. split; [discriminate|]. split; [exact Hc|]. split; [exact G|exact H].
Qed.
Lemma answer_fields c xs : concat (map e_fields (answer c xs)) = of_class 1 (map (echo c) xs) ++ of_class 2 (map (echo c) xs).
Proof. unfold answer. cbn [map concat e_fields app]. rewrite map_app, concat_app, !fields_elems. reflexivity. Qed.
Lemma wanted_block n pc dc : concat (map e_fields (block_of 0 (wanted n pc dc))) = wanted n pc dc.
Proof. unfold block_of. rewrite !map_app, !concat_app, !fields_elems, !wanted_rev. destruct dc as [[[p0 p1] p2]|], pc as [s01|]; reflexivity. Qed.
Lemma wanted_answer c n pc dc : concat (map e_fields (answer c (wanted n pc dc))) = map (echo c) (wanted n pc dc).
Proof. rewrite answer_fields. destruct dc as [[[p0 p1] p2]|], pc as [s01|]; reflexivity. Qed.
Lemma echo_len c n pc dc cls : zlen (concat (map x_oct (of_class cls (map (echo c) (wanted n pc dc))))) <= 8.
Proof.
  destruct dc as [[[p0 p1] p2]|], pc as [s01|]; unfold wanted, of_class; cbn [app map filter x_alg kind echo]; try destruct (1 =? cls) eqn:?; try destruct (2 =? cls) eqn:?; try lia; unfold zlen; cbn; lia.
Qed.
Lemma answer_len c n pc dc : zlen (msg (answer c (wanted n pc dc))) <= 23.
Proof.
  unfold answer. change (Version 0 :: ?l) with ([Version 0] ++ l). rewrite !msg_app, !zlen_app. change (zlen (msg [Version 0])) with 3. rewrite !elems_oct.
  pose proof (echo_len c n pc dc 1) as L1. pose proof (echo_len c n pc dc 2) as L2.
  destruct (concat (map x_oct (of_class 1 _))); destruct (concat (map x_oct (of_class 2 _))); rewrite ?zlen_cons in *; change (zlen (@nil Z)) with 0 in *; lia.
Qed.
Lemma wanted_read n pc dc : 5 <= n <= 15 -> pc_ok pc -> dc_ok dc -> Forall (elem_read None) (block_of 0 (wanted n pc dc)).
Proof.
  intros Hn Hp Hd. pose proof (wanted_request n pc dc Hn Hp Hd) as [F _].
  assert (Forall (fun x => xf_ok x /\ readable x /\ (exists cs, x_prop x = Some cs)) (rev (wanted n pc dc))) as Fr.
  { apply Forall_rev. apply Forall_forall. intros x Hx. rewrite Forall_forall in F. destruct (F x Hx) as (K1 & K2 & K3). split; [exact K1|]. split; [|exact K3]. destruct (wanted_cases _ _ _ _ Hx) as ([[A _]|[A _]] & B & _); (split; [intros E; rewrite A in E; discriminate|rewrite B; left; reflexivity]). }
  pose proof (wanted_len n pc dc 1). pose proof (wanted_len n pc dc 2).
  unfold block_of. apply Forall_app. split; [constructor; [split; [cbn; lia|constructor]|constructor]|]. apply Forall_app. split; apply elems_read; auto; rewrite wanted_rev; lia.
Qed.
Lemma echo_replies c n pc dc : 5 <= n <= 15 -> pc_ok pc -> dc_ok dc -> Forall (replies (wanted n pc dc)) (map (echo c) (wanted n pc dc)).
Proof.
  intros Hn Hp Hd. pose proof (wanted_request n pc dc Hn Hp Hd) as [F _]. rewrite Forall_map. apply Forall_forall. intros x Hx. rewrite Forall_forall in F. split; [apply echo_full; exact (F x Hx)|]. split; [reflexivity|]. exists x. auto.
Qed.
Definition tcp_ent (n s01 : Z) : ent := mkEnt 0 RFC1144 [1; 2] [n] (Tcp (slhc_init (s01 + 1) (s01 + 1))).
Definition v42_ent (i n : Z) (d : Z * Z * Z) : ent := mkEnt i V42BIS [1] [n] (V42 (Some d)).
Definition data_entity (pc : option Z) : Z := match pc with Some _ => 1 | None => 0 end.
Lemma fold_wanted c n pc dc pt dt :
  fold_left (upd2 c) (rev (wanted n pc dc)) (pt, dt) =
    (match pc with Some s01 => (if c_rfc1144 c then [tcp_ent n s01] else []) ++ without 0 pt | None => pt end,
     match dc with Some d => (if c_v42bis c then [v42_ent (data_entity pc) n d] else []) ++ without (data_entity pc) dt | None => dt end).
Proof. destruct dc as [[[p0 p1] p2]|], pc as [s01|]; reflexivity. Qed.
Lemma fold_merged c n pc dc :
  fold_left (upd2 (mkCfg true true)) (rev (map (merged (wanted n pc dc)) (map (echo c) (wanted n pc dc)))) ([], []) =
    (match pc with Some s01 => if c_rfc1144 c then [tcp_ent n s01] else [] | None => [] end,
     match dc with Some d => if c_v42bis c then [v42_ent (data_entity pc) n d] else [] | None => [] end).
Proof. destruct c as [[|] [|]], dc as [[[p0 p1] p2]|], pc as [s01|]; reflexivity. Qed.

Lemma by_sapi_tables m s p d : by_sapi (mkM (m_sne m) p d) s = by_sapi m s. Proof. reflexivity. Qed.
Theorem agree cb A B e k pc dc room room' : mobile_ok A -> mobile_ok B -> by_sapi A (e_sapi e) = Some e -> by_sapi B (e_sapi e) = Some k -> 5 <= e_nsapi e <= 15 ->
  pc_ok pc -> dc_ok dc -> wanted (e_nsapi e) pc dc <> [] ->
  exists A' B', exchange (mkCfg true true) cb A B (e_sapi e) (e_nsapi e) pc dc room room' =
      Ok (A', B', (if e_act e then [SnsmActivateRsp (e_nsapi e)] else []) ++ [SnXidCnf (e_sapi e) (e_nsapi e)]) /\
    mobile_ok A' /\ mobile_ok B' /\
    (m_proto A', m_data A') =
      (match pc with Some s01 => if c_rfc1144 cb then [tcp_ent (e_nsapi e) s01] else [] | None => [] end,
       match dc with Some d => if c_v42bis cb then [v42_ent (data_entity pc) (e_nsapi e) d] else [] | None => [] end) /\
    (m_proto B', m_data B') =
      (match pc with Some s01 => m_proto A' ++ without 0 (m_proto B) | None => m_proto B end,
       match dc with Some _ => m_data A' ++ without (data_entity pc) (m_data B) | None => m_data B end).
Proof.
  intros HA HB SA SB Hn Hp Hd Hw. destruct (by_sapi_in _ _ _ SA) as [Hin _]. destruct (ask A e pc dc HA Hin Hn Hp Hd) as [EA OKA].
  set (A1 := put_sne (mkM (m_sne A) [] []) (asked_state A e pc dc)) in *. set (n := e_nsapi e) in *. set (s := e_sapi e) in *. set (w := wanted n pc dc) in *.
  assert (asking n pc dc = msg (block_of 0 w)) as EQ. { unfold asking. fold w. destruct w; [congruence|reflexivity]. }
  destruct (wanted_request n pc dc Hn Hp Hd) as [RF RN]. fold w in RF, RN.
  destruct (respond cb B s k (block_of 0 w) room HB SB) as (B' & E1 & E2 & E3 & OKB & _).
  { split; [cbn; lia|apply block_len]. }
  { apply wanted_read; assumption. }
  { unfold w. rewrite wanted_block. exact RF. }
  { unfold w. rewrite wanted_block. exact RN. }
  { unfold w. rewrite wanted_block. pose proof (echo_len cb n pc dc 1). lia. }
  { unfold w. rewrite wanted_block. pose proof (echo_len cb n pc dc 2). lia. }
  { unfold w. rewrite wanted_block. pose proof (answer_len cb n pc dc). lia. }
  unfold w in E2, E3. rewrite wanted_block in E2, E3. fold w in E2, E3.
  assert (by_sapi A1 s = Some (asked_state A e pc dc)) as SA1. { unfold A1. apply (by_sapi_put (mkM (m_sne A) [] []) s e); [exact SA|destruct HA as [H _]; exact H|reflexivity|reflexivity]. }
  destruct (take (mkCfg true true) A1 s (asked_state A e pc dc) n pc dc (answer cb w) room' OKA SA1 Hn Hp Hd Hw eq_refl) as (pt & dt & E4 & E5 & T2 & T1).
  { unfold answer. cbn [length]. rewrite app_length. unfold elems_for. destruct (of_class 1 _), (of_class 2 _); cbn [length]; lia. }
  { assert (Forall xf_ok (map (echo cb) w)) as FE. { rewrite Forall_map. revert RF. apply Forall_impl. intros x W. apply (echo_full cb x W). }
    pose proof (echo_len cb n pc dc 1). pose proof (echo_len cb n pc dc 2). constructor; [cbn; lia|]. apply Forall_app. split; apply elems_ok_for; auto; unfold w; lia. }
  { unfold w. rewrite wanted_answer. apply echo_replies; assumption. }
  unfold w in E5. rewrite wanted_answer in E5. cbn [A1 put_sne m_proto m_data] in E5. rewrite fold_merged in E5.
  exists (r_m (confirm (mkM (m_sne A1) pt dt) (asked_state A e pc dc))), B'. split; [|split; [|split; [exact OKB|split]]].
  - unfold exchange. fold s n. rewrite EA. cbn [bind r_out]. rewrite EQ. rewrite E1. cbn [bind r_out r_m]. rewrite E2. cbn [bind r_out r_m]. rewrite E4. cbn [bind]. reflexivity.
  - destruct OKA as (S & R & _ & _). unfold confirm. cbn [r_m]. split; [rewrite put_nsapis; exact S|]. split; [apply put_range; [|exact R]|split; [exact T2|exact T1]]. cbn [e_nsapi asked_state]. lia.
  - unfold confirm. cbn [r_m put_sne m_proto m_data]. exact E5.
  - unfold confirm. cbn [r_m put_sne m_proto m_data]. injection E5 as -> ->. rewrite E3. unfold w. rewrite fold_wanted. destruct pc, dc; reflexivity.
Qed.
