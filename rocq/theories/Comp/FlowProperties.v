(** C107: N-PDUs over both compressions, in both directions, as they were negotiated. *)
From Verif.Lib Require Import Base Outcome.
From Verif.Comp Require Import SlhcModel SlhcSpec SlhcLink SlhcLink2 SlhcFit SlhcProperties XidModel XidSpec NegModel NegSpec NegExchange NegFlow NegProperties V42Model DataModel V42Properties FlowSpec FlowProofs.

Lemma both_ends cb A B e k pc dc room room' (ps : list (bool * list Z)) : mobile_ok A -> mobile_ok B ->
  find (fun x => e_sapi x =? e_sapi e) (m_sne A) = Some e -> find (fun x => e_sapi x =? e_sapi e) (m_sne B) = Some k -> 5 <= e_nsapi e <= 15 ->
  (pc <> None \/ dc <> None) -> match pc with Some s01 => 0 <= s01 <= 254 | None => True end ->
  (match dc with Some (p0, p1, p2) => 0 <= p0 <= 3 /\ p0 <> 2 /\ 512 <= p1 <= 65535 /\ 6 <= p2 <= 250 /\ (p1 <= 4096 \/ Forall (fun x => zlen (snd x) <= 1918) ps) | None => True end) ->
  (pc = None \/ c_rfc1144 cb = false -> m_proto B = []) -> (dc = None \/ c_v42bis cb = false -> m_data B = []) ->
  exists A' B' out tA tB, exchange (mkCfg true true) cb A B (e_sapi e) (e_nsapi e) pc dc room room' = Ok (A', B', out) /\
    hp (e_nsapi e) (m_proto A') (m_proto B') [] [] /\ dp (e_nsapi e) (fun p => In p (map snd ps)) (m_data A') (m_data B') /\
    (dc = None \/ c_v42bis cb = false -> m_data A' = [] /\ m_data B' = []) /\ tA = m_data A' /\ tB = m_data B'.
Proof.
  intros HA HB SA SB Hn Hw Hp Hd EP ED. assert (wanted (e_nsapi e) pc dc <> []) as W by (destruct dc as [[[p0 p1] p2]|], pc as [s01|]; try discriminate; destruct Hw; congruence).
  assert (pc_ok pc) as Hp' by (destruct pc; cbn; [lia|exact I]). assert (dc_ok dc) as Hd' by (destruct dc as [[[p0 p1] p2]|]; [cbn; tauto|exact I]).
  destruct (agree cb A B e k pc dc room room' HA HB SA SB Hn Hp' Hd' W) as (A' & B' & E & _ & _ & EA & EB). injection EA as EA1 EA2. injection EB as EB1 EB2.
  assert (has (e_nsapi e) [e_nsapi e] = true) as Hh by (cbn; rewrite Z.eqb_refl; reflexivity).
  eexists A', B', _, _, _. split; [exact E|]. split; [|split; [|split; [|split; reflexivity]]].
  - rewrite EB1, EA1. destruct pc as [s01|]; [|rewrite EP by auto; constructor]. destruct (c_rfc1144 cb) eqn:Ec; [|rewrite EP by auto; constructor].
    assert (exists s, slhc_init (s01 + 1) (s01 + 1) = Some s) as (s & Es). { unfold slhc_init. replace (_ || _ || _ || _) with false by lia. eauto. }
    unfold tcp_ent. rewrite Es. cbn [app]. change (mkEnt 0 RFC1144 [1; 2] [e_nsapi e] (Tcp (Some s))) with (tcp_at 0 [e_nsapi e] s).
    constructor; try exact Hh; apply (J_init (s01 + 1) (s01 + 1) (s01 + 1)); auto; lia.
  - rewrite EB2, EA2. destruct dc as [[[p0 p1] p2]|]; [|rewrite ED by auto; constructor]. destruct (c_v42bis cb) eqn:Ec; [|rewrite ED by auto; constructor].
    unfold v42_ent. cbn [app]. constructor; try exact Hh. intros p Hi. cbn [v42_par]. destruct Hd as (D1 & D2 & D3 & D4 & D5). split; [exact D1|]. split; [exact D2|]. split; [exact D3|]. split; [exact D4|].
    destruct D5 as [D5|D5]; [left; exact D5|right]. apply in_map_iff in Hi as (x & <- & Hi). rewrite Forall_forall in D5. apply D5, Hi.
  - intros N. rewrite EB2, EA2. destruct dc as [d|]; [|rewrite ED by auto; split; reflexivity]. destruct N as [N|N]; [discriminate|]. rewrite N, ED by auto. split; reflexivity.
Qed.

(** Whatever is asked for and granted: the N-PDUs of both directions, in any order, arrive as they were sent.  Missing: what C87, C99 and C104 miss,
    losses, and N-PDUs that are compressed too well (refuted in C105). *)
Theorem C107_both_ways_partial cb A B e k pc dc room room' (ps : list (bool * list Z)) : mobile_ok A -> mobile_ok B ->
  find (fun x => e_sapi x =? e_sapi e) (m_sne A) = Some e -> find (fun x => e_sapi x =? e_sapi e) (m_sne B) = Some k -> 5 <= e_nsapi e <= 15 ->
  (pc <> None \/ dc <> None) -> match pc with Some s01 => 0 <= s01 <= 254 | None => True end ->
  (match dc with Some (p0, p1, p2) => 0 <= p0 <= 3 /\ p0 <> 2 /\ 512 <= p1 <= 65535 /\ 6 <= p2 <= 250 /\ (p1 <= 4096 \/ Forall (fun x => zlen (snd x) <= 1918) ps) | None => True end) ->
  (pc = None \/ c_rfc1144 cb = false -> m_proto B = []) -> (dc = None \/ c_v42bis cb = false -> m_data B = []) ->
  legal (from true ps) -> legal (from false ps) ->
  exists A' B' out, exchange (mkCfg true true) cb A B (e_sapi e) (e_nsapi e) pc dc room room' = Ok (A', B', out) /\
    (moderate (m_proto A', m_data A') (m_proto B', m_data B') (e_nsapi e) ps ->
     exists X Y os, talk (m_proto A', m_data A') (m_proto B', m_data B') (e_nsapi e) ps = Ok (X, Y, combine os (map snd ps)) /\ length os = length ps).
Proof.
  intros HA HB SA SB Hn Hw Hp Hd EP ED LA LB. destruct (both_ends cb A B e k pc dc room room' ps HA HB SA SB Hn Hw Hp Hd EP ED) as (A' & B' & out & _ & _ & E & P & D & _).
  exists A', B', out. split; [exact E|]. intros M.
  eapply (talk_ok _ _ ps _ _ _ _ [] [] P D LA LB); [apply Forall_forall; auto|intros ? ? ? ? []|intros ? ? ? ? []|constructor|constructor|left; exact M].
Qed.
(** No condition on how well they are compressed for N-PDUs of less than 100 octets; and none, if there is no data compression, for headers of up to 104 octets. *)
Theorem C107_small_partial cb A B e k pc dc room room' (ps : list (bool * list Z)) : mobile_ok A -> mobile_ok B ->
  find (fun x => e_sapi x =? e_sapi e) (m_sne A) = Some e -> find (fun x => e_sapi x =? e_sapi e) (m_sne B) = Some k -> 5 <= e_nsapi e <= 15 ->
  (pc <> None \/ dc <> None) -> match pc with Some s01 => 0 <= s01 <= 254 | None => True end ->
  (match dc with Some (p0, p1, p2) => 0 <= p0 <= 3 /\ p0 <> 2 /\ 512 <= p1 <= 65535 /\ 6 <= p2 <= 250 /\ (p1 <= 4096 \/ Forall (fun x => zlen (snd x) <= 1918) ps) | None => True end) ->
  (pc = None \/ c_rfc1144 cb = false -> m_proto B = []) -> (dc = None \/ c_v42bis cb = false -> m_data B = []) ->
  legal (from true ps) -> legal (from false ps) ->
  Forall (fun x => zlen (snd x) < 100) ps \/ (dc = None \/ c_v42bis cb = false) /\ Forall (fun x => is_tcp (snd x) -> Z.of_nat (hip (snd x) + htcp (snd x)) <= 104) ps ->
  exists A' B' out X Y os, exchange (mkCfg true true) cb A B (e_sapi e) (e_nsapi e) pc dc room room' = Ok (A', B', out) /\
    talk (m_proto A', m_data A') (m_proto B', m_data B') (e_nsapi e) ps = Ok (X, Y, combine os (map snd ps)) /\ length os = length ps.
Proof.
  intros HA HB SA SB Hn Hw Hp Hd EP ED LA LB S. destruct (both_ends cb A B e k pc dc room room' ps HA HB SA SB Hn Hw Hp Hd EP ED) as (A' & B' & out & _ & _ & E & P & D & N & _).
  destruct (talk_ok _ _ ps _ _ _ _ [] [] P D LA LB) as (X & Y & os & T & L); [apply Forall_forall; auto|intros ? ? ? ? []|intros ? ? ? ? []|constructor|constructor| |].
  - right. rewrite !Forall_map. destruct S as [S|[Q S]].
    + split; eapply Forall_impl; try exact S; intros x Hx; left; exact Hx.
    + destruct (N Q) as [-> ->]. split; eapply Forall_impl; try exact S; intros x Hx; right; split; auto.
  - exists A', B', out, X, Y, os. split; [exact E|]. split; [exact T|exact L].
Qed.
(** A conversation with text in it. *)
Definition chat : list (bool * list Z) :=
  [(true, pkt 1 1000 100 7 80 16 0 [1; 2; 3]); (false, pkt 70 1000 7 100 80 16 0 text); (true, udp); (true, pkt 2 1000 103 7 80 24 0 text); (false, pkt 71 1000 217 103 80 24 0 (firstn 120 text)); (true, pkt 3 1000 313 217 80 16 0 [])].
Example chat_legal : legal (from true chat) /\ legal (from false chat).
Proof.
  split; split.
  1, 3: repeat (constructor; [(split; [small|intros _; isex]) || (split; [small|intros [[H _] _]; vm_compute in H; discriminate])|]); constructor.
  all: repeat (constructor; [repeat (constructor; [intros A1 A2 A3; (split; [reflexivity|intros HU; vm_compute in HU; discriminate]) || (vm_compute in A3; discriminate) || (exfalso; destruct A1 as [[A1 _] _]; vm_compute in A1; discriminate) || (exfalso; destruct A2 as [[A2 _] _]; vm_compute in A2; discriminate)|]); constructor|]); constructor.
Qed.
Fixpoint modb (A B : tabs) (n : Z) (ps : list (bool * list Z)) : bool :=
  match ps with
  | [] => true
  | (d, p) :: r =>
    let X := if d : bool then A else B in let Y := if d then B else A in
    match squeeze (fst X) (snd X) p n with Ok (_, o, _, _) => zlen p <=? 10 * zlen o + 64 | _ => true end &&
    match pass X Y n p with Ok (X', Y', _) => modb (if d then X' else Y') (if d then Y' else X') n r | _ => true end
  end.
Lemma modb_ok n : forall ps A B, modb A B n ps = true -> moderate A B n ps.
Proof.
  induction ps as [|[d p] ps IH]; intros A B H; [exact I|]. cbn [modb moderate] in *. apply andb_prop in H as [H1 H2]. split.
  - intros P o pc dc E. rewrite E in H1. lia.
  - intros X Y o E. rewrite E in H2. apply IH, H2.
Qed.
Definition sizes (r : res (tabs * tabs * list (list Z * list Z))) : list (Z * list Z) := match r with Ok (_, _, os) => map (fun x => (zlen (fst x), snd x)) os | _ => [] end.
Example C107_case : exists A' B', exchange on on (fresh [5]) (fresh [5]) 3 5 (Some 1) (Some (3, 512, 20)) [] [] = Ok (A', B', [SnXidCnf 3 5]) /\
  modb (m_proto A', m_data A') (m_proto B', m_data B') 5 chat = true /\
  sizes (talk (m_proto A', m_data A') (m_proto B', m_data B') 5 chat) = combine [43; 108; 22; 69; 56; 4] (map snd chat).
Proof. eexists _, _. split; [vm_compute; reflexivity|]. split; vm_compute; reflexivity. Qed.

(** Two segments of one connection, both of them with 120 octets of headers and nothing more: the second is sent as four octets, and expanded
    behind the end of 104 octets of memory. *)
Definition full (id seq : Z) : list Z :=
  let l := [79; 0] ++ be16 120 ++ be16 id ++ [64; 0; 64; 6; 0; 0; 10; 0; 0; 1; 192; 168; 7; 9] ++ repeat 1 40 in
  ow l 10 (be16 (ip_csum l)) ++ be16 1000 ++ [0; 80] ++ be32 seq ++ be32 7 ++ [240; 16; 16; 0; 18; 52; 0; 0] ++ repeat 1 40.
Theorem C107_headers_refuted : exists A' B' p q,
  exchange on on (fresh [5]) (fresh [5]) 3 5 (Some 1) None [] [] = Ok (A', B', [SnXidCnf 3 5]) /\
  legal [p; q] /\ zlen p = 120 /\ zlen q = 120 /\
  talk (m_proto A', m_data A') (m_proto B', m_data B') 5 [(true, p)] <> UB /\
  talk (m_proto A', m_data A') (m_proto B', m_data B') 5 [(true, p); (true, q)] = UB.
Proof.
  eexists _, _, (full 1 100), (full 2 101). split; [vm_compute; reflexivity|]. split; [|split; [reflexivity|split; [reflexivity|split; [vm_compute; discriminate|vm_compute; reflexivity]]]].
  split.
  - repeat (constructor; [split; [small|intros _; isex]|]). constructor.
  - repeat (constructor; [repeat (constructor; [intros A1 A2 A3; split; [reflexivity|intros HU; vm_compute in HU; discriminate]|]); constructor|]); constructor.
Qed.
Print Assumptions C107_both_ways_partial.
Print Assumptions C107_small_partial.
Print Assumptions C107_headers_refuted.
