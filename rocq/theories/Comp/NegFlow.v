From Verif.Lib Require Import Base Outcome.
From Verif.Comp Require Import SlhcModel SlhcSpec SlhcProperties XidModel XidSpec NegModel NegSpec.

(** ** Packets over two tables *)
Lemma compress_idx C p C' d len idx : rfc1144_compress C p = Ok (C', d, len, idx) -> idx = 0 \/ idx = 1 \/ idx = 2.
Proof.
  unfold rfc1144_compress. destruct (slhc_compress C p p false) as [[[[s o] l] cp]| |]; cbn [bind]; try discriminate. destruct (rd o 0) as [b| |]; cbn [bind]; try discriminate.
  destruct (tst b SL_CMP); [|destruct (Z.land b SL_UNC =? SL_UNC)].
  - destruct (rdn _ 0 l) as [src| |]; cbn [bind]; try discriminate. destruct (wr p 0 src) as [x| |]; cbn [bind]; try discriminate. intros H. injection H as _ _ _ <-. auto.
  - destruct (rdn _ 0 l) as [src| |]; cbn [bind]; try discriminate. destruct (wr p 0 src) as [x| |]; cbn [bind]; try discriminate. intros H. injection H as _ _ _ <-. auto.
  - intros H. injection H as _ _ _ <-. auto.
Qed.
(** An entity for TCP/IP headers with PCOMP values 1 and 2. *)
Definition tcp_at (i : Z) (ns : list Z) (s : slc) : ent := mkEnt i RFC1144 [1; 2] ns (Tcp (Some s)).
Lemma get_12 i ns s idx : idx = 0 \/ idx = 1 \/ idx = 2 -> get_comp (tcp_at i ns s) idx = idx /\ get_idx (tcp_at i ns s) idx = idx.
Proof. intros [-> | [-> | ->]]; split; reflexivity. Qed.
Lemma carry_hop room C D i j nt nr t r n p C' D' idx q : has n nt = true ->
  hop room C D p false = Ok (C', D', (idx, Some q)) ->
  carry room (tcp_at i nt C :: t) (tcp_at j nr D :: r) n p = Ok (tcp_at i nt C' :: t, tcp_at j nr D' :: r, (idx, q)).
Proof.
  intros Hn H. unfold hop in H. destruct (rfc1144_compress C p) as [[[[C1 d] len] ix]| |] eqn:EC; cbn [bind] in H; try discriminate.
  pose proof (compress_idx _ _ _ _ _ _ EC) as HI. unfold carry, pcomp_compress. cbn [first_with tcp_at en_nsapi]. rewrite Hn. change (en_alg (tcp_at i nt C)) with RFC1144. change (en_state (tcp_at i nt C)) with (Tcp (Some C)). cbv iota. rewrite EC. cbn [bind app]. change (put_state (tcp_at i nt C) C1) with (tcp_at i nt C1).
  destruct (get_12 i nt C ix HI) as [-> _].
  destruct (rfc1144_expand D (firstn (Z.to_nat len) d ++ room) len ix) as [[[D1 buf] m]| |] eqn:EE; cbn [bind] in H; try discriminate. injection H as -> -> -> <-.
  unfold pcomp_expand. destruct HI as [-> | HI].
  - cbn [Z.eqb]. unfold rfc1144_expand in EE. cbn [Z.eqb] in EE. injection EE as -> <- <-. reflexivity.
  - assert (idx =? 0 = false) as -> by lia. cbn [first_with]. change (en_comp (tcp_at j nr D)) with [1; 2]. cbn [has existsb].
    assert ((1 =? idx) || ((2 =? idx) || false) = true) as -> by lia. change (en_alg (tcp_at j nr D)) with RFC1144. change (en_state (tcp_at j nr D)) with (Tcp (Some D)). cbv iota. destruct (get_12 j nr D idx (or_intror HI)) as [_ ->]. rewrite EE. reflexivity.
Qed.
Lemma carry_link room i j nt nr t r n : has n nt = true -> forall ps C D C' D' is,
  link room C D (all_ok ps) = Ok (C', D', combine is (map Some ps)) -> length is = length ps ->
  carry_all room (tcp_at i nt C :: t) (tcp_at j nr D :: r) n ps = Ok (tcp_at i nt C' :: t, tcp_at j nr D' :: r, combine is ps).
Proof.
  intros Hn. induction ps as [|p ps IH]; intros C D C' D' is H L; [destruct is; [|discriminate]; injection H as -> ->; reflexivity|].
  destruct is as [|i0 is]; [discriminate|]. cbn [all_ok map link combine] in H. destruct (hop room C D p false) as [[[C1 D1] o]| |] eqn:EH; cbn [bind] in H; try discriminate.
  fold (all_ok ps) in H. destruct (link room C1 D1 (all_ok ps)) as [[[C2 D2] os]| |] eqn:EL; cbn [bind] in H; try discriminate. injection H as -> -> -> ->.
  cbn [carry_all combine]. rewrite (carry_hop room C D i j nt nr t r n p C1 D1 i0 p Hn EH). cbn [bind]. rewrite (IH C1 D1 C' D' is EL) by (cbn in L; lia). reflexivity.
Qed.
Theorem flow room i j nt nr t r n k s ps : has n nt = true -> 1 <= k <= 255 -> slhc_init k k = Some s -> 128 <= zlen room -> legal ps ->
  exists T R is, carry_all room (tcp_at i nt s :: t) (tcp_at j nr s :: r) n ps = Ok (T, R, combine is ps) /\ length is = length ps.
Proof.
  intros Hn Hk Hs Hr HL. destruct (C87_lossless_partial k k k s s room ps Hk Hs Hs Hr HL) as (C' & D' & is & E & L).
  eexists _, _, is. split; [apply carry_link; [exact Hn|exact E|exact L]|exact L].
Qed.
