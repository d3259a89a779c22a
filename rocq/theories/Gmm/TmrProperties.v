(** C60: the GPRS timer is sent as the longest timer not longer than the one asked for. *)
From Verif.Lib Require Import Base.
From Verif.Gmm Require Import TmrModel.

(** TS 24.008 10.5.7.3, table 10.5.172: seconds meant by an octet made of a unit (bits 8 to 6) and a
    value (bits 5 to 1); [None]: the timer is deactivated. *)
Definition meaning (unit value : Z) : option Z :=
  if unit =? 0 then Some (2 * value)
  else if unit =? 1 then Some (60 * value)
  else if unit =? 2 then Some (360 * value)
  else if unit =? 7 then None
  else Some (60 * value).

Lemma fields t : 0 <= t < 256 -> exists u v, t = u * 32 + v /\ 0 <= u < 8 /\ 0 <= v < 32.
Proof. intros H. exists (t / 32), (t mod 32). lia. Qed.

Lemma dec_meaning u v : 0 <= u < 8 -> 0 <= v < 32 ->
  tmr_to_secs (u * 32 + v) = match meaning u v with Some s => s | None => -1 end.
Proof.
  intros Hu Hv. unfold tmr_to_secs, meaning, GPRS_TMR_UNIT_MASK, GPRS_TMR_FACT_MASK, GPRS_TMR_2SECONDS, GPRS_TMR_6MINUTE,
    GPRS_TMR_DEACTIVATED. change 0xe0 with 224. change 0x1f with 31. rewrite land_224, land_31.
  replace ((u * 32 + v) / 32 mod 8) with u by lia. replace ((u * 32 + v) mod 32) with v by lia.
  repeat match goal with |- context [?a =? ?b] => destruct (Z.eqb_spec a b); try lia end.
Qed.

(** Reading: every octet means what the table says. *)
Theorem C60_reading : forall u v, 0 <= u < 8 -> 0 <= v < 32 ->
  tmr_to_secs (u * 32 + v) = match meaning u v with Some s => s | None => -1 end.
Proof. exact dec_meaning. Qed.

Lemma enc_fields s : 0 <= s -> exists u v, secs_to_tmr_floor s = u * 32 + v /\ 0 <= u < 3 /\ 0 <= v < 32 /\
  ((s < 64 /\ u = 0 /\ v = s / 2) \/ (64 <= s < 120 /\ u = 0 /\ v = 31) \/ (120 <= s < 1920 /\ u = 1 /\ v = s / 60)
   \/ (1920 <= s < 2160 /\ u = 1 /\ v = 31) \/ (2160 <= s < 11520 /\ u = 2 /\ v = s / 360) \/ (11520 <= s /\ u = 2 /\ v = 31)).
Proof.
  intros Hs. unfold secs_to_tmr_floor, GPRS_TMR_2SECONDS, GPRS_TMR_MINUTE, GPRS_TMR_6MINUTE, GPRS_TMR_FACT_MASK.
  destruct (Z.ltb_spec s 0); [lia|].
  destruct (Z.ltb_spec s (2 * 32)). { exists 0, (s / 2). cbn [Z.mul Z.lor]. lia. }
  destruct (Z.ltb_spec s (60 * 2)). { exists 0, 31. cbn [Z.mul Z.lor]. lia. }
  destruct (Z.ltb_spec s (60 * 32)).
  { exists 1, (s / 60). rewrite (lor_add _ _ 5) by (cbn; lia). lia. }
  destruct (Z.ltb_spec s (360 * 6)). { exists 1, 31. change (Z.lor (1 * 32) 31) with 63. lia. }
  destruct (Z.ltb_spec s (360 * 32)).
  { exists 2, (s / 360). rewrite (lor_add _ _ 5) by (cbn; lia). lia. }
  exists 2, 31. change (Z.lor (2 * 32) 31) with 95. lia.
Qed.

(** Writing: of all the timers an octet can express, the one sent is the longest that does not exceed the
    number of seconds asked for.  A negative number deactivates the timer. *)
Theorem C60_floor : forall s, 0 <= s ->
  exists u v r, secs_to_tmr_floor s = u * 32 + v /\ 0 <= u < 8 /\ 0 <= v < 32 /\
    meaning u v = Some r /\ r <= s /\
    (forall u' v' r', 0 <= u' < 8 -> 0 <= v' < 32 -> meaning u' v' = Some r' -> r' <= s -> r' <= r).
Proof.
  intros s Hs. destruct (enc_fields s Hs) as (u & v & He & Hu & Hv & Hc).
  exists u, v. unfold meaning at 1.
  assert (Hm : forall u' v' r', 0 <= u' < 8 -> 0 <= v' < 32 -> meaning u' v' = Some r' ->
    (r' = 2 * v' \/ r' = 60 * v' \/ r' = 360 * v')).
  { intros u' v' r' _ _. unfold meaning. repeat match goal with |- context [?a =? ?b] => destruct (a =? b) end;
    intros [= <-]; auto. }
  assert (Hu3 : u = 0 \/ u = 1 \/ u = 2) by lia.
  destruct Hu3 as [-> | [-> | ->]]; cbn [Z.eqb Pos.eqb]; eexists; (split; [exact He|]);
    (split; [lia|]); (split; [exact Hv|]); (split; [reflexivity|]); (split; [lia|]);
    intros u' v' r' Hu' Hv' Hm' Hr; destruct (Hm u' v' r' Hu' Hv' Hm') as [-> | [-> | ->]]; lia.
Qed.

Theorem C60_deactivated : forall s, s < 0 -> exists u v,
  secs_to_tmr_floor s = u * 32 + v /\ 0 <= u < 8 /\ 0 <= v < 32 /\ meaning u v = None.
Proof.
  intros s Hs. exists 7, 0. unfold secs_to_tmr_floor. destruct (Z.ltb_spec s 0); [|lia].
  repeat split; lia.
Qed.

(** The contract in the comment of misc.c:56-63, on the composed function. *)
Theorem C60_contract : forall s t, 0 <= s -> 0 <= t ->
  let f x := tmr_to_secs (secs_to_tmr_floor x) in
  (s <= t -> f s <= f t) /\ f s <= s /\ (forall o, 0 <= o < 256 -> tmr_to_secs o = s -> f s = s).
Proof.
  intros s t Hs Ht f.
  assert (Hf : forall x, 0 <= x -> exists u v r, f x = r /\ 0 <= u < 8 /\ 0 <= v < 32 /\ meaning u v = Some r /\ r <= x /\
    (forall u' v' r', 0 <= u' < 8 -> 0 <= v' < 32 -> meaning u' v' = Some r' -> r' <= x -> r' <= r)).
  { intros x Hx. destruct (C60_floor x Hx) as (u & v & r & He & Hu & Hv & Hm & Hr & Hb).
    exists u, v, r. unfold f. rewrite He, dec_meaning, Hm by assumption. repeat (split; [first [reflexivity|assumption]|]). exact Hb. }
  destruct (Hf s Hs) as (u & v & r & -> & Hu & Hv & Hm & Hr & Hb).
  destruct (Hf t Ht) as (u2 & v2 & r2 & -> & Hu2 & Hv2 & Hm2 & Hr2 & Hb2).
  split; [|split; [exact Hr|]].
  - intros Hst. apply (Hb2 u v r Hu Hv Hm). lia.
  - intros o Ho Heq. destruct (fields o Ho) as (u' & v' & -> & Hu' & Hv').
    rewrite dec_meaning in Heq by assumption. destruct (meaning u' v') as [w|] eqn:Hm'; [|lia].
    specialize (Hb u' v' w Hu' Hv' Hm'). lia.
Qed.

(** 54 minutes is 9 units of 6 minutes; 100 seconds rounds down to 62. *)
Example C60_nonvacuous :
  secs_to_tmr_floor (54 * 60) = 2 * 32 + 9 /\ secs_to_tmr_floor 100 = 31 /\ tmr_to_secs 31 = 62 /\
  secs_to_tmr_floor (-1) = 7 * 32 /\ meaning 5 3 = Some 180.
Proof. repeat split. Qed.

Print Assumptions C60_reading.
Print Assumptions C60_floor.
Print Assumptions C60_deactivated.
Print Assumptions C60_contract.
