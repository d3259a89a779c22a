(** Requests and messages for the examples: those of tests/sm/sm_prim_test.c. *)
From Verif.Lib Require Import Base Outcome.
From Verif.Sm Require Import SmModel SmProofs SmProofs2 SmProofs3 SmExec SmRun.

Definition req (n : Z) : actreq := mkActreq n 3 0x21 None None (repeat 0 22) 1 [97; 112; 110] (repeat 0 253) 1 0 0 [49; 50] [] [] [0; 0; 0; 0; 0; 0].
Definition acc : list Z :=
  [0x8a; 0x42; 0x03; 0x0e; 0x23; 0x62; 0x1f; 0x72; 0x99; 0x3f; 0x3f; 0x11; 0x43; 0xff; 0xff; 0x00; 0x00; 0x00; 0x04;
   0x2b; 0x06; 0x01; 0x21; 0xb0; 0x10; 0xde; 0x02;
   0x27; 0x14; 0x80; 0x80; 0x21; 0x10; 0x02; 0x00; 0x00; 0x10; 0x81; 0x06; 0x08; 0x08; 0x08; 0x08; 0x83; 0x06; 0x08; 0x08; 0x08; 0x04].
Definition rej (cause : Z) : list Z := [0x8a; 0x43; cause].
(** The context after a request that cannot fail. *)
Definition after (l : list input) : ctx := match run ctx0 l with Ok (c, _) => c | _ => ctx0 end.

Lemma bytes_b l : forallb (fun x => (0 <=? x) && (x <? 256)) l = true -> bytes l.
Proof. intros H. unfold bytes. apply Forall_forall. intros x Hx. rewrite forallb_forall in H. specialize (H x Hx). unfold byte. lia. Qed.
Lemma req_t n : 0 <= n < 256 -> req_typed (req n).
Proof. intros H. constructor; cbn [req q_qos q_qlen q_pco q_plen q_nsapi]; try lia; try (apply bytes_b; reflexivity); reflexivity. Qed.
Lemma req_f n : req_fits (req n).
Proof. split; cbn; lia. Qed.
Lemma acc_b : bytes acc.
Proof. apply bytes_b. reflexivity. Qed.
Lemma acc_ok : msg_ok acc.
Proof.
  intros l Hl.
  assert (E : l = [(0x2b, [0x01; 0x21; 0xb0; 0x10; 0xde; 0x02]);
    (0x27, [0x80; 0x80; 0x21; 0x10; 0x02; 0x00; 0x00; 0x10; 0x81; 0x06; 0x08; 0x08; 0x08; 0x08; 0x83; 0x06; 0x08; 0x08; 0x08; 0x04])]).
  { eapply elements_fun; [exact Hl|]. change (opt_part acc) with
     (0x2b :: 6 :: [0x01; 0x21; 0xb0; 0x10; 0xde; 0x02] ++ 0x27 :: 20 :: [0x80; 0x80; 0x21; 0x10; 0x02; 0x00; 0x00; 0x10; 0x81; 0x06; 0x08; 0x08; 0x08; 0x08; 0x83; 0x06; 0x08; 0x08; 0x08; 0x04] ++ []).
    apply (el_tlv 0x2b [0x01; 0x21; 0xb0; 0x10; 0xde; 0x02]); [unfold tlv_tag; cbn; tauto|].
    apply (el_tlv 0x27 [0x80; 0x80; 0x21; 0x10; 0x02; 0x00; 0x00; 0x10; 0x81; 0x06; 0x08; 0x08; 0x08; 0x08; 0x83; 0x06; 0x08; 0x08; 0x08; 0x04]); [unfold tlv_tag; cbn; tauto|constructor]. }
  subst l. split; intros v.
  - cbn. intros [= <-]. cbn. lia.
  - intros _. cbn. intros [= <-]. cbn. split; [lia|discriminate].
Qed.
