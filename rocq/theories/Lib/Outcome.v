(** Outcome of a modelled C function: a result, a negative error code, or undefined behaviour
    (out-of-bounds access, failed assertion).  Nothing here models repository code. *)
From Verif.Lib Require Import Base.

Inductive res (A : Type) : Type :=
| Ok (a : A)
| Err (e : Z)
| UB.
Arguments Ok {A} a.
Arguments Err {A} e.
Arguments UB {A}.

Definition bind {A B} (m : res A) (f : A -> res B) : res B :=
  match m with Ok a => f a | Err e => Err e | UB => UB end.
Notation "'do' x <- m ; k" := (bind m (fun x => k))
  (at level 200, x name, m at level 100, k at level 200, right associativity).

(** Read of one octet of a buffer that is exactly [data]: reading outside is undefined behaviour. *)
Definition rd (data : list Z) (i : Z) : res Z :=
  if (0 <=? i) && (i <? zlen data) then Ok (nth (Z.to_nat i) data 0) else UB.

(** Read of [n] octets at offset [i] (memcpy source). *)
Definition rdn (data : list Z) (i n : Z) : res (list Z) :=
  if (0 <=? i) && (0 <=? n) && (i + n <=? zlen data)
  then Ok (slice (Z.to_nat i) (Z.to_nat n) data) else UB.

(** Linux errno values. *)
Definition EINVAL : Z := 22.
Definition ENOTSUP : Z := 95.
Definition EFBIG : Z := 27.
Definition EIO : Z := 5.
Definition ENOSPC : Z := 28.
Definition ENOMEM : Z := 12.
Definition ENOENT : Z := 2.

(** Unsigned 64-bit (size_t) subtraction. *)
Definition usub64 (a b : Z) : Z := (a - b) mod 2 ^ 64.

Lemma rd_ok data i : 0 <= i < zlen data -> rd data i = Ok (nth (Z.to_nat i) data 0).
Proof. intros H. unfold rd. destruct (0 <=? i) eqn:?, (i <? zlen data) eqn:?; try reflexivity; lia. Qed.

Lemma rd_inv data i v : rd data i = Ok v -> 0 <= i < zlen data /\ v = nth (Z.to_nat i) data 0.
Proof. unfold rd. destruct (0 <=? i) eqn:?, (i <? zlen data) eqn:?; cbn; intros H; inversion H; split; try lia; reflexivity. Qed.

Lemma nth_byte data i : bytes data -> 0 <= i < zlen data -> byte (nth (Z.to_nat i) data 0).
Proof. intros Hb Hi. unfold bytes in Hb. rewrite Forall_forall in Hb. apply Hb, nth_In. unfold zlen in Hi. lia. Qed.

Lemma rd_byte data i v : bytes data -> rd data i = Ok v -> byte v.
Proof. intros Hb H. apply rd_inv in H as [Hi ->]. apply nth_byte; assumption. Qed.

Lemma rdn_ok data i n : 0 <= i -> 0 <= n -> i + n <= zlen data ->
  rdn data i n = Ok (slice (Z.to_nat i) (Z.to_nat n) data).
Proof. intros. unfold rdn. destruct (0 <=? i) eqn:?, (0 <=? n) eqn:?, (i + n <=? zlen data) eqn:?; try reflexivity; lia. Qed.
