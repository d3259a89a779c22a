(** An environment for the examples: libosmocore's parser with the table of gmm_pdu.c:146-175, its coding
    of mobile identities, the default timers of gmm.c:60-79, and call-backs that succeed.  Nothing in the
    general theorems depends on it; it shows that their hypotheses can be met. *)
From Verif.Lib Require Import Base Outcome.
From Verif.Gmm Require Import GmmModel GmmProofs GmmExec.

(** gmm_pdu.c:146-175: the length of the value of an element of fixed length, by tag. *)
Definition fixed_len (t : Z) : option nat :=
  if (t =? 0x17) || (t =? 0x25) then Some 1%nat else if t =? 0x19 then Some 3%nat else if t =? 0x21 then Some 16%nat
  else if t =? 0x22 then Some 4%nat else if t =? 0x27 then Some 2%nat else None.
Definition lv_tag (t : Z) : bool :=
  existsb (Z.eqb t) [0x10; 0x18; 0x1a; 0x1b; 0x23; 0x26; 0x28; 0x29; 0x2a; 0x30; 0x31; 0x32; 0x33; 0x35; 0x3a; 0x58; 0x5d].
(** libosmocore tlv_parse: half-octet elements, then those of the table; anything else is an error. *)
Fixpoint parse (fuel : nat) (l : list Z) : option (list (Z * list Z)) :=
  match fuel, l with
  | _, [] => Some []
  | O, _ => None
  | S f, t :: r =>
      if 0x7f <? t then
        if existsb (Z.eqb (t / 16)) [0x8; 0xe; 0xc]
        then match parse f r with Some x => Some ((t / 16, [t]) :: x) | None => None end else None
      else match fixed_len t with
           | Some n => if (n <=? length r)%nat then match parse f (skipn n r) with Some x => Some ((t, firstn n r) :: x) | None => None end
                       else None
           | None =>
               if lv_tag t then
                 match r with
                 | n :: v => if (n <=? zlen v)
                             then match parse f (skipn (Z.to_nat n) v) with Some x => Some ((t, firstn (Z.to_nat n) v) :: x) | None => None end
                             else None
                 | [] => None
                 end
               else None
           end
  end.
Fixpoint look (l : list (Z * list Z)) (t : Z) : option (list Z) :=
  match l with [] => None | (u, v) :: r => if u =? t then Some v else look r t end.
Definition demo_tlv (l : list Z) : option (Z -> option (list Z)) :=
  match parse (length l) l with Some x => Some (look x) | None => None end.

Fixpoint bcd (l : list Z) : list Z :=
  match l with a :: b :: r => (a - 48) + 16 * (b - 48) :: bcd r | [a] => [(a - 48) + 240] | [] => [] end.
Definition digits (type : Z) (s : list Z) : option (list Z) :=
  match s with
  | [] => None
  | d :: r => Some (16 * (d - 48) + 8 * (Z.of_nat (length s) mod 2) + type :: bcd r)
  end.
Definition demo_enc (m : mi) : option (list Z) :=
  match m with
  | MiImsi s => digits 1 s | MiImei s => digits 2 s | MiImeisv s => digits 3 s
  | MiTmsi t => Some [0xf4; t / 2 ^ 24 mod 256; t / 2 ^ 16 mod 256; t / 2 ^ 8 mod 256; t mod 256]
  | MiOther => None
  end.
Definition demo_dec (v : list Z) : option mi :=
  match v with
  | [h; a; b; c; d] => if h =? 0xf4 then Some (MiTmsi (a * 2 ^ 24 + b * 2 ^ 16 + c * 2 ^ 8 + d)) else None
  | h :: _ => if h mod 8 =? 3 then Some (MiImeisv v) else if h mod 8 =? 1 then Some (MiImsi v) else None
  | [] => None
  end.

Definition demo : ext := mkExt (fun _ => 0) demo_tlv demo_dec demo_enc 720 0 15 15 44 30.
(** The same, but LLC refuses to send. *)
Definition demo_llc_down : ext :=
  mkExt (fun o => match o with OUnit _ _ => -5 | _ => 0 end) demo_tlv demo_dec demo_enc 720 0 15 15 44 30.

Definition elem_ok (x : Z * list Z) : Prop :=
  (fst x = 0x19 -> zlen (snd x) = 3) /\ (fst x = 0x17 -> 1 <= zlen (snd x)) /\ (fst x = 0x21 -> zlen (snd x) = 16) /\
  (fst x = 0x08 -> 1 <= zlen (snd x)).

Lemma parse_ok : forall f l x, parse f l = Some x -> Forall elem_ok x.
Proof.
  induction f as [|f IH]; intros l x H; destruct l as [|t r]; cbn [parse] in H; try (injection H as <-; constructor); try discriminate.
  destruct (0x7f <? t).
  - destruct (existsb _ _) eqn:Ex; [| discriminate H]. destruct (parse f r) as [y|] eqn:P; [| discriminate H].
    injection H as <-. constructor; [| exact (IH _ _ P)]. cbn [existsb] in Ex.
    unfold elem_ok. cbn [fst snd]. unfold zlen. cbn [length]. repeat split; lia.
  - destruct (fixed_len t) as [n|] eqn:FL.
    + destruct (n <=? length r)%nat eqn:L; [| discriminate H]. destruct (parse f (skipn n r)) as [y|] eqn:P; [| discriminate H].
      injection H as <-. constructor; [| exact (IH _ _ P)]. apply Nat.leb_le in L.
      unfold elem_ok. cbn [fst snd]. unfold zlen. rewrite firstn_length_le by exact L.
      unfold fixed_len in FL.
      repeat split; intros ->; vm_compute in FL; try (injection FL as <-); try reflexivity; discriminate.
    + destruct (lv_tag t) eqn:LV; [| discriminate H]. destruct r as [|n v]; [discriminate H |].
      destruct (n <=? zlen v); [| discriminate H]. destruct (parse f (skipn (Z.to_nat n) v)) as [y|] eqn:P; [| discriminate H].
      injection H as <-. constructor; [| exact (IH _ _ P)].
      unfold elem_ok. cbn [fst snd]. repeat split; intros ->; try (vm_compute in FL; discriminate FL); vm_compute in LV; discriminate LV.
Qed.
Lemma look_ok : forall x, Forall elem_ok x -> forall t v, look x t = Some v -> elem_ok (t, v).
Proof.
  induction x as [|[u w] x IH]; intros H t v Hl; cbn [look] in Hl; [discriminate |].
  inversion H; subst. destruct (Z.eqb_spec u t); [injection Hl as <-; now subst | eauto].
Qed.
Lemma demo_tlv_ok : forall l p, demo_tlv l = Some p ->
    (forall v, p 0x19 = Some v -> zlen v = 3) /\ (forall v, p 0x17 = Some v -> 1 <= zlen v) /\
    (forall v, p 0x21 = Some v -> zlen v = 16) /\ (forall v, p 0x08 = Some v -> 1 <= zlen v).
Proof.
  intros l p H. unfold demo_tlv in H. destruct (parse (length l) l) as [x|] eqn:P; [| discriminate H].
  apply parse_ok in P. injection H as <-.
  repeat split; intros v Hv; destruct (look_ok _ P _ _ Hv) as (A & B & C & D); cbn [fst snd] in *; auto.
Qed.
Lemma demo_ok : env_ok demo /\ cb_ok demo.
Proof. split; [split; [reflexivity | split; [reflexivity | exact demo_tlv_ok]] | intros o; cbv; discriminate]. Qed.
Lemma demo_llc_down_ok : env_ok demo_llc_down.
Proof. split; [reflexivity | split; [reflexivity | exact demo_tlv_ok]]. Qed.

(** Requests and messages of tests/gmm/gmm_prim_ms_test.c. *)
Definition asc (l : list Z) : list Z := map (fun d => d + 48) l.
Definition q0 : attreq :=
  mkAttreq 1 false 0x1234 0x556677 (asc [1;2;3;4;5;6;7;8;9]) (asc [4;2;3;4;2;3;4;2;3;4;2;3;4;2]) (asc [4;2;3;4;2;3;4;2;3;4;2;3;4;2;7;5])
    [0x00; 0xf0; 0; 0; 0; 0].
Definition rand0 : list Z := [0xe2;0xa6;0xf3;0xf8;0xbb;0x9e;0xa7;0x01;0xe0;0xce;0x4f;0x33;0x64;0xa9;0x91;0x75].
Definition m_auth : list Z := [0x08; 0x12; 0x10; 0x20; 0x21] ++ rand0 ++ [0x80].
Definition m_att_acc : list Z :=
  [0x08; 0x02; 0x01; 0x2a; 0x44; 0x32; 0xf4; 0x07; 0x00; 0x05; 0x00; 0x17; 0x16; 0x18; 0x05; 0xf4; 0xea; 0x71; 0x1b; 0x41].
Definition m_rau_acc : list Z :=
  [0x08; 0x09; 0x00; 0x05; 0x32; 0xf4; 0x07; 0x00; 0x05; 0x00; 0x18; 0x05; 0xf4; 0xec; 0x99; 0x90; 0x02; 0x17; 0x05].
Definition each (E : ext) (l : list event) : list (ext * event) := map (fun e => (E, e)) l.

(** The test's exchange: the primitives are those of tests/gmm/gmm_prim_ms_test.ok:3-22, in order. *)
Example demo_trace :
  match run ctx0 (each demo
    [EEnable true; EAttach q0 []; EUnitdata 0x80001234 [0x08; 0x15; 0x02]; EUnitdata 0x80001234 m_auth;
     ESimAuth 2 0 rand0 [0xac;0xac;0xac;0xac] (repeat 0 16); EUnitdata 0x80001234 m_att_acc; ELlcTransmitted 0xea711b41;
     EExpiry 0 T3314; EExpiry 0 T3312; EUnitdata 0xea711b41 m_rau_acc; ELlcTransmitted 0xec999002; EPage 0xec999002;
     EDetach 0xec999002 1 0; EUnitdata 0xec999002 [0x08; 0x06; 0x00]]) with
  | Ok (_, o) => o
  | _ => []
  end =
  [OUnit 0x80001234 [0x08;0x01;0x04;0x97;0x07;0x00;0x00;0x01;0x0a;0x00;0x05;0xf4;0x00;0x00;0x12;0x34;0x00;0xf0;0;0;0;0;0;
                     0x19;0x55;0x66;0x77;0x17;0x16;0xe1];
   OUnit 0x80001234 [0x08;0x16;0x08;0x42;0x32;0x24;0x43;0x32;0x24;0x43;0xf2];
   OSimAuth 2 0 rand0;
   OAssign 0xffffffff 0x80001234 0 (repeat 0 16);
   OUnit 0x80001234 [0x08;0x13;0x02;0x22;0xac;0xac;0xac;0xac;0x23;0x09;0x43;0x32;0x24;0x43;0x32;0x24;0x43;0x72;0xf5];
   OAssign 0x80001234 0xea711b41 0 (repeat 0 16);
   ORrAssign 0x80001234 0xea711b41 0xea711b41 (q_imsi q0);
   OUnit 0xea711b41 [0x08;0x03];
   OAttachAcc 0xea711b41 0xffffffff 0xea711b41 [0x32;0xf4;0x07;0x00;0x05;0x00];
   OSuspend 0xea711b41;
   OUnit 0xea711b41 [0x08;0x08;0x03;0x32;0xf4;0x07;0x00;0x05;0x00;0x00;0x17;0x16;0x0a;0x00;0xe5;0x02;0x00;0x00;0xe1];
   OAssign 0xea711b41 0xec999002 0 (repeat 0 16);
   ORrAssign 0xea711b41 0xec999002 0xec999002 (q_imsi q0);
   OUnit 0xec999002 [0x08;0x0a];
   OResume 0xec999002;
   OTrigger 0xec999002;
   OUnit 0xec999002 [0x08;0x05;0x20;0x0a;0x00;0x05;0xf4;0xec;0x99;0x90;0x02];
   OAssign 0xec999002 0xffffffff 0 (repeat 0 16);
   ODetachCnf 1].
Proof. vm_compute. reflexivity. Qed.
