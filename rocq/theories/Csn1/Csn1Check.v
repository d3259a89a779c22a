(** A check of a descriptor table that is sufficient for memory safety: every store the decoder can make with it
    stays inside the member it is meant for. *)
From Coq Require Import ZArith List Bool Lia.
From Verif Require Import Lib.Base Csn1.Csn1Model.
Import ListNotations.
Open Scope Z_scope.

(** Known upper bounds of octets of the structure. *)
Definition facts := list (Z * Z).
Definition kill (off room : Z) (fs : facts) : facts :=
  filter (fun f => (fst f <? off) || (off + room <=? fst f)) fs.
Definition bound (fs : facts) (c : Z) : Z :=
  match find (fun f => fst f =? c) fs with Some f => Z.min 255 (snd f) | None => 255 end.
(** The member lies in a structure of [S] octets. *)
Definition inside (S off room : Z) : bool := (0 <=? off) && (off + room <=? S).
Definition wr (S off room n : Z) : bool := inside S off room && (n <=? room).
(** After one entry: the groups of entries that a skip may still be passing over, and the facts, which are lost
    where a skip may end. *)
Definition pass (gs : list nat) : list nat := filter (fun g => negb (Nat.eqb g 0)) (map pred gs).
Definition keep (gs : list nat) (fs : facts) : facts := if existsb (fun g => Nat.leb g 1) gs then [] else fs.

(** The bits an entry, or a chain of entries, takes at least; entries whose size is not a negative number. *)
Fixpoint pos (d : descr) : bool :=
  match d with
  | DEnd => true
  | DUint b _ _ _ r | DUintOff b _ _ _ r | DUintLH b _ _ r | DRecArr b _ _ _ r | DFixed b _ r => (0 <=? b) && pos r
  | DUintArr b n _ _ r => (0 <=? b * n) && pos r
  | DTArr _ _ _ _ sub r | DType _ _ _ sub r | DRecTArr _ _ _ _ _ _ sub r => pos sub && pos r
  | DChoice _ _ alts r => pos alts && pos r
  | DAlt b _ _ one r => (0 <=? b) && pos one && pos r
  | DSer lb _ _ sub r => (0 <=? lb) && pos sub && pos r
  | DBit _ _ _ r | DNull _ r | DBitmap _ _ _ r | DUnion _ _ _ _ r | DExist _ _ _ r | DNext _ _ _ _ _ r
  | DVarBmp _ _ _ _ _ _ r | DPad r | DVarArr _ _ _ _ r | DCallback _ _ _ _ r | DTrap _ r => pos r
  end.
Fixpoint mins (d : descr) : Z :=
  match d with
  | DBit _ _ _ r => 1 + mins r
  | DUint b _ _ false r => b + mins r
  | DType _ _ false sub r => mins sub + mins r
  | DNext _ _ _ _ false _ => 1
  | DUnion _ n _ _ _ => Z.max 0 (nth n ix_bits 0)
  | _ => 0
  end.
Definition takes (d : descr) : Z := if pos d then mins d else 0.
(** What remains after [c] bits, unless the entry may have been passed over. *)
Definition less (gs : list nat) (u : nat) (rm c : Z) : Z :=
  match gs, u with [], O => Z.max 0 (rm - c) | _, _ => rm end.

(** [rm]: most bits that may remain; [S]: octets of the structure; [fs]: facts; [gs]: open groups; [u]: how many of
    the next entries are alternatives of a union; [alt]: is this the list of a CHOICE? *)
Fixpoint chk (alt : bool) (rm S : Z) (fs : facts) (gs : list nat) (u : nat) (d : descr) {struct d} : bool :=
  let go off n r := chk false rm S (keep gs (kill off n fs)) (pass gs) (pred u) r in
  let un := negb (Nat.eqb u 0) in
  match d with
  | DEnd => alt || (match gs with [] => true | _ => false end && Nat.eqb u 0)
  | DAlt b _ _ one r => alt && (0 <=? b) && chk false rm S [] [] 0 one && chk true rm S [] [] 0 r
  | DBit off room _ r =>
      negb alt && wr S off room 1 && chk false (less gs u rm 1) S (keep gs (kill off 1 fs)) (pass gs) (pred u) r
  | DNull _ r => negb alt && go 0 0 r
  | DUint b off room null r =>
      let w := Z.of_nat (width b) in
      negb alt && (0 <=? b) && wr S off room w &&
      chk false (less gs u rm (if null then 0 else b)) S (keep gs ((if b <=? 8 then [(off, 2 ^ b - 1)] else []) ++ kill off w fs)) (pass gs) (pred u) r
  | DUintOff b off room add r =>
      let w := Z.of_nat (width b) in
      negb alt && (0 <=? b) && wr S off room w && (0 <=? add) &&
      chk false rm S (keep gs ((if b <=? 8 then [(off, 2 ^ b - 1 + add)] else []) ++ kill off w fs)) (pass gs) (pred u) r
  | DUintLH b off room r => negb alt && (0 <=? b) && wr S off room 1 && go off 1 r
  | DUintArr b n off room r =>
      let w := if b <=? 8 then n else 2 * n in
      negb alt && (0 <=? b) && (0 <=? n) && wr S off room w && go off w r
  | DTArr c off room stride sub r =>
      let mx := match c with CFix n => n | CVar co | CVarOff co => bound fs co end in
      negb alt && inside S off room && (0 <=? stride) &&
      match c with CFix n => true | CVar co | CVarOff co => negb un end &&
      chk false rm (room - (mx - 1) * stride) [] [] 0 sub && go off room r
  | DBitmap b off room r =>
      let w := if b <=? 32 then 4 else 8 in negb alt && wr S off room w && go off w r
  | DType off room null sub r =>
      negb alt && inside S off room && chk false rm room [] [] 0 sub &&
      chk false (less gs u rm (if null then 0 else takes sub)) S (keep gs (kill off room fs)) (pass gs) (pred u) r
  | DChoice off room alts r =>
      negb alt && negb un && wr S off room 1 && chk true rm S [] [] 0 alts && chk false rm S [] (pass gs) (pred u) r
  | DSer lb off room sub r =>
      negb alt && negb un && (0 <=? lb) && inside S off room && chk false (Z.max rm 255) room [] [] 0 sub && go off room r
  | DUnion _ n off room r =>
      negb alt && negb un && wr S off room 1 && Nat.leb 1 n && forallb (fun g => Nat.leb n g) (map pred gs) &&
      chk false (less gs u rm (Z.max 0 (nth n ix_bits 0))) S [] (n :: pass gs) n r
  | DExist _ off room r => negb alt && negb un && wr S off room 1 && go off 1 r
  | DNext _ n off room null r =>
      negb alt && negb un && wr S off room 1 &&
      chk false (less gs u rm (if null then 0 else 1)) S (keep gs (kill off 1 fs)) (if Nat.eqb n 0 then pass gs else n :: pass gs) (pred u) r
  | DVarBmp _ toend add co off room r =>
      negb alt && negb un && (negb toend || wr S co 1 1) &&
      inside S off room && ((Z.min (bound (if toend then kill co 1 fs else fs) co + add) rm + 7) / 8 <=? room) &&
      chk false rm S (keep gs (kill off room (if toend then kill co 1 fs else fs))) (pass gs) (pred u) r
  | DPad r => negb alt && negb un && go 0 0 r
  | DVarArr add co off room r =>
      negb alt && negb un && inside S off room && (Z.min (bound fs co + add) (rm / 8) <=? room) && go off room r
  | DRecArr b co off room r =>
      negb alt && negb un && (0 <=? b) && wr S co 1 1 && inside S off room && (rm / (b + 1) + 1 <=? room) &&
      chk false rm S (keep gs (kill co 1 (kill off room fs))) (pass gs) (pred u) r
  | DRecTArr _ co off room stride cap sub r =>
      negb alt && negb un && wr S co 1 1 && inside S off room && (0 <=? stride) && (0 <=? cap) && (cap <=? 254) &&
      chk false rm (room - (cap - 1) * stride) [] [] 0 sub &&
      chk false rm S (keep gs (kill co 1 (kill off room fs))) (pass gs) (pred u) r
  | DFixed b _ r => negb alt && negb un && (0 <=? b) && go 0 0 r
  | DCallback c _ off room r =>
      negb alt && negb un &&
      match c with
      | CbFreqDiff n stride doff => inside S off room && (0 <=? doff) && (0 <=? stride) && ((n - 1) * stride + doff + 1 <=? room)
      | CbTddMap => wr S off room 1
      | CbTddInfo _ => true
      end && go off room r
  | DTrap _ r => negb alt && go 0 0 r
  end.
(** A descriptor decoded into a structure of [S] octets with at most [rm] bits. *)
Definition safe_table (rm S : Z) (d : descr) : bool := chk false rm S [] [] 0 d.
