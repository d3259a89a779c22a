(** Data compression: src/sndcp/v42bis.c, and how src/sndcp/sndcp_dcomp.c applies it to one N-PDU.
    Simplifications.  The octets handed out are collected in a list: the buffer of 1024 octets in between
    (v42bis.c:83-116, 147-154) cuts them into portions only, and the two handlers (sndcp_dcomp.c:48-65) put
    the portions one behind the other; that the memory they write to ends somewhere is in [compress_unitdata]
    and [expand_unitdata].  [flushed_length] is left out: both contexts are set up anew for every N-PDU
    (sndcp_dcomp.c:171, 229), and it is only ever set by the flush at the end of it (v42bis.c:498, 697).
    [compression_mode] is 0, V42BIS_COMPRESSION_MODE_DYNAMIC (v42bis.c:407): nothing calls
    [v42bis_compression_control]. *)
From Verif.Lib Require Import Base Outcome.

(** v42bis_private.h:32-41. *)
Record node := mkN { n_oct : Z; n_par : Z; n_child : Z; n_next : Z }.
(** The dictionary with [v42bis_parm_c1], [last_added], [update_at] and [last_matched]. *)
Record dct := mkD { d_node : Z -> node; d_c1 : Z; d_la : Z; d_upd : Z; d_lm : Z }.
(** v42bis_private.h:45-103. *)
Record vst := mkV { v_d : dct; v_c2 : Z; v_c3 : Z; v_str : list Z; v_perf : Z; v_bb : Z; v_bc : Z;
                    v_esc : Z; v_tr : bool; v_escd : bool }.

(** A condition without which the C code would leave an array or shift too far. *)
Definition need {A} (c : bool) (m : res A) : res A := if c then m else UB.

Definition set_la (k : dct) (v : Z) := mkD (d_node k) (d_c1 k) v (d_upd k) (d_lm k).
Definition set_upd (k : dct) (v : Z) := mkD (d_node k) (d_c1 k) (d_la k) v (d_lm k).
Definition set_lm (k : dct) (v : Z) := mkD (d_node k) (d_c1 k) (d_la k) (d_upd k) v.
Definition set_d (s : vst) (k : dct) :=
  mkV k (v_c2 s) (v_c3 s) (v_str s) (v_perf s) (v_bb s) (v_bc s) (v_esc s) (v_tr s) (v_escd s).
Definition set_str (s : vst) (w : list Z) :=
  mkV (v_d s) (v_c2 s) (v_c3 s) w (v_perf s) (v_bb s) (v_bc s) (v_esc s) (v_tr s) (v_escd s).
Definition set_esc (s : vst) (e : Z) :=
  mkV (v_d s) (v_c2 s) (v_c3 s) (v_str s) (v_perf s) (v_bb s) (v_bc s) e (v_tr s) (v_escd s).
Definition set_escd (s : vst) (b : bool) :=
  mkV (v_d s) (v_c2 s) (v_c3 s) (v_str s) (v_perf s) (v_bb s) (v_bc s) (v_esc s) (v_tr s) b.
Definition set_tr (s : vst) (b : bool) :=
  mkV (v_d s) (v_c2 s) (v_c3 s) (v_str s) (v_perf s) (v_bb s) (v_bc s) (v_esc s) b (v_escd s).
Definition set_perf (s : vst) (p : Z) :=
  mkV (v_d s) (v_c2 s) (v_c3 s) (v_str s) p (v_bb s) (v_bc s) (v_esc s) (v_tr s) (v_escd s).
Definition set_bits (s : vst) (bb bc : Z) :=
  mkV (v_d s) (v_c2 s) (v_c3 s) (v_str s) (v_perf s) bb bc (v_esc s) (v_tr s) (v_escd s).
Definition set_width (s : vst) (c2 c3 : Z) :=
  mkV (v_d s) c2 c3 (v_str s) (v_perf s) (v_bb s) (v_bc s) (v_esc s) (v_tr s) (v_escd s).

Definition put (d : Z -> node) (i : Z) (v : node) : Z -> node := fun k => if k =? i then v else d k.

(** v42bis.c:123-128: the whole octets of the bit buffer. *)
Fixpoint drain (n : nat) (bb : Z) : list Z * Z :=
  match n with
  | O => ([], bb)
  | S n => let (l, b) := drain n (Z.shiftr bb 8) in (Z.land bb 255 :: l, b)
  end.
(** v42bis.c:119-129 [push_compressed_code]; fewer than 8 bits are waiting and a codeword has at most 16. *)
Definition push_code (s : vst) (code : Z) : vst * list Z :=
  let n := v_bc s + v_c2 s in
  let (l, b) := drain (Z.to_nat (n / 8)) (Z.lor (v_bb s) (Z.shiftl code (v_bc s))) in
  (set_bits s b (n mod 8), l).
(** v42bis.c:132-144 [push_octet_alignment]. *)
Definition push_align (s : vst) : vst * list Z :=
  if v_bc s mod 8 =? 0 then (s, [])
  else let n := v_bc s + (8 - v_bc s mod 8) in
       let (l, b) := drain (Z.to_nat (n / 8)) (v_bb s) in (set_bits s b (n mod 8), l).

(** v42bis.c:157-178 [dictionary_init]. *)
Definition dict0 : Z -> node :=
  fun k => if (3 <=? k) && (k <? 259) then mkN (k - 3) 0 0 0 else mkN 0 0 0 0.
Definition init : vst := mkV (mkD dict0 259 0 0 0) 9 512 [] 2048 0 0 0 true false.

(** v42bis.c:187-194: along the list of children; [UB] when the list has no end. *)
Fixpoint find_kid (fuel : nat) (d : Z -> node) (e x : Z) : res Z :=
  if e =? 0 then Ok 0 else
  match fuel with
  | O => UB
  | S f => need (e <? 4096) (if n_oct (d e) =? x then Ok e else find_kid f d (n_next (d e)) x)
  end.
(** v42bis.c:181-195 [match_octet]. *)
Definition match_octet (d : Z -> node) (at_ x : Z) : res Z :=
  if at_ =? 0 then Ok (x + 3) else need (at_ <? 4096) (find_kid (Z.to_nat 4096) d (n_child (d at_)) x).

(** v42bis.c:212-218: the next entry without children. *)
Fixpoint scan (fuel : nat) (n2 : Z) (d : Z -> node) (next : Z) : res Z :=
  match fuel with
  | O => UB
  | S f => let next := if next + 1 =? n2 then 259 else next + 1 in
           need (next <? 4096) (if n_child (d next) =? 0 then Ok next else scan f n2 d next)
  end.
(** v42bis.c:231-233. *)
Fixpoint unlink (fuel : nat) (d : Z -> node) (e next : Z) : res (Z -> node) :=
  match fuel with
  | O => UB
  | S f => need (e <? 4096)
             (if n_next (d e) =? next
              then Ok (put d e (mkN (n_oct (d e)) (n_par (d e)) (n_child (d e)) (n_next (d next))))
              else unlink f d (n_next (d e)) next)
  end.
(** v42bis.c:220-235. *)
Definition detach (d : Z -> node) (next : Z) : res (Z -> node) :=
  let e := n_par (d next) in
  if e =? 0 then Ok d else
  need (e <? 4096)
    (if n_child (d e) =? next
     then Ok (put d e (mkN (n_oct (d e)) (n_par (d e)) (n_next (d next)) (n_next (d e))))
     else unlink (Z.to_nat 4096) d (n_child (d e)) next).
(** v42bis.c:198-238 [add_octet_to_dictionary]: the dictionary and the new [c1]; the entry added is the old one. *)
Definition add_octet (n2 : Z) (d : Z -> node) (c1 at_ x : Z) : res ((Z -> node) * Z) :=
  need ((c1 <? 4096) && (at_ <? 4096))
    (let d := put d c1 (mkN x at_ 0 (n_next (d c1))) in
     let d := put d c1 (mkN (n_oct (d c1)) (n_par (d c1)) (n_child (d c1)) (n_child (d at_))) in
     let d := put d at_ (mkN (n_oct (d at_)) (n_par (d at_)) c1 (n_next (d at_))) in
     do next <- scan (Z.to_nat n2) n2 d c1;
     do d <- detach d next;
     Ok (d, next)).
(** v42bis.c:442-447, 580-585: the string of the last match becomes longer by the octet that follows it. *)
Definition refresh (n2 : Z) (k : dct) (x : Z) : res dct :=
  if d_upd k =? 0 then Ok k else
  do m <- match_octet (d_node k) (d_upd k) x;
  if m =? 0 then
    do r <- add_octet n2 (d_node k) (d_c1 k) (d_upd k) x;
    Ok (mkD (fst r) (snd r) (d_c1 k) 0 (d_lm k))
  else Ok (set_upd k 0).

(** v42bis.c:277-285: the octets of the string, those like the escape code marked. *)
Fixpoint esc_octets (esc : Z) (w : list Z) : list Z :=
  match w with
  | [] => []
  | x :: w => if x =? esc then x :: 1 :: esc_octets ((esc + 51) mod 256) w else x :: esc_octets esc w
  end.
(** v42bis.c:280-284, 290-294, 677-681: the escape code after the string. *)
Fixpoint esc_after (esc : Z) (w : list Z) : Z :=
  match w with
  | [] => esc
  | x :: w => esc_after (if x =? esc then (esc + 51) mod 256 else esc) w
  end.
(** v42bis.c:296-306. *)
Fixpoint step_up (fuel : nat) (s : vst) (code : Z) : res (vst * list Z) :=
  if code <? v_c3 s then Ok (s, []) else
  match fuel with
  | O => UB
  | S f =>
    let (s, o) := push_code s 2 in
    do r <- step_up f (set_width s (v_c2 s + 1) ((v_c3 s * 2) mod 65536)) code;
    let (s, p) := (r : vst * list Z) in Ok (s, o ++ p)
  end.
(** v42bis.c:268-312 [send_encoded_data]. *)
Definition send_encoded (s : vst) (code : Z) : res (vst * list Z) :=
  let w := v_str s in
  let s := set_perf s ((v_perf s + (v_c2 s - v_perf s * zlen w * 8 / 2048)) mod 65536) in
  if v_tr s then Ok (set_str (set_esc s (esc_after (v_esc s) w)) [], esc_octets (v_esc s) w)
  else
    do r <- step_up 16 (set_esc s (esc_after (v_esc s) w)) code;
    let (s, o) := (r : vst * list Z) in
    let (s, p) := push_code s code in Ok (set_str s [], o ++ p).

(** v42bis.c:325-330, 348-353. *)
Definition send_rest (s : vst) : res (vst * list Z) :=
  if d_lm (v_d s) =? 0 then Ok (s, []) else
  do r <- send_encoded (set_d s (set_upd (v_d s) (d_lm (v_d s)))) (d_lm (v_d s));
  let (s, o) := (r : vst * list Z) in Ok (set_d s (set_lm (v_d s) 0), o).
(** v42bis.c:315-335 [go_compressed]. *)
Definition go_compressed (s : vst) : res (vst * list Z) :=
  if negb (v_tr s) then Ok (s, []) else
  do r <- send_rest s;
  let (s, o) := (r : vst * list Z) in Ok (set_tr (set_bits s 0 (v_bc s)) false, o ++ [v_esc s; 0]).
(** v42bis.c:338-358 [go_transparent]. *)
Definition go_transparent (s : vst) : res (vst * list Z) :=
  if v_tr s then Ok (s, []) else
  do r <- send_rest s;
  let (s, o) := (r : vst * list Z) in
  let (s, p) := push_code (set_d s (set_la (v_d s) 0)) 0 in
  let (s, q) := push_align s in Ok (set_tr s true, o ++ p ++ q).
(** v42bis.c:361-397 [monitor_for_mode_change]. *)
Definition monitor (s : vst) : res (vst * list Z) :=
  if v_tr s then if v_perf s <? 2048 - 11 then go_compressed s else Ok (s, [])
  else if 2048 <? v_perf s then go_transparent s else Ok (s, []).

(** v42bis.c:449-479: the longest match; what is left of the octets is the last component. *)
Fixpoint matching (n7 : Z) (s : vst) (buf : list Z) : res (vst * list Z * list Z) :=
  match buf with
  | [] => Ok (s, [], [])
  | x :: rest =>
    let k := v_d s in
    do code <- match_octet (d_node k) (d_lm k) x;
    if code =? 0 then
      do r <- send_encoded (set_d s (set_upd k (d_lm k))) (d_lm k);
      let (s, o) := (r : vst * list Z) in Ok (set_d s (set_lm (v_d s) 0), o, buf)
    else if code =? d_la k then
      do r <- send_encoded (set_d s (set_la k 0)) (d_lm k);
      let (s, o) := (r : vst * list Z) in Ok (set_d s (set_lm (v_d s) 0), o, buf)
    else
      need (zlen (v_str s) <? 250)
        (let s := set_str (set_d s (set_lm k code)) (v_str s ++ [x]) in
         if zlen (v_str s) =? n7 then
           do r <- send_encoded s code;
           let (s, o) := (r : vst * list Z) in Ok (set_d s (set_lm (v_d s) 0), o, rest)
         else matching n7 s rest)
  end.
(** v42bis.c:426-483 [v42bis_compress] when compression is on. *)
Fixpoint compress_loop (fuel : nat) (n2 n7 : Z) (s : vst) (buf : list Z) : res (vst * list Z) :=
  match buf with
  | [] => Ok (s, [])
  | x :: _ =>
    match fuel with
    | O => UB
    | S f =>
      do k <- refresh n2 (v_d s) x;
      do r <- matching n7 (set_d s k) buf;
      let '(s, o, rest) := (r : vst * list Z * list Z) in
      do r <- monitor s;
      let (s, p) := (r : vst * list Z) in
      do r <- compress_loop f n2 n7 s rest;
      let (s, q) := (r : vst * list Z) in Ok (s, o ++ p ++ q)
    end
  end.
(** v42bis.c:486-510 [v42bis_compress_flush]; [None] when it returns before it hands out the octets that are
    waiting (line 492). *)
Definition compress_flush (s : vst) : res (option (list Z)) :=
  if negb (d_upd (v_d s) =? 0) then Ok None else
  do r <- (if d_lm (v_d s) =? 0 then Ok (s, []) else send_encoded s (d_lm (v_d s)));
  let (s, o) := (r : vst * list Z) in
  if v_tr s then Ok (Some o)
  else let (s, p) := push_code s 1 in let (s, q) := push_align s in Ok (Some (o ++ p ++ q)).
(** The octets that get to the handler from one N-PDU: those of the last portion only if they are flushed (the
    buffer in between takes 1024, v42bis.c:86-92). *)
Definition compress (n2 n7 : Z) (data : list Z) : res (list Z) :=
  do r <- compress_loop (length data) n2 n7 init data;
  let (s, o) := (r : vst * list Z) in
  do p <- compress_flush s;
  match p with
  | Some p => Ok (o ++ p)
  | None => Ok (slice 0 (Z.to_nat (zlen o / 1024 * 1024)) o)
  end.

(** v42bis.c:249-265 [expand_codeword_to_string]: along the parents; [UB] when there is no end. *)
Fixpoint spell_out (fuel : nat) (d : Z -> node) (p : Z) : res (list Z) :=
  if p =? 0 then Ok [] else
  match fuel with
  | O => UB
  | S f => need (p <? 4096) (do w <- spell_out f d (n_par (d p)); Ok (w ++ [n_oct (d p)]))
  end.
(** v42bis.c:578-612: one pass of the loop; the last component is [yyy]. *)
Definition one_try (n2 n7 : Z) (s : vst) (x : Z) : res (vst * list Z * bool) :=
  do k <- refresh n2 (v_d s) x;
  do code <- match_octet (d_node k) (d_lm k) x;
  if code =? 0 then Ok (set_str (set_d s (set_lm (set_upd k (d_lm k)) 0)) [], v_str s, true)
  else if code =? d_la k then Ok (set_str (set_d s (set_lm (set_la k 0) 0)) [], v_str s, true)
  else
    need (zlen (v_str s) <? 250)
      (let w := v_str s ++ [x] in
       if zlen w =? n7 then Ok (set_str (set_d s (set_lm k 0)) [], w, false)
       else Ok (set_str (set_d s (set_lm k code)) w, [], false)).
(** v42bis.c:577-612; the flag tells whether the octet has been used (line 609). *)
Definition two_tries (n2 n7 : Z) (s : vst) (x : Z) : res (vst * list Z * bool) :=
  do r <- one_try n2 n7 s x;
  let '(s, o, again) := (r : vst * list Z * bool) in
  if again then
    do r <- one_try n2 n7 s x;
    let '(s, p, again) := (r : vst * list Z * bool) in Ok (s, o ++ p, negb again)
  else Ok (s, o, true).
(** v42bis.c:617-621: octets until there are enough bits. *)
Fixpoint fill (c2 : Z) (bb bc : Z) (inp : list Z) : res (Z * Z * list Z) :=
  if c2 <=? bc then Ok (bb, bc, inp) else
  match inp with
  | [] => Ok (bb, bc, [])
  | x :: r => need (bc <? 24) (fill c2 (Z.lor bb (Z.shiftl x bc)) (bc + 8) r)
  end.
(** v42bis.c:657-682: a codeword that is not a control code. *)
Definition codeword (n2 n7 : Z) (s : vst) (code : Z) : res (vst * list Z) :=
  let k := v_d s in
  if code =? d_c1 k then Err EINVAL else
  do w <- spell_out (Z.to_nat 4096) (d_node k) code;
  let w := v_str s ++ w in
  need (zlen w <=? 250)
    (do k <- (if d_upd k =? 0 then Ok k else
              let ch := nth 0 w 0 in
              do p <- match_octet (d_node k) (d_upd k) ch;
              if p =? 0 then
                do r <- add_octet n2 (d_node k) (d_c1 k) (d_upd k) ch;
                if code =? snd r then Err EINVAL else Ok (mkD (fst r) (snd r) (d_c1 k) (d_upd k) (d_lm k))
              else if p =? d_la k then Ok (set_la k 0) else Ok k);
     let k := set_upd k (if zlen w =? n7 then 0 else code) in
     Ok (set_str (set_esc (set_d s k) (esc_after (v_esc s) w)) [], w)).
(** v42bis.c:533-683: one turn of the loop; the octets left and those handed out. *)
Definition dec_step (n2 n7 : Z) (s : vst) (inp : list Z) : res (vst * list Z * list Z) :=
  match inp with
  | [] => Ok (s, [], [])
  | x :: rest =>
    if v_tr s then
      let use s x :=
        do r <- two_tries n2 n7 s x;
        let '(s, o, used) := (r : vst * list Z * bool) in Ok (s, (if used : bool then rest else inp), o) in
      if v_escd s then
        let s := set_escd s false in
        if x =? 0 then
          Ok (set_str (set_d (set_tr s false) (set_lm (set_upd (v_d s) (d_lm (v_d s))) 0)) [], rest, v_str s)
        else if x =? 1 then use (set_esc s ((v_esc s + 51) mod 256)) (v_esc s)
        else if x =? 2 then Ok (init, rest, v_str s)
        else Err EINVAL
      else if x =? v_esc s then Ok (set_escd s true, rest, [])
      else use s x
    else
      do r <- fill (v_c2 s) (v_bb s) (v_bc s) inp;
      let '(bb, bc, rest) := (r : Z * Z * list Z) in
      if bc <? v_c2 s then Ok (set_bits s bb bc, rest, []) else
      need (v_c2 s <? 31)
        (let code := Z.land bb (Z.shiftl 1 (v_c2 s) - 1) mod 65536 in
         let s := set_bits s (Z.shiftr bb (v_c2 s)) (bc - v_c2 s) in
         if code =? 0 then
           Ok (set_tr (set_d (set_bits s (v_bb s) 0) (set_la (set_lm (v_d s) 0) 0)) true, rest, [])
         else if code =? 1 then Ok (set_bits s (v_bb s) 0, rest, [])
         else if code =? 2 then
           let s := set_width s (v_c2 s + 1) ((v_c3 s * 2) mod 65536) in
           if Z.shiftr n2 3 <? v_c2 s then Err EINVAL else Ok (s, rest, [])
         else
           do r <- codeword n2 n7 s code;
           let (s, o) := (r : vst * list Z) in Ok (s, rest, o))
  end.
(** v42bis.c:513-686 [v42bis_decompress] when compression is on; an error is -1, for which
    [v42bis_expand_unitdata] returns -EINVAL. *)
Fixpoint dec_loop (fuel : nat) (n2 n7 : Z) (s : vst) (inp : list Z) : res (vst * list Z) :=
  match inp with
  | [] => Ok (s, [])
  | _ :: _ =>
    match fuel with
    | O => UB
    | S f =>
      do r <- dec_step n2 n7 s inp;
      let '(s, rest, o) := (r : vst * list Z * list Z) in
      do r <- dec_loop f n2 n7 s rest;
      let (s, p) := (r : vst * list Z) in Ok (s, o ++ p)
    end
  end.
(** v42bis.c:513-700 [v42bis_decompress] and [v42bis_decompress_flush]. *)
Definition decompress (n2 n7 : Z) (inp : list Z) : res (list Z) :=
  do r <- dec_loop (length inp) n2 n7 init inp;
  let (s, o) := (r : vst * list Z) in Ok (o ++ v_str s).

(** sndcp_dcomp.c:145-210 [v42bis_compress_unitdata], v42bis.c:743: the N-PDU as it is sent and [pcomp_index];
    the memory of line 174 is ten times the N-PDU. *)
Definition compress_unitdata (p0 n2 n7 : Z) (data : list Z) : res (list Z * Z) :=
  if (zlen data <? 100) || (Z.land p0 2 =? 0) then Ok (data, 0) else
  do o <- compress n2 n7 data;
  need (zlen o <=? zlen data * 10) (if zlen data <=? zlen o then Ok (data, 0) else Ok (o, 1)).
(** sndcp_dcomp.c:213-247 [v42bis_expand_unitdata], v42bis.c:744: [room] is the size of the caller's memory, in
    which the N-PDU is to be put (line 234). *)
Definition expand_unitdata (p0 n2 n7 room : Z) (data : list Z) (idx : Z) : res (list Z) :=
  if idx =? 0 then Ok data else
  do o <- (if Z.land p0 1 =? 0 then Ok data else decompress n2 n7 data);
  need (zlen o <=? room) (Ok o).
