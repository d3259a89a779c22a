(** Model of src/rlcmac/codel.c.  Points in time and durations are whole nanoseconds (struct timespec with the macros of
    timer_compat.h, normalised); the clock never shows zero. *)
From Verif.Lib Require Import Base Outcome.

(** codel.c:29-45 [inv_sqrt_tab]: 256 / sqrt(x), limited to 255. *)
Definition inv_sqrt_tab : list Z :=
  [255; 255; 181; 147; 128; 114; 104; 96; 90; 85; 80; 77; 73; 71; 68; 66; 64; 62; 60; 58; 57; 55; 54; 53;
   52; 51; 50; 49; 48; 47; 46; 45; 45; 44; 43; 43; 42; 42; 41; 40; 40; 39; 39; 39; 38; 38; 37; 37;
   36; 36; 36; 35; 35; 35; 34; 34; 34; 33; 33; 33; 33; 32; 32; 32; 32; 31; 31; 31; 31; 30; 30; 30;
   30; 29; 29; 29; 29; 29; 28; 28; 28; 28; 28; 28; 27; 27; 27; 27; 27; 27; 26; 26; 26; 26; 26; 26;
   26; 25; 25; 25; 25; 25; 25; 25; 25; 24; 24; 24; 24; 24; 24; 24; 24; 24; 23; 23; 23; 23; 23; 23;
   23; 23; 23; 23; 22; 22; 22; 22; 22; 22; 22; 22; 22; 22; 22; 22; 21; 21; 21; 21; 21; 21; 21; 21;
   21; 21; 21; 21; 21; 20; 20; 20; 20; 20; 20; 20; 20; 20; 20; 20; 20; 20; 20; 20; 19; 19; 19; 19;
   19; 19; 19; 19; 19; 19; 19; 19; 19; 19; 19; 19; 19; 19; 18; 18; 18; 18; 18; 18; 18; 18; 18; 18;
   18; 18; 18; 18; 18; 18; 18; 18; 18; 18; 18; 17; 17; 17; 17; 17; 17; 17; 17; 17; 17; 17; 17; 17;
   17; 17; 17; 17; 17; 17; 17; 17; 17; 17; 17].

(** include/osmocom/gprs/rlcmac/codel.h:30-42. *)
Definition DEFAULT_INTERVAL_MS : Z := 100.
Definition DEFAULT_MAXPACKET : Z := 512.
Record codel := mkCodel { dropping : bool; count : Z; first_above : Z; drop_next : Z; target : Z; interval : Z; maxpacket : Z }.

(** codel.c:27-63 [control_law]: the time to the next drop.  uint_fast32_t has 64 bits; div takes an int. *)
Definition control_law (count interval : Z) : Z :=
  let inv_sqrt := if zlen inv_sqrt_tab <=? count then 16 else nth (Z.to_nat count) inv_sqrt_tab 0 in
  let us := interval / 1000 * inv_sqrt / 256 in
  us * 1000.

(** codel.c:74-89 [gprs_codel_set_interval]. *)
Definition set_interval (st : codel) (ms : Z) : codel :=
  let ms := if ms <=? 0 then DEFAULT_INTERVAL_MS else ms in
  mkCodel (dropping st) (count st) (first_above st) (drop_next st) (ms * 13 / 256 * 1000000) (ms * 1000000) (maxpacket st).
(** codel.c:91-98 [gprs_codel_set_maxpacket]. *)
Definition set_maxpacket (st : codel) (n : Z) : codel :=
  mkCodel (dropping st) (count st) (first_above st) (drop_next st) (target st) (interval st) (if n <? 0 then DEFAULT_MAXPACKET else n).
(** codel.c:65-72 [gprs_codel_init]. *)
Definition codel_init : codel := set_maxpacket (set_interval (mkCodel false 0 0 0 0 0 0) (-1)) (-1).

(** codel.c:104-175 [gprs_codel_control]: the decision about a frame that was received at [recv]; [recv] is never
    NULL at the only caller (llc_queue.c:194).  [count] is an unsigned int. *)
Definition codel_control (st : codel) (recv now bytes : Z) : bool * codel :=
  let upd d c fa dn := mkCodel d c fa dn (target st) (interval st) (maxpacket st) in
  if (now - recv <? target st) || ((0 <=? bytes) && (bytes <=? maxpacket st)) then (false, upd false (count st) 0 (drop_next st)) else
  if first_above st =? 0 then (false, upd false (count st) (now + interval st) (drop_next st)) else
  if now <? first_above st then (false, upd false (count st) (first_above st) (drop_next st)) else
  if dropping st then
    if now <? drop_next st then (false, st) else
    let c := (count st + 1) mod 2 ^ 32 in
    (true, upd true c (first_above st) (drop_next st + control_law c (interval st)))
  else
    let in_drop_cycle := negb (drop_next st =? 0) && (now - drop_next st <? interval st) in
    let recently := in_drop_cycle || negb (now - first_above st <? interval st) in
    if negb recently then (false, st) else
    let c := if in_drop_cycle && (2 <? count st) then count st - 2 else 1 in
    (true, upd true c (first_above st) (now + control_law c (interval st))).
