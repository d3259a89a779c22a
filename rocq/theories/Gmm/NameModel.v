(** Model of the network names of GMM INFORMATION (src/gmm/misc.c, src/gmm/gmm.c). *)
From Coq Require Import ZArith List Bool.
From Verif Require Import Lib.Base Lib.Outcome.
Import ListNotations.
Open Scope Z_scope.

(** gmm_pdu.c:146-175: the tags of the table, in the order of the source (values of libosmocore's gsm_04_08_gprs.h). *)
Definition gmm_tags : list Z :=
  [0x08; 0x0e; 0x10; 0x17; 0x18; 0x19; 0x1a; 0x1b; 0x21; 0x22; 0x23; 0x25; 0x26; 0x27; 0x28; 0x29; 0x2a; 0x30; 0x31; 0x32; 0x33;
   0x35; 0x3a; 0x58; 0x5d; 0x0c].
(** libosmocore gsm_04_08.h: GSM48_IE_GSM_NAME_FULL, GSM48_IE_GSM_NAME_SHORT. *)
Definition NAME_FULL : Z := 0x43.
Definition NAME_SHORT : Z := 0x45.
Definition E_INVAL : Z := 22.
Definition E_NOTSUP : Z := 95.

(** The number that octets hold, and the characters of seven bits in it (libosmocore's gsm_7bit_decode_n takes them from there). *)
Fixpoint number_of (l : list Z) : Z := match l with [] => 0 | x :: r => x + 256 * number_of r end.
Fixpoint characters (n : nat) (v : Z) : list Z := match n with O => [] | S n => v mod 128 :: characters n (v / 128) end.

Section Names.
(** libosmocore's tlv_parse with the table above: the value of an element, by tag. *)
Variable tlv : list Z -> option (Z -> option (list Z)).
(** What gsm_7bit_decode_n makes of characters, for storage of so many octets. *)
Variable text : Z -> list Z -> list Z.

(** misc.c:88-108 [gprs_gmm_decode_network_name]: return value and text.  [lv]: the length and what is readable after it. *)
Definition decode_name (size : Z) (lv : list Z) : res (Z * list Z) :=
  match lv with
  | [] => UB
  | in_len :: r =>
      if in_len <? 1 then Ok (- E_INVAL, [])
      else match r with
           | [] => UB
           | h :: data =>
               if negb (Z.land h 0x70 =? 0) then Ok (- E_NOTSUP, [])
               else let padding := Z.land h 0x03 in
                    let len := Z.quot ((in_len - 1) * 8 - padding) 7 in
                    if len <=? 0 then Ok (0, [])
                    else if zlen data <? (7 * len + 7) / 8 then UB
                    else Ok (len, text size (characters (Z.to_nat len) (number_of data)))
           end
  end.

(** gmm_private.h:98-99. *)
Record names := mkNames { name_long : list Z; name_short : list Z }.
(** gmm.c:1444-1450: one of the two elements; the length octet stands before the value. *)
Definition rx_name (p : Z -> option (list Z)) (tag : Z) (old : list Z) : res (list Z) :=
  match p tag with
  | None => Ok old
  | Some v => do x <- decode_name 32 (zlen v :: v); Ok (snd x)
  end.
(** gmm.c:1429-1453 [gprs_gmm_rx_information]: return value and names. *)
Definition rx_info (pdu : list Z) (n : names) : res (Z * names) :=
  if zlen pdu <=? 2 then Ok (0, n)
  else match tlv (skipn 2 pdu) with
       | None => Ok (- E_INVAL, n)
       | Some p =>
           do l <- rx_name p NAME_FULL (name_long n);
           do s <- rx_name p NAME_SHORT (name_short n);
           Ok (0, mkNames l s)
       end.
End Names.
