(** Ciphered UI frames as in 3GPP TS 44.064 6.3.5.6 and 8.9: information field and FCS are added, modulo 2, to the output of the algorithm. *)
From Verif.Lib Require Import Base.

Definition add2 (a b : list Z) : list Z := map (fun p => Z.lxor (fst p) (snd p)) (combine a b).
Definition le24 (f : Z) : list Z := [f mod 256; f / 256 mod 256; f / 65536 mod 256].
(** What the FCS covers: header and information, or of these the first 3 + N202 octets when the information is not protected. *)
Definition covered (prot : bool) (hdr info : list Z) : list Z := if prot then hdr ++ info else firstn 7 (hdr ++ info).
Definition plain (crc : list Z -> Z) (prot : bool) (hdr info : list Z) : list Z := hdr ++ info ++ le24 (crc (covered prot hdr info)).
Definition ciphered (crc : list Z -> Z) (prot : bool) (hdr info gamma : list Z) : list Z :=
  hdr ++ add2 (info ++ le24 (crc (covered prot hdr info))) gamma.
