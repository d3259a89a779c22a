(** What a downlink control block that is encoded and decoded again is to give back (C121). *)
From Coq Require Import ZArith List Bool Lia.
From Verif Require Import Lib.Base Csn1.Csn1Model Csn1.Csn1DlModel Csn1.Csn1DnModel Csn1.Csn1Round.
Import ListNotations.
Open Scope Z_scope.

(** A control block whose header values fit their fields. *)
Definition header_fits (h : dn_hdr) : Prop :=
  (n_pt h = 1 \/ n_pt h = 2) /\ 0 <= n_rrbp h < 4 /\ 0 <= n_sp h < 2 /\ 0 <= n_usf h < 8 /\
  0 <= n_rbsn h < 2 /\ 0 <= n_rti h < 32 /\ 0 <= n_fs h < 2 /\ 0 <= n_ac h < 2 /\
  0 <= n_pr h < 4 /\ 0 <= n_tfi h < 32 /\ 0 <= n_d h < 2 /\
  0 <= n_rbsne h < 8 /\ 0 <= n_fse h < 2 /\ 0 <= n_spare h < 16.
(** The header as it is read: the optional octets are there for payload type 2 (the first), AC = 1 (the second), RBSN = 1 and
    FS = 0 (the third). *)
Definition as_read (h : dn_hdr) : dl_hdr :=
  let o := n_pt h =? 2 in
  mkdh (n_pt h) (n_rrbp h) (n_sp h) (n_usf h)
    (if o then Some (n_rbsn h, n_rti h, n_fs h, n_ac h) else None)
    (if o && (n_ac h =? 1) then Some (n_pr h, n_tfi h, n_d h) else None)
    (if o && (n_rbsn h =? 1) && (n_fs h =? 0) then Some (n_rbsne h, n_fse h, n_spare h) else None).
(** The octets of the header. *)
Definition header_octets (h : dn_hdr) : Z :=
  if n_pt h =? 2 then 2 + (if n_ac h =? 1 then 1 else 0) + (if (n_rbsn h =? 1) && (n_fs h =? 0) then 1 else 0) else 1.
(** The octets of the structure that the message carries, when every value fits its field and no entry is used on which
    the encoder and the decoder do not agree ([live]). *)
Definition carried_dl (h : dn_hdr) (m : mem) : option (list Z) :=
  match dl_table (m 0) with
  | Some (d, sz) => live m true sz 0 d run_mode (184 - 8 * header_octets h) []
  | None => None
  end.
