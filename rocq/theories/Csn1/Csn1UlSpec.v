(** What 3GPP TS 44.060 prescribes for the control messages that the mobile station sends (section 11.2), written down
    independently of the CSN.1 tables of the code. *)
From Coq Require Import ZArith List Bool.
From Verif Require Import Lib.Base.
Import ListNotations.
Open Scope Z_scope.

(** The [n] bits of a number, most significant first. *)
Definition msb (v : Z) (n : nat) : list bool := map (fun k => Z.testbit v (Z.of_nat (n - 1 - k))) (seq 0 n).
(** Spare padding (11, 44.060): a null bit, and then up to the end of the block the bits that the filler octet 0x2b has at
    their positions. *)
Definition pad (p : nat) : list bool := false :: map (fun i => Z.testbit 0x2b (Z.of_nat (7 - i mod 8))) (seq (p + 1) (183 - p)).
Definition padded (b : list bool) : list bool := b ++ pad (length b).
(** 10.3.2 and 11.2.0.2: payload type 1 (control block without optional octets), spare, R, message type. *)
Definition head (mt : Z) : list bool := msb 1 2 ++ msb 0 5 ++ msb 0 1 ++ msb mt 6.

(** 11.2.2 PACKET CONTROL ACKNOWLEDGEMENT: TLLI, CTRL_ACK. *)
Definition control_ack_bits (tlli : Z) : list bool := padded (head 1 ++ msb tlli 32 ++ msb 0 2 ++ [false]).
(** 11.2.8b PACKET UPLINK DUMMY CONTROL BLOCK: TLLI. *)
Definition dummy_bits (tlli : Z) : list bool := padded (head 3 ++ msb tlli 32).
(** 11.2.16 PACKET RESOURCE REQUEST: the access type, the TLLI, an empty radio access capability (access technology type
    and the 47 bits of its empty contents), the channel request description (peak throughput class 1, radio priority 4,
    acknowledged mode), no change mark, a C value, SIGN_VAR unless two phase access is asked for, no interference levels. *)
Definition resource_request_bits (tlli octets acc : Z) : list bool :=
  padded (head 5 ++ [true] ++ msb acc 2 ++ [true] ++ msb tlli 32 ++
          [true] ++ msb 0 4 ++ msb 47 7 ++ repeat false 47 ++ [false] ++
          msb 1 4 ++ msb 3 2 ++ msb 0 1 ++ msb 0 1 ++ msb octets 16 ++
          [false] ++ msb 0 6 ++ (if acc =? 0 then [false] else true :: msb 0 6) ++ repeat false 8 ++ [false]).
(** 11.2.6 PACKET DOWNLINK ACK/NACK: the TFI, final ack indication, starting sequence number and bitmap; the channel
    request description (radio priority and octets) if there is one; a channel quality report without interference levels. *)
Definition downlink_ack_nack_bits (tfi : Z) (final : bool) (ssn : Z) (rbb : list Z) (req : option (Z * Z)) : list bool :=
  padded (head 2 ++ msb tfi 5 ++ [final] ++ msb ssn 7 ++ concat (map (fun o => msb o 8) rbb) ++
          match req with
          | None => [false]
          | Some (prio, octets) => [true] ++ msb 0 4 ++ msb prio 2 ++ msb 0 1 ++ msb 0 1 ++ msb octets 16
          end ++
          msb 0 6 ++ msb 0 3 ++ msb 0 6 ++ repeat false 8 ++ [false]).

(** A block carries [b]: 23 octets with these bits, the most significant bit of an octet first. *)
Definition bit_of (l : list Z) (i : nat) : bool := Z.testbit (nth (i / 8) l 0) (Z.of_nat (7 - i mod 8)).
Definition carries (l : list Z) (b : list bool) : Prop :=
  length l = 23%nat /\ bytes l /\ map (bit_of l) (seq 0 184) = b.
