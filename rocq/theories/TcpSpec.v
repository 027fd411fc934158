(** What TCP receivers do (RFC 9293), for comparison. *)
From Verif Require Import Go NetSpec.

(** The fields of a segment, as bits (see NetSpec). *)
Definition seq_no (g : bytes) : Z := field g 32 32.
Definition header_len (g : bytes) : Z := 4 * field g 96 4.
Definition payload (g : bytes) : bytes := skipn (Z.to_nat (header_len g)) g.
Definition syn (g : bytes) : bool := bit g 110.
Definition ack (g : bytes) : bool := bit g 107.
(** Header and payload present *)
Definition whole (g : bytes) : Prop := wf_bytes g /\ 20 <= zlen g /\ header_len g <= zlen g.

(** Segments that follow each other from sequence number [n] (modulo 2^32) *)
Fixpoint consecutive (n : Z) (gs : list bytes) : Prop :=
  match gs with
  | [] => True
  | g :: gs => whole g /\ seq_no g = n /\ consecutive ((n + zlen (payload g)) mod 2 ^ 32) gs
  end.

(** TCP options: end of list, no-operation, or kind, length and data. *)
Inductive options : list (list Z) -> bytes -> Prop :=
| opts_nil : options [] []
| opts_end r : options [[0]] (0 :: r)
| opts_nop l r : options l r -> options ([1] :: l) (1 :: r)
| opts_other l k d r : 2 <= k -> zlen d <= 253 -> options l r ->
    options ((k :: 2 + zlen d :: d) :: l) (k :: 2 + zlen d :: d ++ r).
