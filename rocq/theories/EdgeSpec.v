(** RFC 8200, section 4.4: a routing header is 8 bytes followed by as many groups of 8 bytes as its second
    byte says; what comes after is the next header. *)
From Verif Require Import Go.
Definition routing_header (next n type left : Z) (data opt rest : bytes) : bytes := next :: n :: type :: left :: data ++ opt ++ rest.
Definition well_formed (n : Z) (data opt : bytes) : Prop := 0 <= n <= 255 /\ zlen data = 4 /\ zlen opt = 8 * n.
