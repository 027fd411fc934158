(** Packets of frames, independent of the code (the layouts are the comments of net/sec, net/srpc,
    net/l4): a frame is a type byte and a body; padding, data and call frames start with a 16-bit
    length that counts itself and what follows, a signature has 8 bytes, an opening 25 with the
    service at offset 2, little endian. *)
From Verif Require Import Go BinSpec.
Inductive wf_frame (known : Z -> bool) : bytes -> Prop :=
| wf_padding body : 2 + zlen body < 65536 -> wf_frame known (5 :: be_digits 2 (2 + zlen body) ++ body)
| wf_data body : 2 + zlen body < 65536 -> wf_frame known (9 :: be_digits 2 (2 + zlen body) ++ body)
| wf_call body : 2 + zlen body < 65536 -> wf_frame known (6 :: le_digits 2 (2 + zlen body) ++ body)
| wf_sign body : zlen body = 8 -> wf_frame known (11 :: body)
| wf_open a id b : zlen a = 2 -> 0 <= id < 2 ^ 64 -> known id = true -> zlen b = 15 ->
    wf_frame known (7 :: a ++ le_digits 8 id ++ b).
Inductive wf_packet (known : Z -> bool) : bytes -> Prop :=
| wp_nil : wf_packet known []
| wp_cons f r : wf_frame known f -> wf_packet known r -> wf_packet known (f ++ r).
