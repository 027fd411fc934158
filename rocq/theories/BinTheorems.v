(** Property theorems C01, C02 (package binary). *)
From Verif Require Import Go GoFacts BinModel BinSpec BinProofs.

Theorem C01_big_endian_16 : codec_ok 2 (be_digits 2) be_value bele_Uint16 bele_PutUint16.
Proof. exact bele16_ok. Qed.
Print Assumptions C01_big_endian_16.

Theorem C01_big_endian_32 : codec_ok 4 (be_digits 4) be_value bele_Uint32 bele_PutUint32.
Proof. exact bele32_ok. Qed.
Print Assumptions C01_big_endian_32.

Theorem C01_big_endian_64 : codec_ok 8 (be_digits 8) be_value bele_Uint64 bele_PutUint64.
Proof. exact bele64_ok. Qed.
Print Assumptions C01_big_endian_64.

Theorem C01_little_endian_16 : codec_ok 2 (le_digits 2) le_value lele_Uint16 lele_PutUint16.
Proof. exact lele16_ok. Qed.
Print Assumptions C01_little_endian_16.

Theorem C01_little_endian_32 : codec_ok 4 (le_digits 4) le_value lele_Uint32 lele_PutUint32.
Proof. exact lele32_ok. Qed.
Print Assumptions C01_little_endian_32.

Theorem C01_little_endian_64 : codec_ok 8 (le_digits 8) le_value lele_Uint64 lele_PutUint64.
Proof. exact lele64_ok. Qed.
Print Assumptions C01_little_endian_64.

(** A concrete use: the field is written in network order in front of other bytes. *)
Example C01_example : bele_PutUint32 [9; 9; 9; 9; 7; 8] 305419896 = Ok [18; 52; 86; 120; 7; 8].
Proof. vm_compute. reflexivity. Qed.

(** One-byte helpers: what is put is read back, the rest of the buffer stays. *)
Theorem C01_bool_and_byte : forall buf, (1 <= length buf)%nat ->
  (forall v, exists buf', bin_PutBool buf v = Ok buf' /\ bin_Bool buf' = Ok v /\ tl buf' = tl buf) /\
  (forall v, exists buf', bin_PutUint8 buf v = Ok buf' /\ bin_Uint8 buf' = Ok v /\ tl buf' = tl buf).
Proof. exact bool_byte_ok. Qed.
Print Assumptions C01_bool_and_byte.

(** Every non-zero byte reads as true and only zero as false. *)
Theorem C01_bool_any_byte : forall b rest, bin_Bool (b :: rest) = Ok true <-> b <> 0.
Proof.
  intros b rest. unfold bin_Bool. erewrite idx_ok; [|reflexivity|reflexivity]. cbn [bind].
  destruct (Z.eqb_spec b 0); cbn [negb]; split; congruence.
Qed.
Print Assumptions C01_bool_any_byte.

(** On a big-endian host the type called BigEndian writes and reads least
    significant byte first, and the one called LittleEndian most significant first. *)
Theorem C02_big_endian_16_on_be_host : codec_ok 2 (le_digits 2) le_value bebe_Uint16 bebe_PutUint16.
Proof. exact bebe16_ok. Qed.
Print Assumptions C02_big_endian_16_on_be_host.

Theorem C02_big_endian_32_on_be_host : codec_ok 4 (le_digits 4) le_value bebe_Uint32 bebe_PutUint32.
Proof. exact bebe32_ok. Qed.
Print Assumptions C02_big_endian_32_on_be_host.

Theorem C02_big_endian_64_on_be_host : codec_ok 8 (le_digits 8) le_value bebe_Uint64 bebe_PutUint64.
Proof. exact bebe64_ok. Qed.
Print Assumptions C02_big_endian_64_on_be_host.

Theorem C02_little_endian_16_on_be_host : codec_ok 2 (be_digits 2) be_value lebe_Uint16 lebe_PutUint16.
Proof. exact lebe16_ok. Qed.
Print Assumptions C02_little_endian_16_on_be_host.

Theorem C02_little_endian_32_on_be_host : codec_ok 4 (be_digits 4) be_value lebe_Uint32 lebe_PutUint32.
Proof. exact lebe32_ok. Qed.
Print Assumptions C02_little_endian_32_on_be_host.

Theorem C02_little_endian_64_on_be_host : codec_ok 8 (be_digits 8) be_value lebe_Uint64 lebe_PutUint64.
Proof. exact lebe64_ok. Qed.
Print Assumptions C02_little_endian_64_on_be_host.

(** The full property fails: a value written on a little-endian host is read
    differently on a big-endian host. *)
Theorem C02_host_independence_refuted :
  exists v buf, bele_PutUint16 [0; 0] v = Ok buf /\ bebe_Uint16 buf <> Ok v.
Proof. exact host_refuted. Qed.
Print Assumptions C02_host_independence_refuted.

(** Exactly which values survive the trip between the two hosts: those whose
    byte string reads the same in both directions. *)
Theorem C02_interop_exact_partial : forall buf v,
  ((2 <= length buf)%nat -> 0 <= v < 256 ^ 2 -> exists buf', bele_PutUint16 buf v = Ok buf' /\
     (bebe_Uint16 buf' = Ok v <-> be_digits 2 v = le_digits 2 v)) /\
  ((4 <= length buf)%nat -> 0 <= v < 256 ^ 4 -> exists buf', bele_PutUint32 buf v = Ok buf' /\
     (bebe_Uint32 buf' = Ok v <-> be_digits 4 v = le_digits 4 v)) /\
  ((8 <= length buf)%nat -> 0 <= v < 256 ^ 8 -> exists buf', bele_PutUint64 buf v = Ok buf' /\
     (bebe_Uint64 buf' = Ok v <-> be_digits 8 v = le_digits 8 v)) /\
  ((2 <= length buf)%nat -> 0 <= v < 256 ^ 2 -> exists buf', lele_PutUint16 buf v = Ok buf' /\
     (lebe_Uint16 buf' = Ok v <-> be_digits 2 v = le_digits 2 v)) /\
  ((4 <= length buf)%nat -> 0 <= v < 256 ^ 4 -> exists buf', lele_PutUint32 buf v = Ok buf' /\
     (lebe_Uint32 buf' = Ok v <-> be_digits 4 v = le_digits 4 v)) /\
  ((8 <= length buf)%nat -> 0 <= v < 256 ^ 8 -> exists buf', lele_PutUint64 buf v = Ok buf' /\
     (lebe_Uint64 buf' = Ok v <-> be_digits 8 v = le_digits 8 v)).
Proof. exact interop_exact. Qed.
Print Assumptions C02_interop_exact_partial.

Example C02_example : be_digits 2 257 = le_digits 2 257 /\ be_digits 2 258 <> le_digits 2 258.
Proof. split; [reflexivity|vm_compute; discriminate]. Qed.
