(** Property theorems C13-C15. *)
From Verif Require Import Go BinSpec SyllabModel SyllabSpec SyllabProofs SyllabProofs2.
From Coq Require Import Permutation.
Local Open Scope Z_scope.

(** C13: any integer field, at any in-range offset, over any old content. *)
Theorem C13_field_round_trip : forall k p si v,
  inside p si (width k) -> fits k v ->
  exists p', set_field k p si v = Ok p' /\ get_field k p' si = Ok v /\
    same_outside (fun i => si <= i < si + width k) p p' /\
    region p' si (width k) = le_digits (Z.to_nat (width k)) v.
Proof. exact field_round_trip. Qed.
Print Assumptions C13_field_round_trip.

Example C13_case : inside [9; 9; 9; 9; 9; 9] 1 (width KInt32) /\ fits KInt32 (-2) /\
  SetInt32 [9; 9; 9; 9; 9; 9] 1 (-2) = Ok [9; 254; 255; 255; 255; 9] /\
  GetInt32 [9; 254; 255; 255; 255; 9] 1 = Ok (-2).
Proof. unfold inside; cbn [width fits zlen length]; repeat split; try (vm_compute; reflexivity); vm_compute; discriminate. Qed.

(** C13: out of range is a panic for both, never a wrong value. *)
Theorem C13_out_of_range : forall k p si v,
  0 <= si -> zlen p < si + width k -> si + width k <= 2 ^ 32 -> fits k v ->
  set_field k p si v = Panic /\ (wf_bytes p -> get_field k p si = Panic).
Proof. exact field_out_of_range. Qed.
Print Assumptions C13_out_of_range.

Example C13_out_case : SetUInt32 [1; 2; 3; 4] 1 7 = Panic /\ GetUInt32 [1; 2; 3; 4] 1 = Panic.
Proof. split; vm_compute; reflexivity. Qed.

(** C13: fields that do not overlap can be written in any order: same frame,
    every field readable, nothing else touched. *)
Theorem C13_any_order : forall fs gs p,
  Permutation fs gs ->
  Forall (fun f => match f with (k, si, v) => inside p si (width k) /\ fits k v end) fs ->
  all_apart fs ->
  exists p', set_fields p fs = Ok p' /\ set_fields p gs = Ok p' /\
    (forall k si v, In (k, si, v) fs -> get_field k p' si = Ok v) /\
    same_outside (fun i => exists k si v, In (k, si, v) fs /\ si <= i < si + width k) p p'.
Proof. exact set_fields_any_order. Qed.
Print Assumptions C13_any_order.

Example C13_any_order_case :
  all_apart [(KUInt16, 0, 258); (KInt8, 2, -1); (KUInt32, 3, 1)] /\
  set_fields (repeat 7 8) [(KUInt16, 0, 258); (KInt8, 2, -1); (KUInt32, 3, 1)]
    = set_fields (repeat 7 8) [(KUInt32, 3, 1); (KUInt16, 0, 258); (KInt8, 2, -1)] /\
  set_fields (repeat 7 8) [(KUInt16, 0, 258); (KInt8, 2, -1); (KUInt32, 3, 1)]
    = Ok [2; 1; 255; 1; 0; 0; 0; 7].
Proof.
  split; [|split; vm_compute; reflexivity].
  repeat constructor; unfold apart; cbn [width]; lia.
Qed.

(** C14: one dynamic field. *)
Theorem C14_field_round_trip : forall p v si ha,
  dval_ok v -> inside p si 8 -> zlen p < 2 ^ 32 ->
  0 <= ha -> ha + heap_size v <= zlen p -> apart si 8 ha (heap_size v) ->
  exists p', set_dval p v si ha = Ok (p', ha + heap_size v) /\ reads_back p' si v /\
    same_outside (fun i => si <= i < si + 8 \/ ha <= i < ha + heap_size v) p p'.
Proof. exact dyn_field. Qed.
Print Assumptions C14_field_round_trip.

(** C14: a record of any number of dynamic fields, threaded through the returned
    heap address: every field reads back, the final address is the first free
    heap byte, and no other byte (in particular no fixed-size field) changes. *)
Theorem C14_record_round_trip : forall fs p ha,
  Forall (fun f => dval_ok (snd f) /\ 0 <= fst f /\ fst f + 8 <= ha) fs ->
  slots_apart fs -> 0 <= ha -> zlen p < 2 ^ 32 -> ha + record_size fs <= zlen p ->
  exists p', set_record p fs ha = Ok (p', ha + record_size fs) /\
    (forall si v, In (si, v) fs -> reads_back p' si v) /\
    same_outside (fun i => ha <= i < ha + record_size fs \/
       exists si v, In (si, v) fs /\ si <= i < si + 8) p p'.
Proof. exact record_round_trip. Qed.
Print Assumptions C14_record_round_trip.

Definition record_example : list (Z * dval) :=
  [(0, DString (str "ab")); (16, DStrings [str "x"; []; str "yz"]); (8, DArray EInt16 [-1; 300])].
Example C14_case :
  slots_apart record_example /\ record_size record_example = 33 /\
  (exists p', set_record (repeat 255 60) record_example 24 = Ok (p', 57) /\
     GetString p' 0 = Ok (str "ab") /\ GetStringArray p' 16 = Ok [str "x"; []; str "yz"] /\
     GetTypedArray EInt16 p' 8 = Ok [-1; 300]).
Proof.
  split; [|split; [reflexivity|]].
  - repeat constructor; unfold apart; cbn [fst]; lia.
  - match goal with |- exists p', ?r = _ /\ _ =>
      let x := eval vm_compute in r in
      match x with Ok (?p, _) => exists p end end.
    repeat split; vm_compute; reflexivity.
Qed.

(** C15 is false for booleans on a reused frame: writing false over true reads true. *)
Theorem C15_bool_refuted : exists p p', SetBool p 0 false = Ok p' /\ GetBool p' 0 = Ok true.
Proof. exists [1], [1]. split; vm_compute; reflexivity. Qed.
Print Assumptions C15_bool_refuted.

(** C15, booleans, exactly: the value survives iff it is true or the old byte is not 1. *)
Theorem C15_bool_partial : forall p si old b,
  0 <= si < 2 ^ 32 -> idx p si = Ok old ->
  exists p', SetBool p si b = Ok p' /\
    (GetBool p' si = Ok b <-> (b = true \/ old <> 1)) /\
    same_outside (fun i => i = si) p p'.
Proof. exact bool_exact. Qed.
Print Assumptions C15_bool_partial.

Example C15_bool_case : SetBool [0] 0 false = Ok [0] /\ GetBool [0] 0 = Ok false /\
  SetBool [7] 0 true = Ok [1] /\ GetBool [1] 0 = Ok true.
Proof. repeat split; vm_compute; reflexivity. Qed.

(** C15, fixed arrays: SetArray puts the bytes in place, but GetFixedByteArray
    returns them only when there are none. *)
Theorem C15_fixed_array_partial : forall p si a,
  0 <= si -> si + zlen a <= zlen p -> zlen p < 2 ^ 32 ->
  exists p', SetArray p si a = Ok p' /\ region p' si (zlen a) = a /\
    same_outside (fun i => si <= i < si + zlen a) p p' /\
    (GetFixedByteArray p' si (zlen a) = Ok a <-> a = []).
Proof. exact fixed_array_written. Qed.
Print Assumptions C15_fixed_array_partial.

Example C15_fixed_array_case : SetArray [0; 0; 0] 1 [5; 6] = Ok [0; 5; 6] /\
  GetFixedByteArray [0; 5; 6] 1 2 = Ok [].
Proof. split; vm_compute; reflexivity. Qed.

(** C15, complex numbers: what comes back for every value, and a refutation. *)
Theorem C15_complex64_partial : forall p si re im o,
  inside p si 8 -> zlen p < 2 ^ 32 ->
  0 <= Qfloor re < 2 ^ 32 -> 0 <= Qfloor im < 2 ^ 32 ->
  is_byte o -> nth_error p (Z.to_nat (si + 7)) = Some o ->
  exists p', SetComplex64 p si re im = Ok p' /\
    GetComplex64 p' si =
      Ok (inject_Z (Qfloor re mod 2 ^ 24 + Qfloor im mod 2 ^ 8 * 2 ^ 24),
          inject_Z (Qfloor im / 2 ^ 8 + o * 2 ^ 24)).
Proof. exact complex64_exact. Qed.
Print Assumptions C15_complex64_partial.

Theorem C15_complex128_partial : forall p si re im o,
  inside p si 16 -> zlen p < 2 ^ 32 ->
  0 <= Qfloor re < 2 ^ 64 -> 0 <= Qfloor im < 2 ^ 64 ->
  is_byte o -> nth_error p (Z.to_nat (si + 15)) = Some o ->
  exists p', SetComplex128 p si re im = Ok p' /\
    GetComplex128 p' si =
      Ok (inject_Z (Qfloor re mod 2 ^ 56 + Qfloor im mod 2 ^ 8 * 2 ^ 56),
          inject_Z (Qfloor im / 2 ^ 8 + o * 2 ^ 56)).
Proof. exact complex128_exact. Qed.
Print Assumptions C15_complex128_partial.

Theorem C15_complex_refuted : exists p',
  SetComplex64 (repeat 0 8) 0 (inject_Z 1) (inject_Z 2) = Ok p' /\
  GetComplex64 p' 0 = Ok (inject_Z 33554433, inject_Z 0).
Proof. exists [1; 0; 0; 2; 0; 0; 0; 0]. split; vm_compute; reflexivity. Qed.
Print Assumptions C15_complex_refuted.

(** C15, floats: the fraction is lost, integers in range survive. *)
Theorem C15_float32_partial : forall p si x, inside p si 4 -> 0 <= Qfloor x < 2 ^ 32 ->
  exists p', SetFloat32 p si x = Ok p' /\ GetFloat32 p' si = Ok (inject_Z (Qfloor x)).
Proof. exact float32_exact. Qed.
Print Assumptions C15_float32_partial.
Theorem C15_float64_partial : forall p si x, inside p si 8 -> 0 <= Qfloor x < 2 ^ 64 ->
  exists p', SetFloat64 p si x = Ok p' /\ GetFloat64 p' si = Ok (inject_Z (Qfloor x)).
Proof. exact float64_exact. Qed.
Print Assumptions C15_float64_partial.
Example C15_float_case : inside (repeat 9 6) 1 4 /\ 0 <= Qfloor (7 # 2) < 2 ^ 32 /\ Qfloor (7 # 2) = 3 /\ inside (repeat 0 16) 0 16 /\ 0 <= Qfloor (inject_Z 6) < 2 ^ 64 /\
  nth_error (repeat 0 16) (Z.to_nat (0 + 15)) = Some 0.
Proof. repeat split; vm_compute; solve [reflexivity|discriminate]. Qed.
