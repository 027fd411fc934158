(** What a reader of the syllab API expects of fields, stated on buffer contents. *)
From Verif Require Import Go BinSpec SyllabModel.
From Coq Require Export QArith Qround.
Local Open Scope Z_scope.

(** The integer field types. *)
Inductive kind := KByte | KInt8 | KUInt8 | KInt16 | KUInt16 | KInt32 | KUInt32 | KInt64 | KUInt64.

Definition width (k : kind) : Z :=
  match k with
  | KByte | KInt8 | KUInt8 => 1
  | KInt16 | KUInt16 => 2
  | KInt32 | KUInt32 => 4
  | KInt64 | KUInt64 => 8
  end.

(** The values of the field's Go type. *)
Definition fits (k : kind) (v : Z) : Prop :=
  match k with
  | KByte | KUInt8 => 0 <= v < 2 ^ 8
  | KInt8 => - 2 ^ 7 <= v < 2 ^ 7
  | KUInt16 => 0 <= v < 2 ^ 16
  | KInt16 => - 2 ^ 15 <= v < 2 ^ 15
  | KUInt32 => 0 <= v < 2 ^ 32
  | KInt32 => - 2 ^ 31 <= v < 2 ^ 31
  | KUInt64 => 0 <= v < 2 ^ 64
  | KInt64 => - 2 ^ 63 <= v < 2 ^ 63
  end.

(** The API call for each type. *)
Definition set_field (k : kind) : bytes -> Z -> Z -> res bytes :=
  match k with
  | KByte => SetByte | KInt8 => SetInt8 | KUInt8 => SetUInt8
  | KInt16 => SetInt16 | KUInt16 => SetUInt16
  | KInt32 => SetInt32 | KUInt32 => SetUInt32
  | KInt64 => SetInt64 | KUInt64 => SetUInt64
  end.
Definition get_field (k : kind) : bytes -> Z -> res Z :=
  match k with
  | KByte => GetByte | KInt8 => GetInt8 | KUInt8 => GetUInt8
  | KInt16 => GetInt16 | KUInt16 => GetUInt16
  | KInt32 => GetInt32 | KUInt32 => GetUInt32
  | KInt64 => GetInt64 | KUInt64 => GetUInt64
  end.

(** [n] bytes of [p] starting at [off]. *)
Definition region (p : bytes) (off n : Z) : bytes :=
  firstn (Z.to_nat n) (skipn (Z.to_nat off) p).

(** [off .. off+n) lies in the buffer and below the 32-bit address space. *)
Definition inside (p : bytes) (off n : Z) : Prop :=
  0 <= off /\ off + n <= zlen p /\ off + n <= 2 ^ 32.

(** Two byte ranges do not meet. *)
Definition apart (a n b m : Z) : Prop := a + n <= b \/ b + m <= a.

(** [p'] is [p] except in a set of offsets. *)
Definition same_outside (P : Z -> Prop) (p p' : bytes) : Prop :=
  zlen p' = zlen p /\
  forall i, 0 <= i -> ~ P i -> nth_error p' (Z.to_nat i) = nth_error p (Z.to_nat i).

(** Writing several fields, one API call after the other. *)
Fixpoint set_fields (p : bytes) (fs : list (kind * Z * Z)) : res bytes :=
  match fs with
  | [] => Ok p
  | (k, si, v) :: t => let! p' := set_field k p si v in set_fields p' t
  end.

(** Pairwise: no two fields of the list meet. *)
Inductive all_apart : list (kind * Z * Z) -> Prop :=
| aa_nil : all_apart []
| aa_cons k si v t :
    Forall (fun f => match f with (k', si', _) => apart si (width k) si' (width k') end) t ->
    all_apart t -> all_apart ((k, si, v) :: t).

(** * Dynamically sized fields *)

(** What a dynamic field can hold. *)
Inductive dval :=
| DString (s : bytes)
| DArray (e : elem) (s : list Z)
| DStrings (l : list bytes).

(** Values of an element type. *)
Definition elem_fits (e : elem) (v : Z) : Prop :=
  match e with
  | EByte => 0 <= v < 2 ^ 8
  | EInt8 => - 2 ^ 7 <= v < 2 ^ 7
  | EBool => v = 0 \/ v = 1
  | EInt16 => - 2 ^ 15 <= v < 2 ^ 15
  | EUInt16 => 0 <= v < 2 ^ 16
  | EInt32 => - 2 ^ 31 <= v < 2 ^ 31
  | EUInt32 | EFloat32 => 0 <= v < 2 ^ 32
  | EInt64 => - 2 ^ 63 <= v < 2 ^ 63
  | EUInt64 | EFloat64 | EComplex64 => 0 <= v < 2 ^ 64
  | EComplex128 => 0 <= v < 2 ^ 128
  end.
Definition dval_ok (v : dval) : Prop :=
  match v with
  | DString s => wf_bytes s
  | DArray e s => Forall (elem_fits e) s
  | DStrings l => Forall wf_bytes l
  end.

(** Heap bytes the content needs: the bytes of the elements; for an array of
    strings an 8-byte entry for each plus their bytes. *)
Definition elem_bytes (e : elem) : Z :=
  match e with
  | EByte | EInt8 | EBool => 1
  | EInt16 | EUInt16 => 2
  | EInt32 | EUInt32 | EFloat32 => 4
  | EInt64 | EUInt64 | EFloat64 | EComplex64 => 8
  | EComplex128 => 16
  end.
Definition heap_size (v : dval) : Z :=
  match v with
  | DString s => zlen s
  | DArray e s => zlen s * elem_bytes e
  | DStrings l => 8 * zlen l + zlen (concat l)
  end.

Definition set_dval (p : bytes) (v : dval) (si ha : Z) : res (bytes * Z) :=
  match v with
  | DString s => SetString p s si ha
  | DArray e s => SetTypedArray e p s si ha
  | DStrings l => SetStringArray p l si ha
  end.

(** The getters for the field's type return the value. *)
Definition reads_back (p : bytes) (si : Z) (v : dval) : Prop :=
  match v with
  | DString s => GetString p si = Ok s /\ UnsafeGetString p si = Ok s
  | DArray e s => GetTypedArray e p si = Ok s /\ UnsafeGetTypedArray e p si = Ok s
  | DStrings l => GetStringArray p si = Ok l
  end.

(** Writing a record: the fields one after the other, each starting its heap
    content where the previous call said. *)
Fixpoint set_record (p : bytes) (fs : list (Z * dval)) (ha : Z) : res (bytes * Z) :=
  match fs with
  | [] => Ok (p, ha)
  | (si, v) :: t => let! r := set_dval p v si ha in set_record (fst r) t (snd r)
  end.
Fixpoint record_size (fs : list (Z * dval)) : Z :=
  match fs with [] => 0 | (_, v) :: t => heap_size v + record_size t end.

(** The 8-byte stack slots of a record do not meet. *)
Inductive slots_apart : list (Z * dval) -> Prop :=
| sa_nil : slots_apart []
| sa_cons si v t : Forall (fun f => apart si 8 (fst f) 8) t -> slots_apart t ->
    slots_apart ((si, v) :: t).
