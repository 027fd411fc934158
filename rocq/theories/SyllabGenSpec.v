(** Records as a reader of the struct definition sees them. *)
From Verif Require Import Go SyllabModel SyllabSpec SyllabGenModel.
Local Open Scope Z_scope.

(** The bytes a field takes in the fixed part of a record: its own size, or an address and a length. *)
Definition kind_of (b : basic) : option kind :=
  match b with
  | TByte => Some KByte | TInt8 => Some KInt8 | TUInt8 => Some KUInt8 | TInt16 => Some KInt16 | TUInt16 => Some KUInt16
  | TInt32 => Some KInt32 | TUInt32 => Some KUInt32 | TInt64 => Some KInt64 | TUInt64 => Some KUInt64 | _ => None
  end.
Definition basic_size (b : basic) : Z :=
  match b with
  | TBool => 1 | TFloat32 => 4 | TFloat64 | TString => 8 | TIntUint => 8
  | _ => match kind_of b with Some k => width k | None => 0 end
  end.
(** Fields the generator writes complete code for. *)
Definition good_array (e : elem) : bool := match e with EFloat64 | EComplex64 | EComplex128 => false | _ => true end.
Definition good_slice (e : elem) : bool := slice_elem e && match e with EUInt64 => false | _ => true end.
Definition good (t : ftype) : bool :=
  match t with
  | Scalar TIntUint => false
  | Scalar _ => true
  | Slice (Fixed e) => good_slice e
  | Array _ (Fixed e) => good_array e
  | _ => false
  end.
Definition size_of (t : ftype) : Z :=
  match t with
  | Scalar b => basic_size b
  | Slice _ => 8
  | Array n (Fixed e) => Z.of_nat n * elem_bytes e
  | Array _ Text => 8
  | _ => step t
  end.
(** Values of a type.  Floats: the whole numbers that the float type represents exactly. *)
Definition typed (t : ftype) (v : fval) : Prop :=
  match t, v with
  | Scalar TBool, VBool _ => True
  | Scalar TFloat32, VFloat q => exists z, q = inject_Z z /\ 0 <= z < 2 ^ 24
  | Scalar TFloat64, VFloat q => exists z, q = inject_Z z /\ 0 <= z < 2 ^ 53
  | Scalar TString, VText s => wf_bytes s
  | Scalar b, VInt n => match kind_of b with Some k => fits k n | None => False end
  | Slice (Fixed e), VList l => Forall (elem_fits e) l
  | Slice Text, VTexts l => Forall wf_bytes l
  | Array n (Fixed e), VList l => Forall (elem_fits e) l /\ length l = n
  | _, _ => False
  end.
(** The bytes its content needs in the heap. *)
Definition need (t : ftype) (v : fval) : Z :=
  match t, v with
  | Scalar TString, VText s => heap_size (DString s)
  | Slice (Fixed e), VList l => heap_size (DArray e l)
  | Slice Text, VTexts l => heap_size (DStrings l)
  | _, _ => 0
  end.
Fixpoint needs (fs : list ftype) (vs : list fval) : Z :=
  match fs, vs with t :: r, v :: w => need t v + needs r w | _, _ => 0 end.
(** Byte [i] of the fixed part belongs to field number [n] placed at [at_]. *)
Definition belongs (fs : list ftype) (n : nat) (i : Z) : Prop :=
  exists at_ t, nth_error (layout 0 fs) n = Some (at_, t) /\ at_ <= i < at_ + size_of t.

(** * The record on the wire: the fixed parts of the fields in order, then their contents in order. *)
From Verif Require Import BinSpec.
Definition elements (e : elem) (l : list Z) : bytes := flat_map (le_digits (Z.to_nat (elem_bytes e))) l.
Definition fixed_bytes (t : ftype) (v : fval) (ha : Z) : bytes :=
  match t, v with
  | Scalar TBool, VBool b => [if b then 1 else 0]
  | Scalar TFloat32, VFloat q => le_digits 4 (Qfloor q)
  | Scalar TFloat64, VFloat q => le_digits 8 (Qfloor q)
  | Scalar TString, VText s => le_digits 4 ha ++ le_digits 4 (zlen s)
  | Scalar b, VInt n => match kind_of b with Some k => le_digits (Z.to_nat (width k)) n | None => [] end
  | Slice _, VList l => le_digits 4 ha ++ le_digits 4 (zlen l)
  | Array _ (Fixed e), VList l => elements e l
  | _, _ => []
  end.
Definition heap_bytes (t : ftype) (v : fval) : bytes :=
  match t, v with
  | Scalar TString, VText s => s
  | Slice (Fixed e), VList l => elements e l
  | _, _ => []
  end.
Fixpoint fixed_part (fs : list ftype) (vs : list fval) (ha : Z) : bytes :=
  match fs, vs with t :: r, v :: w => fixed_bytes t v ha ++ fixed_part r w (ha + need t v) | _, _ => [] end.
Fixpoint heap_part (fs : list ftype) (vs : list fval) : bytes :=
  match fs, vs with t :: r, v :: w => heap_bytes t v ++ heap_part r w | _, _ => [] end.
