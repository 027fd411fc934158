(** syllab/generator.go: the encoders, decoders and length functions that CompleteMethods writes for
    a struct type.  The model is the meaning of the generated code, for each kind of field the call
    the generator writes and the step of its stack index.  Field values are tagged; a value that is
    not of the field's type makes the model panic, which the Go type checker excludes.
    Simplified: the generated decoder declares "add, ln" and never uses them (generator.go:182),
    which the compiler rejects; the model is of the code without that line.  Field tags, anonymous
    structs, maps and embedded names write nothing (generator.go:201-203, 399-408) and are [Ignored]. *)
From Verif Require Import Go SyllabModel.
From Coq Require Import QArith Qround.
Local Open Scope Z_scope.

(** generator.go:411-412 int and uint: a warning, no code *)
Inductive basic := TIntUint | TBool | TByte | TInt8 | TUInt8 | TInt16 | TUInt16 | TInt32 | TUInt32
  | TInt64 | TUInt64 | TFloat32 | TFloat64 | TString.
(** the element of a slice or of an array: a fixed-size type, a string, anything else *)
Inductive element := Fixed (e : elem) | Text | Other.
Inductive ftype := Scalar (b : basic) | Slice (e : element) | Array (n : nat) (e : element)
  | Nested (fs : list ftype) | Ignored.
Inductive fval := VInt (n : Z) | VBool (b : bool) | VFloat (q : Q) | VText (s : bytes)
  | VList (l : list Z) | VTexts (l : list bytes) | VStruct (l : list fval) | VOther.

(** * What the generator adds to its stack index *)
(** generator.go:413-486 *)
Definition basic_step (b : basic) : Z :=
  match b with
  | TIntUint => 0
  | TBool | TByte | TInt8 | TUInt8 => 1
  | TInt16 | TUInt16 => 2
  | TInt32 | TUInt32 | TFloat32 => 4
  | TInt64 | TUInt64 | TFloat64 | TString => 8
  end.
(** generator.go:345-395: float64 arrays take four bytes an element, strings and others none *)
Definition array_step (n : nat) (e : element) : Z :=
  match e with
  | Fixed (EByte | EInt8 | EBool) => Z.of_nat n
  | Fixed (EInt16 | EUInt16) => Z.of_nat n * 2
  | Fixed (EInt32 | EUInt32 | EFloat32) => Z.of_nat n * 4
  | Fixed (EInt64 | EUInt64) => Z.of_nat n * 8
  | Fixed EFloat64 => Z.of_nat n * 4
  | Fixed (EComplex64 | EComplex128) | Text | Other => 0
  end.
(** generator.go:325-326 (slices), 487-494 (a named type: its own syllabStackLen) *)
Fixpoint step (t : ftype) : Z :=
  match t with
  | Scalar b => basic_step b
  | Slice _ => 8
  | Array n e => array_step n e
  | Nested fs => (fix go l := match l with [] => 0 | x :: r => step x + go r end) fs
  | Ignored => 0
  end.
(** generator.go:117-121 syllabStackLen *)
Fixpoint stack_len (fs : list ftype) : Z := match fs with [] => 0 | t :: r => step t + stack_len r end.
(** the index written into the calls of each field, generator.go:522-527 getSLIAsString *)
Fixpoint layout (at_ : Z) (fs : list ftype) : list (Z * ftype) :=
  match fs with [] => [] | t :: r => (at_, t) :: layout (at_ + step t) r end.

(** * syllabHeapLen, syllabLen *)
(** the types of element for which a slice gets code: generator.go:219-301; []uint64 has no line
    for its heap size (275-281), []string counts the texts only (296-298) *)
Definition slice_elem (e : elem) : bool :=
  match e with EBool | EByte | EInt8 | EUInt16 | EInt16 | EUInt32 | EInt32 | EUInt64 | EInt64 => true | _ => false end.
Definition slice_heap (e : elem) (l : list Z) : Z :=
  match e with
  | EUInt64 => 0
  | _ => if slice_elem e then u32 (zlen l * Z.of_nat (esize e)) else 0
  end.
Fixpoint texts_heap (l : list bytes) : Z := match l with [] => 0 | s :: r => u32 (zlen s) + texts_heap r end.
Fixpoint heap_of (t : ftype) (v : fval) {struct t} : Z :=
  match t, v with
  | Scalar TString, VText s => u32 (zlen s)
  | Slice (Fixed e), VList l => slice_heap e l
  | Slice Text, VTexts l => texts_heap l
  | Array _ Text, VTexts l => texts_heap l
  | Nested fs, VStruct vs =>
      (fix go l vs := match l, vs with t :: r, v :: w => heap_of t v + go r w | _, _ => 0 end) fs vs
  | _, _ => 0
  end.
Fixpoint heap_len (fs : list ftype) (vs : list fval) : Z :=
  match fs, vs with t :: r, v :: w => heap_of t v + heap_len r w | _, _ => 0 end.
Definition syllab_len (fs : list ftype) (vs : list fval) : Z := u32 (stack_len fs + u32 (heap_len fs vs)).

(** * The encoder *)
(** generator.go:413-486 *)
Definition enc_scalar (b : basic) (p : bytes) (si hsi : Z) (v : fval) : res (bytes * Z) :=
  match b, v with
  | TIntUint, _ => Ok (p, hsi)
  | TBool, VBool x => let! p := SetBool p si x in Ok (p, hsi)
  | TByte, VInt x => let! p := SetByte p si x in Ok (p, hsi)
  | TInt8, VInt x => let! p := SetInt8 p si x in Ok (p, hsi)
  | TUInt8, VInt x => let! p := SetUInt8 p si x in Ok (p, hsi)
  | TInt16, VInt x => let! p := SetInt16 p si x in Ok (p, hsi)
  | TUInt16, VInt x => let! p := SetUInt16 p si x in Ok (p, hsi)
  | TInt32, VInt x => let! p := SetInt32 p si x in Ok (p, hsi)
  | TUInt32, VInt x => let! p := SetUInt32 p si x in Ok (p, hsi)
  | TInt64, VInt x => let! p := SetInt64 p si x in Ok (p, hsi)
  | TUInt64, VInt x => let! p := SetUInt64 p si x in Ok (p, hsi)
  | TFloat32, VFloat x => let! p := SetFloat32 p si x in Ok (p, hsi)
  | TFloat64, VFloat x => let! p := SetFloat64 p si x in Ok (p, hsi)
  | TString, VText s => SetString p s si hsi
  | _, _ => Panic
  end.
(** generator.go:345-395: a complex or other element has no code *)
Definition array_elem (e : elem) : bool := match e with EComplex64 | EComplex128 => false | _ => true end.
(** a nested type's method has the same body as if it were alone: it writes from index 0 with its
    heap at its own stack length, and its result "hi" is never assigned (generator.go:36-39, 184-187) *)
Fixpoint enc_field (t : ftype) (p : bytes) (si hsi : Z) (v : fval) {struct t} : res (bytes * Z) :=
  match t, v with
  | Scalar b, _ => enc_scalar b p si hsi v
  | Slice (Fixed e), VList l => if slice_elem e then SetTypedArray e p l si hsi else Ok (p, hsi)
  | Slice Text, VTexts l => SetStringArray p l si hsi
  | Array _ (Fixed e), VList l => if array_elem e then let! p := copy_at p si (to_byte_slice e l) in Ok (p, hsi) else Ok (p, hsi)
  | Array _ Text, VTexts l => SetStringArray p l si hsi
  | Nested fs, VStruct vs =>
      let! r := (fix go (l : list ftype) (at_ : Z) (p : bytes) (hsi : Z) (vs : list fval) : res (bytes * Z) :=
        match l, vs with
        | t :: r, v :: w => let! x := enc_field t p at_ hsi v in go r (at_ + step t) (fst x) (snd x) w
        | _, _ => Ok (p, hsi)
        end) fs 0 p ((fix sum l := match l with [] => 0 | x :: r => step x + sum r end) fs) vs in
      Ok (fst r, 0)
  | Ignored, _ | Slice Other, _ | Array _ Other, _ => Ok (p, hsi)
  | _, _ => Panic
  end.
Fixpoint enc_fields (fs : list ftype) (at_ : Z) (p : bytes) (hsi : Z) (vs : list fval) : res (bytes * Z) :=
  match fs, vs with
  | t :: r, v :: w => let! x := enc_field t p at_ hsi v in enc_fields r (at_ + step t) (fst x) (snd x) w
  | _, _ => Ok (p, hsi)
  end.
(** generator.go:29-31, 184-187: buf = make([]byte, syllabLen()), hsi = syllabStackLen() *)
Definition encode (fs : list ftype) (vs : list fval) : res bytes :=
  let! r := enc_fields fs 0 (repeat 0 (Z.to_nat (syllab_len fs vs))) (stack_len fs) vs in Ok (fst r).

(** * The decoder; [old] is the field before it, kept when no code is written for it *)
Definition dec_scalar (b : basic) (unsafe : bool) (p : bytes) (si : Z) (old : fval) : res fval :=
  match b with
  | TIntUint => Ok old
  | TBool => let! x := GetBool p si in Ok (VBool x)
  | TByte => let! x := GetByte p si in Ok (VInt x)
  | TInt8 => let! x := GetInt8 p si in Ok (VInt x)
  | TUInt8 => let! x := GetUInt8 p si in Ok (VInt x)
  | TInt16 => let! x := GetInt16 p si in Ok (VInt x)
  | TUInt16 => let! x := GetUInt16 p si in Ok (VInt x)
  | TInt32 => let! x := GetInt32 p si in Ok (VInt x)
  | TUInt32 => let! x := GetUInt32 p si in Ok (VInt x)
  | TInt64 => let! x := GetInt64 p si in Ok (VInt x)
  | TUInt64 => let! x := GetUInt64 p si in Ok (VInt x)
  | TFloat32 => let! x := GetFloat32 p si in Ok (VFloat x)
  | TFloat64 => let! x := GetFloat64 p si in Ok (VFloat x)
  | TString => let! x := (if unsafe then UnsafeGetString p si else GetString p si) in Ok (VText x)
  end.
Fixpoint dec_field (t : ftype) (unsafe : bool) (p : bytes) (si : Z) (old : fval) {struct t} : res fval :=
  match t with
  | Scalar b => dec_scalar b unsafe p si old
  | Slice (Fixed e) => if slice_elem e then let! l := (if unsafe then UnsafeGetTypedArray e p si else GetTypedArray e p si) in Ok (VList l) else Ok old
  | Slice Text => let! l := GetStringArray p si in Ok (VTexts l)
  | Array n (Fixed e) =>
      if array_elem e then let! rest := slice_from p si in
        match old with VList o => Ok (VList (overwrite o 0 (of_byte_slice e rest))) | _ => Panic end
      else Ok old
  | Nested fs =>
      match old with
      | VStruct os =>
          let! l := (fix go (l : list ftype) (at_ : Z) (os : list fval) : res (list fval) :=
            match l, os with
            | t :: r, o :: w => let! v := dec_field t unsafe p at_ o in let! vs := go r (at_ + step t) w in Ok (v :: vs)
            | _, _ => Ok []
            end) fs 0 os in
          Ok (VStruct l)
      | _ => Panic
      end
  | Ignored | Slice Other | Array _ Other | Array _ Text => Ok old
  end.
Fixpoint dec_fields (fs : list ftype) (unsafe : bool) (at_ : Z) (p : bytes) (os : list fval) : res (list fval) :=
  match fs, os with
  | t :: r, o :: w => let! v := dec_field t unsafe p at_ o in let! vs := dec_fields r unsafe (at_ + step t) p w in Ok (v :: vs)
  | _, _ => Ok []
  end.
(** generator.go:177-182: [None] is ErrSyllabDecodeSmallSlice *)
Definition decode (fs : list ftype) (unsafe : bool) (p : bytes) (os : list fval) : res (option (list fval)) :=
  if u32 (zlen p) <? stack_len fs then Ok None else let! vs := dec_fields fs unsafe 0 p os in Ok (Some vs).
