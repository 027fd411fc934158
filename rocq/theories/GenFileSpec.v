(** What the edits of a file are to be, from its declarations alone. *)
From Coq Require Import String.
From Verif Require Import Go SyllabModel SyllabGenModel IntSpec GenFileModel.
Import ListNotations.
Local Open Scope Z_scope.
Local Open Scope list_scope.

(** * Types *)
Definition basic_table : list (string * basic) :=
  [("int", TIntUint); ("uint", TIntUint); ("bool", TBool); ("byte", TByte); ("int8", TInt8); ("uint8", TUInt8); ("int16", TInt16);
   ("uint16", TUInt16); ("int32", TInt32); ("uint32", TUInt32); ("int64", TInt64); ("uint64", TUInt64);
   ("float32", TFloat32); ("float64", TFloat64); ("string", TString)]%string.
Definition element_table : list (string * element) :=
  [("bool", Fixed EBool); ("byte", Fixed EByte); ("uint8", Fixed EByte); ("int8", Fixed EInt8); ("int16", Fixed EInt16);
   ("uint16", Fixed EUInt16); ("int32", Fixed EInt32); ("uint32", Fixed EUInt32); ("int64", Fixed EInt64); ("uint64", Fixed EUInt64);
   ("float32", Fixed EFloat32); ("float64", Fixed EFloat64); ("string", Text)]%string.
Definition method_table : list (string * mkind) :=
  [("syllabDecoder", KDecoder); ("SyllabDecoder", KDecoder); ("syllabEncoder", KEncoder); ("SyllabEncoder", KEncoder);
   ("syllabStackLen", KStackLen); ("SyllabStackLen", KStackLen); ("syllabHeapLen", KHeapLen); ("SyllabHeapLen", KHeapLen);
   ("syllabLen", KLen); ("SyllabLen", KLen)]%string.
Fixpoint entry {A} (t : list (string * A)) (n : bytes) : option A :=
  match t with
  | [] => None
  | (s, a) :: r => if list_eq_dec Z.eq_dec (str s) n then Some a else entry r n
  end.
(** The type a field has, when [ev] gives the fields of the types that have names. *)
Definition shape (ev : bytes -> list ftype) (t : fexp) : ftype :=
  match t with
  | FIdent n => match entry basic_table n with Some b => Scalar b | None => Nested (ev n) end
  | FSelector n => Nested (ev n)
  | FSlice (EName n) => Slice (match entry element_table n with Some e => e | None => Other end)
  | FSlice ENoName => Slice Other
  | FArray (ALit s) (EName n) => Array (Z.to_nat (dec_value s)) (match entry element_table n with Some e => e | None => Other end)
  | FArray (ALit s) ENoName => Array (Z.to_nat (dec_value s)) Other
  | _ => Ignored
  end.
(** A length written in decimal; no other literal and no constant; no struct without a name. *)
Definition plain_length (s : bytes) : Prop := s <> [] /\ Forall is_digit s /\ (forall t, s = 48 :: t -> t = []) /\ dec_value s < 2 ^ 64.
Definition plain (t : fexp) : Prop :=
  match t with FArray (ALit s) _ => plain_length s | FArray AExpr _ | FAnon _ => False | _ => True end.
(** The fields of a struct one by one, without those left out by their tag. *)
Definition own (fs : list field) : list (bytes * fexp) :=
  flat_map (fun f => if f_skip f then [] else map (fun n => (n, f_type f)) (f_names f)) fs.
Definition shapes (ev : bytes -> list ftype) (fs : list field) : list ftype := map (fun x => shape ev (snd x)) (own fs).
Definition plain_struct (fs : list field) : Prop :=
  Forall (fun x => plain (snd x)) (own fs) /\ stack_len (shapes (fun _ => []) fs) < 2 ^ 64.

(** * Bodies *)
(** The value of an index expression. *)
Definition value (ev : bytes -> list ftype) (n : Z) (refs : list ref) : Z :=
  n + fold_right Z.add 0 (map (fun r => stack_len (ev (snd r))) refs).
(** The body is for a receiver [rn] of a struct with the fields [fs]: a piece of code for each of its
    fields, in order, at the place the layout gives it. *)
Definition describes (rn : bytes) (fs : list field) (b : made_of) : Prop :=
  b_rn b = rn /\ forall ev,
  (exists cs, b_code b = Head :: cs ++ [Ret] /\
     Forall2 (fun x c => exists n refs, c = Code [rn; fst (fst x)] n refs (snd (fst x)) /\ value ev n refs = fst (snd x) /\ shape ev (snd (fst x)) = snd (snd x))
       (combine (own fs) (layout 0 (shapes ev fs))) cs) /\
  value ev (b_lsi b) (b_stack b) = stack_len (shapes ev fs).

(** * Files *)
Definition type_names (ds : list decl) : list bytes := flat_map (fun d => match d with DType n _ => [n] | _ => [] end) ds.
Definition is_method (d : decl) : bool := match d with DMethod _ _ _ => true | _ => false end.
(** The methods that are to be written: kind, receiver, type, braces. *)
Record wanted := Wanted { w_kind : mkind; w_rn : bytes; w_type : bytes; w_lb : Z; w_rb : Z }.
Definition wanted_of (d : decl) : list wanted :=
  match d with
  | DMethod (Recv (Some rn) (Some t)) name (Some (lb, rb)) =>
      match entry method_table name with Some k => [Wanted k rn t lb rb] | None => [] end
  | _ => []
  end.
(** Types have one declaration and come before their methods; receivers are named pointers; methods that
    follow each other and call their receivers the same are of the same type. *)
Record regular (ds : list decl) : Prop := {
  reg_once : NoDup (type_names ds);
  reg_method : forall a r name body b, ds = a ++ DMethod r name body :: b ->
    exists rn t fs, r = Recv (Some rn) (Some t) /\ rn <> [] /\ In (DType t (DStruct fs)) a /\ plain_struct fs /\
      (entry method_table name <> None -> body <> None);
  reg_names : forall a r name body mid r' name' body' b, ds = a ++ DMethod r name body :: mid ++ DMethod r' name' body' :: b ->
    existsb is_method mid = false -> r_name r = r_name r' -> r_type r = r_type r' }.
(** The edit of a method. *)
Definition edit_for (ds : list decl) (w : wanted) (e : edit) : Prop :=
  e_kind e = w_kind w /\ e_start e = w_lb w /\ e_end e = w_rb w - 1 /\
  exists fs, In (DType (w_type w) (DStruct fs)) ds /\ describes (w_rn w) fs (e_from e).
(** Bodies one after the other in a file of [n] bytes, from position [pos] on. *)
Fixpoint in_order (n pos : Z) (l : list wanted) : Prop :=
  match l with [] => pos <= n | w :: r => pos <= w_lb w < w_rb w /\ w_rb w <= n /\ in_order n (w_rb w - 1) r end.
