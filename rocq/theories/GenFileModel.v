(** syllab/generator.go:63-187, 192-528: CompleteMethods on a file, from the declarations go/parser
    finds in it (Go's library, the input here) to the list of edits.  What the code written for one
    field does is in SyllabGenModel; here a piece of code is the field it is for and the index
    expression written into it.  Decoder, encoder and heap length are written side by side, one piece
    a field each, so that they are one list.
    Simplified: a struct tag is the answer of checkFieldTag (530-537); [gos] only chooses between the
    names of decoding functions; the package "../assets" is not in the repository, the edits are made
    with the requests of file/file.go. *)
From Coq Require Import String.
From Verif Require Import Go RegModel SyllabModel SyllabGenModel StringsModel FileModel.
Import ListNotations.
Local Open Scope Z_scope.
Local Open Scope list_scope.

Definition same (a b : bytes) : bool := if list_eq_dec Z.eq_dec a b then true else false.

(** * The syntax tree *)
(** the element of an array type: a name or anything else (generator.go:215-222, 332-344) *)
Inductive elt := EName (n : bytes) | ENoName.
(** the length of an array type: a literal as it is written, or another expression such as a constant *)
Inductive alen := ALit (text : bytes) | AExpr.
(** generator.go:208-516; [FAnon]: a struct type without a name, with the first name of its first
    field ([None]: no field, or an embedded one); [FNone]: the kinds for which nothing is done *)
Inductive fexp :=
| FIdent (n : bytes) | FSelector (n : bytes) | FSlice (e : elt) | FArray (l : alen) (e : elt)
| FAnon (first : option bytes) | FNone.
Record field := Field { f_skip : bool; f_names : list bytes; f_type : fexp }.
Inductive tdef := DStruct (fs : list field) | DSimple.
(** a receiver: its name ([None] when it has none), the name of the type it points to ([None] when
    it is not a pointer to a named type) *)
Record recv := Recv { r_name : option bytes; r_type : option bytes }.
(** [Method]: the positions of the braces count from 1, as token.Pos does; [None]: no body *)
Inductive decl := DType (n : bytes) (d : tdef) | DMethod (r : recv) (name : bytes) (body : option (Z * Z)) | DOther.

(** * Names of types *)
(** generator.go:414-487 *)
Definition basic_of (n : bytes) : option basic :=
  if same n (str "int") || same n (str "uint") then Some TIntUint
  else if same n (str "bool") then Some TBool
  else if same n (str "byte") then Some TByte
  else if same n (str "int8") then Some TInt8
  else if same n (str "uint8") then Some TUInt8
  else if same n (str "int16") then Some TInt16
  else if same n (str "uint16") then Some TUInt16
  else if same n (str "int32") then Some TInt32
  else if same n (str "uint32") then Some TUInt32
  else if same n (str "int64") then Some TInt64
  else if same n (str "uint64") then Some TUInt64
  else if same n (str "float32") then Some TFloat32
  else if same n (str "float64") then Some TFloat64
  else if same n (str "string") then Some TString
  else None.
(** generator.go:222-306, 344-403 *)
Definition element_of (e : elt) : element :=
  match e with
  | ENoName => Other
  | EName n =>
      match basic_of n with
      | Some TBool => Fixed EBool
      | Some (TByte | TUInt8) => Fixed EByte
      | Some TInt8 => Fixed EInt8
      | Some TInt16 => Fixed EInt16
      | Some TUInt16 => Fixed EUInt16
      | Some TInt32 => Fixed EInt32
      | Some TUInt32 => Fixed EUInt32
      | Some TInt64 => Fixed EInt64
      | Some TUInt64 => Fixed EUInt64
      | Some TFloat32 => Fixed EFloat32
      | Some TFloat64 => Fixed EFloat64
      | Some TString => Text
      | Some TIntUint | None => Other
      end
  end.

(** * The maker *)
(** a type whose own stack length is added to an index: the field it is the type of, its name *)
Definition ref : Type := (list bytes * bytes)%type.
(** [Head]: the lines of generator.go:176-189.  [Code path n refs t]: the code of the field [path] of type
    [t], whose index is [n] plus the stack lengths of [refs] (523-528 getSLIAsString).  [Ret]: 100-102 *)
Inductive piece := Head | Code (path : list bytes) (n : Z) (refs : list ref) (t : fexp) | Ret.
(** generator.go:147-158 *)
Record maker := Maker {
  m_types : bytes -> option tdef; m_rn : bytes; m_frn : list bytes; m_rtn : bytes;
  m_lsi : Z; m_stack : list ref; m_code : list piece }.
Definition emit (m : maker) (p : piece) : maker := Maker (m_types m) (m_rn m) (m_frn m) (m_rtn m) (m_lsi m) (m_stack m) (m_code m ++ [p]).
Definition grow (m : maker) (n : Z) : maker := Maker (m_types m) (m_rn m) (m_frn m) (m_rtn m) (u64 (m_lsi m + n)) (m_stack m) (m_code m).
Definition refer (m : maker) (r : ref) : maker := Maker (m_types m) (m_rn m) (m_frn m) (m_rtn m) (m_lsi m) (m_stack m ++ [r]) (m_code m).
Definition enter (m : maker) (frn : list bytes) (rtn : bytes) : maker := Maker (m_types m) (m_rn m) frn rtn (m_lsi m) (m_stack m) (m_code m).
Definition leave (m : maker) (frn : list bytes) : maker := enter m frn (m_rtn m).
(** what a call of make comes to: the maker and whether the error is set; [Endless]: not back within
    the given depth *)
Inductive made := Made (m : maker) (err : bool) | Crashed | Endless.
(** one field: go on, or return *)
Inductive went := Next (m : maker) (err : bool) | Stop (r : made).
(** generator.go:205-516, one name; [make_] is the recursive call of 411 *)
Definition one_name (make_ : maker -> made) (name : bytes) (t : fexp) (m : maker) (err : bool) : went :=
  let path := m_frn m ++ [name] in
  let m' := emit m (Code path (m_lsi m) (m_stack m) t) in
  match t with
  | FNone => Next m' err
  | FSlice _ => Next (grow m' 8) err
  | FArray AExpr _ => Stop Crashed
  | FArray (ALit text) e =>
      let '(ln, bad) := ParseUint10 64 text in
      if bad then Stop (Made m true) else Next (grow m' (array_step (Z.to_nat ln) (element_of e))) err
  | FAnon None => Stop Crashed
  | FAnon (Some first) =>
      match make_ (enter m path first) with
      | Made m2 e => Next (leave m2 (m_frn m)) e
      | r => Stop r
      end
  | FIdent n =>
      match basic_of n with
      | Some b => Next (grow m' (basic_step b)) err
      | None => Next (refer m' (path, n)) err
      end
  | FSelector n => Next (refer m' (path, n)) err
  end.
Fixpoint all_names (make_ : maker -> made) (names : list bytes) (t : fexp) (m : maker) (err : bool) : went :=
  match names with
  | [] => Next m err
  | n :: r => match one_name make_ n t m err with Next m err => all_names make_ r t m err | s => s end
  end.
(** generator.go:200-203: a field that is left out leaves nothing *)
Fixpoint all_fields (make_ : maker -> made) (fs : list field) (m : maker) (err : bool) : made :=
  match fs with
  | [] => Made m err
  | f :: r =>
      if f_skip f then all_fields make_ r m err
      else match all_names make_ (f_names f) (f_type f) m err with Next m err => all_fields make_ r m err | Stop s => s end
  end.
(** generator.go:168-521 make *)
Fixpoint make (depth : nat) (m : maker) : made :=
  match depth with
  | O => Endless
  | S d =>
      match m_types m (m_rtn m) with
      | None => Made m true
      | Some t =>
          let m := if m_lsi m =? 0 then emit m Head else m in
          match t with
          | DSimple => Made m false
          | DStruct fs => all_fields (make d) fs m false
          end
      end
  end.

(** * CompleteMethods *)
Inductive mkind := KDecoder | KEncoder | KStackLen | KHeapLen | KLen.
(** generator.go:106-127 *)
Definition kind_named (n : bytes) : option mkind :=
  if same n (str "syllabDecoder") || same n (str "SyllabDecoder") then Some KDecoder
  else if same n (str "syllabEncoder") || same n (str "SyllabEncoder") then Some KEncoder
  else if same n (str "syllabStackLen") || same n (str "SyllabStackLen") then Some KStackLen
  else if same n (str "syllabHeapLen") || same n (str "SyllabHeapLen") then Some KHeapLen
  else if same n (str "syllabLen") || same n (str "SyllabLen") then Some KLen
  else None.
(** what the text of a body is made of: the receiver's name, the pieces, the stack length *)
Record made_of := From_ { b_rn : bytes; b_code : list piece; b_lsi : Z; b_stack : list ref }.
Definition snapshot (m : maker) : made_of := From_ (m_rn m) (m_code m) (m_lsi m) (m_stack m).
(** generator.go:107-130: one edit, between the two positions *)
Record edit := Edit { e_kind : mkind; e_from : made_of; e_start : Z; e_end : Z }.
Inductive outcome := Edited (l : list edit) | Refused | Crash | Hangs.
Definition new_maker : maker := Maker (fun _ => None) [] [] [] 0 [] [].
Definition declare (m : maker) (n : bytes) (d : tdef) : maker :=
  Maker (map_set same (m_types m) n (Some d)) (m_rn m) (m_frn m) (m_rtn m) (m_lsi m) (m_stack m) (m_code m).
(** generator.go:89-103: a receiver of another name; 160-166 reset *)
Definition receiver (depth : nat) (m : maker) (r : recv) : made :=
  match r_name r with
  | None => Crashed
  | Some rn =>
      if same (m_rn m) rn then Made m false
      else match r_type r with
           | None => Crashed
           | Some t =>
               match make depth (Maker (m_types m) rn [rn] t 0 [] []) with
               | Made m err => Made (if err then m else emit m Ret) err
               | r => r
               end
           end
  end.
(** generator.go:78-140 *)
Fixpoint walk (depth : nat) (m : maker) (ds : list decl) (acc : list edit) : outcome :=
  match ds with
  | [] => Edited acc
  | DOther :: r => walk depth m r acc
  | DType n d :: r => walk depth (declare m n d) r acc
  | DMethod rc name body :: r =>
      match receiver depth m rc with
      | Crashed => Crash
      | Endless => Hangs
      | Made m true => Refused
      | Made m false =>
          match kind_named name with
          | None => walk depth m r acc
          | Some k =>
              match body with
              | None => Crash
              | Some (lb, rb) => walk depth m r (acc ++ [Edit k (snapshot m) lb (rb - 1)])
              end
          end
      end
  end.
(** generator.go:63-145 CompleteMethods: nothing is edited when there is an error *)
Definition CompleteMethods (depth : nat) (ds : list decl) : outcome := walk depth new_maker ds [].
(** generator.go:142 file.Replace, with the text of each body *)
Definition requests (text : mkind -> made_of -> bytes) (l : list edit) : list ReplaceReq :=
  map (fun e => {| Data := text (e_kind e) (e_from e); Start := e_start e; End_ := e_end e |}) l.
