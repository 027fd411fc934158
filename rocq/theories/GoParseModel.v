(** Model of go/parser/package.go: what is kept of the declarations of a Go file.  The syntax tree is
    the input (go/parser and go/ast are Go's library): an expression that stands for a type, the
    declarations of a file and its imports.  Letters are ASCII.
    [None] is a call that has not come back within the given depth: a run that gives [None] at every
    depth overflows the stack. *)
From Coq Require Import String.
From Verif Require Import Go RegModel.
Import ListNotations.
Local Open Scope Z_scope.
Local Open Scope list_scope.

(** The kinds of package.go:156-201; [EOther] is everything else (functions, channels, literals) *)
Inductive expr :=
| EStar (x : expr) | ESel (pkg sel : bytes) | EArray (elt : expr) | EMap (k v : expr) | EInterface
| EIdent (name : bytes) | EStruct (fields : list (list bytes * expr)) | EOther.
(** parse.go:20-27 Import and 41-53 Type, without the fields nothing sets *)
Record import := Import { usage : bytes; pkgname : bytes; fspath : bytes }.
Inductive ty := Ty (name : bytes) (id : Z) (pkg : option import) (type : bytes) (exported pointer : bool) (inner : list ty).
Definition t_name (t : ty) := let 'Ty n _ _ _ _ _ _ := t in n.
Definition t_id (t : ty) := let 'Ty _ i _ _ _ _ _ := t in i.
Definition t_pkg (t : ty) := let 'Ty _ _ p _ _ _ _ := t in p.
Definition t_type (t : ty) := let 'Ty _ _ _ y _ _ _ := t in y.
Definition t_exported (t : ty) := let 'Ty _ _ _ _ x _ _ := t in x.
Definition t_pointer (t : ty) := let 'Ty _ _ _ _ _ p _ := t in p.
Definition t_inner (t : ty) := let 'Ty _ _ _ _ _ _ l := t in l.
Definition zero_ty : ty := Ty [] 0 None [] false false [].
Definition set_pointer (t : ty) : ty := let 'Ty n i p y x _ l := t in Ty n i p y x true l.
Definition set_field (t : ty) (n : bytes) (i : Z) : ty := let 'Ty _ _ p y x q l := t in Ty n i p y x q l.
Definition set_decl (t : ty) (n : bytes) (x : bool) : ty := let 'Ty _ i p y _ q l := t in Ty n i p y x q l.

(** package.go:188-193: one field may have several names *)
Fixpoint each_name (pt : expr -> option ty) (names : list bytes) (e : expr) (acc : list ty) : option (list ty) :=
  match names with
  | [] => Some acc
  | n :: r => match pt e with Some t => each_name pt r e (acc ++ [set_field t n (zlen acc)]) | None => None end
  end.
(** package.go:184-194 *)
Fixpoint each_field (pt : expr -> option ty) (fs : list (list bytes * expr)) (acc : list ty) : option (list ty) :=
  match fs with
  | [] => Some acc
  | (names, e) :: r => match each_name pt names e acc with Some acc => each_field pt r acc | None => None end
  end.
(** package.go:155-205 parseType; [decls] is Obj.Decl: the types declared in the same file *)
Fixpoint parseType (decls : bytes -> option expr) (imports : bytes -> option import) (k : nat) (e : expr) : option ty :=
  match k with
  | O => None
  | S k =>
      match e with
      | EStar x => match parseType decls imports k x with Some t => Some (set_pointer t) | None => None end
      | ESel p s => Some (Ty [] 0 (imports p) s false false [])
      | EArray _ | EMap _ _ | EInterface | EOther => Some zero_ty
      | EIdent n =>
          match decls n with
          | Some e => match parseType decls imports k e with Some t => Some (Ty [] 0 None n false false (t_inner t)) | None => None end
          | None => Some (Ty [] 0 None n false false [])
          end
      | EStruct fs =>
          match each_field (parseType decls imports k) fs [] with
          | Some l => Some (Ty [] 0 None [] false false l)
          | None => None
          end
      end
  end.

(** package.go:86-150: declarations; a function has its groups of parameters and of results, and it may
    be a method *)
Inductive decl := DType (name : bytes) (e : expr)
| DFunc (method : bool) (name : bytes) (params results : list (list bytes * expr)) | DOther.
Record func := Func { f_name : bytes; f_param : option ty; f_result : option ty; f_err : option ty }.
Record package := Package { p_name : bytes; p_files : bytes -> option bytes; p_imports : bytes -> option import;
  p_funcs : bytes -> option func; p_types : bytes -> option ty }.
Definition with_imports (p : package) m := Package (p_name p) (p_files p) m (p_funcs p) (p_types p).
Definition with_funcs (p : package) m := Package (p_name p) (p_files p) (p_imports p) m (p_types p).
Definition with_types (p : package) m := Package (p_name p) (p_files p) (p_imports p) (p_funcs p) m.
(** package.go:26-32 Init *)
Definition empty_package : package := Package [] (fun _ => None) (fun _ => None) (fun _ => None) (fun _ => None).
(** go/token IsExported: an upper-case first letter *)
Definition IsExported (n : bytes) : bool := match n with c :: _ => (65 <=? c) && (c <=? 90) | [] => false end.
(** path.Base of the standard library: the last element after trailing slashes are removed *)
Fixpoint drop_slashes (s : bytes) : bytes := match s with 47 :: r => drop_slashes r | _ => s end.
Fixpoint until_slash (s : bytes) : bytes := match s with [] => [] | c :: r => if c =? 47 then [] else c :: until_slash r end.
Definition Base (s : bytes) : bytes :=
  match s with [] => [46] | _ =>
    match rev (until_slash (drop_slashes (rev s))) with [] => [47] | b => b end
  end.
(** package.go:70-84: the imports; [alias] is the name written before the path *)
Definition add_import (m : bytes -> option import) (i : option bytes * bytes) : bytes -> option import :=
  let '(alias, path) := i in
  let u := match alias with Some n => n | None => Base path end in
  map_set beq m u (Some (Import u (Base path) path)).

(** package.go:133-145: the results; the last one of each kind is kept *)
Fixpoint each_result (pt : expr -> option ty) (names : list bytes) (e : expr) (f : func) : option func :=
  match names with
  | [] => Some f
  | n :: r =>
      match pt e with
      | None => None
      | Some t =>
          let t := set_decl t n (IsExported n) in
          each_result pt r e
            (if beq (t_type t) (str "error"%string) then Func (f_name f) (f_param f) (f_result f) (Some t)
             else Func (f_name f) (f_param f) (Some t) (f_err f))
      end
  end.
Fixpoint each_group (pt : expr -> option ty) (gs : list (list bytes * expr)) (f : func) : option func :=
  match gs with
  | [] => Some f
  | (names, e) :: r => match each_result pt names e f with Some f => each_group pt r f | None => None end
  end.
(** package.go:87-149: one declaration; [Panic] is Names[0] of a parameter without a name *)
Definition add_decl (decls : bytes -> option expr) (k : nat) (p : package) (d : decl) : option (res package) :=
  let pt := parseType decls (p_imports p) k in
  match d with
  | DOther => Some (Ok p)
  | DType n e =>
      match pt e with
      | None => None
      | Some t => Some (Ok (with_types p (map_set beq (p_types p) n (Some (set_decl t n (IsExported n))))))
      end
  | DFunc _ n params results =>
      if negb (IsExported n) then Some (Ok p)
      else match params with
      | [(names, e); _] =>
          match pt e with
          | None => None
          | Some t =>
              match names with
              | [] => Some Panic
              | a :: _ =>
                  match each_group pt results (Func n (Some (set_decl t a (IsExported a))) None None) with
                  | None => None
                  | Some f => Some (Ok (with_funcs p (map_set beq (p_funcs p) n (Some f))))
                  end
              end
          end
      | _ => Some (Ok p)
      end
  end.
Fixpoint add_decls (decls : bytes -> option expr) (k : nat) (p : package) (l : list decl) : option (res package) :=
  match l with
  | [] => Some (Ok p)
  | d :: r =>
      match add_decl decls k p d with
      | Some (Ok p) => add_decls decls k p r
      | x => x
      end
  end.
(** A parsed file: the name in its package clause, its imports and its declarations *)
Record source := Source { s_pkg : bytes; s_imports : list (option bytes * bytes); s_decls : list decl }.
(** Obj.Decl: the first declaration of that name in the file *)
Fixpoint declared (l : list decl) (n : bytes) : option expr :=
  match l with
  | [] => None
  | DType m e :: r => if beq m n then Some e else declared r n
  | _ :: r => declared r n
  end.
(** package.go:69-153 parseFile *)
Definition parseFile (k : nat) (p : package) (s : source) : option (res package) :=
  add_decls (declared (s_decls s)) k (with_imports p (fold_left add_import (s_imports s) (p_imports p))) (s_decls s).
(** strings.HasSuffix of the standard library *)
Definition HasSuffix (s suf : bytes) : bool :=
  (zlen suf <=? zlen s) && beq (skipn (Z.to_nat (zlen s - zlen suf)) s) suf.
(** package.go:49-50: which files are parsed *)
Definition wanted (name : bytes) : bool := HasSuffix name (str ".go"%string) || negb (HasSuffix name (str "_test.go"%string)).
(** package.go:35-37 AddFile and 40-67 Parse; [ast] is what Go's parser makes of the text, nothing on a
    syntax error.  The answer says whether an error came back. *)
Definition Parse (k : nat) (p : package) (name text : bytes) (ast : option source) : option (res (package * bool)) :=
  let p := Package (p_name p) (map_set beq (p_files p) name (Some text)) (p_imports p) (p_funcs p) (p_types p) in
  if wanted name then
    match ast with
    | None => Some (Ok (p, true))
    | Some s =>
        match parseFile k (Package (s_pkg s) (p_files p) (p_imports p) (p_funcs p) (p_types p)) s with
        | None => None
        | Some Panic => Some Panic
        | Some (Ok p) => Some (Ok (p, false))
        end
    end
  else Some (Ok (p, false)).
