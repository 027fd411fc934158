(** What the description of a Go type should say. *)
From Coq Require Import String.
From Verif Require Import Go GoParseModel.
Import ListNotations.
Local Open Scope Z_scope.
Local Open Scope list_scope.

Section Types.
Variable decls : bytes -> option expr.
Variable imports : bytes -> option import.
(** The fields of a struct, one by one in the order they are written *)
Definition fields (fs : list (list bytes * expr)) : list (bytes * expr) := flat_map (fun g => map (fun n => (n, snd g)) (fst g)) fs.
(** The fields of a type, looking through pointers and names declared in the file *)
Inductive has_fields : expr -> list (bytes * expr) -> Prop :=
| hf_struct fs : has_fields (EStruct fs) (fields fs)
| hf_star x l : has_fields x l -> has_fields (EStar x) l
| hf_named n e l : decls n = Some e -> has_fields e l -> has_fields (EIdent n) l
| hf_basic n : decls n = None -> has_fields (EIdent n) []
| hf_sel p s : has_fields (ESel p s) []
| hf_array x : has_fields (EArray x) []
| hf_map k v : has_fields (EMap k v) []
| hf_interface : has_fields EInterface []
| hf_other : has_fields EOther [].
Fixpoint type_name (e : expr) : bytes :=
  match e with EStar x => type_name x | ESel _ s => s | EIdent n => n | _ => [] end.
Definition is_pointer (e : expr) : bool := match e with EStar _ => true | _ => false end.
Fixpoint package_of (e : expr) : option import :=
  match e with EStar x => package_of x | ESel p _ => imports p | _ => None end.
(** [t] tells the name, the pointer, the package and, in order and numbered from 0, the fields of [e] *)
Inductive describes : expr -> ty -> Prop :=
| Describes e t l : has_fields e l -> t_type t = type_name e -> t_pointer t = is_pointer e -> t_pkg t = package_of e ->
    length (t_inner t) = length l ->
    (forall i f u, nth_error l i = Some f -> nth_error (t_inner t) i = Some u ->
      t_name u = fst f /\ t_id u = Z.of_nat i /\ describes (snd f) u) ->
    describes e t.
(** [needs e' e]: a full description of [e] contains one of [e'] *)
Inductive needs : expr -> expr -> Prop :=
| need_star x : needs x (EStar x)
| need_named n e : decls n = Some e -> needs e (EIdent n)
| need_field fs n e : In (n, e) (fields fs) -> needs e (EStruct fs).
(** A type is finite when following what it needs always ends *)
Definition finite (e : expr) : Prop := Acc needs e.
(** From [a], some steps of [needs] lead to [b] *)
Inductive leads : expr -> expr -> Prop :=
| lead_one a b : needs b a -> leads a b
| lead_more a b c : needs b a -> leads b c -> leads a c.
End Types.
(** A function the generator is to serve: exported, with two groups of parameters *)
Definition candidate (d : decl) (n : bytes) : bool :=
  match d with DFunc _ m [_; _] _ => IsExported m && beq m n | _ => false end.
(** The named results, one by one, of a kind *)
Definition results_of (want : bool) (gs : list (list bytes * expr)) : list (bytes * expr) :=
  filter (fun r => Bool.eqb (beq (type_name (snd r)) (str "error"%string)) want) (fields gs).
Fixpoint last_opt {A} (l : list A) : option A := match l with [] => None | [x] => Some x | _ :: r => last_opt r end.
(** What is kept of a result: nothing when there is none, else its name and its type *)
Definition kept (decls : bytes -> option expr) (imports : bytes -> option import) (o : option ty) (w : option (bytes * expr)) : Prop :=
  match o, w with
  | None, None => True
  | Some t, Some (n, e) => t_name t = n /\ t_exported t = IsExported n /\ describes decls imports e t
  | _, _ => False
  end.
(** What a path ends in *)
Definition ends_with_element (path last : bytes) : Prop :=
  last <> [] /\ ~ In 47 last /\ exists dir, path = dir ++ last /\ (dir = [] \/ exists d, dir = d ++ [47]).
(** The name an import is used by, as the library that is imported and the last part of its path go together *)
Definition used_as (i : option bytes * bytes) : bytes := match fst i with Some n => n | None => Base (snd i) end.
