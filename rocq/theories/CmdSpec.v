(** Command lines, independent of the parser: the documented forms of a flag and what they do. *)
From Verif Require Import Go CmdModel.
Open Scope string_scope. Import ListNotations. Open Scope Z_scope.
(** A flag name: not empty, not beginning with '-' or '=', without '='. *)
Definition flag_name (n : bytes) : Prop := n <> [] /\ hd 0 n <> 45 /\ ~ In 61 n.
Definition dashes (two : bool) : bytes := if two then [45; 45] else [45].
(** -name=value (or --name=value), -name of a boolean, -name value *)
Inductive item := WithEq (two : bool) (n v : bytes) | Switch (two : bool) (n : bytes) | NextArg (two : bool) (n v : bytes).
Definition render (i : item) : list bytes :=
  match i with
  | WithEq two n v => [(dashes two ++ n ++ 61 :: v)%list]
  | Switch two n => [(dashes two ++ n)%list]
  | NextArg two n v => [(dashes two ++ n)%list; v]
  end.
Definition item_name i := match i with WithEq _ n _ | Switch _ n | NextArg _ n _ => n end.
Definition item_value i := match i with WithEq _ _ v | NextArg _ _ v => v | Switch _ _ => str "true" end.
(** The field a name denotes: the first one called or abbreviated so. *)
Definition denotes (fs : list field) (n : bytes) (i : nat) : Prop :=
  exists f, nth_error fs i = Some f /\ (f_name f = n \/ f_abbr f = n) /\
  forall j g, (j < i)%nat -> nth_error fs j = Some g -> f_name g <> n /\ f_abbr g <> n.
(** The field with another value, all else as it was. *)
Definition holding (f : field) (v : bytes) : field :=
  {| f_name := f_name f; f_abbr := f_abbr f; f_bool := f_bool f; f_parse := f_parse f; f_value := v |}.
(** What one item does to the fields. *)
Definition sets (fs : list field) (i : item) (fs' : list field) : Prop :=
  exists k f w, denotes fs (item_name i) k /\ nth_error fs k = Some f /\ f_parse f (item_value i) = Some w /\
    fs' = upd fs k (holding f w) /\
    match i with WithEq _ _ v => v <> [] | Switch _ _ => f_bool f = true | NextArg _ _ _ => f_bool f = false end.
Inductive sets_all : list field -> list item -> list field -> Prop :=
| sa_nil fs : sets_all fs [] fs
| sa_cons fs i l fs' fs'' : flag_name (item_name i) -> sets fs i fs' -> sets_all fs' l fs'' -> sets_all fs (i :: l) fs''.
(** An argument that is not a flag: shorter than two characters or not beginning with '-'. *)
Definition not_flag (a : bytes) : Prop := zlen a < 2 \/ hd 0 a <> 45.
(** Commands: a command answers to its name, its abbreviation and its aliases; the first one in
    order wins; it is run only under its name or abbreviation. *)
Definition answers (c : command) (n : bytes) : Prop := n = c_name c \/ n = c_abbr c \/ In n (c_aliases c).
Definition first_answer (subs : list command) (n : bytes) (c : command) : Prop :=
  exists a b, subs = (a ++ c :: b)%list /\ answers c n /\ Forall (fun d => ~ answers d n) a.
Inductive dispatch : command -> list bytes -> served -> Prop :=
| d_own c a : c_group c = false -> dispatch c a (Ran c a)
| d_sub c n rest d r : c_group c = true -> first_answer (c_subs c) n d -> n = c_name d \/ n = c_abbr d -> dispatch d rest r -> dispatch c (n :: rest) r
| d_alias c n rest d : c_group c = true -> first_answer (c_subs c) n d -> n <> c_name d -> n <> c_abbr d -> dispatch c (n :: rest) ByAlias
| d_unknown c n rest : c_group c = true -> Forall (fun d => ~ answers d n) (c_subs c) -> dispatch c (n :: rest) NotFound
| d_help c : c_group c = true -> Forall (fun d => ~ answers d (str "help")) (c_subs c) -> dispatch c [] NotFound.
(** Words separated by single spaces. *)
Fixpoint spaced (l : list bytes) : bytes :=
  match l with [] => [] | [w] => w | w :: r => (w ++ 32 :: spaced r)%list end.
