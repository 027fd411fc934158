(** What it means for a tree of directories to hold a file or a directory, and what the contents of a
    file are after a history of calls. *)
From Verif Require Import Go TreeModel.
From Coq Require Import Sorted.

(** an opened sub directory and a name that stands in the map with nil *)
Inductive sub_of : bytes -> tree -> forest -> Prop :=
| sub_here n d r : sub_of n d (FLoaded n d r)
| sub_later1 n d k e r : sub_of n d r -> sub_of n d (FLoaded k e r)
| sub_later2 n d k r : sub_of n d r -> sub_of n d (FUnloaded k r).
Inductive closed_in : bytes -> forest -> Prop :=
| closed_here n r : closed_in n (FUnloaded n r)
| closed_later1 n k e r : closed_in n r -> closed_in n (FLoaded k e r)
| closed_later2 n k r : closed_in n r -> closed_in n (FUnloaded k r).
(** the directory [e] under the path [p] of [t] *)
Inductive inside : tree -> list bytes -> tree -> Prop :=
| inside_here t : inside t [] t
| inside_down n d fs ds p e : sub_of n d ds -> inside d p e -> inside (Tree fs ds) (n :: p) e.
(** the file [f] is somewhere in [t] under the name [n] *)
Definition holds (t : tree) (n : bytes) (f : Z) : Prop := exists p fs ds, inside t p (Tree fs ds) /\ In (n, Some f) fs.
(** some opened directory has a sub directory that was not opened *)
Definition some_closed (t : tree) : Prop := exists p fs ds m, inside t p (Tree fs ds) /\ closed_in m ds.
(** no name stands twice in a map *)
Fixpoint sub_names (ds : forest) : list bytes := match ds with FNil => [] | FUnloaded n r | FLoaded n _ r => n :: sub_names r end.
Definition maps (t : tree) : Prop := forall p fs ds, inside t p (Tree fs ds) -> NoDup (map fst fs) /\ NoDup (sub_names ds).
(** [n] is the name of an opened directory [e] somewhere below [t] *)
Definition holds_dir (t : tree) (n : bytes) (e : tree) : Prop := exists p, inside t (p ++ [n]) e.

(** The contents after a call whose argument is not nil *)
Definition content_step (s : bytes) (o : fop) : bytes :=
  match o with
  | FUnmarshalOp (Some x) => x
  | FAppend (Some x) => s ++ x
  | FPrepend (Some x) => x ++ s
  | _ => s
  end.
Definition not_nil (o : fop) : Prop :=
  match o with FUnmarshalOp x | FAppend x | FPrepend x => x <> None | FSave | FRename _ => True end.
Definition not_unmarshal (o : fop) : Prop := match o with FUnmarshalOp _ => False | _ => True end.

(** Going along a relative path: "." stays, ".." goes to the directory this one lies in, any other part to
    the opened sub directory of that name; [None]: there is none. *)
Fixpoint resolve (here : list FileModel.dir) (parts : list bytes) : option (list FileModel.dir) :=
  match parts with
  | [] => Some here
  | p :: r =>
      if beq p [46] then resolve here r
      else if beq p [46; 46] then match here with _ :: (_ :: _) as up => resolve up r | _ => None end
      else match here with
           | d :: _ => match FileModel.dirs_ d p with Some x => resolve (x :: here) r | None => None end
           | [] => None
           end
  end.
