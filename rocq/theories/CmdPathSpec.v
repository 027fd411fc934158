(** Specification for visiting flags and shortening paths. *)
From Coq Require Import String.
From Verif Require Import Go StringsModel.
Import ListNotations.
Local Open Scope Z_scope.
Local Open Scope list_scope.

(** A visitor that notes whom it has seen and decides by that whether to stop *)
Definition noting (stop : list nat -> bool) (i : nat) (seen : list nat) : list nat * bool := (seen ++ [i], stop (seen ++ [i])).
(** [seen]: the first of [l] up to the one after which the visitor stops, or all of them *)
Definition up_to_stop (stop : list nat -> bool) (l seen : list nat) : Prop :=
  exists rest, l = seen ++ rest /\
  (forall a b, seen = a ++ b -> a <> [] -> b <> [] -> stop a = false) /\
  (rest = [] \/ seen <> [] /\ stop seen = true).

(** Where a path leads, element by element, from the directory [at_] (its elements from the root): an empty
    element and "." stay, ".." goes to the parent, at the root nowhere *)
Definition go (at_ : list bytes) (p : bytes) : list bytes :=
  if beq p [] || beq p [46] then at_ else if beq p [46; 46] then removelast at_ else at_ ++ [p].
Definition leads (cwd path : bytes) : list bytes :=
  let from := match path with 47 :: _ => [] | _ => fold_left go (Split1 cwd 47) [] end in
  fold_left go (Split1 path 47) from.
