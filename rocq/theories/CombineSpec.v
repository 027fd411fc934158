(** Specification for putting web assets together. *)
From Coq Require Import String Permutation.
From Verif Require Import Go WwwSpec TreeModel CombineModel.
Import ListNotations.
Local Open Scope Z_scope.
Local Open Scope list_scope.

(** [t] is [s] with every [old] in it, read from the left, put out by [new] *)
Inductive replaced (old new : bytes) : bytes -> bytes -> Prop :=
| rep_none : forall s, ~ occurs old s -> replaced old new s s
| rep_one : forall a r t, (forall b q, a ++ old ++ r = b ++ old ++ q -> (length a <= length b)%nat) ->
    replaced old new r t -> replaced old new (a ++ old ++ r) (a ++ new ++ t).

(** What the directory holds under a name *)
Definition holds_file (d : store) (n b : bytes) : Prop := entry d n = Some b.
Definition no_file (d : store) (n : bytes) : Prop := entry d n = None.

(** The text of the modules in one language, in order; a module without that language gives nothing *)
Definition in_language (lang : bytes) (mixed : list (list (bytes * bytes))) : bytes :=
  flat_map (fun m => match entry m lang with Some d => d | None => [] end) mixed.

(** Compressed copies end in an extension of their own, with no dot in it *)
Definition own_extensions (by_name : bytes -> option compressor) : Prop :=
  forall ce ext f, by_name ce = Some (ext, f) -> ~ In 46 ext /\ ext <> str "js"%string /\ ext <> str "html"%string /\ ext <> str "css"%string.

(** A style sheet *)
Definition sheet (n : bytes) : Prop := exists b, n = b ++ str ".css"%string.

(** The same files, listed in any order *)
Definition same_files (d e : store) : Prop := Permutation d e.
