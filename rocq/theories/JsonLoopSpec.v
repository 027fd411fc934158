(** Objects as texts: fields with the wanted key and a number, and others with any value text. *)
From Verif Require Import Go StrconvModel.
Import ListNotations.
Local Open Scope Z_scope.
Local Open Scope list_scope.

Inductive field := Wanted (n : Z) | Other (k v : bytes).
Definition member (want : bytes) (f : field) : bytes :=
  match f with Wanted n => 34 :: want ++ 34 :: 58 :: FormatUint10 n | Other k v => 34 :: k ++ 34 :: 58 :: v end.
Fixpoint members (want : bytes) (fs : list field) : bytes :=
  match fs with [] => [] | [f] => member want f | f :: r => member want f ++ 44 :: members want r end.
Definition object (want : bytes) (fs : list field) : bytes := 123 :: members want fs ++ [125].
(** What a reader should keep: the number of the last field with the wanted key. *)
Fixpoint kept (v : option Z) (fs : list field) : option Z :=
  match fs with [] => v | Wanted n :: r => kept (Some n) r | Other _ _ :: r => kept v r end.
(** Values with nothing in them that ends a value: numbers, words, strings without commas and brackets *)
Definition flat (v : bytes) : Prop := ~ In 44 v /\ ~ In 93 v /\ ~ In 125 v.
(** A wanted number fits its type; another field has another name without quotes, and a flat value. *)
Definition good (want : bytes) (max : Z) (f : field) : Prop :=
  match f with Wanted n => 0 <= n <= max | Other k v => k <> want /\ ~ In 34 k /\ flat v end.
