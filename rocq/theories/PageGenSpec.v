(** Names in a script. *)
From Verif Require Import Go.
Import ListNotations.
Local Open Scope Z_scope.
Local Open Scope list_scope.

Definition letter (c : Z) : Prop := 65 <= c <= 90 \/ 97 <= c <= 122.
Definition figure (c : Z) : Prop := 48 <= c <= 57.
(** An identifier of JavaScript (in ASCII): letters, digits, _ and $, no digit first *)
Definition identifier (n : bytes) : Prop :=
  Forall (fun c => letter c \/ figure c \/ c = 95 \/ c = 36) n /\ exists c t, n = c :: t /\ ~ figure c.
(** Names of scopes, as in URNs: letters, digits and dashes; most often in lower case. *)
Definition scope_name (s : bytes) : Prop := Forall (fun c => letter c \/ figure c \/ c = 45) s.
Definition lower_scope (s : bytes) : Prop := Forall (fun c => 97 <= c <= 122 \/ figure c \/ c = 45) s.
Definition contains (b w : bytes) : Prop := exists p r, b = p ++ w ++ r.
(** The name meant for a scope: its words, which dashes keep apart, each with a capital first, with spaces between. *)
Definition word_char (c : Z) : Prop := letter c \/ figure c \/ c = 95.
Definition capital (w : bytes) : bytes := match w with [] => [] | c :: t => (if (97 <=? c) && (c <=? 122) then c - 32 else c) :: t end.
Fixpoint joined (sep : Z) (ws : list bytes) : bytes := match ws with [] => [] | [w] => w | w :: r => w ++ sep :: joined sep r end.
