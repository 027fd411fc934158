(** Specification for the web asset tools. *)
From Coq Require Import String.
From Verif Require Import Go StrconvModel.
Import ListNotations.
Local Open Scope Z_scope.
Local Open Scope list_scope.

(** [pat] occurs somewhere in [s] *)
Definition occurs (pat s : bytes) : Prop := exists a r, s = a ++ pat ++ r.

(** A script with numbered text slots: a first text, then slots each followed by a text.  A slot is
    written LocaleText[n] in a script and ${LocaleText[n]} in a page. *)
Definition slots := list (Z * bytes).
Definition script (t0 : bytes) (l : slots) : bytes :=
  t0 ++ flat_map (fun x => str "LocaleText["%string ++ FormatUint10 (fst x) ++ [93] ++ snd x) l.
Definition page (t0 : bytes) (l : slots) : bytes :=
  t0 ++ flat_map (fun x => str "${LocaleText["%string ++ FormatUint10 (fst x) ++ [93; 125] ++ snd x) l.
(** with the texts of one language in place of the slots *)
Definition filled (texts : list bytes) (t0 : bytes) (l : slots) : bytes :=
  t0 ++ flat_map (fun x => nth (Z.to_nat (fst x)) texts [] ++ snd x) l.
(** A decimal number of an octet, in digits *)
Definition octet_number (w : bytes) : Prop := exists n, parse_digits w = Some n /\ n <= 255.

(** An import statement in a script: the byte before the keyword, the words before the path, the
    path, and the code after it *)
Record import := Import { before : Z; words : bytes; path : bytes; after : bytes }.
Definition source (t0 : bytes) (l : list import) : bytes :=
  t0 ++ flat_map (fun i => before i :: str "import "%string ++ words i ++ [39] ++ path i ++ [39] ++ after i) l.
(** the code without the statements *)
Definition code (t0 : bytes) (l : list import) : bytes := t0 ++ flat_map after l.
Definition import_ok (i : import) : Prop :=
  ~ In (before i) (str "import "%string) /\ ~ In 39 (words i) /\ ~ In 39 (path i) /\
  (after i = [] \/ ~ In (hd 0 (after i)) (str "import "%string)) /\ ~ occurs (str "import "%string) (after i).

(** Files reachable through imports *)
Inductive reach (imports_of : nat -> list nat) : nat -> nat -> Prop :=
| reach_self : forall m, reach imports_of m m
| reach_step : forall m x y, reach imports_of m x -> In y (imports_of x) -> reach imports_of m y.
