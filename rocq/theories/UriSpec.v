(** Request targets and query multimaps, independent of the code. *)
From Verif Require Import Go.

Definition free (delims : string) (s : bytes) : Prop := forall c, In c (str delims) -> ~ In c s.

(** Components of an absolute-form target: scheme://authority/path?query *)
Definition absolute (sc au pa qu : bytes) : Prop :=
  sc <> [] /\ free ":/?# *" sc /\ free "/?# " au /\ hd 0 pa = 47 /\ free "?# " pa /\ free "# " qu.
(** Components of an origin-form target: /path?query *)
Definition origin (pa qu : bytes) : Prop :=
  hd 0 pa = 47 /\ free "?# " pa /\ free "# " qu.

(** A multimap as the list of values of each name, from the history of calls. *)
Inductive qop := OpAdd (k v : bytes) | OpSet (k v : bytes) | OpDel (k : bytes).
Fixpoint values (history : list qop) (name : bytes) : list bytes :=
  (* the history is listed latest first *)
  match history with
  | [] => []
  | OpAdd k v :: h => if list_eq_dec Z.eq_dec k name then values h name ++ [v] else values h name
  | OpSet k v :: h => if list_eq_dec Z.eq_dec k name then [v] else values h name
  | OpDel k :: h => if list_eq_dec Z.eq_dec k name then [] else values h name
  end.
