(** Specification for C115, C116 and C117. *)
From Verif Require Import Go AppModel.

(** The status changes an operation makes, in order. *)
Definition changes (o : op) : list status :=
  match o with OInit _ _ _ _ => [Starting] | ODeinit _ _ => [Stopping; Stopping] | _ => [] end.
(** How often the reader of listener [i] asks for a status. *)
Fixpoint receives (i : nat) (l : list op) : nat :=
  match l with [] => 0%nat | ORecv j :: l => if Nat.eqb j i then S (receives i l) else receives i l | _ :: l => receives i l end.
(** [a] is [b] with some elements left out. *)
Inductive subseq {A} : list A -> list A -> Prop :=
| sub_nil : subseq [] []
| sub_skip x a b : subseq a b -> subseq a (x :: b)
| sub_take x a b : subseq a b -> subseq (x :: a) (x :: b).
(** The signals that ask a program to stop. *)
Definition asks_to_stop (g : signal) : Prop := In g [Interrupt; Quit; Terminated; Killed].
