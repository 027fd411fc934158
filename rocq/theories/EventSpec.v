(** Listeners registered after a history, and what a dispatch must call. *)
From Verif Require Import Go EventModel.
Fixpoint remove_first (w : nat) (l : list nat) : list nat :=
  match l with [] => [] | x :: r => if Nat.eqb x w then r else x :: remove_first w r end.
(** [history reg ops calls reg']: with [reg] registered, the operations make exactly [calls]. *)
Inductive history : list nat -> list op -> list nat -> list nat -> Prop :=
| h_nil reg : history reg [] [] reg
| h_add reg w o ops calls reg' : history (reg ++ [w]) ops calls reg' -> history reg (Add w o :: ops) calls reg'
| h_remove reg w o ops calls reg' : history (remove_first w reg) ops calls reg' -> history reg (Remove w o :: ops) calls reg'
| h_dispatch reg ops calls reg' : history reg ops calls reg' -> history reg (Dispatch :: ops) (reg ++ calls) reg'.
