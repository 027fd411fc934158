(** What a reader of a timer's channel may rely on, in terms of the calls and ticks that happened. *)
From Verif Require Import Go SyncModel.

Definition is_call (a : act) : bool := match a with RCall => true | _ => false end.
Definition is_recv (a : act) : bool := match a with ARecv => true | _ => false end.
(** The number of ticks since the last receive. *)
Fixpoint ticks_since (n : nat) (l : list act) : nat :=
  match l with
  | [] => n
  | RCall :: l => ticks_since (S n) l
  | ARecv :: l => ticks_since 0 l
  | _ :: l => ticks_since n l
  end.
Definition ticks (l : list act) : nat := length (filter is_call l).
Definition receives (l : list act) : nat := length (filter is_recv l).
Definition count (a : act -> bool) (l : list act) : nat := length (filter a l).
Definition arms (a : act) : bool := match a with AStart | ATick | AReset => true | _ => false end.
Definition deinits (a : act) : bool := match a with ADeinit => true | _ => false end.
Definition tickers (a : act) : bool := match a with ATick => true | _ => false end.
