(** What the statements about statuses are made of. *)
From Verif Require Import Go StatusRaceModel.
(** What channel [c] was offered, oldest first. *)
Definition offered (c : nat) (s : astat) : list Z := map snd (filter (fun x => Nat.eqb (fst x) c) (offers s)).
(** The channels that are registered by a schedule. *)
Definition notified (l : list (nat * aact)) : list nat := flat_map (fun x => match snd x with Notify c => [c] | _ => [] end) l.
(** [sub a b]: [a] is [b] with some elements left out. *)
Inductive sub : list Z -> list Z -> Prop :=
| sub_nil : sub [] []
| sub_skip x a b : sub a b -> sub a (x :: b)
| sub_take x a b : sub a b -> sub (x :: a) (x :: b).
(** Every registration under way has read a slice that has [c]. *)
Definition safe (c : nat) (s : astat) : Prop := In c (lsn s) /\ forall i d l, nth_error (apcs s) i = Some (Registering d l) -> In c l.
(** Nobody has [c]: it is not registered, and no registration under way would bring it back. *)
Definition absent (c : nat) (s : astat) : Prop := ~ In c (lsn s) /\ forall i d l, nth_error (apcs s) i = Some (Registering d l) -> d <> c /\ ~ In c l.
(** How many CompareAndSwap calls of a run return true. *)
Fixpoint wins (s : tstat) (l : list (nat * tact)) : nat :=
  match l with
  | [] => 0
  | (i, a) :: l => match tstep s i a with Some (s1, r) => (match r with Some true => 1 | _ => 0 end) + wins s1 l | None => 0 end
  end.
(** Only CompareAndSwap from [o] to [w], telling and listening. *)
Definition only_cas (o w : Z) (a : tact) : Prop := match a with CAS x y => x = o /\ y = w | Tell | Listen => True | Store _ => False end.
Definition is_cas (x : nat * tact) : bool := match snd x with CAS _ _ => true | _ => false end.
(** How often [v] occurs. *)
Definition countz (v : Z) (l : list Z) : nat := length (filter (Z.eqb v) l).
(** The values goroutines are about to tell. *)
Definition telling (s : tstat) : list Z := flat_map (fun p => match p with Telling v => [v] | TOut => [] end) (tpcs s).
(** [chain v ws w]: writes one after the other, from [v] to [w]. *)
Fixpoint chain (v : Z) (ws : list (Z * Z)) (w : Z) : Prop :=
  match ws with [] => v = w | (a, b) :: ws => a = v /\ chain b ws w end.
