(** What C134 to C140 are about. *)
From Verif Require Import Go.

(** The last element of a list that satisfies a test *)
Fixpoint last_with {A} (f : A -> bool) (l : list A) : option A :=
  match l with [] => None | x :: r => match last_with f r with Some y => Some y | None => if f x then Some x else None end end.
(** A set of actions is the set of the numbers of its bits *)
Definition action_in (n : Z) (at_ : Z) : Prop := 0 <= n /\ Z.testbit at_ n = true.
(** A character of the compressed texts of package language: a byte below 128 and up to three of at
    least 128 *)
Definition char (c : bytes) : Prop := exists h t, c = h :: t /\ 0 <= h < 128 /\ Forall (fun x => 128 <= x < 256) t /\ (length t <= 3)%nat.
(** It fills four bytes, the rest being 128 *)
Definition filled (c : bytes) : bytes := c ++ repeat 128 (4 - length c).
(** urn:<nid>:<nss> *)
Definition urn_of (n s : bytes) : bytes := [117; 114; 110; 58] ++ n ++ [58] ++ s.
