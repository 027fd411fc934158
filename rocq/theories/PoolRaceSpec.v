(** What the statements about pools used by many threads are made of. *)
From Verif Require Import Go PoolModel PoolRaceModel.

(** Objects a thread carries inside a call. *)
Definition carried (p : pc) : list Z :=
  match p with
  | PutPush x | PutClose x => [x]
  | CleanSub vi | CleanClose vi => objects vi
  | _ => []
  end.
Definition hot_list (o : option Z) : list Z := match o with Some x => [x] | None => [] end.
(** Every place an object can be in: the pool, its users, the inside of a call, or closed by Put or Clean. *)
Definition everywhere (s : rpool) : list Z :=
  hot_list (r_hot s) ++ objects (r_idle s) ++ objects (r_victim s) ++ r_held s ++ r_gone s ++ flat_map carried (pcs s).
(** The objects made so far are numbered from 0. *)
Definition all_made (s : rpool) : list Z := map Z.of_nat (seq 0 (Z.to_nat (made s))).

(** How many threads are at a place. *)
Definition making (p : pc) : bool := match p with GetMake => true | _ => false end.
Definition refusing (p : pc) : bool := match p with GetBack => true | _ => false end.
Definition threads (f : pc -> bool) (s : rpool) : Z := zlen (filter f (pcs s)).
(** Slots Clean has subtracted and not yet given to CloseFunc. *)
Definition to_close (p : pc) : Z := match p with CleanClose vi => zlen vi | _ => 0 end.
Definition waiting (s : rpool) : Z := fold_right Z.add 0 (map to_close (pcs s)).
