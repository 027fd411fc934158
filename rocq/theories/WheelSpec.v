(** Specification of the timing wheel. *)
From Verif Require Import Go WheelModel.

(** A wheel as Init makes it and ticks keep it. *)
Definition wheel_ok (w : wheel) : Prop :=
  w_size w = zlen (w_slots w) /\ 0 < w_interval w /\ 0 <= w_pos w < w_size w /\ w_size w < 2 ^ 31.

(** How many entries of timer [id] a slot holds. *)
Definition cnt (id : Z) (l : list wtimer) : nat := count_occ Z.eq_dec (map fst l) id.
Definition slot_cnt (w : wheel) (id : Z) (j : nat) : nat :=
  match nth_error (w_slots w) j with Some s => cnt id s | None => 0 end.

(** [runs f id]: how often timer [id]'s callback ran, [f] being the callbacks run. *)
Definition runs (f : list Z) (id : Z) : nat := count_occ Z.eq_dec f id.
