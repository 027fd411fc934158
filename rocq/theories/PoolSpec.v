(** Histories of a pool and what they should keep. *)
From Verif Require Import Go PoolModel.

(** Users put back only what they hold. A check can see "stopped" only after Close. *)
Definition saw_of (e : event) : option bool :=
  match e with EGet b | EPut b _ | EClean b => Some b | EClose => None end.
Definition allowed (p : pool) (e : event) : Prop :=
  (forall b, saw_of e = Some b -> b = true -> stopped p = true) /\
  (forall b x, e = EPut b x -> In x (held p)).
(** Without a race with Close the check sees exactly the state. *)
Definition prompt (p : pool) (e : event) : Prop :=
  forall b, saw_of e = Some b -> b = stopped p.

Inductive history (m : Z) : list event -> pool -> Prop :=
| h_init : history m [] (Init m)
| h_step es p e q : history m es p -> allowed p e -> step p e = Ok q -> history m (es ++ [e]) q.
Inductive race_free (m : Z) : list event -> pool -> Prop :=
| r_init : race_free m [] (Init m)
| r_step es p e q : race_free m es p -> allowed p e -> prompt p e -> step p e = Ok q -> race_free m (es ++ [e]) q.

Definition option_list (o : option Z) : list Z := match o with Some x => [x] | None => [] end.
(** Objects inside the pool, and all objects in existence *)
Definition stored (p : pool) : list Z := option_list (hot p) ++ objects (idle p) ++ objects (victim p).
Definition live (p : pool) : list Z := held p ++ stored p.
