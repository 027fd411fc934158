(** Where a frame should go. *)
From Verif Require Import Go ChaparNetModel.

(** The switches met from [v] when the ports [ps] are taken one after the other *)
Fixpoint walk {N} (g : net N) (v : N) (ps : list Z) : option (list N) :=
  match ps with
  | [] => Some [v]
  | p :: r => match link g v p with Some w => match walk g w r with Some l => Some (v :: l) | None => None end | None => None end
  end.
(** Wherever a port leads to a switch, that switch has a port with the number of the first that leads back *)
Definition two_way {N} (g : net N) : Prop := forall v p w, link g v p = Some w -> link g w (pnum g v) = Some v.
