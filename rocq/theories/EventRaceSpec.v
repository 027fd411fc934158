(** What the goroutines' calls mean one after the other. *)
From Verif Require Import Go EventModel EventSpec EventRaceModel.
(** The listeners registered after the calls. *)
Fixpoint registered (reg : list nat) (l : list call) : list nat :=
  match l with
  | [] => reg
  | CAdd w _ :: l => registered (reg ++ [w]) l
  | CRemove w _ :: l => registered (remove_first w reg) l
  | CDispatch _ :: l => registered reg l
  end.
(** The handlers to be called, in order, with their events. *)
Fixpoint deliveries (reg : list nat) (l : list call) : list (Z * nat) :=
  match l with
  | [] => []
  | CAdd w _ :: l => deliveries (reg ++ [w]) l
  | CRemove w _ :: l => deliveries (remove_first w reg) l
  | CDispatch e :: l => map (fun w => (e, w)) reg ++ deliveries reg l
  end.
(** The calls begun, of a schedule. *)
Definition begun (l : list (nat * eact)) : list call := flat_map (fun x => match snd x with Begin c => [c] | Go => [] end) l.
Definition pending (p : epc) : list call := match p with Wait c => [c] | _ => [] end.
