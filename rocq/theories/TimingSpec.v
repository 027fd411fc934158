(** What a timer scheduler must do, as a property of its history. *)
From Verif Require Import Go TimingModel.

(** Which timers are pending after a history, and when they are due. *)
Definition pend_step (p : Z -> option Z) (e : event) : Z -> option Z :=
  match e with
  | EArm id due | ERearm id due => fun k => if k =? id then Some due else p k
  | EStop id | EFire id _ => fun k => if k =? id then None else p k
  end.
Definition pending (log : list event) : Z -> option Z := fold_left pend_step log (fun _ => None).

(** A callback runs only for a timer that is pending and due: never without being
    started, never after a stop, at most once per start (per period), never early.
    Only a pending timer is reported stopped; a due time is renewed only by firing. *)
Definition well_behaved (log : list event) : Prop :=
  (forall a id now b, log = a ++ EFire id now :: b -> exists due, pending a id = Some due /\ due <= now) /\
  (forall a id b, log = a ++ EStop id :: b -> pending a id <> None) /\
  (forall a id due b, log = a ++ ERearm id due :: b -> exists a' now, a = a' ++ [EFire id now]).

(** Timers fire in due order: whatever fires is no later than any pending timer. *)
Definition earliest_first (log : list event) : Prop :=
  forall a id now b due id' due', log = a ++ EFire id now :: b ->
    pending a id = Some due -> pending a id' = Some due' -> due <= due'.

(** Histories that use only Start and Stop (single-shot timers), with clock
    readings that never overflow. *)
Definition simple_uop (o : uop) : Prop :=
  match o with UStart _ _ | UStop _ => True | _ => False end.
Definition clock_ok (now : Z) : Prop := 0 <= now < 2 ^ 63 - 1.
Definition simple_op (o : op) : Prop :=
  match o with
  | OUser now o => clock_ok now /\ simple_uop o /\ (match o with UStart _ d => d < 2 ^ 63 | _ => True end)
  | OCheck _ now => clock_ok now
  end.
Definition simple_handler (h : Z -> list uop) : Prop :=
  forall id, Forall (fun o => simple_uop o /\ match o with UStart _ d => d < 2 ^ 63 | _ => True end) (h id).

(** Handlers and histories that never reschedule. *)
Definition no_reset (o : uop) : Prop := match o with UReset _ _ => False | _ => True end.
Definition no_reset_op (o : op) : Prop := match o with OUser _ o => no_reset o | _ => True end.

(** The next due time of a periodic timer: the first multiple of the period after
    its due time that is later than now. *)
Definition spec_next (due period now : Z) : Z := due + period * ((now - due) / period + 1).

(** The due time for a delay: now + delay, at most the largest 64-bit number. *)
Definition spec_when (d now : Z) : Z := if d <=? 0 then now else Z.min (now + d) (2 ^ 63 - 1).
