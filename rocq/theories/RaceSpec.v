(** What timers used from several threads must do, as a property of what is seen (C165). *)
From Verif Require Import Go TimingModel TimingSpec RaceModel.

Definition ev_timer (e : event) : Z := match e with EArm id _ | EStop id | EFire id _ | ERearm id _ => id end.
(** What happened to one timer, in order. *)
Definition story (id : Z) (log : list cev) : list event :=
  flat_map (fun e => match e with CLin e => if ev_timer e =? id then [e] else [] | _ => [] end) log.
(** The runs of timers decided, with the clock reading of the decision, and the callbacks called. *)
Definition decided (log : list cev) : list (Z * Z) :=
  flat_map (fun e => match e with CLin (EFire id now) => [(id, now)] | _ => [] end) log.
Definition called (log : list cev) : list (Z * Z) :=
  flat_map (fun e => match e with CFire id clk => [(id, clk)] | _ => [] end) log.
(** Each timer is used by one thread: its calls come from [owner]. *)
Definition legal (owner : Z -> Z) (ls : list lab) : Prop :=
  Forall (fun l => match l with LCall a o => owner (op_timer o) = a | _ => True end) ls.
(** Nothing thread [a] calls or gets back is in the list. *)
Definition silent (a : Z) (l : list cev) : Prop :=
  Forall (fun e => match e with CCall b _ _ | CRet b _ _ _ => b <> a | _ => True end) l.

(** What the calls did to a timer, in order: it was set, it was stopped. *)
Definition orders (id : Z) (log : list cev) : list event :=
  filter (fun e => match e with EArm _ _ | EStop _ => true | _ => false end) (story id log).
(** The timer was set once, to be due [d] after a moment between the two clock readings. *)
Definition set_to (id d clk clk' : Z) (mid : list cev) : Prop := exists c, clk <= c <= clk' /\ orders id mid = [EArm id (when_ d c)].
(** What an answer means: [before] is what happened before the call, [mid] what happened during it. *)
Definition answered (o : cop) (r : ans) (clk clk' : Z) (before mid : list cev) : Prop :=
  match o, r with
  | CStart id d, Fine => 1 <= d /\ set_to id d clk clk' mid
  | CStart id d, NegativeDuration => d < 1 /\ orders id mid = []
  | CStart id d, AlreadyStarted => 1 <= d /\ orders id mid = [] /\ story id (before ++ mid) <> []
  | CTick id d i, Fine => 1 <= d /\ 1 <= i /\ set_to id d clk clk' mid
  | CTick id d i, NegativeDuration => (d < 1 \/ i < 1) /\ orders id mid = []
  | CTick id d i, AlreadyStarted => 1 <= d /\ 1 <= i /\ orders id mid = [] /\ story id (before ++ mid) <> []
  | CStop id, Fine => orders id mid = [EStop id] \/ (orders id mid = [] /\ exists l, story id (before ++ mid) = l ++ [EStop id])
  | CStop id, NotInit => orders id mid = [] /\ (story id (before ++ mid) = [] \/ exists l now, story id (before ++ mid) = l ++ [EFire id now])
  | CReset id d, Fine => 1 <= d /\ set_to id d clk clk' mid
  | CReset id d, NegativeDuration => d < 1 /\ orders id mid = []
  | _, _ => False
  end.

(** The calls that set a timer, and whether one of them made it periodic. *)
Definition set_calls (id : Z) (log : list cev) : list cev :=
  filter (fun e => match e with CCall _ (CStart k _) _ | CCall _ (CTick k _ _) _ | CCall _ (CReset k _) _ => k =? id | _ => false end) log.
Definition ticked (id : Z) (log : list cev) : bool :=
  existsb (fun e => match e with CCall _ (CTick k _ _) _ => k =? id | _ => false end) log.
(** The calls of its callback, and the times it was stopped while it waited. *)
Definition runs (id : Z) (log : list cev) : list cev := filter (fun e => match e with CFire k _ => k =? id | _ => false end) log.
Definition stops (id : Z) (log : list cev) : list cev := filter (fun e => match e with CLin (EStop k) => k =? id | _ => false end) log.

(** The timers of a queue that are stopped and not yet taken off (C167). *)
Definition held_stopped (s : cs) : list Z := filter (fun id => st_eqb (t_status (c_t s id)) Deleted) (c_q s).
