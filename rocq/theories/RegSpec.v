(** What the registries should answer, from the history of calls alone. *)
From Verif Require Import Go RegModel.
(** The services that are registered after a history, in order of registration, when no two of
    them may share an id or a media type and only registered services are deleted. *)
Definition same_service (a b : service) : bool := (s_id a =? s_id b) && beq (s_mt a) (s_mt b) && Nat.eqb (s_obj a) (s_obj b).
Definition live_step (l : list service) (o : sop) : list service :=
  match o with SReg s => l ++ [s] | SDel s => filter (fun x => negb (same_service s x)) l end.
Definition live (h : list sop) : list service := fold_left live_step h [].
Inductive proper : list sop -> Prop :=
| pr_nil : proper []
| pr_reg h s : proper h -> s_id s <> 0 -> (forall x, In x (live h) -> s_id x <> s_id s /\ s_mt x <> s_mt s) -> proper (h ++ [SReg s])
| pr_del h s : proper h -> In s (live h) -> proper (h ++ [SDel s]).
Definition registrations (h : list sop) : list service :=
  flat_map (fun o => match o with SReg s => if s_id s =? 0 then [] else [s] | SDel _ => [] end) h.
(** Errors: the calls that concern one id, oldest first, cut after its last removal; the answer
    is the last (in development mode the first) of them. *)
Definition about (id : Z) (o : eop) : bool := match o with EReg x | EUn x => e_id x =? id end.
Fixpoint since_removal (acc : list error_) (h : list eop) : list error_ :=
  match h with [] => acc | EReg x :: r => since_removal (acc ++ [x]) r | EUn _ :: r => since_removal [] r end.
Definition candidates (id : Z) (h : list eop) : list error_ := since_removal [] (filter (about id) h).
Definition answer (dev : bool) (l : list error_) : option error_ :=
  if dev then hd_error l else hd_error (rev l).
