(** When an exchange is over. *)
From Verif Require Import Go ClientModel.

(** A request that expects an answer is over when the answer has come or time is up; one that does not,
    when it has been sent or time is up. *)
Definition over_two (s : state) : Prop := s = Timeout \/ s = ReceivedCompletely.
Definition over_one (s : state) : Prop := s = Timeout \/ s = SentCompletely.
(** [s] is the first status of [l] that ends the exchange *)
Definition first_end (over : state -> Prop) (l : list state) (s : state) : Prop :=
  exists pre post, l = pre ++ s :: post /\ over s /\ Forall (fun x => ~ over x) pre.
