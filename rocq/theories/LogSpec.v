(** Specification for C113 and C114. *)
From Verif Require Import Go LogModel.

(** What the listeners, as many as there are, are given by one event: each gets it once, in the order
    they were added. *)
Definition round (n : nat) (e : event) : list (nat * event) := map (fun i => (i, e)) (seq 0 n).
(** Listeners that never panic. *)
Definition calm (g : logger) : Prop := held g = false /\ forall f, In f (listeners g) -> forall e, f e = None.
(** The plain panics of Go code: a string, or an error that is nothing else. *)
Definition string_panic (s : bytes) : panic := Panic_ None None None None None (Some s) None None s.
Definition error_panic (s : bytes) : panic := Panic_ None None None None (Some s) None None None s.
(** A protocol error: it is also a data type (its domain), and usually a plain error too. *)
Definition protocol_panic (d : Z) (id : bytes) (text : option bytes) : panic := Panic_ None None None (Some (d, id)) text None None None id.
