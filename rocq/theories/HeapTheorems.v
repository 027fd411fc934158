(** Property theorem C06 (timer heap). *)
From Coq Require Import Permutation.
From Verif Require Import Go HeapModel HeapSpec HeapProofs.

(** In every heap reached by any sequence of operations: entries are ordered as
    a 4-ary heap, the first is the earliest, each operation panics exactly when
    misused (no such entry) and otherwise changes the collection as specified. *)
Theorem C06_timer_heap : forall l, heap_reachable l ->
  heap_ordered l /\ first_is_earliest l /\
  forall o, (op_misuse l o -> heap_step l o = Panic) /\
    (~ op_misuse l o -> exists l', heap_step l o = Ok l' /\ op_effect l o l').
Proof. exact heap_correct. Qed.
Print Assumptions C06_timer_heap.

(** Taking timers off one by one delivers exactly the pending timers, earliest first. *)
Theorem C06_drain_in_due_order : forall l, heap_reachable l ->
  exists out, drain (length l) l = Ok out /\ Permutation l out /\ due_sorted out.
Proof. exact (fun l Hr => drain_spec (length l) l eq_refl (reachable_heap l Hr)). Qed.
Print Assumptions C06_drain_in_due_order.

Definition ex_ops := [HAdd {| b_timer := 1; b_when := 50 |}; HAdd {| b_timer := 2; b_when := 20 |};
  HAdd {| b_timer := 3; b_when := 70 |}; HAdd {| b_timer := 4; b_when := 10 |};
  HAdd {| b_timer := 5; b_when := 60 |}; HAdd {| b_timer := 6; b_when := 5 |}; HDelete 1; HDelete0].
Example C06_example : heap_run [] ex_ops = Ok [{| b_timer := 2; b_when := 20 |};
   {| b_timer := 1; b_when := 50 |}; {| b_timer := 3; b_when := 70 |}; {| b_timer := 5; b_when := 60 |}].
Proof. vm_compute. reflexivity. Qed.
