(** What a timer heap must do. *)
From Coq Require Import Permutation.
From Verif Require Import Go HeapModel.

(** Every entry but the first is due no earlier than its parent in the 4-ary tree. *)
Definition heap_ordered (l : list bucket) : Prop :=
  forall i a b, nth_error l (S i) = Some a -> nth_error l (i / 4) = Some b -> b_when b <= b_when a.

(** The first entry is due no later than any entry. *)
Definition first_is_earliest (l : list bucket) : Prop :=
  forall a b, nth_error l 0 = Some a -> In b l -> b_when a <= b_when b.

(** What each operation does to the collection of entries, as a multiset;
    [None]: the operation is a misuse (no such entry). *)
Definition op_effect (l : list bucket) (o : heap_op) (l' : list bucket) : Prop :=
  match o with
  | HAdd b => Permutation l' (b :: l)
  | HDelete i => exists b, nth_error l i = Some b /\ Permutation l (b :: l')
  | HDelete0 => exists b, nth_error l 0 = Some b /\ Permutation l (b :: l') /\
                 (forall c, In c l -> b_when b <= b_when c)
  end.

Definition op_misuse (l : list bucket) (o : heap_op) : Prop :=
  match o with
  | HAdd _ => False
  | HDelete i => (length l <= i)%nat
  | HDelete0 => l = []
  end.

(** States reachable from the empty heap. *)
Inductive heap_reachable : list bucket -> Prop :=
| hr_empty : heap_reachable []
| hr_step l o l' : heap_reachable l -> heap_step l o = Ok l' -> heap_reachable l'.

(** Repeatedly taking the first entry off a heap. *)
Fixpoint drain (n : nat) (l : list bucket) : res (list bucket) :=
  match n, l with
  | S n, b :: _ => let! l' := DeleteTimer0 l in let! r := drain n l' in Ok (b :: r)
  | _, _ => Ok []
  end.

(** Earliest first. *)
Inductive due_sorted : list bucket -> Prop :=
| ds_nil : due_sorted []
| ds_cons b l : (forall c, In c l -> b_when b <= b_when c) -> due_sorted l -> due_sorted (b :: l).
