(** Histories of a buffer: what was written, and what was read. *)
From Verif Require Import Go FlatModel.

Inductive op :=
| OWrite (p extra : bytes) | OWriteByte (c : Z) (extra : bytes)
| ORead (p : bytes) | OReadByte | OGrow (n : Z).

Definition op_writes (o : op) : bytes :=
  match o with OWrite p _ => p | OWriteByte c _ => [c] | _ => [] end.

(** One step: new buffer and the bytes handed out together with a count (nil: nothing). *)
Definition run_op (b : flat) (o : op) : res (bytes * flat) :=
  match o with
  | OWrite p extra => Ok ([], snd (Write b p extra))
  | OWriteByte c extra => Ok ([], WriteByte b c extra)
  | ORead p => let! r := Read b p in let '(n, p', b') := r in Ok (firstn (Z.to_nat n) p', b')
  | OReadByte => let! r := ReadByte b in let '(c, b') := r in
      Ok (if LenOfUnread b' =? LenOfUnread b then [] else [c], b')
  | OGrow n => Ok ([], Grow b n)
  end.
Fixpoint run (b : flat) (ops : list op) : res (bytes * flat) :=
  match ops with
  | [] => Ok ([], b)
  | o :: r => let! x := run_op b o in let '(out, b) := x in
              let! y := run b r in let '(out', b) := y in Ok (out ++ out', b)
  end.
Definition written (ops : list op) : bytes := flat_map op_writes ops.
