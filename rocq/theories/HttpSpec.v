(** Headers, cookies and accept lists, independent of the code. *)
From Coq Require Import Permutation Sorted.
From Verif Require Import Go UriSpec.

(** * Header lines as an ordered multimap *)
Inductive hop := HAdd (k v : bytes) | HSet (k v : bytes) | HDel (k : bytes).
Definition same (a b : bytes) : bool := if list_eq_dec Z.eq_dec a b then true else false.
Definition has (lines : list (bytes * bytes)) (k : bytes) : bool := existsb (fun l => same (fst l) k) lines.
Definition without (lines : list (bytes * bytes)) (k : bytes) : list (bytes * bytes) :=
  filter (fun l => negb (same (fst l) k)) lines.
(** set: the first line of that name gets the value, the others go. *)
Fixpoint replace (lines : list (bytes * bytes)) (k v : bytes) : list (bytes * bytes) :=
  match lines with
  | [] => [(k, v)]
  | l :: t => if same (fst l) k then (k, v) :: without t k else l :: replace t k v
  end.
Definition ideal (lines : list (bytes * bytes)) (op : hop) : list (bytes * bytes) :=
  match op with
  | HAdd k v => lines ++ [(k, v)]
  | HSet k v => replace lines k v
  | HDel k => without lines k
  end.
Fixpoint lookup (lines : list (bytes * bytes)) (k : bytes) : bytes :=
  match lines with
  | [] => []
  | l :: t => if same (fst l) k then snd l else lookup t k
  end.
(** The value of the earliest add or set of a name in a history. *)
Fixpoint first_write (history : list hop) (k : bytes) : bytes :=
  match history with
  | [] => []
  | HAdd k' v :: t | HSet k' v :: t => if same k' k then v else first_write t k
  | HDel _ :: t => first_write t k
  end.
(** An operation that replaces or removes nothing. *)
Definition fresh_op (lines : list (bytes * bytes)) (op : hop) : Prop :=
  match op with HAdd _ _ => True | HSet k _ | HDel k => has lines k = false end.
Inductive fresh_history : list (bytes * bytes) -> list hop -> Prop :=
| fh_nil lines : fresh_history lines []
| fh_cons lines op t : fresh_op lines op -> fresh_history (ideal lines op) t -> fresh_history lines (op :: t).

(** * Set-Cookie attributes as a server may legally fill them *)
Definition no_semi (s : bytes) : Prop := ~ In 59 s.
Definition cookie_name (s : bytes) : Prop := s <> [] /\ ~ In 61 s /\ ~ In 59 s.

(** RFC 6265 section 4.1.1 *)
Definition cookie_octet (b : Z) : Prop :=
  b = 33 \/ 35 <= b <= 43 \/ 45 <= b <= 58 \/ 60 <= b <= 91 \/ 93 <= b <= 126.
(** RFC 2616 token octets, for cookie names *)
Definition token_octet (b : Z) : Prop :=
  33 <= b <= 126 /\ ~ In b (str "()<>@,;:\/[]?={}") /\ b <> 34.
Definition path_octet (b : Z) : Prop := 32 <= b <= 126 /\ b <> 59.

(** Host names: labels separated by dots. *)
Definition alnum (b : Z) : Prop := 48 <= b <= 57 \/ 65 <= b <= 90 \/ 97 <= b <= 122.
Definition label (l : bytes) : Prop :=
  1 <= zlen l <= 63 /\ Forall (fun b => alnum b \/ b = 45) l /\
  (exists b t, l = b :: t /\ b <> 45) /\ (exists b t, l = t ++ [b] /\ b <> 45).
Inductive host_name : bytes -> Prop :=
| hn_one l : label l -> host_name l
| hn_dot l d : label l -> host_name d -> host_name (l ++ 46 :: d).

(** * Preference lists, by rank *)
Definition descending {A} (rank : A -> Z) : list A -> Prop :=
  StronglySorted (fun a b => rank b <= rank a).
(** Entries of equal rank in the same relative order. *)
Definition stable {A} (rank : A -> Z) (before after : list A) : Prop :=
  forall q, filter (fun a => rank a =? q) after = filter (fun a => rank a =? q) before.
