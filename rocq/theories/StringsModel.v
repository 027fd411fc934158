(** Model of the functions of Go's strings package that the code calls.  Go's
    library, modelled by its documentation. *)
From Verif Require Import Go UriModel.

(** strings.IndexByte is [UriModel.index_byte]. *)

(** strings.LastIndexByte(s, c): position of the last c, or -1. *)
Fixpoint last_index_byte (s : bytes) (c : Z) : Z :=
  match s with
  | [] => -1
  | x :: t => let k := last_index_byte t c in
              if k =? -1 then (if x =? c then 0 else -1) else k + 1
  end.

(** strings.Split(s, sep) for a one byte separator: the pieces between separators;
    always at least one piece. *)
Fixpoint Split1 (s : bytes) (c : Z) : list bytes :=
  match s with
  | [] => [[]]
  | x :: t => if x =? c then [] :: Split1 t c
              else match Split1 t c with
                   | p :: r => (x :: p) :: r
                   | [] => [[x]]
                   end
  end.

(** strings.Trim(s, " ") *)
Fixpoint trim_left (s : bytes) (c : Z) : bytes :=
  match s with
  | x :: t => if x =? c then trim_left t c else s
  | [] => []
  end.
Definition Trim1 (s : bytes) (c : Z) : bytes := rev (trim_left (rev (trim_left s c)) c).

(** strings.ToLower, on ASCII letters only.  Simplified: letters outside ASCII are
    kept; the results are only compared with ASCII words without 'i' obtained from
    U+0130 or 'k' obtained from U+212A in the texts considered. *)
Definition lower1 (c : Z) : Z := if (65 <=? c) && (c <=? 90) then c + 32 else c.
Definition ToLower (s : bytes) : bytes := map lower1 s.

(** strings.Join(parts, sep) *)
Fixpoint Join (parts : list bytes) (sep : bytes) : bytes :=
  match parts with
  | [] => []
  | [p] => p
  | p :: r => p ++ sep ++ Join r sep
  end.

(** strings.HasPrefix *)
Fixpoint HasPrefix (s p : bytes) : bool :=
  match p, s with
  | [], _ => true
  | a :: p', b :: s' => (a =? b) && HasPrefix s' p'
  | _ :: _, [] => false
  end.

(** strconv.ParseUint(s, 10, bits): the value and whether there was an error.  An
    out of range numeral gives the largest value and an error; anything else that
    is not a numeral gives 0 and an error. *)
From Verif Require Import StrconvModel.
Definition ParseUint10 (bits : Z) (s : bytes) : Z * bool :=
  match parse_digits s with
  | None => (0, true)
  | Some n => if n <? 2 ^ bits then (n, false) else (2 ^ bits - 1, true)
  end.
