(** json/decode.go: the end of an object and keys that are not known, and the loop their comments describe. *)
From Verif Require Import Go JsonModel.
Local Open Scope Z_scope.

(** json/decode.go:150-155 End *)
Definition End (d : dec) : bool := (zlen (dbuf d) <? 3) || (dtok d =? 125).
(** json/decode.go:139-143 NotFoundKey *)
Definition NotFoundKey (d : dec) : dec := FindEndToken d.
(** A client, as the comment at json/decode.go:139 says ("call in default switch of each decode iteration"): until End it
    takes a key; under the wanted key it reads a number, under any other it calls NotFoundKey.  The result is the error
    and the number kept; [None]: still running after [fuel] turns. *)
Fixpoint read_loop (parse : parser) (want : bytes) (fuel : nat) (d : dec) (v : option Z) : option (option jerr * option Z) :=
  match fuel with
  | O => None
  | S fuel =>
      if End d then Some (None, v) else
      let '(k, d) := DecodeKey d in
      if beq k want then
        match DecodeUInt parse d with
        | (None, n, d) => read_loop parse want fuel d (Some n)
        | (Some e, _, _) => Some (Some e, v)
        end
      else read_loop parse want fuel (NotFoundKey d) v
  end.
