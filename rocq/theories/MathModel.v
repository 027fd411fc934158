(** Model of math/per, math/boolean, math/integer/signed*.go and validators/text.go. *)
From Verif Require Import Go StrconvModel.

(** math/per/*.go: the units; the receiver's type bounds the share *)
Inductive per := Ten | Cent | Mille | Myriad | CentMille | Million | Billion | Trillion | Quadrillion.
Definition bits (p : per) : Z :=
  match p with Ten | Cent => 8 | Mille | Myriad => 16 | CentMille | Million | Billion => 32 | Trillion | Quadrillion => 64 end.
(** the divisor in each file's Calculate, line 10 *)
Definition divisor (p : per) : Z :=
  match p with
  | Ten => 10 | Cent => 100 | Mille => 1000 | Myriad => 10000 | CentMille => 100000 | Million => 1000000
  | Billion => 1000000000 | Trillion => 1000000 | Quadrillion => 1000000
  end.
(** Calculate: the product is on uint64 *)
Definition Calculate (p : per) (b num : Z) : Z := u64 (num * b) / divisor p.

(** math/boolean/boolean.go:22-29 ToString, 30-41 FromString: the value left in the receiver, and no error *)
Definition true_ : bytes := [116; 114; 117; 101].
Definition TRUE_ : bytes := [84; 82; 85; 69].
Definition True_ : bytes := [84; 114; 117; 101].
Definition false_ : bytes := [102; 97; 108; 115; 101].
Definition FALSE_ : bytes := [70; 65; 76; 83; 69].
Definition False_ : bytes := [70; 97; 108; 115; 101].
Definition Bool_ToString (b : bool) : bytes := if b then true_ else false_.
Definition Bool_FromString (old : bool) (s : bytes) : bool :=
  if beq s true_ || beq s TRUE_ || beq s True_ then true
  else if beq s false_ || beq s FALSE_ || beq s False_ then false
  else old.

(** math/integer/signed-8.go:24-31, signed-64.go:22-29, signed.go:24-31: the parsed number is dropped
    and no error is returned *)
Definition S_ToString (v : Z) : bytes := FormatInt10 v.
Definition S_FromString (width old : Z) (s : bytes) : Z := let _ := ParseInt10 width s in old.

(** validators/text.go:9-17 *)
Inductive text_err := Lack | OverFlow.
Definition ValidateTextLength (t : bytes) (min max : Z) : option text_err :=
  if zlen t <? min then Some Lack
  else if negb (max =? 0) && (max <? zlen t) then Some OverFlow
  else None.
