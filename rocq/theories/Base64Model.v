(** Go's encoding/base64 without padding (RawStdEncoding, RawURLEncoding), as
    documented: library code, used by json/encode.go:170-205, json/decode.go:267-287,
    392-438 and identifier/32byte.go.  Decoding skips CR and LF, rejects other
    characters outside the alphabet and a last group of one character, and ignores
    the spare low bits of the last group (non-strict mode). *)
From Verif Require Import Go.

(** The characters of the digits 0..63. *)
Definition std_char (i : Z) : Z :=
  if i <? 26 then 65 + i else if i <? 52 then 97 + (i - 26)
  else if i <? 62 then 48 + (i - 52) else if i =? 62 then 43 else 47.
Definition url_char (i : Z) : Z :=
  if i <? 26 then 65 + i else if i <? 52 then 97 + (i - 26)
  else if i <? 62 then 48 + (i - 52) else if i =? 62 then 45 else 95.
Definition std_digit (c : Z) : option Z :=
  if (65 <=? c) && (c <=? 90) then Some (c - 65)
  else if (97 <=? c) && (c <=? 122) then Some (c - 97 + 26)
  else if (48 <=? c) && (c <=? 57) then Some (c - 48 + 52)
  else if c =? 43 then Some 62 else if c =? 47 then Some 63 else None.
Definition url_digit (c : Z) : option Z :=
  if (65 <=? c) && (c <=? 90) then Some (c - 65)
  else if (97 <=? c) && (c <=? 122) then Some (c - 97 + 26)
  else if (48 <=? c) && (c <=? 57) then Some (c - 48 + 52)
  else if c =? 45 then Some 62 else if c =? 95 then Some 63 else None.

Fixpoint b64_encode (ch : Z -> Z) (l : bytes) : bytes :=
  match l with
  | a :: b :: c :: t =>
      ch (a / 4) :: ch (a mod 4 * 16 + b / 16) :: ch (b mod 16 * 4 + c / 64) :: ch (c mod 64)
      :: b64_encode ch t
  | [a; b] => [ch (a / 4); ch (a mod 4 * 16 + b / 16); ch (b mod 16 * 4)]
  | [a] => [ch (a / 4); ch (a mod 4 * 16)]
  | [] => []
  end.

(** base64.RawStdEncoding.EncodedLen(n). *)
Definition encoded_len (n : Z) : Z := (n * 8 + 5) / 6.

Fixpoint b64_groups (dg : Z -> option Z) (l : bytes) : option bytes :=
  match l with
  | [] => Some []
  | [_] => None
  | [a; b] =>
      match dg a, dg b with
      | Some x, Some y => Some [x * 4 + y / 16]
      | _, _ => None
      end
  | [a; b; c] =>
      match dg a, dg b, dg c with
      | Some x, Some y, Some z => Some [x * 4 + y / 16; y mod 16 * 16 + z / 4]
      | _, _, _ => None
      end
  | a :: b :: c :: d :: t =>
      match dg a, dg b, dg c, dg d with
      | Some x, Some y, Some z, Some w =>
          match b64_groups dg t with
          | Some r => Some (x * 4 + y / 16 :: y mod 16 * 16 + z / 4 :: z mod 4 * 64 + w :: r)
          | None => None
          end
      | _, _, _, _ => None
      end
  end.
Definition b64_decode (dg : Z -> option Z) (l : bytes) : option bytes :=
  b64_groups dg (filter (fun c => negb ((c =? 10) || (c =? 13))) l).
