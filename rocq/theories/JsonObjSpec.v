(** JSON objects (RFC 8259), independent of the code, and the range of each Go type. *)
From Verif Require Import Go IntSpec JsonSpec StrconvModel Base64Model JsonObjModel.

Inductive jv := VInt (n : Z) | VBool (b : bool) | VStr (s : bytes) | VArr (l : list jv).

(** Texts separated by commas. *)
Fixpoint comma_sep (ts : list bytes) : bytes :=
  match ts with
  | [] => []
  | [t] => t
  | t :: r => t ++ [44] ++ comma_sep r
  end.
Inductive json_value : bytes -> jv -> Prop :=
| jv_int t n : json_int t n -> json_value t (VInt n)
| jv_true : json_value (str "true") (VBool true)
| jv_false : json_value (str "false") (VBool false)
| jv_str t s : json_string t s -> json_value t (VStr s)
| jv_arr ts vs : Forall2 json_value ts vs -> json_value ([91] ++ comma_sep ts ++ [93]) (VArr vs).
Inductive json_member : bytes -> bytes * jv -> Prop :=
| jm kt k vt v : json_string kt k -> json_value vt v -> json_member (kt ++ [58] ++ vt) (k, v).
Definition json_object (t : bytes) (ms : list (bytes * jv)) : Prop :=
  exists ts, t = [123] ++ comma_sep ts ++ [125] /\ Forall2 json_member ts ms.

(** What a Go value is in JSON. *)
Definition denote (v : jval) : jv :=
  match v with
  | JU _ n => VInt n
  | JI i => VInt i
  | JB b => VBool b
  | JS s => VStr s
  | JN _ l | JA l => VArr (map VInt l)
  | J64 l | JA64 l => VStr (b64_encode std_char l)
  | J32 ls => VArr (map (fun l => VStr (b64_encode std_char l)) ls)
  end.

Definition max_of (w : width) : Z :=
  match w with W8 => 2 ^ 8 - 1 | W16 => 2 ^ 16 - 1 | W32 => 2 ^ 32 - 1 | W64 => 2 ^ 64 - 1 end.
(** The values each Go type can hold. *)
Definition in_type (v : jval) : Prop :=
  match v with
  | JU w n => 0 <= n <= max_of w
  | JI i => - 2 ^ 63 <= i < 2 ^ 63
  | JB _ | JS _ => True
  | JN w l => Forall (fun n => 0 <= n <= max_of w) l
  | JA l | J64 l | JA64 l => wf_bytes l
  | J32 ls => Forall (fun l => wf_bytes l /\ zlen l = 32) ls
  end.
(** Sequences of numbers and identifiers must not be empty. *)
Definition nonempty (v : jval) : Prop :=
  match v with JN _ [] | JA [] | J32 [] => False | _ => True end.
(** Strings must not contain a quote. *)
Definition unquoted (s : bytes) : Prop := ~ In 34 s.
Definition val_unquoted (v : jval) : Prop := match v with JS s => unquoted s | _ => True end.
Definition val_plain (v : jval) : Prop := match v with JS s => plain s | _ => True end.
(** Values whose writer needs room in the buffer beforehand. *)
Definition needs_room (v : jval) : Prop := match v with J64 _ | JA64 _ | J32 _ => True | _ => False end.

(** The text of a value and of an object without spaces, as the room it takes. *)
Definition vtext (v : jval) : bytes :=
  match v with
  | JU _ n => FormatUint10 n
  | JI i => FormatInt10 i
  | JB b => if b then str "true" else str "false"
  | JS s => [34] ++ s ++ [34]
  | JN _ l | JA l => [91] ++ comma_sep (map FormatUint10 l) ++ [93]
  | J64 l | JA64 l => [34] ++ b64_encode std_char l ++ [34]
  | J32 ls => [91] ++ comma_sep (map (fun l => [34] ++ b64_encode std_char l ++ [34]) ls) ++ [93]
  end.
Definition mtext (f : bytes * jval) : bytes := [34] ++ fst f ++ [34; 58] ++ vtext (snd f).
Definition body_text (fs : list (bytes * jval)) : bytes := comma_sep (map mtext fs) ++ [125].
Definition obj_text (fs : list (bytes * jval)) : bytes := [123] ++ body_text fs.

(** The ordinary decoder: no negative integers; and it remembers that it has seen the
    end of an array of numbers ([after]), which it takes for the end of the next list,
    until another number or base64 value is read. *)
Fixpoint plain_readable (after : bool) (vs : list jval) : Prop :=
  match vs with
  | [] => True
  | v :: t =>
      match v with
      | JI i => 0 <= i /\ plain_readable false t
      | JU _ _ | J64 _ | JA64 _ => plain_readable false t
      | JB _ | JS _ => plain_readable after t
      | JA _ => plain_readable true t
      | JN _ _ | J32 _ => after = false /\ plain_readable false t
      end
  end.
(** The minified decoder: a boolean only as the last field, no identifiers, and the
    same memory, which base64 values leave alone here. *)
Fixpoint mini_readable (after : bool) (vs : list jval) : Prop :=
  match vs with
  | [] => True
  | v :: t =>
      match v with
      | JU _ _ | JI _ => mini_readable false t
      | JS _ | J64 _ | JA64 _ => mini_readable after t
      | JB _ => t = []
      | JA _ => mini_readable true t
      | JN _ _ => after = false /\ mini_readable false t
      | J32 _ => False
      end
  end.
