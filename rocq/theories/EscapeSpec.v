(** What percent-escaping means (RFC 3986, application/x-www-form-urlencoded),
    independent of the code. *)
From Verif Require Import Go EscapeModel.

(** RFC 3986 section 2.2, 2.3. *)
Definition alnum (c : Z) : Prop := 48 <= c <= 57 \/ 65 <= c <= 90 \/ 97 <= c <= 122.
Definition unreserved (c : Z) : Prop := alnum c \/ In c (str "-._~").
Definition sub_delim (c : Z) : Prop := In c (str "!$&'()*+,;=").
Definition pchar (c : Z) : Prop := unreserved c \/ sub_delim c \/ In c (str ":@").

(** Characters that may stand for themselves in a component without being taken
    for one of its delimiters. *)
Definition literal (m : mode) (c : Z) : Prop :=
  match m with
  | Path => pchar c \/ c = 47
  | PathSegment => pchar c /\ ~ In c (str ";,")
  | UserPassword => unreserved c \/ sub_delim c
  | QueryComponent => unreserved c
  | Fragment => pchar c \/ In c (str "/?")
  | Host | Zone => unreserved c \/ sub_delim c \/ In c (str ":[]<>""")
  end.

(** Value of a hexadecimal digit. *)
Definition hexval (c v : Z) : Prop :=
  (48 <= c <= 57 /\ v = c - 48) \/ (65 <= c <= 70 /\ v = c - 55) \/ (97 <= c <= 102 /\ v = c - 87).

(** Well-formed escaped text for a component. *)
Inductive escaped (m : mode) : bytes -> Prop :=
| es_nil : escaped m []
| es_lit c t : literal m c -> escaped m t -> escaped m (c :: t)
| es_plus t : m = QueryComponent -> escaped m t -> escaped m (43 :: t)
| es_hex a b x y t : hexval a x -> hexval b y -> escaped m t -> escaped m (37 :: a :: b :: t).

(** The text [s] denotes the bytes [t] in component [m]. *)
Inductive denotes (m : mode) : bytes -> bytes -> Prop :=
| de_nil : denotes m [] []
| de_hex a b x y s t : hexval a x -> hexval b y -> denotes m s t ->
    denotes m (37 :: a :: b :: s) (16 * x + y :: t)
| de_plus s t : m = QueryComponent -> denotes m s t -> denotes m (43 :: s) (32 :: t)
| de_byte c s t : c <> 37 -> ~ (m = QueryComponent /\ c = 43) -> denotes m s t -> denotes m (c :: s) (c :: t).

(** What the host and zone components allow: a literal ASCII character must be a
    host character; an escape must stand for '%' or (host) a non-ASCII byte, or
    (zone) a space or a host character. *)
Definition ok_byte (m : mode) (c : Z) : Prop :=
  match m with Host | Zone => 128 <= c \/ c = 43 \/ literal m c | _ => True end.
Definition ok_hex (m : mode) (v : Z) : Prop :=
  match m with
  | Host => 128 <= v \/ v = 37
  | Zone => v = 37 \/ v = 32 \/ literal Host v
  | _ => True
  end.
Inductive allowed (m : mode) : bytes -> Prop :=
| al_nil : allowed m []
| al_hex a b x y s : hexval a x -> hexval b y -> ok_hex m (16 * x + y) -> allowed m s -> allowed m (37 :: a :: b :: s)
| al_byte c s : c <> 37 -> ok_byte m c -> allowed m s -> allowed m (c :: s).
