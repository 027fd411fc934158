(** Percent-escaping: model of net/uri/escape.go. *)
From Verif Require Import Go.

(** escape.go:11-22 escapeMode *)
Inductive mode := Path | PathSegment | Host | Zone | UserPassword | QueryComponent | Fragment.
Definition is_query (m : mode) : bool := match m with QueryComponent => true | _ => false end.
Definition is_host (m : mode) : bool := match m with Host => true | _ => false end.
Definition is_zone (m : mode) : bool := match m with Zone => true | _ => false end.
Definition is_fragment (m : mode) : bool := match m with Fragment => true | _ => false end.

Definition oneof (c : Z) (s : string) : bool := existsb (Z.eqb c) (str s).

(** escape.go:159-234 shouldEscape.  The inner switch on the mode has no case for
    Host and Zone: control falls through to what follows. *)
Definition shouldEscape (c : Z) (m : mode) : bool :=
  if ((97 <=? c) && (c <=? 122)) || ((65 <=? c) && (c <=? 90)) || ((48 <=? c) && (c <=? 57)) then false
  else if (is_host m || is_zone m) && oneof c "!$&'()*+,;=:[]<>""" then false
  else if oneof c "-_.~" then false
  else
    let reserved :=
      if oneof c "$&+,/:;=?@" then
        match m with
        | Path => Some (oneof c "?")
        | PathSegment => Some (oneof c "/;,?")
        | UserPassword => Some (oneof c "@/?:")
        | QueryComponent => Some true
        | Fragment => Some false
        | Host | Zone => None
        end
      else None in
    match reserved with
    | Some b => b
    | None => if is_fragment m && oneof c "!()*" then false else true
    end.

(** escape.go:233 upperhex *)
Definition upperhex : bytes := str "0123456789ABCDEF".

(** escape.go:235-245 ishex *)
Definition ishex (c : Z) : bool :=
  ((48 <=? c) && (c <=? 57)) || ((97 <=? c) && (c <=? 102)) || ((65 <=? c) && (c <=? 70)).
(** escape.go:247-260 unhex *)
Definition unhex (c : Z) : Z :=
  if (48 <=? c) && (c <=? 57) then u8 (c - 48)
  else if (97 <=? c) && (c <=? 102) then u8 (c - 97 + 10)
  else if (65 <=? c) && (c <=? 70) then u8 (c - 65 + 10)
  else 0.

(** escape.go:27-37: the counting loop; (spaceCount, hexCount). *)
Fixpoint count (s : bytes) (m : mode) (sp hx : Z) : Z * Z :=
  match s with
  | [] => (sp, hx)
  | c :: t =>
      if shouldEscape c m then
        if (c =? 32) && is_query m then count t m (sp + 1) hx else count t m sp (hx + 1)
      else count t m sp hx
  end.

(** escape.go:55-59: for i, if s[i] == ' ' { t[i] = '+' } *)
Fixpoint plus_loop (rest : bytes) (i : Z) (t : bytes) : res bytes :=
  match rest with
  | [] => Ok t
  | c :: r => let! t := (if c =? 32 then set_idx t i 43 else Ok t) in plus_loop r (i + 1) t
  end.

(** escape.go:63-79: the writing loop. *)
Fixpoint write_loop (rest : bytes) (m : mode) (j : Z) (t : bytes) : res bytes :=
  match rest with
  | [] => Ok t
  | c :: r =>
      if (c =? 32) && is_query m then
        let! t := set_idx t j 43 in write_loop r m (j + 1) t
      else if shouldEscape c m then
        let! t := set_idx t j 37 in
        let! h := idx upperhex (Z.shiftr c 4) in
        let! t := set_idx t (j + 1) h in
        let! l := idx upperhex (Z.land c 15) in
        let! t := set_idx t (j + 2) l in
        write_loop r m (j + 3) t
      else
        let! t := set_idx t j c in write_loop r m (j + 1) t
  end.

(** escape.go:26-81 Escape *)
Definition Escape (s : bytes) (m : mode) : res bytes :=
  let '(sp, hx) := count s m 0 0 in
  if (sp =? 0) && (hx =? 0) then Ok s
  else
    let t := repeat 0 (Z.to_nat (zlen s + 2 * hx)) in
    if hx =? 0 then
      let! t := copy_at t 0 s in plus_loop s 0 t
    else write_loop s m 0 t.

(** Errors. *)
Inductive uerr := ErrInvalidURLEscape | ErrInvalidHostEscape.

(** escape.go:91-132: the checking loop; n, hasPlus, or an error.  The first
    argument is s[i:]. *)
Fixpoint check_loop (s : bytes) (m : mode) (n : Z) (plus : bool) : uerr + (Z * bool) :=
  match s with
  | [] => inr (n, plus)
  | 37 :: s1 =>
      match s1 with
      | a :: b :: r =>
          if negb (ishex a) || negb (ishex b) then inl ErrInvalidURLEscape
          else if is_host m && (unhex a <? 8) && negb (beq [37; a; b] (str "%25")) then inl ErrInvalidURLEscape
          else if is_zone m && (let v := Z.lor (u8 (Z.shiftl (unhex a) 4)) (unhex b) in
                 negb (beq [37; a; b] (str "%25")) && negb (v =? 32) && shouldEscape v Host)
               then inl ErrInvalidURLEscape
          else check_loop r m (n + 1) plus
      | _ => inl ErrInvalidURLEscape
      end
  | 43 :: r => check_loop r m n (is_query m)
  | c :: r =>
      if (is_host m || is_zone m) && (c <? 128) && shouldEscape c m then inl ErrInvalidHostEscape
      else check_loop r m n plus
  end.

(** escape.go:140-157: the decoding loop. *)
Fixpoint decode_loop (s : bytes) (m : mode) : res bytes :=
  match s with
  | [] => Ok []
  | 37 :: s1 =>
      match s1 with
      | a :: b :: r =>
          let! t := decode_loop r m in Ok (Z.lor (u8 (Z.shiftl (unhex a) 4)) (unhex b) :: t)
      | _ => Panic
      end
  | 43 :: r => let! t := decode_loop r m in Ok ((if is_query m then 32 else 43) :: t)
  | c :: r => let! t := decode_loop r m in Ok (c :: t)
  end.

(** escape.go:87-152 Unescape: an error or the text. strings.Builder.Grow panics on a
    negative size. *)
Definition Unescape (s : bytes) (m : mode) : res (uerr + bytes) :=
  match check_loop s m 0 false with
  | inl e => Ok (inl e)
  | inr (n, plus) =>
      if (n =? 0) && negb plus then Ok (inr s)
      else if zlen s - 2 * n <? 0 then Panic
      else let! t := decode_loop s m in Ok (inr t)
  end.
