(** net/uri: model of uri.go, uri-authority.go, uri-user_Information.go and
    uri-query.go. *)
From Verif Require Import Go EscapeModel.

(** utf8.CutByte (imported from libgo/utf8, not in the repository): text before and
    after the first [c], or the whole text and nothing. *)
Fixpoint CutByte (s : bytes) (c : Z) : bytes * bytes :=
  match s with
  | [] => ([], [])
  | x :: t => if x =? c then ([], t) else let '(a, b) := CutByte t c in (x :: a, b)
  end.

(** uri.go:18-27 URI; [raw] is uriAsByte ([None] is nil). *)
Record uri := Uri { raw : option bytes; scheme : bytes; authority : bytes;
                    path : bytes; query : bytes; fragment : bytes }.
Definition new_uri : uri := Uri None [] [] [] [] [].

(** uri.go:34-47 Reinit: uriAsByte becomes an empty slice that is not nil. *)
Definition Reinit (u : uri) : uri := Uri (Some []) [] [] [] [] [].

(** uri.go:51-53 Set *)
Definition Set_ (u : uri) (s a p q f : bytes) : uri := Uri (raw u) s a p q f.
(** uri.go:63 SetPath *)
Definition SetPath (u : uri) (p : bytes) : uri := Uri (raw u) (scheme u) (authority u) p (query u) (fragment u).

(** uri.go:144-165 marshalTo: appends to the packet. *)
Definition uri_text (u : uri) : bytes :=
  (if beq (scheme u) [] then [] else scheme u ++ str "://") ++ authority u ++
  (if beq (path u) [] then str "/" else path u) ++
  (if beq (query u) [] then [] else str "?" ++ query u).
Definition marshalTo (u : uri) (packet : bytes) : uri * bytes :=
  let t := uri_text u in
  (Uri (Some t) (scheme u) (authority u) (path u) (query u) (fragment u), packet ++ t).
(** uri.go:96-102 Marshal *)
Definition Marshal (u : uri) : uri * bytes :=
  match raw u with
  | None => marshalTo u []
  | Some t => (u, t)
  end.
(** uri.go:105-110 MarshalTo *)
Definition MarshalTo (u : uri) (packet : bytes) : uri * bytes :=
  match raw u with
  | None => marshalTo u packet
  | Some t => (u, packet ++ t)
  end.

(** Loop variables of UnmarshalFromString (uri.go:178-180) and the parts written
    into the receiver. *)
Record pst := Pst { auI : Z; paI : Z; quI : Z; nuI : Z; pu : uri }.
Definition set_scheme (u : uri) x := Uri (raw u) x (authority u) (path u) (query u) (fragment u).
Definition set_authority (u : uri) x := Uri (raw u) (scheme u) x (path u) (query u) (fragment u).
Definition set_query (u : uri) x := Uri (raw u) (scheme u) (authority u) (path u) x (fragment u).
Definition set_fragment (u : uri) x := Uri (raw u) (scheme u) (authority u) (path u) (query u) x.

(** uri.go:182-220: the loop at index [i]; [rest] is s[i:]. *)
Fixpoint uri_loop (s : bytes) (origin : bool) (rest : bytes) (i : Z) (st : pst) {struct rest} : res (Z * pst) :=
  match rest with
  | [] => Ok (i, st)
  | c :: r =>
      if c =? 58 then
        if auI st =? 0 then
          let! sc := slice_to s i in
          let st := Pst (i + 3) (paI st) (quI st) (nuI st) (set_scheme (pu st) sc) in
          match r with
          | _ :: _ :: r' => uri_loop s origin r' (i + 3) st
          | _ => Ok (i + 3, st)
          end
        else uri_loop s origin r (i + 1) st
      else if c =? 47 then
        if negb (auI st =? 0) && (paI st =? 0) then
          let! a := slice s (auI st) i in
          uri_loop s origin r (i + 1) (Pst (auI st) i (quI st) (nuI st) (set_authority (pu st) a))
        else if negb origin && (paI st =? 0) && negb (i =? 0) then
          let! a := slice_to s i in
          uri_loop s origin r (i + 1) (Pst (auI st) i (quI st) (nuI st) (set_authority (pu st) a))
        else uri_loop s origin r (i + 1) st
      else if c =? 63 then
        if quI st =? 0 then
          let! p := slice s (paI st) i in
          uri_loop s origin r (i + 1) (Pst (auI st) (paI st) i (nuI st) (SetPath (pu st) p))
        else uri_loop s origin r (i + 1) st
      else if c =? 35 then
        if nuI st =? 0 then
          if quI st =? 0 then
            let! p := slice s (paI st) i in
            uri_loop s origin r (i + 1) (Pst (auI st) (paI st) (quI st) i (SetPath (pu st) p))
          else
            let! q := slice s (quI st + 1) i in
            uri_loop s origin r (i + 1) (Pst (auI st) (paI st) (quI st) i (set_query (pu st) q))
        else uri_loop s origin r (i + 1) st
      else if c =? 32 then Ok (i, st)
      else uri_loop s origin r (i + 1) st
  end.

(** uri.go:168-235 UnmarshalFromString *)
Definition UnmarshalFromString (u : uri) (s : bytes) : res (Z * uri) :=
  let! c := idx s 0 in
  let! r :=
    (if c =? 42 then Ok (1, u)
     else
       let! l := uri_loop s (c =? 47) s 0 (Pst 0 0 0 0 u) in
       let '(e, st) := l in
       let! u1 := (if (quI st =? 0) && (nuI st =? 0)
                   then let! p := slice s (paI st) e in Ok (SetPath (pu st) p) else Ok (pu st)) in
       let! u2 := (if negb (nuI st =? 0)
                   then let! f := slice s (nuI st + 1) e in Ok (set_fragment u1 f) else Ok u1) in
       let! u3 := (if negb (quI st =? 0) && (nuI st =? 0)
                   then let! q := slice s (quI st + 1) e in Ok (set_query u2 q) else Ok u2) in
       Ok (e, u3)) in
  let '(e, u) := r in
  let! t := slice_to s e in
  Ok (e, Uri (Some t) (scheme u) (authority u) (path u) (query u) (fragment u)).

(** uri-authority.go:23-38 Authority.Init with uri-user_Information.go:18-22;
    (host, port, username, password). *)
Fixpoint index_byte (s : bytes) (c : Z) : Z :=
  match s with
  | [] => -1
  | x :: t => if x =? c then 0 else let k := index_byte t c in if k =? -1 then -1 else k + 1
  end.
Definition AuthorityInit (au : bytes) : res (bytes * bytes * bytes * bytes) :=
  if beq au [] then Ok ([], [], [], [])
  else
    let i := index_byte au 64 in
    let! r :=
      (if 0 <? i then
         let! ui := slice_to au i in
         let! au' := slice_to au (i + 1) in
         Ok (CutByte ui 58, au')
       else Ok (([], []), au)) in
    let '(user, pass, au) := r in
    let '(host, port) := CutByte au 58 in
    Ok (host, port, user, pass).

(** * Query, uri-query.go.  A Go map as a list of entries with distinct keys. *)
Definition qmap := list (bytes * list bytes).
Fixpoint qfind (q : qmap) (k : bytes) : option (list bytes) :=
  match q with
  | [] => None
  | (k', v) :: t => if beq k k' then Some v else qfind t k
  end.
Fixpoint qput (q : qmap) (k : bytes) (v : list bytes) : qmap :=
  match q with
  | [] => [(k, v)]
  | (k', v') :: t => if beq k k' then (k, v) :: t else (k', v') :: qput t k v
  end.
Fixpoint qdel (q : qmap) (k : bytes) : qmap :=
  match q with
  | [] => []
  | (k', v') :: t => if beq k k' then t else (k', v') :: qdel t k
  end.
(** q.list[key] as used by append: nil when absent *)
Definition qvals (q : qmap) (k : bytes) : list bytes := match qfind q k with Some v => v | None => [] end.

(** uri-query.go:37-46 Get *)
Definition QGet (q : qmap) (k : bytes) : bytes := match qvals q k with [] => [] | v :: _ => v end.
(** uri-query.go:49-51 Set *)
Definition QSet (q : qmap) (k v : bytes) : qmap := qput q k [v].
(** uri-query.go:55-57 Add *)
Definition QAdd (q : qmap) (k v : bytes) : qmap := qput q k (qvals q k ++ [v]).
(** uri-query.go:60-62 Del *)
Definition QDel (q : qmap) (k : bytes) : qmap := qdel q k.
(** uri-query.go:65-68 Has *)
Definition QHas (q : qmap) (k : bytes) : bool := match qfind q k with Some _ => true | None => false end.

Inductive qerr := ErrQueryBadKey | ErrEscape (e : uerr).
Definition has_byte (s : bytes) (c : Z) : bool := -1 <? index_byte s c.

(** uri-query.go:78-112 FromString; sign_Semicolon is ':' (const.go:10).  [None]: the
    fuel ran out. *)
Fixpoint qparse (fuel : nat) (text : bytes) (q : qmap) (err : option qerr) : option (res (option qerr * qmap)) :=
  match fuel with
  | O => None
  | S f =>
      if beq text [] then Some (Ok (err, q))
      else
        let '(setting, text) := CutByte text 38 in
        if beq setting [] then qparse f text q err
        else if has_byte setting 58 then qparse f text q (Some ErrQueryBadKey)
        else
          let '(k, v) := CutByte setting 61 in
          let keep e := match err with None => Some (ErrEscape e) | _ => err end in
          match Unescape k QueryComponent with
          | Panic => Some Panic
          | Ok (inl e) => qparse f text q (keep e)
          | Ok (inr k) =>
              match Unescape v QueryComponent with
              | Panic => Some Panic
              | Ok (inl e) => qparse f text q (keep e)
              | Ok (inr v) => qparse f text (QAdd q k v) err
              end
          end
  end.
Definition QFromString (text : bytes) (q : qmap) := qparse (S (length text)) text q None.

(** uri-query.go:117-134 ToString.  Go ranges over the map in any order: the
    argument lists the entries in the order of this call. *)
Fixpoint qvalues (buf ke : bytes) (vs : list bytes) : res bytes :=
  match vs with
  | [] => Ok buf
  | v :: t =>
      let buf := if 0 <? zlen buf then buf ++ [38] else buf in
      let! ve := Escape v QueryComponent in
      qvalues (buf ++ ke ++ [61] ++ ve) ke t
  end.
Fixpoint qstring (buf : bytes) (entries : qmap) : res bytes :=
  match entries with
  | [] => Ok buf
  | (k, vs) :: t =>
      let! ke := Escape k QueryComponent in
      let! buf := qvalues buf ke vs in qstring buf t
  end.
Definition QToString (entries : qmap) : res bytes := qstring [] entries.

(** uri.go:237-241 len *)
Definition ulen (u : uri) : Z := 4 + (zlen (scheme u) + zlen (authority u) + zlen (path u) + zlen (query u) + zlen (fragment u)).
(** uri.go:76-82 Len *)
Definition Len (u : uri) : Z :=
  let ln := match raw u with None => 0 | Some t => zlen t end in
  if ln =? 0 then ulen u else ln.
(** uri.go:113-118 Unmarshal: the end of what was read is not given back *)
Definition Unmarshal (u : uri) (s : bytes) : res uri :=
  let! r := UnmarshalFromString (Uri (Some s) (scheme u) (authority u) (path u) (query u) (fragment u)) s in
  Ok (snd r).
(** uri.go:121-126 UnmarshalFrom: what follows the target *)
Definition UnmarshalFrom (u : uri) (s : bytes) : res (uri * bytes) :=
  let! r := UnmarshalFromString u s in
  let! rest := slice s (fst r) (zlen s) in
  Ok (snd r, rest).
