(** Model of net/http: the header multimap, cookies, encodings, content type and
    accept lists. *)
From Verif Require Import Go UriModel StrconvModel StringsModel.

(** * Header, header.go *)

(** header.go:13-20 Header: the slice of lines. *)
Definition header := list (bytes * bytes).

(** header.go:23-26 Init; headerInitLen = 16, const.go:19: sixteen empty lines. *)
Definition HInit : header := repeat ([], []) 16.
(** header.go:27-32 Reinit: clear(h.lines) zeroes the lines and keeps their number. *)
Definition HReinit (h : header) : header := repeat ([], []) (length h).

(** header.go:105-114 Header_Find, the loop from [startIndex]; [None]: not found,
    where the code returns "" and 0. *)
Fixpoint find_from (h : header) (i : nat) (key : bytes) : option (bytes * nat) :=
  match h with
  | [] => None
  | (k, v) :: t =>
      match i with
      | O => if beq k key then Some (v, O)
             else option_map (fun r => (fst r, S (snd r))) (find_from t O key)
      | S j => option_map (fun r => (fst r, S (snd r))) (find_from t j key)
      end
  end.
Definition Header_Find (h : header) (startIndex : nat) (key : bytes) : bytes * nat :=
  match find_from h startIndex key with Some r => r | None => ([], O) end.

(** header.go:41-44 Header_Get *)
Definition Header_Get (h : header) (key : bytes) : bytes := fst (Header_Find h 0 key).

(** header.go:50-52 Header_Add *)
Definition Header_Add (h : header) (key value : bytes) : header := h ++ [(key, value)].

(** slices.Delete(s, i, j) (Go library): removes s[i:j]. *)
Definition slices_Delete {A} (s : list A) (i j : nat) : list A := firstn i s ++ skipn j s.

(** header.go:58-77 Header_Set, the loop.  [n] is ln - i, which every iteration
    decreases by one: either i grows, or ln and i both shrink before i grows.
    [hPair] is a copy of the line, so assigning its value (line 65) leaves the
    header as it is. *)
Fixpoint set_loop (n : nat) (i : nat) (key value : bytes) (isSet : bool) (h : header) : bool * header :=
  match n with
  | O => (isSet, h)
  | S m =>
      match nth_error h i with
      | None => (isSet, h)
      | Some (k, v) =>
          if beq k key then
            if negb isSet then set_loop m (S i) key value true h
            else set_loop m i key value isSet (slices_Delete h i i)
          else set_loop m (S i) key value isSet h
      end
  end.
Definition Header_Set (h : header) (key value : bytes) : header :=
  let '(isSet, h') := set_loop (length h) 0 key value false h in
  if negb isSet then Header_Add h' key value else h'.

(** header.go:83-93 Header_Del *)
Fixpoint del_loop (n : nat) (i : nat) (key : bytes) (h : header) : header :=
  match n with
  | O => h
  | S m =>
      match nth_error h i with
      | None => h
      | Some (k, v) =>
          if beq k key then del_loop m i key (slices_Delete h i i)
          else del_loop m (S i) key h
      end
  end.
Definition Header_Del (h : header) (key : bytes) : header := del_loop (length h) 0 key h.

(** header.go:98-102 Exclude *)
Definition Exclude (h : header) (keys : list bytes) : header := fold_left Header_Del keys h.

(** * Header helpers *)

(** header-content-length.go:10-14 ContentLength, 17-19 AddContentLength *)
Definition HeaderKey_ContentLength : bytes := str "Content-Length".
Definition ContentLength (h : header) : Z := fst (ParseUint10 64 (Header_Get h HeaderKey_ContentLength)).
Definition AddContentLength (h : header) (n : Z) : header :=
  Header_Add h HeaderKey_ContentLength (FormatUint10 n).

(** header-pragma.go:6-12 FixPragmaCacheControl *)
Definition HeaderKey_Pragma : bytes := str "Pragma".
Definition HeaderKey_CacheControl : bytes := str "Cache-Control".
Definition FixPragmaCacheControl (h : header) : header :=
  if beq (Header_Get h HeaderKey_Pragma) (str "no-cache")
  then if beq (Header_Get h HeaderKey_CacheControl) [] then Header_Add h HeaderKey_CacheControl (str "no-cache") else h
  else h.

(** response.go:60-67 GetStatusCode; [None] is ErrParseStatusCode. *)
Definition GetStatusCode (statusCode : bytes) : option Z :=
  match ParseUint10 16 statusCode with
  | (c, false) => Some (u16 c)
  | (_, true) => None
  end.

(** * Encodings, header-content-encoding.go:28-46 and
    header-transfer-encoding.go:32-50 Last (the same text): the coding, whether it
    exists, and the list left. *)
Definition EncodingLast (c : bytes) : res (bytes * bool * bytes) :=
  if zlen c =? 0 then Ok ([], false, c)
  else
    let commaIndex := last_index_byte c 44 in
    let! r := (if commaIndex =? -1 then Ok (0, [])
               else let! rest := slice_to c (commaIndex - 1) in Ok (commaIndex, rest)) in
    let '(commaIndex, rest) := r in
    let! e := slice_from c (commaIndex + 1) in
    Ok (e, true, rest).

(** * Content type, header-content-type.go:29-65 FromString: type, subtype,
    charset, boundary.  The loop keeps counting [i] after [contentType] is cut; it
    runs at most as many times as the first text is long. *)
Fixpoint ct_loop (fuel : nat) (ct : bytes) (i : Z) (first second : bytes) (index : Z) : res (bytes * bytes * bytes) :=
  match fuel with
  | O => Ok (ct, first, second)
  | S f =>
      if i <? zlen ct then
        let! c := idx ct i in
        if c =? 47 then
          let! first := slice_to ct i in
          ct_loop f ct (i + 1) first second (i + 1)
        else if c =? 59 then
          let! second := slice ct index i in
          let! ct := slice_from ct (i + 2) in
          ct_loop f ct (i + 1) first second index
        else ct_loop f ct (i + 1) first second index
      else Ok (ct, first, second)
  end.
Inductive mimeType := TypeUnset | TypeText | TypeApplication.
Inductive mimeSubType := SubUnset | SubHTML | SubJSON.
Record contentType := CT { ct_type : mimeType; ct_sub : mimeSubType; ct_charset : bytes; ct_boundary : bytes }.
Definition CT_FromString (s : bytes) : res contentType :=
  let! r := ct_loop (length s) s 0 [] [] 0 in
  let '(ct, first, second) := r in
  let! c := idx ct 0 in
  let! cs := (if c =? 99 then slice_from ct 8 else Ok []) in
  let! bd := (if c =? 98 then slice_from ct 9 else Ok []) in
  Ok (CT (if beq first (str "text") then TypeText else if beq first (str "application") then TypeApplication else TypeUnset)
         (if beq second (str "html") then SubHTML else if beq second (str "json") then SubJSON else SubUnset)
         cs bd).
(** header-content-type.go:10-14 ContentType *)
Definition HeaderKey_ContentType : bytes := str "Content-Type".
Definition ContentType (h : header) : res contentType := CT_FromString (Header_Get h HeaderKey_ContentType).

(** * Accept, header-accept.go.  A quality is a float64: [None] is NaN and
    [Some q] stands for the other values by their order (they are totally ordered,
    with -0 = +0), so that [>] on float64 is [qgt]. *)
Definition quality := option Z.
Definition qgt (a b : quality) : bool :=
  match a, b with Some x, Some y => y <? x | _, _ => false end.
Definition mime := (bytes * quality)%type.

(** header-accept.go:17-26 insertMime *)
Fixpoint insertMime (l : list mime) (e : mime) : list mime :=
  match l with
  | [] => [e]
  | each :: t => if qgt (snd e) (snd each) then e :: l else each :: insertMime t e
  end.

(** header-accept.go:29-48 sortMimes.  [ParseFloat] stands for strconv.ParseFloat
    (Go library): [None] is an error. [one] is the quality 1.0. *)
Definition accept_entry (ParseFloat : bytes -> option quality) (one : quality) (each : bytes) : option mime :=
  match Split1 (Trim1 each 32) 59 with
  | [t] => Some (t, one)
  | t :: q :: _ =>
      match Split1 q 61 with
      | [_; v] => option_map (fun f => (t, f)) (ParseFloat v)
      | _ => None
      end
  | [] => None
  end.
Definition sortMimes (ParseFloat : bytes -> option quality) (one : quality) (accept : bytes) : list mime :=
  fold_left (fun sorted each => match accept_entry ParseFloat one each with
                                | Some m => insertMime sorted m
                                | None => sorted
                                end) (Split1 accept 44) [].

(** * Cookies, header-cookie.go *)
Record cookie := Cookie { c_name : bytes; c_value : bytes }.
Definition no_cookie : cookie := Cookie [] [].

(** header-cookie.go:80-82 Marshal *)
Definition Cookie_Marshal (c : cookie) : bytes := c_name c ++ str "=" ++ c_value c.

(** header-cookie.go:85-93 Unmarshal *)
Definition Cookie_Unmarshal (c : cookie) (s : bytes) : res cookie :=
  let e := index_byte s 61 in
  if (e <? 1) || (e =? zlen s - 1) then Ok c
  else
    let! n := slice_to s e in
    let! v := slice_from s (e + 1) in
    Ok (Cookie n v).

(** header-cookie.go:96-113 UnmarshalFrom: the cookie and what remains. *)
Definition Cookie_UnmarshalFrom (c : cookie) (s : bytes) : res (cookie * bytes) :=
  let e := index_byte s 61 in
  if (e <? 1) || (e =? zlen s - 1) then Ok (c, [])
  else
    let! n := slice_to s e in
    let semi := index_byte s 59 in
    if semi =? -1 then
      let! v := slice_from s (e + 1) in Ok (Cookie n v, [])
    else
      let! v := slice s (e + 1) semi in
      let! remain := slice_from s (semi + 2) in
      Ok (Cookie n v, remain).

(** header-cookie.go:46-60 Next: cookie, exist, and the list left. *)
Definition Cookies_Next (cs : bytes) : res (cookie * bool * bytes) :=
  if zlen cs =? 0 then Ok (no_cookie, false, cs)
  else
    let! r := Cookie_UnmarshalFrom no_cookie cs in
    let '(c, remain) := r in
    if 0 <? zlen remain then Ok (c, true, remain) else Ok (c, false, cs).

(** header-cookie.go:25-41 AddCookie: the text written by the loop.  The loop runs
    for i = 0, 1, ... while [i < ln] after reading cookies[i]. *)
Fixpoint add_cookie_loop (fuel : nat) (cookies : list cookie) (i : Z) (b : bytes) : option (res bytes) :=
  match fuel with
  | O => None
  | S f =>
      match idx cookies i with
      | Panic => Some Panic
      | Ok c =>
          let b := b ++ c_name c ++ str "=" ++ c_value c in
          if i <? zlen cookies then add_cookie_loop f cookies (i + 1) (b ++ str "; ")
          else Some (Ok b)
      end
  end.
Definition HeaderKey_Cookie : bytes := str "Cookie".
Definition AddCookie (h : header) (cookies : list cookie) : option (res header) :=
  option_map (fun r => let! b := r in Ok (Header_Add h HeaderKey_Cookie b))
    (add_cookie_loop (S (S (length cookies))) cookies 0 []).

(** header-cookie.go:115-130 sanitizeCookieName: the name and whether there is an error. *)
Definition sanitizeCookieName (n : bytes) : bytes * bool :=
  fold_left (fun a b => if (b =? 10) || (b =? 13) then (fst a ++ [45], true) else (fst a ++ [b], snd a)) n ([], false).

(** header-cookie.go:141-155 sanitizeCookieValue *)
Definition value_byte (b : Z) : bool :=
  (32 <=? b) && (b <? 127) && negb (b =? 32) && negb (b =? 34) && negb (b =? 44) && negb (b =? 92).
Definition sanitizeCookieValue (v : bytes) : bytes * bool :=
  fold_left (fun a b => if value_byte b then (fst a ++ [b], snd a) else (fst a, true)) v ([], false).

(** header-cookie.go:70-77 Cookie.CheckAndSanitize: the last error is [true]. *)
Definition Cookie_CheckAndSanitize (c : cookie) : cookie * bool :=
  let '(n, err) := sanitizeCookieName (c_name c) in
  if err then (Cookie n (c_value c), true)
  else let '(v, err) := sanitizeCookieValue (c_value c) in (Cookie n v, err).

(** * Set-Cookie, header-set-cookie.go *)
Record setCookie := SC { sc_name : bytes; sc_value : bytes; sc_path : bytes; sc_domain : bytes;
  sc_expires : bytes; sc_maxage : bytes; sc_secure : bool; sc_httponly : bool; sc_samesite : bytes }.
Definition no_sc : setCookie := SC [] [] [] [] [] [] false false [].

(** header-set-cookie.go:179-214 Marshal *)
Definition attr_text (name : string) (v : bytes) : bytes := if 0 <? zlen v then str name ++ v else [].
Definition SC_Marshal (sc : setCookie) : bytes :=
  sc_name sc ++ str "=" ++ sc_value sc
  ++ attr_text "; Path=" (sc_path sc)
  ++ attr_text "; Domain=" (sc_domain sc)
  ++ attr_text "; Expires=" (sc_expires sc)
  ++ attr_text "; Max-Age=" (sc_maxage sc)
  ++ (if sc_httponly sc then str "; HttpOnly" else [])
  ++ (if sc_secure sc then str "; Secure" else [])
  ++ attr_text "; SameSite=" (sc_samesite sc).

(** header-set-cookie.go:257-280: the switch on the attribute. *)
Definition set_attr (sc : setCookie) (attr val : bytes) : setCookie :=
  if beq attr (str "samesite") then
    SC (sc_name sc) (sc_value sc) (sc_path sc) (sc_domain sc) (sc_expires sc) (sc_maxage sc) (sc_secure sc) (sc_httponly sc) val
  else if beq attr (str "secure") then
    SC (sc_name sc) (sc_value sc) (sc_path sc) (sc_domain sc) (sc_expires sc) (sc_maxage sc) true (sc_httponly sc) (sc_samesite sc)
  else if beq attr (str "httponly") then
    SC (sc_name sc) (sc_value sc) (sc_path sc) (sc_domain sc) (sc_expires sc) (sc_maxage sc) (sc_secure sc) true (sc_samesite sc)
  else if beq attr (str "domain") then
    SC (sc_name sc) (sc_value sc) (sc_path sc) val (sc_expires sc) (sc_maxage sc) (sc_secure sc) (sc_httponly sc) (sc_samesite sc)
  else if beq attr (str "max-age") then
    SC (sc_name sc) (sc_value sc) (sc_path sc) (sc_domain sc) (sc_expires sc) val (sc_secure sc) (sc_httponly sc) (sc_samesite sc)
  else if beq attr (str "expires") then
    SC (sc_name sc) (sc_value sc) (sc_path sc) (sc_domain sc) val (sc_maxage sc) (sc_secure sc) (sc_httponly sc) (sc_samesite sc)
  else if beq attr (str "path") then
    SC (sc_name sc) (sc_value sc) val (sc_domain sc) (sc_expires sc) (sc_maxage sc) (sc_secure sc) (sc_httponly sc) (sc_samesite sc)
  else sc.

(** header-set-cookie.go:236-280: the attribute loop.  Every turn cuts at least two
    bytes, so a fuel of the text's length plus one is never used up. *)
Fixpoint sc_loop (fuel : nat) (sc : setCookie) (s : bytes) (next : Z) (val : bytes) : option (res setCookie) :=
  match fuel with
  | O => None
  | S f =>
      match slice_from s (next + 2) with
      | Panic => Some Panic
      | Ok s =>
          let semi := index_byte s 59 in
          let '(next, fin) := if semi =? -1 then (zlen s, true) else (semi, false) in
          let index := index_byte s 61 in
          match (if index =? -1 then let! a := slice_to s next in Ok (ToLower a, val)
                 else let! a := slice_to s index in
                      let! v := slice s (index + 1) next in Ok (ToLower a, v)) with
          | Panic => Some Panic
          | Ok (attr, val) =>
              let sc := set_attr sc attr val in
              if fin then Some (Ok sc) else sc_loop f sc s next val
          end
      end
  end.
(** header-set-cookie.go:219-281 Unmarshal *)
Definition SC_Unmarshal (sc : setCookie) (s : bytes) : option (res setCookie) :=
  let index := index_byte s 61 in
  if index <? 1 then Some (Ok sc)
  else
    match (let! n := slice_to s index in let! s := slice_from s (index + 1) in Ok (n, s)) with
    | Panic => Some Panic
    | Ok (n, s) =>
        let sc := SC n (sc_value sc) (sc_path sc) (sc_domain sc) (sc_expires sc) (sc_maxage sc) (sc_secure sc) (sc_httponly sc) (sc_samesite sc) in
        let index := index_byte s 59 in
        let with_value v := SC n v (sc_path sc) (sc_domain sc) (sc_expires sc) (sc_maxage sc) (sc_secure sc) (sc_httponly sc) (sc_samesite sc) in
        if index =? -1 then Some (Ok (with_value s))
        else match slice_to s index with
             | Panic => Some Panic
             | Ok v => sc_loop (S (length s)) (with_value v) s index []
             end
    end.

(** header-set-cookie.go:286-300 sanitizeCookiePath *)
Definition path_byte (b : Z) : bool := (32 <=? b) && (b <? 127).
Definition sanitizeCookiePath (v : bytes) : bytes * bool :=
  fold_left (fun a b => if path_byte b then (fst a ++ [b], snd a) else (fst a, true)) v ([], false).

(** net.ParseIP(d) != nil (Go library) for a text without ':', the only texts that
    reach it: four decimal fields of one to three digits, without leading zero, at
    most 255, separated by dots. *)
Definition ip_field (f : bytes) : bool :=
  (1 <=? zlen f) && (zlen f <=? 3) && forallb digit f
  && ((zlen f =? 1) || negb (hd 0 f =? 48))
  && (fold_left (fun a c => 10 * a + (c - 48)) f 0 <=? 255).
Definition parse_ip_ok (d : bytes) : bool :=
  match Split1 d 46 with
  | [a; b; c; e] => ip_field a && ip_field b && ip_field c && ip_field e
  | _ => false
  end.

(** header-set-cookie.go:304-358 sanitizeCookieDomain; the loop state is (last,
    partlen), [None] the early error return. *)
Definition letter (b : Z) : bool := ((97 <=? b) && (b <=? 122)) || ((65 <=? b) && (b <=? 90)).
Fixpoint domain_loop (d : bytes) (last partlen : Z) : option (Z * Z) :=
  match d with
  | [] => Some (last, partlen)
  | b :: t =>
      if letter b then domain_loop t b (partlen + 1)
      else if digit b then domain_loop t b (partlen + 1)
      else if b =? 45 then
        if last =? 46 then None else domain_loop t b (partlen + 1)
      else if b =? 46 then
        if (last =? 46) || (last =? 45) then None
        else if (63 <? partlen) || (partlen =? 0) then None
        else domain_loop t b 0
      else None
  end.
Definition sanitizeCookieDomain (d : bytes) : bytes * bool :=
  if (zlen d =? 0) || (255 <? zlen d) then ([], true)
  else
    let d := match d with 46 :: t => t | _ => d end in
    match domain_loop d 46 0 with
    | None => ([], true)
    | Some (last, partlen) =>
        if negb (last =? 45) && negb (last =? 46) && (partlen <? 64) then (d, false)
        else if parse_ip_ok d then (d, false)
        else ([], true)
    end.

(** header-set-cookie.go:73-88 SetCookie.CheckAndSanitize *)
Definition SC_CheckAndSanitize (sc : setCookie) : setCookie * bool :=
  let '(n, err) := sanitizeCookieName (sc_name sc) in
  let sc := SC n (sc_value sc) (sc_path sc) (sc_domain sc) (sc_expires sc) (sc_maxage sc) (sc_secure sc) (sc_httponly sc) (sc_samesite sc) in
  if err then (sc, true)
  else
    let '(v, err) := sanitizeCookieValue (sc_value sc) in
    let sc := SC n v (sc_path sc) (sc_domain sc) (sc_expires sc) (sc_maxage sc) (sc_secure sc) (sc_httponly sc) (sc_samesite sc) in
    if err then (sc, true)
    else
      let '(p, err) := sanitizeCookiePath (sc_path sc) in
      let sc := SC n v p (sc_domain sc) (sc_expires sc) (sc_maxage sc) (sc_secure sc) (sc_httponly sc) (sc_samesite sc) in
      if err then (sc, true)
      else
        let '(d, err) := sanitizeCookieDomain (sc_domain sc) in
        (SC n v p d (sc_expires sc) (sc_maxage sc) (sc_secure sc) (sc_httponly sc) (sc_samesite sc), err).

(** header-set-cookie.go:110-126 GetMaxAge, SetMaxAge *)
Definition SetMaxAge (n : Z) : bytes := if 0 <? n then FormatUint10 (u64 n) else str "0".
Definition GetMaxAge (s : bytes) : Z := match ParseInt10 64 s with Some n => n | None => 0 end.

(** header-set-cookie.go:148-176 GetSameSite, SetSameSite *)
Inductive sameSite := SameSiteDefault | SameSiteLax | SameSiteStrict | SameSiteNone.
Definition GetSameSite (s : bytes) : sameSite :=
  let l := ToLower s in
  if beq l (str "lax") then SameSiteLax
  else if beq l (str "strict") then SameSiteStrict
  else if beq l (str "none") then SameSiteNone
  else SameSiteDefault.
Definition SetSameSite (m : sameSite) : bytes :=
  match m with
  | SameSiteDefault => str " "
  | SameSiteLax => str "Lax"
  | SameSiteStrict => str "Strict"
  | SameSiteNone => str "none"
  end.

(** header-set-cookie.go:37-47 SetCookies.Next: the cookie, exist, the next start. *)
Definition HeaderKey_SetCookie : bytes := str "Set-Cookie".
Definition SetCookies_Next (h : header) (start : nat) : option (res (setCookie * bool * nat)) :=
  let '(sc, sci) := Header_Find h start HeaderKey_SetCookie in
  if beq sc [] then Some (Ok (no_sc, false, start))
  else option_map (fun r => let! c := r in Ok (c, true, S sci)) (SC_Unmarshal no_sc sc).
(** header-set-cookie.go:24-29 AddSetCookie *)
Definition AddSetCookie (h : header) (scs : list setCookie) : header :=
  fold_left (fun h sc => Header_Add h HeaderKey_SetCookie (SC_Marshal sc)) scs h.
