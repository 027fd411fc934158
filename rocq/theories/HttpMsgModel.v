(** net/http/request.go, response.go, body.go, services/*.go, v1/handler.go: which host a request is
    for, redirects, errors in responses, and what the server sends back.
    The text of requests and responses is not modelled here; a body is only its length, media type
    and content encoding, a service any function on responses. *)
From Verif Require Import Go UriModel StrconvModel StringsModel HttpModel IdModel RegModel.
Open Scope string_scope. Import ListNotations. Open Scope Z_scope. Open Scope list_scope.

(** http/body.go:13-81 body: a codec or nil; its accessors give 0 and nil for a nil codec *)
Record codec := { c_len : Z; c_media : option bytes; c_coding : option bytes }.
Definition body := option codec.
Definition body_Len (b : body) : Z := match b with Some c => c_len c | None => 0 end.
Definition body_MediaType (b : body) : option bytes := match b with Some c => c_media c | None => None end.
Definition body_CompressType (b : body) : option bytes := match b with Some c => c_coding c | None => None end.

(** http/request.go:11-15, request-pseudo_header.go:10-14; [q_host] is what URI().Host() gives *)
Record request := { q_method : bytes; q_uri : uri; q_host : bytes; q_version : bytes; q_head : header }.
(** http/response.go:15-19, response-pseudo_header.go:9-13 *)
Record response := { r_version : bytes; r_code : bytes; r_phrase : bytes; r_head : header; r_body : body }.

(** http/const.go:70, 78, 87, 140, 143, 156, 176 *)
Definition HeaderKey_Host := str "Host".
Definition HeaderKey_ErrorID := str "Error-ID".
Definition HeaderKey_Location := str "Location".
Definition HeaderKey_ContentEncoding := str "Content-Encoding".
Definition HeaderKey_TransferEncoding := str "Transfer-Encoding".
Definition HeaderKey_Robots := str "X-Robots-Tag".
Definition Chunked := str "chunked".

(** request.go:66-70 CheckHost; uri-authority.go:54 SetAuthority *)
Definition CheckHost (q : request) : request :=
  if beq (authority (q_uri q)) [] then
    {| q_method := q_method q; q_uri := set_authority (q_uri q) (Header_Get (q_head q) HeaderKey_Host);
       q_host := q_host q; q_version := q_version q; q_head := q_head q |}
  else q.

(** response-pseudo_header.go:32-36 SetStatus; Header_Set on a response *)
Definition SetStatus (r : response) (code phrase : bytes) : response :=
  {| r_version := r_version r; r_code := code; r_phrase := phrase; r_head := r_head r; r_body := r_body r |}.
Definition with_head (r : response) (h : header) : response :=
  {| r_version := r_version r; r_code := r_code r; r_phrase := r_phrase r; r_head := h; r_body := r_body r |}.
Definition res_Set (r : response) (k v : bytes) : response := with_head r (Header_Set (r_head r) k v).
Definition SetBody (r : response) (b : body) : response :=
  {| r_version := r_version r; r_code := r_code r; r_phrase := r_phrase r; r_head := r_head r; r_body := b |}.
Definition SetVersion (r : response) (v : bytes) : response :=
  {| r_version := v; r_code := r_code r; r_phrase := r_phrase r; r_head := r_head r; r_body := r_body r |}.

(** response.go:81-83 SetError: [uuid] is the identifier of the error (identifier/32byte/uuid.go:30);
    70-78 GetError: the number is read as decimal, the error of ParseUint is dropped, 0 is no error *)
Definition SetError (r : response) (uuid : bytes) : res response :=
  let! t := IDasString uuid in Ok (res_Set r HeaderKey_ErrorID t).
Definition GetError (pool : errors) (r : response) : found :=
  let errID := fst (ParseUint10 64 (Header_Get (r_head r) HeaderKey_ErrorID)) in
  if errID =? 0 then Nothing else EGetByID pool errID.
(** response.go:87-90 Redirect *)
Definition Redirect (r : response) (code phrase target : bytes) : response :=
  res_Set (SetStatus r code phrase) HeaderKey_Location target.
(** response.go:92-103 SetStatusByError: nil, the two errors with a status of their own, any other *)
Inductive herr := HNil | HHeaderTooLarge | HTransferEncoding | HOther.
Definition SetStatusByError (r : response) (e : herr) : response :=
  match e with
  | HNil => r
  | HHeaderTooLarge => SetStatus r (str "431") (str "Header Fields Too Large")
  | HTransferEncoding => SetStatus r (str "501") (str "Not Implemented")
  | HOther => SetStatus r (str "400") (str "Bad Request")
  end.

(** services/host-supported.go:54-108 ServeHTTP *)
Definition redirect_target (domain path query : bytes) : bytes :=
  let target := str "https://" ++ domain ++ path in
  if 0 <? zlen query then target ++ str "?" ++ query else target.
Definition moved (domain : bytes) (q : request) (r : response) : response :=
  let target := redirect_target domain (path (q_uri q)) (query (q_uri q)) in
  let r := SetStatus r (str "301") (str "Moved Permanently") in
  let r := res_Set r HeaderKey_Location target in
  res_Set r HeaderKey_CacheControl (str "max-age=31536000, immutable").
Definition is_digit_at0 (host : bytes) : bool := match host with c :: _ => (48 <=? c) && (c <=? 57) | [] => false end.
Definition HostSupported (domain : bytes) (q : request) (r : response) : bool * response :=
  let host := q_host q in
  if beq host [] then (true, r)
  else if is_digit_at0 host then (false, moved domain q r)
  else if (4 <? zlen host) && beq (firstn 4 host) (str "www.") then
    if negb (beq (skipn 4 host) domain) then (false, r) else (false, moved domain q r)
  else if negb (beq host domain) then (false, r)
  else (true, r).

(** What the server is built from: its domain, services by id and by path, files and the main page. *)
Definition handler := request -> response -> response * option bytes.
Record application := { domain : bytes; service_by_id : Z -> option handler; service_by_uri : bytes -> option handler;
  file_by_path : bytes -> option codec; main_html : option codec; not_found_uuid : bytes }.
(** services/service-mux.go:50-85 ServeHTTP; the uuid of an error a service returns goes to SetError *)
Definition MuxService_Path := str "/s".
Definition LandingService_Path := str "/l".
Definition Mux (a : application) (q : request) (r : response) : res response :=
  if negb (beq (q_method q) (str "POST")) then Ok (SetStatus r (str "405") (str "Method Not Allowed"))
  else
    let! id := IDfromString (query (q_uri q)) in
    match service_by_id a id with
    | None => SetError (SetStatus r (str "404") (str "Not Found")) (not_found_uuid a)
    | Some serve =>
        let '(r, err) := serve q (res_Set r HeaderKey_Robots (str "noindex")) in
        match err with None => Ok r | Some uuid => SetError r uuid end
    end.
(** services/serve-www.go:63-80 ServeHTTP: reqFile.Data() of a nil file panics *)
Definition ServeWWW (a : application) (q : request) (r : response) : res response :=
  let file := match file_by_path a (path (q_uri q)) with Some f => Some f | None => main_html a end in
  let r := SetStatus r (str "200") (str "OK") in
  let r := res_Set r HeaderKey_CacheControl (str "max-age=31536000, immutable") in
  match file with None => Panic | Some f => Ok (SetBody r (Some f)) end.
(** v1/handler.go:65-98 HandleOutcomeResponse: Body() gives the address of the body, never nil;
    header-content-length.go:33, header-transfer-encoding.go:21 add a line *)
Definition HandleOutcomeResponse (q : request) (r : response) : response :=
  let r := SetVersion r (q_version q) in
  let r := match body_MediaType (r_body r) with Some m => res_Set r HeaderKey_ContentType m | None => r end in
  let r := match body_CompressType (r_body r) with Some c => res_Set r HeaderKey_ContentEncoding c | None => r end in
  if 0 <? body_Len (r_body r) then with_head r (Header_Add (r_head r) HeaderKey_ContentLength (FormatUint10 (u64 (body_Len (r_body r)))))
  else with_head r (Header_Add (r_head r) HeaderKey_TransferEncoding Chunked).
(** v1/handler.go:37-62 ServeHTTP, 18-33 HandleIncomeRequest: the responses sent on the stream.
    [dev] is AppMode_Dev; [q = None]: the request could not be decoded. *)
Definition empty_response : response := {| r_version := []; r_code := []; r_phrase := []; r_head := HInit; r_body := None |}.
Definition ServeHTTP (dev : bool) (a : application) (q : request) (r : response) : res (list response) :=
  let '(ok, r1) := if dev then (true, r) else HostSupported (domain a) q r in
  if negb ok then Ok [HandleOutcomeResponse q r1]
  else
    let p := path (q_uri q) in
    let! r2 :=
      (if beq p MuxService_Path then Mux a q r1
       else if beq p LandingService_Path then Ok r1
       else match service_by_uri a p with
            | None => ServeWWW a q r1
            | Some serve => Ok (fst (serve q r1))
            end) in
    Ok [HandleOutcomeResponse q r2].
Definition empty_request : request := {| q_method := []; q_uri := new_uri; q_host := []; q_version := []; q_head := HInit |}.
Definition HandleIncomeRequest (dev : bool) (a : application) (q : option request) : res (list response) :=
  match q with
  | None => Ok [HandleOutcomeResponse empty_request (SetStatus empty_response (str "400") (str "Bad Request"))]
  | Some q => ServeHTTP dev a q empty_response
  end.
