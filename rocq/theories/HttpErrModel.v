(** The errors of the HTTP package and the status an error gives a response: net/http/errors/init.go,
    net/http/response.go.  The errors are of the type er.Error, which the repository does not contain
    at this commit; as its protocol says, an error is a media type, an identifier and details, and two
    errors are compared with error/error.go:11 IsEqual.  The identifier is any function [idof] of the
    media type the error is initialised with. *)
From Coq Require Import String.
From Verif Require Import Go UriModel StrconvModel StringsModel HttpModel IdModel RegModel HttpMsgModel.
Import ListNotations. Local Open Scope Z_scope. Local Open Scope list_scope.

(** errors/init.go:9-35 the variables *)
Inductive http_err :=
  | NoConnection | PacketTooShort | PacketTooLong | ParseMethod | ParseVersion | ParseStatusCode
  | ParseReasonPhrase | ParseHeaderTooLarge | CookieBadName | CookieBadValue | CookieBadPath
  | CookieBadDomain | NotFoundErr | ServiceNotAcceptHTTP | UnsupportedMediaType
  | UnsupportedTransferEncoding | BadHost | BodySizeMismatch.
(** errors/init.go:37-61 the text each is initialised with, after the common beginning *)
Definition err_name (e : http_err) : bytes :=
  match e with
  | NoConnection => str "no-connection"
  | PacketTooShort => str "packet-too-short"
  | PacketTooLong => str "packet-too-long"
  | ParseMethod => str "parse-method"
  | ParseVersion => str "parse-version"
  | ParseStatusCode => str "parse-status-code"
  | ParseReasonPhrase => str "parse-reason-phrase"
  | ParseHeaderTooLarge => str "parse-header-too-large"
  | CookieBadName => str "cookie-bad-name"
  | CookieBadValue => str "cookie-bad-value"
  | CookieBadPath => str "cookie-bad-path"
  | CookieBadDomain => str "cookie-bad-domain"
  | NotFoundErr => str "not-found"
  | ServiceNotAcceptHTTP => str "service_not_accept_http"
  | UnsupportedMediaType => str "unsupported-media-type"
  | UnsupportedTransferEncoding => str "unsupported-media-type"
  | BadHost => str "unsupported-media-type"
  | BodySizeMismatch => str "body-size-mismatched"
  end.
Definition err_text (e : http_err) : bytes := str "domain/http.wg.ietf.org; type=error; name=" ++ err_name e.
(** errors/init.go:37-61 in the order of init *)
Definition init_order : list http_err :=
  [NoConnection; PacketTooShort; PacketTooLong; ParseMethod; ParseVersion; ParseStatusCode;
   ParseReasonPhrase; ParseHeaderTooLarge; CookieBadName; CookieBadValue; CookieBadPath;
   CookieBadDomain; NotFoundErr; ServiceNotAcceptHTTP; UnsupportedMediaType;
   UnsupportedTransferEncoding; BadHost; BodySizeMismatch].
(** the error as a value of the interface (RegModel.v); [detail] is its summary *)
Definition http_error (idof : bytes -> Z) (detail : http_err -> bytes) (e : http_err) : err :=
  Err (err_text e) (idof (err_text e)) (detail e).
(** response.go:92-103 SetStatusByError, on any value of the interface; const.go:254-256, 329-331, 339-341 *)
Definition StatusByError (idof : bytes -> Z) (detail : http_err -> bytes) (r : response) (e : err) : res response :=
  if is_nil e then Ok r
  else
    let! large := IsEqual e (http_error idof detail ParseHeaderTooLarge) in
    if large then Ok (SetStatus r (str "431") (str "Header Fields Too Large"))
    else
      let! coding := IsEqual e (http_error idof detail UnsupportedTransferEncoding) in
      if coding then Ok (SetStatus r (str "501") (str "Not Implemented"))
      else Ok (SetStatus r (str "400") (str "Bad Request")).
(** errors/errors.go:24-41 Register of each of them in the order of init: the object is the place in it *)
Definition reg_error (idof : bytes -> Z) (p : nat * http_err) : error_ :=
  {| e_id := idof (err_text (snd p)); e_mt := err_text (snd p); e_obj := fst p |}.
Definition register_all (dev : bool) (idof : bytes -> Z) : errors :=
  fold_left (fun pool p => fst (ERegister dev pool (reg_error idof p))) (combine (seq 0 (length init_order)) init_order) errors0.
