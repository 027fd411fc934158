(** One codec handed to another: Decode and Encode of json/codec.go, compress/gzip, compress/flate,
    net/socket-codec.go, net/stream-codec.go, net/http/body.go and net/uri/uri.go, which call each other. *)
From Verif Require Import Go CodecModel SockIoModel UriModel.

(** The codecs of the repository.  A body holds a codec or nil.  net/uri and net/chapar/path.go have
    a Marshal of another shape, so they are no codecs of one another. *)
Inductive codec (T : Type) :=
| JSON (c : jcodec T)
| Packs (p : pkg) (c : comp)
| Unpacks (p : pkg) (d : decomp)
| Sock (sk : socket)
| Body (b : option (codec T)).
Arguments JSON {T}. Arguments Packs {T}. Arguments Unpacks {T}. Arguments Sock {T}. Arguments Body {T}.

(** How a call ends: it returns, it waits for ever on a channel, it panics, or it is still going on after
    the given number of calls *)
Inductive result (A : Type) := Returned (a : A) | Waits | Panics | Running.
Arguments Returned {A}. Arguments Waits {A}. Arguments Panics {A}. Arguments Running {A}.
Definition bind {A B} (r : result A) (f : A -> result B) : result B :=
  match r with Returned a => f a | Waits => Waits | Panics => Panics | Running => Running end.
(** The errors: ErrSourceNotChangeable, the error of the source's Marshal, that of FromJSON *)
Inductive err := Refused | OfSource | OfJSON.

(** Marshal: the codec after it, the slice ([None]: nil) and whether there is an error.
    json/codec.go:66-72; compressor.go:57-63 and decompressor.go:69-75 (CodecModel);
    net/socket-codec.go:18-29 (SockIoModel; the queue gives a nil slice, queue-codec.go:16-18);
    http/body.go:58-63 *)
Fixpoint marshal {T} (A : japp T) (L : lib) (x : codec T) : result (codec T * option bytes * bool) :=
  match x with
  | JSON c => let c := jforce A c in Returned (JSON c, j_payload c, false)
  | Packs p c =>
      match comp_step p L c CodecModel.Marshal with
      | (c, OData d e) => Returned (Packs p c, d, e)
      | _ => Panics
      end
  | Unpacks p d =>
      match decomp_step p L d CodecModel.Marshal with
      | (d, OData x e) => Returned (Unpacks p d, x, e)
      | _ => Panics
      end
  | Sock sk => match sk_Marshal sk with Some (_, sk) => Returned (Sock sk, None, false) | None => Waits end
  | Body None => Returned (Body None, None, false)
  | Body (Some i) => bind (marshal A L i) (fun r => let '(i, d, e) := r in Returned (Body (Some i), d, e))
  end.

(** Unmarshal: json/codec.go:54-58; compressor.go:71-74 and decompressor.go:83-91 (CodecModel);
    net/socket-codec.go:42-58 (SockIoModel) with [k] turns; http/body.go:70-75 *)
Fixpoint unmarshal {T} (A : japp T) (L : lib) (k : nat) (x : codec T) (d : bytes) : result (codec T * Z * option err) :=
  match x with
  | JSON c => let '(o, e) := from_json A (j_obj c) d in Returned (JSON (JC o (Some d) (j_len c)), 0, if e then Some OfJSON else None)
  | Packs p c => Returned (Packs p (fst (comp_step p L c (CodecModel.Unmarshal d))), 0, Some Refused)
  | Unpacks p c =>
      match decomp_step p L c (CodecModel.Unmarshal d) with
      | (c, ODone n) => Returned (Unpacks p c, n, None)
      | (c, _) => Returned (Unpacks p c, 0, Some Refused)
      end
  | Sock sk => match sk_Unmarshal k sk d 0 with Some n => Returned (Sock sk, n, None) | None => Running end
  | Body None => Returned (Body None, 0, None)
  | Body (Some i) => bind (unmarshal A L k i d) (fun r => let '(i, n, e) := r in Returned (Body (Some i), n, e))
  end.

(** What a call of Decode or Encode leaves: the receiver, the codec it was given, the count and the error.
    Simplified: the receiver and the argument are two objects. *)
Record ret (T : Type) := Ret { r_self : codec T; r_other : codec T; r_n : Z; r_err : option err }.
Arguments Ret {T}. Arguments r_self {T}. Arguments r_other {T}. Arguments r_n {T}. Arguments r_err {T}.
Definition swap {T} (r : ret T) : ret T := Ret (r_other r) (r_self r) (r_n r) (r_err r).
Inductive method := Decode | Encode.
(** self.Decode(other) and self.Encode(other); one unit of [k] per call.
    Decode: json/codec.go:37-44; compressor.go:49-52 and decompressor.go (gzip 61-64, flate 52-55);
    net/socket-codec.go:12-14 and stream-codec.go:12-14; http/body.go:46-51.
    Encode: json/codec.go:47-50; compressor.go:53-56 and decompressor.go (gzip 65-68, flate 56-59);
    net/socket-codec.go:15-17 and stream-codec.go:15-17; http/body.go:52-57. *)
Fixpoint call {T} (A : japp T) (L : lib) (k : nat) (m : method) (self other : codec T) : result (ret T) :=
  match k with
  | O => Running
  | S k =>
      match self, m with
      | Body None, _ => Returned (Ret self other 0 None)
      | Body (Some i), _ => bind (call A L k m i other) (fun r => Returned (Ret (Body (Some (r_self r))) (r_other r) (r_n r) (r_err r)))
      | JSON c, Decode =>
          bind (marshal A L other) (fun r =>
            let '(other, d, e) := r in
            if e : bool then Returned (Ret (JSON (JC (j_obj c) d (j_len c))) other 0 (Some OfSource))
            else let '(o, bad) := from_json A (j_obj c) (go_append [] d) in
                 Returned (Ret (JSON (JC o d (j_len c))) other 0 (if bad then Some OfJSON else None)))
      | Packs _ _, Decode | Unpacks _ _, Decode => Returned (Ret self other 0 (Some Refused))
      | Sock _, Decode => bind (call A L k Encode other self) (fun r => Returned (swap r))
      | _, Encode => bind (call A L k Decode other self) (fun r => Returned (swap r))
      end
  end.

(** uri.go:89-93 URI.Encode (UriModel.Marshal), 84-87 URI.Decode *)
Definition uri_encode {T} (A : japp T) (L : lib) (k : nat) (u : uri) (x : codec T) : result (uri * codec T * Z * option err) :=
  let '(u, d) := UriModel.Marshal u in
  bind (unmarshal A L k x d) (fun r => let '(x, n, e) := r in Returned (u, x, n, e)).
Definition uri_decode {T} (u : uri) (x : codec T) : uri * codec T * Z * option err := (u, x, 0, None).

(** srpc/handler.go:41-48 and 68-75: what is done before the status of the socket is looked at; then
    14-36, the answer of the service *)
Definition srpc_request {T} (A : japp T) (L : lib) (k : nat) (sk : socket) (req : codec T) := call A L k Decode (Sock sk) req.
Definition srpc_response {T} (A : japp T) (L : lib) (k : nat) (sk : socket) (res : codec T) := call A L k Decode (Sock sk) res.
(** http/v1/handler.go:24 httpReq.Decode(st), 123 res.Decode(st): the method promoted from the body, nil after
    Init; 89 st.Encode(httpRes), 109 and 146 st.Encode(httpReq) *)
Definition http_receive {T} (A : japp T) (L : lib) (k : nat) (body : option (codec T)) (st : socket) := call A L k Decode (Body body) (Sock st).
Definition http_send {T} (A : japp T) (L : lib) (k : nat) (st : socket) (body : option (codec T)) := call A L k Encode (Sock st) (Body body).
