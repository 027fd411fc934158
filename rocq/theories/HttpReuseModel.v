(** net/http/request.go, response.go, request-pseudo_header.go, response-pseudo_header.go, header.go, body.go:
    using a request or a response again after Reinit. *)
From Verif Require Import Go UriModel HttpModel HttpMsgModel HttpHostModel.
Open Scope string_scope. Import ListNotations. Open Scope Z_scope. Open Scope list_scope.

(** request.go:11-15 Request, with its body *)
Record full := Full { f_req : request; f_body : body }.
Definition new_full : full := Full new_request None.
Definition with_lines (q : request) (h : header) : request :=
  {| q_method := q_method q; q_uri := q_uri q; q_host := q_host q; q_version := q_version q; q_head := h |}.

(** request.go:30-41 Reinit; request-pseudo_header.go:21-26, uri.go:34-46, uri-authority.go:39-45,
    header.go:27-32, body.go:19 *)
Definition req_Reinit (r : full) : full :=
  Full {| q_method := []; q_uri := Reinit (q_uri (f_req r)); q_host := []; q_version := [];
          q_head := HReinit (q_head (f_req r)) |} None.

Inductive rop :=
| RTarget (o : target_op)          (* the target, the method, a header line (HttpHostModel.v) *)
| RVersion (v : bytes)             (* request-pseudo_header.go:37 SetVersion *)
| RSet (k v : bytes)               (* header.go:58-77 Header_Set *)
| RDel (k : bytes)                 (* header.go:83-93 Header_Del *)
| RBody (b : body)                 (* body.go:23 SetBody *)
| RWrite                           (* uri.go:96-102 Marshal of the target *)
| RReinit.
Definition rstep (r : full) (o : rop) : res full :=
  let q := f_req r in
  match o with
  | RTarget t => let! q := target_step q t in Ok (Full q (f_body r))
  | RVersion v => Ok (Full {| q_method := q_method q; q_uri := q_uri q; q_host := q_host q; q_version := v; q_head := q_head q |} (f_body r))
  | RSet k v => Ok (Full (with_lines q (Header_Set (q_head q) k v)) (f_body r))
  | RDel k => Ok (Full (with_lines q (Header_Del (q_head q) k)) (f_body r))
  | RBody b => Ok (Full q b)
  | RWrite => Ok (Full (with_uri q (fst (Marshal (q_uri q)))) (f_body r))
  | RReinit => Ok (req_Reinit r)
  end.
Fixpoint rops (r : full) (l : list rop) : res full :=
  match l with
  | [] => Ok r
  | o :: l => let! r := rstep r o in rops r l
  end.

(** response.go:22-33 Init, 34-45 Reinit; response-pseudo_header.go:19-24 *)
Definition new_response : response := {| r_version := []; r_code := []; r_phrase := []; r_head := HInit; r_body := None |}.
Definition res_Reinit (r : response) : response :=
  {| r_version := []; r_code := []; r_phrase := []; r_head := HReinit (r_head r); r_body := None |}.
Inductive sop :=
| SStatus (code phrase : bytes) | SVersion (v : bytes) | SAdd (k v : bytes) | SSet (k v : bytes) | SDel (k : bytes)
| SBody (b : body) | SReinit.
Definition sstep (r : response) (o : sop) : response :=
  match o with
  | SStatus c p => SetStatus r c p
  | SVersion v => SetVersion r v
  | SAdd k v => with_head r (Header_Add (r_head r) k v)
  | SSet k v => res_Set r k v
  | SDel k => with_head r (Header_Del (r_head r) k)
  | SBody b => SetBody r b
  | SReinit => res_Reinit r
  end.
Definition sops (r : response) (l : list sop) : response := fold_left sstep l r.
