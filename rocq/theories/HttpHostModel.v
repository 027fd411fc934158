(** net/http/request.go, request-pseudo_header.go, net/uri/uri.go, uri-authority.go: everything that changes
    the target of a request, to see when its host is known. *)
From Verif Require Import Go UriModel HttpModel HttpMsgModel.
Open Scope string_scope. Import ListNotations. Open Scope Z_scope. Open Scope list_scope.

Definition with_uri (q : request) (u : uri) : request :=
  {| q_method := q_method q; q_uri := u; q_host := q_host q; q_version := q_version q; q_head := q_head q |}.
Definition with_host (q : request) (h : bytes) : request :=
  {| q_method := q_method q; q_uri := q_uri q; q_host := h; q_version := q_version q; q_head := q_head q |}.
(** a request after Init (request.go:18-29): the zero target and an empty header *)
Definition new_request : request := {| q_method := []; q_uri := new_uri; q_host := []; q_version := []; q_head := HInit |}.
Inductive target_op :=
| Parse (s : bytes)                    (* uri.go:168-234 UnmarshalFromString; Init, Unmarshal and UnmarshalFrom call it *)
| SetParts (s a p q f : bytes)         (* uri.go:51-53 Set *)
| SetAuthority (a : bytes)             (* uri-authority.go:54 *)
| SetHost (h : bytes)                  (* uri-authority.go:55 *)
| InitAuthority (a : bytes)            (* uri-authority.go:23-38, as u.AU.Init *)
| ReinitTarget                         (* uri.go:34-46 Reinit, uri-authority.go:39-45 *)
| Check                                (* request.go:66-70 CheckHost *)
| AddLine (k v : bytes)                (* header.go:50-52 Header_Add *)
| SetMethodTo (m : bytes).             (* request-pseudo_header.go:36 *)
Definition target_step (q : request) (o : target_op) : res request :=
  match o with
  | Parse s => let! r := UnmarshalFromString (q_uri q) s in Ok (with_uri q (snd r))
  | SetParts s a p u f => Ok (with_uri q (Set_ (q_uri q) s a p u f))
  | SetAuthority a => Ok (with_uri q (set_authority (q_uri q) a))
  | SetHost h => Ok (with_host q h)
  | InitAuthority a =>
      if beq a [] then Ok q
      else let! r := AuthorityInit a in let '(host, _, _, _) := r in Ok (with_host (with_uri q (set_authority (q_uri q) a)) host)
  | ReinitTarget => Ok (with_host (with_uri q (Reinit (q_uri q))) [])
  | Check => Ok (CheckHost q)
  | AddLine k v => Ok {| q_method := q_method q; q_uri := q_uri q; q_host := q_host q; q_version := q_version q; q_head := Header_Add (q_head q) k v |}
  | SetMethodTo m => Ok {| q_method := m; q_uri := q_uri q; q_host := q_host q; q_version := q_version q; q_head := q_head q |}
  end.
Fixpoint target_ops (q : request) (l : list target_op) : res request :=
  match l with
  | [] => Ok q
  | o :: l => let! q := target_step q o in target_ops q l
  end.
