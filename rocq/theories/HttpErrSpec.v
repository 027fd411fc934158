(** What the errors of the HTTP package are for. *)
From Coq Require Import String.
From Verif Require Import Go RegModel HttpErrModel.
Import ListNotations. Local Open Scope Z_scope. Local Open Scope list_scope.

(** The status an error of the package stands for: the two with a status of their own, else 400. *)
Definition status_of (e : http_err) : bytes * bytes :=
  match e with
  | ParseHeaderTooLarge => (str "431", str "Header Fields Too Large")
  | UnsupportedTransferEncoding => (str "501", str "Not Implemented")
  | _ => (str "400", str "Bad Request")
  end.
(** [carries w e]: [w] is the error [e], alone or with any chain of details around it. *)
Inductive carries : err -> err -> Prop :=
| carries_self m i s : carries (Err m i s) (Err m i s)
| carries_chain w e c : carries w e -> carries (Chain w c) e.
(** The three errors that are given one text. *)
Definition shared (e : http_err) : Prop := e = UnsupportedMediaType \/ e = UnsupportedTransferEncoding \/ e = BadHost.
(** The place of an error in the order of initialisation. *)
Definition place_of (e : http_err) (i : nat) : Prop := nth_error init_order i = Some e.
