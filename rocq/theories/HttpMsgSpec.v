(** RFC 7230 section 5.4, 6.3 and section 3.3 in the few terms needed. *)
From Verif Require Import Go UriModel HttpModel HttpSpec HttpMsgModel.
Open Scope string_scope. Import ListNotations. Open Scope Z_scope. Open Scope list_scope.

Definition digit_first (host : bytes) : Prop := exists c t, host = c :: t /\ 48 <= c <= 57.
Definition www (name : bytes) : bytes := str "www." ++ name.
(** A host name that the code can tell from an address and from its www. twin. *)
Definition plain_domain (d : bytes) : Prop := d <> [] /\ ~ digit_first d /\ (forall x, x <> [] -> d <> www x).
(** The redirect a user of http://other-name/path?query should see. *)
Definition same_page (d : bytes) (u : uri) : bytes :=
  str "https://" ++ d ++ path u ++ match query u with [] => [] | q => str "?" ++ q end.
(** how many lines of a header have the key [k] *)
Definition lines_of (h : header) (k : bytes) : list bytes := map snd (filter (fun l => same (fst l) k) h).
Definition status_line (r : response) : Prop := length (r_code r) = 3%nat.
