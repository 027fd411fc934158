(** Visiting flags and shortening paths: operation/command/flag.go:27-45, 81-101, path.go. *)
From Coq Require Import String.
From Verif Require Import Go StringsModel CmdModel.
Import ListNotations.
Local Open Scope Z_scope.
Local Open Scope list_scope.

(** flag.go:83-101, the loop of VisitAll and Visit: [fn] changes some state and says whether to stop *)
Fixpoint visit {A} (l : list nat) (fn : nat -> A -> A * bool) (st : A) : A :=
  match l with
  | [] => st
  | i :: r => let '(st, br) := fn i st in if br then st else visit r fn st
  end.
(** fields by their index *)
Definition VisitAll {A} (s : flagset) (fn : nat -> A -> A * bool) (st : A) : A := visit (seq 0 (length (fields s))) fn st.
Definition Visit {A} (s : flagset) (fn : nat -> A -> A * bool) (st : A) : A := visit (parsed s) fn st.
(** flag.go:27-39 Init of a flag set that was used before: the parsed fields are kept when there is a slice *)
Definition Init_again (s : flagset) (fs : list field) (arguments : list bytes) : res flagset :=
  let! _ := checkFields fs in Ok {| fields := fs; parsed := parsed s; args := arguments |}.
(** flag.go:40-45 Reinit *)
Definition Reinit (s : flagset) : flagset := {| fields := []; parsed := []; args := [] |}.

(** * Paths *)
Definition dot : bytes := [46].
Definition dotdot : bytes := [46; 46].
(** path/filepath.Clean of Go's library, as the elements that are left of an absolute path (on Unix): empty
    ones and "." are dropped, ".." takes the one before it away.  [acc]: the elements so far, last first *)
Fixpoint clean_loop (acc parts : list bytes) : list bytes :=
  match parts with
  | [] => rev acc
  | p :: r =>
      if beq p [] || beq p dot then clean_loop acc r
      else if beq p dotdot then clean_loop (tl acc) r
      else clean_loop (p :: acc) r
  end.
Definition clean_abs (p : bytes) : list bytes := clean_loop [] (Split1 p 47).
Definition is_abs (p : bytes) : bool := match p with c :: _ => c =? 47 | [] => false end.
(** path/filepath.Rel(base, targ) of Go's library for an absolute base, by its documentation: up from where
    the two part, then down; "." when they are the same.  An error for a path that is not absolute. *)
Fixpoint part (b t : list bytes) : list bytes * list bytes :=
  match b, t with
  | x :: b', y :: t' => if beq x y then part b' t' else (b, t)
  | _, _ => (b, t)
  end.
Definition Rel (base targ : bytes) : option bytes :=
  if is_abs targ then
    let '(b, t) := part (clean_abs base) (clean_abs targ) in
    match repeat dotdot (length b) ++ t with
    | [] => Some dot
    | l => Some (Join l [47])
    end
  else None.
(** path.go:42-47 ShortPath, in the working directory [cwd] *)
Definition ShortPath (cwd path : bytes) : bytes :=
  match Rel cwd path with
  | Some rel => if zlen rel <? zlen path then rel else path
  | None => path
  end.
(** path.go:51-61 RelPaths *)
Fixpoint RelPaths (cwd : bytes) (paths : list bytes) : list bytes :=
  match paths with
  | [] => []
  | p :: r =>
      (match Rel cwd p with
       | Some rel => if zlen rel <? zlen p then rel else p
       | None => p
       end) :: RelPaths cwd r
  end.
(** path.go:65-68 IsTestFile (strings.HasSuffix) *)
Definition IsTestFile (file : bytes) : bool := HasPrefix (rev file) (rev (str "_test.go"%string)).
