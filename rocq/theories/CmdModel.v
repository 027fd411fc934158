(** Command-line flags and commands: operation/command/flag.go, cla.go, command.go, serve.go. *)
From Verif Require Import Go.
Open Scope string_scope. Import ListNotations. Open Scope Z_scope.

(** A field of the object (protocol.DataType): its name and abbreviation, whether it is a boolean
    (DataType_Equal[boolean.Boolean]), what FromString makes of a text ([None]: an error, the
    field is not changed), and its present value as ToString gives it. *)
Record field := { f_name : bytes; f_abbr : bytes; f_bool : bool; f_parse : bytes -> option bytes; f_value : bytes }.
Definition with_value (f : field) (v : bytes) : field :=
  {| f_name := f_name f; f_abbr := f_abbr f; f_bool := f_bool f; f_parse := f_parse f; f_value := v |}.

(** operation/command/flag.go:14-19; [parsed] as indices into [fields] *)
Record flagset := { fields : list field; parsed : list nat; args : list bytes }.
Inductive ferr := ENone | EBadSyntax | ENotFound | ENeedsArg | EValue.

(** flag.go:104-111 Lookup: the first field with that name or abbreviation *)
Fixpoint lookup_from (i : nat) (fs : list field) (n : bytes) : option nat :=
  match fs with
  | [] => None
  | f :: r => if beq (f_name f) n || beq (f_abbr f) n then Some i else lookup_from (S i) r n
  end.
Definition Lookup (s : flagset) (n : bytes) : option nat := lookup_from 0 (fields s) n.
(** flag.go:114-126 Set *)
Definition Set_ (s : flagset) (n v : bytes) : flagset * ferr :=
  match Lookup s n with
  | None => (s, ENotFound)
  | Some i =>
      match nth_error (fields s) i with
      | None => (s, ENotFound)
      | Some f =>
          match f_parse f v with
          | None => (s, EValue)
          | Some w => ({| fields := upd (fields s) i (with_value f w); parsed := (parsed s ++ [i])%list; args := args s |}, ENone)
          end
      end
  end.
(** strings.Contains(fieldName, "=") and HasPrefix(fieldName, "-") *)
Definition has_eq (l : bytes) : bool := existsb (fun c => c =? 61) l.
Definition starts (c : Z) (l : bytes) : bool := match l with x :: _ => x =? c | [] => false end.
Fixpoint has_dup (l : list bytes) : bool :=
  match l with [] => false | x :: r => existsb (beq x) r || has_dup r end.
(** flag.go:128-158 checkFields: [Panic] on a bad or repeated name *)
Definition checkFields (fs : list field) : res unit :=
  if existsb (fun f => starts 45 (f_name f) || has_eq (f_name f)) fs then Panic
  else if has_dup (map f_name fs) then Panic else Ok tt.
(** flag.go:27-39 Init *)
Definition Init (fs : list field) (arguments : list bytes) : res flagset :=
  let! _ := checkFields fs in Ok {| fields := fs; parsed := []; args := arguments |}.

(** flag.go:199-221 checkAndSet *)
Definition checkAndSet (s : flagset) (n v : bytes) : flagset * ferr :=
  match v with
  | _ :: _ => Set_ s n v
  | [] =>
      match Lookup s n with
      | None => (s, ENotFound)
      | Some i =>
          if match nth_error (fields s) i with Some f => f_bool f | None => false end
          then Set_ s n (str "true")
          else
            match args s with
            | a :: r => Set_ {| fields := fields s; parsed := parsed s; args := r |} n a
            | [] => (s, ENeedsArg)
            end
      end
  end.
(** flag.go:186-192 the split at the first '=' after the first character of the name *)
Fixpoint cut_eq (l : bytes) : bytes * bytes :=
  match l with
  | [] => ([], [])
  | c :: r => if c =? 61 then ([], r) else let '(a, b) := cut_eq r in (c :: a, b)
  end.
(** flag.go:161-196 parseOne *)
Definition parseOne (s : flagset) : flagset * ferr :=
  match args s with
  | [] => (s, ENone)
  | a :: rest =>
      match a with
      | 45 :: c :: t =>
          let two := c =? 45 in
          if two && (zlen a =? 2) then ({| fields := fields s; parsed := parsed s; args := rest |}, EBadSyntax)
          else
            let name := if two then t else c :: t in
            match name with
            | [] => (s, EBadSyntax)
            | h :: nt =>
                if (h =? 45) || (h =? 61) then (s, EBadSyntax)
                else
                  let '(n, v) := cut_eq nt in
                  checkAndSet {| fields := fields s; parsed := parsed s; args := rest |} (h :: n) v
            end
      | _ => (s, EBadSyntax)
      end
  end.
(** flag.go:52-60 Parse, at most [k] rounds; [None] when that was not enough *)
Fixpoint Parse (k : nat) (s : flagset) : option (flagset * ferr) :=
  match args s with
  | [] => Some (s, ENone)
  | _ :: _ =>
      match k with
      | O => None
      | S k => match parseOne s with (s', ENone) => Parse k s' | r => Some r end
      end
  end.
(** flag.go:63-79 NFlag, NArg, Arg *)
Definition NFlag (s : flagset) : Z := zlen (fields s).
Definition NArg (s : flagset) : Z := zlen (args s).
Definition Arg (s : flagset) (i : Z) : res bytes := if (i <? 0) || (NArg s <=? i) then Ok [] else idx (args s) i.
(** cla.go:10-17 FromCLA: the fields afterwards, the remaining arguments and the error *)
Definition FromCLA (fs : list field) (arguments : list bytes) : res (option (flagset * ferr)) :=
  let! s := Init fs arguments in Ok (Parse (length arguments) s).
(** cla.go:18-38 ToCLA (ToString of a field is its value and gives no error) *)
Fixpoint ToCLA (fs : list field) : list bytes :=
  match fs with
  | [] => []
  | f :: r => match f_value f with [] => ToCLA r | _ :: _ => f_name f :: f_value f :: ToCLA r end
  end.

(** Commands: name, abbreviation, aliases, and either a handler of its own or sub commands served
    by ServeCLA (the usual implementation of a command's ServeCLA method) *)
Inductive command := Cmd (name abbr : bytes) (aliases : list bytes) (group : bool) (subs : list command).
Definition c_name (c : command) := let 'Cmd n _ _ _ _ := c in n.
Definition c_abbr (c : command) := let 'Cmd _ a _ _ _ := c in a.
Definition c_aliases (c : command) := let 'Cmd _ _ l _ _ := c in l.
Definition c_group (c : command) := let 'Cmd _ _ _ g _ := c in g.
Definition c_subs (c : command) := let 'Cmd _ _ _ _ s := c in s.
(** command.go:35-54 SubCommand *)
Fixpoint SubCommand (subs : list command) (name : bytes) : option command :=
  match subs with
  | [] => None
  | c :: r =>
      if beq (c_name c) name then Some c
      else if beq (c_abbr c) name then Some c
      else if existsb (fun a => beq a name) (c_aliases c) then Some c
      else SubCommand r name
  end.
(** serve.go:14-50 ServeCLA of a group: [Ran c args] is handing [args] to the handler of [c] *)
Inductive served := Ran (c : command) (a : list bytes) | NotFound | ByAlias.
Fixpoint ServeCLA (k : nat) (c : command) (arguments : list bytes) : option (res served) :=
  match k with
  | O => None
  | S k =>
      if negb (c_group c) then Some (Ok (Ran c arguments))
      else
        let serviceName := match arguments with a :: _ => a | [] => str "help" end in
        match SubCommand (c_subs c) serviceName with
        | None => Some (Ok NotFound)
        | Some d =>
            if negb (beq serviceName (c_name d)) && negb (beq serviceName (c_abbr d)) then Some (Ok ByAlias)
            else match slice_from arguments 1 with Ok r => ServeCLA k d r | Panic => Some Panic end
        end
  end.
(** serve.go:65-76 CommandPath, given the names of the command and of its parents upwards *)
Fixpoint path_acc (acc : bytes) (names : list bytes) : bytes :=
  match names with [] => acc | n :: r => path_acc (n ++ 32 :: acc)%list r end.
Definition CommandPath (name : bytes) (parents : list bytes) : res bytes :=
  let full := path_acc [] (name :: parents) in slice_to full (zlen full - 1).
(** serve.go:53-62 Root: [root] is the nil interface when its Parent is asked for *)
Definition Root (c : command) : res command := Panic.
