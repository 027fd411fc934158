(** Trees of directories, the data of a file in memory and on disk, hashed file names and relative paths:
    os/default/file-directory.go, os/default/file.go and file/file.go. *)
From Coq Require Import String.
From Verif Require Import Go FileModel StrconvModel.
From Verif Require WwwModel StringsModel.
Import ListNotations.
Local Open Scope Z_scope.
Local Open Scope list_scope.

(** * Searching *)
(** os/default/file-directory.go:18-23: the entries of the two maps in the order a [range] gives them,
    which Go leaves open: the theorems are about every order.  A file is its number or nil; a sub
    directory is nil until it is opened (file-directory.go:272-276). *)
Inductive tree := Tree (files : list (bytes * option Z)) (subs : forest)
with forest := FNil | FUnloaded (name : bytes) (rest : forest) | FLoaded (name : bytes) (d : tree) (rest : forest).
Fixpoint entry {A} (l : list (bytes * A)) (n : bytes) : option A :=
  match l with [] => None | (k, v) :: r => if beq k n then Some v else entry r n end.
(** file-directory.go:173-187 FindFileRecursively: called on a nil directory it panics at dir.files *)
Fixpoint FindFileRecursively (t : tree) (n : bytes) : res (option Z) :=
  match t with
  | Tree fs ds => match entry fs n with Some (Some f) => Ok (Some f) | _ => find_in ds n end
  end
with find_in (ds : forest) (n : bytes) : res (option Z) :=
  match ds with
  | FNil => Ok None
  | FUnloaded _ _ => Panic
  | FLoaded _ d r => let! x := FindFileRecursively d n in match x with Some f => Ok (Some f) | None => find_in r n end
  end.
(** the map of sub directories: the entry, which may be nil *)
Fixpoint sub_entry (ds : forest) (n : bytes) : option (option tree) :=
  match ds with
  | FNil => None
  | FUnloaded k r => if beq k n then Some None else sub_entry r n
  | FLoaded k d r => if beq k n then Some (Some d) else sub_entry r n
  end.
(** file-directory.go:242-257 GetDependencyRecursively *)
Fixpoint GetDependencyRecursively (t : tree) (n : bytes) : res (option tree) :=
  match t with
  | Tree _ ds => match sub_entry ds n with Some x => Ok x | None => dep_in ds n end
  end
with dep_in (ds : forest) (n : bytes) : res (option tree) :=
  match ds with
  | FNil => Ok None
  | FUnloaded _ _ => Panic
  | FLoaded _ d r => let! x := GetDependencyRecursively d n in match x with Some t => Ok (Some t) | None => dep_in r n end
  end.
(** file-directory.go:260-279 init: what a directory is after it was read from disk *)
Fixpoint unloaded (names : list bytes) : forest := match names with [] => FNil | n :: r => FUnloaded n (unloaded r) end.
Definition read_dir (files dirs : list bytes) : tree := Tree (map (fun n => (n, None)) files) (unloaded dirs).
(** strings.Contains *)
Definition Contains (s sub : bytes) : bool := 0 <=? WwwModel.Index s sub.
(** file-directory.go:150-160 FindFiles; int(num) of an uint of 64 bits *)
Fixpoint find_files (l : list (bytes * option Z)) (part : bytes) (num : Z) (acc : list (option Z)) : list (option Z) :=
  match l with
  | [] => acc
  | (n, f) :: r =>
      if Contains n part then
        let acc := acc ++ [f] in
        if zlen acc =? i64 num then acc else find_files r part num acc
      else find_files r part num acc
  end.
Definition FindFiles (l : list (bytes * option Z)) (part : bytes) (num : Z) : list (option Z) := find_files l part num [].
(** file-directory.go:163-170 FindFile: the pointer found becomes an interface value, nil or not *)
Fixpoint FindFile (l : list (bytes * option Z)) (part : bytes) : iface Z :=
  match l with
  | [] => INil
  | (n, f) :: r => if Contains n part then IPtr f else FindFile r part
  end.
(** file-directory.go:61-73 Files; sort.Strings by its contract, here as an insertion sort by bytes *)
Fixpoint str_le (a b : bytes) : bool :=
  match a, b with
  | [], _ => true
  | _ :: _, [] => false
  | x :: a, y :: b => if x <? y then true else if y <? x then false else str_le a b
  end.
Fixpoint insert_key (k : bytes) (l : list bytes) : list bytes :=
  match l with [] => [k] | x :: r => if str_le k x then k :: l else x :: insert_key k r end.
Fixpoint sort_keys (l : list bytes) : list bytes := match l with [] => [] | k :: r => insert_key k (sort_keys r) end.
Definition Files (l : list (bytes * option Z)) (offset limit : Z) : list (option Z) :=
  map (fun k => match entry l k with Some f => f | None => None end) (sort_keys (map fst l)).

(** * The data of a file *)
(** os/default/file.go:18-24, without the media type; [d_url] is the field URI() gives, which nothing in
    the repository sets; data is nil or a slice *)
Record dfile := DFile { d_uri : FURI; d_url : bytes; d_data : option bytes }.
(** file.go:30-34 init *)
Definition no_uri : FURI := {| path_ := []; name_ := []; extension_ := [] |}.
Definition d_init (path : bytes) : dfile := DFile (FInit no_uri path) [] None.
(** The disk: the contents of its regular files.  By POSIX no regular file is opened by an empty path or
    by one that ends in a slash *)
Definition disk := bytes -> option bytes.
Definition names_file (p : bytes) : bool := match rev p with [] => false | c :: _ => negb (c =? 47) end.
Definition ReadFile (d : disk) (p : bytes) : option bytes := if names_file p then d p else None.
(** [allowed]: whether the system lets the path be written *)
Definition WriteFile (allowed : bytes -> bool) (d : disk) (p b : bytes) : disk :=
  if names_file p && allowed p then (fun q => if beq q p then Some b else d q) else d.
(** append(a, b...): nothing appended to nil is nil *)
Definition go_append (a : option bytes) (b : bytes) : option bytes :=
  match a with Some x => Some (x ++ b) | None => match b with [] => None | _ => Some b end end.
Definition octets (a : option bytes) : bytes := match a with Some x => x | None => [] end.
Definition with_data (f : dfile) (b : option bytes) : dfile := DFile (d_uri f) (d_url f) b.
(** file.go:37-46 Save: the error of WriteFile is dropped, and nil returned *)
Definition Save (allowed : bytes -> bool) (f : dfile) (d : disk) : disk :=
  match d_data f with Some b => WriteFile allowed d (path_ (d_uri f)) b | None => d end.
(** file.go:126-132 Prepend (that append may write into the spare capacity of data is not modelled) *)
Definition Prepend (f : dfile) (data : option bytes) : dfile :=
  match d_data f with Some b => with_data f (go_append data b) | None => f end.
(** file.go:135-159 Append: O_APPEND without O_CREATE *)
Definition Append (allowed : bytes -> bool) (f : dfile) (data : option bytes) (d : disk) : dfile * disk :=
  match d_data f with
  | Some b => (with_data f (Some (b ++ octets data)), d)
  | None => match ReadFile d (d_url f) with
            | Some old => (f, WriteFile allowed d (d_url f) (old ++ octets data))
            | None => (f, d)
            end
  end.
(** file.go:182-188 Marshal, 193-196 MarshalTo, 199-203 Unmarshal, 206 Len *)
Definition Marshal (f : dfile) (d : disk) : option bytes :=
  match d_data f with Some b => Some b | None => ReadFile d (path_ (d_uri f)) end.
Definition MarshalTo (f : dfile) (data : bytes) : bytes := data ++ octets (d_data f).
Definition Unmarshal (f : dfile) (data : option bytes) : dfile := with_data f data.
Definition Len (f : dfile) : Z := zlen (octets (d_data f)).
(** file.go:211-216 ReadFrom and 168-176 Decode: what the reader gave before its end or error is the new
    data; [e] is its error, which Decode drops *)
Definition ReadFrom {E} (f : dfile) (got : option bytes) (e : option E) : dfile * Z * option E := (with_data f got, zlen (octets got), e).
Definition Decode {E} (f : dfile) (got : option bytes) (e : option E) : dfile * option E := (with_data f got, None).
(** file.go:220-225 WriteTo: the writer is given all of the data in one call *)
Definition WriteTo {E} (write : bytes -> Z * option E) (f : dfile) : Z * option E := write (octets (d_data f)).
(** The calls of a user *)
Inductive fop := FUnmarshalOp (data : option bytes) | FAppend (data : option bytes) | FPrepend (data : option bytes) | FSave | FRename (n : bytes).
Definition fstep (allowed : bytes -> bool) (s : dfile * disk) (o : fop) : dfile * disk :=
  let '(f, d) := s in
  match o with
  | FUnmarshalOp x => (Unmarshal f x, d)
  | FAppend x => Append allowed f x d
  | FPrepend x => (Prepend f x, d)
  | FSave => (f, Save allowed f d)
  | FRename n => (DFile (Rename (d_uri f) n) (d_url f) (d_data f), d)
  end.
Definition fsteps (allowed : bytes -> bool) (s : dfile * disk) (l : list fop) : dfile * disk := fold_left (fstep allowed) l s.

(** * Hashed names *)
(** hash/crc32 ChecksumIEEE (Go's standard library), bit by bit: the polynomial 0xEDB88320 *)
Definition crc_bit (s : Z) : Z := if Z.odd s then Z.lxor (s / 2) 3988292384 else s / 2.
Definition crc_byte (s b : Z) : Z := Nat.iter 8 crc_bit (Z.lxor s b).
Definition ChecksumIEEE (l : bytes) : Z := Z.lxor (fold_left crc_byte l 4294967295) 4294967295.
(** file/file.go:41-54 AddHashToFileName: the name it asks Rename for *)
Definition hashed_name (u : FURI) (data : bytes) : res bytes :=
  let! n := NameWithoutExtension u in
  Ok (n ++ [45] ++ FormatUint10 (ChecksumIEEE data) ++ [46] ++ extension_ u).
Definition AddHashToFileName (u : FURI) (data : bytes) : res FURI := let! n := hashed_name u data in Ok (Rename u n).
(** os/default/file.go:49-53 Rename: the map of the parent directory afterwards *)
Definition rename_entry (files : bytes -> option Z) (f : Z) (old new : bytes) : bytes -> option Z :=
  fun k => if beq k new then Some f else if beq k old then None else files k.

(** * Relative paths *)
(** The directory a search stands in and those it lies in, innermost first; [[]]: a nil *FileDirectory in
    an interface value that is not nil.  file/file.go:20-34; on a nil directory ParentDirectory
    (file-directory.go:26) and Directory (file-directory.go:38) panic.  The second result: the
    directories the system is asked to make (file-directory.go:40-41); the check at 30 never holds, as
    Directory gives no nil interface (FileModel.Directory). *)
Fixpoint walk (here : list dir) (parts : list bytes) (made : list bytes) : res (list dir) * list bytes :=
  match parts with
  | [] => (Ok here, made)
  | p :: r =>
      if beq p (str "."%string) then walk here r made
      else match here with
           | [] => (Panic, made)
           | d :: up =>
               if beq p (str ".."%string) then walk up r made
               else let made := if listed_ d p then made else made ++ [p] in
                    match dirs_ d p with Some x => walk (x :: here) r made | None => walk [] r made end
           end
  end.
(** file/file.go:15-39 FindByRelativeFrom, from a file whose directory is the first of [here] *)
Definition FindByRelativeFrom (here : list dir) (rel : bytes) : res (iface nat) * list bytes :=
  let parts := StringsModel.Split1 rel 47 in
  if zlen parts <? 2 then (Ok INil, [])
  else
    let '(r, made) := walk here (removelast parts) [] in
    (let! at_ := r in
     match at_ with
     | [] => Panic
     | d :: _ => Ok (snd (File_ d (last parts []) 0))
     end, made).
