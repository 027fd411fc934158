(** Editing files, file paths, directories, media types: os/default/file.go, file/file.go,
    file/uri.go, os/default/file-directory.go, mediatype/media-type.go. *)
From Verif Require Import Go UriModel StringsModel.

(** * Replacing (os/default/file.go:85-90, file/file.go:95-99) *)
Record ReplaceReq := { Data : bytes; Start : Z; End_ : Z }.
Section Replace.
  (** What the bytes between length and new length hold when the slice is grown at the k-th step:
      zeros after an append, whatever the spare capacity held after a reslice *)
  Variable reveal : nat -> Z -> bytes.
  (** One iteration of os/default/file.go:95-118, the same as file/file.go:110-133 *)
  Definition replace_one (k : nat) (data : bytes) (total : Z) (d : ReplaceReq) : res (bytes * Z) :=
    let start := Start d + total in
    let end_ := End_ d + total in
    let ln := zlen (Data d) in
    let added := ln - (end_ - start) in
    let data := if 0 <? added then data ++ reveal k added else data in
    let total := total + added in
    let! src := slice_from data end_ in
    let! data := copy_at data (end_ + added) src in
    let! data := copy_at data start (Data d) in
    let! data := if added <? 0 then slice_to data (zlen data + added) else Ok data in
    Ok (data, total).
  Fixpoint replace_loop (k : nat) (data : bytes) (total : Z) (l : list ReplaceReq) : res bytes :=
    match l with
    | [] => Ok data
    | d :: r => let! x := replace_one k data total d in let '(data, total) := x in replace_loop (S k) data total r
    end.
  (** os/default/file.go:93-119 and file/file.go:102-137 ReplaceLocation (the latter between the
      Marshal and the Unmarshal of the file) *)
  Definition ReplaceLocation (data : bytes) (l : list ReplaceReq) : res bytes := replace_loop 0 data 0 l.
End Replace.

(** * File URIs *)
(** file/uri.go:13-19, without the unused uri and domain *)
Record FURI := { path_ : bytes; name_ : bytes; extension_ : bytes }.
(** path/filepath.Split on Unix (Go's standard library): cut after the last separator *)
Definition filepath_Split (u : bytes) : bytes * bytes :=
  let i := last_index_byte u 47 in (firstn (Z.to_nat (i + 1)) u, skipn (Z.to_nat (i + 1)) u).
(** file/uri.go:70-78 Extension: the loop with i = k - 1 *)
Fixpoint extension_loop (name : bytes) (k : nat) : bytes :=
  match k with
  | O => []
  | S i => match nth_error name i with
           | Some c => if c =? 46 then skipn (S i) name else extension_loop name i
           | None => []
           end
  end.
Definition Extension (name : bytes) : bytes := extension_loop name (length name).
(** uri.go:39-42 Rename, 21-26 Init, 61-68 Unmarshal, 33 NameWithoutExtension *)
Definition Rename (u : FURI) (n : bytes) : FURI := {| path_ := path_ u; name_ := n; extension_ := Extension n |}.
Definition FInit (uri : FURI) (u : bytes) : FURI :=
  let '(dir, fileName) := filepath_Split u in Rename {| path_ := dir; name_ := name_ uri; extension_ := extension_ uri |} fileName.
Definition FUnmarshal (uri : FURI) (data : bytes) : FURI :=
  let '(dir, fileName) := filepath_Split data in {| path_ := dir; name_ := fileName; extension_ := extension_ uri |}.
Definition NameWithoutExtension (u : FURI) : res bytes := slice_to (name_ u) (zlen (name_ u) - zlen (extension_ u)).
(** uri.go:80-91 FilePathParts: after a cut the loop goes on at index 1 *)
Fixpoint parts_loop (fuel : nat) (uriPath : bytes) (i : nat) : option (list bytes) :=
  match fuel with
  | O => None
  | S fuel =>
    match nth_error uriPath i with
    | None => Some [uriPath]
    | Some c => if c =? 47 then
                  match parts_loop fuel (skipn (S i) uriPath) 1 with Some l => Some (firstn i uriPath :: l) | None => None end
                else parts_loop fuel uriPath (S i)
    end
  end.
Definition FilePathParts (uriPath : bytes) : option (list bytes) := parts_loop (S (length uriPath)) uriPath 0.
(** uri.go:93 IsPathDirectory, 35 IsDirectory *)
Definition IsPathDirectory (p : bytes) : res bool := let! c := idx p (zlen p - 1) in Ok (c =? 47).
Definition IsDirectory (u : FURI) : res bool := IsPathDirectory (path_ u).

(** * Directories (os/default/file-directory.go) *)
(** A pointer: nil or an object.  Files are numbered. *)
Inductive dir := Dir (files : bytes -> option nat) (dirs : bytes -> option dir) (listed : bytes -> bool).
Definition files_ (d : dir) := let 'Dir f _ _ := d in f.
Definition dirs_ (d : dir) := let 'Dir _ s _ := d in s.
(** whether a sub directory name is a key of the map, perhaps with a nil value *)
Definition listed_ (d : dir) := let 'Dir _ _ l := d in l.
(** A Go interface value: nil, or a typed pointer that may itself be nil *)
Inductive iface A := INil | IPtr (p : option A).
Arguments INil {A}. Arguments IPtr {A} p.
Definition is_inil {A} (x : iface A) : bool := match x with INil => true | IPtr _ => false end.
(** file-directory.go:259-279 init: every name on disk gets a nil entry *)
Definition dir_init (names : bytes -> bool) : dir := Dir (fun _ => None) (fun _ => None) names.
(** file-directory.go:77-91 File: [file] has an interface type, so the value from the map is
    converted and `file == nil` asks for the nil interface *)
Definition File_ (d : dir) (name : bytes) (fresh : nat) : dir * iface nat :=
  let file := IPtr (files_ d name) in
  if is_inil file then (Dir (fun n => if beq n name then Some fresh else files_ d n) (dirs_ d) (listed_ d), file)
  else (d, file).
(** file-directory.go:35-58 Directory; [mk] is whether os.Mkdir succeeds.
    The inner `dir` shadows the outer one, so even when the branch is taken
    the new directory is entered into its own map *)
Definition Directory (d : dir) (name : bytes) (mk : bool) : dir * iface dir :=
  let dr := IPtr (dirs_ d name) in
  if negb (listed_ d name) && negb mk then (d, dr)
  else if is_inil dr then (d, dr) else (d, dr).
(** file-directory.go:137-147 directoryByPathParts *)
Fixpoint directoryByPathParts (d : dir) (parts : list bytes) {struct parts} : option dir :=
  match parts with
  | [] => Some d
  | p :: r => match dirs_ d p with Some d' => directoryByPathParts d' r | None => None end
  end.
(** file-directory.go:109-111 and 130-132 *)
Definition drop_root (parts : list bytes) : list bytes :=
  match parts with [] :: r => r | _ => parts end.
(** file-directory.go:128-135 directoryByPath *)
Definition directoryByPath (d : dir) (p : bytes) : option dir := directoryByPathParts d (drop_root (Split1 p 47)).
(** file-directory.go:99-119 fileByPath: a pointer *)
Definition fileByPath (d : dir) (p : bytes) : option nat :=
  let parts := Split1 p 47 in
  let full := last parts [] in
  if zlen parts <? 3 then files_ d full
  else match directoryByPathParts d (drop_root parts) with Some d' => files_ d' full | None => None end.
(** file-directory.go:223-233 Delete: what it finds to delete; it dereferences the pointer found.
    The removal from the parent's map is not modelled *)
Inductive victim := VFile (f : nat) | VDir (d : dir).
Definition Delete_ (d : dir) (p : bytes) : res victim :=
  let! isdir := IsPathDirectory p in
  if isdir then match directoryByPath d p with Some x => Ok (VDir x) | None => Panic end
  else match fileByPath d p with Some f => Ok (VFile f) | None => Panic end.

(** * Media types (mediatype/media-type.go:52-63 parse) *)
Record MediaType := { mediaType : bytes; mainType : bytes; subType : bytes }.
Definition media_parse (t : bytes) : res MediaType :=
  let i := index_byte t 47 in
  if i <? 0 then Panic
  else let! m := slice_to t i in let! s := slice_from t (i + 1) in Ok {| mediaType := t; mainType := m; subType := s |}.
