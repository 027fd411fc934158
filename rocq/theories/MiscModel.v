(** Model of gui/pages.go, operation/protocol/action.go, language/string.go, os/default/sort.go and
    file-meta-data.go, timer/init.go, crypto/, minify/minify.go and net/uri/urn.go. *)
From Coq Require Import Permutation.
From Verif Require Import Go FileModel.
From Verif Require RegModel.
Import ListNotations.
Local Open Scope Z_scope.
Local Open Scope list_scope.

(** * gui/pages.go:8-11 Pages; a page is its path and what else it is; the map may be nil *)
Record page := Page { path : bytes; content : Z }.
Record pages := Pages { by_time : list page; by_path : option (bytes -> option page) }.
(** A zero Pages, the only one other packages can make *)
Definition no_pages : pages := Pages [] None.
(** 13-16 RegisterPage: the pages afterwards, and whether the write to the map panicked *)
Definition RegisterPage (p : pages) (x : page) : pages * bool :=
  let t := by_time p ++ [x] in
  match by_path p with
  | None => (Pages t None, true)
  | Some m => (Pages t (Some (RegModel.map_set beq m (path x) (Some x))), false)
  end.
(** 17-19 GetPageByPath: reading a nil map finds nothing *)
Definition GetPageByPath (p : pages) (k : bytes) : option page :=
  match by_path p with None => None | Some m => m k end.
(** Registering in turn, until one panics *)
Fixpoint register_all (p : pages) (l : list page) : pages * bool :=
  match l with
  | [] => (p, false)
  | x :: r => let '(p, panicked) := RegisterPage p x in if panicked then (p, true) else register_all p r
  end.

(** * operation/protocol/action.go: 16-18 Set, 21-23 Check, 25-38 the constants *)
Definition AT_Set (at_ with_ : Z) : Z := with_.
Definition AT_Check (at_ with_ : Z) : bool := Z.land with_ at_ =? with_.
Definition AT_None : Z := 0.
(** Create, Read, Update, Delete, List, Notify, Approve are number 0 to 6 of the block *)
Definition AT_const (iota : Z) : Z := Z.shiftl 1 iota.
Definition AT_All : Z := Z.ones 64.

(** * language/string.go:30-45 DecodeCompressCharecter *)
Definition DecodeChar (s : bytes) : res (bytes * Z) :=
  let! s0 := idx s 0 in
  let! s1 := idx s 1 in
  if s1 <? 128 then Ok ([s0; 128; 128; 128], 1) else
  let! s2 := idx s 2 in
  if s2 <? 128 then Ok ([s0; s1; 128; 128], 2) else
  let! s3 := idx s 3 in
  if s3 <? 128 then Ok ([s0; s1; s2; 128], 3) else Ok ([s0; s1; s2; s3], 4).
(** A caller that reads a text to its end: the characters, with the text cut by the size each time *)
Fixpoint decode_text (k : nat) (s : bytes) : option (res (list (bytes * Z))) :=
  match k with
  | O => None
  | S k =>
      match s with
      | [] => Some (Ok [])
      | _ =>
          match DecodeChar s with
          | Panic => Some Panic
          | Ok (ch, n) =>
              match decode_text k (skipn (Z.to_nat n) s) with
              | Some (Ok r) => Some (Ok ((ch, n) :: r))
              | x => x
              end
          end
      end
  end.

(** * os/default *)
(** sort.go: a file is its name and when it was changed; 21-23 Less *)
Record finfo := Finfo { fname : bytes; modtime : Z }.
Definition Less (a b : finfo) : bool := modtime a <? modtime b.
(** 26-28 SortFilesDec by the contract of the library's sort.Sort: a rearrangement of the files in which
    no later one is less than an earlier one (equal ones in any order) *)
Definition SortFilesDec (l l' : list finfo) : Prop :=
  Permutation l l' /\ forall i j a b, (i < j)%nat -> nth_error l' i = Some a -> nth_error l' j = Some b -> Less b a = false.
(** file-meta-data.go:25 Hidden *)
Definition Hidden (u : FURI) : res bool := let! c := idx (name_ u) 0 in Ok (c =? 46).

(** * timer/init.go *)
(** The timing of a core: whether it runs, and the core it takes itself to be on (timing.go:56-69 Init
    asks for the core the caller is on and starts the loop that runs the timers) *)
Record timing := Timing { runs : bool; core_id : Z }.
(** 12-17: one after another, on the core [active i] the i-th time *)
Fixpoint init_loop (active : Z -> Z) (pool : list timing) (k : nat) (id : Z) : res (list timing) :=
  match k with
  | O => Ok pool
  | S k => let! pool := set_idx pool id (Timing true (active id)) in init_loop active pool k (id + 1)
  end.
(** 8 poolByCores and 10-17 init *)
Definition timer_init (numCPU gomaxprocs : nat) (active : Z -> Z) : res (list timing) :=
  init_loop active (repeat (Timing false 0) numCPU) gomaxprocs 0.
(** 23-25 activeTiming: the timing a timer started on this core is given to *)
Definition activeTiming (pool : list timing) (core : Z) : res timing := idx pool core.

(** * crypto: aes-256.go:15-26 (the key is dropped, a block stays as it is), gcm.go:20-28, ccm.go:20-28;
    the buffer afterwards and the error *)
Inductive cipher := GCM (key : bytes) | CCM (key : bytes) | AES256 (key : bytes).
Definition Encrypt (c : cipher) (buf : bytes) : bytes * option unit := (buf, None).
Definition Decrypt (c : cipher) (buf : bytes) : bytes * option unit := (buf, None).

(** * minify/minify.go:31-44 over data with any codec; the minifier is a library's *)
Record codec (E : Type) := Codec { marshal : bytes + E; unmarshal : bytes -> option E }.
Arguments Codec {E}. Arguments marshal {E}. Arguments unmarshal {E}.
(** The error given back, and the bytes handed to Unmarshal if it was called *)
Definition Minify {E G : Type} (minifier : bytes -> bytes + G) (d : codec E) : option E * option bytes :=
  match marshal d with
  | inr e => (Some e, None)
  | inl raw =>
      match minifier raw with
      | inr _ => (None, None)
      | inl m => (unmarshal d m, Some m)
      end
  end.

(** * net/uri/urn.go:6-22 *)
Record URN := Urn { urn_uri : bytes; nid : bytes; nss : bytes }.
Definition urn_Init (u : URN) (s : bytes) : URN := Urn s (nid u) (nss u).
