(** Registries and errors: operation/services/services.go, errors/errors.go, error/*.go.
    Go maps are functions from keys to an optional value. *)
From Verif Require Import Go.

Definition map_set {K V} (eqb : K -> K -> bool) (m : K -> option V) (k : K) (v : option V) : K -> option V :=
  fun x => if eqb k x then v else m x.

(** protocol.Service: its identifier, its media type, and which object it is *)
Record service := { s_id : Z; s_mt : bytes; s_obj : nat }.
(** operation/services/services.go:24-34; the list starts with poolSizes = 512 nil entries *)
Record services := { by_time : list (option service); by_id : Z -> option service; by_mt : bytes -> option service }.
Definition services0 : services := {| by_time := repeat None 512; by_id := fun _ => None; by_mt := fun _ => None |}.
Inductive serr := SNone | SNoIdentifier.
(** services.go:60-66 GetByID, 71-77 GetByMediaType: [None] is ErrNotFound *)
Definition GetByID (ss : services) (id : Z) : option service := by_id ss id.
Definition GetByMediaType (ss : services) (mt : bytes) : option service := by_mt ss mt.
(** services.go:87-107 registerServiceByMediaType (log.Fatal only dispatches a log event,
    log/log-helpers.go:63-67; the error it sets is dropped by Register) *)
Definition registerServiceByMediaType (ss : services) (s : service) : services :=
  let ids := match GetByID ss (s_id s) with Some _ => by_id ss | None => map_set Z.eqb (by_id ss) (s_id s) (Some s) end in
  let mts := match GetByMediaType ss (s_mt s) with Some _ => by_mt ss | None => map_set beq (by_mt ss) (s_mt s) (Some s) end in
  {| by_time := by_time ss; by_id := ids; by_mt := mts |}.
(** services.go:41-50 Register *)
Definition Register (ss : services) (s : service) : services * serr :=
  if s_id s =? 0 then (ss, SNoIdentifier)
  else
    let ss := registerServiceByMediaType ss s in
    ({| by_time := (by_time ss ++ [Some s])%list; by_id := by_id ss; by_mt := by_mt ss |}, SNone).
(** services.go:80-85 Delete *)
Definition Delete (ss : services) (s : service) : services :=
  {| by_time := by_time ss; by_id := map_set Z.eqb (by_id ss) (s_id s) None; by_mt := map_set beq (by_mt ss) (s_mt s) None |}.
Inductive sop := SReg (s : service) | SDel (s : service).
Definition sstep (ss : services) (o : sop) : services :=
  match o with SReg s => fst (Register ss s) | SDel s => Delete ss s end.
Definition srun (l : list sop) : services := fold_left sstep l services0.

(** protocol.Error of the registry: id, media type text, object *)
Record error_ := { e_id : Z; e_mt : bytes; e_obj : nat }.
(** errors/errors.go:14-22 *)
Record errors := { pool_id : Z -> option error_; pool_mt : bytes -> option error_ }.
Definition errors0 : errors := {| pool_id := fun _ => None; pool_mt := fun _ => None |}.
Inductive eres := EOk | ENoIdentifier | EDuplicate.
(** errors.go:24-41 Register; [dev] is protocol.AppMode_Dev *)
Definition ERegister (dev : bool) (e : errors) (x : error_) : errors * eres :=
  if dev && (e_id x =? 0) then (e, ENoIdentifier)
  else if dev && match pool_id e (e_id x) with Some _ => true | None => false end then (e, EDuplicate)
  else ({| pool_id := map_set Z.eqb (pool_id e) (e_id x) (Some x); pool_mt := map_set beq (pool_mt e) (e_mt x) (Some x) |}, EOk).
(** errors.go:43-47 UnRegister *)
Definition EUnRegister (e : errors) (x : error_) : errors :=
  {| pool_id := map_set Z.eqb (pool_id e) (e_id x) None; pool_mt := map_set beq (pool_mt e) (e_mt x) None |}.
(** errors.go:50-60 GetByID, 63-70 GetByMediaType *)
Inductive found := Nothing | Found (x : error_) | NotFound.
Definition EGetByID (e : errors) (id : Z) : found :=
  if id =? 0 then Nothing else match pool_id e id with Some x => Found x | None => NotFound end.
Definition EGetByMediaType (e : errors) (mt : bytes) : found :=
  match pool_mt e mt with Some x => Found x | None => NotFound end.
Inductive eop := EReg (x : error_) | EUn (x : error_).
Definition estep (dev : bool) (e : errors) (o : eop) : errors :=
  match o with EReg x => fst (ERegister dev e x) | EUn x => EUnRegister e x end.
Definition erun (dev : bool) (l : list eop) : errors := fold_left (estep dev) l errors0.

(** Values of the error_p.Error interface: nil, an error, a chained error (error/chain-error.go:
    30-33), and an interface holding a nil *ChainError *)
Inductive err := Nil | Err (mt : bytes) (id : Z) (summary : bytes) | Chain (e c : err) | NilChain.
(** Calling MediaType, DataTypeID or Summary: a chained error forwards to the wrapped one; on nil
    and on a nil *ChainError it panics *)
Fixpoint err_MediaType (e : err) : res bytes := match e with Err m _ _ => Ok m | Chain e _ => err_MediaType e | _ => Panic end.
Fixpoint err_DataTypeID (e : err) : res Z := match e with Err _ i _ => Ok i | Chain e _ => err_DataTypeID e | _ => Panic end.
Fixpoint err_Summary (e : err) : res bytes := match e with Err _ _ s => Ok s | Chain e _ => err_Summary e | _ => Panic end.
Definition is_nil (e : err) : bool := match e with Nil => true | _ => false end.
(** chain-error.go:19-27 NewChain, its *ChainError result used as an Error *)
Definition NewChain (e c : err) : err := if is_nil e || is_nil c then NilChain else Chain e c.
(** chain-error.go:10-16 PastChain *)
Definition PastChain (e : err) : res err := match e with Chain _ c => Ok c | NilChain => Panic | _ => Ok Nil end.
(** error-type.go / util.go IsEqual (error/error.go:11-22) *)
Definition IsEqual (base with_ : err) : res bool :=
  if is_nil base && is_nil with_ then Ok true
  else if is_nil base || is_nil with_ then Ok false
  else
    let! m1 := err_MediaType base in let! m2 := err_MediaType with_ in
    if beq m1 m2 then let! i1 := err_DataTypeID base in let! i2 := err_DataTypeID with_ in Ok (i1 =? i2)
    else Ok false.
(** Go errors: nil, the errorString of util.go:20-24, or an Error that is also a Go error *)
Inductive goerr := GNil | GString (msg : bytes) | GErr (e : err).
(** util.go:9-17 ToGoError *)
Definition ToGoError (e : err) : res goerr := if is_nil e then Ok GNil else let! m := err_Summary e in Ok (GString m).
(** util.go:26-38 ToError: the type assertion without ok panics for any other Go error *)
Definition ToError (g : goerr) : res err :=
  match g with GNil => Ok Nil | GErr e => Ok e | GString _ => Panic end.
