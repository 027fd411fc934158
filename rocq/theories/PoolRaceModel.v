(** pool/lifo.go once more, used by any number of threads: here every atomic operation of the code is a step of
    its own (a load or swap of the state, a section under the mutex, an addition to itemsCount, a call of New or
    CloseFunc) and the steps of the threads are interleaved in any way.  Simplified: the calls of CloseFunc that
    Close makes under the mutex are one step; New is set and never returns nil. *)
From Verif Require Import Go PoolModel.

(** Where a thread is. *)
Inductive pc :=
| Free                              (* in no call *)
| GetPop                            (* lifo.go:66 Get, before popHead *)
| GetNew                            (* lifo.go:165 makeNew, before the addition *)
| GetMake                           (* lifo.go:167, before New *)
| GetBack                           (* lifo.go:169, before taking the addition back *)
| PutPush (x : Z)                   (* lifo.go:79 *)
| PutClose (x : Z)                  (* lifo.go:75 *)
| CloseLoop | CloseEnd              (* lifo.go:88 and 97 *)
| CleanSwap                         (* lifo.go:109 *)
| CleanSub (vi : list (option Z))   (* lifo.go:115 *)
| CleanClose (vi : list (option Z)) (* lifo.go:118-120, those still to close *)
| Dead.                             (* the call panicked *)

(** [status]: 1 running, 2 stopping, 3 stopped (pool/status.go:7-12).  [r_held]: objects Get returned that were not
    Put back; they may be passed between threads.  [r_gone]: objects given to CloseFunc by Put or Clean, [r_shut]: by
    Close; [r_sub]: all that Clean subtracted from itemsCount;
    [r_empty]: how many empty slots it gave to CloseFunc.  Slices last item first, as in PoolModel. *)
Record rpool := RPool {
  r_max : Z; status : Z; r_count : Z; r_hot : option Z; r_idle : list (option Z); r_victim : list (option Z);
  made : Z; r_held : list Z; r_gone : list Z; r_shut : list Z; r_sub : Z; r_empty : Z; pcs : list pc }.

(** lifo.go:38-48: after Init, with [n] threads *)
Definition RInit (m : Z) (n : nat) : rpool := RPool m 1 0 None (empty_slots m) [] 0 [] [] [] 0 0 (repeat Free n).

(** What a free thread begins; a thread inside a call goes on with [Go]. *)
Inductive act := DoGet | DoPut (x : Z) | DoClose | DoClean | DoInit | Go.

Fixpoint set_nth {A} (l : list A) (i : nat) (x : A) : list A :=
  match l, i with
  | [], _ => []
  | _ :: t, O => x :: t
  | h :: t, S j => h :: set_nth t j x
  end.
Definition at_ (s : rpool) (i : nat) (p : pc) : rpool :=
  RPool (r_max s) (status s) (r_count s) (r_hot s) (r_idle s) (r_victim s) (made s) (r_held s) (r_gone s) (r_shut s) (r_sub s) (r_empty s) (set_nth (pcs s) i p).

(** lifo.go:124-130 isStop *)
Definition isStop (s : rpool) : bool := (status s =? 2) || (status s =? 3).

(** One step of thread [i]; [None] when the thread cannot do that. *)
Definition rstep (s : rpool) (i : nat) (a : act) : option rpool :=
  match nth_error (pcs s) i, a with
  | Some Free, DoGet => (* lifo.go:61-65 *)
      Some (at_ s i (if isStop s then Free else GetPop))
  | Some GetPop, Go => (* lifo.go:132-152 popHead *)
      let ret hot idle victim x :=
        match x with
        | Some o => at_ (RPool (r_max s) (status s) (r_count s) hot idle victim (made s) (o :: r_held s) (r_gone s) (r_shut s) (r_sub s) (r_empty s) (pcs s)) i Free
        | None => at_ (RPool (r_max s) (status s) (r_count s) hot idle victim (made s) (r_held s) (r_gone s) (r_shut s) (r_sub s) (r_empty s) (pcs s)) i GetNew
        end in
      Some (match r_hot s, r_idle s, r_victim s with
            | Some x, d, v => ret None d v (Some x)
            | None, x :: d, v => ret None d v x
            | None, [], x :: v => ret None [] v x
            | None, [], [] => ret None [] [] None
            end)
  | Some GetNew, Go => (* lifo.go:165-166 *)
      let c := r_count s + 1 in
      Some (at_ (RPool (r_max s) (status s) c (r_hot s) (r_idle s) (r_victim s) (made s) (r_held s) (r_gone s) (r_shut s) (r_sub s) (r_empty s) (pcs s)) i
                (if c <=? r_max s then GetMake else GetBack))
  | Some GetMake, Go => (* lifo.go:167 *)
      Some (at_ (RPool (r_max s) (status s) (r_count s) (r_hot s) (r_idle s) (r_victim s) (made s + 1) (made s :: r_held s) (r_gone s) (r_shut s) (r_sub s) (r_empty s) (pcs s)) i Free)
  | Some GetBack, Go => (* lifo.go:169; Get returns nil *)
      Some (at_ (RPool (r_max s) (status s) (r_count s - 1) (r_hot s) (r_idle s) (r_victim s) (made s) (r_held s) (r_gone s) (r_shut s) (r_sub s) (r_empty s) (pcs s)) i Free)
  | Some Free, DoPut x => (* lifo.go:73-79; the caller gives up the object *)
      if in_dec Z.eq_dec x (r_held s) then
        Some (at_ (RPool (r_max s) (status s) (r_count s) (r_hot s) (r_idle s) (r_victim s) (made s) (remove Z.eq_dec x (r_held s)) (r_gone s) (r_shut s) (r_sub s) (r_empty s) (pcs s)) i
                  (if isStop s then PutClose x else PutPush x))
      else None
  | Some (PutPush x), Go => (* lifo.go:154-162 pushHead *)
      Some (at_ (match r_hot s with
                 | None => RPool (r_max s) (status s) (r_count s) (Some x) (r_idle s) (r_victim s) (made s) (r_held s) (r_gone s) (r_shut s) (r_sub s) (r_empty s) (pcs s)
                 | Some _ => RPool (r_max s) (status s) (r_count s) (r_hot s) (Some x :: r_idle s) (r_victim s) (made s) (r_held s) (r_gone s) (r_shut s) (r_sub s) (r_empty s) (pcs s)
                 end) i Free)
  | Some (PutClose x), Go => (* lifo.go:75 *)
      Some (at_ (RPool (r_max s) (status s) (r_count s) (r_hot s) (r_idle s) (r_victim s) (made s) (r_held s) (x :: r_gone s) (r_shut s) (r_sub s) (r_empty s) (pcs s)) i Free)
  | Some Free, DoClose => (* lifo.go:82-86 *)
      Some (at_ (RPool (r_max s) 2 (r_count s) (r_hot s) (r_idle s) (r_victim s) (made s) (r_held s) (r_gone s) (r_shut s) (r_sub s) (r_empty s) (pcs s)) i
                (if status s =? 1 then CloseLoop else Dead))
  | Some CloseLoop, Go => (* lifo.go:88-95 *)
      Some (at_ (RPool (r_max s) (status s) (r_count s) (r_hot s) (r_idle s) (r_victim s) (made s) (r_held s) (r_gone s) (objects (r_idle s) ++ r_shut s) (r_sub s) (r_empty s) (pcs s)) i CloseEnd)
  | Some CloseEnd, Go => (* lifo.go:97 *)
      Some (at_ (RPool (r_max s) 3 (r_count s) (r_hot s) (r_idle s) (r_victim s) (made s) (r_held s) (r_gone s) (r_shut s) (r_sub s) (r_empty s) (pcs s)) i Free)
  | Some Free, DoClean => (* lifo.go:105-107, after the sleep *)
      Some (at_ s i (if isStop s then Free else CleanSwap))
  | Some CleanSwap, Go => (* lifo.go:109-113 *)
      Some (at_ (RPool (r_max s) (status s) (r_count s) (r_hot s) (empty_slots (r_max s)) (r_idle s) (made s) (r_held s) (r_gone s) (r_shut s) (r_sub s) (r_empty s) (pcs s)) i (CleanSub (rev (r_victim s))))
  | Some (CleanSub vi), Go => (* lifo.go:115 *)
      Some (at_ (RPool (r_max s) (status s) (r_count s - zlen vi) (r_hot s) (r_idle s) (r_victim s) (made s) (r_held s) (r_gone s) (r_shut s) (r_sub s + zlen vi) (r_empty s) (pcs s)) i (CleanClose vi))
  | Some (CleanClose vi), Go => (* lifo.go:118-120 *)
      Some (match vi with
            | [] => at_ s i Free
            | Some x :: r => at_ (RPool (r_max s) (status s) (r_count s) (r_hot s) (r_idle s) (r_victim s) (made s) (r_held s) (x :: r_gone s) (r_shut s) (r_sub s) (r_empty s) (pcs s)) i (CleanClose r)
            | None :: r => at_ (RPool (r_max s) (status s) (r_count s) (r_hot s) (r_idle s) (r_victim s) (made s) (r_held s) (r_gone s) (r_shut s) (r_sub s) (r_empty s + 1) (pcs s)) i (CleanClose r)
            end)
  | Some Free, DoInit => (* lifo.go:38-42 called once more: it panics, but the state is changed *)
      Some (at_ (RPool (r_max s) 1 (r_count s) (r_hot s) (r_idle s) (r_victim s) (made s) (r_held s) (r_gone s) (r_shut s) (r_sub s) (r_empty s) (pcs s)) i Dead)
  | _, _ => None
  end.

Fixpoint rrun (s : rpool) (l : list (nat * act)) : option rpool :=
  match l with
  | [] => Some s
  | (i, a) :: l => match rstep s i a with Some s1 => rrun s1 l | None => None end
  end.
