(** Model of the names of days (time/utc/weekday.go) and of threads that add to, or exchange, one
    atomic time (time/unix/atomic.go, time/monotonic/atomic.go).  Times are those of ClockModel. *)
From Coq Require Import String.
From Verif Require Import Go ClockModel.
Import ListNotations.
Open Scope string_scope. Open Scope Z_scope. Open Scope list_scope.

(** time/utc/weekday.go:31 protocol.AppLanguage: the languages of the switch, and all others *)
Inductive language := English | Persian | OtherLanguage.
(** time/utc/weekday.go:30-66 String.  The Persian names are given as their UTF-8 bytes. *)
Definition Weekdays_String (lang : language) (wd : Z) : bytes :=
  match lang with
  | English =>
      if wd =? 1 then str "Monday"
      else if wd =? 2 then str "Tuesday"
      else if wd =? 4 then str "Wednesday"
      else if wd =? 8 then str "Thursday"
      else if wd =? 16 then str "Friday"
      else if wd =? 32 then str "Saturday"
      else if wd =? 64 then str "Sunday"
      else []
  | Persian =>
      if wd =? 1 then [216; 175; 217; 136; 216; 180; 217; 134; 216; 168; 217; 135]
      else if wd =? 2 then [216; 179; 217; 135; 32; 216; 180; 217; 134; 216; 168; 217; 135]
      else if wd =? 4 then [218; 134; 217; 135; 216; 167; 216; 177; 216; 180; 217; 134; 216; 168; 217; 135]
      else if wd =? 8 then [217; 190; 217; 134; 218; 134; 32; 216; 180; 217; 134; 216; 168; 217; 135]
      else if wd =? 16 then [216; 172; 217; 133; 216; 185; 217; 135]
      else if wd =? 32 then [216; 180; 217; 134; 216; 168; 217; 135]
      else if wd =? 64 then [219; 140; 218; 169; 216; 180; 217; 134; 216; 168; 217; 135]
      else []
  | OtherLanguage => []
  end.

(** * An atomic time shared by threads *)
(** What a thread still has to do, one step per operation on memory, and what Swap has returned.
    time/unix/atomic.go:62-66 Add (two steps), 47-53 Swap (two steps; Go evaluates the fields of the
    literal in order). *)
Inductive thread :=
| TAdd (d : Z)                    (* before 64 *)
| TAddNano (n : Z)                (* before 65 *)
| TSwap (new : instant)           (* before 49 *)
| TSwapNano (new : instant) (s : Z) (* before 50 *)
| TGot (old : instant)            (* Swap has returned *)
| TDone.                          (* Add has returned *)
Definition thread_step (m : instant) (t : thread) : instant * thread :=
  match t with
  | TAdd d => let '(s, n) := ToSecAndNano d in (Instant (i64 (sec m + s)) (nsec m), TAddNano n)
  | TAddNano n => (Instant (sec m) (i32 (nsec m + n)), TDone)
  | TSwap new => (Instant (sec new) (nsec m), TSwapNano new (sec m))
  | TSwapNano new s => (Instant (sec m) (nsec new), TGot (Instant s (nsec m)))
  | TGot _ | TDone => (m, t)
  end.
(** A schedule names the thread of each step; naming one that is not there does nothing. *)
Fixpoint schedule (m : instant) (ts : list thread) (l : list nat) : instant * list thread :=
  match l with
  | [] => (m, ts)
  | i :: l =>
      match nth_error ts i with
      | None => schedule m ts l
      | Some t => let '(m, t) := thread_step m t in schedule m (upd ts i t) l
      end
  end.
Definition finished (t : thread) : bool := match t with TGot _ | TDone => true | _ => false end.

(** time/monotonic/atomic.go:26 Add: one step *)
Definition mono_Add (a d : Z) : Z := i64 (a + d).
