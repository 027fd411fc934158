(** What a call on a time shared by goroutines has done, by the history [h] of the time: what it was at each moment,
    one moment per step.  A call lasts from [b] to [e]. *)
From Verif Require Import Go ClockModel AtomicRaceModel.

Definition secs_at (h : list instant) (j : nat) (s : Z) : Prop := exists x, nth_error h j = Some x /\ sec x = s.
Definition nanos_at (h : list instant) (j : nat) (n : Z) : Prop := exists x, nth_error h j = Some x /\ nsec x = n.
(** The step from moment [j] to the next changed the seconds (nanoseconds) from one to another. *)
Definition secs_step h j s s' : Prop := secs_at h j s /\ secs_at h (S j) s'.
Definition nanos_step h j n n' : Prop := nanos_at h j n /\ nanos_at h (S j) n'.
Definition answers (h : list instant) (r : xret) : Prop :=
  let b := began r in let e := ended r in
  match op r, res_ r with
  | OLoad, RTime t => exists j k, (b <= j < k)%nat /\ (k < e)%nat /\ secs_at h j (sec t) /\ nanos_at h k (nsec t)
  | OSwap new, RTime t => exists j k, (b <= j < k)%nat /\ (k < e)%nat /\
      secs_step h j (sec t) (sec new) /\ nanos_step h k (nsec t) (nsec new)
  | OStore t, RNone => exists i j k n n', (b <= i < j)%nat /\ (j < k < e)%nat /\
      secs_at h (S j) (sec t) /\ nanos_at h i n /\ nanos_at h k n' /\ nanos_at h (S k) (if n' =? n then nsec t else n')
  | OCAS old new, RBool true => exists j k, (b <= j < k)%nat /\ (k < e)%nat /\
      secs_step h j (sec old) (sec new) /\ nanos_step h k (nsec old) (nsec new)
  | OCAS old new, RBool false =>
      (exists j s, (b <= j < e)%nat /\ secs_step h j s s /\ s <> sec old) \/
      (exists j k n, (b <= j < k)%nat /\ (k < e)%nat /\ secs_step h j (sec old) (sec new) /\ nanos_step h k n n /\ n <> nsec old)
  | OAdd d, RNone => exists j k s n, (b <= j < k)%nat /\ (k < e)%nat /\
      secs_step h j s (i64 (s + d ÷ 1000000000)) /\ nanos_step h k n (i32 (n + Z.rem d 1000000000))
  | _, _ => False
  end.
(** What the calls would do if they were atomic *)
Definition wanted (m : instant) (o : xop) : instant * xres :=
  match o with
  | OLoad => (m, RTime m)
  | OStore t => (t, RNone)
  | OSwap new => (new, RTime m)
  | OCAS old new => if (sec m =? sec old) && (nsec m =? nsec old) then (new, RBool true) else (m, RBool false)
  | OAdd d => (Instant (i64 (sec m + d ÷ 1000000000)) (i32 (nsec m + Z.rem d 1000000000)), RNone)
  end.
