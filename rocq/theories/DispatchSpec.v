(** When handing one codec to another comes back, and what it does. *)
From Verif Require Import Go CodecModel SockIoModel DispatchModel.

(** What is inside any number of bodies; nothing when the innermost is empty *)
Fixpoint inside {T} (x : codec T) : option (codec T) :=
  match x with
  | Body None => None
  | Body (Some i) => inside i
  | _ => Some x
  end.
(** Whether a codec is able to give its bytes: a compressor needs a known level unless it has its data
    already or its source fails, a socket needs to be told that all has been received *)
Definition can_give {T} (x : codec T) : Prop :=
  match inside x with
  | Some (Packs _ c) => c_data c <> None \/ c_src c = None \/ -2 <= c_lvl c <= 9
  | Some (Sock sk) => exists l, sk_chan sk = Some l /\ In ReceivedCompletely l
  | _ => True
  end.
(** destination.Decode(source) comes back *)
Definition decode_returns {T} (dst src : codec T) : Prop :=
  match inside dst with
  | None => True
  | Some (JSON _) => can_give src
  | Some (Sock _) => inside src = None
  | _ => True
  end.
(** source.Encode(destination) comes back *)
Definition encode_returns {T} (src dst : codec T) : Prop :=
  inside src = None \/ decode_returns dst src.
Definition comes_back {R} (f : nat -> result R) : Prop := exists k r, f k = Returned r.
(** It goes on for ever: no number of calls is enough *)
Definition never_ends {R} (f : nat -> result R) : Prop := forall k, f k = Running.
(** [dst] and [src] bodies replaced by what they hold now: the same codec with [i] inside *)
Fixpoint refill {T} (x : codec T) (i : codec T) : codec T :=
  match x with Body (Some y) => Body (Some (refill y i)) | Body None => x | _ => i end.
