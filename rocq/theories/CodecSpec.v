(** What codecs and registries should do, independent of their state. *)
From Verif Require Import Go CodecModel.

(** A compression library is lossless at every level it accepts. *)
Definition lossless (L : lib) : Prop :=
  forall lvl x, -2 <= lvl <= 9 -> lib_unpack L (lib_pack L lvl x) = Some (x, true).
(** A call that does not change the source. *)
Definition no_source (o : op) : Prop := forall s, o <> Source s.

(** A codec whose content is [data]: what reading calls return. *)
Definition serves (data : bytes) (o : op) (r : out) : Prop :=
  match o with
  | Marshal => r = OData (Some data) false
  | MarshalTo d => r = OData (Some (d ++ data)) false
  | Len => r = OLen (zlen data)
  | _ => True
  end.
(** Calls that would change a codec built over another one are refused. *)
Definition refuses (o : op) (r : out) : Prop :=
  match o with
  | Decode | Unmarshal _ | UnmarshalFrom _ | ReadFrom _ => r = ORefused
  | _ => True
  end.
(** The bytes a writer receives. *)
Definition writes (data : bytes) (o : op) (r : out) : Prop :=
  match o with WriteTo => exists n, r = OWrote data n false | _ => True end.

(** The last element satisfying a test. *)
Definition last_such {A} (f : A -> bool) (l : list A) : option A := find f (rev l).
Definition acceptable (c : ctype) : bool := negb (beq (ct_mt c) []) && negb (beq (ct_enc c) []).
Definition m_acceptable (m : mtype) : bool := negb (beq (m_main m) []) || negb (beq (m_sub m) []).

(** The payload a JSON codec was last given, if any (a failed Decode from a source
    that gives nothing clears it). *)
Fixpoint last_given {T} (l : list (jop T)) (cur : option bytes) : option bytes :=
  match l with
  | [] => cur
  | JUnmarshal d :: t => last_given t (Some d)
  | JDecode s :: t => last_given t s
  | _ :: t => last_given t cur
  end.
