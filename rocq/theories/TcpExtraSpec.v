(** Specification for the rest of the TCP package: what RFC 793 and the option RFCs say. *)
From Verif Require Import Go TcpExtraModel.

(** Octets of data in each option after its kind and length octets (RFC 793, 7323, 2018, 1072,
    1693, 1644, 1146); [None]: given by the length octet *)
Definition data_octets (k : opt) : option nat :=
  match k with
  | OMSS => Some 2%nat | OWindowScale => Some 1%nat | OSACKPermitted => Some 0%nat
  | OEcho => Some 4%nat | OEchoReply => Some 4%nat | OTimestamps => Some 8%nat
  | OPOCPermitted => Some 0%nat | OPOCProfile => Some 1%nat
  | OCC => Some 4%nat | OCCNew => Some 4%nat | OCCEcho => Some 4%nat
  | OAltChecksum => Some 1%nat | OAltChecksumData => None
  end.
(** An option after its kind octet: the length octet, which counts kind and length too, and the data *)
Definition view (data rest : bytes) : bytes := (2 + zlen data) :: data ++ rest.
(** Applying an operation [n] times *)
Fixpoint times {A} (n : nat) (f : A -> A) (x : A) : A := match n with O => x | S n => times n f (f x) end.
