(** Specifications for files, paths and directories. *)
From Verif Require Import Go StringsModel FileModel.
(** Requests with increasing ranges of content of length n, starting at or after [pos]. *)
Fixpoint increasing (n pos : Z) (l : list ReplaceReq) : Prop :=
  match l with [] => pos <= n | d :: r => pos <= Start d <= End_ d /\ End_ d <= n /\ increasing n (End_ d) r end.
(** The content from [pos] on with the ranges replaced. *)
Fixpoint replaced (c : bytes) (pos : Z) (l : list ReplaceReq) : bytes :=
  match l with
  | [] => skipn (Z.to_nat pos) c
  | d :: r => firstn (Z.to_nat (Start d - pos)) (skipn (Z.to_nat pos) c) ++ Data d ++ replaced c (End_ d) r
  end.
(** [reaches d parts d']: following the names leads from d to d'. *)
Inductive reaches : dir -> list bytes -> dir -> Prop :=
| re_here d : reaches d [] d
| re_down d p d1 r d2 : dirs_ d p = Some d1 -> reaches d1 r d2 -> reaches d (p :: r) d2.
