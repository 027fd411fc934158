(** C25 for every Accept line, whatever is in it. *)
From Coq Require Import String Permutation ZifyBool ZifyNat.
From Verif Require Import Go GoFacts StringsModel StringsProofs HttpModel HttpSpec HttpProofs HttpTheorems.
Import ListNotations.
Local Open Scope Z_scope.
Local Open Scope list_scope.

(** [core] is [piece] without the spaces around it *)
Definition stripped (piece core : bytes) : Prop :=
  exists n m, piece = repeat 32 n ++ core ++ repeat 32 m /\ hd_error core <> Some 32 /\ hd_error (rev core) <> Some 32.
(** What a piece of the line stands for: a text without parameters has the weight 1; otherwise the value
    of the first parameter, whatever its name, is the weight; a first parameter that is not one name and
    one value, or has a value that is no number, makes the piece stand for nothing *)
Inductive means (PF : bytes -> option quality) (one : quality) : bytes -> option mime -> Prop :=
| Plain t : ~ In 59 t -> means PF one t (Some (t, one))
| Weight t p v rest : ~ In 59 t -> ~ In 59 p -> ~ In 59 v -> ~ In 61 p -> ~ In 61 v -> rest = [] \/ hd_error rest = Some 59 ->
    means PF one (t ++ [59] ++ p ++ [61] ++ v ++ rest) (option_map (fun f => (t, f)) (PF v))
| Nothing t p rest : ~ In 59 t -> ~ In 59 p -> count_occ Z.eq_dec p 61 <> 1%nat -> rest = [] \/ hd_error rest = Some 59 ->
    means PF one (t ++ [59] ++ p ++ rest) None.

Lemma strip_trim piece core : stripped piece core -> Trim1 piece 32 = core.
Proof.
  intros (n & m & -> & H1 & H2). unfold Trim1. destruct core as [|x s].
  - cbn [app]. rewrite <- repeat_app. rewrite <- (app_nil_r (repeat 32 (n + m))), trim_left_pad by discriminate. reflexivity.
  - rewrite trim_left_pad by exact H1. rewrite rev_app_distr, rev_repeat, trim_left_pad by exact H2. apply rev_involutive.
Qed.
Lemma trim_left_spec s : exists n, s = repeat 32 n ++ trim_left s 32 /\ hd_error (trim_left s 32) <> Some 32.
Proof.
  induction s as [|x s (n & E & H)]; [exists 0%nat; split; [reflexivity|discriminate]|]. cbn [trim_left]. destruct (Z.eqb_spec x 32) as [->|N].
  - exists (S n). cbn [repeat app]. split; [now f_equal|exact H].
  - exists 0%nat. split; [reflexivity|]. cbn. congruence.
Qed.
Lemma strip_ex s : stripped s (Trim1 s 32).
Proof.
  unfold Trim1. destruct (trim_left_spec s) as (n & E & H). set (t := trim_left s 32) in *.
  destruct (trim_left_spec (rev t)) as (m & F & G). set (u := trim_left (rev t) 32) in *.
  assert (T : t = rev u ++ repeat 32 m) by (rewrite <- (rev_involutive t), F, rev_app_distr, rev_repeat; reflexivity).
  exists n, m. split; [now rewrite E, T|]. split; [|now rewrite rev_involutive].
  destruct (rev u) as [|y w] eqn:R; [discriminate|]. rewrite T in H. exact H.
Qed.
Lemma split_head a c r : ~ In c a -> r = [] \/ hd_error r = Some c -> exists l, Split1 (a ++ r) c = a :: l.
Proof.
  intros N [->|H]; [rewrite app_nil_r, split_none by exact N; eauto|]. destruct r as [|x r]; [discriminate|]. injection H as ->. rewrite split_app by exact N. eauto.
Qed.
Lemma split_count s c : length (Split1 s c) = S (count_occ Z.eq_dec s c).
Proof.
  induction s as [|x s IH]; [reflexivity|]. cbn [Split1 count_occ]. destruct (Z.eqb_spec x c) as [->|N].
  - destruct (Z.eq_dec c c) as [_|F]; [|now destruct F]. cbn [length]. now rewrite IH.
  - destruct (Z.eq_dec x c) as [F|_]; [contradiction|]. destruct (Split1 s c) as [|p r]; [discriminate IH|exact IH].
Qed.
Lemma means_entry PF one piece core o : stripped piece core -> means PF one core o -> accept_entry PF one piece = o.
Proof.
  intros St M. unfold accept_entry. rewrite (strip_trim _ _ St). destruct M as [t N | t p v rest N1 N2 N3 N4 N5 R | t p rest N1 N2 C R].
  - now rewrite split_none.
  - cbn [app]. rewrite split_app by exact N1. replace (p ++ 61 :: v ++ rest) with ((p ++ [61] ++ v) ++ rest) by (rewrite <- !app_assoc; reflexivity).
    destruct (split_head (p ++ [61] ++ v) 59 rest) as (l & ->); [|exact R|].
    { intros K. apply in_app_or in K as [K|[K|K]]; [auto|lia|auto]. }
    cbn [app]. now rewrite split_app, split_none by assumption.
  - cbn [app]. rewrite split_app by exact N1. destruct (split_head p 59 rest N2 R) as (l & ->).
    pose proof (split_count p 61) as L. destruct (Split1 p 61) as [|a [|b [|d e]]]; cbn [length] in L; try reflexivity. lia.
Qed.
Definition given (o : list (option mime)) : list mime := flat_map (fun x => match x with Some m => [m] | None => [] end) o.
(** Every line: what its pieces stand for comes out, highest weight first, pieces of one weight in the order of the line *)
Theorem C25_line_exact : forall PF one pieces cores o, pieces <> [] -> Forall (fun p => ~ In 44 p) pieces ->
  Forall2 stripped pieces cores -> Forall2 (means PF one) cores o ->
  let out := sortMimes PF one (Join pieces (str ",")) in
  Permutation out (given o) /\ descending rank (filter numeric out) /\ stable rank (filter numeric (given o)) (filter numeric out).
Proof.
  intros PF one pieces cores o N F St M out. unfold out. rewrite sortMimes_inserts. change (str ",") with [44]. rewrite split_join by assumption.
  replace (entries PF one pieces) with (given o); [apply (C25_sorted_stable (given o))|].
  clear N F out. revert o M. induction St as [|p c ps cs Hp St IH]; intros o M; inversion M as [|? x ? xs Hx Mx]; subst; [reflexivity|].
  unfold entries, given in *. cbn [flat_map]. rewrite (means_entry _ _ _ _ _ Hp Hx). now rewrite (IH _ Mx).
Qed.
(** and every line is of that shape *)
Lemma cut (c : Z) (s : bytes) : ~ In c s \/ exists a b, s = a ++ [c] ++ b /\ ~ In c a.
Proof.
  induction s as [|x s IH]; [left; intros []|]. destruct (Z.eq_dec x c) as [->|N]; [right; exists [], s; split; [reflexivity|intros []]|].
  destruct IH as [H|(a & b & -> & H)]; [left; intros [K|K]; auto|]. right. exists (x :: a), b. split; [reflexivity|]. intros [K|K]; auto.
Qed.
Lemma means_ex PF one core : exists o, means PF one core o.
Proof.
  destruct (cut 59 core) as [N|(t & r & -> & N)]; [eexists; now apply Plain|].
  assert (Q : exists p rest, r = p ++ rest /\ ~ In 59 p /\ (rest = [] \/ hd_error rest = Some 59)).
  { destruct (cut 59 r) as [M|(p & q & -> & M)]; [exists r, []; rewrite app_nil_r; auto|]. exists p, (59 :: q). repeat split; auto. }
  destruct Q as (p & rest & -> & M & R). destruct (Nat.eq_dec (count_occ Z.eq_dec p 61) 1) as [C|C]; [|eexists; now apply Nothing].
  destruct (cut 61 p) as [K|(k & v & -> & K)]; [apply (count_occ_not_In Z.eq_dec) in K; lia|].
  eexists. replace (t ++ [59] ++ (k ++ [61] ++ v) ++ rest) with (t ++ [59] ++ k ++ [61] ++ v ++ rest) by (rewrite <- !app_assoc; reflexivity).
  apply Weight; auto; try (intros I; apply M; apply in_or_app; auto; right; now right).
  rewrite count_occ_app in C. cbn [app count_occ] in C. destruct (Z.eq_dec 61 61) as [_|X]; [|now destruct X].
  apply (count_occ_not_In Z.eq_dec). apply (count_occ_not_In Z.eq_dec) in K. lia.
Qed.
Theorem C25_line_total : forall PF one line, exists pieces cores o, line = Join pieces (str ",") /\ pieces <> [] /\
  Forall (fun p => ~ In 44 p) pieces /\ Forall2 stripped pieces cores /\ Forall2 (means PF one) cores o.
Proof.
  intros PF one line. change (str ",") with [44]. exists (Split1 line 44), (map (fun p => Trim1 p 32) (Split1 line 44)).
  assert (M : forall l, exists o, Forall2 (means PF one) l o).
  { induction l as [|c l (o & IH)]; [exists []; constructor|]. destruct (means_ex PF one c) as (x & H). exists (x :: o). now constructor. }
  destruct (M (map (fun p => Trim1 p 32) (Split1 line 44))) as (o & H). exists o. split; [symmetry; apply join_split|]. split; [apply split_nonempty|].
  split; [apply split_free|]. split; [|exact H]. clear. induction (Split1 line 44) as [|p l IH]; constructor; [apply strip_ex|exact IH].
Qed.
Print Assumptions C25_line_exact.
Print Assumptions C25_line_total.
Example C25_exact_case : means digits_only (Some 5) (str "a/b;level=3;q=9") (Some (str "a/b", Some 3)) /\ means digits_only (Some 5) (str "a/b;flag") None /\
  stripped (str "  x y ") (str "x y") /\
  sortMimes digits_only (Some 5) (str "a/b;level=3;q=9, x y,c/d;q=1=2,e;q=z") = [(str "x y", Some 5); (str "a/b", Some 3)].
Proof.
  split; [|split; [|split; [|vm_compute; reflexivity]]].
  - apply (Weight digits_only (Some 5) (str "a/b") (str "level") (str "3") (str ";q=9")); try (vm_compute; intuition discriminate).
  - apply (Nothing digits_only (Some 5) (str "a/b") (str "flag") []); try (vm_compute; intuition discriminate).
  - exists 2%nat, 1%nat. repeat split; vm_compute; discriminate.
Qed.
