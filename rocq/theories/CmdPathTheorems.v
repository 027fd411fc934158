(** C155, C156: visiting flags, shortening paths. *)
From Coq Require Import String ZifyBool ZifyNat.
From Verif Require Import Go GoFacts StringsModel StringsProofs CmdModel CmdSpec CmdTheorems WwwProofs CmdPathModel CmdPathSpec.
Import ListNotations.
Local Open Scope Z_scope.
Local Open Scope list_scope.

Lemma visit_noting stop : forall l seen0, exists more rest, l = more ++ rest /\ visit l (noting stop) seen0 = seen0 ++ more /\
  (forall a b, more = a ++ b -> a <> [] -> b <> [] -> stop (seen0 ++ a) = false) /\ (rest = [] \/ more <> [] /\ stop (seen0 ++ more) = true).
Proof.
  induction l as [|i l IH]; intros seen0.
  - exists [], []. cbn [visit]. rewrite !app_nil_r. repeat split; auto. intros a b E. symmetry in E. apply app_eq_nil in E. destruct E. congruence.
  - cbn [visit]. unfold noting at 1. destruct (stop (seen0 ++ [i])) eqn:E.
    + exists [i], l. repeat split; auto; [|right; split; [discriminate|exact E]]. intros a b H Na Nb. destruct a as [|x [|y a]]; [congruence| |discriminate]. destruct b; [congruence|discriminate].
    + destruct (IH (seen0 ++ [i])) as (more & rest & -> & V & B & C). exists (i :: more), rest. rewrite V, <- !app_assoc. cbn [app]. split; [reflexivity|]. split; [reflexivity|]. split.
      * intros a b H Na Nb. destruct a as [|x a]; [congruence|]. injection H as -> ->. destruct a as [|y a]; [exact E|]. specialize (B (y :: a) b eq_refl). rewrite <- app_assoc in B. cbn [app] in B. apply B; [discriminate|exact Nb].
      * destruct C as [->|(N & C)]; [auto|]. right. rewrite <- app_assoc in C. cbn [app] in C. split; [discriminate|exact C].
Qed.
(** C155.  VisitAll goes over all the fields in the order given, whether set or not, until the visitor says
    stop; Visit does so over the fields that were set. *)
Theorem C155_all : forall s stop, up_to_stop stop (seq 0 (length (fields s))) (VisitAll s (noting stop) []).
Proof. intros s stop. destruct (visit_noting stop (seq 0 (length (fields s))) []) as (m & r & E & V & B & C). unfold VisitAll, up_to_stop. rewrite V. cbn [app] in *. exists r. auto. Qed.
Print Assumptions C155_all.
Lemma step_denotes s i r fs' : flag_name (item_name i) -> args s = render i ++ r -> sets (fields s) i fs' ->
  exists k, denotes (fields s) (item_name i) k /\ parseOne s = ({| fields := fs'; parsed := parsed s ++ [k]; args := r |}, ENone).
Proof.
  intros F A (k & f & w & D & E & P & -> & C). exists k. split; [exact D|]. pose proof (proj2 (Lookup_denotes (at_args s r) (item_name i) k) D) as L.
  destruct i as [two n v|two n|two n v]; cbn [item_name item_value render app] in *.
  - rewrite (parse_flag s two n r (61 :: v) F A) by (right; reflexivity). cbn [tl]. unfold checkAndSet. destruct v as [|v0 v]; [contradiction|].
    apply (set_item (at_args s r) n _ k f w D E P).
  - rewrite <- (app_nil_r n) in A. rewrite (parse_flag s two n r [] F A) by auto. cbn [tl]. unfold checkAndSet. rewrite L. cbn [at_args fields]. rewrite E, C.
    apply (set_item (at_args s r) n _ k f w D E P).
  - rewrite <- (app_nil_r n) in A. rewrite (parse_flag s two n (v :: r) [] F A) by auto. cbn [tl]. unfold checkAndSet.
    change (Lookup (at_args s (v :: r)) n) with (Lookup (at_args s r) n). rewrite L. cbn [at_args fields args parsed]. rewrite E, C.
    apply (set_item (at_args s r) n _ k f w D E P).
Qed.
Lemma run_denotes l : forall s r fs', sets_all (fields s) l fs' -> args s = concat (map render l) ++ r ->
  exists ks, Forall2 (fun i k => denotes (fields s) (item_name i) k) l ks /\
    forall k, Parse (length l + k) s = Parse k {| fields := fs'; parsed := parsed s ++ ks; args := r |}.
Proof.
  induction l as [|i l IH]; intros s r fs' H A; inversion H; subst.
  - exists []. split; [constructor|]. intros k. destruct s as [fs p a]. cbn in *. subst a. now rewrite app_nil_r.
  - cbn [map concat] in A. rewrite <- app_assoc in A. match goal with F : flag_name _, G : sets _ _ _ |- _ => destruct (step_denotes s i _ _ F A G) as (q & Dq & E); destruct G as (k0 & f & w & D & Ef & P & -> & _) end.
    edestruct (IH {| fields := upd (fields s) k0 (with_value f w); parsed := parsed s ++ [q]; args := concat (map render l) ++ r |} r fs') as (ks & DK & R); [eassumption|reflexivity|].
    exists (q :: ks). split.
    + constructor; [exact Dq|]. cbn [fields] in DK. clear - DK Ef. induction DK as [|i2 k2 l2 ks2 X _ IH]; constructor; [|exact IH]. revert X. apply (denotes_same (fields s) k0 f w). exact Ef.
    + intros k. cbn [length Nat.add Parse]. destruct (render_cons i) as (a & t & Ri). rewrite A, Ri. cbn [app]. rewrite E. cbn [parsed] in R. rewrite R. now rewrite <- app_assoc.
Qed.
(** After parsing any line of flags, Visit goes over the fields they set, in the order of the line and once
    for each time one is set, *)
Theorem C155_set_partial : forall fs l fs', checkFields fs = Ok tt -> sets_all fs l fs' ->
  exists s ks, FromCLA fs (concat (map render l)) = Ok (Some (s, ENone)) /\ Forall2 (fun i k => denotes fs (item_name i) k) l ks /\
    forall stop, up_to_stop stop ks (Visit s (noting stop) []).
Proof.
  intros fs l fs' C S. unfold FromCLA, Init. rewrite C. cbn [bind].
  destruct (run_denotes l {| fields := fs; parsed := []; args := concat (map render l) ++ [] |} [] fs' S eq_refl) as (ks & D & Q). cbn [parsed app fields] in D, Q.
  exists {| fields := fs'; parsed := ks; args := [] |}, ks. split; [|split; [exact D|]].
  - f_equal. specialize (Q 0%nat). rewrite app_nil_r in Q.
    change (concat (map render l)) with (args {| fields := fs; parsed := []; args := concat (map render l) |}) at 1. apply (parse_same _ (length l + 0)). exact Q.
  - intros stop. unfold Visit. cbn [parsed]. destruct (visit_noting stop ks []) as (m & r & E & V & B & G). unfold up_to_stop. rewrite V. cbn [app] in *. exists r. auto.
Qed.
Print Assumptions C155_set_partial.
(** so a field set twice is visited twice, and the order is not the one the fields are given in. *)
Theorem C155_twice_refuted : forall fs i j fs', checkFields fs = Ok tt -> sets_all fs [i; j] fs' ->
  exists s a b, FromCLA fs (concat (map render [i; j])) = Ok (Some (s, ENone)) /\ denotes fs (item_name i) a /\ denotes fs (item_name j) b /\
    Visit s (noting (fun _ => false)) [] = [a; b].
Proof.
  intros fs i j fs' C S. destruct (C155_set_partial fs [i; j] fs' C S) as (s & ks & E & D & V). inversion D as [|? a ? ? Da D2]; subst. inversion D2 as [|? b ? ? Db D3]; subst. inversion D3; subst.
  exists s, a, b. split; [exact E|]. split; [exact Da|]. split; [exact Db|]. destruct (V (fun _ => false)) as (r & H & _ & [->|(_ & ?)]); [|discriminate]. now rewrite app_nil_r in H.
Qed.
Print Assumptions C155_twice_refuted.
(** A flag set initialised again without Reinit still visits the fields set before, by their old places; *)
Theorem C155_reuse_refuted : forall s fs a s', Init_again s fs a = Ok s' -> forall stop, Visit s' (noting stop) [] = Visit s (noting stop) [].
Proof. intros s fs a s' E. unfold Init_again in E. destruct (checkFields fs); [|discriminate]. cbn [bind] in E. injection E as <-. reflexivity. Qed.
Print Assumptions C155_reuse_refuted.
(** after Reinit it is as a new one. *)
Theorem C155_reinit : forall s fs a, Init_again (Reinit s) fs a = Init fs a.
Proof. reflexivity. Qed.
Print Assumptions C155_reinit.
Definition fs155 : list field :=
  [{| f_name := str "all"%string; f_abbr := str "a"%string; f_bool := true; f_parse := Some; f_value := [] |}; {| f_name := str "out"%string; f_abbr := str "o"%string; f_bool := false; f_parse := Some; f_value := [] |}].
Example C155_nonvacuous : exists fs', checkFields fs155 = Ok tt /\ sets_all fs155 [WithEq false (str "out"%string) (str "x"%string); Switch false (str "a"%string); WithEq true (str "o"%string) (str "y"%string)] fs' /\
  match FromCLA fs155 [str "-out=x"%string; str "-a"%string; str "--o=y"%string] with
  | Ok (Some (s, ENone)) => Visit s (noting (fun _ => false)) [] = [1; 0; 1]%nat /\ VisitAll s (noting (fun l => Nat.eqb (length l) 1)) [] = [0]%nat
  | _ => False
  end.
Proof.
  assert (F : forall n, n <> [] -> hd 0 n <> 45 -> ~ In 61 n -> flag_name n) by (intros; repeat split; auto).
  eexists. split; [reflexivity|]. split; [|vm_compute; auto].
  eapply sa_cons; [apply F; [discriminate|discriminate|cbn; lia]| |].
  { exists 1%nat. eexists. eexists. split; [eexists; split; [reflexivity|]; split; [now left|]; intros j g L H; destruct j as [|[|j]]; [injection H as <-; split; discriminate|lia|lia]|]. split; [reflexivity|]. split; [reflexivity|]. split; [reflexivity|discriminate]. }
  eapply sa_cons; [apply F; [discriminate|discriminate|cbn; lia]| |].
  { exists 0%nat. eexists. eexists. split; [eexists; split; [reflexivity|]; split; [now right|]; intros j g L H; lia|]. split; [reflexivity|]. split; [reflexivity|]. split; [reflexivity|reflexivity]. }
  eapply sa_cons; [apply F; [discriminate|discriminate|cbn; lia]| |apply sa_nil].
  { exists 1%nat. eexists. eexists. split; [eexists; split; [reflexivity|]; split; [now right|]; intros j g L H; destruct j as [|[|j]]; [injection H as <-; split; discriminate|lia|lia]|]. split; [reflexivity|]. split; [reflexivity|]. split; [reflexivity|discriminate]. }
Qed.

(** C156. *)
Definition plain (p : bytes) : Prop := p <> [] /\ p <> [46] /\ p <> [46; 46].
Lemma clean_go : forall parts acc, clean_loop acc parts = fold_left go parts (rev acc).
Proof.
  induction parts as [|p r IH]; intros acc; [reflexivity|]. cbn [clean_loop fold_left]. unfold go at 2. unfold dot, dotdot.
  destruct (beq p [] || beq p [46]); [apply IH|]. destruct (beq p [46; 46]).
  - rewrite IH. f_equal. destruct acc as [|x acc]; [reflexivity|]. cbn [tl rev]. now rewrite removelast_last.
  - rewrite IH. reflexivity.
Qed.
Lemma abs_go p : clean_abs p = fold_left go (Split1 p 47) [].
Proof. apply (clean_go _ []). Qed.
Lemma go_plain p at_ : plain p -> go at_ p = at_ ++ [p].
Proof.
  intros (A & B & C). unfold go. destruct (beq p []) eqn:E; [apply beq_eq in E; contradiction|]. destruct (beq p [46]) eqn:E2; [apply beq_eq in E2; contradiction|].
  destruct (beq p [46; 46]) eqn:E3; [apply beq_eq in E3; contradiction|reflexivity].
Qed.
Lemma go_all l : Forall plain l -> forall at_, fold_left go l at_ = at_ ++ l.
Proof. induction 1 as [|p l P _ IH]; intros at_; cbn [fold_left]; [now rewrite app_nil_r|]. rewrite go_plain by exact P. rewrite IH, <- app_assoc. reflexivity. Qed.
Lemma go_keeps parts : Forall (fun p => ~ In 47 p) parts -> forall at_, Forall (fun p => plain p /\ ~ In 47 p) at_ -> Forall (fun p => plain p /\ ~ In 47 p) (fold_left go parts at_).
Proof.
  induction 1 as [|p r N _ IH]; intros at_ F; [exact F|]. cbn [fold_left]. apply IH. unfold go. destruct (beq p []) eqn:E1; [exact F|]. destruct (beq p [46]) eqn:E2; [exact F|]. cbn [orb].
  destruct (beq p [46; 46]) eqn:E3.
  - apply Forall_forall. intros x X. eapply Forall_forall in F; [exact F|]. clear - X. induction at_ as [|y l IH]; [contradiction|]. cbn [removelast] in X. destruct l; [contradiction|]. destruct X as [->|X]; [now left|right; auto].
  - apply Forall_app. split; [exact F|]. repeat constructor; auto; intros ->; rewrite beq_refl in *; discriminate.
Qed.
Lemma clean_plain p : Forall (fun p => plain p /\ ~ In 47 p) (clean_abs p).
Proof. rewrite abs_go. apply go_keeps; [apply split_free|constructor]. Qed.
Lemma part_split : forall b t x y, part b t = (x, y) -> exists c, b = c ++ x /\ t = c ++ y.
Proof.
  induction b as [|a b IH]; intros t x y E; [injection E as <- <-; now exists []|]. cbn [part] in E. destruct t as [|d t]; [injection E as <- <-; now exists []|].
  destruct (beq a d) eqn:B; [|injection E as <- <-; now exists []]. apply beq_eq in B. subst d. destruct (IH _ _ _ E) as (c & -> & ->). now exists (a :: c).
Qed.
Lemma go_up n : forall c x, length x = n -> fold_left go (repeat [46; 46] n) (c ++ x) = c.
Proof.
  induction n as [|n IH]; intros c x L; [destruct x; [now rewrite app_nil_r|discriminate]|]. cbn [repeat fold_left].
  destruct (exists_last (l := x)) as (x' & e & ->); [destruct x; discriminate|]. rewrite app_assoc. unfold go at 2. change (beq [46; 46] [] || beq [46; 46] [46]) with false. cbv iota.
  change (beq [46; 46] [46; 46]) with true. cbv iota. rewrite removelast_last. apply IH. rewrite app_length in L. cbn [length] in L. lia.
Qed.
Lemma join_head l : l <> [] -> Forall (fun p => p <> [] /\ ~ In 47 p) l -> forall c r, Join l [47] = c :: r -> c <> 47.
Proof.
  intros N F c r E. destruct l as [|p l]; [contradiction|]. inversion F as [|? ? (P & Q) _]; subst. destruct p as [|x p]; [contradiction|].
  destruct l; cbn [Join] in E; injection E as -> _; intros ->; apply Q; now left.
Qed.
Lemma leads_abs cwd p : is_abs p = true -> leads cwd p = clean_abs p.
Proof. intros A. unfold leads. rewrite abs_go. destruct p as [|c p]; [discriminate|]. cbn [is_abs] in A. replace c with 47 by lia. reflexivity. Qed.
Lemma leads_rel cwd p : is_abs p = false -> leads cwd p = fold_left go (Split1 p 47) (clean_abs cwd).
Proof.
  intros A. unfold leads. rewrite abs_go. destruct p as [|c p]; [reflexivity|]. cbn [is_abs] in A.
  destruct c as [|q|q]; try reflexivity. repeat (destruct q as [q|q|]; try reflexivity). discriminate.
Qed.
Lemma rel_leads cwd p r : Rel cwd p = Some r -> is_abs p = true /\ is_abs r = false /\ leads cwd r = leads cwd p.
Proof.
  unfold Rel. destruct (is_abs p) eqn:A; [|discriminate]. destruct (part (clean_abs cwd) (clean_abs p)) as (b, t) eqn:P. destruct (part_split _ _ _ _ P) as (c & EB & ET).
  intros H. split; [reflexivity|]. pose proof (clean_plain p) as FP. rewrite ET in FP. apply Forall_app in FP. destruct FP as (_ & FT).
  assert (NP : forall x, In x (repeat dotdot (length b) ++ t) -> x <> [] /\ ~ In 47 x).
  { intros x X. apply in_app_iff in X. destruct X as [X|X]; [apply repeat_spec in X; subst x; split; [discriminate|cbn; lia]|]. eapply Forall_forall in FT; [|exact X]. destruct FT as ((Q & _) & R). auto. }
  assert (G : fold_left go (repeat dotdot (length b) ++ t) (clean_abs cwd) = clean_abs p).
  { rewrite EB, ET, fold_left_app, go_up by reflexivity. apply go_all. eapply Forall_impl; [|exact FT]. now intros ? (? & _). }
  destruct (repeat dotdot (length b) ++ t) as [|x l] eqn:R.
  - injection H as <-. split; [reflexivity|]. rewrite leads_rel by reflexivity. rewrite (leads_abs _ p A). cbn [fold_left] in G. rewrite <- G. reflexivity.
  - assert (ER : r = Join (x :: l) [47]) by congruence. clear H. subst r. rewrite <- R in *. assert (NE : repeat dotdot (length b) ++ t <> []) by (rewrite R; discriminate).
    assert (AB : is_abs (Join (repeat dotdot (length b) ++ t) [47]) = false).
    { destruct (Join (repeat dotdot (length b) ++ t) [47]) as [|h q] eqn:J; [reflexivity|]. cbn [is_abs]. apply join_head in J; [lia|exact NE|]. apply Forall_forall. exact NP. }
    split; [exact AB|]. rewrite (leads_rel _ _ AB), (leads_abs _ p A), split_join; [exact G|exact NE|]. apply Forall_forall. intros y Y. now apply NP.
Qed.
(** For every working directory and path: the short path leads where the path does, *)
Theorem C156_same : forall cwd path, leads cwd (ShortPath cwd path) = leads cwd path.
Proof.
  intros cwd p. unfold ShortPath. destruct (Rel cwd p) as [r|] eqn:R; [|reflexivity]. destruct (zlen r <? zlen p); [|reflexivity]. now apply rel_leads.
Qed.
Print Assumptions C156_same.
(** is never longer, and is the path itself unless that is absolute and the way from the working directory
    is shorter. *)
Theorem C156_short : forall cwd path, zlen (ShortPath cwd path) <= zlen path /\
  (ShortPath cwd path = path \/ is_abs path = true /\ is_abs (ShortPath cwd path) = false /\ zlen (ShortPath cwd path) < zlen path).
Proof.
  intros cwd p. unfold ShortPath. destruct (Rel cwd p) as [r|] eqn:R; [|split; [lia|auto]]. destruct (zlen r <? zlen p) eqn:L; [|split; [lia|auto]].
  destruct (rel_leads cwd p r R) as (A & B & _). split; [lia|]. right. repeat split; auto. lia.
Qed.
Print Assumptions C156_short.
(** Where the two part it is up from the working directory and down to the path, when that is shorter than
    the path as it is written. *)
Theorem C156_way : forall cwd path both up down, is_abs cwd = true -> is_abs path = true ->
  leads cwd cwd = both ++ up -> leads cwd path = both ++ down -> hd_error up <> hd_error down ->
  let way := Join (repeat [46; 46] (length up) ++ down) [47] in
  ShortPath cwd path = if zlen way <? zlen path then way else path.
Proof.
  intros cwd p both up down AC A EC EP N way. rewrite !leads_abs in EC, EP by auto. unfold ShortPath, Rel. rewrite A, EC, EP.
  assert (P : part (both ++ up) (both ++ down) = (up, down)).
  { clear - N. induction both as [|x c IH]; [|cbn [part app]; now rewrite beq_refl]. cbn [app]. destruct up as [|x u]; [reflexivity|]. destruct down as [|y d]; [reflexivity|]. cbn [part].
    destruct (beq x y) eqn:B; [|reflexivity]. apply beq_eq in B. subst y. exfalso. apply N. reflexivity. }
  rewrite P. subst way. fold dotdot. destruct (repeat dotdot (length up) ++ down) as [|x l] eqn:R; [|reflexivity].
  exfalso. destruct up; [|discriminate]. cbn in R. subst down. apply N. reflexivity.
Qed.
Print Assumptions C156_way.
(** The working directory itself is ".", unless it is written with one byte, as the root is. *)
Theorem C156_here : forall cwd path, is_abs cwd = true -> is_abs path = true -> leads cwd path = leads cwd cwd ->
  ShortPath cwd path = if 1 <? zlen path then [46] else path.
Proof.
  intros cwd p AC A E. rewrite !leads_abs in E by auto. unfold ShortPath, Rel. rewrite A, E.
  assert (P : forall l, part l l = ([], [])) by (induction l as [|x l IH]; [reflexivity|cbn [part]; now rewrite beq_refl]).
  rewrite P. reflexivity.
Qed.
Print Assumptions C156_here.
(** RelPaths does this to each path, in order. *)
Theorem C156_all : forall cwd paths, length (RelPaths cwd paths) = length paths /\
  forall i p, nth_error paths i = Some p -> nth_error (RelPaths cwd paths) i = Some (ShortPath cwd p).
Proof.
  intros cwd paths. assert (E : RelPaths cwd paths = map (ShortPath cwd) paths). { induction paths as [|p r IH]; [reflexivity|]. cbn [RelPaths map]. now rewrite IH. }
  rewrite E. split; [apply map_length|]. intros i p H. now apply map_nth_error.
Qed.
Print Assumptions C156_all.
Theorem C156_tests : forall file, IsTestFile file = true <-> exists b, file = b ++ str "_test.go"%string.
Proof.
  intros f. unfold IsTestFile. rewrite HasPrefix_iff. split; intros (r & E).
  - exists (rev r). rewrite <- (rev_involutive f), E, rev_app_distr, rev_involutive. reflexivity.
  - exists (rev r). now rewrite E, rev_app_distr.
Qed.
Print Assumptions C156_tests.
Example C156_nonvacuous : ShortPath (str "/home/a/src"%string) (str "/home/a/src/x/./y.go"%string) = str "x/y.go"%string /\
  ShortPath (str "/home/a/src"%string) (str "/home/a//lib/../z.go"%string) = str "../z.go"%string /\ ShortPath (str "/home/a/src"%string) (str "/b"%string) = str "/b"%string /\
  ShortPath (str "/home/a/src"%string) (str "/home/a/src"%string) = str "."%string /\ leads (str "/home/a/src"%string) (str "../z.go"%string) = [str "home"%string; str "a"%string; str "z.go"%string].
Proof. vm_compute. auto. Qed.
