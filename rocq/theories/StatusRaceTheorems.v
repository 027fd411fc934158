(** C172, C173: statuses changed and watched by many goroutines. *)
From Coq Require Import Permutation ZifyBool ZifyNat.
From Verif Require Import Go GoFacts PoolRaceModel StatusRaceModel StatusRaceSpec.
Import ListNotations.
Local Open Scope Z_scope.
Local Open Scope list_scope.

Lemma set_same {A} : forall (l : list A) i x y, nth_error l i = Some y -> nth_error (set_nth l i x) i = Some x.
Proof. induction l as [|h t IH]; intros [|i] x y E; cbn [nth_error set_nth] in *; try discriminate; eauto. Qed.
Lemma set_other {A} : forall (l : list A) i j x, i <> j -> nth_error (set_nth l i x) j = nth_error l j.
Proof. induction l as [|h t IH]; intros [|i] [|j] x E; cbn [nth_error set_nth] in *; auto; try congruence. Qed.
Lemma set_back {A} : forall (l : list A) i x y, nth_error l i = Some x -> set_nth (set_nth l i y) i x = l.
Proof. induction l as [|h t IH]; intros [|i] x y E; cbn [nth_error set_nth] in *; try discriminate; [injection E as ->; reflexivity|]. f_equal. eauto. Qed.
Lemma sub_app_skip a b c : sub a b -> sub a (b ++ c).
Proof. intros H. induction H; cbn [app]; [induction c; [apply sub_nil|apply sub_skip; assumption]|apply sub_skip; assumption|apply sub_take; assumption]. Qed.
Lemma sub_app_take a b x : sub a b -> sub (a ++ [x]) (b ++ [x]).
Proof. intros H. induction H; cbn [app]; [apply sub_take, sub_nil|apply sub_skip; assumption|apply sub_take; assumption]. Qed.

Lemma NoDup_app_remove_l {A} (a b : list A) : NoDup (a ++ b) -> NoDup b.
Proof. induction a as [|x a IH]; intros H; [exact H|]. inversion H; auto. Qed.
Lemma NoDup_app_remove_r {A} (a b : list A) : NoDup (a ++ b) -> NoDup a.
Proof. induction a as [|x a IH]; intros H; [constructor|]. inversion H as [|y z H1 H2]; subst. constructor; [intros X; apply H1, in_app_iff; now left|auto]. Qed.

(** * C172 *)
Definition ainside (p : apc) : Prop := match p with Storing _ | Reading _ | Offering _ _ => True | _ => False end.
Definition progress_of (c : nat) (s : astat) (p : apc) : Prop :=
  match p with
  | Storing _ => sub (offered c s) (stores s)
  | Reading v => exists st, stores s = st ++ [v] /\ sub (offered c s) st
  | Offering v r => NoDup r /\ exists st, stores s = st ++ [v] /\ (if in_dec Nat.eq_dec c r then sub (offered c s) st else sub (offered c s) (stores s))
  | _ => False
  end.
(** [reg]: the channels whose registration has begun *)
Record AINV (reg : list nat) (s : astat) : Prop := {
  a_in : forall i p, nth_error (apcs s) i = Some p -> ainside p -> lock s = Some i;
  a_own : forall i, lock s = Some i -> exists p, nth_error (apcs s) i = Some p /\ forall c, progress_of c s p;
  a_out : lock s = None -> forall c, sub (offered c s) (stores s);
  a_cur : cur s = last (stores s) 0;
  a_lsn : NoDup (lsn s) /\ incl (lsn s) reg;
  a_reg : forall i c l, nth_error (apcs s) i = Some (Registering c l) -> NoDup (l ++ [c]) /\ incl (l ++ [c]) reg }.
Lemma ainit n : AINV [] (astat0 n).
Proof.
  assert (R : forall i p, nth_error (repeat Out n) i = Some p -> p = Out) by (intros i p E; apply nth_error_In, repeat_spec in E; auto).
  split; cbn [astat0 apcs lock offers stores cur lsn].
  - intros i p E. apply R in E. subst. intros [].
  - discriminate.
  - intros _ c. constructor.
  - reflexivity.
  - split; [constructor|intros x []].
  - intros i c l E. apply R in E. discriminate.
Qed.
Lemma offered_snoc c (s : astat) d v o : offers o = offers s ++ [(d, v)] -> offered c o = offered c s ++ (if Nat.eqb d c then [v] else []).
Proof. intros E. unfold offered. rewrite E, filter_app, map_app. cbn [filter fst]. destruct (Nat.eqb d c); reflexivity. Qed.
Lemma last_snoc (l : list Z) x d : last (l ++ [x]) d = x.
Proof. induction l as [|y l IH]; [reflexivity|]. cbn [app last]. destruct (l ++ [x]) eqn:E; [destruct l; discriminate|exact IH]. Qed.
Definition newreg (a : aact) : list nat := match a with Notify c => [c] | _ => [] end.
Lemma astep_inv reg s i a s' : AINV reg s -> NoDup (newreg a ++ reg) -> astep s i a = Some s' -> AINV (newreg a ++ reg) s'.
Proof.
  intros [I O N C (L1 & L2) R] ND E. unfold astep in E. destruct (nth_error (apcs s) i) as [p|] eqn:P; [|discriminate].
  assert (PN : forall c q (o : astat), offers o = offers s -> stores o = stores s -> progress_of c s q -> progress_of c o q).
  { intros c q o E1 E2 H. assert (E3 : offered c o = offered c s) by (unfold offered; rewrite E1; reflexivity). destruct q; cbn [progress_of] in *; rewrite ?E2, ?E3; exact H. }
  assert (REG : forall q reg', (forall c l, q = Registering c l -> NoDup (l ++ [c]) /\ incl (l ++ [c]) reg') -> incl reg reg' ->
    forall j c l, nth_error (set_nth (apcs s) i q) j = Some (Registering c l) -> NoDup (l ++ [c]) /\ incl (l ++ [c]) reg').
  { intros q reg' Q INC j c l E'. destruct (Nat.eq_dec i j) as [<-|D]; [rewrite (set_same _ _ _ _ P) in E'; injection E' as ->; auto|].
    rewrite set_other in E' by exact D. destruct (R j c l E') as (A & B). split; [exact A|]. eapply incl_tran; eauto. }
  assert (OTH : forall q j p', nth_error (set_nth (apcs s) i q) j = Some p' -> ainside p' -> ~ ainside q -> lock s = Some j).
  { intros q j p' E' J NQ. destruct (Nat.eq_dec i j) as [<-|D]; [rewrite (set_same _ _ _ _ P) in E'; injection E' as <-; tauto|]. rewrite set_other in E' by exact D. eauto. }
  assert (IN : forall q j p', nth_error (set_nth (apcs s) i q) j = Some p' -> ainside p' -> lock s = Some i -> lock s = Some j).
  { intros q j p' E' J OI. destruct (Nat.eq_dec i j) as [<-|D]; [exact OI|]. rewrite set_other in E' by exact D. eauto. }
  assert (NOI : ~ ainside p -> lock s = Some i -> False).
  { intros NI OI. destruct (O i OI) as (q & Q & ST). rewrite P in Q. injection Q as <-. specialize (ST 0%nat). destruct p; cbn in ST, NI; tauto. }
  destruct p as [|c l|v|v|v|v [|c r]]; destruct a as [d|u|]; try discriminate; cbn [newreg app] in *.
  - (* Notify *) injection E as <-. unfold aset. split; cbn [apcs lock offers stores cur lsn].
    + intros j p' E' J. eapply OTH; [exact E'|exact J|intros []].
    + intros j OJ. destruct (O j OJ) as (q & Q & ST). exists q. rewrite set_other by (intros <-; apply (NOI (fun x => x) OJ)). split; [exact Q|]. intros c. apply PN with (3 := ST c); reflexivity.
    + exact N.
    + exact C.
    + split; [exact L1|]. apply incl_tl. exact L2.
    + apply REG; [|apply incl_tl, incl_refl]. intros c l [= <- <-]. inversion ND as [|x y N1 N2]; subst. split.
      * apply NoDup_app_snoc || idtac. clear - L1 L2 N1. assert (K : ~ In d (lsn s)) by (intros X; apply N1, L2, X). revert L1 K. generalize (lsn s). induction l as [|x l IH]; intros A B; [repeat constructor; intros []|].
        inversion A; subst. cbn [app]. constructor; [rewrite in_app_iff; cbn; intros [X|[X|[]]]; [tauto|apply B; now left]|apply IH; [assumption|intros X; apply B; now right]].
      * intros x X. apply in_app_iff in X. destruct X as [X|[<-|[]]]; [right; auto|now left].
  - (* Change *) injection E as <-. unfold aset. split; cbn [apcs lock offers stores cur lsn]; auto.
    + intros j p' E' J. eapply OTH; [exact E'|exact J|intros []].
    + intros j OJ. destruct (O j OJ) as (q & Q & ST). exists q. rewrite set_other by (intros <-; apply (NOI (fun x => x) OJ)). split; [exact Q|]. intros c. apply PN with (3 := ST c); reflexivity.
    + apply REG; [discriminate|apply incl_refl].
  - (* append *) injection E as <-. unfold aset. destruct (R i c l P) as (R1 & R2). split; cbn [apcs lock offers stores cur lsn]; auto.
    + intros j p' E' J. eapply OTH; [exact E'|exact J|intros []].
    + intros j OJ. destruct (O j OJ) as (q & Q & ST). exists q. rewrite set_other by (intros <-; apply (NOI (fun x => x) OJ)). split; [exact Q|]. intros c'. apply PN with (3 := ST c'); reflexivity.
    + apply REG; [discriminate|apply incl_refl].
  - (* lock *) destruct (lock s) as [j|] eqn:OW; [discriminate|]. injection E as <-. unfold aset. split; cbn [apcs lock offers stores cur lsn]; auto.
    + intros j p' E' J. destruct (Nat.eq_dec i j) as [<-|D]; [reflexivity|]. rewrite set_other in E' by exact D. discriminate (I j p' E' J).
    + intros j [= <-]. exists (Storing v). split; [eapply set_same; eauto|]. intros c. cbn [progress_of stores]. exact (N eq_refl c).
    + discriminate.
    + apply REG; [discriminate|apply incl_refl].
  - (* store *) assert (OI := I i _ P Logic.I). injection E as <-. destruct (O i OI) as (q & Q & ST). rewrite P in Q. injection Q as <-. unfold aset. split; cbn [apcs lock offers stores cur lsn]; auto.
    + intros j p' E' J. eapply IN; eauto.
    + rewrite OI. intros j [= <-]. exists (Reading v). split; [eapply set_same; eauto|]. intros c. cbn [progress_of stores]. exists (stores s). split; [reflexivity|exact (ST c)].
    + rewrite OI. discriminate.
    + symmetry. apply last_snoc.
    + apply REG; [discriminate|apply incl_refl].
  - (* read *) assert (OI := I i _ P Logic.I). injection E as <-. destruct (O i OI) as (q & Q & ST). rewrite P in Q. injection Q as <-. unfold aset. split; cbn [apcs lock offers stores cur lsn]; auto.
    + intros j p' E' J. eapply IN; eauto.
    + rewrite OI. intros j [= <-]. exists (Offering v (lsn s)). split; [eapply set_same; eauto|]. intros c. cbn [progress_of stores]. destruct (ST c) as (st & S1 & S2). split; [exact L1|]. exists st. split; [exact S1|].
      destruct (in_dec Nat.eq_dec c (lsn s)); [exact S2|]. rewrite S1. apply sub_app_skip. exact S2.
    + apply REG; [discriminate|apply incl_refl].
  - (* unlock *) assert (OI := I i _ P Logic.I). injection E as <-. destruct (O i OI) as (q & Q & ST). rewrite P in Q. injection Q as <-. unfold aset. split; cbn [apcs lock offers stores cur lsn]; auto.
    + intros j p' E' J. assert (K : lock s = Some j) by (eapply OTH; [exact E'|exact J|intros []]). rewrite OI in K. injection K as <-. rewrite (set_same _ _ _ _ P) in E'. injection E' as <-. destruct J.
    + discriminate.
    + intros _ c. destruct (ST c) as (_ & st & S1 & S2). exact S2.
    + apply REG; [discriminate|apply incl_refl].
  - (* offer *) assert (OI := I i _ P Logic.I). injection E as <-. destruct (O i OI) as (q & Q & ST). rewrite P in Q. injection Q as <-. unfold aset. split; cbn [apcs lock offers stores cur lsn]; auto.
    + intros j p' E' J. eapply IN; eauto.
    + rewrite OI. intros j [= <-]. exists (Offering v r). split; [eapply set_same; eauto|]. intros d. destruct (ST d) as (ND' & st & S1 & S2). inversion ND' as [|x y N1 N2]; subst. cbn [progress_of stores].
      rewrite (offered_snoc d s c v) by reflexivity. split; [exact N2|]. exists st. split; [exact S1|]. destruct (Nat.eqb_spec c d) as [<-|D].
      * destruct (in_dec Nat.eq_dec c r); [contradiction|]. destruct (in_dec Nat.eq_dec c (c :: r)) as [|K]; [|exfalso; apply K; now left]. rewrite S1. apply sub_app_take. exact S2.
      * rewrite app_nil_r. destruct (in_dec Nat.eq_dec d (c :: r)) as [[K|K]|K]; destruct (in_dec Nat.eq_dec d r) as [K'|K']; try exact S2; try congruence; try tauto. exfalso. apply K. now right.
    + rewrite OI. discriminate.
    + apply REG; [discriminate|apply incl_refl].
Qed.
Lemma arun_inv : forall l reg s s', AINV reg s -> NoDup (notified l ++ reg) -> arun s l = Some s' -> exists reg', AINV reg' s'.
Proof.
  induction l as [|(i, a) l IH]; intros reg s s' H D E; cbn [arun] in E; [injection E as <-; eauto|].
  destruct (astep s i a) as [s1|] eqn:E1; [|discriminate]. unfold notified in D. cbn [flat_map snd] in D. fold (notified l) in D.
  assert (K : match a with Notify c => [c] | _ => [] end = newreg a) by (destruct a; reflexivity). rewrite K in D.
  assert (D2 : NoDup (notified l ++ newreg a ++ reg)).
  { rewrite app_assoc. eapply Permutation_NoDup; [|exact D]. apply Permutation_app_tail. apply Permutation_app_comm. }
  assert (D1 : NoDup (newreg a ++ reg)) by (eapply NoDup_app_remove_l; exact D2).
  eapply IH; [eapply astep_inv; eauto|exact D2|exact E].
Qed.

(** Whatever goroutines change the status and register channels: Status is the status stored last, and each channel is offered
    stored statuses in the order they were stored, none of them twice. *)
Theorem C172_order : forall n l s c, NoDup (notified l) -> arun (astat0 n) l = Some s ->
  cur s = last (stores s) 0 /\ sub (offered c s) (stores s).
Proof.
  intros n l s c D E. destruct (arun_inv l [] (astat0 n) s (ainit n) ltac:(rewrite app_nil_r; exact D) E) as (reg & [I O N C _ _]). split; [exact C|].
  destruct (lock s) as [i|] eqn:OW; [|exact (N eq_refl c)]. destruct (O i eq_refl) as (p & P & ST). specialize (ST c). destruct p; cbn [progress_of] in ST; try contradiction; [exact ST| |].
  - destruct ST as (st & -> & H). apply sub_app_skip, H.
  - destruct ST as (_ & st & -> & H). destruct (in_dec Nat.eq_dec c ls); [apply sub_app_skip, H|exact H].
Qed.
Print Assumptions C172_order.

(** A channel that every registration under way has seen stays registered whatever follows, *)
Lemma safe_step c s i a s' : safe c s -> astep s i a = Some s' -> safe c s'.
Proof.
  intros (S1 & S2) E. unfold astep in E. destruct (nth_error (apcs s) i) as [p|] eqn:P; [|discriminate].
  assert (G : forall q, (forall d l, q = Registering d l -> In c l) -> forall j d l, nth_error (set_nth (apcs s) i q) j = Some (Registering d l) -> In c l).
  { intros q Q j d l E'. destruct (Nat.eq_dec i j) as [<-|D]; [rewrite (set_same _ _ _ _ P) in E'; injection E' as ->; eauto|]. rewrite set_other in E' by exact D. eauto. }
  destruct p as [|d l|v|v|v|v [|d r]]; destruct a as [d'|u|]; try discriminate; try (destruct (lock s); [discriminate|]); injection E as <-; unfold safe, aset; cbn [lsn apcs]; (split; [try exact S1|apply G; try discriminate]).
  - intros x y [= <- <-]. exact S1.
  - apply in_app_iff. left. exact (S2 i d l P).
Qed.
Theorem C172_kept_partial : forall l s s' c, safe c s -> arun s l = Some s' -> safe c s'.
Proof.
  induction l as [|(i, a) l IH]; intros s s' c H E; cbn [arun] in E; [injection E as <-; exact H|].
  destruct (astep s i a) as [s1|] eqn:E1; [|discriminate]. eapply IH; [eapply safe_step; eauto|exact E].
Qed.
Print Assumptions C172_kept_partial.
(** and is offered every status stored from then on. *)
Definition owed (c : nat) (s : astat) (p : apc) : list Z :=
  match p with Reading v => [v] | Offering v r => if in_dec Nat.eq_dec c r then [v] else [] | _ => [] end.
Definition debt (c : nat) (s : astat) : list Z :=
  match lock s with Some i => match nth_error (apcs s) i with Some p => owed c s p | None => [] end | None => [] end.
Lemma debt_step reg c s i a s' : AINV reg s -> safe c s -> astep s i a = Some s' ->
  exists new, stores s' = stores s ++ new /\ offered c s' ++ debt c s' = offered c s ++ debt c s ++ new.
Proof.
  intros [I O N C (L1 & L2) R] (S1 & S2) E. unfold astep in E. destruct (nth_error (apcs s) i) as [p|] eqn:P; [|discriminate].
  assert (KEEP : forall q, ~ ainside p -> forall j, lock s = Some j -> nth_error (set_nth (apcs s) i q) j = nth_error (apcs s) j).
  { intros q NI j OJ. apply set_other. intros <-. destruct (O i OJ) as (q' & Q & ST). rewrite P in Q. injection Q as <-. specialize (ST 0%nat). destruct p; cbn in ST, NI; tauto. }
  assert (SAME : forall q (o : astat), ~ ainside p -> lock o = lock s -> apcs o = set_nth (apcs s) i q -> debt c o = debt c s).
  { intros q o NI E1 E2. unfold debt. rewrite E1, E2. destruct (lock s) as [j|] eqn:OW; [|reflexivity]. rewrite (KEEP q NI j eq_refl). destruct (nth_error (apcs s) j); [|reflexivity]. reflexivity. }
  assert (MINE : forall q (o : astat), lock o = Some i -> apcs o = set_nth (apcs s) i q -> debt c o = owed c s q).
  { intros q o E1 E2. unfold debt. rewrite E1, E2, (set_same _ _ _ _ P). reflexivity. }
  assert (OWE : lock s = Some i -> debt c s = owed c s p) by (intros OI; unfold debt; rewrite OI, P; reflexivity).
  destruct p as [|d l|v|v|v|v [|d r]]; destruct a as [d'|u|]; try discriminate.
  - injection E as <-. exists []. rewrite !app_nil_r. split; [reflexivity|]. f_equal. eapply SAME; [intros []|reflexivity|reflexivity].
  - injection E as <-. exists []. rewrite !app_nil_r. split; [reflexivity|]. f_equal. eapply SAME; [intros []|reflexivity|reflexivity].
  - injection E as <-. exists []. rewrite !app_nil_r. split; [reflexivity|]. f_equal. eapply SAME; [intros []|reflexivity|reflexivity].
  - destruct (lock s) eqn:OW; [discriminate|]. injection E as <-. exists []. rewrite !app_nil_r. split; [reflexivity|]. f_equal. erewrite MINE by reflexivity. unfold debt. rewrite OW. reflexivity.
  - assert (OI := I i _ P Logic.I). injection E as <-. exists [v]. split; [reflexivity|]. rewrite (OWE OI). erewrite MINE by first [exact OI|reflexivity]. reflexivity.
  - assert (OI := I i _ P Logic.I). injection E as <-. exists []. rewrite !app_nil_r. split; [reflexivity|]. rewrite (OWE OI). erewrite MINE by first [exact OI|reflexivity]. cbn [owed]. destruct (in_dec Nat.eq_dec c (lsn s)); [reflexivity|contradiction].
  - assert (OI := I i _ P Logic.I). injection E as <-. exists []. rewrite !app_nil_r. split; [reflexivity|]. rewrite (OWE OI). unfold debt. cbn [lock owed in_dec]. destruct (in_dec Nat.eq_dec c []) as [K|]; [destruct K|rewrite app_nil_r; reflexivity].
  - assert (OI := I i _ P Logic.I). injection E as <-. exists []. rewrite !app_nil_r. split; [reflexivity|]. rewrite (OWE OI). erewrite MINE by first [exact OI|reflexivity]. rewrite (offered_snoc c s d v) by reflexivity.
    destruct (O i OI) as (q & Q & ST). rewrite P in Q. injection Q as <-. destruct (ST c) as (ND & _). inversion ND as [|x y N1 N2]; subst. cbn [owed].
    destruct (Nat.eqb_spec d c) as [->|D]; destruct (in_dec Nat.eq_dec c r) as [K|K]; destruct (in_dec Nat.eq_dec c (_ :: r)) as [K'|K']; cbn [In] in K'; try tauto; rewrite ?app_nil_r; try reflexivity.
Qed.
Theorem C172_complete_partial : forall n l0 s l s' c, NoDup (notified (l0 ++ l)) -> arun (astat0 n) l0 = Some s -> safe c s -> lock s = None -> arun s l = Some s' -> lock s' = None ->
  exists new, stores s' = stores s ++ new /\ offered c s' = offered c s ++ new.
Proof.
  intros n l0 s l s' c D E0 S L0 E L'. 
  assert (G : forall l reg s s', AINV reg s -> NoDup (notified l ++ reg) -> safe c s -> arun s l = Some s' -> exists new, stores s' = stores s ++ new /\ offered c s' ++ debt c s' = offered c s ++ debt c s ++ new).
  { clear. induction l as [|(i, a) l IH]; intros reg s s' V D S E; cbn [arun] in E; [injection E as <-; exists []; rewrite !app_nil_r; auto|].
    destruct (astep s i a) as [s1|] eqn:E1; [|discriminate]. unfold notified in D. cbn [flat_map snd] in D. fold (notified l) in D.
    assert (K : match a with Notify c => [c] | _ => [] end = newreg a) by (destruct a; reflexivity). rewrite K in D.
    assert (D2 : NoDup (notified l ++ newreg a ++ reg)).
    { rewrite app_assoc. eapply Permutation_NoDup; [|exact D]. apply Permutation_app_tail. apply Permutation_app_comm. }
    assert (D1 : NoDup (newreg a ++ reg)) by (eapply NoDup_app_remove_l; exact D2).
    destruct (debt_step reg c s i a s1 V S E1) as (n1 & A1 & B1). destruct (IH _ s1 s' (astep_inv reg s i a s1 V D1 E1) D2 (safe_step c s i a s1 S E1) E) as (n2 & A2 & B2).
    exists (n1 ++ n2). rewrite A2, B2, A1, <- app_assoc. split; [reflexivity|]. rewrite app_assoc, B1, <- !app_assoc. reflexivity. }
  assert (REG : forall l reg s s', AINV reg s -> NoDup (notified l ++ reg) -> arun s l = Some s' -> exists reg', AINV reg' s' /\ (forall x, In x reg' -> In x (notified l ++ reg))).
  { clear. induction l as [|(i, a) l IH]; intros reg s s' V D E; cbn [arun] in E; [injection E as <-; exists reg; auto|].
    destruct (astep s i a) as [s1|] eqn:E1; [|discriminate]. unfold notified in D |- *. cbn [flat_map snd] in D |- *. fold (notified l) in D |- *.
    assert (K : match a with Notify c => [c] | _ => [] end = newreg a) by (destruct a; reflexivity). rewrite K in *.
    assert (D2 : NoDup (notified l ++ newreg a ++ reg)).
    { rewrite app_assoc. eapply Permutation_NoDup; [|exact D]. apply Permutation_app_tail. apply Permutation_app_comm. }
    assert (D1 : NoDup (newreg a ++ reg)) by (eapply NoDup_app_remove_l; exact D2).
    destruct (IH _ s1 s' (astep_inv reg s i a s1 V D1 E1) D2 E) as (reg' & V' & H). exists reg'. split; [exact V'|]. intros x X. apply H in X. rewrite !in_app_iff in *. tauto. }
  assert (ND0 : NoDup (notified l0) /\ NoDup (notified l) /\ forall x, In x (notified l) -> ~ In x (notified l0)).
  { unfold notified in *. rewrite flat_map_app in D. split; [eapply NoDup_app_remove_r; eauto|]. split; [eapply NoDup_app_remove_l; eauto|].
    revert D. generalize (flat_map (fun x : nat * aact => match snd x with Notify c => [c] | _ => [] end) l0). intros A D x X Y. induction A as [|y A IH]; [exact Y|].
    cbn [app] in D. inversion D as [|z w D1 D2]; subst. destruct Y as [->|Y]; [apply D1, in_app_iff; now right|exact (IH D2 Y)]. }
  destruct ND0 as (ND1 & ND2 & ND3). destruct (REG l0 [] _ s (ainit n) ltac:(rewrite app_nil_r; exact ND1) E0) as (reg & V & H).
  (* only the channels of [l0] matter *)
  assert (V' : AINV (nodup Nat.eq_dec reg) s).
  { destruct V as [I O N C (L1 & L2) R]. split; auto; [split; [exact L1|intros x X; apply nodup_In; auto]|]. intros i d k P. destruct (R i d k P) as (A & B). split; [exact A|]. intros x X. apply nodup_In. auto. }
  assert (D' : NoDup (notified l ++ nodup Nat.eq_dec reg)).
  { assert (X : forall x, In x (notified l) -> ~ In x (nodup Nat.eq_dec reg)) by (intros x X Y; apply nodup_In in Y; apply H in Y; rewrite app_nil_r in Y; exact (ND3 x X Y)).
    pose proof (NoDup_nodup Nat.eq_dec reg) as Q. revert ND2 X Q. generalize (notified l). generalize (nodup Nat.eq_dec reg). clear. intros B A. induction A as [|a A IH]; intros NA X NB; [exact NB|].
    inversion NA; subst. cbn [app]. constructor; [rewrite in_app_iff; intros [K|K]; [contradiction|exact (X a (or_introl eq_refl) K)]|apply IH; auto]. intros x K. apply X. now right. }
  destruct (G l _ s s' V' D' S E) as (new & A & B). exists new. split; [exact A|]. revert B. unfold debt. rewrite L0, L'. rewrite app_nil_r. auto.
Qed.
Print Assumptions C172_complete_partial.
(** A registration that has not seen a channel drops it, and then it is offered nothing more, for ever, by changes that begin later. *)
Theorem C172_lost_refuted : forall s i d l c, nth_error (apcs s) i = Some (Registering d l) -> c <> d -> ~ In c l ->
  exists s1, astep s i Go = Some s1 /\ ~ In c (lsn s1) /\
  ((forall j e k, j <> i -> nth_error (apcs s) j = Some (Registering e k) -> e <> c /\ ~ In c k) ->
   absent c s1 /\ forall more s2, (forall j v r, nth_error (apcs s1) j <> Some (Offering v r)) -> ~ In c (notified more) -> arun s1 more = Some s2 -> offered c s2 = offered c s1).
Proof.
  intros s i d l c P D NI. unfold astep. rewrite P. eexists. split; [reflexivity|]. assert (NI2 : ~ In c (l ++ [d])) by (rewrite in_app_iff; cbn; intros [X|[X|[]]]; [tauto|congruence]).
  split; [exact NI2|]. intros H. unfold aset.
  assert (AB : absent c (AStat (cur s) (l ++ [d]) (lock s) (offers s) (stores s) (set_nth (apcs s) i Out))).
  { split; [exact NI2|]. cbn [apcs]. intros j e k E. destruct (Nat.eq_dec i j) as [<-|J]; [rewrite (set_same _ _ _ _ P) in E; discriminate|]. rewrite set_other in E by exact J. eauto. }
  split; [exact AB|]. clear H P D NI NI2. intros more s2 NO NM E.
  assert (OF : forall j v r, nth_error (set_nth (apcs s) i Out) j = Some (Offering v r) -> ~ In c r) by (intros j v r X; exfalso; exact (NO j v r X)). clear NO.
  assert (G : forall more s1 s2, absent c s1 -> (forall j v r, nth_error (apcs s1) j = Some (Offering v r) -> ~ In c r) -> ~ In c (notified more) -> arun s1 more = Some s2 -> offered c s2 = offered c s1).
  { clear. induction more as [|(j, a) more IH]; intros s s2 (A1 & A2) OF NM E; cbn [arun] in E; [injection E as <-; reflexivity|].
    destruct (astep s j a) as [s1|] eqn:E1; [|discriminate]. unfold notified in NM. cbn [flat_map snd] in NM. fold (notified more) in NM. rewrite in_app_iff in NM.
    enough (K : absent c s1 /\ (forall j v r, nth_error (apcs s1) j = Some (Offering v r) -> ~ In c r) /\ offered c s1 = offered c s).
    { destruct K as (K1 & K2 & K3). rewrite <- K3. apply (IH s1 s2 K1 K2); [tauto|exact E]. }
    clear IH E. unfold astep in E1. destruct (nth_error (apcs s) j) as [p|] eqn:P; [|discriminate].
    assert (RG : forall q, (forall e k, q = Registering e k -> e <> c /\ ~ In c k) -> forall m e k, nth_error (set_nth (apcs s) j q) m = Some (Registering e k) -> e <> c /\ ~ In c k).
    { intros q Q m e k E'. destruct (Nat.eq_dec j m) as [<-|D]; [rewrite (set_same _ _ _ _ P) in E'; injection E' as ->; eauto|]. rewrite set_other in E' by exact D. eauto. }
    assert (OG : forall q, (forall v r, q = Offering v r -> ~ In c r) -> forall m v r, nth_error (set_nth (apcs s) j q) m = Some (Offering v r) -> ~ In c r).
    { intros q Q m v r E'. destruct (Nat.eq_dec j m) as [<-|D]; [rewrite (set_same _ _ _ _ P) in E'; injection E' as ->; eauto|]. rewrite set_other in E' by exact D. eauto. }
    destruct p as [|d l|v|v|v|v [|d r]]; destruct a as [d'|u|]; try discriminate; try (destruct (lock s); [discriminate|]); injection E1 as <-; unfold absent, aset; cbn [lsn apcs];
      (split; [split; [try exact A1|apply RG; try discriminate]|split; [apply OG; try discriminate|try reflexivity]]).
    - intros e k [= <- <-]. split; [|exact A1]. intros ->. apply NM. left. now left.
    - rewrite in_app_iff. destruct (A2 j d l P) as (B1 & B2). cbn. intros [X|[X|[]]]; [tauto|congruence].
    - intros w r [= <- <-]. exact A1.
    - intros w r' [= <- <-]. intros X. apply (OF j v (d :: r) P). now right.
    - rewrite (offered_snoc c s d v) by reflexivity. destruct (Nat.eqb_spec d c) as [->|D]; [exfalso; apply (OF j v (c :: r) P); now left|apply app_nil_r]. }
  exact (G more _ s2 AB OF NM E).
Qed.
Print Assumptions C172_lost_refuted.

(** Two goroutines register at once: channel 7 is dropped and hears nothing of the two changes, channel 8 hears both; before
    them channel 5 was registered alone and hears everything. *)
Definition reg_race : list (nat * aact) := [(0, Notify 5); (0, Go); (0, Notify 7); (1, Notify 8); (0, Go); (1, Go)]%nat.
Definition chg (i : nat) (v : Z) (k : nat) : list (nat * aact) := (i, Change v) :: repeat (i, Go) (4 + k).
Example C172_nonvacuous :
  NoDup (notified (reg_race ++ chg 0 3 2 ++ chg 1 4 2)) /\
  match arun (astat0 2) (reg_race ++ chg 0 3 2 ++ chg 1 4 2) with
  | Some s => cur s = 4 /\ stores s = [3; 4] /\ lsn s = [5; 8]%nat /\ offered 5 s = [3; 4] /\ offered 7 s = [] /\ offered 8 s = [3; 4]
  | None => False
  end /\
  match arun (astat0 2) (firstn 5 reg_race) with
  | Some s => nth_error (apcs s) 1 = Some (Registering 8 [5%nat]) /\ lsn s = [5; 7]%nat /\ safe 5 s /\ lock s = None
  | None => False
  end.
Proof.
  split; [vm_compute; repeat (constructor; [cbn; intuition discriminate|]); constructor|].
  split; [vm_compute; tauto|]. vm_compute. split; [reflexivity|]. split; [reflexivity|]. split; [|reflexivity]. split; [tauto|].
  intros [|[|i]] d l E; [discriminate| |destruct i; discriminate]. injection E as <- <-. now left.
Qed.

(** * C173 *)
Lemma chain_snoc : forall ws v w x, chain v ws w -> chain v (ws ++ [(w, x)]) x.
Proof. induction ws as [|(a, b) ws IH]; intros v w x H; cbn [app chain] in *; [subst; auto|]. destruct H as (-> & H). split; [reflexivity|]. auto. Qed.
(** Whatever goroutines do, each write starts from the value the one before left and the value is what the last one wrote. *)
Theorem C173_chain : forall l v n s, trun (tstat0 v n) l = Some s -> chain v (writes s) (val s).
Proof.
  intros l v n s. assert (G : forall l s s', trun s l = Some s' -> chain v (writes s) (val s) -> chain v (writes s') (val s')).
  { clear. induction l as [|(i, a) l IH]; intros s s' E H; cbn [trun] in E; [injection E as <-; exact H|]. destruct (tstep s i a) as [(s1, r)|] eqn:E1; [|discriminate].
    apply (IH s1 s' E). clear E IH. unfold tstep in E1. destruct (nth_error (tpcs s) i) as [[|u]|]; destruct a as [w|o w| |]; try discriminate; try (injection E1 as <- <-; cbn [writes val]; auto using chain_snoc; fail).
    - destruct (val s =? o); injection E1 as <- <-; [apply chain_snoc; exact H|exact H].
    - destruct (ready s); injection E1 as <- <-; exact H. }
  intros E. apply (G l _ s E). reflexivity.
Qed.
Print Assumptions C173_chain.

(** Of any number of CompareAndSwap calls for the same change, on any goroutines, exactly one returns true and the change is made once. *)
Theorem C173_one_winner : forall l s s' o w, o <> w -> val s = o -> Forall (fun x => only_cas o w (snd x)) l -> trun s l = Some s' ->
  if existsb is_cas l then wins s l = 1%nat /\ val s' = w /\ writes s' = writes s ++ [(o, w)] else wins s l = 0%nat /\ val s' = o /\ writes s' = writes s.
Proof.
  assert (B : forall l s s' o w, o <> w -> val s = w -> Forall (fun x => only_cas o w (snd x)) l -> trun s l = Some s' -> wins s l = 0%nat /\ val s' = w /\ writes s' = writes s).
  { induction l as [|(i, a) l IH]; intros s s' o w D V F E; cbn [trun wins] in *; [injection E as <-; auto|]. inversion F as [|x y F1 F2]; subst x y. cbn [snd] in F1.
    destruct (tstep s i a) as [(s1, r)|] eqn:E1; [|discriminate].
    assert (K : val s1 = w /\ writes s1 = writes s /\ r <> Some true).
    { unfold tstep in E1. destruct (nth_error (tpcs s) i) as [[|u]|]; destruct a as [y|x y| |]; try discriminate; try contradiction; try (injection E1 as <- <-; cbn [val writes]; repeat split; auto; discriminate).
      - destruct F1 as (-> & ->). destruct (Z.eqb_spec (val s) o); [congruence|]. injection E1 as <- <-. repeat split; auto; discriminate.
      - destruct (ready s); injection E1 as <- <-; cbn [val writes]; repeat split; auto; discriminate. }
    destruct K as (K1 & K2 & K3). destruct (IH s1 s' o w D K1 F2 E) as (H1 & H2 & H3). rewrite H1, H3, K2. split; [destruct r as [[|]|]; [congruence|reflexivity|reflexivity]|auto]. }
  induction l as [|(i, a) l IH]; intros s s' o w D V F E; cbn [trun wins existsb] in *; [injection E as <-; auto|]. inversion F as [|x y F1 F2]; subst x y. cbn [snd] in F1.
  destruct (tstep s i a) as [(s1, r)|] eqn:E1; [|discriminate].
  destruct a as [y|x y| |]; unfold is_cas; cbn [snd orb]; try contradiction.
  - destruct F1 as (-> & ->). unfold tstep in E1. destruct (nth_error (tpcs s) i) as [[|u]|]; try discriminate. rewrite V, Z.eqb_refl in E1. injection E1 as <- <-.
    cbn [fst] in E. assert (B' := fun h => B l _ s' o w D h F2 E); destruct (B' eq_refl) as (H1 & H2 & H3). rewrite H1, H3. cbn [writes]. auto.
  - assert (K : val s1 = o /\ writes s1 = writes s /\ r = None).
    { unfold tstep in E1. destruct (nth_error (tpcs s) i) as [[|u]|]; try discriminate. destruct (ready s); injection E1 as <- <-; auto. }
    destruct K as (K1 & K2 & ->). specialize (IH s1 s' o w D K1 F2 E). rewrite K2 in IH. exact IH.
  - assert (K : val s1 = o /\ writes s1 = writes s /\ r = None).
    { unfold tstep in E1. destruct (nth_error (tpcs s) i) as [[|u]|]; injection E1 as <- <-; auto. }
    destruct K as (K1 & K2 & ->). specialize (IH s1 s' o w D K1 F2 E). rewrite K2 in IH. exact IH.
Qed.
Print Assumptions C173_one_winner.

Lemma countz_app v a b : countz v (a ++ b) = (countz v a + countz v b)%nat.
Proof. unfold countz. rewrite filter_app, app_length. reflexivity. Qed.
Definition tells (p : tpc) : list Z := match p with Telling v => [v] | TOut => [] end.
Lemma telling_set v : forall l i p q, nth_error l i = Some p ->
  (countz v (flat_map tells (set_nth l i q)) + countz v (tells p) = countz v (flat_map tells l) + countz v (tells q))%nat.
Proof.
  induction l as [|h t IH]; intros [|i] p q E; cbn [nth_error set_nth flat_map] in *; try discriminate.
  - injection E as ->. rewrite !countz_app. lia.
  - rewrite !countz_app. specialize (IH i p q E). lia.
Qed.
(** A listener is told no status that was not stored, and none more often than it was stored. *)
Theorem C173_told : forall l v n s x, trun (tstat0 v n) l = Some s -> (countz x (told s) + countz x (telling s) <= countz x (map snd (writes s)))%nat.
Proof.
  intros l v n s x. change telling with (fun s => flat_map tells (tpcs s)). cbv beta.
  assert (G : forall l s s', trun s l = Some s' -> (countz x (told s) + countz x (flat_map tells (tpcs s)) <= countz x (map snd (writes s)))%nat ->
    (countz x (told s') + countz x (flat_map tells (tpcs s')) <= countz x (map snd (writes s')))%nat).
  { clear. induction l as [|(i, a) l IH]; intros s s' E H; cbn [trun] in E; [injection E as <-; exact H|]. destruct (tstep s i a) as [(s1, r)|] eqn:E1; [|discriminate].
    apply (IH s1 s' E). clear E IH. unfold tstep in E1. destruct (nth_error (tpcs s) i) as [[|u]|] eqn:P; destruct a as [w|o w| |]; try discriminate; try (injection E1 as <- <-; exact H).
    - injection E1 as <- <-. cbn [told tpcs writes]. rewrite map_app, countz_app. pose proof (telling_set x _ _ _ (Telling w) P) as K. cbn [tells map snd] in *. change (countz x []) with 0%nat in K. lia.
    - destruct (val s =? o); injection E1 as <- <-; [|exact H]. cbn [told tpcs writes]. rewrite map_app, countz_app. pose proof (telling_set x _ _ _ (Telling w) P) as K. cbn [tells map snd] in *. change (countz x []) with 0%nat in K. lia.
    - pose proof (telling_set x _ _ _ TOut P) as K. cbn [tells] in K. destruct (ready s); injection E1 as <- <-; cbn [told tpcs writes]; rewrite ?countz_app; change (countz x []) with 0%nat in K; lia. }
  intros E. apply (G l _ s E). cbn [tstat0 told tpcs writes map]. replace (flat_map tells (repeat TOut n)) with (@nil Z) by (clear; induction n; auto). apply le_n.
Qed.
Print Assumptions C173_told.

(** One goroutine at a time, and a listener that waits at the channel each time: every status is told, in order. *)
Definition heard (i : nat) (vs : list Z) : list (nat * tact) := flat_map (fun v => [(i, Listen); (i, Store v); (i, Tell)]) vs.
Theorem C173_alone_partial : forall vs s i, nth_error (tpcs s) i = Some TOut ->
  exists s', trun s (heard i vs) = Some s' /\ told s' = told s ++ vs /\ val s' = last vs (val s).
Proof.
  induction vs as [|v vs IH]; intros s i P; [exists s; rewrite app_nil_r; auto|].
  set (s1 := TStat (val s) (writes s) true (told s) (tpcs s)).
  set (s2 := TStat v (writes s ++ [(val s, v)]) true (told s) (set_nth (tpcs s) i (Telling v))).
  set (s3 := TStat v (writes s ++ [(val s, v)]) false (told s ++ [v]) (set_nth (set_nth (tpcs s) i (Telling v)) i TOut)).
  assert (E1 : tstep s i Listen = Some (s1, None)) by (unfold tstep; rewrite P; reflexivity).
  assert (E2 : tstep s1 i (Store v) = Some (s2, None)) by (unfold tstep; change (tpcs s1) with (tpcs s); rewrite P; reflexivity).
  assert (E3 : tstep s2 i Tell = Some (s3, None)) by (unfold tstep; change (tpcs s2) with (set_nth (tpcs s) i (Telling v)); rewrite (set_same _ _ _ _ P); reflexivity).
  assert (P3 : nth_error (tpcs s3) i = Some TOut) by (eapply set_same, set_same, P).
  destruct (IH s3 i P3) as (s' & R & T & V). exists s'. unfold heard. cbn [flat_map app trun]. rewrite E1. cbn [fst]. rewrite E2. cbn [fst]. rewrite E3. cbn [fst]. split; [exact R|].
  split; [rewrite T; cbn [told s3]; rewrite <- app_assoc; reflexivity|]. rewrite V. change (val s3) with v. cbn [last]. destruct vs as [|z vs']; [reflexivity|]. clear. revert z. induction vs' as [|y t IHt]; intros z; [reflexivity|]. exact (IHt y).
Qed.
Print Assumptions C173_alone_partial.
(** Two goroutines that store: the listener may be told the older status last, whatever the statuses, and then holds a status
    the stream no longer has. *)
Theorem C173_stale_refuted : forall s i j a b, i <> j -> a <> b -> nth_error (tpcs s) i = Some TOut -> nth_error (tpcs s) j = Some TOut ->
  exists s', trun s [(i, Store a); (j, Store b); (i, Listen); (j, Tell); (i, Listen); (i, Tell)] = Some s' /\ told s' = told s ++ [b; a] /\ val s' = b /\ val s' <> last (told s') 0.
Proof.
  intros s i j a b D NE P Q.
  set (p1 := set_nth (tpcs s) i (Telling a)). set (p2 := set_nth p1 j (Telling b)). set (p3 := set_nth p2 j TOut).
  set (w1 := writes s ++ [(val s, a)]). set (w2 := w1 ++ [(a, b)]).
  assert (Q1 : nth_error p1 j = Some TOut) by (unfold p1; rewrite set_other by exact D; exact Q).
  assert (P1 : nth_error p1 i = Some (Telling a)) by (eapply set_same, P).
  assert (Q2 : nth_error p2 j = Some (Telling b)) by (eapply set_same, Q1).
  assert (P3 : nth_error p3 i = Some (Telling a)) by (unfold p3, p2; rewrite !set_other by congruence; exact P1).
  assert (P2 : nth_error p2 i = Some (Telling a)) by (unfold p2; rewrite set_other by congruence; exact P1).
  assert (E1 : tstep s i (Store a) = Some (TStat a w1 (ready s) (told s) p1, None)) by (unfold tstep; rewrite P; reflexivity).
  assert (E2 : tstep (TStat a w1 (ready s) (told s) p1) j (Store b) = Some (TStat b w2 (ready s) (told s) p2, None)) by (unfold tstep; cbn [tpcs]; rewrite Q1; reflexivity).
  assert (E3 : tstep (TStat b w2 (ready s) (told s) p2) i Listen = Some (TStat b w2 true (told s) p2, None)) by (unfold tstep; cbn [tpcs]; rewrite P2; reflexivity).
  assert (E4 : tstep (TStat b w2 true (told s) p2) j Tell = Some (TStat b w2 false (told s ++ [b]) p3, None)) by (unfold tstep; cbn [tpcs]; rewrite Q2; reflexivity).
  assert (E5 : tstep (TStat b w2 false (told s ++ [b]) p3) i Listen = Some (TStat b w2 true (told s ++ [b]) p3, None)) by (unfold tstep; cbn [tpcs]; rewrite P3; reflexivity).
  assert (E6 : tstep (TStat b w2 true (told s ++ [b]) p3) i Tell = Some (TStat b w2 false ((told s ++ [b]) ++ [a]) (set_nth p3 i TOut), None)) by (unfold tstep; cbn [tpcs]; rewrite P3; reflexivity).
  eexists. cbn [trun]. rewrite E1. cbn [fst]. rewrite E2. cbn [fst]. rewrite E3. cbn [fst]. rewrite E4. cbn [fst]. rewrite E5. cbn [fst]. rewrite E6. cbn [fst]. split; [reflexivity|]. cbn [told val].
  split; [rewrite <- app_assoc; reflexivity|]. split; [reflexivity|]. rewrite last_snoc. congruence.
Qed.
Print Assumptions C173_stale_refuted.
(** A status stored while no listener waits is told to nobody, however soon one comes. *)
Theorem C173_missed_refuted : forall s i a, ready s = false -> nth_error (tpcs s) i = Some TOut ->
  exists s', trun s [(i, Store a); (i, Tell); (i, Listen)] = Some s' /\ told s' = told s /\ telling s' = telling s /\ val s' = a /\ ready s' = true.
Proof.
  intros s i a RD P.
  set (p1 := set_nth (tpcs s) i (Telling a)). set (w1 := writes s ++ [(val s, a)]).
  assert (P1 : nth_error p1 i = Some (Telling a)) by (eapply set_same, P).
  assert (P2 : nth_error (set_nth p1 i TOut) i = Some TOut) by (eapply set_same, P1).
  assert (E1 : tstep s i (Store a) = Some (TStat a w1 false (told s) p1, None)) by (unfold tstep; rewrite P, RD; reflexivity).
  assert (E2 : tstep (TStat a w1 false (told s) p1) i Tell = Some (TStat a w1 false (told s) (set_nth p1 i TOut), None)) by (unfold tstep; cbn [tpcs]; rewrite P1; reflexivity).
  assert (E3 : tstep (TStat a w1 false (told s) (set_nth p1 i TOut)) i Listen = Some (TStat a w1 true (told s) (set_nth p1 i TOut), None)) by (unfold tstep; cbn [tpcs]; rewrite P2; reflexivity).
  eexists. cbn [trun]. rewrite E1. cbn [fst]. rewrite E2. cbn [fst]. rewrite E3. cbn [fst]. split; [reflexivity|]. cbn [told val ready]. split; [reflexivity|]. split; [|auto].
  unfold telling. cbn [tpcs]. unfold p1. rewrite (set_back _ _ _ _ P). reflexivity.
Qed.
Print Assumptions C173_missed_refuted.
Example C173_nonvacuous :
  (match trun (tstat0 1 3) [(0, CAS 1 2); (1, CAS 1 2); (2, Listen); (0, Tell); (2, CAS 1 2)]%nat with Some s => val s = 2 /\ told s = [2] /\ writes s = [(1, 2)] | None => False end) /\
  wins (tstat0 1 3) [(0, CAS 1 2); (1, CAS 1 2); (2, Listen); (0, Tell); (2, CAS 1 2)]%nat = 1%nat /\
  Forall (fun x => only_cas 1 2 (snd x)) [(0, CAS 1 2); (1, CAS 1 2); (2, Listen); (0, Tell); (2, CAS 1 2)]%nat /\
  (match trun (tstat0 1 2) (heard 1 [5; 6]) with Some s => told s = [5; 6] | None => False end) /\
  (match trun (tstat0 1 2) [(0, Store 5); (1, Store 6); (0, Listen); (1, Tell); (0, Listen); (0, Tell)]%nat with Some s => told s = [6; 5] /\ val s = 6 | None => False end).
Proof. split; [vm_compute; auto|]. split; [reflexivity|]. split; [repeat constructor|]. split; vm_compute; auto. Qed.
