(** C174: a time shared by goroutines, every operation, every interleaving. *)
From Coq Require Import ZifyBool ZifyNat.
From Verif Require Import Go GoFacts ClockModel ClockSpec ClockProofs PoolRaceModel PoolRaceProofs AtomicRaceModel AtomicRaceSpec.

Definition typed (o : xop) : Prop := match o with OAdd d => int64 d | _ => True end.
Definition typed_act (a : nat * xact) : Prop := match snd a with Begin o => typed o | Go => True end.

Lemma secs_app h t j s : secs_at h j s -> secs_at (h ++ t) j s.
Proof. intros (x & N & E). exists x. split; [|exact E]. rewrite nth_error_app1; [exact N|]. apply nth_error_Some. congruence. Qed.
Lemma nanos_app h t j n : nanos_at h j n -> nanos_at (h ++ t) j n.
Proof. intros (x & N & E). exists x. split; [|exact E]. rewrite nth_error_app1; [exact N|]. apply nth_error_Some. congruence. Qed.
Lemma secs_step_app h t j s s' : secs_step h j s s' -> secs_step (h ++ t) j s s'.
Proof. intros (A & B). split; now apply secs_app. Qed.
Lemma nanos_step_app h t j s s' : nanos_step h j s s' -> nanos_step (h ++ t) j s s'.
Proof. intros (A & B). split; now apply nanos_app. Qed.
#[local] Hint Resolve secs_app nanos_app secs_step_app nanos_step_app : at_.
Lemma answers_app h t r : answers h r -> answers (h ++ t) r.
Proof.
  unfold answers. destruct r as [i o v b e]. cbn [op res_ began ended]. destruct o, v as [|x|[|]]; auto.
  - intros (j & k & A & B & C & D). exists j, k. auto with at_.
  - intros (i0 & j & k & n & n' & A & B & C & D & E & F). exists i0, j, k, n, n'. repeat (split; auto with at_).
  - intros (j & k & A & B & C & D). exists j, k. auto with at_.
  - intros (j & k & A & B & C & D). exists j, k. auto with at_.
  - intros [(j & x & A & B & C)|(j & k & n & A & B & C & D & E)]; [left; exists j, x; auto with at_|right; exists j, k, n; repeat (split; auto with at_)].
  - intros (j & k & x & n & A & B & C & D). exists j, k, x, n. auto with at_.
Qed.
Definition okpc (h : list instant) (p : xpc) : Prop :=
  match p with
  | XOut => True
  | XFirst o b => (b < length h)%nat /\ typed o
  | XLoad s b => exists j, (b <= j)%nat /\ (S j < length h)%nat /\ secs_at h j s
  | XStore t n b => exists i, (b <= i)%nat /\ (S i < length h)%nat /\ nanos_at h i n
  | XStoreN t n b => exists i j, (b <= i < j)%nat /\ (S j < length h)%nat /\ nanos_at h i n /\ secs_at h (S j) (sec t)
  | XSwap new s b => exists j, (b <= j)%nat /\ (S j < length h)%nat /\ secs_step h j s (sec new)
  | XCAS old new b => exists j, (b <= j)%nat /\ (S j < length h)%nat /\ secs_step h j (sec old) (sec new)
  | XAdd d n b => n = Z.rem d 1000000000 /\ exists j s, (b <= j)%nat /\ (S j < length h)%nat /\ secs_step h j s (i64 (s + d ÷ 1000000000))
  end.
Lemma okpc_app h x p : okpc h p -> okpc (h ++ [x]) p.
Proof.
  destruct p; cbn [okpc]; rewrite ?app_length; cbn [length]; auto.
  - intros (A & B). split; [lia|exact B].
  - intros (j & A & B & C). exists j. split; [exact A|]. split; [lia|]. auto with at_.
  - intros (j & A & B & C). exists j. split; [exact A|]. split; [lia|]. auto with at_.
  - intros (i & j & A & B & C & D). exists i, j. split; [exact A|]. split; [lia|]. auto with at_.
  - intros (j & A & B & C). exists j. split; [exact A|]. split; [lia|]. auto with at_.
  - intros (j & A & B & C). exists j. split; [exact A|]. split; [lia|]. auto with at_.
  - intros (N & j & x0 & A & B & C). split; [exact N|]. exists j, x0. split; [exact A|]. split; [lia|]. auto with at_.
Qed.
Record Inv (s : xtime) : Prop := MkInv {
  i_len : (0 < length (hist s))%nat;
  i_mem : nth_error (hist s) (length (hist s) - 1) = Some (mem s);
  i_pcs : Forall (okpc (hist s)) (xpcs s);
  i_done : Forall (fun r => answers (hist s) r /\ (began r < ended r < length (hist s))%nat) (done s) }.

Lemma last_app (h : list instant) m : nth_error (h ++ [m]) (length h) = Some m.
Proof. rewrite nth_error_app2 by lia. now rewrite Nat.sub_diag. Qed.
(** What a step does to the history and the answer it may give *)
Lemma next_ok h m p a m' p' r : (0 < length h)%nat -> nth_error h (length h - 1) = Some m -> okpc h p ->
  match a with Begin o => typed o | Go => True end -> xnext m (length h - 1) p a = Some (m', p', r) ->
  okpc (h ++ [m']) p' /\ forall i o v b, r = Some (o, v, b) -> answers (h ++ [m']) (Ret i o v b (length h)) /\ (b < length h)%nat.
Proof.
  intros L M K T E.
  set (c := (length h - 1)%nat) in *. assert (Lc : length h = S c) by lia.
  assert (Sc : secs_at h c (sec m)) by (exists m; auto). assert (Nc : nanos_at h c (nsec m)) by (exists m; auto).
  assert (Sn : secs_at (h ++ [m']) (S c) (sec m')) by (exists m'; rewrite <- Lc; split; [apply last_app|reflexivity]).
  assert (Nn : nanos_at (h ++ [m']) (S c) (nsec m')) by (exists m'; rewrite <- Lc; split; [apply last_app|reflexivity]).
  assert (Lh : length (h ++ [m']) = S (S c)) by (rewrite app_length; cbn [length]; lia).
  assert (Sc' : secs_at (h ++ [m']) c (sec m)) by auto with at_. assert (Nc' : nanos_at (h ++ [m']) c (nsec m)) by auto with at_.
  destruct p as [|o b|x b|t n b|t n b|t x b|old new b|d n b], a as [o'|]; cbn [xnext] in E; try discriminate.
  - injection E as <- <- <-. split; [|discriminate]. cbn [okpc]. rewrite Lh. split; [lia|exact T].
  - destruct o; discriminate.
  - cbn [okpc] in K. destruct K as (Kb & Kt). rewrite Lc in Kb. destruct o as [|t|t|old new|d].
    + injection E as <- <- <-. split; [|discriminate]. cbn [okpc]. rewrite Lh. exists c. split; [lia|]. split; [lia|]. auto.
    + injection E as <- <- <-. split; [|discriminate]. cbn [okpc]. rewrite Lh. exists c. split; [lia|]. split; [lia|]. auto.
    + injection E as <- <- <-. split; [|discriminate]. cbn [okpc]. rewrite Lh. exists c. split; [lia|]. split; [lia|]. split; auto.
    + destruct (Z.eqb_spec (sec m) (sec old)) as [Q|Q]; injection E as <- <- <-.
      * split; [|discriminate]. cbn [okpc]. rewrite Lh. exists c. split; [lia|]. split; [lia|]. rewrite <- Q. split; auto.
      * split; [exact I|]. intros i o v b' R. injection R as <- <- <-. split; [|lia]. unfold answers. cbn [op res_ began ended].
        left. exists c, (sec m). split; [lia|]. split; [split; auto|exact Q].
    + cbn [typed] in Kt. destruct (split_spec d Kt) as (x & y & Q & _ & Q1 & Q2 & _). rewrite Q in E. cbn [fst snd] in E. rewrite Q1, Q2 in E.
      injection E as <- <- <-. split; [|discriminate]. cbn [okpc]. split; [reflexivity|]. rewrite Lh. exists c, (sec m).
      split; [lia|]. split; [lia|]. split; auto.
  - injection E as <- <- <-. split; [exact I|]. intros i o v b' R. injection R as <- <- <-. cbn [okpc] in K. destruct K as (j & A & B & C).
    split; [|lia]. unfold answers. cbn [op res_ began ended sec nsec]. exists j, c. rewrite Lc in *. split; [lia|]. split; [lia|]. auto with at_.
  - injection E as <- <- <-. split; [|discriminate]. cbn [okpc] in K. destruct K as (i & A & B & C). cbn [okpc]. rewrite Lh.
    exists i, c. split; [lia|]. split; [lia|]. split; [auto with at_|]. exact Sn.
  - injection E as Em <- <-. split; [exact I|]. intros i o v b' R. injection R as <- <- <-. cbn [okpc] in K. destruct K as (i0 & j & A & B & C & D).
    split; [|lia]. unfold answers. cbn [op res_ began ended]. exists i0, j, c, n, (nsec m). rewrite Lc in *. split; [lia|]. split; [lia|].
    split; [auto with at_|]. split; [auto with at_|]. split; [exact Nc'|]. rewrite <- Em in Nn. destruct (nsec m =? n); rewrite <- Em; exact Nn.
  - injection E as <- <- <-. split; [exact I|]. intros i o v b' R. injection R as <- <- <-. cbn [okpc] in K. destruct K as (j & A & B & C).
    split; [|lia]. unfold answers. cbn [op res_ began ended sec nsec]. exists j, c. rewrite Lc in *. split; [lia|]. split; [lia|].
    split; [auto with at_|]. split; auto.
  - cbn [okpc] in K. destruct K as (j & A & B & C). destruct (Z.eqb_spec (nsec m) (nsec old)) as [Q|Q]; injection E as <- <- <-.
    + split; [exact I|]. intros i o v b' R. injection R as <- <- <-. split; [|lia]. unfold answers. cbn [op res_ began ended sec nsec]. exists j, c. rewrite Lc in *.
      split; [lia|]. split; [lia|]. split; [auto with at_|]. rewrite <- Q. split; auto.
    + split; [exact I|]. intros i o v b' R. injection R as <- <- <-. split; [|lia]. unfold answers. cbn [op res_ began ended sec nsec]. right. exists j, c, (nsec m). rewrite Lc in *.
      split; [lia|]. split; [lia|]. split; [auto with at_|]. split; [split; auto|exact Q].
  - injection E as <- <- <-. split; [exact I|]. intros i o v b' R. injection R as <- <- <-. cbn [okpc] in K. destruct K as (-> & j & x & A & B & C).
    split; [|lia]. unfold answers. cbn [op res_ began ended sec nsec]. exists j, c, x, (nsec m). rewrite Lc in *. split; [lia|]. split; [lia|].
    split; [auto with at_|]. split; auto.
Qed.
Lemma step_inv s i a s' : Inv s -> typed_act (i, a) -> xstep s i a = Some s' -> Inv s'.
Proof.
  intros [L M P D] T E. unfold xstep in E. destruct (nth_error (xpcs s) i) as [p|] eqn:N; [|discriminate].
  destruct (xnext (mem s) (length (hist s) - 1) p a) as [[[m' p'] r]|] eqn:X; [|discriminate]. injection E as <-.
  assert (K : okpc (hist s) p) by (eapply Forall_forall; [exact P|eapply nth_error_In; exact N]).
  destruct (next_ok (hist s) (mem s) p a m' p' r L M K) as (A & B); [destruct a; exact T|exact X|].
  assert (Lh : length (hist s ++ [m']) = S (length (hist s))) by (rewrite app_length; cbn [length]; lia).
  constructor; cbn [mem hist xpcs done]; rewrite ?Lh.
  - lia.
  - replace (S (length (hist s)) - 1)%nat with (length (hist s)) by lia. apply last_app.
  - apply Forall_set; [|exact A]. eapply Forall_impl; [|exact P]. intros q Q. now apply okpc_app.
  - apply Forall_app. split.
    + eapply Forall_impl; [|exact D]. intros q (Q1 & Q2). split; [now apply answers_app|lia].
    + destruct r as [[[o v] b]|]; [|constructor]. constructor; [|constructor]. destruct (B i o v b eq_refl) as (B1 & B2). split; [exact B1|]. cbn [began ended]. lia.
Qed.
Lemma run_inv l : forall s s', Inv s -> Forall typed_act l -> xrun s l = Some s' -> Inv s'.
Proof.
  induction l as [|[i a] l IH]; intros s s' V T E; cbn [xrun] in E; [now injection E as <-|].
  destruct (xstep s i a) as [s1|] eqn:X; [|discriminate]. inversion T; subst. eapply IH; [|eassumption|exact E]. eapply step_inv; eassumption.
Qed.
Lemma inv0 m n : Inv (xtime0 m n).
Proof.
  constructor; cbn [xtime0 mem hist xpcs done length]; [lia|reflexivity| |constructor].
  apply Forall_forall. intros p H. apply repeat_spec in H. subst p. exact I.
Qed.
(** C174.  However calls of any number of goroutines interleave, each call did to the seconds and, at a later moment of
    the call, to the nanoseconds what it is said to do, and answered with what they were at these moments ([answers]). *)
Theorem C174_answers_partial : forall m n l s, Forall typed_act l -> xrun (xtime0 m n) l = Some s ->
  Forall (fun r => answers (hist s) r /\ (began r < ended r < length (hist s))%nat) (done s) /\
  nth_error (hist s) 0 = Some m /\ nth_error (hist s) (length (hist s) - 1) = Some (mem s).
Proof.
  intros m n l s T E. pose proof (run_inv l _ _ (inv0 m n) T E) as [L M P D]. split; [exact D|]. split; [|exact M].
  assert (G : forall l s0 s1, nth_error (hist s0) 0 = Some m -> xrun s0 l = Some s1 -> nth_error (hist s1) 0 = Some m).
  { clear. induction l as [|[i a] l IH]; intros s0 s1 H E; cbn [xrun] in E; [now injection E as <-|].
    destruct (xstep s0 i a) as [s2|] eqn:X; [|discriminate]. apply (IH s2); [|exact E]. unfold xstep in X.
    destruct (nth_error (xpcs s0) i); [|discriminate]. destruct (xnext _ _ _ _) as [[[m' p'] r]|]; [|discriminate]. injection X as <-. cbn [hist].
    rewrite nth_error_app1; [exact H|]. apply nth_error_Some. congruence. }
  apply (G l (xtime0 m n) s); [reflexivity|exact E].
Qed.
Print Assumptions C174_answers_partial.
(** Where no duration is added, the seconds at any moment, and in any answer, are the first ones or ones of a time given to a
    call, and so are the nanoseconds; *)
Definition given (a : nat * xact) : list instant :=
  match snd a with Begin (OStore t) | Begin (OSwap t) | Begin (OCAS _ t) => [t] | _ => [] end.
Definition no_add (a : nat * xact) : Prop := match snd a with Begin (OAdd _) => False | _ => True end.
Section Parts.
  Variables P Q : Z -> Prop.
  Definition both (t : instant) : Prop := P (sec t) /\ Q (nsec t).
  Definition part (p : xpc) : Prop :=
    match p with
    | XOut | XFirst OLoad _ => True
    | XFirst (OAdd _) _ | XAdd _ _ _ => False
    | XFirst (OStore t) _ | XFirst (OSwap t) _ | XFirst (OCAS _ t) _ | XStore t _ _ | XStoreN t _ _ | XCAS _ t _ => both t
    | XLoad s _ => P s
    | XSwap t s _ => both t /\ P s
    end.
  Definition ans (r : xret) : Prop := match res_ r with RTime t => both t | _ => True end.
  Definition Good (s : xtime) : Prop := both (mem s) /\ Forall both (hist s) /\ Forall part (xpcs s) /\ Forall ans (done s).
  Lemma step_good s i a s' : Good s -> no_add (i, a) -> Forall both (given (i, a)) -> xstep s i a = Some s' -> Good s'.
  Proof.
    intros (M & H & C & D) NA G E. unfold xstep in E. destruct (nth_error (xpcs s) i) as [p|] eqn:N; [|discriminate].
    destruct (xnext (mem s) (length (hist s) - 1) p a) as [[[m' p'] r]|] eqn:X; [|discriminate]. injection E as <-.
    assert (K : part p) by (eapply Forall_forall; [exact C|eapply nth_error_In; exact N]).
    assert (A : both m' /\ part p' /\ match r with Some (o, v, b) => ans (Ret i o v b (length (hist s))) | None => True end).
    { clear - M K NA G X. unfold no_add, given in *. cbn [snd] in *. unfold both in *.
      destruct p as [|[|t|t|old new|d] b|x b|t n b|t n b|t x b|old new b|d n b], a as [[|t'|t'|o' n'|d']|]; cbn [xnext part ans] in *; unfold both in *; try discriminate; try contradiction;
        try (inversion G; subst); repeat match goal with H : context [if ?c then _ else _] |- _ => destruct c end;
        injection X as <- <- <-; cbn [part ans res_ sec nsec]; unfold ans, both in *; cbn [res_ sec nsec]; tauto. }
    destruct A as (A1 & A2 & A3). unfold Good. cbn [mem hist xpcs done]. split; [exact A1|]. split; [apply Forall_app; auto|]. split; [now apply Forall_set|].
    apply Forall_app. split; [exact D|]. destruct r as [[[o v] b]|]; auto.
  Qed.
  Lemma run_good l : forall s s', Good s -> Forall no_add l -> Forall both (flat_map given l) -> xrun s l = Some s' -> Good s'.
  Proof.
    induction l as [|[i a] l IH]; intros s s' V T G E; cbn [xrun] in E; [now injection E as <-|].
    destruct (xstep s i a) as [s1|] eqn:X; [|discriminate]. inversion T; subst. cbn [flat_map] in G. apply Forall_app in G as (G1 & G2).
    eapply IH; [|eassumption|exact G2|exact E]. eapply step_good; eassumption.
  Qed.
End Parts.
Theorem C174_parts_partial : forall m n l s, Forall no_add l -> xrun (xtime0 m n) l = Some s ->
  let put := m :: flat_map given l in
  (forall x, In x (hist s) -> In (sec x) (map sec put) /\ In (nsec x) (map nsec put)) /\
  (forall r x, In r (done s) -> res_ r = RTime x -> In (sec x) (map sec put) /\ In (nsec x) (map nsec put)).
Proof.
  intros m n l s T E put.
  pose proof (run_good (fun z => In z (map sec put)) (fun z => In z (map nsec put)) l (xtime0 m n) s) as G. unfold Good, both in G.
  destruct G as (_ & H & _ & D); [|exact T| |exact E|].
  - cbn [xtime0 mem hist xpcs done]. assert (B : In (sec m) (map sec put) /\ In (nsec m) (map nsec put)) by (split; left; reflexivity).
    split; [exact B|]. split; [constructor; [exact B|constructor]|]. split; [|constructor]. apply Forall_forall. intros p H. apply repeat_spec in H. subst p. exact I.
  - apply Forall_forall. intros x H. split; apply in_map; right; exact H.
  - split; [intros x I; rewrite Forall_forall in H; now apply H|]. intros r x I R. rewrite Forall_forall in D. specialize (D r I). unfold ans, both in D. rewrite R in D. exact D.
Qed.
Print Assumptions C174_parts_partial.

(** * One goroutine alone *)
Lemma set_same {A} : forall (l : list A) i x y, nth_error l i = Some y -> nth_error (set_nth l i x) i = Some x.
Proof. induction l as [|h t IH]; intros [|i] x y E; cbn [nth_error set_nth] in *; try discriminate; eauto. Qed.
Definition last_ret (s : xtime) : option xret := nth_error (done s) (length (done s) - 1).
Lemma last_ret_app s r d : done s = d ++ [r] -> last_ret s = Some r.
Proof. intros E. unfold last_ret. rewrite E, app_length. cbn [length]. rewrite nth_error_app2 by lia. replace (length d + 1 - 1 - length d)%nat with O by lia. reflexivity. Qed.
Definition steps (m : instant) (o : xop) : nat :=
  match o with OStore _ => 3%nat | OCAS old _ => if sec m =? sec old then 2%nat else 1%nat | _ => 2%nat end.
Definition half (m : instant) (o : xop) : bool :=
  match o with OCAS old new => (sec m =? sec old) && negb (nsec m =? nsec old) && negb (sec new =? sec m) | _ => false end.
(** A call no step of another comes between does at once what it is said to do; only a compare-and-swap that fails by the
    nanoseconds has put its seconds in. *)
Theorem C174_alone_partial : forall s i o, nth_error (xpcs s) i = Some XOut -> typed o -> half (mem s) o = false ->
  exists s' r, xrun s ((i, Begin o) :: repeat (i, Go) (steps (mem s) o)) = Some s' /\
    last_ret s' = Some r /\ by_ r = i /\ op r = o /\ (mem s', res_ r) = wanted (mem s) o /\ nth_error (xpcs s') i = Some XOut.
Proof.
  intros s i o N T Hh.
  assert (G : forall s p a m' p' r, nth_error (xpcs s) i = Some p -> xnext (mem s) (length (hist s) - 1) p a = Some (m', p', r) ->
    exists s', xstep s i a = Some s' /\ mem s' = m' /\ nth_error (xpcs s') i = Some p' /\ (done s' = done s ++ match r with Some (o, v, b) => [Ret i o v b (length (hist s))] | None => [] end)).
  { intros s0 p a m' p' r N0 X. unfold xstep. rewrite N0, X. eexists. split; [reflexivity|]. cbn [mem xpcs done]. split; [reflexivity|]. split; [|reflexivity]. eapply set_same. exact N0. }
  set (b := (length (hist s) - 1)%nat).
  destruct (G s XOut (Begin o) (mem s) (XFirst o b) None N eq_refl) as (s1 & E1 & M1 & N1 & _).
  cbn [xrun]. rewrite E1. destruct o as [|t|t|old new|d]; cbn [steps repeat xrun].
  - destruct (G s1 _ Go (mem s1) (XLoad (sec (mem s1)) b) None N1 eq_refl) as (s2 & E2 & M2 & N2 & _). rewrite E2.
    destruct (G s2 _ Go (mem s2) XOut (Some (OLoad, RTime (Instant (sec (mem s1)) (nsec (mem s2))), b)) N2 eq_refl) as (s3 & E3 & M3 & N3 & D3). rewrite E3.
    exists s3. eexists. split; [reflexivity|]. split; [eapply last_ret_app; exact D3|]. cbn [by_ op res_ wanted]. rewrite M3, M2, M1. destruct (mem s); auto.
  - destruct (G s1 _ Go (mem s1) (XStore t (nsec (mem s1)) b) None N1 eq_refl) as (s2 & E2 & M2 & N2 & _). rewrite E2.
    destruct (G s2 _ Go (Instant (sec t) (nsec (mem s2))) (XStoreN t (nsec (mem s1)) b) None N2 eq_refl) as (s3 & E3 & M3 & N3 & _). rewrite E3.
    destruct (G s3 _ Go (if nsec (mem s3) =? nsec (mem s1) then Instant (sec (mem s3)) (nsec t) else mem s3) XOut (Some (OStore t, RNone, b)) N3 eq_refl) as (s4 & E4 & M4 & N4 & D4). rewrite E4.
    exists s4. eexists. split; [reflexivity|]. split; [eapply last_ret_app; exact D4|]. cbn [by_ op res_ wanted]. rewrite M4, M3, M2, M1. cbn [sec nsec]. rewrite Z.eqb_refl. destruct t; auto.
  - destruct (G s1 _ Go (Instant (sec t) (nsec (mem s1))) (XSwap t (sec (mem s1)) b) None N1 eq_refl) as (s2 & E2 & M2 & N2 & _). rewrite E2.
    destruct (G s2 _ Go (Instant (sec (mem s2)) (nsec t)) XOut (Some (OSwap t, RTime (Instant (sec (mem s1)) (nsec (mem s2))), b)) N2 eq_refl) as (s3 & E3 & M3 & N3 & D3). rewrite E3.
    exists s3. eexists. split; [reflexivity|]. split; [eapply last_ret_app; exact D3|]. cbn [by_ op res_ wanted]. rewrite M3, M2, M1. cbn [sec nsec]. destruct t, (mem s); auto.
  - cbn [half wanted] in *. destruct (Z.eqb_spec (sec (mem s)) (sec old)) as [Q|Q].
    + cbn [repeat xrun andb]. destruct (G s1 (XFirst (OCAS old new) b) Go (Instant (sec new) (nsec (mem s1))) (XCAS old new b) None N1) as (s2 & E2 & M2 & N2 & _).
      { cbn [xnext]. rewrite M1, Q, Z.eqb_refl. reflexivity. } rewrite E2.
      destruct (Z.eqb_spec (nsec (mem s)) (nsec old)) as [R|R].
      * destruct (G s2 (XCAS old new b) Go (Instant (sec (mem s2)) (nsec new)) XOut (Some (OCAS old new, RBool true, b)) N2) as (s3 & E3 & M3 & N3 & D3).
        { cbn [xnext]. rewrite M2, M1. cbn [nsec]. rewrite R, Z.eqb_refl. reflexivity. } rewrite E3.
        exists s3. eexists. split; [reflexivity|]. split; [eapply last_ret_app; exact D3|]. cbn [by_ op res_]. rewrite M3, M2. cbn [sec]. destruct new; auto.
      * destruct (G s2 (XCAS old new b) Go (mem s2) XOut (Some (OCAS old new, RBool false, b)) N2) as (s3 & E3 & M3 & N3 & D3).
        { cbn [xnext]. rewrite M2, M1. cbn [nsec]. replace (nsec (mem s) =? nsec old) with false by lia. reflexivity. } rewrite E3.
        exists s3. eexists. split; [reflexivity|]. split; [eapply last_ret_app; exact D3|]. cbn [by_ op res_]. rewrite M3, M2, M1.
        replace (sec new) with (sec (mem s)) by (cbn [negb andb] in Hh; lia). destruct (mem s); auto.
    + cbn [repeat xrun andb]. destruct (G s1 (XFirst (OCAS old new) b) Go (mem s1) XOut (Some (OCAS old new, RBool false, b)) N1) as (s2 & E2 & M2 & N2 & D2).
      { cbn [xnext]. rewrite M1. replace (sec (mem s) =? sec old) with false by lia. reflexivity. } rewrite E2.
      exists s2. eexists. split; [reflexivity|]. split; [eapply last_ret_app; exact D2|]. cbn [by_ op res_]. rewrite M2, M1. auto.
  - cbn [typed] in T. destruct (split_spec d T) as (x & y & Q & _ & Q1 & Q2 & _).
    destruct (G s1 _ Go (Instant (i64 (sec (mem s1) + fst (ToSecAndNano d))) (nsec (mem s1))) (XAdd d (snd (ToSecAndNano d)) b) None N1 eq_refl) as (s2 & E2 & M2 & N2 & _). rewrite E2.
    destruct (G s2 _ Go (Instant (sec (mem s2)) (i32 (nsec (mem s2) + snd (ToSecAndNano d)))) XOut (Some (OAdd d, RNone, b)) N2 eq_refl) as (s3 & E3 & M3 & N3 & D3). rewrite E3.
    exists s3. eexists. split; [reflexivity|]. split; [eapply last_ret_app; exact D3|]. cbn [by_ op res_ wanted]. rewrite M3, M2, M1, Q. cbn [sec nsec fst snd]. rewrite Q1, Q2. auto.
Qed.
Print Assumptions C174_alone_partial.

(** While the seconds only go forward, the seconds of a call of Load that begins after another has returned are not less; *)
Theorem C174_forward_partial : forall m n l s r1 r2 t1 t2, Forall typed_act l -> xrun (xtime0 m n) l = Some s ->
  (forall j x y, nth_error (hist s) j = Some x -> nth_error (hist s) (S j) = Some y -> sec x <= sec y) ->
  In r1 (done s) -> In r2 (done s) -> op r1 = OLoad -> op r2 = OLoad -> res_ r1 = RTime t1 -> res_ r2 = RTime t2 ->
  (ended r1 <= began r2)%nat -> sec t1 <= sec t2.
Proof.
  intros m n l s r1 r2 t1 t2 T E F I1 I2 O1 O2 R1 R2 B. destruct (C174_answers_partial m n l s T E) as (A & _ & _). rewrite Forall_forall in A.
  destruct (A r1 I1) as (A1 & _). destruct (A r2 I2) as (A2 & _). unfold answers in A1, A2. rewrite O1, R1 in A1. rewrite O2, R2 in A2.
  destruct A1 as (j1 & k1 & J1 & K1 & (x1 & N1 & <-) & _). destruct A2 as (j2 & k2 & J2 & K2 & (x2 & N2 & <-) & _).
  assert (G : forall d j x y, nth_error (hist s) j = Some x -> nth_error (hist s) (j + d) = Some y -> sec x <= sec y).
  { clear - F. induction d as [|d IH]; intros j x y N M.
    - rewrite Nat.add_0_r in M. rewrite N in M. injection M as <-. lia.
    - replace (j + S d)%nat with (S (j + d)) in M by lia. destruct (nth_error (hist s) (j + d)) as [z|] eqn:Q.
      + specialize (IH j x z N Q). specialize (F (j + d)%nat z y Q M). lia.
      + apply nth_error_None in Q. assert (S (j + d) < length (hist s))%nat by (apply nth_error_Some; congruence). lia. }
  apply (G (j2 - j1)%nat j1 x1 x2 N1). replace (j1 + (j2 - j1))%nat with j2 by lia. exact N2.
Qed.
Print Assumptions C174_forward_partial.
Lemma xrun_step s i a s1 l s2 : xstep s i a = Some s1 -> xrun s1 l = Some s2 -> xrun s ((i, a) :: l) = Some s2.
Proof. intros A B. cbn [xrun]. now rewrite A. Qed.
(** but the time itself goes backwards to a goroutine that reads it twice while another moves it into the next second. *)
Theorem C174_backward_refuted : forall s n n', n' < n -> exists l st r1 r2 t1 t2,
  xrun (xtime0 (Instant s n) 2) l = Some st /\ flat_map given l = [Instant (s + 1) n'] /\
  In r1 (done st) /\ In r2 (done st) /\ by_ r1 = 1%nat /\ by_ r2 = 1%nat /\ op r1 = OLoad /\ op r2 = OLoad /\ res_ r1 = RTime t1 /\ res_ r2 = RTime t2 /\
  (ended r1 <= began r2)%nat /\ Pass t1 t2 = true /\ t1 <> Instant s n /\ t1 <> Instant (s + 1) n'.
Proof.
  intros s n n' H.
  exists [(0, Begin (OStore (Instant (s + 1) n'))); (0, Go); (0, Go); (1, Begin OLoad); (1, Go); (1, Go); (0, Go); (1, Begin OLoad); (1, Go); (1, Go)]%nat.
  assert (E : exists st, xrun (xtime0 (Instant s n) 2) [(0, Begin (OStore (Instant (s + 1) n'))); (0, Go); (0, Go); (1, Begin OLoad); (1, Go); (1, Go); (0, Go); (1, Begin OLoad); (1, Go); (1, Go)]%nat = Some st /\
    done st = [Ret 1 OLoad (RTime (Instant (s + 1) n)) 3 6; Ret 0 (OStore (Instant (s + 1) n')) RNone 0 7; Ret 1 OLoad (RTime (Instant (s + 1) n')) 7 10]).
  { eexists. split.
    - do 6 (eapply xrun_step; [unfold xstep, xtime0; cbn [xpcs repeat nth_error xnext mem hist length app set_nth done Nat.sub sec nsec]; reflexivity|]).
      eapply xrun_step; [unfold xstep; cbn [xpcs repeat nth_error xnext mem hist length app set_nth done Nat.sub sec nsec]; rewrite Z.eqb_refl; reflexivity|].
      do 3 (eapply xrun_step; [unfold xstep; cbn [xpcs repeat nth_error xnext mem hist length app set_nth done Nat.sub sec nsec]; reflexivity|]). reflexivity.
    - reflexivity. }
  destruct E as (st & E & D). exists st. rewrite D. do 4 eexists. split; [exact E|]. split; [reflexivity|].
  split; [left; reflexivity|]. split; [right; right; left; reflexivity|]. cbn [by_ op res_ began ended]. do 4 (split; [reflexivity|]). split; [reflexivity|]. split; [reflexivity|].
  split; [lia|]. split; [unfold Pass; cbn [sec nsec]; lia|]. split; intros Q; injection Q; lia.
Qed.
Print Assumptions C174_backward_refuted.

(** * Compare-and-swap from the same time *)
Definition from (old : instant) (a : nat * xact) : Prop :=
  match snd a with Begin (OCAS o new) => o = old /\ sec new <> sec old | Begin OLoad | Go => True | _ => False end.
Definition won (r : xret) : bool := match op r, res_ r with OCAS _ _, RBool true => true | _, _ => false end.
Definition taking (p : xpc) : bool := match p with XCAS _ _ _ => true | _ => false end.
Definition count {A} (f : A -> bool) (l : list A) : nat := length (filter f l).
Lemma count_set {A} (f : A -> bool) : forall l i p q, nth_error l i = Some p ->
  (count f (set_nth l i q) + (if f p then 1 else 0) = count f l + (if f q then 1 else 0))%nat.
Proof.
  unfold count. induction l as [|h t IH]; intros [|i] p q E; cbn [nth_error] in E; try discriminate; cbn [set_nth filter].
  - injection E as ->. destruct (f p), (f q); cbn [length]; lia.
  - specialize (IH i p q E). destruct (f h); cbn [length]; lia.
Qed.
Lemma count_app {A} (f : A -> bool) l k : count f (l ++ k) = (count f l + count f k)%nat.
Proof. unfold count. induction l as [|x l IH]; [reflexivity|]. cbn [app filter]. destruct (f x); cbn [length]; lia. Qed.
Definition racing (old : instant) (p : xpc) : Prop :=
  match p with XOut | XFirst OLoad _ | XLoad _ _ => True | XFirst (OCAS o new) _ | XCAS o new _ => o = old /\ sec new <> sec old | _ => False end.
(** Of goroutines that swap from the same time to times in other seconds, at most one wins. *)
Theorem C174_one_winner_partial : forall m n l s, Forall (from m) l -> xrun (xtime0 m n) l = Some s -> (count won (done s) <= 1)%nat.
Proof.
  intros m n l s F E.
  assert (G : forall l s0 s1, Forall (from m) l -> Forall (racing m) (xpcs s0) -> (count won (done s0) + count taking (xpcs s0) <= (if Z.eqb (sec (mem s0)) (sec m) then 0 else 1))%nat -> xrun s0 l = Some s1 ->
    (count won (done s1) + count taking (xpcs s1) <= (if Z.eqb (sec (mem s1)) (sec m) then 0 else 1))%nat).
  { clear. induction l as [|[i a] l IH]; intros s0 s1 F R C E; cbn [xrun] in E; [now injection E as <-|].
    destruct (xstep s0 i a) as [s2|] eqn:X; [|discriminate]. inversion F as [|? ? F1 F2]; subst.
    unfold xstep in X. destruct (nth_error (xpcs s0) i) as [p|] eqn:N; [|discriminate].
    destruct (xnext _ _ p a) as [[[m' p'] r]|] eqn:Y; [|discriminate]. injection X as <-.
    assert (K : racing m p) by (eapply Forall_forall; [exact R|eapply nth_error_In; exact N]).
    pose proof (count_set taking (xpcs s0) i p p' N) as CS.
    assert (A : racing m p' /\ (count won (match r with Some (o, v, b) => [Ret i o v b (length (hist s0))] | None => [] end) + (if taking p' then 1 else 0) + (if Z.eqb (sec (mem s0)) (sec m) then 0 else 1)
      <= (if taking p then 1 else 0) + (if Z.eqb (sec m') (sec m) then 0 else 1))%nat).
    { unfold from in F1. cbn [snd] in F1.
      destruct p as [|[|t|t|old new|d] b|x b|t k b|t k b|t x b|old new b|d k b], a as [[|t'|t'|o' n'|d']|]; cbn [xnext racing] in *; try discriminate; try contradiction.
      - injection Y as <- <- <-. cbn [racing taking]. split; [exact I|]. cbn. lia.
      - injection Y as <- <- <-. cbn [racing taking]. split; [exact F1|]. cbn. lia.
      - injection Y as <- <- <-. cbn [racing taking]. split; [exact I|]. cbn. lia.
      - destruct K as (-> & K). destruct (Z.eqb_spec (sec (mem s0)) (sec m)) as [Q|Q]; injection Y as <- <- <-; cbn [racing taking sec].
        + split; [split; [reflexivity|exact K]|]. replace (sec new =? sec m) with false by lia. cbn. lia.
        + split; [exact I|]. replace (sec (mem s0) =? sec m) with false by lia. cbn. lia.
      - injection Y as <- <- <-. cbn [racing taking]. split; [exact I|]. cbn. lia.
      - destruct (nsec (mem s0) =? nsec old); injection Y as <- <- <-; cbn [racing taking sec]; (split; [exact I|]); cbn; lia. }
    destruct A as (A1 & A2). eapply IH; [exact F2| | |exact E]; cbn [xpcs done mem].
    - now apply Forall_set.
    - rewrite count_app. destruct (taking p), (taking p'), (sec (mem s0) =? sec m), (sec m' =? sec m); cbn [Nat.add] in *; lia. }
  assert (P0 : forall k, Forall (racing m) (repeat XOut k) /\ count taking (repeat XOut k) = O) by (induction k as [|k [I1 I2]]; [split; [constructor|reflexivity]|split; [constructor; [exact I|exact I1]|exact I2]]).
  specialize (G l (xtime0 m n) s F (proj1 (P0 n))). cbn [xtime0 mem done xpcs] in G. rewrite (proj2 (P0 n)) in G. specialize (G ltac:(cbn; lia) E).
  destruct (sec (mem s) =? sec m); lia.
Qed.
Print Assumptions C174_one_winner_partial.

Definition case_run : list (nat * xact) :=
  [(0, Begin (OCAS (Instant 5 1) (Instant 6 2))); (1, Begin (OCAS (Instant 5 1) (Instant 7 3))); (2, Begin OLoad);
   (1, Go); (0, Go); (2, Go); (1, Go); (2, Go)]%nat.
Example C174_nonvacuous : Forall typed_act case_run /\ Forall (from (Instant 5 1)) case_run /\ Forall no_add case_run /\
  exists s, xrun (xtime0 (Instant 5 1) 3) case_run = Some s /\ mem s = Instant 7 3 /\ count won (done s) = 1%nat /\
  map res_ (done s) = [RBool false; RBool true; RTime (Instant 7 3)].
Proof.
  split; [repeat constructor|]. split; [unfold case_run, from; repeat constructor; cbn; lia|]. split; [repeat constructor|].
  eexists. split; [vm_compute; reflexivity|]. split; [reflexivity|]. split; reflexivity.
Qed.
