(** Proofs about the pool. *)
From Coq Require Import ZifyBool ZifyNat Permutation.
From Verif Require Import Go GoFacts PoolModel PoolSpec.

Lemma objects_app a b : objects (a ++ b) = objects a ++ objects b.
Proof. apply flat_map_app. Qed.
Lemma objects_none n : objects (repeat None n) = [].
Proof. induction n; cbn; auto. Qed.
Lemma objects_rev l : Permutation (objects (rev l)) (objects l).
Proof.
  induction l as [|[x|] r IH]; cbn; auto.
  - rewrite objects_app. cbn. rewrite Permutation_app_comm. cbn. now constructor.
  - rewrite objects_app. cbn. now rewrite app_nil_r.
Qed.
Lemma objects_len l : zlen (objects l) <= zlen l.
Proof.
  induction l as [|[x|] r IH].
  - cbn; lia.
  - change (objects (Some x :: r)) with (x :: objects r). rewrite !zlen_cons. lia.
  - change (objects (None :: r)) with (objects r). rewrite !zlen_cons. lia.
Qed.

Lemma nodup_l {A} (a b : list A) : NoDup (a ++ b) -> NoDup a.
Proof.
  induction a as [|x r IH]; cbn; intros H; [constructor|]. inversion H; subst. constructor; auto.
  intros Hi; apply H2, in_app_iff; auto.
Qed.

Record inv (m : Z) (p : pool) : Prop := {
  inv_max : max p = m;
  inv_nodup : NoDup (live p);
  inv_fresh : forall x, In x (live p ++ closed p) -> x < fresh p;
  inv_len : zlen (live p) <= count p + swept p;
  inv_count : count p <= Z.max m 0;
  inv_swept : 0 <= swept p }.

Lemma zlen_perm {A} (a b : list A) : Permutation a b -> zlen a = zlen b.
Proof. intros H. unfold zlen. now rewrite (Permutation_length H). Qed.

Lemma remove_perm x l : NoDup l -> In x l -> Permutation l (x :: remove Z.eq_dec x l).
Proof.
  induction l as [|y r IH]; intros Hn Hi; [easy|]. inversion Hn; subst. cbn [remove].
  destruct (Z.eq_dec x y) as [->|Hxy].
  - rewrite notin_remove; auto.
  - destruct Hi as [->|Hi]; [congruence|]. rewrite perm_swap. constructor. auto.
Qed.

(** Popping takes the first slot. *)
Lemma pop_perm p x q : popHead p = (x, q) ->
  Permutation (stored p) (option_list x ++ stored q) /\ held q = held p /\ closed q = closed p /\
  max q = max p /\ count q = count p /\ fresh q = fresh p /\ swept q = swept p /\ stopped q = stopped p.
Proof.
  unfold popHead, stored. destruct p as [m c h i v st f he cl sw]; cbn [hot idle victim].
  destruct h as [y|]; [|destruct i as [|y r]; [destruct v as [|y r]|]]; intros E; inversion E; subst; clear E;
    cbn [option_list objects flat_map app hot idle victim held closed max count fresh swept stopped]; repeat split; auto; destruct x; cbn; auto.
Qed.

Lemma perm_mid {A} (a b c : list A) : Permutation (a ++ b ++ c) (b ++ a ++ c).
Proof. rewrite !app_assoc. apply Permutation_app_tail, Permutation_app_comm. Qed.

Lemma inv_perm m p q : inv m p -> max q = max p -> Permutation (live p ++ closed p) (live q ++ closed q) ->
  NoDup (live q) -> count q + swept q - zlen (live q) = count p + swept p - zlen (live p) ->
  count q <= count p -> swept p <= swept q -> fresh p <= fresh q -> inv m q.
Proof.
  intros [I1 I2 I3 I4 I5 I6] H1 H2 H3 H4 H5 H6 H7. constructor; try lia; auto.
  intros x Hx. apply (Permutation_in x (Permutation_sym H2)) in Hx. apply I3 in Hx. lia.
Qed.

Lemma get_cases p saw : let (x, q) := Get p saw in
  match x with
  | Some o =>
      (o = fresh p /\ fresh q = fresh p + 1 /\ count q = count p + 1 /\ count q <= max p /\ Permutation (stored p) (stored q) /\ saw = false
       \/ fresh q = fresh p /\ count q = count p /\ Permutation (stored p) (o :: stored q))
      /\ held q = o :: held p
  | None => held q = held p /\ fresh q = fresh p /\ count q = count p /\ Permutation (stored p) (stored q)
            /\ (saw = true \/ max p <= count p)
  end /\ max q = max p /\ closed q = closed p /\ swept q = swept p /\ stopped q = stopped p.
Proof.
  unfold Get. destruct saw; [cbn; auto 12|].
  destruct (popHead p) as [x q] eqn:E. apply pop_perm in E as (P & H1 & H2 & H3 & H4 & H5 & H6 & H7).
  destruct x as [o|].
  - cbn. repeat split; auto. now rewrite H1.
  - unfold makeNew. destruct (Z.leb_spec (count q + 1) (max q)); cbn [held fresh count max closed swept stopped].
    + repeat split; auto; [|now rewrite H1]. left. cbn [option_list app] in P.
      unfold stored in *; cbn [hot idle victim option_list]. repeat split; auto; lia.
    + cbn [option_list app] in P. repeat split; auto. right; lia.
Qed.

Lemma inv_step m p e q : inv m p -> allowed p e -> step p e = Ok q -> inv m q.
Proof.
  intros I [_ A] E. destruct e as [saw|saw x| |saw]; cbn [step] in E.
  - inversion E; subst; clear E. pose proof (get_cases p saw) as G. destruct (Get p saw) as [x q]; cbn [snd].
    destruct G as (G & G1 & G2 & G3 & G4). destruct I as [I1 I2 I3 I4 I5 I6]. destruct x as [o|].
    + destruct G as [[(Go1 & Go2 & Go3 & Go4 & Go5 & Go6)|(Go1 & Go2 & Go3)] Gh].
      * assert (P : Permutation (live q) (o :: live p)).
        { unfold live. rewrite Gh. cbn. constructor. apply Permutation_app_head. now symmetry. }
        constructor; try lia.
        -- apply (Permutation_NoDup (Permutation_sym P)). constructor; auto.
           intros Hi. specialize (I3 o). rewrite in_app_iff in I3. specialize (I3 (or_introl Hi)). lia.
        -- intros x Hx. apply in_app_iff in Hx. destruct Hx as [Hx|Hx].
           ++ apply (Permutation_in x P) in Hx. destruct Hx as [<-|Hx]; [lia|].
              specialize (I3 x); rewrite in_app_iff in I3. specialize (I3 (or_introl Hx)). lia.
           ++ rewrite G2 in Hx. specialize (I3 x); rewrite in_app_iff in I3. specialize (I3 (or_intror Hx)). lia.
        -- rewrite (zlen_perm _ _ P), zlen_cons. lia.
      * assert (P : Permutation (live p) (live q)).
        { unfold live. rewrite Gh, Go3. cbn. symmetry. apply Permutation_middle. }
        apply (inv_perm m p q); try lia; [constructor; auto| | |].
        -- rewrite G2. now apply Permutation_app_tail.
        -- apply (Permutation_NoDup P I2).
        -- rewrite (zlen_perm _ _ P). lia.
    + destruct G as (Gh & Gf & Gc & Gp & _).
      assert (P : Permutation (live p) (live q)).
      { unfold live. rewrite Gh. now apply Permutation_app_head. }
      apply (inv_perm m p q); try lia; [constructor; auto| | |].
      -- rewrite G2. now apply Permutation_app_tail.
      -- apply (Permutation_NoDup P I2).
      -- rewrite (zlen_perm _ _ P). lia.
  - inversion E; subst; clear E. specialize (A saw x eq_refl).
    pose proof (inv_nodup m p I) as Hn. unfold live in Hn.
    assert (Hh : NoDup (held p)) by (apply nodup_l in Hn; auto).
    pose proof (remove_perm x (held p) Hh A) as R. unfold Put. destruct saw.
    + destruct I as [I1 I2 I3 I4 I5 I6]. unfold live, stored in *.
      constructor; cbn [max count hot idle victim held closed fresh swept option_list]; unfold live, stored;
        cbn [max count hot idle victim held closed fresh swept option_list]; auto.
      * rewrite R in I2. now inversion I2.
      * intros y Hy. apply I3. rewrite R. rewrite <- app_assoc in *. cbn [app].
        rewrite !in_app_iff in Hy. cbn [In]. rewrite !in_app_iff. cbn [In] in Hy. tauto.
      * rewrite (zlen_perm _ _ (Permutation_app_tail _ R)) in I4. cbn [app] in I4. rewrite zlen_cons in I4. lia.
    + assert (P : Permutation (live p) (live (Put p false x))).
      { unfold Put, live, stored. destruct (hot p); cbn [held hot idle victim option_list objects flat_map app].
        - rewrite R at 1. cbn [app].
          eapply perm_trans; [apply perm_skip; symmetry; apply Permutation_middle|].
          eapply perm_trans; [apply perm_swap|].
          eapply perm_trans; [apply perm_skip; apply Permutation_middle|]. apply Permutation_middle.
        - rewrite R at 1. cbn [app]. rewrite <- Permutation_middle. auto. }
      assert (F : count (Put p false x) = count p /\ swept (Put p false x) = swept p /\ max (Put p false x) = max p
        /\ fresh (Put p false x) = fresh p /\ closed (Put p false x) = closed p).
      { unfold Put. destruct (hot p); auto. }
      unfold Put in P, F. destruct (hot p);
      (eapply inv_perm; [exact I|try (apply F)|apply Permutation_app; [exact P|now rewrite (proj2 (proj2 (proj2 (proj2 F))))]
        |apply (Permutation_NoDup P Hn)|rewrite <- (zlen_perm _ _ P)|cbn|cbn|cbn]; cbn [count swept fresh]; lia).
  - unfold Close in E. destruct (stopped p); [discriminate|]. inversion E; subst; clear E.
    destruct I as [I1 I2 I3 I4 I5 I6]. constructor; cbn [max count fresh swept]; auto.
    intros x Hx. apply I3. unfold live, stored in *. cbn [held hot idle victim closed] in Hx.
    rewrite !in_app_iff in *. 
    destruct Hx as [Hx|[Hx|Hx]]; auto. apply (Permutation_in x (objects_rev _)) in Hx. tauto.
  - inversion E; subst; clear E. unfold Clean. destruct saw; auto.
    destruct I as [I1 I2 I3 I4 I5 I6]. unfold live, stored in *.
    pose proof (objects_len (victim p)) as L.
    assert (N : objects (empty_slots (max p)) = []) by apply objects_none.
    constructor; unfold live, stored; cbn [max count hot idle victim held closed fresh swept]; auto; rewrite ?N; cbn [app].
    + rewrite !app_assoc in *. apply nodup_l in I2. exact I2.
    + intros x Hx. apply I3. rewrite !in_app_iff in *.
      destruct Hx as [Hx|[Hx|Hx]]; try tauto. apply (Permutation_in x (objects_rev _)) in Hx. tauto.
    + rewrite !zlen_app in *. lia.
    + pose proof (zlen_nonneg (victim p)). lia.
    + lia.
Qed.

Lemma history_inv m es p : history m es p -> inv m p.
Proof.
  induction 1; [|eapply inv_step; eauto].
  constructor; cbn [max count fresh swept Init]; try lia; auto.
  - unfold live, stored, Init; cbn [held hot idle victim option_list app]. unfold empty_slots; rewrite objects_none. constructor.
  - unfold live, stored, Init; cbn [held hot idle victim option_list app closed]. unfold empty_slots; rewrite objects_none. easy.
  - unfold live, stored, Init; cbn [held hot idle victim option_list app closed]. unfold empty_slots; rewrite objects_none.
    change (zlen _) with 0. lia.
Qed.
