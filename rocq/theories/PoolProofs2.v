(** More proofs about the pool: slots, limits, closing. *)
From Coq Require Import ZifyBool ZifyNat Permutation.
From Verif Require Import Go GoFacts PoolModel PoolSpec PoolProofs.

(** * Running pools count exactly *)
Lemma run_count m es p : history m es p -> stopped p = false -> zlen (live p) = count p + swept p.
Proof.
  induction 1 as [|es p e q Hh IH [Hs A] E]; intros St.
  - unfold live, stored, Init; cbn [held hot idle victim option_list app count swept]. unfold empty_slots; rewrite objects_none.
    reflexivity.
  - pose proof (history_inv _ _ _ Hh) as I. destruct e as [saw|saw x| |saw]; cbn [step] in E.
    + inversion E; subst; clear E. pose proof (get_cases p saw) as G. destruct (Get p saw) as [x q]; cbn [snd] in *.
      destruct G as (G & G1 & G2 & G3 & G4). specialize (IH ltac:(congruence)). unfold live in *. rewrite zlen_app in *.
      destruct x as [o|].
      * destruct G as [[(Go1 & Go2 & Go3 & Go4 & Go5 & Go6)|(Go1 & Go2 & Go3)] Gh]; rewrite Gh, zlen_cons.
        -- rewrite <- (zlen_perm _ _ Go5). lia.
        -- apply zlen_perm in Go3. rewrite zlen_cons in Go3. lia.
      * destruct G as (Gh & Gf & Gc & Gp & _). rewrite Gh, <- (zlen_perm _ _ Gp). lia.
    + assert (saw = false) as ->.
      { destruct saw; auto. specialize (Hs true eq_refl eq_refl). inversion E; subst. cbn in St. congruence. }
      assert (S0 : stopped p = false) by (inversion E; subst; unfold Put in St; destruct (hot p); exact St).
      specialize (IH S0). specialize (A false x eq_refl).
      assert (Hh' : NoDup (held p)) by (pose proof (inv_nodup m p I) as Hn; unfold live in Hn; apply nodup_l in Hn; auto).
      pose proof (zlen_perm _ _ (remove_perm x (held p) Hh' A)) as R. rewrite zlen_cons in R.
      inversion E; subst; clear E. unfold Put, live, stored in *. destruct (hot p) eqn:Ho;
        cbn [held hot idle victim option_list count swept] in *; rewrite ?zlen_app in *.
      * change (objects (Some x :: idle p)) with (x :: objects (idle p)). rewrite (zlen_cons x). lia.
      * rewrite (zlen_cons x []). change (zlen (@nil Z)) with 0 in *. lia.
    + unfold Close in E. destruct (stopped p) eqn:S0; [discriminate|]. inversion E; subst. discriminate.
    + inversion E; subst; clear E. unfold Clean in *. destruct saw; [auto|]. cbn [stopped] in St. specialize (IH St).
      unfold live, stored in *; cbn [held hot idle victim count swept].
      replace (objects (empty_slots (max p))) with (@nil Z) by (symmetry; apply objects_none).
      rewrite !zlen_app in *. change (zlen (@nil Z)) with 0. lia.
Qed.

(** * When no empty slot is ever swept *)
Definition full (l : list (option Z)) : Prop := Forall (fun o => o <> None) l.
Lemma full_len l : full l -> zlen (objects l) = zlen l.
Proof.
  induction 1 as [|[x|] r Hx Hr IH]; [reflexivity| |congruence].
  change (objects (Some x :: r)) with (x :: objects r). rewrite !zlen_cons. lia.
Qed.

Lemma pop_full p x q : popHead p = (x, q) -> full (idle p) -> full (victim p) ->
  full (idle q) /\ full (victim q) /\ (x = None -> stored p = []).
Proof.
  unfold popHead, full, stored. destruct p as [m c h i v st f he cl sw]; cbn [hot idle victim].
  destruct h as [y|]; [|destruct i as [|y r]; [destruct v as [|y r]|]]; intros E Hi Hv; inversion E; subst; clear E;
   cbn [hot idle victim]; repeat split; auto; try congruence;
   try (inversion Hi; subst; now auto); try (inversion Hv; subst; now auto).
Qed.

Lemma small_full m es p : m < 4 -> history m es p -> full (idle p) /\ full (victim p) /\ swept p = 0.
Proof.
  intros Hm. assert (Em : empty_slots m = []).
  { unfold empty_slots. replace (Z.to_nat (Z.quot m 4)) with 0%nat; auto.
    destruct (Z.le_gt_cases 0 m); [rewrite Z.quot_small by lia; reflexivity|].
    replace m with (- (- m)) by lia. rewrite Z.quot_opp_l by lia.
    rewrite Z.quot_div_nonneg by lia. pose proof (Z.div_pos (- m) 4). lia. }
  induction 1 as [|es p e q Hh IH A E].
  - unfold Init; cbn [idle victim swept]. rewrite Em. repeat split; constructor.
  - destruct IH as (Fi & Fv & S0). destruct e as [saw|saw x| |saw]; cbn [step] in E; inversion E; subst; clear E.
    + unfold Get. destruct saw; [auto|]. destruct (popHead p) as [x q] eqn:Ep.
      pose proof (pop_perm _ _ _ Ep) as (_ & _ & _ & _ & _ & _ & Sq & _).
      destruct (pop_full _ _ _ Ep Fi Fv) as (F1 & F2 & _). destruct x; cbn [snd idle victim swept]; [repeat split; auto; congruence|].
      unfold makeNew. destruct (_ <=? _); cbn [snd idle victim swept]; repeat split; auto; congruence.
    + unfold Put. destruct saw, (hot p); cbn [idle victim swept]; repeat split; auto. constructor; auto; congruence.
    + unfold Close in H0. destruct (stopped p); inversion H0; subst. auto.
    + unfold Clean. destruct saw; auto. cbn [idle victim swept].
      pose proof (history_inv _ _ _ Hh) as I. rewrite (inv_max _ _ I), Em. rewrite (full_len _ Fv).
      repeat split; auto; [constructor|lia].
Qed.

Definition no_clean (es : list event) : Prop := Forall (fun e => forall b, e <> EClean b) es.
Lemma no_clean_swept m es p : history m es p -> no_clean es -> swept p = 0.
Proof.
  induction 1 as [|es p e q Hh IH A E]; intros N; auto. apply Forall_app in N as [N N2]. specialize (IH N).
  inversion N2; subst. destruct e as [saw|saw x| |saw]; cbn [step] in E; inversion E; subst; clear E.
  - pose proof (get_cases p saw) as G. destruct (Get p saw). cbn [snd]. destruct G as (_ & _ & _ & G & _). lia.
  - unfold Put. destruct saw, (hot p); auto.
  - unfold Close in H0. destruct (stopped p); inversion H0; subst; auto.
  - now destruct (H1 saw).
Qed.

(** * Sweeping empty slots makes room *)
Definition hollow (p : pool) : Prop := hot p = None /\ objects (idle p) = [] /\ objects (victim p) = [] /\ stopped p = false.

Lemma objects_nil_cons x r : objects (x :: r) = [] -> x = None /\ objects r = [].
Proof. destruct x; cbn; [discriminate|auto]. Qed.

Lemma get_hollow p : hollow p -> count p < max p ->
  exists q, Get p false = (Some (fresh p), q) /\ hollow q /\ count q = count p + 1 /\ max q = max p /\
    zlen (held q) = zlen (held p) + 1.
Proof.
  intros (H1 & H2 & H3 & H4) Hc. destruct p as [m c h i v st f he cl sw]; cbn [hot idle victim stopped max count held fresh] in *; subst h st.
  unfold Get, popHead; cbn [hot idle victim].
  destruct i as [|y r]; [destruct v as [|y r]|].
  - unfold makeNew; cbn [count max]. replace (c + 1 <=? m) with true by lia. eexists. split; [reflexivity|].
    unfold hollow; cbn [hot idle victim stopped max count held fresh]. rewrite zlen_cons. repeat split; auto; lia.
  - apply objects_nil_cons in H3 as [-> H3].
    unfold makeNew; cbn [count max]. replace (c + 1 <=? m) with true by lia. eexists. split; [reflexivity|].
    unfold hollow; cbn [hot idle victim stopped max count held fresh]. rewrite zlen_cons. repeat split; auto; lia.
  - apply objects_nil_cons in H2 as [-> H2].
    unfold makeNew; cbn [count max]. replace (c + 1 <=? m) with true by lia. eexists. split; [reflexivity|].
    unfold hollow; cbn [hot idle victim stopped max count held fresh]. rewrite zlen_cons. repeat split; auto; lia.
Qed.

Lemma gets m n : forall es p, history m es p -> hollow p -> count p + Z.of_nat n <= max p ->
  exists es' q, history m es' q /\ zlen (held q) = zlen (held p) + Z.of_nat n.
Proof.
  induction n as [|n IH]; intros es p Hh Hp Hc.
  - exists es, p. split; auto. lia.
  - destruct (get_hollow p Hp ltac:(lia)) as (q & E & Hq & Cq & Mq & Lq).
    assert (Hq' : history m (es ++ [EGet false]) q).
    { econstructor; [exact Hh| |cbn [step]; now rewrite E]. split; [|discriminate].
      intros b; cbn; congruence. }
    destruct (IH _ q Hq' Hq ltac:(lia)) as (es' & q' & H' & L').
    exists es', q'. split; auto. lia.
Qed.

Lemma cleans m k : 4 <= m -> exists es p, history m es p /\ hollow p /\ max p = m /\ held p = [] /\
  zlen (victim p) = m / 4 /\ count p = - (Z.of_nat k * (m / 4)).
Proof.
  intros Hm. assert (Hq : Z.quot m 4 = m / 4) by (apply Z.quot_div_nonneg; lia).
  assert (He : zlen (empty_slots m) = m / 4).
  { unfold empty_slots, zlen. rewrite repeat_length, Hq. pose proof (Z.div_pos m 4). lia. }
  assert (Hn : objects (empty_slots m) = []) by apply objects_none.
  assert (A : forall p, allowed p (EClean false)) by (intros p; split; [intros b; cbn; congruence|discriminate]).
  assert (S : exists es p, history m es p /\ hollow p /\ max p = m /\ held p = [] /\ zlen (idle p) = m / 4 /\
    zlen (victim p) = m / 4 /\ count p = - (Z.of_nat k * (m / 4))).
  { induction k as [|k (es & p & Hh & Hp & Mp & Ep & Li & Lv & Cp)].
    - exists ([] ++ [EClean false]), (Clean (Init m) false). split; [econstructor; [constructor|auto|reflexivity]|].
      unfold Clean, hollow, Init; cbn [hot idle victim stopped max count held]. rewrite Hn, He.
      change (zlen (@nil (option Z))) with 0. repeat split; auto; lia.
    - exists (es ++ [EClean false]), (Clean p false). split; [econstructor; [exact Hh|auto|reflexivity]|].
      destruct Hp as (P1 & P2 & P3 & P4).
      unfold Clean, hollow; cbn [hot idle victim stopped max count held]. rewrite Mp, Hn, He, Lv, Cp, P2.
      repeat split; auto; lia. }
  destruct S as (es & p & ? & ? & ? & ? & ? & ? & ?). exists es, p. auto 10.
Qed.

(** * Closing *)
Record cinv (p : pool) : Prop := {
  c_nodup : NoDup (closed p);
  c_disj : forall x, In x (closed p) -> ~ In x (held p ++ option_list (hot p) ++ objects (victim p));
  c_idle : stopped p = false -> forall x, In x (closed p) -> ~ In x (objects (idle p)) }.

Lemma race_free_history m es p : race_free m es p -> history m es p.
Proof. induction 1; econstructor; eauto. Qed.

Lemma nodup_app {A} (a b : list A) : NoDup a -> NoDup b -> (forall x, In x a -> ~ In x b) -> NoDup (a ++ b).
Proof.
  induction a as [|x r IH]; cbn; intros Ha Hb Hd; auto. inversion Ha; subst. constructor.
  - rewrite in_app_iff. intros [?|?]; [auto|]. apply (Hd x); auto.
  - apply IH; auto.
Qed.
Lemma nodup_r {A} (a b : list A) : NoDup (a ++ b) -> NoDup b.
Proof. induction a; cbn; auto. intros H; inversion H; auto. Qed.
Lemma nodup_disj {A} (a b : list A) x : NoDup (a ++ b) -> In x a -> ~ In x b.
Proof.
  induction a as [|y r IH]; intros H Hi Hb; [easy|]. cbn in H. inversion H; subst. destruct Hi as [->|Hi].
  - apply H2, in_app_iff; auto.
  - eapply IH; eauto.
Qed.

Lemma get_closed m p o q : inv m p -> Get p false = (Some o, q) -> forall x, In x (live q) -> In x (live p) \/ x = fresh p.
Proof.
  intros I E x Hx. pose proof (get_cases p false) as G. rewrite E in G. destruct G as ([[G|G] Gh] & _).
  - destruct G as (-> & _ & _ & _ & P & _). unfold live in *. rewrite Gh in Hx. cbn [app In] in Hx.
    rewrite in_app_iff in *. destruct Hx as [<-|[?|Hx]]; auto.
    apply (Permutation_in x (Permutation_sym P)) in Hx. auto.
  - destruct G as (_ & _ & P). unfold live in *. rewrite Gh in Hx. cbn [app In] in Hx.
    rewrite in_app_iff in *. left. destruct Hx as [<-|[?|Hx]]; auto.
    + right. apply (Permutation_in _ (Permutation_sym P)). cbn; auto.
    + right. apply (Permutation_in _ (Permutation_sym P)). cbn; auto.
Qed.

Lemma live_split p x : In x (live p) <-> In x (held p ++ option_list (hot p) ++ objects (victim p)) \/ In x (objects (idle p)).
Proof. unfold live, stored. rewrite !in_app_iff. tauto. Qed.

Lemma closing m es p : race_free m es p -> cinv p.
Proof.
  induction 1 as [|es p e q Hr IH [_ A] Pr E].
  - constructor; cbn; [constructor|easy|easy].
  - pose proof (history_inv _ _ _ (race_free_history _ _ _ Hr)) as I. destruct IH as [C1 C2 C3].
    destruct e as [saw|saw x| |saw]; cbn [step] in E.
    + specialize (Pr saw eq_refl). subst saw. inversion E; subst; clear E.
      destruct (stopped p) eqn:St; [cbn; constructor; auto; congruence|]. specialize (C3 eq_refl).
      destruct (Get p false) as [[o|] q] eqn:Eg; cbn [snd].
      * pose proof (get_cases p false) as G. rewrite Eg in G. destruct G as (_ & _ & G2 & _ & G4).
        assert (D : forall x, In x (closed q) -> ~ In x (live q)).
        { intros x Hx Hl. rewrite G2 in Hx. destruct (get_closed m p o q I Eg x Hl) as [Hl'| ->].
          - apply live_split in Hl' as [Hl'|Hl']; [eapply C2|eapply C3]; eauto.
          - pose proof (inv_fresh _ _ I (fresh p)) as F. rewrite in_app_iff in F. specialize (F (or_intror Hx)). lia. }
        constructor; [congruence| |]; intros; intros Hi; eapply D; eauto; apply live_split; auto.
      * pose proof (get_cases p false) as G. rewrite Eg in G. destruct G as ((Gh & _ & _ & P & _) & _ & G2 & _ & G4).
        assert (D : forall x, In x (closed q) -> ~ In x (live q)).
        { intros x Hx Hl. rewrite G2 in Hx. assert (Hl' : In x (live p)).
          { unfold live in *. rewrite Gh in Hl. rewrite in_app_iff in *. destruct Hl as [?|Hl]; auto. right.
            apply (Permutation_in _ (Permutation_sym P)); auto. }
          apply live_split in Hl' as [Hl'|Hl']; [eapply C2|eapply C3]; eauto. }
        constructor; [congruence| |]; intros; intros Hi; eapply D; eauto; apply live_split; auto.
    + specialize (Pr saw eq_refl). subst saw. specialize (A _ x eq_refl). inversion E; subst; clear E.
      pose proof (inv_nodup _ _ I) as Hn. unfold live in Hn.
      assert (Hx : ~ In x (closed p)) by (intros Hx; apply (C2 x Hx), in_app_iff; auto).
      unfold Put. destruct (stopped p) eqn:St.
      * constructor; cbn [closed held hot victim idle stopped]; [| |congruence].
        -- apply nodup_app; auto; [constructor; [easy|constructor]|]. intros y Hy [<-|[]]. auto.
        -- intros y Hy. apply in_app_iff in Hy. rewrite !in_app_iff. cbn [In] in Hy. destruct Hy as [Hy|[<-|[]]].
           ++ specialize (C2 y Hy). rewrite !in_app_iff in C2. intros [Hi|Hi]; [apply in_remove in Hi|]; tauto.
           ++ intros [Hi|Hi]; [now apply remove_In in Hi|].
              apply (nodup_disj _ _ x Hn A). unfold stored. rewrite !in_app_iff. tauto.
      * specialize (C3 eq_refl). destruct (hot p) eqn:Ho.
        -- constructor; cbn [closed held hot victim idle stopped]; auto.
           ++ intros y Hy. specialize (C2 y Hy). cbn [option_list] in *. rewrite !in_app_iff in *. intros [Hi|Hi]; [apply in_remove in Hi|]; tauto.
           ++ intros _ y Hy Hi. change (objects (Some x :: idle p)) with (x :: objects (idle p)) in Hi.
              destruct Hi as [<-|Hi]; [auto|]. eapply C3; eauto.
        -- constructor; cbn [closed held hot victim idle stopped]; auto.
           intros y Hy. specialize (C2 y Hy). cbn [option_list] in *. rewrite !in_app_iff in *. cbn [In] in *.
           intros [Hi|[[<-|[]]|Hi]]; [apply in_remove in Hi| |]; tauto.
    + unfold Close in E. destruct (stopped p) eqn:St; [discriminate|]. inversion E; subst; clear E. specialize (C3 eq_refl).
      pose proof (inv_nodup _ _ I) as Hn. unfold live, stored in Hn.
      assert (Hd : forall x, In x (objects (idle p)) -> ~ In x (held p ++ option_list (hot p) ++ objects (victim p))).
      { assert (P : NoDup (objects (idle p) ++ (held p ++ option_list (hot p) ++ objects (victim p)))).
        { eapply Permutation_NoDup; [|exact Hn]. rewrite (perm_mid (option_list _)). apply perm_mid. }
        intros x Hx. apply (nodup_disj _ _ x P Hx). }
      constructor; cbn [closed held hot victim idle stopped]; [| |congruence].
      * apply nodup_app; auto.
        -- apply (Permutation_NoDup (Permutation_sym (objects_rev _))). now apply nodup_r, nodup_r, nodup_l in Hn.
        -- intros x Hx Hi. apply (Permutation_in _ (objects_rev _)) in Hi. eapply C3; eauto.
      * intros x Hx. apply in_app_iff in Hx as [Hx|Hx]; auto. apply (Permutation_in _ (objects_rev _)) in Hx. auto.
    + specialize (Pr saw eq_refl). subst saw. inversion E; subst; clear E. unfold Clean.
      destruct (stopped p) eqn:St; [constructor; auto; congruence|]. specialize (C3 eq_refl).
      pose proof (inv_nodup _ _ I) as Hn. unfold live, stored in Hn.
      assert (Hd : forall x, In x (objects (victim p)) -> ~ In x (held p ++ option_list (hot p) ++ objects (idle p))).
      { assert (P : NoDup (objects (victim p) ++ (held p ++ option_list (hot p) ++ objects (idle p)))).
        { eapply Permutation_NoDup; [|exact Hn]. rewrite (Permutation_app_comm (objects (victim p))). now rewrite <- !app_assoc. }
        intros x Hx. apply (nodup_disj _ _ x P Hx). }
      constructor; cbn [closed held hot victim idle stopped].
      * apply nodup_app; auto.
        -- apply (Permutation_NoDup (Permutation_sym (objects_rev _))). now apply nodup_r, nodup_r, nodup_r in Hn.
        -- intros x Hx Hi. apply (Permutation_in _ (objects_rev _)) in Hi. apply (C2 x Hx). rewrite !in_app_iff. auto.
      * intros x Hx. apply in_app_iff in Hx as [Hx|Hx].
        -- specialize (C2 x Hx). specialize (C3 x Hx). rewrite !in_app_iff in *. tauto.
        -- apply (Permutation_in _ (objects_rev _)) in Hx. auto.
      * intros _ x _. replace (objects (empty_slots (max p))) with (@nil Z) by (symmetry; apply objects_none). easy.
Qed.
