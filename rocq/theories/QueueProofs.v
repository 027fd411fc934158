(** The queue invariant, for every history. *)
From Coq Require Import Permutation ZifyBool ZifyNat.
From Verif Require Import Go GoFacts HeapModel HeapSpec HeapProofs TimingModel TimingSpec TimingProofs TimingProofs2 QueueModel QueueSpec.
Ltac Zify.zify_post_hook ::= Z.div_mod_to_equations.

Definition onq (s : status) : Prop := s = Waiting \/ s = Deleted \/ s = ModifiedEarlier \/ s = ModifiedLater.
Definition offq (s : status) : Prop := s = Unset \/ s = Removed.

Definition st (m : Z -> timer) (id : Z) : status := t_status (m id).
Definition del_ (m : Z -> timer) (b : bucket) : bool := match st m (b_timer b) with Deleted => true | _ => false end.

Record QI (E : Z -> Prop) (g : timing) : Prop := {
  q_ord : heap_ordered (g_heap g);
  q_nd : NoDup (ids g);
  q_on : forall id, In id (ids g) -> onq (st (g_timers g) id) /\ t_on (g_timers g id) = true;
  q_off : forall id, ~ E id -> ~ In id (ids g) -> offq (st (g_timers g) id) /\ t_on (g_timers g id) = false;
  q_t0 : g_t0 g = first_when (g_heap g);
  q_count : g_count g = zlen (g_heap g);
  q_del : g_del g = zlen (filter (del_ (g_timers g)) (g_heap g)) }.

Definition none : Z -> Prop := fun _ => False.

(** the first key is the least *)
Lemma first_perm l l' : heap_ordered l -> heap_ordered l' -> (forall x, In x l <-> In x l') -> first_when l = first_when l'.
Proof.
  intros H H' P. pose proof (heap_first _ H) as F. pose proof (heap_first _ H') as F'.
  destruct l as [|a l], l' as [|b l']; cbn [first_when]; auto.
  - exfalso. destruct (proj2 (P b)). now left.
  - exfalso. destruct (proj1 (P a)). now left.
  - assert (b_when a <= b_when b) by (apply (F a b); [reflexivity|apply P; now left]).
    assert (b_when b <= b_when a) by (apply (F' b a); [reflexivity|apply P; now left]). lia.
Qed.

Lemma first_del a l b l' : heap_ordered (a :: l) -> heap_ordered l' -> Permutation (a :: l) (b :: l') -> a <> b ->
  first_when l' = b_when a.
Proof.
  intros H H' P N. pose proof (heap_first _ H) as F. pose proof (heap_first _ H') as F'.
  assert (Ia : In a l').
  { assert (X : In a (b :: l')) by (eapply Permutation_in; [exact P|now left]). destruct X; [congruence|auto]. }
  destruct l' as [|c l']; [destruct Ia|]. cbn [first_when].
  assert (b_when c <= b_when a) by (now apply (F' c a)).
  assert (b_when a <= b_when c).
  { apply (F a c); [reflexivity|]. eapply Permutation_in; [apply Permutation_sym; exact P|]. right. now left. }
  lia.
Qed.

Lemma filter_perm {A} (f : A -> bool) l l' : Permutation l l' -> zlen (filter f l) = zlen (filter f l').
Proof.
  intros P. unfold zlen. f_equal. induction P as [|x l l' P IH|x y l|l l' l'' P IH P' IH']; cbn [filter]; auto.
  - destruct (f x); cbn [length]; congruence.
  - destruct (f x), (f y); reflexivity.
  - congruence.
Qed.

Lemma filter_del m m' l : (forall id, In id (map b_timer l) -> st m' id = st m id) -> filter (del_ m') l = filter (del_ m) l.
Proof.
  intros H. apply filter_ext_in. intros b Hb. unfold del_. rewrite H; auto. now apply in_map.
Qed.

(** one entry leaves the queue *)
Lemma QI_remove E g b h' g' : QI E g -> Permutation (g_heap g) (b :: h') -> heap_ordered h' ->
  g_heap g' = h' ->
  (forall k, k <> b_timer b -> g_timers g' k = g_timers g k) ->
  (E (b_timer b) \/ offq (st (g_timers g') (b_timer b)) /\ t_on (g_timers g' (b_timer b)) = false) ->
  g_t0 g' = first_when h' -> g_count g' = g_count g - 1 ->
  g_del g' = g_del g - (if del_ (g_timers g) b then 1 else 0) ->
  QI E g' /\ ~ In (b_timer b) (ids g').
Proof.
  intros [Q1 Q2 Q3 Q4 Q5 Q6 Q7] P O Hh Hk Hb Ht Hc Hd.
  assert (Pi : Permutation (ids g) (b_timer b :: ids g')).
  { unfold ids. rewrite Hh. change (b_timer b :: map b_timer h') with (map b_timer (b :: h')). now apply Permutation_map. }
  assert (Nd : NoDup (b_timer b :: ids g')) by (eapply Permutation_NoDup; eauto).
  inversion Nd as [|? ? Ni Nd']; subst.
  assert (Iff : forall k, In k (ids g) <-> k = b_timer b \/ In k (ids g')).
  { intros k. split; intros H.
    - apply (Permutation_in _ Pi) in H. destruct H; auto.
    - apply (Permutation_in _ (Permutation_sym Pi)). destruct H; [left|right]; auto. }
  split; [|exact Ni]. constructor; auto.
  - intros k H. assert (k <> b_timer b) by congruence.
    unfold st. rewrite (Hk k) by auto. apply Q3. apply Iff. auto.
  - intros k He H. destruct (Z.eqb_spec k (b_timer b)) as [->|N]; [destruct Hb; [contradiction|auto]|].
    unfold st. rewrite (Hk k) by auto. apply Q4; auto. rewrite Iff. tauto.
  - rewrite Hc, Q6. unfold zlen. rewrite (Permutation_length P). cbn [length]. lia.
  - rewrite Hd, Q7, (filter_perm _ _ _ P). cbn [filter].
    rewrite (filter_del (g_timers g) (g_timers g') (g_heap g')).
    + destruct (del_ (g_timers g) b); [rewrite zlen_cons|]; lia.
    + intros k H. unfold st. rewrite Hk; auto. intros ->. contradiction.
Qed.

(** nothing about the queue changed *)
Lemma QI_same E g g' : QI E g -> g_heap g' = g_heap g -> (forall k, g_timers g' k = g_timers g k) -> g_t0 g' = g_t0 g ->
  g_count g' = g_count g -> g_del g' = g_del g -> QI E g'.
Proof.
  intros [Q1 Q2 Q3 Q4 Q5 Q6 Q7] A B C D F. constructor; unfold ids, st; rewrite ?A, ?C, ?D, ?F; auto.
  - intros k. rewrite B. apply Q3.
  - intros k. rewrite B. apply Q4.
  - rewrite Q7. f_equal. symmetry. apply filter_del. intros k _. unfold st. now rewrite B.
Qed.

(** one timer changed, in or out of the queue, keeping its kind *)
Lemma QI_timer E g id t : QI E g ->
  (In id (ids g) -> onq (t_status t) /\ t_on t = true /\ (t_status t = Deleted <-> st (g_timers g) id = Deleted)) ->
  (~ In id (ids g) -> E id \/ (offq (t_status t) /\ t_on t = false)) ->
  QI E (s_timer g id t).
Proof.
  intros [Q1 Q2 Q3 Q4 Q5 Q6 Q7] A B. constructor; auto; cbn [g_heap g_timers s_timer g_t0 g_count g_del].
  - intros k H. unfold st, tset. destruct (Z.eqb_spec k id) as [->|N]; [|now apply Q3]. destruct (A H) as (? & ? & _). auto.
  - intros k He H. unfold st, tset. destruct (Z.eqb_spec k id) as [->|N]; [|now apply Q4]. destruct (B H); [contradiction|auto].
  - rewrite Q7. f_equal. apply filter_ext_in. intros b Hb. unfold del_, st, tset.
    destruct (Z.eqb_spec (b_timer b) id) as [<-|N]; auto.
    destruct (A (in_map _ _ _ Hb)) as (_ & _ & X). unfold st in X.
    destruct (t_status t) eqn:F, (t_status (g_timers g (b_timer b))) eqn:G; auto;
      destruct X as [X1 X2]; first [now discriminate X1|now discriminate X2].
Qed.

(** a timer is added *)
Lemma QI_add_locked E g id g' : QI E g -> E id -> ~ In id (ids g) -> add_locked g id = Done g' ->
  st (g_timers g) id <> Deleted ->
  g_timers g' = tset (g_timers g) id (w_on (g_timers g id) true) /\ In id (ids g') /\
  (forall k, In k (ids g') <-> k = id \/ In k (ids g)) /\
  heap_ordered (g_heap g') /\ NoDup (ids g') /\ g_t0 g' = first_when (g_heap g') /\ g_count g' = zlen (g_heap g') /\
  g_del g' = zlen (filter (del_ (g_timers g')) (g_heap g')).
Proof.
  intros [Q1 Q2 Q3 Q4 Q5 Q6 Q7] He Hn H Hd. unfold add_locked in H.
  set (b := {| b_timer := id; b_when := t_when (g_timers g id) |}) in *. cbn [g_heap s_timer] in H.
  destruct (add_spec (g_heap g) b Q1) as (h & Eh & P & O). rewrite Eh in H. cbn [lift obind] in H.
  destruct h as [|b0 h]; [apply Permutation_length in P; discriminate|]. cbn [at_ nth_error lift obind] in H.
  assert (G : g' = s_count (if b_timer b0 =? id then s_t0 (s_heap (s_timer g id (w_on (g_timers g id) true)) (b0 :: h)) (t_when (g_timers g id))
                  else s_heap (s_timer g id (w_on (g_timers g id) true)) (b0 :: h)) (g_count g + 1)).
  { destruct (b_timer b0 =? id); cbn [g_count s_t0 s_heap s_timer] in H; congruence. }
  assert (H1 : g_heap g' = b0 :: h) by (rewrite G; destruct (b_timer b0 =? id); reflexivity).
  assert (H2 : g_timers g' = tset (g_timers g) id (w_on (g_timers g id) true)) by (rewrite G; destruct (b_timer b0 =? id); reflexivity).
  assert (H3 : g_count g' = g_count g + 1) by (rewrite G; reflexivity).
  assert (H4 : g_del g' = g_del g) by (rewrite G; destruct (b_timer b0 =? id); reflexivity).
  assert (H5 : g_t0 g' = if b_timer b0 =? id then t_when (g_timers g id) else g_t0 g) by (rewrite G; destruct (b_timer b0 =? id); reflexivity).
  clear G H.
  assert (Pi : Permutation (ids g') (id :: ids g)).
  { unfold ids. rewrite H1. change (id :: map b_timer (g_heap g)) with (map b_timer (b :: g_heap g)). now apply Permutation_map. }
  assert (Iff : forall k, In k (ids g') <-> k = id \/ In k (ids g)).
  { intros k. split; intros X.
    - apply (Permutation_in _ Pi) in X. destruct X; auto.
    - apply (Permutation_in _ (Permutation_sym Pi)). destruct X; [left|right]; auto. }
  split; [exact H2|]. split; [apply Iff; auto|]. split; [exact Iff|]. split; [now rewrite H1|]. split.
  { eapply Permutation_NoDup; [apply Permutation_sym; exact Pi|]. now constructor. }
  split; [|split].
  - rewrite H5, H1. cbn [first_when]. destruct (Z.eqb_spec (b_timer b0) id) as [Eb|N].
    + assert (X : In b0 (b :: g_heap g)) by (eapply Permutation_in; [exact P|now left]).
      destruct X as [<-|X]; [reflexivity|]. exfalso. apply Hn. rewrite <- Eb. now apply in_map.
    + rewrite Q5. destruct (g_heap g) as [|a l] eqn:El.
      { exfalso. apply N. assert (X : In b0 [b]) by (eapply Permutation_in; [exact P|now left]). destruct X as [<-|[]]. reflexivity. }
      cbn [first_when].
      enough (X : first_when (a :: l) = b_when b0) by exact X.
      eapply first_del with (b := b) (l := h); auto. intros ->. now apply N.
  - rewrite H3, Q6, H1. unfold zlen. rewrite (Permutation_length P). cbn [length]. lia.
  - rewrite H4, Q7, H2, H1, (filter_perm _ _ _ P). cbn [filter].
    assert (X : del_ (tset (g_timers g) id (w_on (g_timers g id) true)) b = false).
    { unfold del_, st. cbn [b_timer b]. rewrite tset_eq. cbn [t_status w_on]. unfold st in Hd. destruct (t_status (g_timers g id)); congruence. }
    rewrite X. f_equal. symmetry. apply filter_del. intros k Hk. unfold st. rewrite tset_neq; auto. intros ->. contradiction.
Qed.

(** ** Taking entries off *)
Lemma count_removed_fields g : g_heap (count_removed g) = g_heap g /\ g_timers (count_removed g) = g_timers g /\
  g_t0 (count_removed g) = g_t0 g /\ g_count (count_removed g) = g_count g - 1 /\ g_del (count_removed g) = g_del g.
Proof. unfold count_removed. cbn [g_count s_count]. destruct (_ =? 0); repeat split. Qed.
Lemma updt0_fields g : g_heap (updateTimer0When g) = g_heap g /\ g_timers (updateTimer0When g) = g_timers g /\
  g_t0 (updateTimer0When g) = first_when (g_heap g) /\ g_count (updateTimer0When g) = g_count g /\ g_del (updateTimer0When g) = g_del g.
Proof. unfold updateTimer0When. destruct (g_heap g) eqn:E; repeat split; auto. Qed.

Lemma del0 g b tl g' : heap_ordered (g_heap g) -> g_heap g = b :: tl -> deleteTimer0 g = Done g' ->
  Permutation (g_heap g) (b :: g_heap g') /\ heap_ordered (g_heap g') /\
  g_timers g' = tset (g_timers g) (b_timer b) (w_on (g_timers g (b_timer b)) false) /\
  g_t0 g' = first_when (g_heap g') /\ g_count g' = g_count g - 1 /\ g_del g' = g_del g.
Proof.
  intros O E H. unfold deleteTimer0 in H.
  destruct (delete0_spec (g_heap g) O) as (h' & c & D & N & P & O'); [congruence|].
  unfold at_ in H. rewrite N in H. cbn [lift obind] in H. rewrite D in H. cbn [lift obind] in H.
  assert (c = b) by (rewrite E in N; cbn in N; congruence). subst c.
  match type of H with Done (count_removed (updateTimer0When ?y)) = _ => set (x := y) in H end.
  assert (G : g' = count_removed (updateTimer0When x)) by congruence.
  destruct (count_removed_fields (updateTimer0When x)) as (A1 & A2 & A3 & A4 & A5).
  destruct (updt0_fields x) as (B1 & B2 & B3 & B4 & B5).
  rewrite G, A1, A2, A3, A4, A5, B1, B2, B3, B4, B5. unfold x. cbn [g_heap g_timers s_heap s_timer g_count g_del]. auto 10.
Qed.

Lemma deli g i b r : heap_ordered (g_heap g) -> NoDup (ids g) -> g_t0 g = first_when (g_heap g) -> nth_error (g_heap g) i = Some b -> deleteTimer g i = Done r ->
  Permutation (g_heap g) (b :: g_heap (fst r)) /\ heap_ordered (g_heap (fst r)) /\
  g_timers (fst r) = tset (g_timers g) (b_timer b) (w_on (g_timers g (b_timer b)) false) /\
  g_t0 (fst r) = first_when (g_heap (fst r)) /\ g_count (fst r) = g_count g - 1 /\ g_del (fst r) = g_del g.
Proof.
  intros O Nd T E H. unfold deleteTimer in H.
  assert (Hi : (i < length (g_heap g))%nat) by (apply nth_error_Some; congruence).
  destruct (delete_spec (g_heap g) i O Hi) as (h' & s & c & D & N & P & O' & _).
  assert (c = b) by congruence. subst c.
  unfold at_ in H. rewrite N in H. cbn [lift obind] in H. rewrite D in H. cbn [lift obind fst snd] in H.
  match type of H with context [if _ then updateTimer0When ?y else _] => set (x := y) in H end.
  assert (Hx : g_heap x = h') by reflexivity.
  assert (Hx2 : g_timers x = tset (g_timers g) (b_timer b) (w_on (g_timers g (b_timer b)) false)) by reflexivity.
  assert (Hx3 : g_count x = g_count g) by reflexivity. assert (Hx4 : g_del x = g_del g) by reflexivity.
  assert (Hx5 : g_t0 x = g_t0 g) by reflexivity.
  clearbody x. destruct (Nat.eqb_spec i 0) as [->|Ni].
  - assert (G : fst r = count_removed (updateTimer0When x)) by (inversion H; reflexivity).
    destruct (count_removed_fields (updateTimer0When x)) as (A1 & A2 & A3 & A4 & A5).
    destruct (updt0_fields x) as (B1 & B2 & B3 & B4 & B5).
    rewrite G, A1, A2, A3, A4, A5, B1, B2, B3, B4, B5, Hx, Hx2, Hx3, Hx4. auto 10.
  - assert (G : fst r = count_removed x) by (inversion H; reflexivity).
    destruct (count_removed_fields x) as (A1 & A2 & A3 & A4 & A5).
    rewrite G, A1, A2, A3, A4, A5, Hx, Hx2, Hx3, Hx4, Hx5. repeat (split; auto).
    rewrite T. destruct (g_heap g) as [|a l] eqn:El; [destruct i; discriminate|]. cbn [first_when].
    symmetry. eapply first_del with (b := b) (l := l); eauto. intros ->.
    unfold ids in Nd. rewrite El in Nd. cbn [map] in Nd. inversion Nd as [|? ? X _].
    apply X. destruct i as [|i]; [lia|]. cbn [nth_error] in N. apply in_map. eapply nth_error_In; eauto.
Qed.

Lemma st_set g id s : g_timers (set_status g id s) id = w_status (g_timers g id) s.
Proof. unfold set_status. cbn [g_timers s_timer]. apply tset_eq. Qed.

(** a stopped first entry is dropped: cleanTimers, runTimer *)
Lemma QI_drop0 E g b tl g1 : QI E g -> g_heap g = b :: tl -> st (g_timers g) (b_timer b) = Deleted ->
  deleteTimer0 (set_status g (b_timer b) Removing) = Done g1 ->
  let g2 := set_status g1 (b_timer b) Removed in
  QI E (s_del g2 (g_del g2 - 1)).
Proof.
  intros Q Eh Hs D g2.
  destruct (del0 (set_status g (b_timer b) Removing) b tl g1) as (P & O & Tm & T0 & C & Dl); auto; [apply Q|].
  apply (QI_remove E g b (g_heap g1)); auto.
  - intros k Hk. unfold g2. cbn [g_timers s_del set_status s_timer]. rewrite tset_neq by auto. rewrite Tm.
    rewrite tset_neq by auto. cbn [g_timers set_status s_timer]. now rewrite tset_neq.
  - right. unfold g2. unfold st. cbn [g_timers s_del set_status s_timer]. rewrite tset_eq.
    cbn [t_status w_status t_on]. rewrite Tm, tset_eq. cbn [t_on w_on]. unfold offq. auto.
  - cbn [g_del s_del g2 set_status s_timer]. unfold del_. rewrite Hs, Dl. reflexivity.
Qed.

Lemma QI_clean_loop E fuel : forall g g', QI E g -> clean_loop fuel g = Done g' ->
  QI E g' /\ (forall k, ~ In k (ids g) -> g_timers g' k = g_timers g k /\ ~ In k (ids g')).
Proof.
  induction fuel as [|f IH]; intros g g' Q H; [discriminate|]. cbn [clean_loop] in H.
  destruct (g_heap g) as [|b tl] eqn:Eh; [discriminate|]. cbn [at_ nth_error lift obind] in H.
  destruct (t_status (g_timers g (b_timer b))) eqn:Es;
    try (assert (g' = g) by congruence; subst; auto).
  - destruct (deleteTimer0 (set_status g (b_timer b) Removing)) as [g1| | |] eqn:D; try discriminate. cbn [obind] in H.
    pose proof (QI_drop0 E g b tl g1 Q Eh Es D) as Q1. cbn [obind] in Q1.
    destruct (IH _ _ Q1 H) as [R1 R2]. split; auto. intros k Hk.
    destruct (del0 (set_status g (b_timer b) Removing) b tl g1) as (P & O & Tm & T0 & C & Dl); auto; [apply Q|].
    assert (Kb : k <> b_timer b). { intros ->. apply Hk. unfold ids. rewrite Eh. now left. }
    destruct (R2 k) as [R3 R4].
    { cbn [ids g_heap s_del set_status s_timer]. intros X. apply Hk. unfold ids.
      change (g_heap g) with (g_heap (set_status g (b_timer b) Removing)).
      eapply Permutation_in; [apply Permutation_map, Permutation_sym, P|]. now right. }
    split; auto. rewrite R3. cbn [g_timers s_del set_status s_timer]. rewrite tset_neq by auto. rewrite Tm, tset_neq by auto.
    cbn [g_timers set_status s_timer]. now rewrite tset_neq.
  - destruct (lift _) as [h| | |]; cbn [obind] in H; try discriminate. destruct (deleteTimer0 _); discriminate.
  - destruct (lift _) as [h| | |]; cbn [obind] in H; try discriminate. destruct (deleteTimer0 _); discriminate.
Qed.

Lemma QI_weaken (E E' : Z -> Prop) g : QI E g -> (forall k, E k -> E' k) -> QI E' g.
Proof. intros [Q1 Q2 Q3 Q4 Q5 Q6 Q7] H. constructor; auto. Qed.

(** the exception after a timer was added, with status Waiting or Modifying *)
Definition just (id : Z) : Z -> Prop := fun k => k = id.

Lemma QI_AddTimer g id g' : QI (just id) g -> ~ In id (ids g) -> st (g_timers g) id <> Deleted -> AddTimer g id = Done g' ->
  In id (ids g') /\ t_status (g_timers g' id) = t_status (g_timers g id) /\ t_on (g_timers g' id) = true /\
  (forall s, onq s -> s <> Deleted -> QI none (set_status g' id s)) /\
  (forall k, ~ In k (ids g) -> k <> id -> ~ In k (ids g')).
Proof.
  intros Q Hn Hd H. unfold AddTimer in H.
  destruct (cleanTimers g) as [g1| | |] eqn:C; try discriminate. cbn [obind] in H.
  assert (X : QI (just id) g1 /\ (forall k, ~ In k (ids g) -> g_timers g1 k = g_timers g k /\ ~ In k (ids g1))).
  { unfold cleanTimers in C. destruct (g_heap g); [assert (g1 = g) by congruence; subst; auto|]. eapply QI_clean_loop; eauto. }
  destruct X as [Q1 K]. destruct (K id Hn) as [K1 K2].
  destruct (QI_add_locked (just id) g1 id g' Q1 eq_refl K2 H) as (A1 & A2 & A3 & A4 & A5 & A6 & A7 & A8).
  { unfold st. now rewrite K1. }
  assert (B1 : t_status (g_timers g' id) = t_status (g_timers g id)) by (rewrite A1, tset_eq, K1; reflexivity).
  assert (B2 : t_on (g_timers g' id) = true) by (rewrite A1, tset_eq; reflexivity).
  split; [exact A2|]. split; [exact B1|]. split; [exact B2|]. split.
  - intros s Hs Hsd. constructor; auto; cbn [g_heap ids set_status s_timer g_timers].
    + intros k Hk. apply A3 in Hk. unfold st. destruct (Z.eqb_spec k id) as [->|N].
      * rewrite tset_eq. cbn [t_status w_status t_on]. auto.
      * rewrite tset_neq, A1, tset_neq by auto. apply Q1. destruct Hk; [contradiction|auto].
    + intros k _ Hk. change (map b_timer (g_heap g')) with (ids g') in Hk. unfold st.
      assert (N : k <> id) by (intros ->; contradiction).
      rewrite tset_neq, A1, tset_neq by auto. apply Q1; auto. intros Y. apply Hk. apply A3. auto.
    + change (g_del (set_status g' id s)) with (g_del g'). rewrite A8. f_equal. apply filter_ext_in. intros b Hb. unfold del_, st, tset.
      destruct (Z.eqb_spec (b_timer b) id) as [Eb|N]; auto. cbn [t_status w_status]. rewrite Eb, B1.
      unfold st in Hd. destruct s; try congruence; destruct (t_status (g_timers g id)); congruence.
  - intros k Hk Nk Y. apply A3 in Y. destruct Y; [contradiction|]. destruct (K k Hk). contradiction.
Qed.

(** ** User calls *)
Lemma QI_log E g e : QI E g -> QI E (s_log g e).
Proof. intros Q. eapply QI_same; [exact Q| | | | |]; reflexivity. Qed.

Lemma QI_Start g id d now r : QI none g -> Start g id d now = Done r -> QI none (fst r).
Proof.
  intros Q H. unfold Start in H. destruct (negb _); [inversion H; subst; auto|].
  destruct (d <? 1); [inversion H; subst; auto|].
  destruct (t_status (g_timers g id)) eqn:Es; try (inversion H; subst; exact Q).
  destruct (t_on (g_timers g id)) eqn:Eo; [inversion H; subst; exact Q|].
  assert (Hn : ~ In id (ids g)). { intros X. apply (q_on _ _ Q) in X as [_ X]. congruence. }
  match type of H with context [AddTimer ?y id] => set (x := y) in H end.
  assert (Qx : QI (just id) x).
  { unfold x. apply QI_log. repeat (apply QI_timer; [|intros; contradiction|intros _; left; reflexivity]).
    eapply QI_weaken; [exact Q|intros k []]. }
  assert (Sx : t_status (g_timers x id) = Waiting).
  { unfold x. cbn [g_timers s_log s_timer set_status]. rewrite !tset_eq. reflexivity. }
  destruct (AddTimer x id) as [g1| | |] eqn:A; try discriminate. cbn [obind] in H. inversion H; subst r. cbn [fst].
  destruct (QI_AddTimer x id g1 Qx Hn) as (B1 & B2 & B3 & B4 & B5); auto. { unfold st. congruence. }
  specialize (B4 Waiting (or_introl eq_refl) ltac:(discriminate)).
  eapply QI_same with (g := set_status g1 id Waiting); auto.
  intros k. cbn [g_timers set_status s_timer]. unfold tset. destruct (Z.eqb_spec k id) as [->|N]; auto.
  rewrite <- Sx, <- B2. destruct (g_timers g1 id); reflexivity.
Qed.

Lemma QI_period g id p : QI none g -> QI none (s_timer g id (w_period (g_timers g id) p)).
Proof.
  intros Q. apply QI_timer; auto; intros H; cbn [t_status w_period t_on].
  - destruct (q_on _ _ Q id H) as [A B]. split; [exact A|]. split; [exact B|]. unfold st. tauto.
  - right. apply Q; auto.
Qed.

Lemma QI_Tick g id f i now r : QI none g -> Tick g id f i now = Done r -> QI none (fst r).
Proof.
  intros Q H. unfold Tick in H. destruct (_ || _); [inversion H; subst; auto|].
  eapply QI_Start; [|exact H]. now apply QI_period.
Qed.

Lemma count_del m m' id l : NoDup (map b_timer l) -> In id (map b_timer l) ->
  (forall k, k <> id -> st m' k = st m k) ->
  zlen (filter (del_ m') l) = zlen (filter (del_ m) l)
    - (match st m id with Deleted => 1 | _ => 0 end) + (match st m' id with Deleted => 1 | _ => 0 end).
Proof.
  intros Nd Hi Hk. apply in_map_iff in Hi as (b & Eb & Hb). apply in_split in Hb as (l1 & l2 & ->).
  rewrite map_app in Nd. cbn [map] in Nd. rewrite Eb in Nd. apply NoDup_remove_2 in Nd.
  rewrite !filter_app, !zlen_app. cbn [filter].
  rewrite (filter_del m m' l1), (filter_del m m' l2).
  - assert (X : forall m, del_ m b = match st m id with Deleted => true | _ => false end) by (intros m0; unfold del_; now rewrite Eb).
    rewrite !X. destruct (st m id), (st m' id); rewrite ?zlen_cons; lia.
  - intros k H. apply Hk. intros ->. apply Nd. apply in_or_app. auto.
  - intros k H. apply Hk. intros ->. apply Nd. apply in_or_app. auto.
Qed.

(** a queued timer changed its status, and the count of stopped ones follows *)
Lemma QI_status g id t dl : QI none g -> In id (ids g) -> onq (t_status t) -> t_on t = true ->
  dl = g_del g - (match st (g_timers g) id with Deleted => 1 | _ => 0 end) + (match t_status t with Deleted => 1 | _ => 0 end) ->
  QI none (s_del (s_timer g id t) dl).
Proof.
  intros Q Hi A B D. pose proof Q as [Q1 Q2 Q3 Q4 Q5 Q6 Q7].
  constructor; auto; cbn [g_heap ids g_timers s_del s_timer g_del].
  - intros k Hk. unfold st, tset. destruct (Z.eqb_spec k id) as [->|N]; [auto|now apply Q3].
  - intros k _ Hk. unfold st, tset. destruct (Z.eqb_spec k id) as [->|N]; [contradiction|now apply Q4].
  - rewrite (count_del (g_timers g) (tset (g_timers g) id t) id); auto.
    + assert (X : st (tset (g_timers g) id t) id = t_status t) by (unfold st; now rewrite tset_eq).
      rewrite X, D, Q7. reflexivity.
    + intros k Hk. unfold st. now rewrite tset_neq.
Qed.

Lemma QI_on_in g id : QI none g -> t_on (g_timers g id) = true -> In id (ids g).
Proof.
  intros Q H. destruct (in_dec Z.eq_dec id (ids g)) as [X|X]; auto.
  apply (q_off _ _ Q id) in X; [|intros []]. destruct X. congruence.
Qed.

Lemma QI_Stop g id r : QI none g -> Stop g id = Done r -> QI none (fst r).
Proof.
  intros Q H. unfold Stop in H. destruct (negb _); [inversion H; subst; auto|].
  assert (X : forall s, t_status (g_timers g id) = s -> s <> Deleted ->
     (if t_on (g_timers g id) then Done (s_del (s_log (set_status g id Deleted) (EStop id)) (g_del (s_log (set_status g id Deleted) (EStop id)) + 1), @None terr) else Crash) = Done r ->
     QI none (fst r)).
  { intros s Es Ns X. destruct (t_on (g_timers g id)) eqn:Eo; [|discriminate]. inversion X; subst r. cbn [fst].
    eapply QI_same with (g := s_del (s_timer g id (w_status (g_timers g id) Deleted)) (g_del g + 1)); auto.
    apply QI_status; auto.
    - now apply QI_on_in. - unfold onq. auto.
    - unfold st. cbn [t_status w_status]. rewrite Es. destruct s; try congruence; lia. }
  destruct (t_status (g_timers g id)) eqn:Es; try discriminate; try (inversion H; subst; exact Q);
    eapply X; try reflexivity; try discriminate; exact H.
Qed.

Lemma QI_reset g id d now r :
  let t := g_timers g id in
  QI none g ->
  (exists b dl, reset_finish (s_del (set_status g id Modifying) dl) id d now b = Done r /\
     dl = g_del g - (match t_status t with Deleted => 1 | _ => 0 end) /\
     (b = false -> In id (ids g)) /\ (b = true -> ~ In id (ids g))) ->
  QI none (fst r).
Proof.
  intros t Q (b & dl & H & D & B0 & B1). unfold reset_finish in H.
  set (g0 := s_del (set_status g id Modifying) dl) in *.
  assert (T0 : g_timers g0 id = w_status t Modifying) by (unfold g0; cbn [g_timers s_del]; apply st_set).
  set (nw := when_ d now) in *. rewrite T0 in H.
  set (t1 := w_when (w_status t Modifying) nw) in *.
  set (t2 := if negb (t_period t1 =? 0) then w_period t1 d else t1) in *.
  assert (T2 : t_status t2 = Modifying /\ t_on t2 = t_on t) by (unfold t2; destruct (negb _); split; reflexivity).
  destruct T2 as [T2 T3].
  set (g1 := s_log (s_timer g0 id t2) (EArm id nw)) in *.
  assert (G1 : g_timers g1 id = t2) by (unfold g1; cbn [g_timers s_log s_timer]; apply tset_eq).
  assert (Gk : forall k, k <> id -> g_timers g1 k = g_timers g k).
  { intros k N. unfold g1, g0. cbn [g_timers s_log s_timer s_del set_status]. now rewrite !tset_neq. }
  assert (Fin : forall s x, onq s -> s <> Deleted -> In id (ids g) -> t_on t2 = true -> g_heap x = g_heap g ->
     (forall k, g_timers x k = g_timers g1 k) -> g_t0 x = g_t0 g -> g_count x = g_count g -> g_del x = dl ->
     QI none (set_status x id s)).
  { intros s x Hs Hsd Hi Ho E1 E2 E3 E4 E5.
    eapply QI_same with (g := s_del (s_timer g id (w_status t2 s)) dl); auto.
    - apply QI_status; auto. cbn [t_status w_status]. unfold t in D. unfold st. rewrite D. destruct s; try congruence; lia.
    - intros k. cbn [g_timers set_status s_timer s_del]. unfold tset. destruct (Z.eqb_spec k id) as [->|N].
      + now rewrite E2, G1. + now rewrite E2, Gk. }
  destruct b.
  - specialize (B1 eq_refl).
    match type of H with context [AddTimer ?y id] => set (x := y) in H end.
    assert (Ds : t_status t <> Deleted).
    { destruct (q_off _ _ Q id) as [[X|X] _]; auto; unfold st in X; unfold t; congruence. }
    assert (Qx : QI (just id) x).
    { unfold x. apply QI_timer; [|intros X; exfalso; exact (B1 X)|intros _; left; reflexivity].
      unfold g1. apply QI_log. apply QI_timer; [|intros X; exfalso; exact (B1 X)|intros _; left; reflexivity].
      unfold g0. eapply QI_same with (g := set_status g id Modifying); try reflexivity.
      - apply QI_timer; [|intros X; exfalso; exact (B1 X)|intros _; left; reflexivity].
        eapply QI_weaken; [exact Q|intros k []].
      - cbn [g_del s_del set_status s_timer]. rewrite D. destruct (t_status t); try congruence; lia. }
    destruct (AddTimer x id) as [g2| | |] eqn:A; try discriminate. cbn [obind] in H. inversion H; subst r. cbn [fst].
    destruct (QI_AddTimer x id g2 Qx B1) as (C1 & C2 & C3 & C4 & C5); auto.
    { unfold st, x. cbn [g_timers s_timer]. rewrite tset_eq. cbn [t_status w_on]. rewrite G1. congruence. }
    apply C4; [left; reflexivity|discriminate].
  - specialize (B0 eq_refl). destruct (q_on _ _ Q id B0) as [_ Ho]. fold t in Ho.
    cbn [t_when w_status] in H. destruct (_ <? _).
    + rewrite G1, T3, Ho in H. inversion H; subst r. cbn [fst]. apply Fin; auto; try congruence.
      * unfold onq; auto.
      * unfold updateTimerModifiedEarliest. destruct (_ && _); reflexivity.
      * intros k. unfold updateTimerModifiedEarliest. destruct (_ && _); reflexivity.
      * unfold updateTimerModifiedEarliest. destruct (_ && _); reflexivity.
      * unfold updateTimerModifiedEarliest. destruct (_ && _); reflexivity.
      * unfold updateTimerModifiedEarliest. destruct (_ && _); reflexivity.
    + inversion H; subst r. cbn [fst]. apply Fin; auto; try congruence. unfold onq; auto.
Qed.

Lemma QI_Reset g id d now r : QI none g -> Reset g id d now = Done r -> QI none (fst r).
Proof.
  intros Q H. unfold Reset in H. destruct (d <? 1); [inversion H; subst; auto|].
  destruct (negb _); [inversion H; subst; auto|].
  assert (Hin : onq (t_status (g_timers g id)) -> In id (ids g)).
  { intros X. destruct (in_dec Z.eq_dec id (ids g)) as [Y|Y]; auto.
    apply (q_off _ _ Q id) in Y; [|intros []]. destruct Y as [Y _]. unfold onq, offq, st in *. intuition congruence. }
  assert (Hout : offq (t_status (g_timers g id)) -> ~ In id (ids g)).
  { intros X Y. apply (q_on _ _ Q id) in Y. destruct Y as [Y _]. unfold onq, offq, st in *. intuition congruence. }
  assert (Idel : forall y, s_del y (g_del y) = y) by (intros []; reflexivity).
  assert (One : forall b, reset_finish (set_status g id Modifying) id d now b = Done r ->
     t_status (g_timers g id) <> Deleted -> (b = false -> In id (ids g)) -> (b = true -> ~ In id (ids g)) -> QI none (fst r)).
  { intros b Hf Nd B0 B1. apply (QI_reset g id d now r Q). exists b, (g_del g). split; [|split; [|auto]].
    - now rewrite <- (Idel (set_status g id Modifying)) in Hf.
    - destruct (t_status (g_timers g id)); try congruence; lia. }
  destruct (t_status (g_timers g id)) eqn:Es; try discriminate.
  - apply (One true); auto; try discriminate. intros _. apply Hout. unfold offq; auto.
  - apply (One false); auto; try discriminate. intros _. apply Hin. unfold onq; auto.
  - destruct (t_on (g_timers g id)) eqn:Eo; [|discriminate].
    apply (QI_reset g id d now r Q). exists false, (g_del g - 1). rewrite Es. split; [exact H|].
    split; [reflexivity|]. split; [intros _|discriminate]. apply Hin. unfold onq; auto.
  - apply (One true); auto; try discriminate. intros _. apply Hout. unfold offq; auto.
  - apply (One false); auto; try discriminate. intros _. apply Hin. unfold onq; auto.
  - apply (One false); auto; try discriminate. intros _. apply Hin. unfold onq; auto.
Qed.

Lemma obind_inv {A B} (r : out A) (f : A -> out B) b : (do! x := r in f x) = Done b -> exists a, r = Done a /\ f a = Done b.
Proof. destruct r; cbn [obind]; intros H; try discriminate. eauto. Qed.

Lemma QI_user_step g now o g' : QI none g -> user_step g now o = Done g' -> QI none g'.
Proof.
  intros Q H. destruct o; cbn [user_step] in H; apply obind_inv in H as (r & E & X); inversion X; subst g'.
  - exact (QI_Start _ _ _ _ _ Q E). - exact (QI_Tick _ _ _ _ _ _ Q E). - exact (QI_Stop _ _ _ Q E). - exact (QI_Reset _ _ _ _ _ Q E).
Qed.
Lemma QI_user_steps ops : forall g now g', QI none g -> user_steps g now ops = Done g' -> QI none g'.
Proof.
  induction ops as [|o ops IH]; cbn [user_steps]; intros g now g' Q H; [inversion H; subst; auto|].
  apply obind_inv in H as (g1 & E & X). eapply IH; [|exact X]. eapply QI_user_step; eauto.
Qed.

(** ** The scheduler *)
Lemma QI_runOneTimer h g b tl now g' : QI none g -> g_heap g = b :: tl -> st (g_timers g) (b_timer b) = Waiting ->
  runOneTimer h (set_status g (b_timer b) Running) (b_timer b) now = Done g' -> QI none g'.
Proof.
  intros Q Eh Es H. unfold runOneTimer in H. apply obind_inv in H as (g2 & H & U).
  eapply QI_user_steps; [|exact U]. clear U h. rewrite st_set in H. cbn [t_period w_status t_when] in H.
  set (id := b_timer b) in *.
  assert (Hin : In id (ids g)) by (unfold ids; rewrite Eh; now left).
  destruct (q_on _ _ Q id Hin) as [_ Ho].
  destruct (0 <? t_period (g_timers g id)).
  - apply obind_inv in H as (hp & H & X).
    match type of H with lift (SiftDownTimer ?hh 0) = _ => change hh with (g_heap g) in H end.
    assert (Ne : g_heap g <> []) by congruence.
    destruct (siftdown_heap (g_heap g) (q_ord _ _ Q) Ne) as (l' & E1 & P & O). rewrite E1 in H. cbn [lift] in H.
    inversion H; subst hp. inversion X; subst g2. apply QI_log, QI_log.
    match goal with |- QI none (updateTimer0When ?y) => set (x := y) end.
    destruct (updt0_fields x) as (B1 & B2 & B3 & B4 & B5).
    assert (Hx : g_heap x = l') by reflexivity.
    assert (Pi : Permutation (ids g) (ids (updateTimer0When x))).
    { unfold ids. rewrite B1, Hx. now apply Permutation_map. }
    assert (Tk : forall k, k <> id -> g_timers (updateTimer0When x) k = g_timers g k).
    { intros k N. rewrite B2. unfold x. cbn [g_timers set_status s_timer s_heap]. now rewrite !tset_neq. }
    assert (Ti : t_status (g_timers (updateTimer0When x) id) = Waiting /\ t_on (g_timers (updateTimer0When x) id) = true).
    { rewrite B2. unfold x. cbn [g_timers set_status s_timer s_heap]. rewrite !tset_eq. cbn [t_status t_on w_status w_when].
      auto. }
    assert (Tst : forall k, st (g_timers (updateTimer0When x)) k = st (g_timers g) k).
    { intros k. unfold st. destruct (Z.eqb_spec k id) as [->|N]; [|now rewrite Tk]. unfold st in Es. rewrite Es. apply Ti. }
    assert (Ton : forall k, t_on (g_timers (updateTimer0When x) k) = t_on (g_timers g k)).
    { intros k. destruct (Z.eqb_spec k id) as [->|N]; [|now rewrite Tk]. rewrite Ho. apply Ti. }
    pose proof Q as [Q1 Q2 Q3 Q4 Q5 Q6 Q7]. constructor.
    + now rewrite B1, Hx.
    + eapply Permutation_NoDup; eauto.
    + intros k Hk. rewrite Tst, Ton. apply Q3. eapply Permutation_in; [apply Permutation_sym; exact Pi|exact Hk].
    + intros k He Hk. rewrite Tst, Ton. apply Q4; auto. intros Y. apply Hk. eapply Permutation_in; eauto.
    + now rewrite B3, B1.
    + rewrite B4, B1, Hx. cbn [g_count x set_status s_timer s_heap]. rewrite Q6. unfold zlen. now rewrite (Permutation_length P).
    + rewrite B5, B1, Hx. cbn [g_del x set_status s_timer s_heap]. rewrite Q7, (filter_perm _ _ _ P). f_equal. symmetry.
      apply filter_del. intros k _. apply Tst.
  - apply obind_inv in H as (g1 & D & X). inversion X; subst g2. apply QI_log.
    destruct (del0 (set_status g id Running) b tl g1) as (P & O & Tm & T0 & C & Dl); auto; [apply Q|].
    apply (QI_remove none g b (g_heap g1)); auto.
    + intros k Hk. cbn [g_timers set_status s_timer]. fold id in Hk. rewrite tset_neq by auto. rewrite Tm.
      fold id. rewrite tset_neq by auto. cbn [g_timers set_status s_timer]. now rewrite tset_neq.
    + right. fold id. unfold st. rewrite st_set. cbn [t_status w_status t_on]. rewrite Tm. fold id. rewrite tset_eq. cbn [t_on w_on].
      unfold offq. auto.
    + cbn [g_del set_status s_timer]. unfold del_. fold id. rewrite Es, Dl. cbn [g_del set_status s_timer]. lia.
Qed.

Lemma QI_runTimer h fuel : forall g now r, QI none g -> runTimer fuel h g now = Done r -> QI none (fst r).
Proof.
  induction fuel as [|f IH]; intros g now r Q H; [discriminate|]. cbn [runTimer] in H.
  destruct (g_heap g) as [|b tl] eqn:Eh; [discriminate|]. cbn [at_ nth_error lift obind] in H.
  destruct (t_status (g_timers g (b_timer b))) eqn:Es; try discriminate.
  - destruct (now <? _); [inversion H; subst; auto|]. apply obind_inv in H as (g1 & E & X). inversion X; subst r. cbn [fst].
    eapply QI_runOneTimer; eauto.
  - apply obind_inv in H as (g1 & D & H).
    pose proof (QI_drop0 none g b tl g1 Q Eh Es D) as Q1. cbv zeta in Q1.
    match type of H with (match g_heap ?y with _ => _ end) = _ => destruct (g_heap y) eqn:Ey end.
    + inversion H; subst r. exact Q1.
    + eapply IH; [exact Q1|exact H].
  - apply obind_inv in H as (g1 & D & H). discriminate.
  - apply obind_inv in H as (g1 & D & H). discriminate.
Qed.

(** Only stopped entries leave while adjusting, if the call returns. *)
Lemma QI_adjust_loop fuel : forall g n i r, QI none g -> adjust_loop fuel g n i [] = Done r -> snd r = [] -> QI none (fst r).
Proof.
  induction fuel as [|f IH]; intros g n i r Q H Hr; cbn [adjust_loop] in H.
  - destruct (Nat.leb n i); [inversion H; subst; auto|discriminate].
  - destruct (Nat.leb n i); [inversion H; subst; auto|].
    destruct (nth_error (g_heap g) i) as [b|] eqn:Eb; [|discriminate].
    destruct (t_status (g_timers g (b_timer b))) eqn:Es; try discriminate; try (eapply IH; eauto; fail).
    + apply obind_inv in H as (r1 & D & H).
      destruct (deli (set_status g (b_timer b) Removing) i b r1) as (P & O & Tm & T0 & C & Dl); auto; try apply Q.
      eapply IH; [|exact H|auto].
      apply (QI_remove none g b (g_heap (fst r1))); auto.
      * intros k Hk. cbn [g_timers s_del set_status s_timer]. rewrite tset_neq by auto. rewrite Tm.
        rewrite tset_neq by auto. cbn [g_timers set_status s_timer]. now rewrite tset_neq.
      * right. unfold st. cbn [g_timers s_del set_status s_timer]. rewrite tset_eq.
        cbn [t_status w_status t_on]. rewrite Tm, tset_eq. cbn [t_on w_on]. unfold offq. auto.
      * cbn [g_del s_del set_status s_timer]. unfold del_, st. rewrite Es, Dl. reflexivity.
    + apply obind_inv in H as (r1 & D & H). exfalso. apply adjust_loop_moved in H as (m' & H). rewrite Hr in H. discriminate.
    + apply obind_inv in H as (r1 & D & H). exfalso. apply adjust_loop_moved in H as (m' & H). rewrite Hr in H. discriminate.
Qed.

Lemma QI_adjustTimers fuel g now g' : QI none g -> adjustTimers fuel g now = Done g' -> QI none g'.
Proof.
  intros Q H. unfold adjustTimers in H. destruct (_ || _); [inversion H; subst; auto|].
  apply obind_inv in H as (r & E & H). destruct (snd r) eqn:Er; [|discriminate]. inversion H; subst g'.
  eapply QI_adjust_loop; [|exact E|exact Er]. eapply QI_same; [exact Q| | | | |]; reflexivity.
Qed.

(** an entry is put after the heap at the front of the slice and sifted up *)
Lemma place p b rest : heap_ordered p -> exists l' j, SiftUpTimer (p ++ b :: rest) (length p) = Ok (l' ++ rest, j) /\
  heap_ordered l' /\ Permutation l' (b :: p) /\ length l' = S (length p).
Proof.
  intros Hp. change (p ++ b :: rest) with (p ++ [b] ++ rest). rewrite app_assoc, SiftUp_app by (rewrite app_length; cbn; lia).
  destruct (add_spec p b Hp) as (l' & E1 & HP & Ho). unfold heap_add in E1.
  destruct (SiftUpTimer (p ++ [b]) (length p)) as [[l1 j]|]; cbn [bind fst] in E1; [|discriminate].
  injection E1 as ->. cbn [bind fst snd]. exists l', j. repeat (split; auto). apply Permutation_length in HP. exact HP.
Qed.

Definition keep (m : Z -> timer) (b : bucket) : bool := negb (del_ m b).

Lemma clear_loop_gen : forall r i p q g ch cd,
  heap_ordered p -> (ch = false -> q = []) -> i = length (p ++ q) ->
  (ch = false -> heap_ordered (p ++ r)) ->
  NoDup (map b_timer r) ->
  (forall id, In id (map b_timer r) -> onq (st (g_timers g) id)) ->
  exists g' arr' to' cd' p', clear_loop (seq i (length r)) g (p ++ q ++ r) (length p) ch cd = Done (g', arr', to', cd') /\
    firstn to' arr' = p' /\ heap_ordered p' /\
    Permutation (map b_timer p') (map b_timer p ++ map b_timer (filter (keep (g_timers g)) r)) /\
    cd' = cd + zlen (filter (del_ (g_timers g)) r) /\
    g_count g' = g_count g /\ g_del g' = g_del g /\
    (forall k, ~ In k (map b_timer r) -> g_timers g' k = g_timers g k) /\
    (forall k, In k (map b_timer r) ->
       (st (g_timers g) k = Deleted -> st (g_timers g') k = Removed /\ t_on (g_timers g' k) = false) /\
       (st (g_timers g) k <> Deleted -> st (g_timers g') k = Waiting /\ t_on (g_timers g' k) = t_on (g_timers g k))) /\
    (forall x, In x p' -> In x p \/ exists b0, In b0 r /\ b_timer x = b_timer b0 /\
       (x = b0 /\ st (g_timers g) (b_timer b0) = Waiting \/ b_when x = t_when (g_timers g (b_timer b0)))) /\
    (forall k, t_when (g_timers g' k) = t_when (g_timers g k) /\ t_period (g_timers g' k) = t_period (g_timers g k)) /\
    g_me g' = g_me g.
Proof.
  induction r as [|b r IH]; intros i p q g ch cd Hp Hq Hi Hpr Hnd Hst.
  - cbn [length seq clear_loop]. rewrite app_nil_r. exists g, (p ++ q), (length p), cd, p. split; [reflexivity|]. split.
    { rewrite firstn_app, firstn_all, Nat.sub_diag. cbn [firstn]. now rewrite app_nil_r. }
    cbn [filter map]. rewrite app_nil_r. repeat (split; auto); try contradiction. unfold zlen. cbn. lia.
  - cbn [length seq clear_loop].
    assert (Ea : at_ (p ++ q ++ b :: r) i = Ok b).
    { unfold at_. rewrite app_assoc, nth_error_app2 by lia. rewrite <- Hi, Nat.sub_diag. reflexivity. }
    rewrite Ea. cbn [lift obind]. cbn [map] in Hnd. inversion Hnd as [|? ? Hnin Hnd']; subst.
    assert (Hin : forall c, In c r -> b_timer c <> b_timer b).
    { intros c Hc E. apply Hnin. rewrite <- E. now apply in_map. }
    (* what remains to do after this entry was kept as [x], the slice being [l' ++ rest] *)
    assert (Kept : forall g1 l' q1 ch1 x,
       b_timer x = b_timer b -> st (g_timers g) (b_timer b) <> Deleted ->
       heap_ordered l' -> Permutation l' (x :: p) -> (ch1 = false -> q1 = []) ->
       S (length (p ++ q)) = length (l' ++ q1) -> (ch1 = false -> heap_ordered (l' ++ r)) ->
       (forall k, k <> b_timer b -> g_timers g1 k = g_timers g k) ->
       st (g_timers g1) (b_timer b) = Waiting -> t_on (g_timers g1 (b_timer b)) = t_on (g_timers g (b_timer b)) ->
       g_count g1 = g_count g -> g_del g1 = g_del g ->
       (x = b /\ st (g_timers g) (b_timer b) = Waiting \/ b_when x = t_when (g_timers g (b_timer b))) ->
       (forall k, t_when (g_timers g1 k) = t_when (g_timers g k) /\ t_period (g_timers g1 k) = t_period (g_timers g k)) -> g_me g1 = g_me g ->
       exists g' arr' to' cd' p', clear_loop (seq (S (length (p ++ q))) (length r)) g1 (l' ++ q1 ++ r) (S (length p)) ch1 cd = Done (g', arr', to', cd') /\
        firstn to' arr' = p' /\ heap_ordered p' /\
        Permutation (map b_timer p') (map b_timer p ++ map b_timer (filter (keep (g_timers g)) (b :: r))) /\
        cd' = cd + zlen (filter (del_ (g_timers g)) (b :: r)) /\
        g_count g' = g_count g /\ g_del g' = g_del g /\
        (forall k, ~ In k (map b_timer (b :: r)) -> g_timers g' k = g_timers g k) /\
        (forall k, In k (map b_timer (b :: r)) ->
           (st (g_timers g) k = Deleted -> st (g_timers g') k = Removed /\ t_on (g_timers g' k) = false) /\
           (st (g_timers g) k <> Deleted -> st (g_timers g') k = Waiting /\ t_on (g_timers g' k) = t_on (g_timers g k))) /\
    (forall x, In x p' -> In x p \/ exists b0, In b0 (b :: r) /\ b_timer x = b_timer b0 /\
       (x = b0 /\ st (g_timers g) (b_timer b0) = Waiting \/ b_when x = t_when (g_timers g (b_timer b0)))) /\
    (forall k, t_when (g_timers g' k) = t_when (g_timers g k) /\ t_period (g_timers g' k) = t_period (g_timers g k)) /\
    g_me g' = g_me g).
    { intros g1 l' q1 ch1 x Ex Nd Ol Pl Hq1 Hl Or Tk Tw Ton Gc Gd Gx Gw Gm.
      assert (Ll : S (length p) = length l') by (apply Permutation_length in Pl; cbn [length] in Pl; congruence).
      assert (Ts : forall k, In k (map b_timer r) -> st (g_timers g1) k = st (g_timers g) k).
      { intros k Hk. unfold st. rewrite Tk; auto. intros ->. contradiction. }
      rewrite Ll. destruct (IH (S (length (p ++ q))) l' q1 g1 ch1 cd) as (g' & arr' & to' & cd' & p' & E & F1 & F2 & F3 & F4 & F5 & F6 & F7 & F8 & F9 & F10 & F11); auto.
      { intros k Hk. rewrite Ts by auto. apply Hst. now right. }
      exists g', arr', to', cd', p'. split; [exact E|]. split; [exact F1|]. split; [exact F2|].
      assert (Kb : keep (g_timers g) b = true /\ del_ (g_timers g) b = false).
      { unfold keep, del_. destruct (st (g_timers g) (b_timer b)); try congruence; split; reflexivity. }
      destruct Kb as [Kb Db].
      split; [|split; [|split; [congruence|split; [congruence|split; [|split; [|split; [|split; [|congruence]]]]]]]].
      - rewrite F3. cbn [filter]. rewrite Kb. cbn [map].
        assert (Xf : filter (keep (g_timers g1)) r = filter (keep (g_timers g)) r).
        { apply filter_ext_in. intros c Hc. unfold keep, del_. rewrite Ts; auto. now apply in_map. }
        rewrite Xf. apply (Permutation_map b_timer) in Pl. cbn [map] in Pl. rewrite Pl, Ex. cbn [List.app]. apply Permutation_middle.
      - rewrite F4. cbn [filter]. rewrite Db. f_equal. f_equal. apply filter_del. exact Ts.
      - intros k Hk. cbn [map] in Hk. rewrite F7.
        + apply Tk. intros ->. apply Hk. now left.
        + intros X. apply Hk. now right.
      - intros k Hk. cbn [map] in Hk. destruct (Z.eqb_spec k (b_timer b)) as [->|N].
        + split; [intros X; contradiction|]. intros _. unfold st. rewrite F7 by auto. split; [exact Tw|exact Ton].
        + destruct Hk as [Hk|Hk]; [congruence|]. destruct (F8 k Hk) as [G1 G2]. unfold st in *. rewrite Tk in G1, G2 by auto. auto.
      - intros y Hy. destruct (F9 y Hy) as [Hy'|(b0 & B1 & B2 & B3)].
        + apply (Permutation_in _ Pl) in Hy'. destruct Hy' as [<-|Hy']; [|now left]. right. exists b. split; [now left|]. auto.
        + right. exists b0. split; [now right|]. split; [exact B2|]. rewrite Ts in B3 by (now apply in_map). now rewrite (proj1 (Gw _)) in B3.
      - intros k. destruct (F10 k) as [U1 U2], (Gw k) as [V1 V2]. split; congruence. }
    assert (Hs : onq (st (g_timers g) (b_timer b))) by (apply Hst; now left).
    assert (Mod : st (g_timers g) (b_timer b) <> Deleted ->
      let b' := {| b_timer := b_timer b; b_when := t_when (g_timers g (b_timer b)) |} in
      let arr := upd (upd (p ++ q ++ b :: r) (length (p ++ q)) b') (length p) b' in
      exists l' j q1, SiftUpTimer arr (length p) = Ok (l' ++ q1 ++ r, j) /\ heap_ordered l' /\ Permutation l' (b' :: p) /\
        S (length (p ++ q)) = length (l' ++ q1)).
    { intros _ b' arr. unfold arr. rewrite app_assoc, upd_mid. destruct q as [|x q].
      - rewrite app_nil_r. rewrite upd_mid. destruct (place p b' r Hp) as (l' & j & P1 & P2 & P3 & P4).
        exists l', j, []. cbn [List.app]. rewrite app_nil_r. repeat (split; auto).
      - rewrite <- app_assoc. cbn [List.app]. rewrite upd_mid.
        destruct (place p b' (q ++ b' :: r) Hp) as (l' & j & P1 & P2 & P3 & P4).
        exists l', j, (q ++ [b']). rewrite <- app_assoc. cbn [List.app]. repeat (split; auto).
        rewrite !app_length, P4. cbn [length]. lia. }
    destruct Hs as [Hs|[Hs|Hs]].
    + unfold st in Hs. rewrite Hs. destruct ch.
      * (* moved into place *)
        destruct q as [|x q].
        { cbn [List.app]. rewrite upd_mid. destruct (place p b r Hp) as (l' & j & P1 & P2 & P3 & P4). rewrite P1. cbn [lift obind fst].
          replace (S (length (p ++ []))) with (S (length (p ++ @nil bucket))) by reflexivity.
          eapply (Kept g l' [] true b); auto; try discriminate. { unfold st. congruence. }
          rewrite !app_length, P4. cbn [length]. lia. }
        { cbn [List.app]. rewrite upd_mid. destruct (place p b (q ++ b :: r) Hp) as (l' & j & P1 & P2 & P3 & P4). rewrite P1. cbn [lift obind fst].
          change (q ++ b :: r) with (q ++ [b] ++ r). rewrite (app_assoc q [b] r).
          eapply (Kept g l' (q ++ [b]) true b); auto; try discriminate. { unfold st. congruence. }
          rewrite !app_length, P4. cbn [length]. lia. }
      * rewrite (Hq eq_refl) in *. cbn [List.app] in *.
        change (p ++ b :: r) with (p ++ [b] ++ r). rewrite app_assoc.
        eapply (Kept g (p ++ [b]) [] false b); auto.
        { unfold st. congruence. }
        { specialize (Hpr eq_refl). intros j u v Hu Hv.
          assert (Hj : (S j < length (p ++ [b]))%nat) by (apply nth_error_Some; congruence).
          apply (Hpr j); change (p ++ b :: r) with (p ++ [b] ++ r); rewrite app_assoc, nth_error_app1; auto. lia. }
        { apply Permutation_sym. apply Permutation_cons_append. }
        { rewrite !app_nil_r, app_length. cbn. lia. }
        { intros _. specialize (Hpr eq_refl). rewrite <- app_assoc. exact Hpr. }
    + (* dropped *)
      assert (Hs' := Hs). unfold st in Hs. rewrite Hs. set (g1 := s_timer g (b_timer b) _).
      assert (Tk : forall k, k <> b_timer b -> g_timers g1 k = g_timers g k).
      { intros k Hk. unfold g1. cbn [g_timers s_timer]. now apply tset_neq. }
      assert (Ts : forall k, In k (map b_timer r) -> st (g_timers g1) k = st (g_timers g) k).
      { intros k Hk. unfold st. rewrite Tk; auto. intros ->. contradiction. }
      destruct (IH (S (length (p ++ q))) p (q ++ [b]) g1 true (cd + 1)) as (g' & arr' & to' & cd' & p' & E & F1 & F2 & F3 & F4 & F5 & F6 & F7 & F8 & F9 & F10 & F11); auto; try discriminate.
      { rewrite !app_length. cbn. lia. }
      { intros k Hk. rewrite Ts by auto. apply Hst. now right. }
      rewrite <- app_assoc in E. cbn [List.app] in E. exists g', arr', to', cd', p'. split; [exact E|]. split; [exact F1|]. split; [exact F2|].
      assert (Kb : keep (g_timers g) b = false /\ del_ (g_timers g) b = true) by (unfold keep, del_; rewrite Hs'; split; reflexivity).
      destruct Kb as [Kb Db].
      split; [|split; [|split; [exact F5|split; [exact F6|split; [|split; [|split; [|split; [|exact F11]]]]]]]].
      * rewrite F3. cbn [filter]. rewrite Kb.
        assert (Xf : filter (keep (g_timers g1)) r = filter (keep (g_timers g)) r).
        { apply filter_ext_in. intros c Hc. unfold keep, del_. rewrite Ts; auto. now apply in_map. }
        now rewrite Xf.
      * rewrite F4. cbn [filter]. rewrite Db, zlen_cons, (filter_del (g_timers g) (g_timers g1) r Ts). lia.
      * intros k Hk. cbn [map] in Hk. rewrite F7.
        -- apply Tk. intros ->. apply Hk. now left.
        -- intros X. apply Hk. now right.
      * intros k Hk. cbn [map] in Hk. destruct (Z.eqb_spec k (b_timer b)) as [->|N].
        -- split; [|intros X; contradiction]. intros _. unfold st. rewrite F7 by auto. unfold g1. cbn [g_timers s_timer]. rewrite tset_eq. split; reflexivity.
        -- destruct Hk as [Hk|Hk]; [congruence|]. destruct (F8 k Hk) as [G1 G2]. unfold st in *. rewrite Tk in G1, G2 by auto. auto.
      * intros y Hy. destruct (F9 y Hy) as [Hy'|(b0 & B1 & B2 & B3)]; [now left|].
        right. exists b0. split; [now right|]. split; [exact B2|]. rewrite Ts in B3 by (now apply in_map).
        rewrite Tk in B3 by (now apply Hin). exact B3.
      * intros k. destruct (F10 k) as [U1 U2]. rewrite U1, U2. unfold g1. cbn [g_timers s_timer]. unfold tset.
        destruct (Z.eqb_spec k (b_timer b)) as [->|]; split; reflexivity.
    + (* a modified entry gets its new key *)
      assert (Nd : st (g_timers g) (b_timer b) <> Deleted) by (destruct Hs; congruence).
      destruct (Mod Nd) as (l' & j & q1 & P1 & P2 & P3 & P4). cbv zeta in P1.
      set (b' := {| b_timer := b_timer b; b_when := t_when (g_timers g (b_timer b)) |}) in *.
      assert (Fin : exists g' arr' to' cd' p', clear_loop (seq (S (length (p ++ q))) (length r)) (set_status g (b_timer b) Waiting) (l' ++ q1 ++ r) (S (length p)) true cd = Done (g', arr', to', cd') /\
        firstn to' arr' = p' /\ heap_ordered p' /\
        Permutation (map b_timer p') (map b_timer p ++ map b_timer (filter (keep (g_timers g)) (b :: r))) /\
        cd' = cd + zlen (filter (del_ (g_timers g)) (b :: r)) /\
        g_count g' = g_count g /\ g_del g' = g_del g /\
        (forall k, ~ In k (map b_timer (b :: r)) -> g_timers g' k = g_timers g k) /\
        (forall k, In k (map b_timer (b :: r)) ->
           (st (g_timers g) k = Deleted -> st (g_timers g') k = Removed /\ t_on (g_timers g' k) = false) /\
           (st (g_timers g) k <> Deleted -> st (g_timers g') k = Waiting /\ t_on (g_timers g' k) = t_on (g_timers g k))) /\
    (forall x, In x p' -> In x p \/ exists b0, In b0 (b :: r) /\ b_timer x = b_timer b0 /\
       (x = b0 /\ st (g_timers g) (b_timer b0) = Waiting \/ b_when x = t_when (g_timers g (b_timer b0)))) /\
    (forall k, t_when (g_timers g' k) = t_when (g_timers g k) /\ t_period (g_timers g' k) = t_period (g_timers g k)) /\
    g_me g' = g_me g).
      { eapply (Kept (set_status g (b_timer b) Waiting) l' q1 true b'); auto; try discriminate.
        - intros k Hk. cbn [g_timers set_status s_timer]. now apply tset_neq.
        - unfold st. rewrite st_set. reflexivity.
        - rewrite st_set. reflexivity.
        - intros k. cbn [g_timers set_status s_timer]. unfold tset. destruct (Z.eqb_spec k (b_timer b)) as [->|]; split; reflexivity. }
      destruct Hs as [Hs|Hs]; unfold st in Hs; rewrite Hs; rewrite P1; cbn [lift obind fst]; exact Fin.
Qed.

Lemma keep_in m l k : NoDup (map b_timer l) -> In k (map b_timer l) ->
  (In k (map b_timer (filter (keep m) l)) <-> st m k <> Deleted).
Proof.
  intros Nd H. rewrite in_map_iff. split.
  - intros (b & <- & Hb). apply filter_In in Hb as [_ Hb]. unfold keep, del_ in Hb. intros X. rewrite X in Hb. discriminate.
  - intros X. apply in_map_iff in H as (b & <- & Hb). exists b. split; auto. apply filter_In. split; auto.
    unfold keep, del_. destruct (st m (b_timer b)); auto; congruence.
Qed.
Lemma filter_split_len {A} (f : A -> bool) l : zlen l = zlen (filter f l) + zlen (filter (fun x => negb (f x)) l).
Proof.
  induction l as [|a l IH]; [reflexivity|]. cbn [filter]. destruct (f a); cbn [negb]; rewrite !zlen_cons; lia.
Qed.
Lemma NoDup_map_filter (f : bucket -> bool) l : NoDup (map b_timer l) -> NoDup (map b_timer (filter f l)).
Proof.
  induction l as [|a l IH]; cbn [filter map]; intros H; auto. inversion H; subst. destruct (f a); cbn [map]; auto.
  constructor; auto. intros X. apply H2. apply in_map_iff in X as (b & <- & Hb). apply filter_In in Hb as [Hb _]. now apply in_map.
Qed.

Lemma QI_clearDeleted g g' : QI none g -> clearDeletedTimers g = Done g' -> QI none g'.
Proof.
  intros Q H. unfold clearDeletedTimers in H. pose proof Q as [Q1 Q2 Q3 Q4 Q5 Q6 Q7].
  destruct (clear_loop_gen (g_heap g) 0 [] [] (s_me g 0) false 0) as (g1 & arr & to & cd & p' & E & F1 & F2 & F3 & F4 & F5 & F6 & F7 & F8 & _); auto.
  { apply heap_nil. }
  { intros k Hk. now apply Q3. }
  cbn [List.app length map] in E, F3. cbn [g_heap s_me] in H. rewrite E in H. cbn [obind] in H.
  assert (G : g' = updateTimer0When (s_heap (s_count (s_del g1 (g_del g1 - cd)) (g_count (s_del g1 (g_del g1 - cd)) - cd)) (firstn to arr))).
  { cbn [g_count s_del]. injection H as <-. reflexivity. }
  clear H. rewrite F1 in G.
  match type of G with _ = updateTimer0When ?y => set (x := y) in G end.
  destruct (updt0_fields x) as (B1 & B2 & B3 & B4 & B5). rewrite <- G in B1, B2, B3, B4, B5.
  change (g_heap x) with p' in B1. change (g_timers x) with (g_timers g1) in B2. change (g_heap x) with p' in B3.
  change (g_count x) with (g_count g1 - cd) in B4. change (g_del x) with (g_del g1 - cd) in B5.
  change (g_timers (s_me g 0)) with (g_timers g) in *. change (g_count (s_me g 0)) with (g_count g) in *.
  change (g_del (s_me g 0)) with (g_del g) in *.
  assert (Iff : forall k, In k (map b_timer p') <-> In k (ids g) /\ st (g_timers g) k <> Deleted).
  { intros k. split.
    - intros X. apply (Permutation_in _ F3) in X. assert (Y : In k (ids g)).
      { apply in_map_iff in X as (b & <- & Hb). apply filter_In in Hb as [Hb _]. now apply in_map. }
      split; auto. apply (keep_in _ (g_heap g)); auto.
    - intros [X Y]. apply (Permutation_in _ (Permutation_sym F3)). now apply (keep_in _ (g_heap g)). }
  assert (Zp : zlen p' = zlen (filter (keep (g_timers g)) (g_heap g))).
  { unfold zlen. apply Permutation_length in F3. rewrite !map_length in F3. now rewrite F3. }
  constructor; unfold ids; rewrite ?B1.
  - exact F2.
  - eapply Permutation_NoDup; [apply Permutation_sym; exact F3|]. now apply NoDup_map_filter.
  - intros k Hk. apply Iff in Hk as [K1 K2]. rewrite B2. destruct (F8 k K1) as [_ X]. destruct (X K2) as [X1 X2].
    split; [left; exact X1|]. rewrite X2. now apply Q3.
  - intros k _ Hk. rewrite B2. destruct (in_dec Z.eq_dec k (ids g)) as [Y|Y].
    + destruct (F8 k Y) as [X X']. assert (D : st (g_timers g) k = Deleted).
      { destruct (st (g_timers g) k) eqn:Es; auto; exfalso; apply Hk; apply Iff; split; auto; congruence. }
      destruct (X D) as [X1 X2]. split; [right; exact X1|exact X2].
    + unfold st. rewrite F7 by exact Y. apply Q4; auto.
  - exact B3.
  - rewrite B4, F5, F4, Zp, Q6. rewrite (filter_split_len (del_ (g_timers g)) (g_heap g)). unfold keep. lia.
  - rewrite B5, F6, F4, B2, Q7.
    assert (Z0 : filter (del_ (g_timers g1)) p' = []).
    { destruct (filter (del_ (g_timers g1)) p') as [|b l] eqn:Ef; auto. exfalso.
      assert (Hb : In b (filter (del_ (g_timers g1)) p')) by (rewrite Ef; now left).
      apply filter_In in Hb as [Hb Hd]. apply (in_map b_timer) in Hb. apply Iff in Hb as [K1 K2].
      destruct (F8 _ K1) as [_ X]. destruct (X K2) as [X1 _]. unfold del_ in Hd. rewrite X1 in Hd. discriminate. }
    rewrite Z0. unfold zlen at 3. cbn. lia.
Qed.

Lemma QI_run_loop h fuel : forall g now ran r, QI none g -> run_loop fuel h g now ran = Done r -> QI none (fst (fst r)).
Proof.
  induction fuel as [|f IH]; intros g now ran r Q H; cbn [run_loop] in H; destruct (g_heap g) as [|b tl] eqn:Eh;
    try (inversion H; subst; exact Q); try discriminate.
  apply obind_inv in H as ([g1 tw] & E & H). pose proof (QI_runTimer _ _ _ _ _ Q E) as Q1. cbn [fst] in Q1.
  destruct (tw =? 0); [eapply IH; eauto|]. inversion H; subst. exact Q1.
Qed.
Lemma QI_checkTimers h fuel g now r : QI none g -> checkTimers fuel h g now = Done r -> QI none (fst (fst r)).
Proof.
  intros Q H. unfold checkTimers in H. destruct (_ =? 0); [inversion H; subst; auto|].
  destruct (_ && _); [inversion H; subst; auto|]. apply obind_inv in H as ([[g1 nw] ran] & E & H).
  apply obind_inv in H as (g2 & E2 & H). inversion H; subst r. cbn [fst].
  assert (Q1 : QI none g1).
  { destruct (g_heap g) eqn:Eh; [inversion E; subst; auto|]. apply obind_inv in E as (g3 & E3 & E).
    pose proof (QI_adjustTimers _ _ _ _ Q E3) as Q3. exact (QI_run_loop _ _ _ _ _ _ Q3 E). }
  destruct (_ <? _); [|inversion E2; subst; auto]. eapply QI_clearDeleted; eauto.
Qed.
Lemma QI_run h ops : forall g g', QI none g -> run h g ops = Done g' -> QI none g'.
Proof.
  induction ops as [|o ops IH]; cbn [run]; intros g g' Q H; [inversion H; subst; auto|].
  apply obind_inv in H as (g1 & E & H). eapply IH; [|exact H]. destruct o; cbn [step] in E.
  - eapply QI_user_step; eauto.
  - apply obind_inv in E as (r & E & X). inversion X; subst. eapply QI_checkTimers; eauto.
Qed.
Lemma QI_new : QI none new_timing.
Proof.
  constructor; cbn; auto; try constructor; try contradiction; try reflexivity.
  - intros i a b H. destruct i; discriminate.
  - left. reflexivity.
Qed.
Lemma QI_history h ops g : run h new_timing ops = Done g -> QI none g.
Proof. apply QI_run, QI_new. Qed.
