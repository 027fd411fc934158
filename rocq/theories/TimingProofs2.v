(** The scheduler's invariants when no pending timer is rescheduled. *)
From Coq Require Import Permutation ZifyBool ZifyNat.
From Verif Require Import Go GoFacts HeapModel HeapSpec HeapProofs TimingModel TimingSpec TimingProofs.
Ltac Zify.zify_post_hook ::= Z.div_mod_to_equations.

Definition ids (g : timing) : list Z := map b_timer (g_heap g).
Definition first_when (l : list bucket) : Z := match l with [] => 0 | b :: _ => b_when b end.

Record HI (g : timing) : Prop := {
  hi_ord : heap_ordered (g_heap g);
  hi_nd : NoDup (ids g);
  hi_st : forall b, In b (g_heap g) ->
    (t_status (g_timers g (b_timer b)) = Waiting \/ t_status (g_timers g (b_timer b)) = Deleted) /\
    t_on (g_timers g (b_timer b)) = true;
  hi_me : g_me g = 0;
  hi_t0 : g_t0 g = first_when (g_heap g) }.

(** Entries [rm] (all stopped) left the heap; nothing else changed. *)
Definition swept (g : timing) (rm : list bucket) (g' : timing) : Prop :=
  Permutation (g_heap g) (rm ++ g_heap g') /\
  (forall b, In b rm -> t_status (g_timers g (b_timer b)) = Deleted) /\
  (forall k, ~ In k (map b_timer rm) -> g_timers g' k = g_timers g k) /\
  (forall k, In k (map b_timer rm) ->
     t_status (g_timers g' k) = Removed /\ t_on (g_timers g' k) = false /\
     t_when (g_timers g' k) = t_when (g_timers g k) /\ t_period (g_timers g' k) = t_period (g_timers g k) /\
     t_cb (g_timers g' k) = t_cb (g_timers g k)) /\
  g_log g' = g_log g.

Lemma swept_refl g : swept g [] g.
Proof. unfold swept. cbn. intuition reflexivity. Qed.

Lemma nd_app_disj {A} (l1 l2 : list A) x : NoDup (l1 ++ l2) -> In x l1 -> In x l2 -> False.
Proof.
  induction l1 as [|y l1 IH]; cbn; intros H H1 H2; [tauto|]. inversion H; subst.
  destruct H1 as [->|H1]; eauto. apply H4. apply in_or_app. auto.
Qed.

Lemma nd_app_r {A} (l1 l2 : list A) : NoDup (l1 ++ l2) -> NoDup l2.
Proof. induction l1 as [|a l1 IH]; cbn; intros H; auto. inversion H; auto. Qed.

Lemma perm_ids g l : Permutation (g_heap g) l -> NoDup (ids g) -> NoDup (map b_timer l).
Proof. intros HP. apply Permutation_NoDup. unfold ids. now apply Permutation_map. Qed.

Lemma nd_same_bucket (l : list bucket) a b : NoDup (map b_timer l) -> In a l -> In b l ->
  b_timer a = b_timer b -> a = b.
Proof.
  induction l as [|c l IH]; cbn; intros Hn Ha Hb E; [tauto|]. inversion Hn; subst.
  destruct Ha as [->|Ha], Hb as [->|Hb]; auto.
  - exfalso. apply H1. rewrite E. now apply in_map.
  - exfalso. apply H1. rewrite <- E. now apply in_map.
Qed.

Lemma tset_eq m id t : tset m id t id = t. Proof. unfold tset. now rewrite Z.eqb_refl. Qed.
Lemma tset_neq m id t k : k <> id -> tset m id t k = m k.
Proof. unfold tset. intros H. now rewrite (proj2 (Z.eqb_neq k id) H). Qed.

(** Taking the first entry off. *)
Lemma deleteTimer0_spec g b tl : heap_ordered (g_heap g) -> g_heap g = b :: tl -> g_me g = 0 ->
  exists g', deleteTimer0 g = Done g' /\ Permutation (g_heap g) (b :: g_heap g') /\ heap_ordered (g_heap g') /\
    g_timers g' = tset (g_timers g) (b_timer b) (w_on (g_timers g (b_timer b)) false) /\
    g_me g' = 0 /\ g_t0 g' = first_when (g_heap g') /\ g_log g' = g_log g /\ g_del g' = g_del g /\
    (length (g_heap g') < length (g_heap g))%nat.
Proof.
  intros Ho E Hme. unfold deleteTimer0.
  destruct (delete0_spec (g_heap g) Ho) as (l' & b' & E1 & E2 & HP & Ho'). { rewrite E. discriminate. }
  assert (Hb : b' = b) by (rewrite E in E2; cbn in E2; congruence). subst b'.
  unfold at_. rewrite E2. cbn [lift obind]. rewrite E1. cbn [lift obind].
  eexists. split; [reflexivity|].
  assert (C : forall x, g_me x = 0 -> g_heap (count_removed x) = g_heap x /\ g_timers (count_removed x) = g_timers x /\
     g_me (count_removed x) = 0 /\ g_t0 (count_removed x) = g_t0 x /\ g_log (count_removed x) = g_log x /\ g_del (count_removed x) = g_del x).
  { intros x Hx. unfold count_removed. destruct (_ =? _); repeat split; auto. }
  assert (U : forall x, g_heap (updateTimer0When x) = g_heap x /\ g_timers (updateTimer0When x) = g_timers x /\
     g_me (updateTimer0When x) = g_me x /\ g_t0 (updateTimer0When x) = first_when (g_heap x) /\
     g_log (updateTimer0When x) = g_log x /\ g_del (updateTimer0When x) = g_del x).
  { intros x. unfold updateTimer0When. destruct (g_heap x) eqn:Ex; repeat split; auto. }
  match goal with |- context [count_removed ?y] => set (x := y) end.
  match goal with x := updateTimer0When ?y |- _ => destruct (U y) as (U1&U2&U3&U4&U5&U6) end.
  fold x in U1, U2, U3, U4, U5, U6.
  destruct (C x) as (C1&C2&C3&C4&C5&C6). { rewrite U3. exact Hme. }
  rewrite C1, C2, C3, C4, C5, C6, U1, U2, U4, U5, U6.
  cbn [g_heap g_timers g_log g_del s_heap s_timer]. repeat split; auto.
  apply Permutation_length in HP. cbn in HP. lia.
Qed.

(** Dropping a stopped first entry. *)
Lemma drop_deleted g b tl : HI g -> g_heap g = b :: tl -> t_status (g_timers g (b_timer b)) = Deleted ->
  exists g', deleteTimer0 (set_status g (b_timer b) Removing) = Done g' /\
    let g'' := s_del (set_status g' (b_timer b) Removed) (g_del (set_status g' (b_timer b) Removed) - 1) in
    swept g [b] g'' /\ HI g'' /\ (length (g_heap g'') < length (g_heap g))%nat.
Proof.
  intros Hi E Hst.
  destruct (deleteTimer0_spec (set_status g (b_timer b) Removing) b tl) as
    (g' & E1 & HP & Ho & Ht & Hme & Ht0 & Hl & _ & Hlen).
  { apply Hi. } { exact E. } { apply Hi. }
  exists g'. split; [exact E1|]. cbv zeta.
  cbn [g_heap set_status s_timer] in HP, Hlen.
  assert (Hnd : NoDup (map b_timer (b :: g_heap g'))) by (eapply perm_ids; [exact HP|apply Hi]).
  cbn in Hnd. inversion Hnd as [|? ? Hnin Hnd']; subst.
  assert (Hk : forall k, k <> b_timer b -> g_timers (set_status g' (b_timer b) Removed) k = g_timers g k).
  { intros k Hk. rewrite set_status_other by auto. rewrite Ht, tset_neq by auto. now apply set_status_other. }
  repeat split; cbn [g_heap g_timers g_me g_t0 g_log s_del set_status s_timer ids]; auto.
  - intros c [<-|[]]. exact Hst.
  - cbn. intros k Hkk. apply Hk. intros ->. tauto.
  - intros; destruct H as [<-|[]]. now rewrite tset_eq.
  - destruct H as [<-|[]]. rewrite tset_eq, Ht. cbn. now rewrite tset_eq.
  - destruct H as [<-|[]]. rewrite tset_eq, Ht. cbn. now rewrite !tset_eq.
  - destruct H as [<-|[]]. rewrite tset_eq, Ht. cbn. now rewrite !tset_eq.
  - destruct H as [<-|[]]. rewrite tset_eq, Ht. cbn. now rewrite !tset_eq.
  - rewrite tset_neq. 2:{ intros Eb. apply Hnin. rewrite <- Eb. now apply in_map. }
    assert (Hkk : b_timer b0 <> b_timer b). { intros Eb. apply Hnin. rewrite <- Eb. now apply in_map. }
    specialize (Hk _ Hkk). cbn [g_timers set_status s_timer] in Hk. rewrite tset_neq in Hk by auto. rewrite Hk.
    apply Hi. rewrite E. eapply Permutation_in; [symmetry; rewrite <- E; exact HP|]. now right.
  - assert (Hkk : b_timer b0 <> b_timer b). { intros Eb. apply Hnin. rewrite <- Eb. now apply in_map. }
    specialize (Hk _ Hkk). cbn [g_timers set_status s_timer] in Hk. rewrite Hk.
    apply Hi. rewrite E. eapply Permutation_in; [symmetry; rewrite <- E; exact HP|]. now right.
Qed.

Lemma swept_trans g1 l1 g2 l2 g3 : HI g1 -> swept g1 l1 g2 -> swept g2 l2 g3 -> swept g1 (l1 ++ l2) g3.
Proof.
  intros Hi (P1 & D1 & O1 & R1 & L1) (P2 & D2 & O2 & R2 & L2).
  assert (Hnd : NoDup (map b_timer l1 ++ map b_timer (g_heap g2))).
  { rewrite <- map_app. eapply perm_ids; [exact P1|apply Hi]. }
  assert (Hdis : forall k, In k (map b_timer l2) -> ~ In k (map b_timer l1)).
  { intros k H2 H1. eapply nd_app_disj; [exact Hnd|exact H1|].
    eapply Permutation_in; [symmetry; apply Permutation_map; exact P2|]. rewrite map_app. apply in_or_app. auto. }
  repeat split.
  - rewrite P1, P2. now rewrite app_assoc.
  - intros b Hb. apply in_app_or in Hb. destruct Hb as [Hb|Hb]; auto.
    rewrite <- O1; auto. apply Hdis. now apply in_map.
  - intros k Hk. rewrite map_app in Hk. rewrite O2, O1; auto; intros ?; apply Hk; apply in_or_app; auto.
  - rewrite map_app in H. apply in_app_or in H. destruct H as [H|H]; [|now apply R2].
    destruct (in_dec Z.eq_dec k (map b_timer l2)) as [H2|H2]; [now apply R2|]. rewrite O2 by auto. now apply R1.
  - rewrite map_app in H. apply in_app_or in H. destruct H as [H|H]; [|now apply R2].
    destruct (in_dec Z.eq_dec k (map b_timer l2)) as [H2|H2]; [now apply R2|]. rewrite O2 by auto. now apply R1.
  - rewrite map_app in H. apply in_app_or in H.
    destruct (in_dec Z.eq_dec k (map b_timer l2)) as [H2|H2].
    + destruct (R2 k H2) as (_&_&->&_). now rewrite (O1 k (Hdis k H2)).
    + destruct H as [H|H]; [|tauto]. rewrite O2 by auto. now apply R1.
  - rewrite map_app in H. apply in_app_or in H.
    destruct (in_dec Z.eq_dec k (map b_timer l2)) as [H2|H2].
    + destruct (R2 k H2) as (_&_&_&->&_). now rewrite (O1 k (Hdis k H2)).
    + destruct H as [H|H]; [|tauto]. rewrite O2 by auto. now apply R1.
  - rewrite map_app in H. apply in_app_or in H.
    destruct (in_dec Z.eq_dec k (map b_timer l2)) as [H2|H2].
    + destruct (R2 k H2) as (_&_&_&_&->). now rewrite (O1 k (Hdis k H2)).
    + destruct H as [H|H]; [|tauto]. rewrite O2 by auto. now apply R1.
  - congruence.
Qed.

Definition has_waiting (g : timing) : Prop :=
  exists b, In b (g_heap g) /\ t_status (g_timers g (b_timer b)) = Waiting.

Lemma swept_waiting g rm g' : HI g -> swept g rm g' -> has_waiting g <-> has_waiting g'.
Proof.
  intros Hi (P1 & D1 & O1 & R1 & L1).
  assert (Hnd : NoDup (map b_timer rm ++ map b_timer (g_heap g'))).
  { rewrite <- map_app. eapply perm_ids; [exact P1|apply Hi]. }
  split; intros (b & Hb & Hs); exists b.
  - eapply Permutation_in in Hb; [|exact P1]. apply in_app_or in Hb. destruct Hb as [Hb|Hb].
    + specialize (D1 _ Hb). congruence.
    + split; auto. rewrite O1; auto. intros H. eapply nd_app_disj; eauto. now apply in_map.
  - assert (Hn : ~ In (b_timer b) (map b_timer rm)).
    { intros H. eapply nd_app_disj; eauto. now apply in_map. }
    rewrite O1 in Hs by auto. split; auto. eapply Permutation_in; [symmetry; exact P1|]. apply in_or_app. auto.
Qed.

Lemma clean_loop_spec fuel : forall g, HI g -> (length (g_heap g) < fuel)%nat ->
  (has_waiting g -> exists rm g', clean_loop fuel g = Done g' /\ swept g rm g' /\ HI g') /\
  (~ has_waiting g -> clean_loop fuel g = Crash).
Proof.
  induction fuel as [|f IH]; intros g Hi Hf; [lia|]. cbn [clean_loop].
  destruct (g_heap g) as [|b tl] eqn:E.
  - split.
    + intros (b & Hb & _). rewrite E in Hb. destruct Hb.
    + intros _. reflexivity.
  - cbn [at_ nth_error lift obind].
    assert (Hb : In b (g_heap g)) by (rewrite E; now left).
    destruct (proj1 (hi_st g Hi b Hb)) as [Hs|Hs]; rewrite Hs.
    + split; [|intros Hn; exfalso; apply Hn; exists b; auto].
      intros _. exists [], g. auto using swept_refl.
    + destruct (drop_deleted g b tl Hi E Hs) as (g' & E1 & S1 & Hi' & Hlen). rewrite E1. cbn [obind].
      cbv zeta in S1, Hi', Hlen. set (g'' := s_del _ _) in *.
      destruct (IH g'' Hi') as [I1 I2]. { rewrite E in Hlen. lia. }
      pose proof (swept_waiting _ _ _ Hi S1) as W.
      split.
      * intros Hw. destruct (I1 (proj1 W Hw)) as (rm & g3 & E3 & S3 & Hi3).
        exists ([b] ++ rm), g3. split; [exact E3|]. split; auto. eapply swept_trans; eauto.
      * intros Hn. apply I2. tauto.
Qed.

Lemma cleanTimers_spec g : HI g ->
  (g_heap g = [] \/ has_waiting g -> exists rm g', cleanTimers g = Done g' /\ swept g rm g' /\ HI g') /\
  (g_heap g <> [] -> ~ has_waiting g -> cleanTimers g = Crash).
Proof.
  intros Hi. unfold cleanTimers. destruct (g_heap g) as [|b tl] eqn:E.
  - split; [|congruence]. intros _. exists [], g. auto using swept_refl.
  - rewrite <- E. destruct (clean_loop_spec (S (length (g_heap g))) g Hi) as [I1 I2]; [lia|].
    split; auto. intros [H|H]; [congruence|auto].
Qed.

(** Adding a timer that is not in the heap. *)
Lemma add_locked_spec g id : HI g -> ~ In id (ids g) -> t_status (g_timers g id) = Waiting ->
  exists g', add_locked g id = Done g' /\ HI g' /\
    Permutation (g_heap g') ({| b_timer := id; b_when := t_when (g_timers g id) |} :: g_heap g) /\
    g_timers g' = tset (g_timers g) id (w_on (g_timers g id) true) /\ g_log g' = g_log g.
Proof.
  intros Hi Hn Hs. unfold add_locked. cbn [g_heap s_timer].
  set (nb := {| b_timer := id; b_when := t_when (g_timers g id) |}).
  destruct (add_spec (g_heap g) nb (hi_ord g Hi)) as (l' & E1 & HP & Ho).
  rewrite E1. cbn [lift obind]. destruct l' as [|b0 l'].
  { apply Permutation_length in HP. discriminate. }
  cbn [at_ nth_error lift obind].
  assert (Hnd : NoDup (map b_timer (nb :: g_heap g))).
  { cbn. constructor; auto. apply Hi. }
  eexists. split; [reflexivity|].
  assert (Hh : forall (c : bool) x w, g_heap (if c then s_t0 x w else x) = g_heap x) by (intros [] ??; reflexivity).
  assert (Ht : forall (c : bool) x w, g_timers (if c then s_t0 x w else x) = g_timers x) by (intros [] ??; reflexivity).
  assert (Hm : forall (c : bool) x w, g_me (if c then s_t0 x w else x) = g_me x) by (intros [] ??; reflexivity).
  assert (Hg : forall (c : bool) x w, g_log (if c then s_t0 x w else x) = g_log x) by (intros [] ??; reflexivity).
  cbn [g_heap g_timers g_log s_count].
  split; [|rewrite Hh, Ht, Hg; cbn [g_heap g_timers g_log s_heap s_timer]; auto].
  assert (Hnd' : NoDup (map b_timer (b0 :: l'))).
  { eapply Permutation_NoDup; [symmetry; apply Permutation_map; exact HP|exact Hnd]. }
  constructor; unfold ids; cbn [g_heap g_timers g_me g_t0 s_count]; rewrite ?Hh, ?Ht, ?Hm;
    cbn [g_heap g_timers g_me g_t0 s_heap s_timer]; auto; try apply Hi.
  - intros b Hb. unfold tset. destruct (Z.eqb_spec (b_timer b) id) as [Eb|Eb].
    + cbn. auto.
    + eapply Permutation_in in Hb; [|exact HP]. destruct Hb as [<-|Hb]; [now cbn in Eb|]. now apply Hi.
  - destruct (Z.eqb_spec (b_timer b0) id) as [Eb|Eb]; cbn [g_t0 s_t0 first_when s_heap s_timer].
    + assert (b0 = nb). { eapply nd_same_bucket; [exact Hnd'|now left| |exact Eb].
        eapply Permutation_in; [symmetry; exact HP|now left]. }
      now subst b0.
    + rewrite (hi_t0 g Hi).
      assert (Hb0 : In b0 (g_heap g)).
      { assert (H : In b0 (nb :: g_heap g)) by (eapply Permutation_in; [exact HP|now left]).
        destruct H as [<-|H]; [now cbn in Eb|exact H]. }
      destruct (g_heap g) as [|c tl] eqn:E; [destruct Hb0|]. cbn [first_when].
      pose proof (heap_first _ Ho b0 c eq_refl) as F1.
      pose proof (heap_first _ (hi_ord g Hi)) as F2. rewrite E in F2. specialize (F2 c b0 eq_refl Hb0).
      assert (In c (b0 :: l')). { eapply Permutation_in; [symmetry; exact HP|]. right. now left. }
      specialize (F1 H). lia.
Qed.

(** ** The invariant of histories without rescheduling *)

Record G (g : timing) : Prop := {
  g_hi : HI g;
  g_out : forall id, ~ In id (ids g) ->
    (t_status (g_timers g id) = Unset \/ t_status (g_timers g id) = Removed) /\ t_on (g_timers g id) = false;
  g_stop : forall id, t_status (g_timers g id) = Deleted -> In (EStop id) (g_log g) }.

(** What a sweep leaves unchanged, and what may be outside the heap. *)
Lemma swept_out g rm g' : HI g -> swept g rm g' -> forall id, ~ In id (ids g') ->
  (In id (map b_timer rm) /\ t_status (g_timers g' id) = Removed /\ t_on (g_timers g' id) = false) \/
  (~ In id (ids g) /\ g_timers g' id = g_timers g id).
Proof.
  intros Hi (P1 & D1 & O1 & R1 & L1) id Hn.
  destruct (in_dec Z.eq_dec id (map b_timer rm)) as [H|H].
  - left. destruct (R1 id H) as (?&?&_). auto.
  - right. split; [|auto]. intros H2. unfold ids in H2. apply (Permutation_in id (Permutation_map b_timer P1)) in H2.
    rewrite map_app in H2. apply in_app_or in H2. destruct H2; auto.
Qed.

Lemma ids_perm g g' b : Permutation (g_heap g') (b :: g_heap g) -> forall id, In id (ids g') <-> id = b_timer b \/ In id (ids g).
Proof.
  intros HP id. unfold ids. split; intros H.
  - apply (Permutation_in id (Permutation_map b_timer HP)) in H. cbn in H. intuition.
  - eapply Permutation_in; [symmetry; apply Permutation_map; exact HP|]. cbn. intuition.
Qed.

(** A state with a timer marked waiting but not yet in the heap. *)
Lemma AddTimer_spec g id : HI g -> ~ In id (ids g) -> t_status (g_timers g id) = Waiting ->
  (g_heap g = [] \/ has_waiting g -> exists rm g1 g', AddTimer g id = Done g' /\ swept g rm g1 /\ HI g1 /\ HI g' /\
     Permutation (g_heap g') ({| b_timer := id; b_when := t_when (g_timers g id) |} :: g_heap g1) /\
     g_timers g' = tset (g_timers g1) id (w_on (g_timers g id) true) /\ g_log g' = g_log g) /\
  (g_heap g <> [] -> ~ has_waiting g -> AddTimer g id = Crash).
Proof.
  intros Hi Hn Hs. unfold AddTimer. destruct (cleanTimers_spec g Hi) as [C1 C2]. split.
  - intros H. destruct (C1 H) as (rm & g1 & E1 & S1 & Hi1). rewrite E1. cbn [obind].
    pose proof S1 as (P1 & D1 & O1 & R1 & L1).
    assert (Hrm : ~ In id (map b_timer rm)).
    { intros Hr. apply Hn. unfold ids. eapply Permutation_in; [symmetry; apply Permutation_map; exact P1|].
      rewrite map_app. apply in_or_app. auto. }
    assert (Hn1 : ~ In id (ids g1)).
    { intros Hr. apply Hn. unfold ids. eapply Permutation_in; [symmetry; apply Permutation_map; exact P1|].
      rewrite map_app. apply in_or_app. auto. }
    destruct (add_locked_spec g1 id Hi1 Hn1) as (g' & E2 & Hi2 & HP & Ht & Hl). { now rewrite O1. }
    rewrite (O1 id Hrm) in HP, Ht. exists rm, g1, g'. repeat (split; auto); congruence.
  - intros H1 H2. now rewrite (C2 H1 H2).
Qed.

Definition can_start (g : timing) : Prop := g_heap g = [] \/ has_waiting g.

Lemma can_start_dec g : HI g -> {can_start g} + {g_heap g <> [] /\ ~ has_waiting g}.
Proof.
  intros Hi. unfold can_start.
  destruct (existsb (fun b => match t_status (g_timers g (b_timer b)) with Waiting => true | _ => false end) (g_heap g)) eqn:E.
  - left. right. apply existsb_exists in E. destruct E as (b & Hb & Hs). exists b. split; auto.
    destruct (t_status _); congruence.
  - destruct (g_heap g) as [|b tl] eqn:Eh; [left; now left|]. right. split; [discriminate|].
    intros (c & Hc & Hs). rewrite Eh in Hc.
    assert (existsb (fun b => match t_status (g_timers g (b_timer b)) with Waiting => true | _ => false end) (b :: tl) = true).
    { apply existsb_exists. exists c. rewrite Hs. auto. }
    congruence.
Qed.

(** Start, in full. *)
Inductive start_result (g : timing) (id d now : Z) : out (timing * option terr) -> Prop :=
| SR_err e : (t_cb (g_timers g id) = false \/ d < 1 \/ t_status (g_timers g id) <> Unset \/ t_on (g_timers g id) = true) ->
    start_result g id d now (Done (g, Some e))
| SR_ok rm g1 g' : t_cb (g_timers g id) = true -> 1 <= d -> t_status (g_timers g id) = Unset -> can_start g ->
    ~ In id (ids g) -> ~ In id (ids g1) ->
    swept g rm g1 -> HI g1 -> HI g' ->
    Permutation (g_heap g') ({| b_timer := id; b_when := when_ d now |} :: g_heap g1) ->
    (forall k, g_timers g' k = tset (g_timers g1) id
      {| t_when := when_ d now; t_period := t_period (g_timers g id); t_status := Waiting; t_cb := true; t_on := true |} k) ->
    g_log g' = g_log g ++ [EArm id (when_ d now)] ->
    start_result g id d now (Done (g', None))
| SR_crash : t_status (g_timers g id) = Unset -> g_heap g <> [] -> ~ has_waiting g -> start_result g id d now Crash.

Lemma Start_spec g id d now : G g -> start_result g id d now (Start g id d now).
Proof.
  intros HG. pose proof (g_hi g HG) as Hi. unfold Start.
  destruct (t_cb (g_timers g id)) eqn:Ecb; cbn [negb]; [|constructor; auto].
  destruct (Z.ltb_spec d 1); [constructor; auto|].
  destruct (t_status (g_timers g id)) eqn:Es; try (constructor; right; right; left; rewrite Es; discriminate).
  destruct (t_on (g_timers g id)) eqn:Eon; [constructor; auto|].
  assert (Hnin : ~ In id (ids g)).
  { intros Hin. unfold ids in Hin. apply in_map_iff in Hin. destruct Hin as (b & <- & Hb).
    destruct (hi_st g Hi b Hb) as [_ Ho]. congruence. }
  set (g0 := s_log _ _).
  assert (Hid : g_timers g0 id = {| t_when := when_ d now; t_period := t_period (g_timers g id); t_status := Waiting; t_cb := true; t_on := true |}).
  { unfold g0. cbn [g_timers s_log s_timer set_status]. rewrite !tset_eq. unfold w_on, w_when, w_status. cbn. now rewrite Ecb. }
  assert (Hoth : forall k, k <> id -> g_timers g0 k = g_timers g k).
  { intros k Hk. unfold g0. cbn [g_timers s_log s_timer set_status]. now rewrite !tset_neq. }
  assert (Hbn : forall b, In b (g_heap g) -> b_timer b <> id).
  { intros b Hb E. apply Hnin. rewrite <- E. unfold ids. now apply in_map. }
  assert (Hi0 : HI g0).
  { constructor; try apply Hi. intros b Hb. rewrite Hoth by (apply Hbn; exact Hb). now apply Hi. }
  assert (W : has_waiting g0 <-> has_waiting g).
  { split; intros (b & Hb & Hs); exists b; split; auto; [rewrite Hoth in Hs|rewrite Hoth]; auto; apply Hbn; exact Hb. }
  destruct (AddTimer_spec g0 id Hi0 Hnin) as [A1 A2]. { now rewrite Hid. }
  destruct (can_start_dec g Hi) as [Hc|[H1 H2]].
  - destruct A1 as (rm & g1 & g' & E & S1 & Hi1 & Hi' & HP & Ht & Hl). { destruct Hc; [now left|right; tauto]. }
    rewrite E. cbn [obind]. rewrite Hid in HP, Ht. cbn [t_when w_on t_period t_status t_cb t_on] in HP, Ht.
    (* express the sweep on g itself *)
    pose proof S1 as (P1 & D1 & O1 & R1 & L1).
    assert (Hrm : ~ In id (map b_timer rm)).
    { intros Hr. apply Hnin. unfold ids. eapply Permutation_in; [symmetry; apply Permutation_map; exact P1|].
      rewrite map_app. apply in_or_app. auto. }
    assert (Hn1 : ~ In id (ids g1)).
    { intros Hr. apply Hnin. unfold ids. eapply Permutation_in; [symmetry; apply Permutation_map; exact P1|].
      rewrite map_app. apply in_or_app. auto. }
    set (g1' := {| g_heap := g_heap g1; g_timers := tset (g_timers g1) id (g_timers g id); g_t0 := g_t0 g1; g_me := g_me g1;
                   g_count := g_count g1; g_del := g_del g1; g_log := g_log g |}).
    apply (SR_ok g id d now rm g1' g'); auto.
    + repeat split.
      * exact P1.
      * intros b Hb. rewrite <- Hoth; auto. intros Eb. apply Hrm. rewrite <- Eb. now apply in_map.
      * intros k Hk. cbn [g_timers g1']. destruct (Z.eq_dec k id) as [->|Hne]; [now rewrite tset_eq|].
        rewrite tset_neq by auto. rewrite O1, Hoth; auto.
      * cbn [g_timers g1']. rewrite tset_neq by congruence. now apply R1.
      * cbn [g_timers g1']. rewrite tset_neq by congruence. now apply R1.
      * cbn [g_timers g1']. rewrite tset_neq by congruence. rewrite <- Hoth by congruence. now apply R1.
      * cbn [g_timers g1']. rewrite tset_neq by congruence. rewrite <- Hoth by congruence. now apply R1.
      * cbn [g_timers g1']. rewrite tset_neq by congruence. rewrite <- Hoth by congruence. now apply R1.
    + constructor; try apply Hi1. intros b Hb. cbn [g_timers g1'].
      rewrite tset_neq. { now apply Hi1. } intros Eb. apply Hn1. rewrite <- Eb. unfold ids. now apply in_map.
    + intros k. rewrite Ht. cbn [g_timers g1']. unfold tset. now destruct (k =? id).
  - rewrite A2; [constructor; auto|exact H1|tauto].
Qed.

Lemma swept_stop g rm g' id : HI g -> swept g rm g' -> t_status (g_timers g' id) = Deleted ->
  t_status (g_timers g id) = Deleted.
Proof.
  intros Hi (P1 & D1 & O1 & R1 & L1) H.
  destruct (in_dec Z.eq_dec id (map b_timer rm)) as [Hr|Hr].
  - destruct (R1 id Hr) as (E&_). congruence.
  - now rewrite <- O1.
Qed.

Lemma G_swept g rm g' : G g -> swept g rm g' -> HI g' -> G g'.
Proof.
  intros HG S1 Hi'. pose proof (g_hi g HG) as Hi. constructor; auto.
  - intros id Hn. destruct (swept_out g rm g' Hi S1 id Hn) as [(_&->&->)|[Hn' ->]]; auto. now apply HG.
  - intros id Hd. pose proof S1 as (P1 & D1 & O1 & R1 & L1). rewrite L1. apply HG.
    exact (swept_stop g rm g' id Hi S1 Hd).
Qed.

Lemma G_Start g id d now r : G g -> Start g id d now = Done r -> G (fst r).
Proof.
  intros HG H. pose proof (Start_spec g id d now HG) as SR. rewrite H in SR. inversion SR; subst; cbn [fst]; auto.
  match goal with S : swept g rm g1 |- _ => pose proof (G_swept _ _ _ HG S ltac:(assumption)) as HG1 end.
  constructor; auto.
  - intros k Hn. match goal with HT : forall k, g_timers g' k = _ |- _ => rewrite HT end.
    rewrite (ids_perm _ _ _ ltac:(eassumption)) in Hn. cbn [b_timer] in Hn.
    rewrite tset_neq by tauto. apply HG1. tauto.
  - intros k. match goal with HT : forall k, g_timers g' k = _ |- _ => rewrite HT end.
    unfold tset. destruct (Z.eqb_spec k id); [discriminate|]. intros Hd.
    match goal with L : g_log g' = _ |- _ => rewrite L end. apply in_or_app. left.
    match goal with S : swept g rm g1 |- _ => apply (g_stop g HG), (swept_stop g rm g1 k (g_hi g HG) S Hd) end.
Qed.

Lemma G_Tick g id f i now r : G g -> Tick g id f i now = Done r -> G (fst r).
Proof.
  intros HG H. unfold Tick in H. destruct (_ || _); [inv_done H; subst; auto|].
  eapply G_Start; [|exact H]. pose proof (g_hi g HG) as Hi.
  assert (E : forall k, t_status (g_timers (s_timer g id (w_period (g_timers g id) i)) k) = t_status (g_timers g k) /\
                        t_on (g_timers (s_timer g id (w_period (g_timers g id) i)) k) = t_on (g_timers g k)).
  { intros k. cbn [g_timers s_timer]. unfold tset. destruct (Z.eqb_spec k id) as [->|]; auto. }
  constructor.
  - constructor; try apply Hi. intros b Hb. destruct (E (b_timer b)) as [-> ->]. now apply Hi.
  - intros k Hk. destruct (E k) as [-> ->]. now apply HG.
  - intros k Hk. destruct (E k) as [E1 _]. rewrite E1 in Hk. now apply HG.
Qed.

Lemma G_status g id : G g ->
  (t_status (g_timers g id) = Waiting \/ t_status (g_timers g id) = Deleted -> In id (ids g)) /\
  (t_status (g_timers g id) = Unset \/ t_status (g_timers g id) = Removed \/
   t_status (g_timers g id) = Waiting \/ t_status (g_timers g id) = Deleted).
Proof.
  intros HG. destruct (in_dec Z.eq_dec id (ids g)) as [H|H].
  - split; auto. unfold ids in H. apply in_map_iff in H. destruct H as (b & <- & Hb).
    destruct (hi_st g (g_hi g HG) b Hb) as [[->| ->] _]; auto.
  - destruct (g_out g HG id H) as [[->| ->] _]; split; auto; intros [?|?]; discriminate.
Qed.

Lemma Stop_cases g id : G g ->
  (exists e, Stop g id = Done (g, Some e)) \/
  (Stop g id = Done (g, None) /\ (t_status (g_timers g id) = Deleted \/ t_status (g_timers g id) = Removed)) \/
  (exists g', Stop g id = Done (g', None) /\ t_status (g_timers g id) = Waiting /\ g_heap g' = g_heap g /\
     g_t0 g' = g_t0 g /\ g_me g' = g_me g /\ g_log g' = g_log g ++ [EStop id] /\
     g_timers g' = tset (g_timers g) id (w_status (g_timers g id) Deleted)).
Proof.
  intros HG. unfold Stop. destruct (t_cb _); cbn [negb]; [|eauto].
  destruct (G_status g id HG) as [Hin [H|[H|[H|H]]]]; rewrite H; eauto.
  assert (Ho : t_on (g_timers g id) = true).
  { specialize (Hin (or_introl H)). unfold ids in Hin. apply in_map_iff in Hin. destruct Hin as (b & <- & Hb).
    now apply (g_hi g HG). }
  rewrite Ho. right. right. eexists. split; [reflexivity|]. repeat split; auto.
Qed.

Lemma G_Stop g id r : G g -> Stop g id = Done r -> G (fst r).
Proof.
  intros HG H. pose proof (g_hi g HG) as Hi.
  destruct (Stop_cases g id HG) as [[e E]|[[E _]|(g' & E & Hs & Eh & Et & Em & El & Ett)]]; rewrite E in H; inv_done H; subst r; auto.
  cbn [fst]. assert (Hin : In id (ids g)) by (apply (G_status g id HG); auto).
  assert (Hids : ids g' = ids g) by (unfold ids; now rewrite Eh).
  constructor.
  - constructor; rewrite ?Hids, ?Eh, ?Em, ?Et; try apply Hi.
    intros b Hb. rewrite Ett. unfold tset. destruct (Z.eqb_spec (b_timer b) id) as [<-|]; [|now apply Hi].
    cbn. split; auto. now apply Hi.
  - intros k Hk. rewrite Hids in Hk. rewrite Ett, tset_neq by congruence. now apply HG.
  - intros k Hk. rewrite El. apply in_or_app. rewrite Ett in Hk. unfold tset in Hk.
    destruct (Z.eqb_spec k id) as [E0|E0]; [right; left; congruence|left; now apply HG].
Qed.

(** ** Compacting *)

Lemma at_app l r i : (i < length l)%nat -> at_ (l ++ r) i = at_ l i.
Proof. intros H. unfold at_. now rewrite nth_error_app1. Qed.

Lemma upd_app {A} (l r : list A) i x : (i < length l)%nat -> upd (l ++ r) i x = upd l i x ++ r.
Proof.
  revert i. induction l as [|a l IH]; cbn; intros i H; [lia|]. destruct i; cbn; auto. rewrite IH by lia. reflexivity.
Qed.

Lemma siftup_loop_app r : forall fuel l w i, (i < length l)%nat ->
  siftup_loop fuel (l ++ r) w i = (let! x := siftup_loop fuel l w i in Ok (fst x ++ r, snd x)).
Proof.
  induction fuel as [|f IH]; intros l w i Hi; destruct i as [|i']; cbn [siftup_loop]; auto.
  assert (Hp : (Nat.div i' heapAry < length l)%nat) by (unfold heapAry; lia).
  rewrite at_app by auto. destruct (at_ok l _ Hp) as (b & E & _). rewrite E. cbn [bind].
  destruct (_ <=? _); [reflexivity|]. rewrite upd_app by auto. apply IH. now rewrite upd_length.
Qed.

Lemma siftup_loop_range : forall fuel l w i l' j, siftup_loop fuel l w i = Ok (l', j) ->
  (j <= i)%nat /\ length l' = length l.
Proof.
  induction fuel as [|f IH]; intros l w i l' j; destruct i as [|i']; cbn [siftup_loop]; intros H.
  - injection H as <- <-. auto.
  - discriminate.
  - injection H as <- <-. auto.
  - destruct (at_ l _); cbn [bind] in H; [|discriminate]. destruct (_ <=? _); [injection H as <- <-; auto|].
    apply IH in H. rewrite upd_length in H. unfold heapAry in H. lia.
Qed.

Lemma SiftUp_app l r i : (i < length l)%nat ->
  SiftUpTimer (l ++ r) i = (let! x := SiftUpTimer l i in Ok (fst x ++ r, snd x)).
Proof.
  intros Hi. unfold SiftUpTimer. rewrite at_app by auto. destruct (at_ok l i Hi) as (b & E & _). rewrite E. cbn [bind].
  rewrite siftup_loop_app by auto. destruct (siftup_loop i l (b_when b) i) as [[l' j]|] eqn:E1; cbn [bind fst snd]; [|reflexivity].
  apply siftup_loop_range in E1. destruct E1 as [H1 H2]. rewrite at_app by lia.
  destruct (at_ok l' j) as (c & E2 & _); [lia|]. rewrite E2. cbn [bind fst snd].
  destruct (bucket_eqb b c); auto. now rewrite upd_app by lia.
Qed.

Definition waiting (g : timing) (b : bucket) : bool :=
  match t_status (g_timers g (b_timer b)) with Waiting => true | _ => false end.

Lemma upd_mid {A} (p q : list A) x y : upd (p ++ x :: q) (length p) y = p ++ y :: q.
Proof. induction p as [|a p IH]; cbn; congruence. Qed.

(** The loop keeps the waiting entries in a heap at the front. *)
Lemma clear_loop_spec : forall todo i p q r g ch cd,
  heap_ordered p -> (ch = false -> q = []) -> todo = seq i (length r) -> i = length (p ++ q) ->
  (ch = false -> heap_ordered (p ++ r)) ->
  NoDup (map b_timer r) ->
  (forall b, In b r -> t_status (g_timers g (b_timer b)) = Waiting \/ t_status (g_timers g (b_timer b)) = Deleted) ->
  exists g' arr' to' cd' p', clear_loop todo g (p ++ q ++ r) (length p) ch cd = Done (g', arr', to', cd') /\
    firstn to' arr' = p' /\ heap_ordered p' /\ Permutation p' (p ++ filter (waiting g) r) /\
    g_heap g' = g_heap g /\ g_log g' = g_log g /\ g_me g' = g_me g /\ g_t0 g' = g_t0 g /\
    (forall k, ~ (exists b, In b r /\ b_timer b = k /\ t_status (g_timers g k) = Deleted) -> g_timers g' k = g_timers g k) /\
    (forall k, (exists b, In b r /\ b_timer b = k /\ t_status (g_timers g k) = Deleted) ->
       g_timers g' k = w_on (w_status (g_timers g k) Removed) false).
Proof.
  induction todo as [|t todo IH]; intros i p q r g ch cd Hp Hq Ht Hi Hpr Hnd Hst.
  - destruct r; [|discriminate]. rewrite app_nil_r. cbn [clear_loop].
    exists g, (p ++ q), (length p), cd, p. split; [reflexivity|]. split.
    { rewrite firstn_app, firstn_all, Nat.sub_diag. cbn. now rewrite app_nil_r. }
    cbn [filter]. rewrite app_nil_r. repeat (split; auto). intros k (b & [] & _).
  - destruct r as [|b r]; [discriminate|]. cbn [length seq] in Ht. injection Ht as Et Ht. subst t.
    assert (Hi' : S i = length ((p ++ q) ++ [b])) by (rewrite app_length; cbn; lia).
    cbn [clear_loop].
    assert (Ea : at_ (p ++ q ++ b :: r) i = Ok b).
    { unfold at_. rewrite app_assoc, nth_error_app2 by lia. rewrite <- Hi, Nat.sub_diag. reflexivity. }
    rewrite Ea. cbn [lift obind]. cbn [map] in Hnd. inversion Hnd as [|? ? Hnin Hnd']; subst.
    destruct (Hst b (or_introl eq_refl)) as [Hs|Hs]; rewrite Hs.
    + assert (Hk : forall k, (exists b0, In b0 (b :: r) /\ b_timer b0 = k /\ t_status (g_timers g k) = Deleted) <->
                    (exists b0, In b0 r /\ b_timer b0 = k /\ t_status (g_timers g k) = Deleted)).
      { intros k. split.
        - intros (b0 & [<-|Hb] & E1 & E2); [subst k; congruence|eauto].
        - intros (b0 & Hb & E1 & E2). exists b0. split; [now right|auto]. }
      assert (Ef : filter (waiting g) (b :: r) = b :: filter (waiting g) r).
      { cbn [filter]. unfold waiting at 1. now rewrite Hs. }
      destruct ch.
      * (* something was removed before: move into place *)
        destruct q as [|x q].
        { (* the slot written is the entry's own *)
          cbn [app]. rewrite upd_mid.
          change (p ++ b :: r) with (p ++ [b] ++ r). rewrite app_assoc, SiftUp_app by (rewrite app_length; cbn; lia).
          destruct (add_spec p b Hp) as (l' & E1 & HP & Ho). unfold heap_add in E1.
          destruct (SiftUpTimer (p ++ [b]) (length p)) as [[l1 j]|]; cbn [bind fst] in E1; [|discriminate].
          injection E1 as ->. cbn [bind fst snd lift obind].
          assert (Hl : length l' = S (length p)) by (apply Permutation_length in HP; cbn in HP; lia).
          rewrite <- Hl.
          destruct (IH (S (length (p ++ []))) l' [] r g true cd) as (g' & arr' & to' & cd' & p' & E & F1 & F2 & F3 & F4 & F5 & F6 & F7 & F8 & F9); auto; try discriminate.
          { now rewrite !app_nil_r, Hl. } { intros; apply Hst; now right. }
          cbn [app] in E. rewrite E.
          exists g', arr', to', cd', p'. repeat (split; auto).
          - rewrite F3, HP, Ef. cbn. apply Permutation_middle.
          - intros k Hk1. apply F8. rewrite <- Hk. exact Hk1.
          - intros k Hk1. apply F9. rewrite <- Hk. exact Hk1. }
        { cbn [app]. rewrite upd_mid.
          change (p ++ b :: q ++ b :: r) with (p ++ [b] ++ (q ++ b :: r)). rewrite app_assoc, SiftUp_app by (rewrite app_length; cbn; lia).
          destruct (add_spec p b Hp) as (l' & E1 & HP & Ho). unfold heap_add in E1.
          destruct (SiftUpTimer (p ++ [b]) (length p)) as [[l1 j]|]; cbn [bind fst] in E1; [|discriminate].
          injection E1 as ->. cbn [bind fst snd lift obind].
          assert (Hl : length l' = S (length p)) by (apply Permutation_length in HP; cbn in HP; lia).
          rewrite <- Hl.
          destruct (IH (S (length (p ++ x :: q))) l' (q ++ [b]) r g true cd) as (g' & arr' & to' & cd' & p' & E & F1 & F2 & F3 & F4 & F5 & F6 & F7 & F8 & F9); auto; try discriminate.
          { rewrite !app_length, Hl. cbn [length]. lia. } { intros; apply Hst; now right. }
          rewrite <- app_assoc in E. cbn [app] in E. rewrite E.
          exists g', arr', to', cd', p'. repeat (split; auto).
          - rewrite F3, HP, Ef. cbn. apply Permutation_middle.
          - intros k Hk1. apply F8. rewrite <- Hk. exact Hk1.
          - intros k Hk1. apply F9. rewrite <- Hk. exact Hk1. }
      * rewrite (Hq eq_refl) in *. cbn [app] in *.
        destruct (IH (S (length (p ++ []))) (p ++ [b]) [] r g false cd) as (g' & arr' & to' & cd' & p' & E & F1 & F2 & F3 & F4 & F5 & F6 & F7 & F8 & F9); auto.
        { specialize (Hpr eq_refl). intros j u v Hu Hv.
          assert (Hj : (S j < length (p ++ [b]))%nat) by (apply nth_error_Some; congruence).
          apply (Hpr j); change (p ++ b :: r) with (p ++ [b] ++ r); rewrite app_assoc, nth_error_app1; auto. lia. }
        { rewrite !app_nil_r, app_length. cbn. lia. }
        { intros _. specialize (Hpr eq_refl). rewrite <- app_assoc. exact Hpr. }
        { intros; apply Hst; now right. }
        rewrite <- app_assoc in E. cbn [app] in E.
        replace (length (p ++ [b])) with (S (length p)) in E by (rewrite app_length; cbn; lia). rewrite E.
        exists g', arr', to', cd', p'. repeat (split; auto).
        -- rewrite F3, Ef, <- app_assoc. reflexivity.
        -- intros k Hk1. apply F8. rewrite <- Hk. exact Hk1.
        -- intros k Hk1. apply F9. rewrite <- Hk. exact Hk1.
    + set (g1 := s_timer g (b_timer b) _).
      assert (Hk1 : forall k, k <> b_timer b -> g_timers g1 k = g_timers g k).
      { intros k Hk. unfold g1. cbn [g_timers s_timer]. now apply tset_neq. }
      assert (Hin : forall c, In c r -> b_timer c <> b_timer b).
      { intros c Hc E. apply Hnin. rewrite <- E. now apply in_map. }
      destruct (IH (S (length (p ++ q))) p (q ++ [b]) r g1 true (cd + 1)) as (g' & arr' & to' & cd' & p' & E & F1 & F2 & F3 & F4 & F5 & F6 & F7 & F8 & F9); auto; try discriminate.
      { rewrite !app_length. cbn. lia. }
      { intros c Hc. rewrite Hk1 by auto. apply Hst. now right. }
      rewrite <- app_assoc in E. cbn [app] in E. rewrite E.
      exists g', arr', to', cd', p'. repeat (split; auto).
      * assert (Ef : filter (waiting g) (b :: r) = filter (waiting g) r).
        { cbn [filter]. unfold waiting at 1. now rewrite Hs. }
        rewrite F3, Ef. apply Permutation_app_head.
        assert (Ex : filter (waiting g1) r = filter (waiting g) r).
        { apply filter_ext_in. intros c Hc. unfold waiting. now rewrite Hk1 by auto. }
        now rewrite Ex.
      * intros k Hk. assert (Hne : k <> b_timer b).
        { intros ->. apply Hk. exists b. split; [now left|auto]. }
        rewrite F8, Hk1; auto. intros (c & Hc & <- & Hd). apply Hk. exists c. split; [now right|].
        split; auto. now rewrite Hk1 in Hd by auto.
      * intros k (c & [<-|Hc] & Ec & Hd).
        -- subst k. rewrite F8. { unfold g1. cbn [g_timers s_timer]. now rewrite tset_eq. }
           intros (c & Hc & Ec & _). now apply (Hin c).
        -- subst k. rewrite F9. { rewrite Hk1 by auto. reflexivity. }
           exists c. rewrite Hk1 by auto. auto.
Qed.

Lemma filter_perm_split {A} (f : A -> bool) l : Permutation l (filter (fun x => negb (f x)) l ++ filter f l).
Proof.
  induction l as [|a l IH]; cbn [filter]; auto. destruct (f a); cbn [negb].
  - rewrite IH at 1. apply Permutation_middle.
  - cbn. now rewrite IH at 1.
Qed.

Lemma clearDeleted_spec g : HI g -> exists rm g', clearDeletedTimers g = Done g' /\ swept g rm g' /\ HI g'.
Proof.
  intros Hi. unfold clearDeletedTimers.
  destruct (clear_loop_spec (seq 0 (length (g_heap g))) 0 [] [] (g_heap g) (s_me g 0) false 0)
    as (g' & arr' & to' & cd' & p' & E & F1 & F2 & F3 & F4 & F5 & F6 & F7 & F8 & F9); auto.
  { intros i a b H. destruct i; discriminate. }
  { intros _. apply Hi. } { apply Hi. } { intros b Hb. now apply (hi_st g Hi b Hb). }
  cbn [app length] in E. cbn [g_heap s_me]. rewrite E. cbn [obind]. rewrite F1.
  set (rm := filter (fun b => negb (waiting g b)) (g_heap g)).
  cbn [app] in F3. change (filter (waiting (s_me g 0)) (g_heap g)) with (filter (waiting g) (g_heap g)) in F3.
  assert (HP : Permutation (g_heap g) (rm ++ p')) by (rewrite F3; apply filter_perm_split).
  assert (Hrm : forall b, In b rm <-> In b (g_heap g) /\ t_status (g_timers g (b_timer b)) = Deleted).
  { intros b. unfold rm. rewrite filter_In. unfold waiting. split; intros [Hb Hs]; split; auto.
    - destruct (proj1 (hi_st g Hi b Hb)) as [H|H]; auto. rewrite H in Hs. discriminate.
    - now rewrite Hs. }
  assert (Hex : forall k, In k (map b_timer rm) <-> exists b, In b (g_heap g) /\ b_timer b = k /\ t_status (g_timers (s_me g 0) k) = Deleted).
  { intros k. rewrite in_map_iff. split.
    - intros (b & <- & Hb). apply Hrm in Hb. exists b. tauto.
    - intros (b & Hb & <- & Hd). exists b. split; auto. now apply Hrm. }
  match goal with |- context [updateTimer0When ?y] => set (x := y) end.
  assert (U : g_heap (updateTimer0When x) = p' /\ g_timers (updateTimer0When x) = g_timers g' /\
     g_me (updateTimer0When x) = 0 /\ g_t0 (updateTimer0When x) = first_when p' /\
     g_log (updateTimer0When x) = g_log g).
  { unfold updateTimer0When, x. cbn [g_heap s_heap]. destruct p'; repeat split; auto; cbn [g_me s_t0 s_heap s_count s_del]; rewrite F6; reflexivity. }
  destruct U as (U1 & U2 & U3 & U4 & U5).
  exists rm, (updateTimer0When x). split; [reflexivity|]. split.
  - split; [rewrite U1; exact HP|]. split; [intros b Hb; now apply Hrm|]. rewrite U2, U5. split; [|split; [|reflexivity]].
    + intros k Hk. rewrite F8; auto. now rewrite <- Hex.
    + intros k Hk. rewrite F9 by (now apply Hex). cbn. auto.
  - assert (Hnd : NoDup (map b_timer rm ++ map b_timer p')).
    { rewrite <- map_app. eapply Permutation_NoDup; [apply Permutation_map; exact HP|apply Hi]. }
    constructor; unfold ids; rewrite ?U1, ?U2, ?U3, ?U4; auto.
    + eapply nd_app_r; exact Hnd.
    + intros b Hb. rewrite F8.
      * apply Hi. eapply Permutation_in; [symmetry; exact HP|]. apply in_or_app. auto.
      * rewrite <- Hex. intros H. eapply nd_app_disj; eauto. now apply in_map.
Qed.

(** ** Firing *)


Lemma G_user_step g now o g' : no_reset o -> G g -> user_step g now o = Done g' -> G g'.
Proof.
  intros Hn HG H. destruct o; cbn [user_step] in H; try destruct Hn; inv_done H; inv_done H; subst g';
    eauto using G_Start, G_Tick, G_Stop.
Qed.

Lemma G_user_steps ops : forall g now g', Forall no_reset ops -> G g -> user_steps g now ops = Done g' -> G g'.
Proof.
  induction ops as [|o ops IH]; intros g now g' Hn HG H; cbn [user_steps] in H.
  - inv_done H. now subst.
  - inv_done H. inversion Hn; subst. eauto using G_user_step.
Qed.

(** The state just before a callback runs. *)
Definition fired (g : timing) (id now : Z) (g' : timing) : Prop :=
  exists g1 b tl, deleteTimer0 (set_status g id Running) = Done g1 /\ g_heap g = b :: tl /\ b_timer b = id /\
    g' = s_log (set_status g1 id Unset) (EFire id now).

Lemma fire_oneshot g b tl now : G g -> g_heap g = b :: tl -> t_status (g_timers g (b_timer b)) = Waiting ->
  exists g1, deleteTimer0 (set_status g (b_timer b) Running) = Done g1 /\
   let g' := s_log (set_status g1 (b_timer b) Unset) (EFire (b_timer b) now) in
   G g' /\ Permutation (g_heap g) (b :: g_heap g') /\ g_log g' = g_log g ++ [EFire (b_timer b) now] /\
   (forall k, k <> b_timer b -> g_timers g' k = g_timers g k) /\
   t_period (g_timers g' (b_timer b)) = t_period (g_timers g (b_timer b)) /\
   (length (g_heap g') < length (g_heap g))%nat.
Proof.
  intros HG E Hs. pose proof (g_hi g HG) as Hi.
  destruct (deleteTimer0_spec (set_status g (b_timer b) Running) b tl) as
    (g1 & E1 & HP & Ho & Ht & Hme & Ht0 & Hl & _ & Hlen).
  { apply Hi. } { exact E. } { apply Hi. }
  exists g1. split; [exact E1|]. cbv zeta. cbn [g_heap set_status s_timer] in HP, Hlen.
  assert (Hnd : NoDup (map b_timer (b :: g_heap g1))) by (eapply perm_ids; [exact HP|apply Hi]).
  cbn in Hnd. inversion Hnd as [|? ? Hnin Hnd']; subst.
  set (g' := s_log _ _).
  assert (Hk : forall k, k <> b_timer b -> g_timers g' k = g_timers g k).
  { intros k Hk. unfold g'. cbn [g_timers s_log set_status s_timer]. rewrite tset_neq by auto.
    rewrite Ht, tset_neq by auto. now apply set_status_other. }
  assert (Hb : g_timers g' (b_timer b) = {| t_when := t_when (g_timers g (b_timer b)); t_period := t_period (g_timers g (b_timer b));
     t_status := Unset; t_cb := t_cb (g_timers g (b_timer b)); t_on := false |}).
  { unfold g'. cbn [g_timers s_log set_status s_timer]. rewrite tset_eq, Ht, tset_eq. cbn [g_timers set_status s_timer].
    rewrite tset_eq. reflexivity. }
  assert (Hbk : forall c, In c (g_heap g1) -> b_timer c <> b_timer b).
  { intros c Hc Eb. apply Hnin. rewrite <- Eb. now apply in_map. }
  split; [|rewrite Hb; repeat split; auto; unfold g'; cbn [g_log s_log set_status s_timer]; rewrite Hl; reflexivity].
  constructor.
  - constructor; auto.
    intros c Hc. rewrite Hk by (apply Hbk; exact Hc). apply Hi.
    eapply Permutation_in; [symmetry; exact HP|]. now right.
  - intros k Hn. destruct (Z.eq_dec k (b_timer b)) as [->|Hne]; [rewrite Hb; cbn; auto|].
    rewrite Hk by auto. apply HG. intros Hin. apply Hn. unfold ids in *.
    apply (Permutation_in k (Permutation_map b_timer HP)) in Hin. cbn in Hin. destruct Hin; [congruence|auto].
  - intros k Hd. destruct (Z.eq_dec k (b_timer b)) as [->|Hne]; [rewrite Hb in Hd; discriminate|].
    rewrite Hk in Hd by auto. unfold g'. cbn [g_log s_log set_status s_timer]. rewrite Hl. apply in_or_app. left. now apply HG.
Qed.

Lemma siftdown_heap l : heap_ordered l -> l <> [] -> exists l', SiftDownTimer l 0 = Ok l' /\ Permutation l l' /\ heap_ordered l'.
Proof.
  intros Ho Hne. destruct (siftdown_spec l 0) as (l' & E & HP & Hh).
  { destruct l; [congruence|cbn; lia]. } { split; [now apply heap_near|]. intros; lia. }
  exists l'. auto.
Qed.

Lemma G_runOneTimer h g b tl now g' : (forall id, Forall no_reset (h id)) -> G g -> g_heap g = b :: tl ->
  t_status (g_timers g (b_timer b)) = Waiting ->
  runOneTimer h (set_status g (b_timer b) Running) (b_timer b) now = Done g' -> G g'.
Proof.
  intros Hh HG E Hs H. pose proof (g_hi g HG) as Hi. unfold runOneTimer in H. inv_done H.
  eapply G_user_steps; [apply Hh| |exact H]. clear H g'.
  destruct (0 <? _) in Hd.
  - destruct (siftdown_heap (g_heap g) (hi_ord g Hi)) as (l' & E1 & HP & Ho). { rewrite E. discriminate. }
    cbn [g_heap s_timer set_status] in Hd. rewrite E1 in Hd. cbn [lift obind] in Hd. inv_done Hd.
    set (id := b_timer b) in *. set (w := next_when _ _ _) in Hd. clearbody w.
    set (g1 := set_status _ id Waiting) in Hd.
    assert (U : g_heap (updateTimer0When g1) = l' /\ g_timers (updateTimer0When g1) = g_timers g1 /\
     g_me (updateTimer0When g1) = 0 /\ g_t0 (updateTimer0When g1) = first_when l' /\ g_log (updateTimer0When g1) = g_log g).
    { unfold updateTimer0When. replace (g_heap g1) with l' by reflexivity. destruct l'; repeat split; auto; apply Hi. }
    destruct U as (U1 & U2 & U3 & U4 & U5).
    assert (Hk : forall k, k <> id -> g_timers a k = g_timers g k).
    { intros k Hk. subst a. cbn [g_timers s_log]. rewrite U2. unfold g1. cbn [g_timers set_status s_timer s_heap]. now rewrite !tset_neq. }
    assert (Hb : t_status (g_timers a id) = Waiting /\ t_on (g_timers a id) = true).
    { subst a. cbn [g_timers s_log]. rewrite U2. unfold g1. cbn [g_timers set_status s_timer s_heap]. rewrite !tset_eq. cbn.
      split; auto. apply (hi_st g Hi b). rewrite E. now left. }
    assert (Hmem : forall c, In c l' -> In c (g_heap g)) by (intros c Hc; eapply Permutation_in; [symmetry; exact HP|exact Hc]).
    constructor.
    + constructor; subst a; unfold ids; cbn [g_heap g_me g_t0 s_log]; rewrite ?U1, ?U3, ?U4; auto.
      * eapply perm_ids; [exact HP|apply Hi].
      * intros c Hc. destruct (Z.eq_dec (b_timer c) id) as [Ec|Hne]; [rewrite Ec; tauto|].
        rewrite Hk by auto. apply Hi. auto.
    + intros k Hn. assert (Hin : ~ In k (ids g)).
      { intros Hin. apply Hn. subst a. unfold ids. cbn [g_heap s_log]. rewrite U1.
        eapply Permutation_in; [apply Permutation_map; exact HP|exact Hin]. }
      rewrite Hk; [now apply HG|]. intros ->. apply Hin. unfold ids. rewrite E. now left.
    + intros k Hd0. destruct (Z.eq_dec k id) as [->|Hne]; [destruct Hb; congruence|]. rewrite Hk in Hd0 by auto.
      subst a. cbn [g_log s_log]. rewrite U5. rewrite <- app_assoc. apply in_or_app. left. now apply HG.
  - destruct (fire_oneshot g b tl now HG E Hs) as (g1 & E1 & F). cbv zeta in F. rewrite E1 in Hd. cbn [obind] in Hd.
    inv_done Hd. subst a. apply F.
Qed.

Lemma G_runTimer h fuel : forall g now r, (forall id, Forall no_reset (h id)) -> G g ->
  runTimer fuel h g now = Done r -> G (fst r).
Proof.
  induction fuel as [|f IH]; intros g now r Hh HG H; cbn [runTimer] in H; [discriminate|].
  destruct (g_heap g) as [|b tl] eqn:E; cbn [at_ nth_error lift obind] in H; [discriminate|].
  destruct (t_status _) eqn:Es in H; try discriminate.
  - destruct (_ <? _) in H; [inv_done H; now subst|]. inv_done H. inv_done H. subst r. cbn [fst].
    eapply G_runOneTimer; eauto.
  - destruct (drop_deleted g b tl (g_hi g HG) E Es) as (g1 & E1 & S1 & Hi1 & _). cbv zeta in S1, Hi1.
    rewrite E1 in H. cbn [obind] in H. pose proof (G_swept _ _ _ HG S1 Hi1) as HG1.
    destruct (g_heap _) in H; [inv_done H; now subst|]. eauto.
  - inv_done H. discriminate.
  - inv_done H. discriminate.
Qed.

Lemma G_run_loop h fuel : forall g now ran r, (forall id, Forall no_reset (h id)) -> G g ->
  run_loop fuel h g now ran = Done r -> G (fst (fst r)).
Proof.
  induction fuel as [|f IH]; intros g now ran r Hh HG H; cbn [run_loop] in H.
  - destruct (g_heap g); [inv_done H; now subst|discriminate].
  - destruct (g_heap g); [inv_done H; now subst|]. inv_done H. destruct a as [g1 tw].
    apply G_runTimer in Hd; auto. cbn [fst] in Hd. destruct (tw =? 0); [eauto|]. inv_done H. now subst.
Qed.

Lemma G_checkTimers h fuel g now r : (forall id, Forall no_reset (h id)) -> G g ->
  checkTimers fuel h g now = Done r -> G (fst (fst r)).
Proof.
  intros Hh HG H. unfold checkTimers in H. destruct (_ =? 0); [inv_done H; now subst|].
  destruct (_ && _); [inv_done H; now subst|].
  inv_done H. destruct a as [[g1 nw] ran].
  assert (S1 : G g1).
  { destruct (g_heap g); [inv_done Hd; congruence|]. unfold adjustTimers in Hd. rewrite (hi_me g (g_hi g HG)) in Hd.
    cbn [Z.eqb orb obind] in Hd. apply G_run_loop in Hd; auto. }
  inv_done H. inv_done H. subst r. cbn [fst].
  destruct (_ <? _) in Hd0; [|inv_done Hd0; now subst].
  destruct (clearDeleted_spec g1 (g_hi g1 S1)) as (rm & g2 & E2 & S2 & Hi2). rewrite E2 in Hd0. inv_done Hd0. subst a.
  eapply G_swept; eauto.
Qed.

Lemma G_run h ops : forall g g', (forall id, Forall no_reset (h id)) -> Forall no_reset_op ops -> G g -> run h g ops = Done g' -> G g'.
Proof.
  induction ops as [|o ops IH]; intros g g' Hh Hn HG H; cbn [run] in H.
  - inv_done H. now subst.
  - inv_done H. inversion Hn; subst. apply IH in H; auto. destruct o; cbn [step] in Hd.
    + eapply G_user_step; eauto.
    + inv_done Hd. inv_done Hd. subst a. eapply G_checkTimers; eauto.
Qed.

Lemma G_new : G new_timing.
Proof.
  constructor.
  - constructor; cbn; auto. { intros i a b H. destruct i; discriminate. } { constructor. } { intros b []. }
  - intros id _. cbn. auto.
  - intros id H. discriminate.
Qed.

(** Starting after a history without rescheduling. *)
Lemma start_total h ops g id d now : (forall id, Forall no_reset (h id)) -> Forall no_reset_op ops ->
  run h new_timing ops = Done g ->
  (exists k, pending (g_log g) k <> None) \/ (forall k, ~ In (EStop k) (g_log g)) ->
  exists r, Start g id d now = Done r.
Proof.
  intros Hh Hn Hr Hp. pose proof (G_run h ops _ _ Hh Hn G_new Hr) as HG.
  pose proof (Start_spec g id d now HG) as SR. inversion SR; eauto. exfalso.
  destruct Hp as [[k Hk]|Hs].
  - apply (history_pending h ops g Hr) in Hk.
    destruct (G_status g k HG) as [Hin [E|[E|[E|E]]]]; rewrite E in Hk; try discriminate.
    specialize (Hin (or_introl E)). apply in_map_iff in Hin. destruct Hin as (b & <- & Hb).
    apply H2. exists b. auto.
  - destruct (g_heap g) as [|b tl] eqn:Eh; [congruence|].
    assert (Hb : In b (g_heap g)) by (rewrite Eh; now left).
    destruct (proj1 (hi_st g (g_hi g HG) b Hb)) as [E|E].
    + apply H2. exists b. auto.
    + apply (Hs (b_timer b)). now apply HG.
Qed.

(** ** Single-shot histories: nothing due is lost, and due order *)

Record SI (g : timing) : Prop := {
  si_g : G g;
  si_when : forall b, In b (g_heap g) -> b_when b = t_when (g_timers g (b_timer b)) /\ 1 <= b_when b;
  si_np : forall id, t_period (g_timers g id) = 0;
  si_safe : safe g;
  si_ord : earliest_first (g_log g) }.

Lemma ef_other l e : (forall id now, e <> EFire id now) -> earliest_first l -> earliest_first (l ++ [e]).
Proof.
  intros Hne He a id now b due id' due' H. apply snoc_split in H. destruct H as [(_&_&E)|(b'&_&E)].
  - exfalso. eapply Hne. exact E.
  - eapply He. exact E.
Qed.

Lemma when_range d now : clock_ok now -> 1 <= d < 2 ^ 63 -> now < when_ d now /\ 1 <= when_ d now.
Proof.
  unfold clock_ok, when_, maxWhen, i64. intros Hc Hd.
  replace (d <=? 0) with false by lia. cbv zeta. change (2 ^ 63) with 9223372036854775808 in *.
  change (2 ^ 64) with 18446744073709551616.
  destruct (Z.ltb_spec ((now + d + 9223372036854775808) mod 18446744073709551616 - 9223372036854775808) 0); lia.
Qed.

Definition sgood (o : uop) : Prop := simple_uop o /\ match o with UStart _ d => d < 2 ^ 63 | _ => True end.

(** [later now g g']: everything newly pending is due after [now]. *)
Definition later (now : Z) (g g' : timing) : Prop :=
  forall k w, pending (g_log g') k = Some w -> w <= now -> pending (g_log g) k = Some w.

Lemma SI_Start g id d now r : clock_ok now -> d < 2 ^ 63 -> SI g -> Start g id d now = Done r ->
  SI (fst r) /\ later now g (fst r).
Proof.
  intros Hc Hd HS H. pose proof (si_g g HS) as HG.
  pose proof (G_Start _ _ _ _ _ HG H) as HG'. pose proof (safe_Start _ _ _ _ _ (si_safe g HS) H) as Hs'.
  pose proof (Start_spec g id d now HG) as SR. rewrite H in SR. inversion SR; subst; cbn [fst] in *.
  { split; [exact HS|]. intros k w Hk _. exact Hk. }
  destruct (when_range d now Hc) as [W1 W2]; [lia|].
  match goal with HT : forall k, g_timers g' k = _ |- _ => rename HT into Ht end.
  match goal with S : swept g rm g1 |- _ => pose proof S as (P1 & D1 & O1 & R1 & L1) end.
  match goal with P : Permutation (g_heap g') _ |- _ => rename P into HP end.
  assert (Hkp : forall k, t_when (g_timers g1 k) = t_when (g_timers g k) /\ t_period (g_timers g1 k) = t_period (g_timers g k)).
  { intros k. destruct (in_dec Z.eq_dec k (map b_timer rm)) as [Hi|Hi]; [now split; apply R1|]. now rewrite O1. }
  split.
  - constructor; auto.
    + intros b Hb. rewrite Ht. apply (Permutation_in b HP) in Hb. destruct Hb as [<-|Hb].
      * cbn [b_timer b_when]. rewrite tset_eq. cbn. auto.
      * rewrite tset_neq. 2:{ intros Eb. match goal with N : ~ In id (ids g1) |- _ => apply N end. rewrite <- Eb. unfold ids. now apply in_map. }
        rewrite (proj1 (Hkp _)). apply HS. eapply Permutation_in; [symmetry; exact P1|]. apply in_or_app. auto.
    + intros k. rewrite Ht. unfold tset. destruct (k =? id); [apply HS|]. rewrite (proj2 (Hkp k)). apply HS.
    + match goal with L : g_log g' = _ |- _ => rewrite L end. apply ef_other; [discriminate|apply HS].
  - intros k w. match goal with L : g_log g' = _ |- _ => rewrite L end. rewrite pending_app. cbn [pend_step].
    destruct (k =? id); auto. intros E. injection E as <-. lia.
Qed.

Lemma SI_Stop g id now r : SI g -> Stop g id = Done r -> SI (fst r) /\ later now g (fst r).
Proof.
  intros HS H. pose proof (si_g g HS) as HG. pose proof (G_Stop _ _ _ HG H) as HG'.
  pose proof (safe_Stop _ _ _ (si_safe g HS) H) as Hs'.
  destruct (Stop_cases g id HG) as [[e E]|[[E _]|(g' & E & Hs & Eh & Et & Em & El & Ett)]]; rewrite E in H; inv_done H; subst r; cbn [fst] in *.
  - split; [exact HS|]. intros k w Hk _. exact Hk.
  - split; [exact HS|]. intros k w Hk _. exact Hk.
  - assert (Hkp : forall k, t_when (g_timers g' k) = t_when (g_timers g k) /\ t_period (g_timers g' k) = t_period (g_timers g k)).
    { intros k. rewrite Ett. unfold tset. destruct (Z.eqb_spec k id) as [->|]; auto. }
    split.
    + constructor; auto.
      * intros b Hb. rewrite Eh in Hb. rewrite (proj1 (Hkp _)). now apply HS.
      * intros k. rewrite (proj2 (Hkp k)). apply HS.
      * rewrite El. apply ef_other; [discriminate|apply HS].
    + intros k w. rewrite El, pending_app. cbn [pend_step]. destruct (k =? id); [discriminate|auto].
Qed.

Lemma later_trans now a b c : later now a b -> later now b c -> later now a c.
Proof. unfold later. eauto. Qed.

Lemma SI_user_steps ops : forall g now g', clock_ok now -> Forall sgood ops -> SI g ->
  user_steps g now ops = Done g' -> SI g' /\ later now g g'.
Proof.
  induction ops as [|o ops IH]; intros g now g' Hc Hn HS H; cbn [user_steps] in H.
  - inv_done H. subst. split; auto. intros k w Hk _. exact Hk.
  - inv_done H. inversion Hn as [|? ? [Ho Hd'] Hn']; subst.
    assert (S1 : SI a /\ later now g a).
    { destruct o; cbn [simple_uop] in Ho; try tauto; cbn [user_step] in Hd; inv_done Hd; inv_done Hd; subst a;
        [eapply SI_Start|eapply SI_Stop]; eauto. }
    destruct S1 as [S1 L1]. destruct (IH _ _ _ Hc Hn' S1 H) as [S2 L2]. split; auto. eapply later_trans; eauto.
Qed.

Lemma SI_swept g rm g' : SI g -> swept g rm g' -> HI g' -> same g g' -> SI g'.
Proof.
  intros HS S1 Hi' Sm. pose proof (si_g g HS) as HG. pose proof (G_swept _ _ _ HG S1 Hi') as HG'.
  pose proof S1 as (P1 & D1 & O1 & R1 & L1). destruct Sm as [Lg Sm].
  constructor; auto.
  - intros b Hb. destruct (Sm (b_timer b)) as (->&_). apply HS. eapply Permutation_in; [symmetry; exact P1|]. apply in_or_app. auto.
  - intros k. destruct (Sm k) as (_&->&_). apply HS.
  - eapply same_safe; [|apply HS]. split; auto.
  - rewrite Lg. apply HS.
Qed.

(** Pending timers are exactly the waiting entries. *)
Lemma SI_pending g k w : SI g -> pending (g_log g) k = Some w ->
  exists b, In b (g_heap g) /\ b_timer b = k /\ b_when b = w /\ t_status (g_timers g k) = Waiting.
Proof.
  intros HS H. destruct (si_safe g HS) as [Ha _]. rewrite (Ha k) in H.
  destruct (G_status g k (si_g g HS)) as [Hin [E|[E|[E|E]]]]; rewrite E in H; try discriminate.
  specialize (Hin (or_introl E)). apply in_map_iff in Hin. destruct Hin as (b & <- & Hb).
  exists b. destruct (si_when g HS b Hb) as [-> _]. cbn [live] in H. injection H as <-. auto.
Qed.

Lemma SI_first g b tl k w : SI g -> g_heap g = b :: tl -> pending (g_log g) k = Some w -> b_when b <= w.
Proof.
  intros HS E H. destruct (SI_pending g k w HS H) as (c & Hc & _ & <- & _).
  apply (heap_first _ (hi_ord g (g_hi g (si_g g HS))) b c); auto. rewrite E. reflexivity.
Qed.

(** One round of runTimer. *)
Lemma SI_fire h g b tl now g' : clock_ok now -> (forall id, Forall sgood (h id)) -> SI g -> g_heap g = b :: tl ->
  t_status (g_timers g (b_timer b)) = Waiting -> b_when b <= now ->
  runOneTimer h (set_status g (b_timer b) Running) (b_timer b) now = Done g' ->
  SI g' /\ later now g g'.
Proof.
  intros Hc Hh HS E Hs Hdue H. pose proof (si_g g HS) as HG.
  assert (Hw : t_when (g_timers g (b_timer b)) = b_when b).
  { symmetry. apply HS. rewrite E. now left. }
  unfold runOneTimer in H. inv_done H.
  assert (Hper : t_period (g_timers (set_status g (b_timer b) Running) (b_timer b)) = 0).
  { cbn [g_timers set_status s_timer]. rewrite tset_eq. cbn. apply HS. }
  rewrite Hper in Hd. cbn [Z.ltb Z.compare] in Hd.
  destruct (fire_oneshot g b tl now HG E Hs) as (g1 & E1 & F1 & F2 & F3 & F4 & F5 & F6). cbv zeta in F1, F2, F3, F4, F5, F6.
  rewrite E1 in Hd. cbn [obind] in Hd. injection Hd as Ea. rewrite Ea in *.
  assert (Hsafe : safe a).
  { (* the same step with an empty callback *)
    eapply (safe_runOneTimer (fun _ => []) g (b_timer b) now a (si_safe g HS)).
    - now rewrite Hs. - lia.
    - unfold runOneTimer. rewrite Hper. cbn [Z.ltb Z.compare]. rewrite E1. cbn [obind user_steps]. now rewrite Ea. }
  assert (SA : SI a).
  { assert (Hnd : NoDup (map b_timer (b :: g_heap a))) by (eapply perm_ids; [exact F2|apply HG]).
    cbn in Hnd. inversion Hnd as [|? ? Hnin Hnd']; subst.
    constructor; auto.
    - intros c Hc0. rewrite F4. 2:{ intros Eb. apply Hnin. rewrite <- Eb. now apply in_map. }
      apply HS. eapply Permutation_in; [symmetry; exact F2|]. now right.
    - intros k. destruct (Z.eq_dec k (b_timer b)) as [->|Hne]; [rewrite F5|rewrite F4 by auto]; apply HS.
    - rewrite F3. intros a0 id n b0 due id' due' Hsp. apply snoc_split in Hsp. destruct Hsp as [(_&Ea0&E0)|(b'&_&E0)].
      + injection E0 as <- <-. subst a0. intros P1 P2.
        destruct (si_safe g HS) as [Ha _]. rewrite (Ha (b_timer b)), Hs in P1. cbn [live] in P1. injection P1 as <-.
        rewrite Hw. eapply SI_first; eauto.
      + eapply (si_ord g HS). exact E0. }
  destruct (SI_user_steps _ _ _ _ Hc (Hh (b_timer b)) SA H) as [S2 L2]. split; auto.
  eapply later_trans; [|exact L2]. intros k w. rewrite F3, pending_app. cbn [pend_step].
  destruct (k =? b_timer b); [discriminate|auto].
Qed.

Definition none_due (now : Z) (g : timing) : Prop := forall k w, pending (g_log g) k = Some w -> now < w.

Lemma SI_runTimer h fuel : forall g now r, clock_ok now -> (forall id, Forall sgood (h id)) -> SI g ->
  runTimer fuel h g now = Done r -> SI (fst r) /\ (snd r <> 0 -> none_due now (fst r)).
Proof.
  induction fuel as [|f IH]; intros g now r Hc Hh HS H; cbn [runTimer] in H; [discriminate|].
  destruct (g_heap g) as [|b tl] eqn:E; cbn [at_ nth_error lift obind] in H; [discriminate|].
  assert (Hw : t_when (g_timers g (b_timer b)) = b_when b).
  { symmetry. apply HS. rewrite E. now left. }
  destruct (t_status _) eqn:Es in H; try discriminate.
  - destruct (Z.ltb_spec now (t_when (g_timers g (b_timer b)))) as [Hlt|Hge].
    + inv_done H. subst r. cbn [fst snd]. split; auto. intros _ k w Hk. pose proof (SI_first g b tl k w HS E Hk). lia.
    + inv_done H. inv_done H. subst r. cbn [fst snd]. split; [|congruence].
      eapply SI_fire in Hd; eauto; [tauto|lia].
  - destruct (drop_deleted g b tl (g_hi g (si_g g HS)) E Es) as (g1 & E1 & S1 & Hi1 & _). cbv zeta in S1, Hi1.
    pose proof (same_remove_deleted g g1 (b_timer b) Es E1) as Sm.
    rewrite E1 in H. cbn [obind] in H. pose proof (SI_swept _ _ _ HS S1 Hi1 Sm) as HS1.
    set (g2 := s_del _ _) in *. destruct (g_heap g2) eqn:Eh.
    + inv_done H. subst r. cbn [fst snd]. split; auto. intros _ k w Hk.
      destruct (SI_pending g2 k w HS1 Hk) as (c & Hc0 & _). rewrite Eh in Hc0. destruct Hc0.
    + eauto.
  - inv_done H. discriminate.
  - inv_done H. discriminate.
Qed.

Lemma SI_run_loop h fuel : forall g now ran r, clock_ok now -> (forall id, Forall sgood (h id)) -> SI g ->
  run_loop fuel h g now ran = Done r -> SI (fst (fst r)) /\ none_due now (fst (fst r)).
Proof.
  assert (Hnil : forall g now, SI g -> g_heap g = [] -> none_due now g).
  { intros g now HS E k w Hk. destruct (SI_pending g k w HS Hk) as (c & Hc0 & _). rewrite E in Hc0. destruct Hc0. }
  induction fuel as [|f IH]; intros g now ran r Hc Hh HS H; cbn [run_loop] in H.
  - destruct (g_heap g) eqn:E; [inv_done H; subst; cbn [fst]; auto|discriminate].
  - destruct (g_heap g) eqn:E; [inv_done H; subst; cbn [fst]; auto|]. inv_done H. destruct a as [g1 tw].
    apply SI_runTimer in Hd; auto. cbn [fst snd] in Hd. destruct Hd as [S1 N1].
    destruct (Z.eqb_spec tw 0) as [->|Hne]; [eauto|]. inv_done H. subst. cbn [fst]. auto.
Qed.

Lemma SI_checkTimers h fuel g now r : clock_ok now -> (forall id, Forall sgood (h id)) -> SI g ->
  checkTimers fuel h g now = Done r -> SI (fst (fst r)) /\ none_due now (fst (fst r)).
Proof.
  intros Hc Hh HS H. pose proof (g_hi g (si_g g HS)) as Hi. unfold checkTimers, noBarrierWakeTime in H.
  rewrite (hi_me g Hi), (hi_t0 g Hi) in H. cbn [negb andb] in H. rewrite orb_false_r in H.
  destruct (g_heap g) as [|b tl] eqn:E; cbn [first_when Z.eqb] in H.
  - inv_done H. subst r. cbn [fst]. split; auto. intros k w Hk.
    destruct (SI_pending g k w HS Hk) as (c & Hc0 & _). rewrite E in Hc0. destruct Hc0.
  - assert (Hb1 : 1 <= b_when b) by (apply HS; rewrite E; now left).
    replace (b_when b =? 0) with false in H by lia. replace (b_when b =? 0) with false in H by lia.
    destruct ((now <? b_when b) && negb (isCleanNeed g)) eqn:Eq.
    + inv_done H. subst r. cbn [fst]. split; auto. intros k w Hk. pose proof (SI_first g b tl k w HS E Hk). lia.
    + inv_done H. destruct a as [[g1 nw] ran]. inv_done Hd. unfold adjustTimers in Hd0. rewrite (hi_me g Hi) in Hd0.
      cbn [Z.eqb orb] in Hd0. inv_done Hd0. subst a.
      apply SI_run_loop in Hd; auto. cbn [fst] in Hd. destruct Hd as [S1 N1].
      inv_done H. inv_done H. subst r. cbn [fst].
      destruct (_ <? _) in Hd; [|inv_done Hd; subst; auto].
      destruct (clearDeleted_spec g1 (g_hi g1 (si_g g1 S1))) as (rm & g2 & E2 & S2 & Hi2).
      rewrite E2 in Hd. inv_done Hd. subst a. pose proof (same_clearDeleted _ _ E2) as Sm. split.
      * eapply SI_swept; eauto.
      * intros k w. rewrite (proj1 Sm). apply N1.
Qed.

Lemma SI_run h ops : forall g g', simple_handler h -> Forall simple_op ops -> SI g -> run h g ops = Done g' -> SI g'.
Proof.
  induction ops as [|o ops IH]; intros g g' Hh Hn HS H; cbn [run] in H.
  - inv_done H. now subst.
  - inv_done H. inversion Hn; subst. apply IH in H; auto. destruct o; cbn [step simple_op] in *.
    + destruct H2 as (Hc & Hsu & Hd'). 
      assert (Hus : user_steps g now [o] = Done a) by (cbn [user_steps]; rewrite Hd; reflexivity).
      eapply SI_user_steps in Hus; eauto; [tauto|]. constructor; [split; auto|constructor].
    + inv_done Hd. inv_done Hd. subst a. eapply SI_checkTimers in Hd0; eauto. tauto.
Qed.

Lemma SI_new : SI new_timing.
Proof.
  constructor; [apply G_new| |reflexivity|apply safe_new|].
  - intros b [].
  - intros a id now b due id' due' H. destruct a; discriminate.
Qed.

(** With empty callbacks a wake-up always completes. *)
Lemma runTimer_done fuel : forall g now, clock_ok now -> SI g -> g_heap g <> [] -> (length (g_heap g) < fuel)%nat ->
  exists g' tw, runTimer fuel (fun _ => []) g now = Done (g', tw) /\
    (tw = 0 -> (length (g_heap g') < length (g_heap g))%nat).
Proof.
  induction fuel as [|f IH]; intros g now Hc HS Hne Hf; [lia|]. cbn [runTimer].
  destruct (g_heap g) as [|b tl] eqn:E; [congruence|]. cbn [at_ nth_error lift obind].
  assert (Hb : In b (g_heap g)) by (rewrite E; now left).
  destruct (si_when g HS b Hb) as [Hw Hw1].
  destruct (proj1 (hi_st g (g_hi g (si_g g HS)) b Hb)) as [Es|Es]; rewrite Es.
  - destruct (Z.ltb_spec now (t_when (g_timers g (b_timer b)))).
    + eexists _, _. split; [reflexivity|]. lia.
    + unfold runOneTimer.
      assert (Hper : t_period (g_timers (set_status g (b_timer b) Running) (b_timer b)) = 0).
      { cbn [g_timers set_status s_timer]. rewrite tset_eq. cbn. apply HS. }
      rewrite Hper. cbn [Z.ltb Z.compare].
      destruct (fire_oneshot g b tl now (si_g g HS) E Es) as (g1 & E1 & F1 & F2 & F3 & F4 & F5 & F6).
      rewrite E1. cbn [obind user_steps]. eexists _, _. split; [reflexivity|]. intros _. rewrite E in F6. exact F6.
  - destruct (drop_deleted g b tl (g_hi g (si_g g HS)) E Es) as (g1 & E1 & S1 & Hi1 & Hlen). cbv zeta in S1, Hi1, Hlen.
    pose proof (same_remove_deleted g g1 (b_timer b) Es E1) as Sm.
    rewrite E1. cbn [obind]. pose proof (SI_swept _ _ _ HS S1 Hi1 Sm) as HS1.
    set (g2 := s_del _ _) in *. destruct (g_heap g2) eqn:Eh.
    + eexists _, _. split; [reflexivity|]. lia.
    + destruct (IH g2 now Hc HS1) as (g' & tw & E3 & H3). { rewrite Eh. discriminate. } { rewrite E in Hlen. rewrite Eh in *. lia. }
      exists g', tw. split; auto. intros Ht. specialize (H3 Ht). rewrite E in Hlen. rewrite Eh in *. lia.
Qed.

Lemma run_loop_done fuel : forall g now ran, clock_ok now -> SI g -> (length (g_heap g) < fuel)%nat ->
  exists r, run_loop fuel (fun _ => []) g now ran = Done r.
Proof.
  induction fuel as [|f IH]; intros g now ran Hc HS Hf; [lia|]. cbn [run_loop].
  destruct (g_heap g) as [|b tl] eqn:E; [eauto|].
  destruct (runTimer_done (S (length (g_heap g))) g now Hc HS) as (g' & tw & E1 & H1). { rewrite E. discriminate. } { lia. }
  rewrite <- E, E1. cbn [obind]. destruct (Z.eqb_spec tw 0) as [->|]; [|eauto].
  apply IH; auto.
  - assert (Hh : forall id : Z, Forall sgood ((fun _ => []) id)) by (intros; constructor).
    apply (SI_runTimer _ _ _ _ _ Hc Hh HS E1).
  - specialize (H1 eq_refl). rewrite E in H1. lia.
Qed.

Lemma checkTimers_done g now : clock_ok now -> SI g ->
  exists r, checkTimers (S (length (g_heap g))) (fun _ => []) g now = Done r.
Proof.
  intros Hc HS. pose proof (g_hi g (si_g g HS)) as Hi. unfold checkTimers.
  destruct (_ =? 0); [eauto|]. destruct (_ && _); [eauto|].
  assert (Hr : exists r, match g_heap g with [] => Done (g, 0, false) | _ :: _ => do! g0 := adjustTimers (S (length (g_heap g))) g now in run_loop (S (length (g_heap g))) (fun _ => []) g0 now false end = Done r /\ SI (fst (fst r))).
  { destruct (g_heap g) as [|b tl] eqn:E; [eauto|]. unfold adjustTimers. rewrite (hi_me g Hi). cbn [Z.eqb orb obind].
    destruct (run_loop_done (S (length (b :: tl))) g now false Hc HS) as (r & Er). { rewrite E. lia. }
    exists r. split; auto. assert (Hh : forall id : Z, Forall sgood ((fun _ => []) id)) by (intros; constructor).
    apply (SI_run_loop _ _ _ _ _ _ Hc Hh HS Er). }
  destruct Hr as ([[g1 nw] ran] & Er & S1). cbn [fst] in S1.
  match goal with |- context [obind ?x _] => replace x with (Done (g1, nw, ran)) end. cbn [obind].
  destruct (_ <? _); [|cbn; eauto].
  destruct (clearDeleted_spec g1 (g_hi g1 (si_g g1 S1))) as (rm & g2 & E2 & S2 & Hi2). rewrite E2. cbn. eauto.
Qed.
