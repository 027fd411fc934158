(** Property theorems C26 and C74 (object pool). *)
From Coq Require Import ZifyBool ZifyNat Permutation.
From Verif Require Import Go GoFacts PoolModel PoolSpec PoolProofs PoolProofs2.

(** C26: in every history no object is in two hands, or in a hand and in the pool, *)
Theorem C26_one_holder : forall m es p, history m es p -> NoDup (held p ++ stored p).
Proof. intros m es p H. exact (inv_nodup m p (history_inv m es p H)). Qed.
Print Assumptions C26_one_holder.
(** and an object handed out was held by nobody and is then held once. *)
Theorem C26_get_unheld : forall m es p o q, history m es p -> Get p false = (Some o, q) ->
  ~ In o (held p) /\ held q = o :: held p /\ ~ In o (stored q).
Proof.
  intros m es p o q H E.
  assert (Hq : history m (es ++ [EGet false]) q).
  { econstructor; [exact H|split; [intros b; cbn; congruence|discriminate]|cbn [step]; now rewrite E]. }
  pose proof (inv_nodup m q (history_inv m _ q Hq)) as N.
  pose proof (get_cases p false) as G. rewrite E in G. destruct G as ((_ & Gh) & _).
  unfold live in N. rewrite Gh in N. cbn in N. inversion N; subst. rewrite in_app_iff in *. tauto.
Qed.
Print Assumptions C26_get_unheld.
(** The limit holds for every pool with a limit below four, and for every history without
    a clean-up round; *)
Theorem C26_limit_partial : forall m es p, history m es p -> m < 4 \/ no_clean es ->
  zlen (live p) <= Z.max m 0.
Proof.
  intros m es p H G. pose proof (history_inv m es p H) as I.
  assert (swept p = 0) by (destruct G; [now apply (small_full m es p)|eapply no_clean_swept; eauto]).
  pose proof (inv_len _ _ I). pose proof (inv_count _ _ I). lia.
Qed.
Print Assumptions C26_limit_partial.
(** in general the excess is the number of empty slots the clean-up swept; *)
Theorem C26_limit_exact_partial : forall m es p, history m es p ->
  zlen (live p) <= Z.max m 0 + swept p /\
  (stopped p = false -> zlen (live p) = count p + swept p).
Proof.
  intros m es p H. pose proof (history_inv m es p H) as I. split; [|now apply (run_count m es)].
  pose proof (inv_len _ _ I). pose proof (inv_count _ _ I). lia.
Qed.
Print Assumptions C26_limit_exact_partial.
(** and for every limit of four or more, any number of objects can be out at once. *)
Theorem C26_limit_refuted : forall m n, 4 <= m -> 0 <= n ->
  exists es p, history m es p /\ n < zlen (held p).
Proof.
  intros m n Hm Hn. destruct (cleans m (S (Z.to_nat n)) Hm) as (es & p & Hh & Hp & Mp & Ep & _ & Cp).
  assert (1 <= m / 4) by (apply Z.div_le_lower_bound; lia).
  destruct (gets m (S (Z.to_nat n)) es p Hh Hp) as (es' & q & Hq & Lq).
  - rewrite Cp, Mp. nia.
  - exists es', q. split; auto. rewrite Ep in Lq. change (zlen (@nil Z)) with 0 in Lq. lia.
Qed.
Print Assumptions C26_limit_refuted.
(** Order: Get takes the first slot of hot item, idle items, victims; an empty first slot
    makes it create an object, or return nothing at the limit. *)
Definition slots (p : pool) : list (option Z) :=
  match hot p with Some x => [Some x] | None => [] end ++ idle p ++ victim p.
Theorem C26_get_order_partial : forall p,
  fst (Get p true) = None /\
  fst (Get p false) = match slots p with
    | Some x :: _ => Some x
    | _ => if count p <? max p then Some (fresh p) else None end.
Proof.
  intros [m c h i v st f he cl sw]. split; [reflexivity|]. unfold Get, popHead, slots; cbn [hot idle victim count max fresh].
  assert (K : (c + 1 <=? m) = (c <? m)) by lia.
  destruct h as [x|]; [reflexivity|]. cbn [app].
  destruct i as [|[x|] i]; cbn [app]; [destruct v as [|[x|] v]|reflexivity|]; try reflexivity;
    unfold makeNew; cbn [count max fresh]; rewrite K; destruct (c <? m); reflexivity.
Qed.
Print Assumptions C26_get_order_partial.
(** The order is not last in, first out: of two objects put back after a Get emptied the hot
    slot, the first comes out. *)
Theorem C26_order_refuted : forall p a b, hot p = None ->
  fst (Get (Put (Put p false a) false b) false) = Some a.
Proof. intros p a b H. unfold Put. rewrite H. reflexivity. Qed.
Print Assumptions C26_order_refuted.
(** A pool at its limit can refuse although it stores an object. *)
Definition ex_starved : list event :=
  repeat (EGet false) 8 ++ [EPut false 0; EPut false 1; EClean false; EGet false].
Fixpoint run_events (p : pool) (es : list event) : res pool :=
  match es with [] => Ok p | e :: r => let! q := step p e in run_events q r end.
Theorem C26_starved_refuted : exists p, run_events (Init 8) ex_starved = Ok p /\
  stored p = [1] /\ fst (Get p false) = None.
Proof. eexists. vm_compute. repeat split. Qed.
Print Assumptions C26_starved_refuted.
(** So it does whenever an empty slot comes first, whatever comes after it. *)
Theorem C26_behind_refuted : forall p rest, slots p = None :: rest -> max p <= count p -> fst (Get p false) = None.
Proof. intros p rest E M. rewrite (proj2 (C26_get_order_partial p)), E. replace (count p <? max p) with false by lia. reflexivity. Qed.
Print Assumptions C26_behind_refuted.
Example C26_behind_case : exists p, run_events (Init 8) ex_starved = Ok p /\ slots p = [None; None; Some 1] /\ count p = 8 /\ max p = 8.
Proof. eexists. split; [vm_compute; reflexivity|]. vm_compute. repeat split. Qed.
Example C26_example : exists p, run_events (Init 2) [EGet false; EGet false; EPut false 0; EGet false; EPut false 1] = Ok p
  /\ held p = [0] /\ stored p = [1] /\ fst (Get (snd (Get p false)) false) = None.
Proof. eexists. vm_compute. repeat split. Qed.

(** What the length counts: the slots of the two lists, empty ones too, and never the item last put
    back.  So a new pool has a length, though nothing is in it. *)
Theorem C26_len_refuted : forall p, Len p = zlen (stored p) - zlen (option_list (hot p)) +
    zlen (filter (fun o => match o with None => true | _ => false end) (idle p ++ victim p)) /\
  forall m, 4 <= m -> 0 < Len (Init m) /\ stored (Init m) = [].
Proof.
  intros p. split.
  - assert (G : forall l, zlen l = zlen (objects l) + zlen (filter (fun o : option Z => match o with None => true | _ => false end) l)).
    { induction l as [|[x|] l IH]; [reflexivity| |]; cbn [objects flat_map filter app]; rewrite ?zlen_cons; fold (objects l); lia. }
    unfold Len, stored. rewrite (G (idle p)), (G (victim p)), !zlen_app, filter_app, zlen_app. lia.
  - intros m M. unfold Len, Init, stored, empty_slots. cbn [idle victim hot option_list objects flat_map app]. rewrite app_nil_r.
    assert (1 <= Z.quot m 4) by (apply Z.quot_le_lower_bound; lia). split.
    + unfold zlen. rewrite repeat_length. cbn [length]. lia.
    + induction (Z.to_nat (Z.quot m 4)); [reflexivity|]. cbn [repeat flat_map app]. auto.
Qed.
Print Assumptions C26_len_refuted.

(** C74: if no call races with Close, an object is closed at most once, never while somebody
    holds it, and is never handed out afterwards; *)
Theorem C74_closed_once_partial : forall m es p, race_free m es p ->
  NoDup (closed p) /\ (forall x, In x (closed p) -> ~ In x (held p)).
Proof.
  intros m es p H. destruct (closing m es p H) as [C1 C2 _]. split; auto.
  intros x Hx Hh. apply (C2 x Hx), in_app_iff; auto.
Qed.
Print Assumptions C74_closed_once_partial.
(** a clean-up closes every object idle for two rounds; after Close nothing is handed out and
    whatever is put back is closed; *)
Theorem C74_clean_and_close : forall p,
  (forall x, In (Some x) (idle p) -> In x (closed (Clean (Clean p false) false))) /\
  (forall q, Close p = Ok q -> Get q true = (None, q) /\ forall x, In x (closed (Put q true x))) /\
  (Close p = Panic <-> stopped p = true) /\
  (forall q, Close p = Ok q -> Close q = Panic).
Proof.
  intros p. repeat split.
  - intros x Hx. unfold Clean; cbn [closed victim]. apply in_app_iff. right.
    apply (Permutation_in _ (Permutation_sym (objects_rev _))). apply in_flat_map. exists (Some x). cbn; auto.
  - intros x. unfold Put; cbn [closed]. apply in_app_iff; cbn; auto.
  - unfold Close. now destruct (stopped p).
  - unfold Close. now intros ->.
  - unfold Close. intros q H. destruct (stopped p); inversion H; subst. reflexivity.
Qed.
Print Assumptions C74_clean_and_close.
(** Close closes the idle objects, but never the hot one nor the victims, which nothing can
    reach any more. *)
Theorem C74_close_leaks_refuted : forall m es p q, race_free m es p -> Close p = Ok q ->
  Permutation (closed q) (closed p ++ objects (idle p)) /\
  forall x, In x (option_list (hot p) ++ objects (victim p)) -> ~ In x (closed q).
Proof.
  intros m es p q H E. unfold Close in E. destruct (stopped p) eqn:St; [discriminate|]. inversion E; subst; clear E.
  cbn [closed]. split.
  - apply Permutation_app_head, objects_rev.
  - intros x Hx Hc. apply in_app_iff in Hc as [Hc|Hc].
    + destruct (closing m es p H) as [_ C2 _]. apply (C2 x Hc). rewrite in_app_iff; auto.
    + apply (Permutation_in _ (objects_rev _)) in Hc.
      pose proof (inv_nodup _ _ (history_inv _ _ _ (race_free_history _ _ _ H))) as N. unfold live, stored in N.
      apply nodup_r in N.
      assert (N2 : NoDup (objects (idle p) ++ (option_list (hot p) ++ objects (victim p)))).
      { eapply Permutation_NoDup; [apply perm_mid|exact N]. }
      apply (nodup_disj _ _ x N2 Hc Hx).
Qed.
Print Assumptions C74_close_leaks_refuted.
(** Gets that checked the state just before Close hand out every object Close has closed. *)
Definition allowedb (p : pool) (e : event) : bool :=
  match e with
  | EGet b | EClean b => implb b (stopped p)
  | EPut b x => implb b (stopped p) && (if in_dec Z.eq_dec x (held p) then true else false)
  | EClose => true
  end.
Fixpoint checked (p : pool) (es : list event) : bool :=
  match es with [] => true | e :: r => allowedb p e && match step p e with Ok q => checked q r | Panic => false end end.
Lemma checked_history m es : forall es0 p q, history m es0 p -> checked p es = true -> run_events p es = Ok q ->
  history m (es0 ++ es) q.
Proof.
  induction es as [|e r IH]; intros es0 p q H C E; cbn [checked run_events] in *.
  - inversion E; subst. now rewrite app_nil_r.
  - apply andb_true_iff in C as [A C]. destruct (step p e) as [p1|] eqn:Es; [|discriminate]. cbn [bind] in E.
    change (e :: r) with ([e] ++ r). rewrite app_assoc. apply (IH _ p1); auto.
    econstructor; eauto. unfold allowedb in A. split.
    + intros b Hb ->. destruct e; cbn [saw_of] in Hb; inversion Hb; subst; cbn in A; auto.
      apply andb_true_iff in A as [A _]. exact A.
    + intros b x ->. apply andb_true_iff in A as [_ A]. now destruct (in_dec Z.eq_dec x (held p)).
Qed.
Theorem C74_race_refuted : forall m es p q x, history m es p -> Close p = Ok q -> In x (objects (idle p)) ->
  exists r n, history m (es ++ [EClose] ++ repeat (EGet false) n) r /\ In x (closed r) /\ In x (held r).
Proof.
  intros m es p q x H E I.
  assert (Hq : history m (es ++ [EClose]) q). { apply (h_step m es p); [exact H|split; [discriminate|discriminate]|exact E]. }
  assert (Cx : In x (closed q)). { unfold Close in E. destruct (stopped p); [discriminate|]. injection E as <-. cbn [closed]. apply in_app_iff. right. apply (Permutation_in _ (Permutation_sym (objects_rev _))). exact I. }
  assert (Iq : In x (objects (idle q))). { unfold Close in E. destruct (stopped p); [discriminate|]. injection E as <-. exact I. }
  assert (More : forall k es q, history m es q -> In x (closed q) -> In x (objects (idle q)) -> length (idle q) = k ->
    exists r n, history m (es ++ repeat (EGet false) n) r /\ In x (closed r) /\ In x (held r)).
  { clear. induction k as [k IH] using lt_wf_ind. intros es q H C I Ek.
    assert (Hs : forall q', snd (Get q' false) = snd (Get q' false)) by reflexivity. clear Hs.
    assert (St : forall es q, history m es q -> history m (es ++ [EGet false]) (snd (Get q false))).
    { intros es0 q0 H0. apply (h_step m es0 q0); [exact H0|split; [intros b Hb ->; discriminate Hb|discriminate]|reflexivity]. }
    assert (One : forall es q, history m es q -> hot q = None -> In x (closed q) -> In x (objects (idle q)) -> length (idle q) = k ->
      exists r n, history m (es ++ repeat (EGet false) n) r /\ In x (closed r) /\ In x (held r)).
    { intros es0 q0 H0 Hh C0 I0 E0. destruct (idle q0) as [|[y|] i] eqn:Ei; [destruct I0| |].
      - pose proof (St _ _ H0) as H1. destruct (Z.eq_dec y x) as [->|N].
        + exists (snd (Get q0 false)), 1%nat. split; [exact H1|]. unfold Get, popHead. rewrite Hh, Ei. cbn [snd closed held]. split; [exact C0|now left].
        + assert (I1 : In x (objects (idle (snd (Get q0 false))))). { unfold Get, popHead. rewrite Hh, Ei. cbn [snd idle]. destruct I0 as [I0|I0]; [congruence|exact I0]. }
          assert (C1 : In x (closed (snd (Get q0 false)))) by (unfold Get, popHead; rewrite Hh, Ei; exact C0).
          assert (L1 : length (idle (snd (Get q0 false))) = length i) by (unfold Get, popHead; rewrite Hh, Ei; reflexivity).
          destruct (IH (length i)) with (es := es0 ++ [EGet false]) (q := snd (Get q0 false)) as (r & n & R1 & R2 & R3); auto; [rewrite <- E0; cbn [length]; auto|].
          exists r, (S n). split; [|auto]. rewrite <- app_assoc in R1. exact R1.
      - pose proof (St _ _ H0) as H1.
        assert (F : idle (snd (Get q0 false)) = i /\ closed (snd (Get q0 false)) = closed q0).
        { unfold Get, popHead. rewrite Hh, Ei. unfold makeNew. cbn [count max]. destruct (_ <=? _); split; reflexivity. }
        destruct F as [F1 F2].
        destruct (IH (length i)) with (es := es0 ++ [EGet false]) (q := snd (Get q0 false)) as (r & n & R1 & R2 & R3); auto; [rewrite <- E0; cbn [length]; auto|now rewrite F2|rewrite F1; exact I0|now rewrite F1|].
        exists r, (S n). split; [|auto]. rewrite <- app_assoc in R1. exact R1. }
    destruct (hot q) as [y|] eqn:Hh; [|now apply (One es q)].
    pose proof (St _ _ H) as H1.
    assert (F : idle (snd (Get q false)) = idle q /\ closed (snd (Get q false)) = closed q /\ hot (snd (Get q false)) = None) by (unfold Get, popHead; rewrite Hh; repeat split; reflexivity).
    destruct F as (F1 & F2 & F3).
    destruct (One (es ++ [EGet false]) (snd (Get q false))) as (r & n & R1 & R2 & R3); auto; [now rewrite F2|now rewrite F1|now rewrite F1|].
    exists r, (S n). split; [|auto]. rewrite <- app_assoc in R1. exact R1. }
  destruct (More (length (idle q)) _ _ Hq Cx Iq eq_refl) as (r & n & R1 & R2 & R3). exists r, n. rewrite <- app_assoc in R1. auto.
Qed.
Print Assumptions C74_race_refuted.
Example C74_race_case : exists p q, history 2 [EGet false; EGet false; EPut false 0; EPut false 1; EGet false; EClose] p /\
  Get p false = (Some 1, q) /\ In 1 (closed q) /\ In 1 (held q).
Proof.
  eexists _, _. split.
  - apply (checked_history 2 _ [] (Init 2)); [constructor|vm_compute; reflexivity|vm_compute; reflexivity].
  - vm_compute. auto.
Qed.
Example C74_example : exists p, run_events (Init 3) [EGet false; EGet false; EPut false 0; EPut false 1; EClose] = Ok p
  /\ closed p = [1] /\ stored p = [0; 1].
Proof. eexists. vm_compute. auto. Qed.
