(** C170: a pool used by many threads. *)
From Coq Require Import ZifyBool ZifyNat Permutation.
From Verif Require Import Go GoFacts PoolModel PoolRaceModel PoolRaceSpec PoolRaceProofs.
Import ListNotations.
Local Open Scope Z_scope.
Local Open Scope list_scope.

(** Whatever the threads do and however their steps interleave: every object made is in exactly one place. *)
Theorem C170_places : forall m n l s, 0 <= m -> rrun (RInit m n) l = Some s ->
  Permutation (everywhere s) (all_made s) /\ NoDup (everywhere s).
Proof.
  intros m n l s M E. pose proof (inv_places s (run_inv l _ s (init_inv m n M) E)) as P. split; [exact P|].
  eapply Permutation_NoDup; [apply Permutation_sym; exact P|]. unfold all_made. apply FinFun.Injective_map_NoDup; [intros a b; lia|apply seq_NoDup].
Qed.
Print Assumptions C170_places.
(** An object that Get hands out is held by nobody else, is not on its way back and was not closed by Put or
    Clean; what is handed out comes from the pool or is new. *)
Theorem C170_one_holder : forall m n l s i a s' x, 0 <= m -> rrun (RInit m n) l = Some s -> rstep s i a = Some s' ->
  In x (r_held s') -> ~ In x (r_held s) ->
  NoDup (r_held s') /\ ~ In x (r_gone s') /\ ~ In x (flat_map carried (pcs s')) /\ ~ In x (objects (r_idle s')) /\ ~ In x (objects (r_victim s')) /\ r_hot s' <> Some x /\
  (r_hot s = Some x \/ In x (objects (r_idle s)) \/ In x (objects (r_victim s)) \/ x = made s).
Proof.
  intros m n l s i a s' x M E1 E2 H N. pose proof (run_inv l _ s (init_inv m n M) E1) as V. pose proof (step_inv s i a s' V E2) as V'.
  destruct V' as [M' T' _ _ _]. assert (K : forall y, tot y s' <= 1) by (intros y; rewrite T'; destruct ((0 <=? y) && (y <? made s')); lia).
  assert (HX := proj1 (cz_in x (r_held s')) H). pose proof (K x) as KX. unfold tot in KX.
  pose proof (cz_nonneg x (hot_list (r_hot s'))). pose proof (cz_nonneg x (objects (r_idle s'))). pose proof (cz_nonneg x (objects (r_victim s'))). pose proof (cz_nonneg x (r_gone s')).
  pose proof (wsum_nonneg (fun p => cz x (carried p)) (pcs s') (fun p => cz_nonneg x _)).
  split.
  { apply (NoDup_count_occ Z.eq_dec). intros y. specialize (K y). unfold tot in K. pose proof (cz_nonneg y (hot_list (r_hot s'))). pose proof (cz_nonneg y (objects (r_idle s'))). pose proof (cz_nonneg y (objects (r_victim s'))). pose proof (cz_nonneg y (r_gone s')).
    pose proof (wsum_nonneg (fun p => cz y (carried p)) (pcs s') (fun p => cz_nonneg y _)). unfold cz in *. lia. }
  split; [rewrite cz_in; lia|]. split; [rewrite cz_in, cz_carried; lia|]. split; [rewrite cz_in; lia|]. split; [rewrite cz_in; lia|].
  split; [intros X; rewrite X in *; cbn [hot_list] in *; rewrite cz_cons, cz_nil in *; unfold one in *; destruct (Z.eq_dec x x); lia|].
  clear - E2 H N. unfold rstep in E2. destruct (nth_error (pcs s) i) as [p|]; [|discriminate].
  destruct p, a; try discriminate; try (injection E2 as <-; exfalso; exact (N H)).
  - destruct (in_dec Z.eq_dec x0 (r_held s)); [injection E2 as <-|discriminate]. exfalso. apply N. cbn [at_ r_held] in H. eapply in_remove; eauto.
  - injection E2 as <-. destruct (r_hot s) as [h|]; [|destruct (r_idle s) as [|[o|] d]; [destruct (r_victim s) as [|[o|] v]|..]]; cbn [at_ r_held] in H; try (exfalso; exact (N H));
    (destruct H as [->|H]; [|exfalso; exact (N H)]); [now left|right; right; left; now left|right; left; now left].
  - injection E2 as <-. cbn [at_ r_held] in H. destruct H as [<-|H]; [auto|exfalso; exact (N H)].
  - injection E2 as <-. destruct (r_hot s); cbn [at_ r_held] in H; exfalso; exact (N H).
  - injection E2 as <-. destruct vi as [|[o|] r]; cbn [at_ r_held] in H; exfalso; exact (N H).
Qed.
Print Assumptions C170_one_holder.
(** Objects made and not closed: at most the limit, and as many more as empty slots were closed and as Clean has
    subtracted and not yet closed.  With a limit below 4 there are no empty slots. *)
Theorem C170_bound_partial : forall m n l s, 0 <= m -> rrun (RInit m n) l = Some s ->
  made s + threads making s - zlen (r_gone s) <= m + r_empty s + waiting s /\ (m < 4 -> r_empty s = 0).
Proof.
  intros m n l s M E. pose proof (run_inv l _ s (init_inv m n M) E) as [_ _ _ B U]. rewrite (run_max l _ s E) in B. cbn [RInit r_max] in B.
  unfold threads, waiting. rewrite filter_wsum, waiting_wsum. split; [lia|]. intros L. exact (f_none _ (run_full l _ s (init_full m n L) E)).
Qed.
Print Assumptions C170_bound_partial.
(** The counter is exact at every moment, and Get refuses only when the objects made and not subtracted, those being
    made and the other refusals under way reach the limit. *)
Theorem C170_count : forall m n l s, 0 <= m -> rrun (RInit m n) l = Some s ->
  r_count s = made s - r_sub s + threads making s + threads refusing s.
Proof. intros m n l s M E. pose proof (run_inv l _ s (init_inv m n M) E) as [_ _ C _ _]. unfold threads. rewrite !filter_wsum. lia. Qed.
Print Assumptions C170_count.
Theorem C170_refusal_partial : forall m n l s i s', 0 <= m -> rrun (RInit m n) l = Some s ->
  nth_error (pcs s) i = Some GetNew -> rstep s i Go = Some s' ->
  (nth_error (pcs s') i = Some GetBack <-> m <= made s - r_sub s + threads making s + threads refusing s).
Proof.
  intros m n l s i s' M E P E2. pose proof (C170_count m n l s M E) as C. unfold rstep in E2. rewrite P in E2. injection E2 as <-. cbn [at_ pcs].
  rewrite (run_max l _ s E). cbn [RInit r_max].
  assert (L : forall p, nth_error (set_nth (pcs s) i p) i = Some p).
  { intros p. revert P. generalize (pcs s). clear. induction i as [|i IH]; intros [|h t] P; cbn [nth_error set_nth] in *; try discriminate; auto. }
  rewrite L. destruct (r_count s + 1 <=? m) eqn:B; split; intros X; try discriminate; try reflexivity; lia.
Qed.
Print Assumptions C170_refusal_partial.
(** Between calls: with a limit below 4 and no Clean under way the limit holds. *)
Theorem C170_quiet_partial : forall m n l s, 0 <= m < 4 -> rrun (RInit m n) l = Some s -> Forall (fun p => to_close p = 0) (pcs s) ->
  made s - zlen (r_gone s) <= m.
Proof.
  intros m n l s M E Q. destruct (C170_bound_partial m n l s ltac:(lia) E) as (B & Z0). rewrite Z0 in B by lia.
  assert (W : waiting s = 0). { unfold waiting. clear B. induction Q as [|p q H Q IH]; [reflexivity|]. cbn [map fold_right]. lia. }
  unfold threads in B. pose proof (zlen_nonneg (filter making (pcs s))). lia.
Qed.
Print Assumptions C170_quiet_partial.

(** While Clean closes, the limit is exceeded: threads 0 and 1 use the pool, thread 2 cleans. *)
Definition get2 (i : nat) : list (nat * act) := [(i, DoGet); (i, Go); (i, Go); (i, Go)].
Definition put2 (i : nat) (x : Z) : list (nat * act) := [(i, DoPut x); (i, Go)].
Definition over (m : Z) : list (nat * act) :=
  flat_map (fun _ => get2 0) (seq 0 (Z.to_nat m)) ++ flat_map (fun k => put2 0 (Z.of_nat k)) (seq 0 (Z.to_nat m)) ++
  [(2%nat, DoClean); (2%nat, Go); (2%nat, Go); (2%nat, Go)] ++ [(2%nat, DoClean); (2%nat, Go); (2%nat, Go)] ++
  [(0%nat, DoGet); (0%nat, Go)] ++ get2 1.
Theorem C170_limit_refuted : forall m, 2 <= m < 4 -> exists s, rrun (RInit m 3) (over m) = Some s /\ r_empty s = 0 /\ r_shut s = [] /\
  made s - zlen (r_gone s) = m + 1 /\ r_held s = [m; 0].
Proof. intros m M. assert (C : m = 2 \/ m = 3) by lia. destruct C as [-> | ->]; (eexists; split; [vm_compute; reflexivity|split; [reflexivity|split; [reflexivity|split; reflexivity]]]). Qed.
Print Assumptions C170_limit_refuted.
(** Get returns nothing although fewer than the allowed objects exist, are being made, or wait to be closed: another Get had been refused
    and had not taken its addition back. *)
Definition refused : list (nat * act) :=
  get2 0 ++ get2 0 ++ put2 0 0 ++ put2 0 1 ++ [(2%nat, DoClean); (2%nat, Go); (2%nat, Go); (2%nat, Go)] ++ [(0%nat, DoGet); (0%nat, Go)] ++
  [(2%nat, DoClean); (2%nat, Go)] ++ [(0%nat, DoGet); (0%nat, Go); (0%nat, Go)] ++ [(2%nat, Go); (2%nat, Go); (2%nat, Go)].
Theorem C170_refused_refuted : exists s s', rrun (RInit 2 3) refused = Some s /\ made s - zlen (r_gone s) = 1 /\ threads making s = 0 /\ waiting s = 0 /\
  rrun s (get2 1) = Some s' /\ r_held s' = r_held s /\ nth_error (pcs s') 1 = Some Free.
Proof.
  eexists. eexists. split; [vm_compute; reflexivity|]. split; [vm_compute; reflexivity|]. split; [vm_compute; reflexivity|]. split; [vm_compute; reflexivity|].
  split; [vm_compute; reflexivity|]. split; vm_compute; reflexivity.
Qed.
Print Assumptions C170_refused_refuted.

(** Once Close has begun and nobody is inside a call any more, nothing leaves the pool and nothing is made, and
    every object put back is closed, as long as Init is not called again. *)
Definition outside (p : pc) : Prop := match p with Free | Dead | PutClose _ => True | _ => False end.
Theorem C170_stopped : forall l s s', isStop s = true -> Forall outside (pcs s) -> Forall (fun e => snd e <> DoInit) l -> rrun s l = Some s' ->
  isStop s' = true /\ Forall outside (pcs s') /\ made s' = made s /\ r_hot s' = r_hot s /\ r_idle s' = r_idle s /\ r_victim s' = r_victim s /\ r_count s' = r_count s /\
  incl (r_held s') (r_held s) /\ incl (r_gone s) (r_gone s').
Proof.
  induction l as [|(i, a) l IH]; intros s s' S F N E; cbn [rrun] in E; [injection E as <-; repeat split; auto; apply incl_refl|].
  inversion N as [|e l' N1 N2]; subst. cbn [snd] in N1. destruct (rstep s i a) as [s1|] eqn:E1; [|discriminate].
  assert (G : isStop s1 = true /\ Forall outside (pcs s1) /\ made s1 = made s /\ r_hot s1 = r_hot s /\ r_idle s1 = r_idle s /\ r_victim s1 = r_victim s /\ r_count s1 = r_count s /\
    incl (r_held s1) (r_held s) /\ incl (r_gone s) (r_gone s1)).
  { unfold rstep in E1. destruct (nth_error (pcs s) i) as [p|] eqn:P; [|discriminate].
    assert (O : outside p) by (rewrite Forall_forall in F; apply F; eapply nth_error_In; eauto). rewrite S in E1.
    destruct p, a; try discriminate; try contradiction; try congruence; try (injection E1 as <-); cbn [at_ made r_hot r_idle r_victim r_count r_held r_gone pcs].
    - repeat split; auto; try apply incl_refl. apply Forall_set; cbn; auto.
    - destruct (in_dec Z.eq_dec x (r_held s)); [injection E1 as <-|discriminate]. cbn [at_ made r_hot r_idle r_victim r_count r_held r_gone pcs].
      repeat split; auto; try apply incl_refl; [apply Forall_set; cbn; auto|]. intros y Y. eapply in_remove; eauto.
    - assert (St : (status s =? 1) = false) by (unfold isStop in S; lia). rewrite St. repeat split; auto; try apply incl_refl. apply Forall_set; cbn; auto.
    - repeat split; auto; try apply incl_refl. apply Forall_set; cbn; auto.
    - repeat split; auto; try apply incl_refl; [apply Forall_set; cbn; auto|]. apply incl_tl, incl_refl. }
  destruct G as (G1 & G2 & G3 & G4 & G5 & G6 & G7 & G8 & G9). destruct (IH s1 s' G1 G2 N2 E) as (H1 & H2 & H3 & H4 & H5 & H6 & H7 & H8 & H9).
  repeat split; try congruence; try (eapply incl_tran; eauto).
Qed.
Print Assumptions C170_stopped.
(** But Init called on a stopped pool panics and leaves the pool running: the next Get hands out an object that
    Close had closed. *)
Theorem C170_reuse_refuted : forall s i j x d, i <> j -> nth_error (pcs s) i = Some Free -> nth_error (pcs s) j = Some Free ->
  isStop s = true -> r_hot s = None -> r_idle s = Some x :: d -> In x (r_shut s) ->
  exists s', rrun s [(i, DoInit); (j, DoGet); (j, Go)] = Some s' /\ nth_error (pcs s') i = Some Dead /\ isStop s' = false /\ In x (r_held s') /\ In x (r_shut s').
Proof.
  intros s i j x d N P Q S H D X.
  assert (L : forall (l : list pc) k p q, nth_error l k = Some q -> nth_error (set_nth l k p) k = Some p).
  { intros l k p q. revert l. induction k as [|k IH]; intros [|h t] E; cbn [nth_error set_nth] in *; try discriminate; auto. }
  assert (O : forall (l : list pc) k k' p, k <> k' -> nth_error (set_nth l k p) k' = nth_error l k').
  { intros l k. revert l. induction k as [|k IH]; intros [|h t] [|k'] p E; cbn [nth_error set_nth] in *; auto; try congruence; try (now destruct k'). }
  set (s1 := at_ (RPool (r_max s) 1 (r_count s) (r_hot s) (r_idle s) (r_victim s) (made s) (r_held s) (r_gone s) (r_shut s) (r_sub s) (r_empty s) (pcs s)) i Dead).
  assert (E1 : rstep s i DoInit = Some s1) by (unfold rstep; rewrite P; reflexivity).
  assert (E2 : rstep s1 j DoGet = Some (at_ s1 j GetPop)).
  { unfold rstep. replace (nth_error (pcs s1) j) with (Some Free); [reflexivity|]. symmetry. unfold s1. cbn [at_ pcs]. rewrite O by congruence. exact Q. }
  assert (E3 : exists s3, rstep (at_ s1 j GetPop) j Go = Some s3 /\ pcs s3 = set_nth (set_nth (pcs s1) j GetPop) j Free /\ status s3 = 1 /\ r_held s3 = x :: r_held s /\ r_shut s3 = r_shut s).
  { unfold rstep. replace (nth_error (pcs (at_ s1 j GetPop)) j) with (Some GetPop).
    2:{ symmetry. cbn [at_ pcs]. eapply L. unfold s1. cbn [at_ pcs]. rewrite O by congruence. exact Q. }
    unfold s1. cbn [at_ r_hot r_idle r_victim]. rewrite H, D. eexists. split; [reflexivity|]. repeat split. }
  destruct E3 as (s3 & E3 & A & B & C & F). exists s3. cbn [rrun]. rewrite E1, E2, E3. split; [reflexivity|]. rewrite A, C, F. split.
  { rewrite !O by congruence. unfold s1. cbn [at_ pcs]. eapply L; eauto. }
  unfold isStop. rewrite B.
  split; [reflexivity|]. split; [now left|exact X].
Qed.
Print Assumptions C170_reuse_refuted.
Definition closing : list (nat * act) := get2 0 ++ get2 0 ++ put2 0 0 ++ put2 0 1 ++ [(0%nat, DoGet); (0%nat, Go); (0%nat, DoClose); (0%nat, Go); (0%nat, Go)].
Example C170_nonvacuous : exists s, rrun (RInit 2 3) closing = Some s /\ isStop s = true /\ Forall outside (pcs s) /\ r_hot s = None /\ r_idle s = [Some 1] /\ r_shut s = [1] /\ r_held s = [0] /\
  exists s', rrun s (put2 1 0) = Some s' /\ r_gone s' = [0] /\ r_held s' = [].
Proof. eexists. split; [vm_compute; reflexivity|]. split; [reflexivity|]. split; [repeat constructor|]. split; [reflexivity|]. split; [reflexivity|]. split; [reflexivity|]. split; [reflexivity|].
  eexists. split; [vm_compute; reflexivity|]. split; reflexivity. Qed.
Example C170_refusal_case : exists s s', rrun (RInit 1 2) (get2 0 ++ [(1%nat, DoGet); (1%nat, Go)]) = Some s /\ nth_error (pcs s) 1 = Some GetNew /\
  rstep s 1 Go = Some s' /\ nth_error (pcs s') 1 = Some GetBack.
Proof. eexists. eexists. split; [vm_compute; reflexivity|]. split; [vm_compute; reflexivity|]. split; vm_compute; reflexivity. Qed.
