(** Invariants of a pool used by many threads. *)
From Coq Require Import ZifyBool ZifyNat Permutation.
From Verif Require Import Go GoFacts PoolModel PoolRaceModel PoolRaceSpec.
Import ListNotations.
Local Open Scope Z_scope.
Local Open Scope list_scope.

(** * Counting *)
Definition one (x y : Z) : Z := if Z.eq_dec x y then 1 else 0.
Definition cz (x : Z) (l : list Z) : Z := Z.of_nat (count_occ Z.eq_dec l x).
Lemma cz_nil x : cz x [] = 0. Proof. reflexivity. Qed.
Lemma cz_cons x y l : cz x (y :: l) = one y x + cz x l.
Proof. unfold cz, one. cbn [count_occ]. destruct (Z.eq_dec y x); lia. Qed.
Lemma cz_app x a b : cz x (a ++ b) = cz x a + cz x b.
Proof. unfold cz. rewrite count_occ_app. lia. Qed.
Lemma cz_nonneg x l : 0 <= cz x l. Proof. unfold cz. lia. Qed.
Lemma cz_in x l : In x l <-> 0 < cz x l.
Proof. unfold cz. rewrite (count_occ_In Z.eq_dec). lia. Qed.
Lemma cz_remove x y l : cz x (remove Z.eq_dec y l) = if Z.eq_dec y x then 0 else cz x l.
Proof.
  induction l as [|z l IH]; [destruct (Z.eq_dec y x); reflexivity|]. cbn [remove]. destruct (Z.eq_dec y z) as [E|E].
  - rewrite IH, cz_cons. unfold one. destruct (Z.eq_dec y x), (Z.eq_dec z x); try congruence; lia.
  - rewrite !cz_cons, IH. unfold one. destruct (Z.eq_dec y x), (Z.eq_dec z x); try congruence; lia.
Qed.
Lemma cz_rev x l : cz x (rev l) = cz x l.
Proof. induction l as [|y l IH]; [reflexivity|]. cbn [rev]. rewrite cz_app, IH, !cz_cons, cz_nil. lia. Qed.

Fixpoint wsum (f : pc -> Z) (l : list pc) : Z := match l with [] => 0 | p :: t => f p + wsum f t end.
Lemma wsum_set f : forall l i p q, nth_error l i = Some p -> wsum f (set_nth l i q) = wsum f l - f p + f q.
Proof.
  induction l as [|h t IH]; intros [|i] p q E; cbn [nth_error] in E; try discriminate; cbn [set_nth wsum].
  - injection E as ->. lia.
  - rewrite (IH i p q E). lia.
Qed.
Lemma wsum_nonneg f l : (forall p, 0 <= f p) -> 0 <= wsum f l.
Proof. intros H. induction l as [|p l IH]; cbn [wsum]; [lia|]. specialize (H p). lia. Qed.
Lemma wsum_ge f l : (forall p, 0 <= f p) -> forall i p, nth_error l i = Some p -> f p <= wsum f l.
Proof.
  intros H. induction l as [|h l IH]; intros [|i] p E; cbn [nth_error] in E; try discriminate; cbn [wsum].
  - injection E as ->. pose proof (wsum_nonneg f l H). lia.
  - pose proof (IH i p E). specialize (H h). lia.
Qed.
Lemma cz_carried x l : cz x (flat_map carried l) = wsum (fun p => cz x (carried p)) l.
Proof. induction l as [|p l IH]; [reflexivity|]. cbn [flat_map wsum]. rewrite cz_app, IH. lia. Qed.
Definition b2 (b : bool) : Z := if b then 1 else 0.
Lemma filter_wsum f l : zlen (filter f l) = wsum (fun p => b2 (f p)) l.
Proof. induction l as [|p l IH]; [reflexivity|]. cbn [filter wsum]. destruct (f p); rewrite ?zlen_cons, IH; cbn [b2]; lia. Qed.
Lemma waiting_wsum l : fold_right Z.add 0 (map to_close l) = wsum to_close l.
Proof. induction l as [|p l IH]; [reflexivity|]. cbn [map fold_right wsum]. rewrite IH. reflexivity. Qed.

Lemma objects_app a b : objects (a ++ b) = objects a ++ objects b.
Proof. unfold objects. apply flat_map_app. Qed.
Lemma objects_cons o l : objects (o :: l) = hot_list o ++ objects l.
Proof. destruct o; reflexivity. Qed.
Lemma objects_empty m : objects (empty_slots m) = [].
Proof. unfold empty_slots. induction (Z.to_nat (m ÷ 4)); cbn; auto. Qed.
Lemma cz_objects_rev x l : cz x (objects (rev l)) = cz x (objects l).
Proof. induction l as [|o l IH]; [reflexivity|]. cbn [rev]. rewrite objects_app, cz_app, IH, !objects_cons, !cz_app. change (objects []) with (@nil Z). rewrite cz_nil. lia. Qed.

(** * The invariant *)
Definition tot (x : Z) (s : rpool) : Z :=
  cz x (hot_list (r_hot s)) + cz x (objects (r_idle s)) + cz x (objects (r_victim s)) + cz x (r_held s) + cz x (r_gone s) + wsum (fun p => cz x (carried p)) (pcs s).
Record INV (s : rpool) : Prop := {
  i_made : 0 <= made s;
  i_tot : forall x, tot x s = if (0 <=? x) && (x <? made s) then 1 else 0;
  i_count : r_count s = made s + wsum (fun p => b2 (making p)) (pcs s) + wsum (fun p => b2 (refusing p)) (pcs s) - r_sub s;
  i_bound : made s + wsum (fun p => b2 (making p)) (pcs s) <= r_max s + r_sub s;
  i_sub : r_sub s <= zlen (r_gone s) + r_empty s + wsum to_close (pcs s) }.

Lemma wsum_free f n : f Free = 0 -> wsum f (repeat Free n) = 0.
Proof. intros H. induction n as [|n IH]; cbn [repeat wsum]; lia. Qed.
Lemma init_inv m n : 0 <= m -> INV (RInit m n).
Proof.
  intros M. unfold RInit. split; cbn [made r_count pcs r_sub r_max r_gone r_empty].
  - lia.
  - intros x. unfold tot. cbn [r_hot r_idle r_victim r_held r_gone pcs made hot_list]. rewrite objects_empty. cbn [objects flat_map]. rewrite !cz_nil, wsum_free by reflexivity.
    destruct ((0 <=? x) && (x <? 0)) eqn:B; [lia|reflexivity].
  - rewrite !wsum_free by reflexivity. lia.
  - rewrite !wsum_free by reflexivity. lia.
  - rewrite !wsum_free by reflexivity. change (zlen (@nil Z)) with 0. lia.
Qed.

Lemma b2_nonneg b : 0 <= b2 b. Proof. destruct b; cbn; lia. Qed.
Lemma to_close_nonneg p : 0 <= to_close p. Proof. destruct p; cbn; try lia. unfold zlen. lia. Qed.

Ltac proj := cbn [at_ r_max status r_count r_hot r_idle r_victim made r_held r_gone r_shut r_sub r_empty pcs].
Ltac sums E := rewrite ?(wsum_set _ _ _ _ _ E); cbn [carried making refusing to_close b2].
Ltac norm := rewrite ?objects_cons, ?objects_empty, ?cz_app, ?cz_cons, ?cz_nil, ?cz_objects_rev; cbn [hot_list objects flat_map]; rewrite ?cz_app, ?cz_cons, ?cz_nil.

Lemma step_inv s i a s' : INV s -> rstep s i a = Some s' -> INV s'.
Proof.
  intros [M T C B U] E. unfold rstep in E. destruct (nth_error (pcs s) i) as [p|] eqn:P; [|discriminate].
  assert (NM := wsum_ge (fun p => b2 (making p)) (pcs s) (fun p => b2_nonneg _) i p P).
  assert (NB : 0 <= wsum (fun p => b2 (refusing p)) (pcs s)) by (apply wsum_nonneg; intros; apply b2_nonneg).
  destruct p, a; try discriminate; try (injection E as <-).
  - (* DoGet *) destruct (isStop s); (split; [exact M| | | | ]); proj; unfold tot in *; proj; try (intros x; specialize (T x)); sums P; norm; lia.
  - (* DoPut *) destruct (in_dec Z.eq_dec x (r_held s)) as [IN|]; [|discriminate]. injection E as <-. assert (IN' := proj1 (cz_in x (r_held s)) IN).
    destruct (isStop s); (split; [exact M| | | | ]); proj; unfold tot in *; proj; try (intros y; sums P; pose proof (T x) as Tx; specialize (T y); rewrite cz_remove; unfold one; norm; unfold one;
      pose proof (cz_nonneg x (hot_list (r_hot s))); pose proof (cz_nonneg x (objects (r_idle s))); pose proof (cz_nonneg x (objects (r_victim s))); pose proof (cz_nonneg x (r_gone s));
      pose proof (wsum_nonneg (fun p => cz x (carried p)) (pcs s) (fun p => cz_nonneg x _)); destruct (Z.eq_dec x y) as [<-|]; destruct ((0 <=? x) && (x <? made s)); lia); sums P; lia.
  - (* DoClose *) destruct (status s =? 1); (split; [exact M| | | | ]); proj; unfold tot in *; proj; try (intros x; specialize (T x)); sums P; norm; lia.
  - (* DoClean *) destruct (isStop s); (split; [exact M| | | | ]); proj; unfold tot in *; proj; try (intros x; specialize (T x)); sums P; norm; lia.
  - (* DoInit *) (split; [exact M| | | | ]); proj; unfold tot in *; proj; try (intros x; specialize (T x)); sums P; norm; lia.
  - (* popHead *) destruct (r_hot s) as [h|] eqn:H; [|destruct (r_idle s) as [|[o|] d] eqn:D; [destruct (r_victim s) as [|[o|] v] eqn:V|..]];
    (split; [exact M| | | | ]); proj; unfold tot in *; proj; rewrite ?H, ?D, ?V in T; try (intros x; specialize (T x)); sums P; revert T; norm; lia.
  - (* the addition *) destruct (r_count s + 1 <=? r_max s) eqn:L; (split; [exact M| | | | ]); proj; unfold tot in *; proj; try (intros x; specialize (T x)); sums P; norm; lia.
  - (* New *) (split; [proj; lia| | | | ]); proj; unfold tot in *; proj; try (intros x; sums P; specialize (T x); norm; unfold one; destruct (Z.eq_dec (made s) x); destruct ((0 <=? x) && (x <? made s)) eqn:B1, ((0 <=? x) && (x <? made s + 1)) eqn:B2; lia); sums P; lia.
  - (* back *) (split; [exact M| | | | ]); proj; unfold tot in *; proj; try (intros x; specialize (T x)); sums P; norm; lia.
  - (* push *) destruct (r_hot s) as [h|] eqn:H; (split; [exact M| | | | ]); proj; unfold tot in *; proj; rewrite ?H in T; try (intros y; specialize (T y)); sums P; revert T; norm; lia.
  - (* PutClose *) (split; [exact M| | | | ]); proj; unfold tot in *; proj; try (intros y; specialize (T y)); sums P; norm; rewrite ?zlen_cons; lia.
  - (* CloseLoop *) (split; [exact M| | | | ]); proj; unfold tot in *; proj; try (intros y; specialize (T y)); sums P; norm; lia.
  - (* CloseEnd *) (split; [exact M| | | | ]); proj; unfold tot in *; proj; try (intros y; specialize (T y)); sums P; norm; lia.
  - (* swap *) (split; [exact M| | | | ]); proj; unfold tot in *; proj; try (intros y; specialize (T y)); sums P; norm; lia.
  - (* subtract *) pose proof (zlen_nonneg vi). (split; [exact M| | | | ]); proj; unfold tot in *; proj; try (intros y; specialize (T y)); sums P; norm; lia.
  - (* close *) destruct vi as [|[o|] r]; (split; [exact M| | | | ]); proj; unfold tot in *; proj; try (intros y; specialize (T y)); sums P; rewrite ?zlen_cons; norm; change (zlen (@nil (option Z))) with 0; lia.
Qed.
Lemma run_inv : forall l s s', INV s -> rrun s l = Some s' -> INV s'.
Proof.
  induction l as [|(i, a) l IH]; intros s s' H E; cbn [rrun] in E; [injection E as <-; exact H|].
  destruct (rstep s i a) as [s1|] eqn:E1; [|discriminate]. eapply IH; [|exact E]. eapply step_inv; eauto.
Qed.

Lemma everywhere_tot s x : cz x (everywhere s) = tot x s.
Proof. unfold everywhere, tot. rewrite !cz_app, cz_carried. lia. Qed.
Lemma all_made_cz x s : 0 <= made s -> cz x (all_made s) = if (0 <=? x) && (x <? made s) then 1 else 0.
Proof.
  intros M. unfold all_made. assert (N : NoDup (map Z.of_nat (seq 0 (Z.to_nat (made s))))).
  { apply FinFun.Injective_map_NoDup; [intros a b; lia|apply seq_NoDup]. }
  assert (I : In x (map Z.of_nat (seq 0 (Z.to_nat (made s)))) <-> (0 <= x < made s)).
  { rewrite in_map_iff. split; [intros (k & <- & K); apply in_seq in K; lia|intros K; exists (Z.to_nat x); rewrite in_seq; lia]. }
  pose proof (proj1 (NoDup_count_occ Z.eq_dec _) N x) as L. rewrite cz_in in I. unfold cz in *.
  destruct ((0 <=? x) && (x <? made s)) eqn:B; lia.
Qed.
Lemma inv_places s : INV s -> Permutation (everywhere s) (all_made s).
Proof.
  intros [M T _ _ _]. rewrite (Permutation_count_occ Z.eq_dec). intros x. specialize (T x). rewrite <- everywhere_tot in T. rewrite <- (all_made_cz x s M) in T. unfold cz in T. lia.
Qed.

(** The limit never changes; with a limit below 4 there are no empty slots. *)
Lemma step_max s i a s' : rstep s i a = Some s' -> r_max s' = r_max s.
Proof.
  intros E. unfold rstep in E. destruct (nth_error (pcs s) i) as [p|]; [|discriminate].
  destruct p, a; try discriminate; try (injection E as <-; reflexivity).
  - destruct (in_dec Z.eq_dec x (r_held s)); [injection E as <-; reflexivity|discriminate].
  - injection E as <-. destruct (r_hot s), (r_idle s) as [|[o|] d]; try reflexivity. destruct (r_victim s) as [|[o|] v]; reflexivity.
  - injection E as <-. destruct (r_hot s); reflexivity.
  - injection E as <-. destruct vi as [|[o|] r]; reflexivity.
Qed.
Definition filled (l : list (option Z)) : Prop := ~ In None l.
Definition pc_filled (p : pc) : Prop := match p with CleanSub vi | CleanClose vi => filled vi | _ => True end.
Record FULL (s : rpool) : Prop := { f_max : r_max s < 4; f_idle : filled (r_idle s); f_victim : filled (r_victim s); f_pcs : Forall pc_filled (pcs s); f_none : r_empty s = 0 }.
Lemma Forall_set {A} (Q : A -> Prop) : forall l i x, Forall Q l -> Q x -> Forall Q (set_nth l i x).
Proof. induction l as [|h t IH]; intros [|i] x F q; cbn [set_nth]; inversion F; subst; auto. Qed.
Lemma small_empty m : m < 4 -> empty_slots m = [].
Proof. intros H. unfold empty_slots. replace (Z.to_nat (m ÷ 4)) with 0%nat; [reflexivity|]. destruct (Z_lt_le_dec m 0); [pose proof (Z.quot_le_upper_bound m 4 0); lia|]. rewrite Z.quot_small; lia. Qed.
Lemma step_full s i a s' : FULL s -> rstep s i a = Some s' -> FULL s'.
Proof.
  intros [M D V P N] E. assert (EM := step_max s i a s' E). unfold rstep in E. destruct (nth_error (pcs s) i) as [p|] eqn:Pi; [|discriminate].
  assert (Hp : pc_filled p) by (rewrite Forall_forall in P; apply P; eapply nth_error_In; eauto).
  destruct p, a; try discriminate; try (injection E as <-); cbn [pc_filled] in Hp.
  - destruct (isStop s); split; proj; auto; apply Forall_set; cbn; auto.
  - destruct (in_dec Z.eq_dec x (r_held s)); [injection E as <-|discriminate]. destruct (isStop s); split; proj; auto; apply Forall_set; cbn; auto.
  - destruct (status s =? 1); split; proj; auto; apply Forall_set; cbn; auto.
  - destruct (isStop s); split; proj; auto; apply Forall_set; cbn; auto.
  - split; proj; auto; apply Forall_set; cbn; auto.
  - unfold filled in D, V. destruct (r_hot s) as [h|]; [|destruct (r_idle s) as [|[o|] d]; [destruct (r_victim s) as [|[o|] v]|..]];
    (split; proj; [exact M|..]; auto; try (apply Forall_set; cbn; auto); unfold filled; cbn [In] in *; try tauto).
  - destruct (r_count s + 1 <=? r_max s); split; proj; auto; apply Forall_set; cbn; auto.
  - split; proj; auto; apply Forall_set; cbn; auto.
  - split; proj; auto; apply Forall_set; cbn; auto.
  - destruct (r_hot s); split; proj; auto; try (apply Forall_set; cbn; auto). intros [X|X]; [discriminate|exact (D X)].
  - split; proj; auto; apply Forall_set; cbn; auto.
  - split; proj; auto; apply Forall_set; cbn; auto.
  - split; proj; auto; apply Forall_set; cbn; auto.
  - split; proj; auto; [rewrite small_empty by exact M; intros []|]. apply Forall_set; [exact P|]. cbn. intros X. apply in_rev in X. exact (V X).
  - split; proj; auto; apply Forall_set; cbn; auto.
  - destruct vi as [|[o|] r]; (split; proj; auto; try (apply Forall_set; cbn; auto)); unfold filled in *; cbn [In] in Hp; tauto.
Qed.
Lemma run_full : forall l s s', FULL s -> rrun s l = Some s' -> FULL s'.
Proof.
  induction l as [|(i, a) l IH]; intros s s' H E; cbn [rrun] in E; [injection E as <-; exact H|].
  destruct (rstep s i a) as [s1|] eqn:E1; [|discriminate]. eapply IH; [|exact E]. eapply step_full; eauto.
Qed.
Lemma run_max : forall l s s', rrun s l = Some s' -> r_max s' = r_max s.
Proof.
  induction l as [|(i, a) l IH]; intros s s' E; cbn [rrun] in E; [injection E as <-; reflexivity|].
  destruct (rstep s i a) as [s1|] eqn:E1; [|discriminate]. rewrite (IH _ _ E). eapply step_max; eauto.
Qed.
Lemma init_full m n : m < 4 -> FULL (RInit m n).
Proof.
  intros M. unfold RInit. split; cbn [r_max r_idle r_victim pcs r_empty]; [exact M|rewrite small_empty by exact M; intros []|intros []| |reflexivity].
  apply Forall_forall. intros p H. apply repeat_spec in H. subst. exact I.
Qed.
