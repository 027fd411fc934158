(** C115 starting and stopping; C116 status listeners; C117 signals. *)
From Coq Require Import ZifyBool ZifyNat.
From Verif Require Import Go GoFacts AppModel AppSpec.

(** C115.  What Init reports, for every outcome of its parts: *)
Theorem C115_init_partial : forall a e m c p, snd (Init a e m c p) = None <->
  (e = Fine \/ e = Panics) /\ (e = Fine -> m <> Panics -> c <> Panics -> p = Fine \/ p = Panics /\ c = Fine).
Proof.
  assert (N : forall P : Prop, P -> (@None Z = None <-> P)) by (intros; split; auto).
  assert (S : forall (P : Prop) x, ~ P -> (Some x = @None Z <-> P)) by (intros; split; [discriminate|contradiction]).
  intros a e m c p. unfold Init. destruct e as [|x|].
  - destruct m as [|x|], c as [|y|], p as [|z|]; cbv beta iota zeta delta [snd];
      first [apply N; (split; [now left|]); intros _ M C; first [now left | now right | congruence] | apply S];
      intros (_ & H); specialize (H eq_refl ltac:(discriminate) ltac:(discriminate)); destruct H as [H|(H & H2)]; discriminate.
  - cbn [snd]. apply S. intros ([H|H] & _); discriminate.
  - cbn [snd]. apply N. split; [now right|discriminate].
Qed.
Print Assumptions C115_init_partial.
(** success is reported when all parts are fine, and a failure of the event target or of the packet
    listener is reported, *)
Theorem C115_reported_partial : forall a m c p e, m <> Panics -> c <> Panics ->
  snd (Init a Fine Fine Fine Fine) = None /\ snd (Init a (Fails e) m c p) = Some e /\ snd (Init a Fine m c (Fails e)) = Some e.
Proof. intros a m c p e M C. repeat split; unfold Init; destruct m, c; cbn; congruence. Qed.
Print Assumptions C115_reported_partial.
(** but a failure of the cryptography is lost, *)
Theorem C115_crypto_refuted : forall a e, snd (Init a Fine Fine (Fails e) Fine) = None.
Proof. reflexivity. Qed.
Print Assumptions C115_crypto_refuted.
(** and so is a panic of any part: Init reports success whichever part panics first. *)
Theorem C115_panic_refuted : forall a m c p,
  snd (Init a Panics m c p) = None /\ snd (Init a Fine Panics c p) = None /\ (m <> Panics -> snd (Init a Fine m Panics p) = None) /\
  snd (Init a Fine Fine Fine Panics) = None.
Proof. intros a m c p. repeat split. intros M. unfold Init. destruct m; cbn; congruence. Qed.
Print Assumptions C115_panic_refuted.
(** Deinit reports the first failure; after a failure of the cryptography the packet listener is left
    running, whatever it would have done. *)
Theorem C115_deinit : forall a c p, snd (Deinit a c p) =
  match c with Panics => Panic | Fails e => Ok (Some e) | Fine => match p with Panics => Panic | Fails e => Ok (Some e) | Fine => Ok None end end.
Proof. intros a [|e|] [|e'|]; reflexivity. Qed.
Print Assumptions C115_deinit.
Example C115_case : snd (Init zero_app Fine Fine (Fails 3) Fine) = None /\ snd (Init zero_app Fine Fine (Fails 3) (Fails 4)) = Some 4 /\
  snd (Init zero_app Fine Fine (Fails 3) Panics) = Some 3.
Proof. repeat split. Qed.

(** * C116 *)
Lemma run_snoc a l o : run a (l ++ [o]) = exec (run a l) o.
Proof. unfold run. now rewrite fold_left_app. Qed.
Lemma exec_listeners a o : listeners (exec a o) =
  match o with
  | OInit _ _ _ _ => map (offer Starting) (listeners a)
  | ODeinit _ _ => map (fun c => offer Stopping (offer Stopping c)) (listeners a)
  | ONotify n => listeners a ++ [Chan n [] false []]
  | ORecv i => match nth_error (listeners a) i with Some c => upd (listeners a) i (receive c) | None => listeners a end
  | _ => listeners a
  end.
Proof.
  destruct o as [e m c p| |c p|g|n|i]; cbn [exec]; try reflexivity.
  - unfold Init. destruct e, m, c, p; reflexivity.
  - unfold Deinit. destruct c, p; cbn; now rewrite map_map.
  - destruct g; reflexivity.
  - destruct (nth_error (listeners a) i); reflexivity.
Qed.
(** Status is the last change. *)
Theorem C116_status : forall l, Status (run zero_app l) = last (flat_map changes l) Unset.
Proof.
  intros l. induction l as [|o l IH] using rev_ind; [reflexivity|].
  rewrite run_snoc, flat_map_app. cbn [flat_map]. rewrite app_nil_r.
  destruct o as [e m c p| |c p|g|n|i]; cbn [exec changes]; try (rewrite app_nil_r, <- IH).
  - rewrite last_last. unfold Init, Status. destruct e, m, c, p; reflexivity.
  - reflexivity.
  - change [Stopping; Stopping] with ([Stopping] ++ [Stopping]). rewrite app_assoc, last_last. unfold Deinit, Status. destruct c, p; reflexivity.
  - destruct g; reflexivity.
  - reflexivity.
  - destruct (nth_error _ i); reflexivity.
Qed.
Print Assumptions C116_status.

Lemma sub_app_r {A} (a b : list A) x : subseq a b -> subseq a (b ++ [x]).
Proof. induction 1; cbn; [apply sub_skip; constructor|now apply sub_skip|now apply sub_take]. Qed.
Lemma sub_snoc {A} (a b : list A) x : subseq a b -> subseq (a ++ [x]) (b ++ [x]).
Proof. induction 1; cbn; [apply sub_take; constructor|now apply sub_skip|now apply sub_take]. Qed.
Lemma nth_error_upd {A} (l : list A) i j v : nth_error (upd l i v) j = if Nat.eqb i j then (if (i <? length l)%nat then Some v else None) else nth_error l j.
Proof.
  revert i j; induction l as [|x l IH]; intros [|i] [|j]; cbn; try reflexivity.
  - destruct (Nat.eqb i j); reflexivity.
  - rewrite IH. destruct (Nat.eqb i j); reflexivity.
Qed.
(** One listener through one operation. *)
Definition act (i : nat) (o : op) (c : chan) : chan :=
  match o with
  | OInit _ _ _ _ => offer Starting c
  | ODeinit _ _ => offer Stopping (offer Stopping c)
  | ORecv j => if Nat.eqb i j then receive c else c
  | _ => c
  end.
Lemma exec_one a o i c : nth_error (listeners a) i = Some c -> nth_error (listeners (exec a o)) i = Some (act i o c).
Proof.
  intros H. rewrite exec_listeners. destruct o as [e m k p| |k p|g|n|j]; cbn [act]; try exact H.
  - rewrite nth_error_map, H. reflexivity.
  - rewrite nth_error_map, H. reflexivity.
  - rewrite nth_error_app1; [exact H|]. apply nth_error_Some. congruence.
  - destruct (nth_error (listeners a) j) as [d|] eqn:E.
    + rewrite nth_error_upd. rewrite (Nat.eqb_sym i j). destruct (Nat.eqb j i) eqn:Q; [|exact H].
      apply Nat.eqb_eq in Q. subst. rewrite E in H. assert (d = c) by congruence. subst.
      replace (i <? length (listeners a))%nat with true; [reflexivity|]. symmetry. apply Nat.ltb_lt. apply nth_error_Some. congruence.
    + destruct (Nat.eqb i j) eqn:Q; [|exact H]. apply Nat.eqb_eq in Q. subst. congruence.
Qed.
Lemma run_one l : forall a i c, nth_error (listeners a) i = Some c -> nth_error (listeners (run a l)) i = Some (fold_left (fun c o => act i o c) l c).
Proof.
  induction l as [|o l IH]; intros a i c H; [exact H|]. cbn [run fold_left]. apply (IH (exec a o)). now apply exec_one.
Qed.
Lemma offer_sub s c h : subseq (got c ++ buf c) h -> (waiting c = true -> buf c = []) ->
  subseq (got (offer s c) ++ buf (offer s c)) (h ++ [s]) /\ (waiting (offer s c) = true -> buf (offer s c) = []).
Proof.
  intros H W. unfold offer. destruct (waiting c) eqn:E.
  - cbn. rewrite (W eq_refl) in *. rewrite app_nil_r in *. split; [now apply sub_snoc|auto].
  - destruct (_ <? _)%nat.
    + cbn. rewrite app_assoc. split; [now apply sub_snoc|discriminate].
    + split; [now apply sub_app_r|]. congruence.
Qed.
Lemma recv_same c : (waiting c = true -> buf c = []) ->
  got (receive c) ++ buf (receive c) = got c ++ buf c /\ (waiting (receive c) = true -> buf (receive c) = []).
Proof.
  intros W. unfold receive. destruct (buf c) as [|s b] eqn:E.
  - cbn. split; [reflexivity|reflexivity].
  - cbn. split; [now rewrite <- app_assoc|]. intros K. specialize (W K). discriminate.
Qed.
(** What a listener has received, followed by what waits in its channel, is always part of the changes
    made since it was registered, in their order: no change is invented, doubled or reordered. *)
Theorem C116_order : forall l0 n l, let a := run zero_app l0 in let i := length (listeners a) in
  exists c, nth_error (listeners (run a (ONotify n :: l))) i = Some c /\ subseq (got c ++ buf c) (flat_map changes l).
Proof.
  intros l0 n l a i. set (a1 := exec a (ONotify n)).
  assert (N : nth_error (listeners a1) i = Some (Chan n [] false [])).
  { unfold a1. rewrite exec_listeners. rewrite nth_error_app2 by (unfold i; lia). unfold i. now rewrite Nat.sub_diag. }
  change (run a (ONotify n :: l)) with (run a1 l). eexists. split; [apply run_one; exact N|].
  enough (K : forall c h, subseq (got c ++ buf c) h -> (waiting c = true -> buf c = []) ->
    let c' := fold_left (fun c o => act i o c) l c in subseq (got c' ++ buf c') (h ++ flat_map changes l)).
  { apply (K (Chan n [] false []) []); [constructor|discriminate]. }
  clear. induction l as [|o l IH]; intros c h H W; [cbn; now rewrite app_nil_r|].
  cbn [fold_left flat_map]. cbn zeta. rewrite app_assoc. destruct o as [e m k p| |k p|g|j|j]; cbn [act changes].
  - destruct (offer_sub Starting c h H W) as (A & B). now apply IH.
  - rewrite app_nil_r. now apply IH.
  - destruct (offer_sub Stopping c h H W) as (A & B). destruct (offer_sub Stopping _ _ A B) as (A2 & B2).
    change [Stopping; Stopping] with ([Stopping] ++ [Stopping]). rewrite (app_assoc h). now apply IH.
  - rewrite app_nil_r. now apply IH.
  - rewrite app_nil_r. now apply IH.
  - rewrite app_nil_r. destruct (Nat.eqb i j); [|now apply IH]. destruct (recv_same c W) as (A & B). apply IH; [now rewrite A|exact B].
Qed.
Print Assumptions C116_order.

(** A listener gets no more statuses than it has asked for, and its channel never holds more than it has room for. *)
Theorem C116_received : forall l0 n l, let a := run zero_app l0 in let i := length (listeners a) in
  exists c, nth_error (listeners (run a (ONotify n :: l))) i = Some c /\ (length (got c) <= receives i l)%nat /\ (length (buf c) <= n)%nat.
Proof.
  intros l0 n l a i. set (a1 := exec a (ONotify n)).
  assert (N : nth_error (listeners a1) i = Some (Chan n [] false [])).
  { unfold a1. rewrite exec_listeners. rewrite nth_error_app2 by (unfold i; lia). unfold i. now rewrite Nat.sub_diag. }
  change (run a (ONotify n :: l)) with (run a1 l). eexists. split; [apply run_one; exact N|].
  set (w := fun c => if waiting c then 1%nat else 0%nat).
  assert (O : forall s c, cap (offer s c) = cap c /\ (length (got (offer s c)) + w (offer s c) <= length (got c) + w c)%nat /\ (length (buf c) <= cap c -> length (buf (offer s c)) <= cap c)%nat).
  { intros s c. unfold w, offer. destruct (waiting c) eqn:E; [cbn; rewrite app_length; cbn; repeat split; lia|].
    destruct (length (buf c) <? cap c)%nat eqn:B; cbn [cap got buf waiting]; [apply Nat.ltb_lt in B; rewrite app_length; cbn [length]|rewrite E]; repeat split; lia. }
  enough (K : forall c k, (length (got c) + w c <= k)%nat -> (length (buf c) <= cap c)%nat ->
    let c' := fold_left (fun c o => act i o c) l c in (length (got c') <= k + receives i l)%nat /\ (length (buf c') <= cap c)%nat).
  { apply (K (Chan n [] false []) 0%nat); cbn; lia. }
  clear - O. induction l as [|o l IH]; intros c k G B; [cbn; lia|]. cbn [fold_left]. cbn zeta.
  destruct o as [e m x p| |x p|g|j|j]; cbn [act receives]; try (now apply IH).
  - destruct (O Starting c) as (A1 & A2 & A3). rewrite <- A1. apply IH; [lia|rewrite A1; auto].
  - destruct (O Stopping c) as (A1 & A2 & A3), (O Stopping (offer Stopping c)) as (B1 & B2 & B3). rewrite <- A1, <- B1. apply IH; [lia|rewrite B1; apply B3; rewrite A1; auto].
  - rewrite (Nat.eqb_sym j i). destruct (Nat.eqb i j); [|now apply IH]. rewrite <- plus_n_Sm, <- plus_Sn_m.
    assert (R : cap (receive c) = cap c /\ (length (got (receive c)) + w (receive c) <= S (length (got c) + w c))%nat /\ (length (buf (receive c)) <= length (buf c))%nat).
    { unfold w, receive. destruct (buf c) as [|s b]; cbn; [destruct (waiting c); repeat split; lia|]. rewrite app_length. cbn. destruct (waiting c); repeat split; lia. }
    destruct R as (R1 & R2 & R3). rewrite <- R1. apply IH; [lia|rewrite R1; lia].
Qed.
Print Assumptions C116_received.
(** A listener that is waiting gets the very next change. *)
Theorem C116_waiting : forall l0 n l e m x p, let a := run zero_app l0 in let i := length (listeners a) in
  exists c, nth_error (listeners (run a (ONotify n :: l ++ [ORecv i; OInit e m x p]))) i = Some c /\ (buf c = [] -> last (got c) Unset = Starting) /\
  forall d, nth_error (listeners (run a (ONotify n :: l))) i = Some d -> buf d = [] -> got c = got d ++ [Starting] /\ buf c = [].
Proof.
  intros l0 n l e m x p a i. set (a1 := exec a (ONotify n)).
  assert (N : nth_error (listeners a1) i = Some (Chan n [] false [])).
  { unfold a1. rewrite exec_listeners. rewrite nth_error_app2 by (unfold i; lia). unfold i. now rewrite Nat.sub_diag. }
  change (run a (ONotify n :: l ++ [ORecv i; OInit e m x p])) with (run a1 (l ++ [ORecv i; OInit e m x p])). change (run a (ONotify n :: l)) with (run a1 l).
  eexists. split; [apply run_one; exact N|]. rewrite fold_left_app. rewrite (run_one l _ _ _ N). set (c := fold_left _ l _). cbn [fold_left act]. rewrite Nat.eqb_refl.
  split.
  - unfold receive. destruct (buf c) as [|s b] eqn:B; unfold offer; cbn [waiting buf cap got]; [intros _; apply last_last|].
    destruct (waiting c); cbn [got buf]; [intros _; apply last_last|]. destruct (_ <? _)%nat eqn:L; cbn [got buf]; [intros X; apply app_eq_nil in X; destruct X as (_ & X); discriminate X|].
    intros ->. cbn [length] in L. exfalso.
    pose proof (C116_received l0 n l) as (d & D1 & _ & D2). fold a in D1. fold i in D1. change (run a (ONotify n :: l)) with (run a1 l) in D1. rewrite (run_one l _ _ _ N) in D1. fold c in D1.
    assert (d = c) by congruence. subst d. rewrite B in D2. cbn [length] in D2. assert (cap c = n) as E.
    { unfold c. clear. generalize (Chan n [] false []) as c, (eq_refl : cap (Chan n [] false []) = n). intros c. revert c. induction l as [|o l IH]; intros c H; [exact H|]. cbn [fold_left]. apply IH. rewrite <- H.
      assert (O : forall s c, cap (offer s c) = cap c) by (intros s d; unfold offer; destruct (waiting d); [reflexivity|destruct (_ <? _)%nat; reflexivity]).
      destruct o; cbn [act]; rewrite ?O; try reflexivity. destruct (Nat.eqb i i0); [|reflexivity]. unfold receive. destruct (buf c); reflexivity. }
    rewrite E in L. apply Nat.ltb_ge in L. lia.
  - intros d D. assert (d = c) by congruence. subst d. intros B. unfold receive. rewrite B. unfold offer. cbn. auto.
Qed.
Print Assumptions C116_waiting.

Lemma offer_room s c : (length (buf c) < cap c)%nat -> (waiting c = true -> buf c = []) ->
  got (offer s c) ++ buf (offer s c) = (got c ++ buf c) ++ [s] /\ cap (offer s c) = cap c /\ (length (buf (offer s c)) <= S (length (buf c)))%nat /\
  (waiting (offer s c) = true -> buf (offer s c) = []).
Proof.
  intros H W. unfold offer. destruct (waiting c) eqn:E.
  - cbn. rewrite W by auto. rewrite !app_nil_r. cbn. repeat split; lia.
  - replace (length (buf c) <? cap c)%nat with true by (symmetry; now apply Nat.ltb_lt). cbn. rewrite app_assoc, app_length. cbn. repeat split; try lia; try discriminate.
Qed.
(** None is lost as long as there are no more of them than the channel has room for, *)
Theorem C116_complete_partial : forall l0 n l, (length (flat_map changes l) <= n)%nat ->
  let a := run zero_app l0 in let i := length (listeners a) in
  exists c, nth_error (listeners (run a (ONotify n :: l))) i = Some c /\ got c ++ buf c = flat_map changes l.
Proof.
  intros l0 n l Hn a i. set (a1 := exec a (ONotify n)).
  assert (N : nth_error (listeners a1) i = Some (Chan n [] false [])).
  { unfold a1. rewrite exec_listeners. rewrite nth_error_app2 by (unfold i; lia). unfold i. now rewrite Nat.sub_diag. }
  change (run a (ONotify n :: l)) with (run a1 l). eexists. split; [apply run_one; exact N|].
  enough (K : forall c, (length (buf c) + length (flat_map changes l) <= cap c)%nat -> (waiting c = true -> buf c = []) ->
    let c' := fold_left (fun c o => act i o c) l c in got c' ++ buf c' = (got c ++ buf c) ++ flat_map changes l).
  { apply (K (Chan n [] false [])); [cbn [buf cap length]; lia|discriminate]. }
  clear. induction l as [|o l IH]; intros c H W; [cbn; now rewrite app_nil_r|].
  cbn [fold_left flat_map] in *. cbn zeta. destruct o as [e m k p| |k p|g|j|j]; cbn [act changes List.app] in *; try (apply IH; auto; fail).
  - cbn [length] in H. destruct (offer_room Starting c ltac:(lia) W) as (A & B & C & D). rewrite IH; [|lia|auto].
    rewrite A, <- app_assoc. reflexivity.
  - cbn [length] in H. destruct (offer_room Stopping c ltac:(lia) W) as (A & B & C & D).
    destruct (offer_room Stopping (offer Stopping c) ltac:(lia) D) as (A2 & B2 & C2 & D2). rewrite IH; [|lia|auto].
    rewrite A2, A, <- !app_assoc. reflexivity.
  - destruct (Nat.eqb i j); [|now apply IH]. destruct (recv_same c W) as (A & B). rewrite IH; [now rewrite A| |exact B].
    assert (length (buf (receive c)) <= length (buf c) /\ cap (receive c) = cap c)%nat by (unfold receive; destruct (buf c); cbn; split; lia). lia.
Qed.
Print Assumptions C116_complete_partial.
(** but a listener whose channel is full loses the change: after reading everything its last news is not
    the status. *)
Theorem C116_lost_refuted : forall l0 n e m k p k' p', (0 < n)%nat ->
  let a := run zero_app l0 in let i := length (listeners a) in
  let l := ONotify n :: repeat (OInit e m k p) n ++ [ODeinit k' p'] ++ repeat (ORecv i) n in
  exists c, nth_error (listeners (run a l)) i = Some c /\ buf c = [] /\ got c = repeat Starting n /\
  Status (run a l) = Stopping.
Proof.
  intros l0 n e m k p k' p' Hn a i l. set (a1 := exec a (ONotify n)).
  assert (N : nth_error (listeners a1) i = Some (Chan n [] false [])).
  { unfold a1. rewrite exec_listeners. rewrite nth_error_app2 by (unfold i; lia). unfold i. now rewrite Nat.sub_diag. }
  set (l' := repeat (OInit e m k p) n ++ [ODeinit k' p'] ++ repeat (ORecv i) n).
  change (listeners (run a l)) with (listeners (run a1 l')). eexists. split; [apply run_one; exact N|].
  assert (E : fold_left (fun c o => act i o c) l' (Chan n [] false []) = Chan n [] false (repeat Starting n)).
  { unfold l'. rewrite !fold_left_app.
    assert (F1 : forall j b, (length b + j <= n)%nat -> fold_left (fun c o => act i o c) (repeat (OInit e m k p) j) (Chan n b false []) = Chan n (b ++ repeat Starting j) false []).
    { induction j as [|j IH]; intros b Hb; [cbn; now rewrite app_nil_r|]. cbn [repeat fold_left act]. unfold offer. cbn [waiting buf cap got].
      replace (length b <? n)%nat with true by (symmetry; apply Nat.ltb_lt; lia). rewrite IH by (rewrite app_length; cbn; lia). rewrite <- app_assoc. reflexivity. }
    rewrite F1 by (cbn; lia). cbn [List.app fold_left act].
    assert (O : offer Stopping (Chan n (repeat Starting n) false []) = Chan n (repeat Starting n) false []).
    { unfold offer. cbn [waiting buf cap]. rewrite repeat_length, Nat.ltb_irrefl. reflexivity. }
    rewrite !O.
    assert (F2 : forall j g, fold_left (fun c o => act i o c) (repeat (ORecv i) j) (Chan n (repeat Starting j) false g) = Chan n [] false (g ++ repeat Starting j)).
    { induction j as [|j IH]; intros g; [cbn; now rewrite app_nil_r|]. cbn [repeat fold_left act]. rewrite Nat.eqb_refl. unfold receive. cbn [buf cap waiting got].
      rewrite IH, <- app_assoc. reflexivity. }
    apply (F2 n []). }
  rewrite E. cbn [buf got]. repeat split.
  replace (run a l) with (run zero_app (l0 ++ l)) by (unfold a, run; apply fold_left_app). rewrite C116_status. unfold l.
  rewrite flat_map_app. cbn [flat_map changes List.app]. rewrite flat_map_app. cbn [flat_map changes List.app].
  assert (Z0 : forall j k, flat_map changes (repeat (ORecv j) k) = []) by (intros j q; induction q; [reflexivity|cbn; auto]).
  rewrite Z0. rewrite app_assoc. change [Stopping; Stopping] with ([Stopping] ++ [Stopping]). rewrite app_assoc. apply last_last.
Qed.
Print Assumptions C116_lost_refuted.
Example C116_case : let l := [ONotify 1; OInit Fine Fine Fine Fine; ODeinit Fine Fine; ORecv 0] in
  listeners (run zero_app l) = [Chan 1 [] false [Starting]] /\ Status (run zero_app l) = Stopping /\
  listeners (run zero_app [ONotify 3; OInit Fine Fine Fine Fine; ODeinit Fine Fine; ORecv 0]) = [Chan 3 [Stopping; Stopping] false [Starting]].
Proof. repeat split. Qed.

(** * C117.  Only the four stop signals ever start Deinit, and only a running application; *)
Theorem C117_only_partial : forall a g, snd (OsSignalHandler a g) = true <-> asks_to_stop g /\ Status a = Running.
Proof.
  intros a g. unfold asks_to_stop. split.
  - destruct g; cbn; try discriminate; destruct (Status a); try discriminate; auto 8.
  - intros (H & S). cbn in H. destruct H as [<- | [<- | [<- | [<- | []]]]]; cbn; now rewrite S.
Qed.
Print Assumptions C117_only_partial.
(** a signal by itself changes neither the status nor the listeners; *)
Theorem C117_quiet : forall a g, fst (OsSignalHandler a g) = a.
Proof. intros a g. destruct g; reflexivity. Qed.
Print Assumptions C117_quiet.
(** but no application ever is running, whatever happens to it, so no signal ever stops one. *)
Theorem C117_refuted : forall l g, Status (run zero_app l) <> Running /\ snd (OsSignalHandler (run zero_app l) g) = false.
Proof.
  intros l g. assert (N : Status (run zero_app l) <> Running).
  { rewrite C116_status. induction l as [|o l IH] using rev_ind; [discriminate|]. rewrite flat_map_app. cbn [flat_map]. rewrite app_nil_r.
    destruct o; cbn [changes]; rewrite ?app_nil_r; auto.
    - rewrite last_last. discriminate.
    - change [Stopping; Stopping] with ([Stopping] ++ [Stopping]). rewrite app_assoc, last_last. discriminate. }
  split; [exact N|]. destruct (snd (OsSignalHandler (run zero_app l) g)) eqn:E; [|reflexivity]. apply C117_only_partial in E. tauto.
Qed.
Print Assumptions C117_refuted.
Example C117_case : let a := run zero_app [OInit Fine Fine Fine Fine] in Status a = Starting /\ snd (OsSignalHandler a Terminated) = false /\
  snd (OsSignalHandler (App Running []) Terminated) = true.
Proof. repeat split. Qed.
