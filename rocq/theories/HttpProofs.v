From Coq Require Import Permutation Sorted ZifyBool ZifyNat.
From Verif Require Import Go GoFacts UriModel UriProofs UriProofs2 StrconvModel StringsModel StringsProofs HttpModel HttpSpec.
Local Open Scope Z_scope.

Lemma beq_same a b : beq a b = same a b.
Proof. apply beq_dec. Qed.
Lemma same_refl a : same a a = true.
Proof. unfold same. destruct (list_eq_dec Z.eq_dec a a); congruence. Qed.
Lemma same_eq a b : same a b = true -> a = b.
Proof. unfold same. destruct (list_eq_dec Z.eq_dec a b); congruence. Qed.
Lemma same_neq a b : same a b = false -> a <> b.
Proof. unfold same. destruct (list_eq_dec Z.eq_dec a b); congruence. Qed.

(** * Header *)
Lemma delete_none {A} (h : list A) i : slices_Delete h i i = h.
Proof. apply firstn_skipn. Qed.
Lemma set_loop_true n : forall i k v h, set_loop n i k v true h = (true, h).
Proof.
  induction n as [|n IH]; intros i k v h; cbn [set_loop]; [reflexivity|].
  destruct (nth_error h i) as [[k' v']|]; [|reflexivity]. cbn [negb]. rewrite delete_none, !IH. now destruct (beq k' k).
Qed.
Lemma skipn_nth {A} (h : list A) i x : nth_error h i = Some x -> skipn i h = x :: skipn (S i) h.
Proof.
  revert i. induction h as [|y h IH]; intros [|i] H; try discriminate.
  - injection H as ->. reflexivity.
  - cbn [skipn]. now rewrite (IH i).
Qed.
Lemma set_loop_false n : forall i k v h, (n + i = length h)%nat ->
  set_loop n i k v false h = (has (skipn i h) k, h).
Proof.
  induction n as [|n IH]; intros i k v h L; cbn [set_loop].
  - rewrite skipn_all2 by lia. reflexivity.
  - destruct (nth_error h i) as [[k' v']|] eqn:E; [|apply nth_error_None in E; lia].
    rewrite (skipn_nth _ _ _ E). cbn [has existsb fst negb]. rewrite <- beq_same.
    destruct (beq k' k); [now rewrite set_loop_true|]. rewrite IH by lia. reflexivity.
Qed.
Lemma Set_spec h k v : Header_Set h k v = if has h k then h else h ++ [(k, v)].
Proof. unfold Header_Set. rewrite set_loop_false by lia. cbn [skipn]. now destruct (has h k). Qed.
Lemma del_loop_id n : forall i k h, del_loop n i k h = h.
Proof.
  induction n as [|n IH]; intros i k h; cbn [del_loop]; [reflexivity|].
  destruct (nth_error h i) as [[k' v']|]; [|reflexivity]. rewrite delete_none, !IH. now destruct (beq k' k).
Qed.
Lemma Del_spec h k : Header_Del h k = h.
Proof. apply del_loop_id. Qed.
Lemma Get_spec h k : Header_Get h k = lookup h k.
Proof.
  unfold Header_Get, Header_Find. induction h as [|[k' v'] h IH]; [reflexivity|].
  cbn [find_from lookup fst snd]. rewrite beq_same. destruct (same k' k); [reflexivity|].
  rewrite <- IH. destruct (find_from h 0 k) as [[v j]|]; reflexivity.
Qed.

Definition run_op (h : header) (op : hop) : header :=
  match op with HAdd k v => Header_Add h k v | HSet k v => Header_Set h k v | HDel k => Header_Del h k end.
Definition run_ops (h : header) (ops : list hop) : header := fold_left run_op ops h.

Lemma lookup_app a b k : lookup (a ++ b) k = if has a k then lookup a k else lookup b k.
Proof. induction a as [|l a IH]; [reflexivity|]. cbn [app lookup has existsb]. destruct (same (fst l) k); [reflexivity|]. exact IH. Qed.
Lemma has_app a b k : has (a ++ b) k = has a k || has b k.
Proof. apply existsb_app. Qed.
Lemma lookup_absent a k : has a k = false -> lookup a k = [].
Proof. induction a as [|l a IH]; [reflexivity|]. cbn [lookup has existsb]. destruct (same (fst l) k); [discriminate|]. exact IH. Qed.

Lemma first_write_wins ops : forall h k,
  lookup (run_ops h ops) k = if has h k then lookup h k else first_write ops k.
Proof.
  induction ops as [|op ops IH]; intros h k; cbn [run_ops fold_left first_write].
  - destruct (has h k) eqn:E; [reflexivity|]. now apply lookup_absent.
  - change (fold_left run_op ops (run_op h op)) with (run_ops (run_op h op) ops). rewrite IH.
    assert (A : forall k' v, (if has (h ++ [(k', v)]) k then lookup (h ++ [(k', v)]) k else first_write ops k) =
                (if has h k then lookup h k else if same k' k then v else first_write ops k)).
    { intros k' v. rewrite has_app, lookup_app. cbn [has existsb fst lookup snd]. destruct (has h k) eqn:E; [reflexivity|].
      cbn [orb]. destruct (same k' k) eqn:F; [|rewrite orb_false_r]; reflexivity. }
    destruct op as [k' v|k' v|k']; cbn [run_op].
    + apply A.
    + rewrite Set_spec. destruct (has h k') eqn:E; [|apply A].
      destruct (same k' k) eqn:F; [apply same_eq in F; subst; rewrite E; reflexivity|reflexivity].
    + now rewrite Del_spec.
Qed.

Lemma replace_absent h k v : has h k = false -> replace h k v = h ++ [(k, v)].
Proof. induction h as [|l h IH]; [reflexivity|]. cbn [replace has existsb app]. destruct (same (fst l) k); [discriminate|]. intros H. now rewrite IH. Qed.
Lemma without_absent h k : has h k = false -> without h k = h.
Proof. induction h as [|l h IH]; [reflexivity|]. cbn [without filter has existsb app]. destruct (same (fst l) k); [discriminate|]. intros H. cbn [negb]. f_equal. now apply IH. Qed.
Lemma fresh_ideal ops : forall h, fresh_history h ops -> run_ops h ops = fold_left ideal ops h.
Proof.
  induction ops as [|op ops IH]; intros h F; [reflexivity|]. inversion F as [|? ? ? O F']; subst.
  cbn [run_ops fold_left]. assert (E : run_op h op = ideal h op).
  { destruct op as [k v|k v|k]; cbn [run_op ideal fresh_op] in *; [reflexivity| |].
    - rewrite Set_spec, O. symmetry. now apply replace_absent.
    - rewrite Del_spec. symmetry. now apply without_absent. }
  rewrite E. now apply IH.
Qed.

(** Find walks the lines of a name in order. *)
Lemma find_from_spec h : forall i k v j, find_from h i k = Some (v, j) <->
  (nth_error h j = Some (k, v) /\ (i <= j)%nat /\ forall m v', (i <= m < j)%nat -> nth_error h m <> Some (k, v')).
Proof.
  induction h as [|[k0 v0] h IH]; intros i k v j; cbn [find_from].
  - split; [discriminate|]. intros (H & _). destruct j; discriminate.
  - destruct i as [|i].
    + destruct (beq k0 k) eqn:E.
      * apply beq_eq in E. subst k0. split.
        -- intros H. injection H as <- <-. repeat split; [lia|]. intros m v' Hm. lia.
        -- intros (H & _ & F). destruct j as [|j]; [cbn in H; injection H as ->; reflexivity|].
           exfalso. apply (F O v0); [lia|reflexivity].
      * apply beq_neq in E. destruct (find_from h 0 k) as [[v1 j1]|] eqn:G; cbn [option_map fst snd].
        -- apply IH in G. destruct G as (G1 & G2 & G3). split.
           ++ intros H. injection H as <- <-. repeat split; [assumption|lia|].
              intros [|m] v' Hm; cbn; [congruence|]. apply G3. lia.
           ++ intros (H & _ & F). destruct j as [|j]; [cbn in H; congruence|]. cbn in H.
              assert (J : j = j1).
              { destruct (Nat.lt_trichotomy j j1) as [L|[L|L]]; [|assumption|].
                - exfalso. apply (G3 j v); [lia|assumption].
                - exfalso. apply (F (S j1) v1); [lia|assumption]. }
              subst. rewrite G1 in H. congruence.
        -- split; [discriminate|]. intros (H & _ & F). destruct j as [|j]; [cbn in H; congruence|].
           exfalso. assert (X : find_from h 0 k <> None); [|congruence].
           clear - H. cbn in H. revert H. generalize j. clear. induction h as [|[k0 v0] h IH]; intros [|j] H; try discriminate; cbn in *.
           ++ injection H as -> ->. rewrite beq_refl. discriminate.
           ++ destruct (beq k0 k); [discriminate|]. specialize (IH j H). destruct (find_from h 0 k); [discriminate|congruence].
    + destruct (find_from h i k) as [[v1 j1]|] eqn:G; cbn [option_map fst snd].
      * pose proof (proj1 (IH _ _ _ _) G) as (G1 & G2 & G3). split.
        -- intros H. injection H as <- <-. repeat split; [assumption|lia|].
           intros [|m] v' Hm; [lia|]. apply G3. lia.
        -- intros (H & Lj & F). destruct j as [|j]; [lia|]. cbn in H.
           assert (J : find_from h i k = Some (v, j)).
           { apply IH. repeat split; [assumption|lia|]. intros m v' Hm. apply (F (S m)). lia. }
           rewrite G in J. congruence.
      * split; [discriminate|]. intros (H & Lj & F). destruct j as [|j]; [lia|]. cbn in H.
        assert (J : find_from h i k = Some (v, j)).
        { apply IH. repeat split; [assumption|lia|]. intros m v' Hm. apply (F (S m)). lia. }
        congruence.
Qed.

(** * Accept *)
Lemma insert_perm l e : Permutation (insertMime l e) (l ++ [e]).
Proof.
  induction l as [|a l IH]; cbn [insertMime]; [reflexivity|].
  destruct (qgt (snd e) (snd a)).
  - change (e :: a :: l) with ([e] ++ (a :: l)). apply Permutation_app_comm.
  - cbn [app]. now constructor.
Qed.
Definition rank (m : mime) : Z := match snd m with Some q => q | None => 0 end.
Definition ranked (m : mime) : Prop := snd m <> None.
Lemma insert_forall (P : mime -> Prop) l e : Forall P l -> P e -> Forall P (insertMime l e).
Proof.
  intros F H. induction F as [|a l Ha F IH]; cbn [insertMime]; [now repeat constructor|].
  destruct (qgt _ _); repeat constructor; auto.
Qed.
Lemma qgt_rank a b : ranked a -> ranked b -> qgt (snd a) (snd b) = (rank b <? rank a).
Proof. unfold ranked, rank. destruct (snd a), (snd b); cbn; congruence. Qed.
Lemma insert_sorted l e : Forall ranked l -> ranked e -> descending rank l -> descending rank (insertMime l e).
Proof.
  intros F He S. induction S as [|a l S IH A]; cbn [insertMime]; [repeat constructor|].
  inversion F as [|? ? Ha Fl]; subst. rewrite qgt_rank by assumption.
  destruct (rank a <? rank e) eqn:E.
  - constructor; [now constructor|]. constructor; [lia|]. eapply Forall_impl; [|exact A]. cbn. intros; lia.
  - constructor; [now apply IH|]. apply insert_forall; [assumption|lia].
Qed.
Lemma insert_stable l e q : Forall ranked l -> ranked e -> descending rank l ->
  filter (fun a => rank a =? q) (insertMime l e) = filter (fun a => rank a =? q) (l ++ [e]).
Proof.
  intros F He S. induction S as [|a l S IH A]; cbn [insertMime app]; [reflexivity|].
  inversion F as [|? ? Ha Fl]; subst. rewrite qgt_rank by assumption.
  destruct (rank a <? rank e) eqn:E.
  - change (e :: a :: l) with ([e] ++ (a :: l)). change (a :: l ++ [e]) with ((a :: l) ++ [e]). rewrite !filter_app.
    cbn [filter]. destruct (rank e =? q) eqn:Q.
    + assert (N : filter (fun a => rank a =? q) l = []).
      { clear - A E Q. induction A as [|b l Hb A IH]; [reflexivity|]. cbn [filter]. rewrite IH. destruct (rank b =? q) eqn:X; [lia|reflexivity]. }
      rewrite N. destruct (rank a =? q) eqn:X; [lia|]. reflexivity.
    + rewrite app_nil_r. reflexivity.
  - cbn [filter]. rewrite IH by assumption. reflexivity.
Qed.
Definition inserts (l : list mime) : list mime := fold_left insertMime l [].
Lemma inserts_spec l : Forall ranked l ->
  descending rank (inserts l) /\ stable rank l (inserts l) /\ Permutation (inserts l) l.
Proof.
  unfold inserts. intros F.
  assert (G : forall acc pre, Forall ranked acc -> descending rank acc -> stable rank pre acc -> Permutation acc pre ->
    descending rank (fold_left insertMime l acc) /\ stable rank (pre ++ l) (fold_left insertMime l acc)
    /\ Permutation (fold_left insertMime l acc) (pre ++ l)).
  { induction F as [|e l He F IH]; intros acc pre R D S P; cbn [fold_left].
    - rewrite app_nil_r. auto.
    - replace (pre ++ e :: l) with ((pre ++ [e]) ++ l) by now rewrite <- app_assoc.
      apply IH; [now apply insert_forall|now apply insert_sorted| |].
      + intros q. rewrite insert_stable by assumption. rewrite !filter_app. now rewrite S.
      + rewrite insert_perm. now apply Permutation_app_tail. }
  apply (G [] []); constructor.
Qed.
Lemma inserts_perm l : Permutation (inserts l) l.
Proof.
  unfold inserts. assert (G : forall acc pre, Permutation acc pre -> Permutation (fold_left insertMime l acc) (pre ++ l)).
  { induction l as [|e l IH]; intros acc pre P; cbn [fold_left]; [now rewrite app_nil_r|].
    replace (pre ++ e :: l) with ((pre ++ [e]) ++ l) by now rewrite <- app_assoc.
    apply IH. rewrite insert_perm. now apply Permutation_app_tail. }
  now apply (G [] []).
Qed.
Definition entries (PF : bytes -> option quality) (one : quality) (parts : list bytes) : list mime :=
  flat_map (fun p => match accept_entry PF one p with Some m => [m] | None => [] end) parts.
Lemma sortMimes_inserts PF one s : sortMimes PF one s = inserts (entries PF one (Split1 s 44)).
Proof.
  unfold sortMimes, inserts. generalize (@nil mime). induction (Split1 s 44) as [|p l IH]; intros acc; [reflexivity|].
  cbn [fold_left entries flat_map]. unfold entries in *. destruct (accept_entry PF one p); cbn [app fold_left]; apply IH.
Qed.

(** * Sanitisers: a filter and a flag *)
Lemma filter_loop (p : Z -> bool) l : forall a e,
  fold_left (fun a b => if p b then (fst a ++ [b], snd a) else (fst a, true)) l (a, e)
  = (a ++ filter p l, e || negb (forallb p l)).
Proof.
  induction l as [|x l IH]; intros a e; cbn [fold_left filter forallb].
  - now rewrite app_nil_r, orb_false_r.
  - destruct (p x); cbn [fst snd].
    + rewrite IH. rewrite <- app_assoc. reflexivity.
    + rewrite IH. cbn. now rewrite orb_true_r.
Qed.
Lemma value_spec v : sanitizeCookieValue v = (filter value_byte v, negb (forallb value_byte v)).
Proof. unfold sanitizeCookieValue. now rewrite filter_loop. Qed.
Lemma path_spec v : sanitizeCookiePath v = (filter path_byte v, negb (forallb path_byte v)).
Proof. unfold sanitizeCookiePath. now rewrite filter_loop. Qed.
Definition dash (b : Z) : Z := if (b =? 10) || (b =? 13) then 45 else b.
Lemma name_spec n : sanitizeCookieName n = (map dash n, existsb (fun b => (b =? 10) || (b =? 13)) n).
Proof.
  unfold sanitizeCookieName.
  assert (G : forall l a e, fold_left (fun a b => if (b =? 10) || (b =? 13) then (fst a ++ [45], true) else (fst a ++ [b], snd a)) l (a, e)
    = (a ++ map dash l, e || existsb (fun b => (b =? 10) || (b =? 13)) l)).
  { induction l as [|x l IH]; intros a e; cbn [fold_left map existsb].
    - now rewrite app_nil_r, orb_false_r.
    - unfold dash at 1. destruct ((x =? 10) || (x =? 13)); cbn [fst snd]; rewrite IH, <- app_assoc; cbn [app orb]; f_equal.
      now rewrite orb_true_r. }
  now rewrite G.
Qed.
Lemma filter_idem {A} (p : A -> bool) l : filter p (filter p l) = filter p l.
Proof. induction l as [|x l IH]; [reflexivity|]. cbn [filter]. destruct (p x) eqn:E; [cbn [filter]; rewrite E, IH; reflexivity|assumption]. Qed.
Lemma filter_id {A} (p : A -> bool) l : forallb p l = true -> filter p l = l.
Proof. induction l as [|x l IH]; [reflexivity|]. cbn [filter forallb]. destruct (p x); [|discriminate]. intros H. f_equal. now apply IH. Qed.

(** * Domain *)
Definition dchar (b : Z) : bool := letter b || digit b || (b =? 45).
Lemma dchar_alnum b : dchar b = true <-> alnum b \/ b = 45.
Proof. unfold dchar, letter, digit, alnum. lia. Qed.
(** Inside a label: [l] is what has been read of it. *)
Definition open_label (l : bytes) : Prop :=
  Forall (fun b => alnum b \/ b = 45) l /\ (l = [] \/ exists b t, l = b :: t /\ b <> 45).
Definition last_of (l : bytes) : Z := last l 46.
Lemma last_app_one (l : bytes) b : last_of (l ++ [b]) = b.
Proof. unfold last_of. apply last_last. Qed.
Lemma open_snoc l b : open_label l -> alnum b \/ b = 45 -> (l = [] -> b <> 45) -> open_label (l ++ [b]).
Proof.
  intros (F & H) Hb N. split; [apply Forall_app; auto|]. right. destruct H as [->|(c & t & -> & Hc)].
  - exists b, []. auto.
  - exists c, (t ++ [b]). auto.
Qed.
Lemma open_label_of l : open_label l -> l <> [] -> last_of l <> 45 -> zlen l <= 63 -> label l.
Proof.
  intros (F & H) N L Z. destruct H as [->|(b & t & -> & Hb)]; [congruence|]. split; [|split; [assumption|split]].
  - rewrite zlen_cons in *. pose proof (zlen_nonneg t). lia.
  - eauto.
  - destruct (@exists_last _ (b :: t) N) as (p & c & E). exists c, p. split; [assumption|].
    rewrite E in L. now rewrite last_app_one in L.
Qed.
Lemma label_open l : label l -> open_label l.
Proof. intros (_ & F & H & _). split; auto. Qed.
Lemma label_last l : label l -> last_of l <> 45 /\ last_of l <> 46 /\ l <> [].
Proof.
  intros (_ & F & _ & (b & t & -> & Hb)). rewrite last_app_one. apply Forall_app in F as [_ F]. inversion F as [|? ? H _]; subst.
  unfold alnum in H. repeat split; [lia|lia|]. now destruct t.
Qed.
Lemma open_prefix l b r : open_label (l ++ b :: r) -> (alnum b \/ b = 45) /\ (l = [] -> b <> 45) /\ open_label (l ++ [b]).
Proof.
  intros (F & H). pose proof F as F'. apply Forall_app in F as [F1 F2]. inversion F2; subst. split; [assumption|].
  assert (N : l = [] -> b <> 45).
  { intros ->. destruct H as [H|(c & t & H & Hc)]; [destruct r; discriminate|]. cbn in H. injection H as -> _. assumption. }
  split; [assumption|]. split; [apply Forall_app; auto|]. right. destruct l as [|c l]; [exists b, []; auto|].
  destruct H as [H|(d & t & H & Hc)]; [discriminate|]. exists c, (l ++ [b]). split; [reflexivity|]. cbn in H. congruence.
Qed.
Lemma last_of_open l : open_label l -> l <> [] -> last_of l <> 46.
Proof.
  intros (F & _) N. destruct (@exists_last _ l N) as (p & c & ->). rewrite last_app_one.
  apply Forall_app in F as [_ F]. inversion F as [|? ? H _]; subst. unfold alnum in H. lia.
Qed.
Lemma last_of_nil : last_of [] = 46.
Proof. reflexivity. Qed.

(** reading a label *)
Lemma domain_step l b t : open_label l ->
  domain_loop (b :: t) (last_of l) (zlen l) =
  if dchar b then if (b =? 45) && beq l [] then None else domain_loop t b (zlen l + 1)
  else if b =? 46 then if beq l [] || (last_of l =? 45) || (63 <? zlen l) then None else domain_loop t 46 0
  else None.
Proof.
  intros O. cbn [domain_loop]. unfold dchar. destruct (letter b) eqn:E1.
  { cbn [orb]. destruct (b =? 45) eqn:E; [unfold letter in E1; lia|]. reflexivity. }
  destruct (digit b) eqn:E2.
  { cbn [orb]. destruct (b =? 45) eqn:E; [unfold digit in E2; lia|]. reflexivity. }
  cbn [orb]. destruct (b =? 45) eqn:E3.
  { destruct l as [|c l']; [reflexivity|]. pose proof (last_of_open _ O ltac:(discriminate)).
    destruct (last_of (c :: l') =? 46) eqn:E; [lia|]. reflexivity. }
  destruct (b =? 46) eqn:E4; [|reflexivity].
  destruct l as [|c l']; [reflexivity|]. pose proof (last_of_open _ O ltac:(discriminate)).
  destruct (last_of (c :: l') =? 46) eqn:E; [lia|]. cbn [orb beq].
  destruct (last_of (c :: l') =? 45); [reflexivity|]. cbn [orb].
  assert (zlen (c :: l') =? 0 = false) by (rewrite zlen_cons; pose proof (zlen_nonneg l'); lia).
  rewrite H0, orb_false_r. destruct (63 <? zlen (c :: l')); [reflexivity|]. f_equal. lia.
Qed.
Definition good_end (r : option (Z * Z)) : bool :=
  match r with Some (lst, p) => negb (lst =? 45) && negb (lst =? 46) && (p <? 64) | None => false end.

Lemma domain_sound d : forall l, open_label l ->
  good_end (domain_loop d (last_of l) (zlen l)) = true -> host_name (l ++ d).
Proof.
  induction d as [|b t IH]; intros l O G.
  - rewrite app_nil_r. cbn in G. constructor. apply open_label_of; [assumption| |lia|lia].
    intros ->. rewrite last_of_nil in G. lia.
  - rewrite domain_step in G by assumption. destruct (dchar b) eqn:D.
    + apply dchar_alnum in D. destruct ((b =? 45) && beq l []) eqn:E; [discriminate|].
      replace (l ++ b :: t) with ((l ++ [b]) ++ t) by now rewrite <- app_assoc.
      apply IH; [|rewrite last_app_one, zlen_app; cbn; assumption].
      apply open_snoc; [assumption|assumption|]. intros ->. cbn in E. lia.
    + destruct (b =? 46) eqn:E; [|discriminate]. assert (b = 46) by lia. subst b.
      destruct (beq l [] || (last_of l =? 45) || (63 <? zlen l)) eqn:X; [discriminate|].
      apply orb_false_iff in X as [X X3]. apply orb_false_iff in X as [X1 X2]. apply beq_neq in X1.
      constructor; [apply open_label_of; [assumption|assumption|lia|lia]|].
      apply (IH []); [split; auto|]. exact G.
Qed.
Lemma domain_label r : forall l, open_label (l ++ r) -> 
  (forall t, domain_loop (r ++ t) (last_of l) (zlen l) = domain_loop t (last_of (l ++ r)) (zlen (l ++ r))).
Proof.
  induction r as [|b r IH]; intros l O t; [rewrite app_nil_r; reflexivity|].
  pose proof O as O'. apply open_prefix in O as (H1 & H2 & H3). cbn [app]. rewrite domain_step.
  2:{ destruct O' as (F & X). apply Forall_app in F as [F _]. split; [assumption|]. destruct l as [|c l]; [auto|]. right.
      destruct X as [X|(d & u & X & Hd)]; [discriminate|]. cbn in X. injection X as -> _. eauto. }
  apply dchar_alnum in H1. rewrite H1. destruct ((b =? 45) && beq l []) eqn:E.
  { apply andb_true_iff in E as [E1 E2]. apply beq_eq in E2. specialize (H2 E2). lia. }
  replace (l ++ b :: r) with ((l ++ [b]) ++ r) in * by now rewrite <- app_assoc.
  rewrite <- IH by assumption. rewrite last_app_one, zlen_app. reflexivity.
Qed.
Lemma domain_complete d : host_name d -> good_end (domain_loop d 46 0) = true.
Proof.
  induction 1 as [l L|l d L H IH].
  - pose proof (domain_label l [] (label_open _ L) []) as E. rewrite app_nil_r in E. cbn [app] in E.
    change (last_of []) with 46 in E. change (zlen (@nil Z)) with 0 in E. rewrite E. cbn.
    destruct (label_last _ L) as (A & B & _). destruct L as (L & _). lia.
  - pose proof (domain_label l [] (label_open _ L) (46 :: d)) as E. cbn [app] in E.
    change (last_of []) with 46 in E. change (zlen (@nil Z)) with 0 in E. rewrite E.
    rewrite domain_step by now apply label_open. change (dchar 46) with false. cbn iota. rewrite Z.eqb_refl.
    destruct (label_last _ L) as (A & B & C). destruct L as (L & _).
    apply beq_neq in C. rewrite C. replace (last_of l =? 45) with false by lia. replace (63 <? zlen l) with false by lia. exact IH.
Qed.
(** The IP branch is never taken with an accepting answer. *)
Lemma ip_field_last f : ip_field f = true -> zlen f <= 3 /\ f <> [] /\ Forall (fun c => digit c = true) f.
Proof.
  unfold ip_field. intros H. repeat (apply andb_true_iff in H as [H ?]). split; [lia|]. split; [intros ->; cbn in H; lia|].
  apply Forall_forall. now apply forallb_forall.
Qed.
Lemma digit_open f : Forall (fun c => digit c = true) f -> open_label f.
Proof.
  intros F. split.
  - eapply Forall_impl; [|exact F]. cbn. intros a H. unfold digit in H. unfold alnum. lia.
  - destruct f as [|c f]; [auto|]. right. inversion F; subst. exists c, f. split; [reflexivity|]. unfold digit in *. lia.
Qed.
Lemma digit_last f : Forall (fun c => digit c = true) f -> f <> [] -> last_of f <> 45 /\ last_of f <> 46.
Proof.
  intros F N. destruct (@exists_last _ f N) as (p & c & ->). rewrite last_app_one. apply Forall_app in F as [_ F].
  inversion F; subst. unfold digit in *. lia.
Qed.
Lemma ip_label f : ip_field f = true -> label f.
Proof.
  intros H. apply ip_field_last in H as (A & B & C). apply open_label_of; [now apply digit_open|assumption| |lia].
  now apply digit_last.
Qed.
Lemma ip_host d : parse_ip_ok d = true -> host_name d.
Proof.
  unfold parse_ip_ok. pose proof (join_split d 46) as J. destruct (Split1 d 46) as [|a [|b [|c [|e [|]]]]]; try discriminate.
  intros H. do 3 (apply andb_true_iff in H as [H ?]). rewrite <- J. cbn [Join app].
  constructor; [now apply ip_label|]. constructor; [now apply ip_label|]. constructor; [now apply ip_label|]. constructor. now apply ip_label.
Qed.
Lemma domain_spec d : sanitizeCookieDomain d =
  if (zlen d =? 0) || (255 <? zlen d) then ([], true)
  else let d := match d with 46 :: t => t | _ => d end in
       if good_end (domain_loop d 46 0) then (d, false) else ([], true).
Proof.
  unfold sanitizeCookieDomain. destruct ((zlen d =? 0) || (255 <? zlen d)); [reflexivity|].
  set (e := match d with 46 :: t => t | _ => d end). cbn zeta. clearbody e.
  unfold good_end. destruct (domain_loop e 46 0) as [[lst p]|] eqn:L; [|reflexivity].
  destruct (negb (lst =? 45) && negb (lst =? 46) && (p <? 64)) eqn:G; [reflexivity|].
  destruct (parse_ip_ok e) eqn:I; [|reflexivity]. exfalso.
  apply ip_host, domain_complete in I. rewrite L in I. cbn in I. congruence.
Qed.
Lemma host_head x : host_name x -> x <> [] /\ hd 0 x <> 46.
Proof.
  assert (G : forall l d, label l -> l ++ d <> [] /\ hd 0 (l ++ d) <> 46).
  { intros l d (_ & F & (c & t & -> & Hc) & _). inversion F as [|? ? C _]; subst. cbn. unfold alnum in C. split; [discriminate|lia]. }
  destruct 1 as [l L|l d L _]; [|now apply G]. pose proof (G l [] L) as H. now rewrite app_nil_r in H.
Qed.
