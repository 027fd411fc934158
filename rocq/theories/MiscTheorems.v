(** C134 pages; C135 sets of actions; C136 compressed characters; C137 files in order, hidden files;
    C138 the timings of the cores; C139 ciphers; C140 minifying and URNs. *)
From Coq Require Import ZifyBool ZifyNat String Permutation.
From Verif Require Import Go GoFacts StringsModel StringsProofs FileModel FileTheorems MiscModel MiscSpec.
Import ListNotations.
Local Open Scope Z_scope.
Local Open Scope list_scope.

(** * Pages *)
Lemma register_made : forall l t m, exists m', register_all (Pages t (Some m)) l = (Pages (t ++ l) (Some m'), false) /\
  forall k, m' k = match last_with (fun x => beq (path x) k) l with Some x => Some x | None => m k end.
Proof.
  induction l as [|x l IH]; intros t m; cbn [register_all].
  - exists m. rewrite app_nil_r. split; reflexivity.
  - unfold RegisterPage. cbn [by_path by_time]. destruct (IH (t ++ [x]) (RegModel.map_set beq m (path x) (Some x))) as (m' & E & G).
    exists m'. rewrite E, <- app_assoc. split; [reflexivity|]. intros k. rewrite G. cbn [last_with].
    destruct (last_with _ l); [reflexivity|]. unfold RegModel.map_set. now destruct (beq (path x) k).
Qed.
(** C134.  With a map in place the pages are kept in the order they were added, and a path leads to the
    page added last for it. *)
Theorem C134_pages_partial : forall l m, (forall k, m k = None) ->
  let '(p, panicked) := register_all (Pages [] (Some m)) l in
  panicked = false /\ by_time p = l /\ forall k, GetPageByPath p k = last_with (fun x => beq (path x) k) l.
Proof.
  intros l m E. destruct (register_made l [] m) as (m' & R & G). rewrite R. cbn [by_time app]. repeat split.
  intros k. unfold GetPageByPath. cbn [by_path]. rewrite G, E. now destruct (last_with _ l).
Qed.
Print Assumptions C134_pages_partial.
(** C134, refuted: no page can ever be registered: the first call ends the process, and the page is
    already listed though its path leads nowhere. *)
Theorem C134_zero_refuted : forall x l, register_all no_pages (x :: l) = (Pages [x] None, true) /\
  forall k, GetPageByPath (fst (register_all no_pages (x :: l))) k = None.
Proof. intros x l. split; reflexivity. Qed.
Print Assumptions C134_zero_refuted.
Definition case_pages : list page := [Page (str "/a"%string) 1; Page (str "/b"%string) 2; Page (str "/a"%string) 3].
Example C134_case : GetPageByPath (fst (register_all (Pages [] (Some (fun _ => None))) case_pages)) (str "/a"%string) = Some (Page (str "/a"%string) 3).
Proof. reflexivity. Qed.

(** * Actions *)
(** C135.  Check tells whether every action of the one set is in the other. *)
Theorem C135_check : forall at_ with_, 0 <= at_ < 2 ^ 64 -> 0 <= with_ < 2 ^ 64 ->
  (AT_Check at_ with_ = true <-> forall n, action_in n with_ -> action_in n at_).
Proof.
  intros a w A W. unfold AT_Check. rewrite Z.eqb_eq. split.
  - intros H n (P & T). split; [exact P|]. rewrite <- H, Z.land_spec in T. apply andb_prop in T. tauto.
  - intros H. apply Z.bits_inj'. intros n P. rewrite Z.land_spec. destruct (Z.testbit w n) eqn:T; [|reflexivity].
    now destruct (H n (conj P T)) as (_ & ->).
Qed.
Print Assumptions C135_check.
(** C135.  The seven named actions are different bits of 64: a set holds one when it was put in, mixed by
    or with any others; All holds every set and every set holds None. *)
Theorem C135_constants : forall i, 0 <= i < 7 ->
  0 < AT_const i < 2 ^ 64 /\ (forall n, action_in n (AT_const i) <-> n = i) /\
  (forall old rest, AT_Check (AT_Set old (Z.lor (AT_const i) rest)) (AT_const i) = true) /\
  (forall old j, 0 <= j < 7 -> AT_Check (AT_Set old (AT_const j)) (AT_const i) = true -> j = i).
Proof.
  intros i R. unfold AT_const, AT_Set.
  assert (B : forall k n, 0 <= k -> 0 <= n -> Z.testbit (Z.shiftl 1 k) n = (n =? k)).
  { intros k n K N. rewrite Z.shiftl_1_l. rewrite Z.pow2_bits_eqb by lia. lia. }
  assert (X : forall k n, 0 <= k -> action_in n (Z.shiftl 1 k) <-> n = k).
  { intros k n K. unfold action_in. split; [intros (P & T); rewrite B in T by lia; lia|intros ->; split; [lia|rewrite B; lia]]. }
  split; [rewrite Z.shiftl_1_l; split; [apply Z.pow_pos_nonneg; lia|apply Z.pow_lt_mono_r; lia]|].
  split; [intros n; apply X; lia|]. split.
  - intros old rest. unfold AT_Check. apply Z.eqb_eq. apply Z.bits_inj'. intros n P. rewrite Z.land_spec, Z.lor_spec. now destruct (Z.testbit _ n).
  - intros old j J H. unfold AT_Check in H. apply Z.eqb_eq in H.
    assert (T : Z.testbit (Z.land (Z.shiftl 1 i) (Z.shiftl 1 j)) i = true) by (rewrite H, B; lia).
    rewrite Z.land_spec, !B in T by lia. lia.
Qed.
Print Assumptions C135_constants.
Theorem C135_all_none : forall a, 0 <= a < 2 ^ 64 -> AT_Check AT_All a = true /\ AT_Check a AT_None = true.
Proof.
  intros a A. unfold AT_Check, AT_All, AT_None. rewrite Z.land_0_l. split; [|reflexivity].
  rewrite Z.land_ones by lia. rewrite Z.mod_small by lia. apply Z.eqb_refl.
Qed.
Print Assumptions C135_all_none.
Example C135_case : AT_Check (Z.lor (AT_const 0) (AT_const 3)) (AT_const 3) = true /\ AT_Check (Z.lor (AT_const 0) (AT_const 3)) (AT_const 1) = false /\
  AT_Check (AT_const 0) (Z.lor (AT_const 0) (AT_const 3)) = false.
Proof. repeat split. Qed.

(** * Compressed characters *)
Lemma decode_next c rest : char c -> (length c = 4%nat \/ exists h t, rest = h :: t /\ 0 <= h < 128) -> DecodeChar (c ++ rest) = Ok (filled c, zlen c).
Proof.
  intros (h & t & -> & H & F & L) N. unfold DecodeChar, filled.
  assert (A : forall l0 i x, 0 <= i -> nth_error l0 (Z.to_nat i) = Some x -> @idx Z l0 i = Ok x) by (intros; now apply idx_ok).
  destruct t as [|a [|b [|d [|? ?]]]]; cbn [length] in *; try lia;
    repeat match goal with F : Forall _ (_ :: _) |- _ => inversion F; subst; clear F end.
  - destruct N as [N|(x & r & -> & X)]; [lia|]. cbn [app]. rewrite !(A _ 0 h), !(A _ 1 x) by (lia || reflexivity). cbn [bind].
    replace (x <? 128) with true by lia. reflexivity.
  - destruct N as [N|(x & r & -> & X)]; [lia|]. cbn [app]. rewrite !(A _ 0 h), !(A _ 1 a), !(A _ 2 x) by (lia || reflexivity). cbn [bind].
    replace (x <? 128) with true by lia. replace (a <? 128) with false by lia. reflexivity.
  - destruct N as [N|(x & r & -> & X)]; [lia|]. cbn [app]. rewrite !(A _ 0 h), !(A _ 1 a), !(A _ 2 b), !(A _ 3 x) by (lia || reflexivity). cbn [bind].
    replace (x <? 128) with true by lia. replace (a <? 128) with false by lia. replace (b <? 128) with false by lia. reflexivity.
  - clear N. cbn [app]. rewrite !(A _ 0 h), !(A _ 1 a), !(A _ 2 b), !(A _ 3 d) by (lia || reflexivity). cbn [bind].
    replace (a <? 128) with false by lia. replace (b <? 128) with false by lia. replace (d <? 128) with false by lia. reflexivity.
Qed.
Lemma decode_last c : char c -> (length c < 4)%nat -> DecodeChar c = Panic.
Proof.
  intros (h & t & -> & H & F & L) N. unfold DecodeChar.
  assert (A : forall l0 i x, 0 <= i -> nth_error l0 (Z.to_nat i) = Some x -> @idx Z l0 i = Ok x) by (intros; now apply idx_ok).
  destruct t as [|a [|b [|d [|? ?]]]]; cbn [length] in *; try lia;
    repeat match goal with F : Forall _ (_ :: _) |- _ => inversion F; subst; clear F end.
  - reflexivity.
  - rewrite !(A _ 0 h), !(A _ 1 a) by (lia || reflexivity). cbn [bind]. replace (a <? 128) with false by lia. reflexivity.
  - rewrite !(A _ 0 h), !(A _ 1 a), !(A _ 2 b) by (lia || reflexivity). cbn [bind]. replace (a <? 128) with false by lia. replace (b <? 128) with false by lia. reflexivity.
Qed.
(** C136.  A character is decoded, with its size, when another follows it or it takes four bytes; *)
Theorem C136_first_partial : forall c next rest, char c -> char next -> DecodeChar (c ++ next ++ rest) = Ok (filled c, zlen c).
Proof.
  intros c next rest C (h & t & -> & H & _). apply decode_next; [exact C|]. right. cbn [app]. exists h, (t ++ rest). auto.
Qed.
Print Assumptions C136_first_partial.
Theorem C136_four_partial : forall c rest, char c -> length c = 4%nat -> DecodeChar (c ++ rest) = Ok (filled c, zlen c).
Proof. intros c rest C L. apply decode_next; auto. Qed.
Print Assumptions C136_four_partial.
(** C136, refuted: the last character of a text is not, if it is shorter: decoding it ends the process. *)
Theorem C136_last_refuted : forall c, char c -> (length c < 4)%nat -> DecodeChar c = Panic.
Proof. exact decode_last. Qed.
Print Assumptions C136_last_refuted.
Lemma decode_read : forall cs last k, Forall char cs -> char last -> (length cs + 1 < k)%nat ->
  decode_text k (concat cs ++ last) =
  Some (if (length last =? 4)%nat then Ok (map (fun c => (filled c, zlen c)) (cs ++ [last])) else Panic).
Proof.
  induction cs as [|c cs IH]; intros last k F L K; (destruct k as [|k]; [lia|]); cbn [decode_text concat app map].
  - pose proof L as (h & t & E & _ & _ & T).
    destruct last as [|h' t'] eqn:EL; [discriminate|]. rewrite <- EL in *. destruct (Nat.eqb_spec (length last) 4) as [L4|L4].
    + pose proof (decode_next last [] L (or_introl L4)) as D. rewrite app_nil_r in D. rewrite D.
      replace (Z.to_nat (zlen last)) with (length last) by (unfold zlen; lia). rewrite skipn_all.
      destruct k as [|k]; [cbn [length] in K; lia|]. reflexivity.
    + rewrite decode_last; [reflexivity|exact L|]. rewrite E in *. cbn [length] in *. lia.
  - inversion F as [|? ? C F']; subst. pose proof C as (h & t & E & _).
    assert (D : DecodeChar ((c ++ concat cs) ++ last) = Ok (filled c, zlen c)).
    { rewrite <- app_assoc. apply decode_next; [exact C|]. right. destruct cs as [|d cs].
      - destruct L as (x & y & -> & R & _). exists x, y. auto.
      - inversion F' as [|? ? (x & y & -> & R & _)]; subst. cbn [concat app]. eauto. }
    rewrite D. replace (Z.to_nat (zlen c)) with (length c) by (unfold zlen; lia). rewrite <- app_assoc, skipn_app, skipn_all, Nat.sub_diag. cbn [skipn app].
    rewrite IH; [|exact F'|exact L|cbn [length] in K; lia]. rewrite E. cbn [app]. destruct (length last =? 4)%nat; reflexivity.
Qed.
(** C136.  So a whole text is read, character by character, exactly if its last character takes four
    bytes. *)
Theorem C136_text_refuted : forall cs last, Forall char cs -> char last ->
  exists n, forall k, (n <= k)%nat -> decode_text k (concat cs ++ last) =
  Some (if (length last =? 4)%nat then Ok (map (fun c => (filled c, zlen c)) (cs ++ [last])) else Panic).
Proof. intros cs last F L. exists (length cs + 2)%nat. intros k K. apply decode_read; auto. lia. Qed.
Print Assumptions C136_text_refuted.
(** C136, refuted: two characters that differ can fill the same four bytes, so the size is needed. *)
Theorem C136_filled_refuted : forall h, 0 <= h < 128 -> char [h] /\ char [h; 128] /\ filled [h] = filled [h; 128].
Proof.
  intros h H. split; [exists h, []; repeat split; try lia; auto; cbn; lia|]. split; [exists h, [128]; repeat split; try lia; [|cbn; lia]|reflexivity].
  constructor; [lia|constructor].
Qed.
Print Assumptions C136_filled_refuted.
Example C136_case : char [65] /\ char [66; 200] /\ char [67; 128; 129; 130] /\
  decode_text 5 ([65] ++ [66; 200] ++ [67; 128; 129; 130]) = Some (Ok [([65; 128; 128; 128], 1); ([66; 200; 128; 128], 2); ([67; 128; 129; 130], 4)]) /\
  decode_text 5 ([65] ++ [66; 200]) = Some Panic.
Proof.
  repeat split; try reflexivity.
  - exists 65, []. repeat split; try lia; auto; cbn; lia.
  - exists 66, [200]. repeat split; try lia; [|cbn; lia]. constructor; [lia|constructor].
  - exists 67, [128; 129; 130]. repeat split; try lia; [|cbn; lia]. repeat (constructor; [lia|]). constructor.
Qed.

(** * Files *)
(** C137, refuted: SortFilesDec puts the oldest file first: newest first only if all are of one age. *)
Theorem C137_sort_refuted : forall l l', SortFilesDec l l' ->
  (forall i j a b, (i < j)%nat -> nth_error l' i = Some a -> nth_error l' j = Some b -> modtime a <= modtime b) /\
  ((forall i j a b, (i < j)%nat -> nth_error l' i = Some a -> nth_error l' j = Some b -> modtime b <= modtime a) <->
   forall a b, In a l -> In b l -> modtime a = modtime b).
Proof.
  intros l l' (P & S0). assert (U : forall i j a b, (i < j)%nat -> nth_error l' i = Some a -> nth_error l' j = Some b -> modtime a <= modtime b).
  { intros i j a b L A B. pose proof (S0 i j a b L A B) as H. unfold Less in H. lia. }
  split; [exact U|]. split.
  - intros D a b A B. pose proof (Permutation_in _ P A) as A'. pose proof (Permutation_in _ P B) as B'.
    apply In_nth_error in A' as (i & A'). apply In_nth_error in B' as (j & B'). destruct (Nat.lt_trichotomy i j) as [L|[->|L]].
    + pose proof (U _ _ _ _ L A' B'). pose proof (D _ _ _ _ L A' B'). lia.
    + congruence.
    + pose proof (U _ _ _ _ L B' A'). pose proof (D _ _ _ _ L B' A'). lia.
  - intros H i j a b L A B. rewrite (H a b); [lia| |]; eapply Permutation_in; try apply Permutation_sym, P; eapply nth_error_In; eauto.
Qed.
Print Assumptions C137_sort_refuted.
(** C137.  Less is an order sort.Sort can work with, files of one age included: every list of files can be
    put in order. *)
Lemma insert_file x : forall l, (forall i j a b, (i < j)%nat -> nth_error l i = Some a -> nth_error l j = Some b -> Less b a = false) ->
  exists l', SortFilesDec (x :: l) l'.
Proof.
  induction l as [|y l IH]; intros H.
  - exists [x]. split; auto. intros i j a b L A B. destruct j; [lia|]. destruct j; discriminate.
  - destruct (Less y x) eqn:E.
    + destruct IH as (l' & P & S0). { intros i j a b L A B. apply (H (S i) (S j)); auto. lia. }
      exists (y :: l'). split; [rewrite perm_swap; now constructor|]. intros i j a b L A B. destruct j as [|j]; [lia|]. cbn in B. destruct i as [|i]; cbn in A.
      * injection A as <-. apply nth_error_In in B. apply (Permutation_in _ (Permutation_sym P)) in B. destruct B as [<-|B]; [unfold Less in *; lia|].
        apply In_nth_error in B as (k & B). apply (H 0%nat (S k) y b); auto. lia.
      * apply (S0 i j); auto. lia.
    + exists (x :: y :: l). split; auto. intros i j a b L A B. destruct j as [|j]; [lia|]. cbn in B. destruct i as [|i]; cbn in A; [|apply (H i j); auto; lia].
      injection A as <-. destruct j as [|j]; cbn in B; [injection B as <-; exact E|]. pose proof (H 0%nat (S j) y b ltac:(lia) eq_refl B). unfold Less in *. lia.
Qed.
Theorem C137_sortable : forall l, exists l', SortFilesDec l l'.
Proof.
  induction l as [|x l (l' & P & S0)].
  - exists []. split; auto. intros i j a b L A. destruct i; discriminate.
  - destruct (insert_file x l' S0) as (m & Q & S1). exists m. split; auto. rewrite <- Q. now constructor.
Qed.
Print Assumptions C137_sortable.
Lemma name_of u0 dir name : ~ In 47 name -> (dir = [] \/ exists d, dir = d ++ [47]) -> name_ (FInit u0 (dir ++ name)) = name.
Proof.
  intros N D. unfold FInit, filepath_Split. cbn [Rename name_]. destruct D as [->|(d & ->)].
  - cbn [app]. now rewrite last_index_none by exact N.
  - rewrite <- app_assoc. cbn [app]. rewrite last_index_at by exact N. replace (Z.to_nat (zlen d + 1)) with (length (d ++ [47])) by (rewrite app_length; unfold zlen; cbn; lia).
    replace (d ++ 47 :: name) with ((d ++ [47]) ++ name) by (rewrite <- app_assoc; reflexivity). now rewrite skipn_app, skipn_all, Nat.sub_diag.
Qed.
(** C137.  A file is hidden exactly if its name begins with a dot; *)
Theorem C137_hidden_partial : forall u0 dir c name, ~ In 47 (c :: name) -> (dir = [] \/ exists d, dir = d ++ [47]) ->
  Hidden (FInit u0 (dir ++ c :: name)) = Ok (c =? 46).
Proof. intros u0 dir c name N D. unfold Hidden. now rewrite name_of by auto. Qed.
Print Assumptions C137_hidden_partial.
(** refuted: asking it of a directory's URI, which ends with a separator, or of the empty one panics. *)
Theorem C137_hidden_refuted : forall u0 dir, dir = [] \/ (exists d, dir = d ++ [47]) -> Hidden (FInit u0 dir) = Panic.
Proof. intros u0 dir D. unfold Hidden. rewrite <- (app_nil_r dir), name_of by auto. reflexivity. Qed.
Print Assumptions C137_hidden_refuted.
Definition case_uri : FURI := {| path_ := []; name_ := []; extension_ := [] |}.
Example C137_case : Hidden (FInit case_uri (str "/a/.git"%string)) = Ok true /\ Hidden (FInit case_uri (str "/.a/b.go"%string)) = Ok false /\
  SortFilesDec [Finfo (str "b"%string) 9; Finfo (str "a"%string) 4] [Finfo (str "a"%string) 4; Finfo (str "b"%string) 9].
Proof.
  split; [reflexivity|]. split; [reflexivity|]. split; [apply perm_swap|]. intros [|[|i]] [|[|j]] a b L A B; cbn in *; try lia; try discriminate; try (destruct i; discriminate); try (destruct j; discriminate).
  injection A as <-. injection B as <-. reflexivity.
Qed.

(** * Timings *)
Lemma init_state : forall k active pool id, 0 <= id ->
  (id + Z.of_nat k <= zlen pool -> exists pool', init_loop active pool k id = Ok pool' /\ length pool' = length pool /\
     forall i, 0 <= i -> nth_error pool' (Z.to_nat i) = if (id <=? i) && (i <? id + Z.of_nat k) then Some (Timing true (active i)) else nth_error pool (Z.to_nat i)) /\
  (zlen pool < id + Z.of_nat k -> (0 < k)%nat -> init_loop active pool k id = Panic).
Proof.
  induction k as [|k IH]; intros active pool id P; cbn [init_loop].
  - split; [|lia]. intros _. exists pool. repeat split. intros i I. now replace ((id <=? i) && (i <? id + Z.of_nat 0)) with false by lia.
  - destruct (Z_lt_ge_dec id (zlen pool)) as [L|L].
    + rewrite set_idx_ok by lia. cbn [bind]. set (p1 := upd pool (Z.to_nat id) _). assert (E : length p1 = length pool) by apply upd_length.
      assert (E' : zlen p1 = zlen pool) by (unfold zlen; now rewrite E).
      destruct (IH active p1 (id + 1) ltac:(lia)) as (A & B). split.
      * intros H. destruct (A ltac:(lia)) as (p' & R & LN & V). exists p'. split; [exact R|]. split; [congruence|]. intros i I. rewrite V by lia.
        destruct (Z.eq_dec i id) as [->|N].
        -- replace ((id + 1 <=? id) && (id <? id + 1 + Z.of_nat k)) with false by lia. replace ((id <=? id) && (id <? id + Z.of_nat (S k))) with true by lia.
           unfold p1. apply nth_error_upd_eq. unfold zlen in L. lia.
        -- replace ((id + 1 <=? i) && (i <? id + 1 + Z.of_nat k)) with ((id <=? i) && (i <? id + Z.of_nat (S k))) by lia.
           destruct (_ && _); [reflexivity|]. unfold p1. apply nth_error_upd_neq. lia.
      * intros H _. destruct k as [|k]; [lia|]. apply B; lia.
    + rewrite set_idx_panic by lia. split; [lia|reflexivity].
Qed.
(** C138, refuted: with more threads than processors (GOMAXPROCS can be set so) the process ends before
    it starts, and exactly then; *)
Theorem C138_start_refuted : forall n m active, timer_init n m active = Panic <-> (n < m)%nat.
Proof.
  intros n m active. unfold timer_init. destruct (init_state m active (repeat (Timing false 0) n) 0 ltac:(lia)) as (A & B).
  assert (L : zlen (repeat (Timing false 0) n) = Z.of_nat n) by (unfold zlen; now rewrite repeat_length). rewrite L in *. split.
  - intros H. destruct (Nat.lt_ge_cases n m) as [?|G]; [assumption|]. destruct (A ltac:(lia)) as (p & R & _). congruence.
  - intros H. apply B; lia.
Qed.
Print Assumptions C138_start_refuted.
(** C138.  Otherwise a timer started on a core is given to a timing that runs exactly if the core's number
    is below the number of threads; above, to one that never does, and above the number of processors
    the process ends. *)
Theorem C138_runs_partial : forall n m active core, (m <= n)%nat -> 0 <= core -> exists pool, timer_init n m active = Ok pool /\
  activeTiming pool core = if core <? Z.of_nat m then Ok (Timing true (active core)) else if core <? Z.of_nat n then Ok (Timing false 0) else Panic.
Proof.
  intros n m active core M C. unfold timer_init. destruct (init_state m active (repeat (Timing false 0) n) 0 ltac:(lia)) as (A & _).
  assert (L : zlen (repeat (Timing false 0) n) = Z.of_nat n) by (unfold zlen; now rewrite repeat_length). rewrite L in *.
  destruct (A ltac:(lia)) as (p & R & LN & V). exists p. split; [exact R|]. unfold activeTiming. specialize (V core C).
  replace ((0 <=? core) && (core <? 0 + Z.of_nat m)) with (core <? Z.of_nat m) in V by lia.
  destruct (core <? Z.of_nat m) eqn:Q; [now rewrite (idx_ok _ _ _ C V)|]. destruct (Z.ltb_spec core (Z.of_nat n)) as [Y|Y].
  - rewrite (idx_ok _ _ (Timing false 0) C); [reflexivity|]. rewrite V. apply nth_error_repeat. lia.
  - unfold idx. replace (core <? 0) with false by lia. rewrite V. replace (nth_error _ _) with (@None timing); [reflexivity|]. symmetry. apply nth_error_None. rewrite repeat_length. lia.
Qed.
Print Assumptions C138_runs_partial.
(** C138, refuted: all take themselves to be on the core the process was started on. *)
Theorem C138_core_refuted : forall n m c core, (m <= n)%nat -> 0 <= core < Z.of_nat m -> exists pool, timer_init n m (fun _ => c) = Ok pool /\
  activeTiming pool core = Ok (Timing true c).
Proof.
  intros n m c core M C. destruct (C138_runs_partial n m (fun _ => c) core M ltac:(lia)) as (p & R & V). exists p. split; [exact R|]. rewrite V.
  now replace (core <? Z.of_nat m) with true by lia.
Qed.
Print Assumptions C138_core_refuted.
Example C138_case : timer_init 2 3 (fun _ => 0) = Panic /\ timer_init 3 2 (fun _ => 1) = Ok [Timing true 1; Timing true 1; Timing false 0].
Proof. split; reflexivity. Qed.

(** * Ciphers *)
(** C139.  What was encrypted is decrypted again; *)
Theorem C139_round_trip : forall c buf, Decrypt c (fst (Encrypt c buf)) = (buf, None).
Proof. reflexivity. Qed.
Print Assumptions C139_round_trip.
(** refuted: it is also what anyone sees, whatever the cipher and key; a wrong key decrypts it as well, and
    a buffer that was changed on the way is taken without an error. *)
Theorem C139_secret_refuted : exists read : bytes -> bytes, forall c buf, read (fst (Encrypt c buf)) = buf /\ snd (Encrypt c buf) = None.
Proof. exists (fun b => b). intros c buf. split; reflexivity. Qed.
Print Assumptions C139_secret_refuted.
Theorem C139_authentic_refuted : forall c c' buf other, fst (Decrypt c' (fst (Encrypt c buf))) = buf /\ Decrypt c other = (other, None).
Proof. split; reflexivity. Qed.
Print Assumptions C139_authentic_refuted.
Example C139_case : fst (Decrypt (CCM [2]) (fst (Encrypt (GCM [1]) (str "secret"%string)))) = str "secret"%string.
Proof. reflexivity. Qed.

(** * Minifying, URNs *)
(** C140.  Minify gives back the errors of the data's own codec, and otherwise replaces the data by what
    the minifier made of it; *)
Theorem C140_minify_partial : forall (E G : Type) (mini : bytes -> bytes + G) (d : codec E) raw m,
  (forall e, marshal d = inr e -> Minify mini d = (Some e, None)) /\
  (marshal d = inl raw -> mini raw = inl m -> Minify mini d = (unmarshal d m, Some m)).
Proof. intros E G mini d raw m. unfold Minify. split; [intros e ->; reflexivity|intros -> ->; reflexivity]. Qed.
Print Assumptions C140_minify_partial.
(** refuted: when the minifier fails, as it does for every type it has no rule for, the data stays as it
    was and there is no error. *)
Theorem C140_minify_refuted : forall (E G : Type) (mini : bytes -> bytes + G) (d : codec E) raw g, marshal d = inl raw -> mini raw = inr g ->
  Minify mini d = (None, None).
Proof. intros E G mini d raw g M F. unfold Minify. now rewrite M, F. Qed.
Print Assumptions C140_minify_refuted.
(** C140, refuted: a URN keeps its text, and its two parts are those it had before, for a new one empty. *)
Theorem C140_urn_refuted : forall u n s, urn_uri (urn_Init u (urn_of n s)) = urn_of n s /\ nid (urn_Init u (urn_of n s)) = nid u /\ nss (urn_Init u (urn_of n s)) = nss u.
Proof. intros. repeat split. Qed.
Print Assumptions C140_urn_refuted.
Example C140_case : Minify (fun b => if zlen b <? 2 then inr tt else inl (tl b)) (Codec (inl [1; 2; 3]) (fun m => if zlen m =? 2 then None else Some 7)) = (None, Some [2; 3]) /\
  Minify (fun b => if zlen b <? 2 then inr tt else inl (tl b)) (Codec (inl [1]) (fun _ => Some 7)) = (None, None).
Proof. split; reflexivity. Qed.
