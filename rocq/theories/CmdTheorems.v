(** C47, C48, C82: command-line flags and commands. *)
From Coq Require Import ZifyBool ZifyNat.
From Verif Require Import Go GoFacts CmdModel CmdSpec.
Open Scope string_scope. Import ListNotations. Open Scope Z_scope. Open Scope list_scope.

Lemma beq_iff a b : beq a b = true <-> a = b.
Proof. split; [apply beq_eq|intros ->; apply beq_refl]. Qed.
Lemma lookup_denotes fs n i k : lookup_from k fs n = Some i <-> ((k <= i)%nat /\ denotes fs n (i - k)).
Proof.
  revert k. induction fs as [|f fs IH]; intros k; cbn [lookup_from].
  - split; [discriminate|]. intros (_ & f & E & _). destruct (i - k)%nat; discriminate.
  - destruct (beq (f_name f) n || beq (f_abbr f) n) eqn:B.
    + apply orb_true_iff in B. rewrite !beq_iff in B. split.
      * intros [= <-]. split; [lia|]. rewrite Nat.sub_diag. exists f. repeat split; auto; intros; lia.
      * intros (L & g & E & G & M). destruct (i - k)%nat eqn:D; [f_equal; lia|]. exfalso. specialize (M 0%nat f ltac:(lia) eq_refl). tauto.
    + assert (N : f_name f <> n /\ f_abbr f <> n) by (split; intros H; apply beq_iff in H; rewrite H in B; destruct (beq (f_name f) n); discriminate).
      rewrite IH. split.
      * intros (L & g & E & G & M). split; [lia|]. exists g. replace (i - k)%nat with (S (i - S k)) by lia. split; [exact E|]. split; [exact G|].
        intros [|j] h Hj Hh; [injection Hh as <-; exact N|]. apply (M j h); [lia|exact Hh].
      * intros (L & g & E & G & M). destruct (i - k)%nat eqn:D; [injection E as <-; tauto|]. split; [lia|]. exists g. replace (i - S k)%nat with n0 by lia.
        split; [exact E|]. split; [exact G|]. intros j h Hj Hh. apply (M (S j) h); [lia|exact Hh].
Qed.
Lemma Lookup_denotes s n i : Lookup s n = Some i <-> denotes (fields s) n i.
Proof. unfold Lookup. rewrite lookup_denotes, Nat.sub_0_r. split; [tauto|]. intros; split; [lia|auto]. Qed.
Lemma cut_plain l : ~ In 61 l -> cut_eq l = (l, []).
Proof.
  induction l as [|c l IH]; intros N; [reflexivity|]. cbn [cut_eq]. cbn [In] in N. replace (c =? 61) with false by lia. rewrite IH by tauto. reflexivity.
Qed.
Lemma cut_at l v : ~ In 61 l -> cut_eq (l ++ 61 :: v) = (l, v).
Proof.
  induction l as [|c l IH]; intros N; [reflexivity|]. cbn [cut_eq app]. cbn [In] in N. replace (c =? 61) with false by lia. rewrite IH by tauto. reflexivity.
Qed.
Lemma cut_inv l : let '(a, b) := cut_eq l in ~ In 61 a /\ (l = a /\ b = [] \/ l = a ++ 61 :: b).
Proof.
  induction l as [|c l IH]; [cbn; tauto|]. cbn [cut_eq]. destruct (Z.eqb_spec c 61) as [-> | N]; [cbn; tauto|].
  destruct (cut_eq l) as (a, b). cbn [In]. destruct IH as (I & [(-> & ->) | ->]); (split; [intros [|]; [lia|tauto]|]); [left|right]; auto.
Qed.
Definition at_args (s : flagset) r := {| fields := fields s; parsed := parsed s; args := r |}.
(** Reading one argument that is a flag *)
Lemma parse_flag s two n r t : flag_name n -> args s = (dashes two ++ n ++ t) :: r -> t = [] \/ hd 0 t = 61 ->
  parseOne s = checkAndSet (at_args s r) n (tl t).
Proof.
  intros (N0 & N1 & N2) A T. destruct n as [|h nt]; [contradiction|]. cbn [hd] in N1. cbn [In] in N2. unfold parseOne. rewrite A.
  assert (C : cut_eq (nt ++ t) = (nt, tl t)).
  { destruct t as [|e t]; [rewrite app_nil_r; apply cut_plain; tauto|]. destruct T as [T|T]; [discriminate|]. cbn [hd] in T. subst e. apply cut_at. tauto. }
  destruct two; cbn [dashes app].
  - replace (zlen (45 :: 45 :: h :: nt ++ t) =? 2) with false by (rewrite !zlen_cons; pose proof (zlen_nonneg (nt ++ t)); lia). cbn [Z.eqb Pos.eqb andb].
    replace ((h =? 45) || (h =? 61)) with false by lia. rewrite C. reflexivity.
  - assert (Q : (h =? 45) = false) by lia. assert (Q1 : (h =? 61) = false) by lia. rewrite ?Q, ?Q1. cbn [andb orb]. rewrite ?Q, ?Q1. cbn [andb orb]. rewrite C. reflexivity.
Qed.
Lemma set_item s n v k f w : denotes (fields s) n k -> nth_error (fields s) k = Some f -> f_parse f v = Some w ->
  Set_ s n v = ({| fields := upd (fields s) k (with_value f w); parsed := parsed s ++ [k]; args := args s |}, ENone).
Proof. intros D E P. unfold Set_. apply Lookup_denotes in D. rewrite D, E, P. reflexivity. Qed.
Lemma item_step s i r fs' : flag_name (item_name i) -> args s = render i ++ r -> sets (fields s) i fs' ->
  exists k, parseOne s = ({| fields := fs'; parsed := parsed s ++ [k]; args := r |}, ENone).
Proof.
  intros F A (k & f & w & D & E & P & -> & C). exists k. pose proof (proj2 (Lookup_denotes (at_args s r) (item_name i) k) D) as L.
  destruct i as [two n v|two n|two n v]; cbn [item_name item_value render app] in *.
  - rewrite (parse_flag s two n r (61 :: v) F A) by (right; reflexivity). cbn [tl]. unfold checkAndSet. destruct v as [|v0 v]; [contradiction|].
    apply (set_item (at_args s r) n _ k f w D E P).
  - rewrite <- (app_nil_r n) in A. rewrite (parse_flag s two n r [] F A) by auto. cbn [tl]. unfold checkAndSet. rewrite L. cbn [at_args fields]. rewrite E, C.
    apply (set_item (at_args s r) n _ k f w D E P).
  - rewrite <- (app_nil_r n) in A. rewrite (parse_flag s two n (v :: r) [] F A) by auto. cbn [tl]. unfold checkAndSet.
    change (Lookup (at_args s (v :: r)) n) with (Lookup (at_args s r) n). rewrite L. cbn [at_args fields args parsed]. rewrite E, C.
    apply (set_item (at_args s r) n _ k f w D E P).
Qed.
Lemma render_cons i : exists a l, render i = a :: l.
Proof. destruct i; cbn [render]; eauto. Qed.
Lemma items_run l : forall s r fs', sets_all (fields s) l fs' -> args s = concat (map render l) ++ r ->
  exists p, forall k, Parse (length l + k) s = Parse k {| fields := fs'; parsed := p; args := r |}.
Proof.
  induction l as [|i l IH]; intros s r fs' H A; inversion H; subst.
  - exists (parsed s). intros k. destruct s as [fs p a]. cbn in *. subst a. reflexivity.
  - cbn [map concat] in A. rewrite <- app_assoc in A. match goal with F : flag_name _, G : sets _ _ _ |- _ => destruct (item_step s i _ _ F A G) as (q & E) end.
    edestruct (IH {| fields := fs'0; parsed := parsed s ++ [q]; args := concat (map render l) ++ r |} r fs') as (p & R); [eassumption|reflexivity|].
    exists p. intros k. cbn [length Nat.add Parse]. destruct (render_cons i) as (a & t & Ri). rewrite A, Ri. cbn [app]. rewrite E. apply R.
Qed.
(** Every round consumes an argument or ends the parse *)
Lemma Set_args s n v s' e : Set_ s n v = (s', e) -> args s' = args s /\
  (s' = s \/ exists i f w, Lookup s n = Some i /\ nth_error (fields s) i = Some f /\ fields s' = upd (fields s) i (with_value f w)).
Proof.
  unfold Set_. destruct (Lookup s n) as [i|] eqn:L; [|intros [= <- <-]; auto]. destruct (nth_error (fields s) i) as [f|] eqn:E; [|intros [= <- <-]; auto].
  destruct (f_parse f v) as [w|]; [|intros [= <- <-]; auto]. intros [= <- <-]. split; [reflexivity|]. right. exists i, f, w. auto.
Qed.
Lemma check_args s n v s' e : checkAndSet s n v = (s', e) -> incl (args s') (args s) /\ (length (args s') <= length (args s))%nat /\
  (fields s' = fields s \/ exists i f w, Lookup s n = Some i /\ nth_error (fields s) i = Some f /\ fields s' = upd (fields s) i (with_value f w)).
Proof.
  unfold checkAndSet. intros H.
  assert (G : forall v', Set_ s n v' = (s', e) -> incl (args s') (args s) /\ (length (args s') <= length (args s))%nat /\
     (fields s' = fields s \/ exists i f w, Lookup s n = Some i /\ nth_error (fields s) i = Some f /\ fields s' = upd (fields s) i (with_value f w))).
  { intros v' E. destruct (Set_args _ _ _ _ _ E) as (-> & [-> | X]); (split; [apply incl_refl|split; [lia|auto]]). }
  destruct v as [|v0 v]; [|eapply G; eauto]. destruct (Lookup s n) as [i|] eqn:L; [|injection H as <- <-; split; [apply incl_refl|split; [lia|auto]]].
  destruct (match nth_error (fields s) i with Some f => f_bool f | None => false end); [eapply G; eauto|].
  destruct (args s) as [|a r] eqn:A; [injection H as <- <-; rewrite A; split; [apply incl_refl|split; [lia|auto]]|].
  destruct (Set_args _ _ _ _ _ H) as (E & X). cbn [args fields] in *. rewrite E. split; [apply incl_tl, incl_refl|]. split; [cbn [length]; lia|].
  destruct X as [-> | (j & f & w & L' & E' & F)]; [left; reflexivity|right]. exists j, f, w. change (Lookup s n = Some j) in L'. rewrite L in L'. auto.
Qed.
(** The argument [a] is a flag with name [n] *)
Definition arg_flag (a n : bytes) : Prop := flag_name n /\ exists two, a = dashes two ++ n \/ exists v, a = dashes two ++ n ++ 61 :: v.
Lemma one_inv s s' e : parseOne s = (s', e) -> args s <> [] ->
  incl (args s') (args s) /\ (e = ENone -> (length (args s') < length (args s))%nat) /\
  (fields s' = fields s \/ exists a n i f w, In a (args s) /\ arg_flag a n /\ Lookup s n = Some i /\ nth_error (fields s) i = Some f /\ fields s' = upd (fields s) i (with_value f w)).
Proof.
  unfold parseOne. intros H N. destruct (args s) as [|a r] eqn:A; [contradiction|].
  assert (Bad : (s', e) = (s, EBadSyntax) -> incl (args s') (a :: r) /\ (e = ENone -> (length (args s') < length (a :: r))%nat) /\
    (fields s' = fields s \/ exists a0 n i f w, In a0 (a :: r) /\ arg_flag a0 n /\ Lookup s n = Some i /\ nth_error (fields s) i = Some f /\ fields s' = upd (fields s) i (with_value f w))).
  { intros [= -> ->]. rewrite A. split; [apply incl_refl|]. split; [discriminate|auto]. }
  destruct a as [|c0 [|c t]]; [symmetry in H; auto..| |].
  { destruct c0 as [|p|p]; [auto|repeat (destruct p as [p|p|]; auto)|auto]. }
  destruct (Z.eq_dec c0 45) as [-> | N45].
  2:{ apply Bad. rewrite <- H. destruct c0 as [|p|p]; try reflexivity. repeat (destruct p as [p|p|]; try reflexivity). contradiction. }
  destruct ((c =? 45) && (zlen (45 :: c :: t) =? 2)) eqn:T.
  { injection H as <- <-. cbn [args fields]. split; [apply incl_tl, incl_refl|]. split; [discriminate|auto]. }
  assert (Fl : forall two h nt, 45 :: c :: t = dashes two ++ h :: nt -> (let '(n, v) := cut_eq nt in checkAndSet {| fields := fields s; parsed := parsed s; args := r |} (h :: n) v) = (s', e) ->
     h <> 45 -> h <> 61 ->
     incl (args s') ((45 :: c :: t) :: r) /\ (e = ENone -> (length (args s') < length ((45%Z :: c :: t) :: r))%nat) /\
    (fields s' = fields s \/ exists a0 n i f w, In a0 ((45 :: c :: t) :: r) /\ arg_flag a0 n /\ Lookup s n = Some i /\ nth_error (fields s) i = Some f /\ fields s' = upd (fields s) i (with_value f w))).
  { intros two h nt E C H1 H2. pose proof (cut_inv nt) as I. destruct (cut_eq nt) as (n, v). destruct I as (I & J).
    destruct (check_args _ _ _ _ _ C) as (K1 & K2 & K3). cbn [args fields] in *. split; [apply incl_tl; exact K1|]. split; [intros _; cbn [length]; lia|].
    destruct K3 as [K3|(i & f & w & L & F & G)]; [left; exact K3|right]. exists (45 :: c :: t), (h :: n), i, f, w. split; [left; reflexivity|].
    split; [|auto]. split; [split; [discriminate|split; [cbn [hd]; exact H1|cbn [In]; intros [|]; [congruence|tauto]]]|].
    exists two. rewrite E. destruct J as [(-> & ->) | ->]; [left; reflexivity|right; exists v; rewrite <- app_comm_cons; reflexivity]. }
  destruct (Z.eqb_spec c 45) as [-> | C45].
  - destruct t as [|h nt]; [discriminate T|]. destruct ((h =? 45) || (h =? 61)) eqn:Q; [symmetry in H; auto|]. apply (Fl true h nt eq_refl H); lia.
  - destruct ((c =? 45) || (c =? 61)) eqn:Q; [symmetry in H; auto|]. apply (Fl false c t eq_refl H); lia.
Qed.

(** * C47 *)
(** Parsing always ends, with the arguments it did not read. *)
Lemma parse_total k : forall s, (length (args s) <= k)%nat -> Parse k s <> None.
Proof.
  induction k as [|k IH]; intros s L; cbn [Parse]; destruct (args s) as [|a r] eqn:A; try discriminate; [cbn in L; lia|].
  destruct (parseOne s) as (s', e) eqn:P. assert (N : args s <> []) by (rewrite A; discriminate).
  destruct (one_inv s s' e P N) as (_ & D & _). destruct e; try discriminate. apply IH. specialize (D eq_refl). rewrite A in D. lia.
Qed.
(** The check of the fields accepts exactly the lists whose names are distinct, contain no equals sign
    and do not start with a dash. *)
Lemma has_dup_false l : has_dup l = false <-> NoDup l.
Proof.
  induction l as [|x l IH]; cbn [has_dup]; [split; [constructor|reflexivity]|]. rewrite orb_false_iff, IH, NoDup_cons_iff.
  assert (E : existsb (beq x) l = false <-> ~ In x l); [|rewrite E; reflexivity].
  rewrite <- not_true_iff_false, existsb_exists. split; intros H.
  - intros I1. apply H. exists x. split; [exact I1|apply beq_refl].
  - intros (y & Iy & Q). apply beq_eq in Q. now subst.
Qed.
Theorem C47_checks : forall fs, checkFields fs = Ok tt <->
  NoDup (map f_name fs) /\ Forall (fun f => ~ In 61 (f_name f) /\ forall t, f_name f <> 45 :: t) fs.
Proof.
  intros fs. unfold checkFields. set (bad := fun f => starts 45 (f_name f) || has_eq (f_name f)).
  assert (B : forall f, bad f = false <-> ~ In 61 (f_name f) /\ forall t, f_name f <> 45 :: t).
  { intros f. unfold bad. rewrite orb_false_iff. rewrite and_comm. assert (E1 : has_eq (f_name f) = false <-> ~ In 61 (f_name f)).
    { unfold has_eq. rewrite <- not_true_iff_false, existsb_exists. split; intros H.
      - intros I1. apply H. exists 61. split; [exact I1|reflexivity].
      - intros (c & Ic & Q). apply Z.eqb_eq in Q. now subst. }
    rewrite E1. assert (E2 : starts 45 (f_name f) = false <-> forall t, f_name f <> 45 :: t); [|rewrite E2; reflexivity].
    destruct (f_name f) as [|c t]; cbn [starts]; [split; [discriminate|reflexivity]|].
    destruct (Z.eqb_spec c 45) as [->|N]; split; auto; try discriminate.
    - intros H. now destruct (H t).
    - intros _ t' Q. congruence. }
  rewrite and_comm. destruct (existsb bad fs) eqn:E.
  - split; [discriminate|]. intros [F _]. apply existsb_exists in E as (f & If & Q). rewrite Forall_forall in F. apply F, B in If. congruence.
  - assert (F : Forall (fun f => ~ In 61 (f_name f) /\ forall t, f_name f <> 45 :: t) fs).
    { apply Forall_forall. intros f If. apply B. destruct (bad f) eqn:Q; [|reflexivity]. exfalso.
      assert (existsb bad fs = true) by (apply existsb_exists; eauto). congruence. }
    destruct (has_dup (map f_name fs)) eqn:Hd.
    + split; [discriminate|]. intros [_ N]. apply has_dup_false in N. congruence.
    + split; [intros _; split; [exact F|now apply has_dup_false]|reflexivity].
Qed.
Print Assumptions C47_checks.
Theorem C47_total : forall fs a, checkFields fs = Ok tt -> exists s e, FromCLA fs a = Ok (Some (s, e)).
Proof.
  intros fs a C. unfold FromCLA, Init. rewrite C. cbn [bind].
  destruct (Parse (length a) {| fields := fs; parsed := []; args := a |}) as [(s, e)|] eqn:P; [eauto|]. exfalso. revert P. apply parse_total. reflexivity.
Qed.
Print Assumptions C47_total.
Lemma parse_more k m s r : Parse k s = Some r -> Parse (k + m) s = Some r.
Proof.
  revert s. induction k as [|k IH]; intros s; cbn [Parse Nat.add]; destruct (args s) as [|a l] eqn:A; auto.
  - destruct m; cbn [Parse]; rewrite A; auto.
  - discriminate.
  - destruct (parseOne s) as (s', e). destruct e; auto.
Qed.
Lemma parse_same s k r : Parse k s = Some r -> Parse (length (args s)) s = Some r.
Proof.
  intros P. destruct (Parse (length (args s)) s) as [r'|] eqn:Q; [|exfalso; revert Q; apply parse_total; lia].
  apply (parse_more _ (length (args s))) in P. apply (parse_more _ k) in Q. rewrite Nat.add_comm in Q. congruence.
Qed.
(** Any sequence of documented flags, up to the end or the first argument that is not a flag,
    sets the named fields one after the other to the values and leaves the rest of the arguments;
    an argument that is not a flag is reported as bad syntax. *)
Theorem C47_flags : forall fs l fs' rest, checkFields fs = Ok tt -> sets_all fs l fs' ->
  (rest = [] \/ exists a r, rest = a :: r /\ not_flag a) ->
  exists s, FromCLA fs (concat (map render l) ++ rest) = Ok (Some (s, match rest with [] => ENone | _ => EBadSyntax end)) /\ fields s = fs' /\ args s = rest.
Proof.
  intros fs l fs' rest C S R. unfold FromCLA, Init. rewrite C. cbn [bind].
  destruct (items_run l {| fields := fs; parsed := []; args := concat (map render l) ++ rest |} rest fs' S eq_refl) as (p & Q).
  exists {| fields := fs'; parsed := p; args := rest |}. split; [|split; reflexivity]. f_equal.
  specialize (Q 1%nat). change (concat (map render l) ++ rest) with (args {| fields := fs; parsed := []; args := concat (map render l) ++ rest |}) at 1.
  apply (parse_same _ (length l + 1)). rewrite Q. destruct R as [-> | (a & r & -> & N)]; [reflexivity|]. cbn [Parse args].
  assert (B : parseOne {| fields := fs'; parsed := p; args := a :: r |} = ({| fields := fs'; parsed := p; args := a :: r |}, EBadSyntax)).
  { unfold parseOne. cbn [args]. destruct a as [|c0 [|c t]]; [reflexivity| |].
    - destruct c0 as [|q|q]; try reflexivity. repeat (destruct q as [q|q|]; try reflexivity).
    - destruct N as [N|N]; [rewrite !zlen_cons in N; pose proof (zlen_nonneg t); lia|]. cbn [hd] in N. destruct c0 as [|q|q]; try reflexivity. repeat (destruct q as [q|q|]; try reflexivity). contradiction. }
  rewrite B. reflexivity.
Qed.
Print Assumptions C47_flags.
(** A flag that names no field is an error, after the flags before it have been applied. *)
Theorem C47_unknown : forall fs l fs' two n t rest, checkFields fs = Ok tt -> sets_all fs l fs' -> flag_name n ->
  (forall k, ~ denotes fs' n k) -> t = [] \/ hd 0 t = 61 ->
  exists s, FromCLA fs (concat (map render l) ++ (dashes two ++ n ++ t) :: rest) = Ok (Some (s, ENotFound)) /\ fields s = fs' /\ args s = rest.
Proof.
  intros fs l fs' two n t rest C S F U T. unfold FromCLA, Init. rewrite C. cbn [bind]. set (rs := (dashes two ++ n ++ t) :: rest).
  destruct (items_run l {| fields := fs; parsed := []; args := concat (map render l) ++ rs |} rs fs' S eq_refl) as (p & Q).
  exists {| fields := fs'; parsed := p; args := rest |}. split; [|split; reflexivity]. f_equal. specialize (Q 1%nat).
  change (concat (map render l) ++ rs) with (args {| fields := fs; parsed := []; args := concat (map render l) ++ rs |}) at 1.
  apply (parse_same _ (length l + 1)). rewrite Q. cbn [Parse args]. unfold rs at 1.
  rewrite (parse_flag {| fields := fs'; parsed := p; args := rs |} two n rest t F eq_refl T).
  assert (L : Lookup (at_args {| fields := fs'; parsed := p; args := rs |} rest) n = None).
  { destruct (Lookup _ n) as [k|] eqn:L; [|reflexivity]. apply Lookup_denotes in L. exfalso. apply (U k L). }
  unfold checkAndSet. destruct (tl t); [|unfold Set_]; rewrite L; reflexivity.
Qed.
Print Assumptions C47_unknown.
(** Whatever the arguments, a field that none of them names keeps its value, and what remains was
    among the arguments. *)
Lemma denotes_same fs i f w n k : nth_error fs i = Some f -> denotes (upd fs i (with_value f w)) n k -> denotes fs n k.
Proof.
  intros E (g & G & N & M).
  assert (Q : forall j h, nth_error (upd fs i (with_value f w)) j = Some h -> exists h', nth_error fs j = Some h' /\ f_name h' = f_name h /\ f_abbr h' = f_abbr h).
  { intros j h Hh. assert (Lf : (i < length fs)%nat) by (apply nth_error_Some; congruence). destruct (Nat.eq_dec i j) as [<-|Nij].
    - rewrite nth_error_upd_eq in Hh by auto. injection Hh as <-. exists f. auto.
    - rewrite nth_error_upd_neq in Hh by auto. exists h. auto. }
  destruct (Q _ _ G) as (g' & G' & N1 & N2). exists g'. split; [exact G'|]. split; [rewrite N1, N2; exact N|].
  intros j h Hj Hh. assert (Lf : (i < length fs)%nat) by (apply nth_error_Some; congruence). destruct (Nat.eq_dec i j) as [<-|Nij].
  - rewrite E in Hh. injection Hh as <-. specialize (M i (with_value f w) Hj (nth_error_upd_eq _ _ _ Lf)). exact M.
  - apply (M j h Hj). rewrite nth_error_upd_neq by auto. exact Hh.
Qed.
Lemma parse_frame k : forall s s' e, Parse k s = Some (s', e) -> incl (args s') (args s) /\ forall i,
  (forall a n, In a (args s) -> arg_flag a n -> ~ denotes (fields s) n i) -> nth_error (fields s') i = nth_error (fields s) i.
Proof.
  induction k as [|k IH]; intros s s' e P; cbn [Parse] in P; destruct (args s) as [|a r] eqn:A; try (injection P as <- <-; rewrite A; split; [apply incl_refl|auto]); try discriminate.
  destruct (parseOne s) as (s1, e1) eqn:O. assert (N : args s <> []) by (rewrite A; discriminate). destruct (one_inv s s1 e1 O N) as (I1 & _ & I3).
  assert (St : forall i, (forall a0 n, In a0 (a :: r) -> arg_flag a0 n -> ~ denotes (fields s) n i) -> nth_error (fields s1) i = nth_error (fields s) i).
  { intros i H. destruct I3 as [-> | (a0 & n & j & f & w & J1 & J2 & J3 & J4 & J5)]; [reflexivity|]. rewrite J5. apply Lookup_denotes in J3. rewrite A in J1.
    destruct (Nat.eq_dec j i) as [-> | Nij]; [exfalso; apply (H a0 n J1 J2 J3)|]. rewrite nth_error_upd_neq by auto. reflexivity. }
  rewrite A in I1. destruct e1; try (injection P as <- <-; split; [exact I1|exact St]).
  destruct (IH s1 s' e P) as (K1 & K2). split; [eapply incl_tran; eauto|]. intros i H. rewrite <- (St i H). apply K2. intros a0 n Ha Fa D. apply (H a0 n (I1 _ Ha) Fa).
  destruct I3 as [E|(a1 & n1 & j & f & w & J1 & J2 & J3 & J4 & J5)]; [rewrite E in D; exact D|]. rewrite J5 in D. eapply denotes_same; eauto.
Qed.
Theorem C47_unmentioned : forall fs a s e, FromCLA fs a = Ok (Some (s, e)) -> incl (args s) a /\ forall i,
  (forall x n, In x a -> arg_flag x n -> ~ denotes fs n i) -> nth_error (fields s) i = nth_error fs i.
Proof.
  intros fs a s e H. unfold FromCLA, Init in H. destruct (checkFields fs) as [[]|]; [|discriminate]. cbn [bind] in H.
  assert (P : Parse (length a) {| fields := fs; parsed := []; args := a |} = Some (s, e)) by congruence. exact (parse_frame _ _ _ _ P).
Qed.
Print Assumptions C47_unmentioned.
(** C47.  Asking for an argument never fails: it is the one at that place, or nothing. *)
Theorem C47_arg : forall s i, Arg s i = Ok (if i <? 0 then [] else nth (Z.to_nat i) (args s) []).
Proof.
  intros s i. unfold Arg, NArg, zlen. destruct (Z.ltb_spec i 0); [reflexivity|]. cbn [orb]. destruct (Z.leb_spec (Z.of_nat (length (args s))) i).
  - rewrite nth_overflow by lia. reflexivity.
  - apply idx_ok; [lia|]. apply nth_error_nth'. lia.
Qed.
Print Assumptions C47_arg.
(** An empty value is taken for none: -name= reads the next argument, or means true. *)
Theorem C47_empty_value_refuted : forall s two n rest, flag_name n -> args s = (dashes two ++ n ++ [61]) :: rest ->
  parseOne s = parseOne (at_args s ((dashes two ++ n) :: rest)).
Proof.
  intros s two n rest F A. rewrite (parse_flag s two n rest [61] F A) by auto.
  rewrite (parse_flag (at_args s ((dashes two ++ n) :: rest)) two n rest [] F) by (cbn [at_args args]; rewrite ?app_nil_r; auto). reflexivity.
Qed.
Print Assumptions C47_empty_value_refuted.
(** The terminator "--" is consumed but also reported as bad syntax, *)
Theorem C47_terminator_refuted : forall fs rest, checkFields fs = Ok tt ->
  FromCLA fs (str "--" :: rest) = Ok (Some ({| fields := fs; parsed := []; args := rest |}, EBadSyntax)).
Proof. intros fs rest C. unfold FromCLA, Init. rewrite C. reflexivity. Qed.
Print Assumptions C47_terminator_refuted.
(** and the number of flags that have been set is always the number of fields. *)
Theorem C47_nflag_refuted : forall fs s, Init fs [] = Ok s -> NFlag s = zlen fs /\ parsed s = [].
Proof. intros fs s H. unfold Init in H. destruct (checkFields fs); [|discriminate]. injection H as <-. split; reflexivity. Qed.
Print Assumptions C47_nflag_refuted.
Definition name_field := {| f_name := str "name"; f_abbr := str "n"; f_bool := false; f_parse := Some; f_value := str "old" |}.
Definition flag_field := {| f_name := str "force"; f_abbr := str "f"; f_bool := true; f_parse := Some; f_value := str "false" |}.
Example C47_nonvacuous :
  checkFields [name_field; flag_field] = Ok tt /\
  sets_all [name_field; flag_field] [NextArg false (str "n") (str "-x"); Switch true (str "force"); WithEq true (str "name") (str "a=b")]
    [holding name_field (str "a=b"); holding flag_field (str "true")] /\
  concat (map render [NextArg false (str "n") (str "-x"); Switch true (str "force"); WithEq true (str "name") (str "a=b")]) = [str "-n"; str "-x"; str "--force"; str "--name=a=b"].
Proof.
  split; [reflexivity|]. split; [|reflexivity].
  assert (F : forall n, (negb (beq n []) && negb (starts 45 n) && negb (has_eq n)) = true -> flag_name n).
  { intros n H. destruct n as [|c n]; [discriminate|]. split; [discriminate|]. cbn [beq starts negb andb] in H. cbn [hd].
    destruct (c =? 45) eqn:E; [discriminate|]. cbn [negb andb] in H. split; [lia|]. intros I. unfold has_eq in H.
    assert (X : existsb (fun c => c =? 61) (c :: n) = true) by (apply existsb_exists; exists 61; auto). rewrite X in H. discriminate. }
  assert (D : forall fs n i, lookup_from 0 fs n = Some i -> denotes fs n i) by (intros fs n i H; apply lookup_denotes in H; rewrite Nat.sub_0_r in H; tauto).
  eapply sa_cons; [apply F; reflexivity| |eapply sa_cons; [apply F; reflexivity| |eapply sa_cons; [apply F; reflexivity| |apply sa_nil]]].
  - exists 0%nat, name_field, (str "-x"). split; [apply D; reflexivity|]. repeat split.
  - exists 1%nat, flag_field, (str "true"). split; [apply D; reflexivity|]. repeat split.
  - exists 0%nat, (holding name_field (str "-x")), (str "a=b"). split; [apply D; reflexivity|]. repeat split. discriminate.
Qed.

(** * C48 *)
(** The generated arguments have no dashes, so unless there are none they are refused and nothing
    is set. *)
Lemma names_ok fs f : checkFields fs = Ok tt -> In f fs -> starts 45 (f_name f) = false /\ has_eq (f_name f) = false.
Proof.
  unfold checkFields. intros H I. destruct (existsb _ fs) eqn:E; [discriminate|].
  destruct (starts 45 (f_name f) || has_eq (f_name f)) eqn:B; [|apply orb_false_iff; exact B].
  rewrite <- E in *. assert (X : existsb (fun f => starts 45 (f_name f) || has_eq (f_name f)) fs = true) by (apply existsb_exists; eauto). congruence.
Qed.
Lemma to_cla_head fs : ToCLA fs = [] /\ Forall (fun f => f_value f = []) fs \/ exists f r, In f fs /\ ToCLA fs = f_name f :: r.
Proof.
  induction fs as [|f fs IH]; [left; split; [reflexivity|constructor]|]. cbn [ToCLA]. destruct (f_value f) eqn:V.
  - destruct IH as [(E & F)|(g & r & I & E)]; [left; split; [exact E|constructor; assumption]|right; exists g, r; split; [right; exact I|exact E]].
  - right. exists f. eexists. split; [left; reflexivity|reflexivity].
Qed.
Theorem C48_refuted : forall fs, checkFields fs = Ok tt -> Exists (fun f => f_value f <> []) fs ->
  exists s, FromCLA fs (ToCLA fs) = Ok (Some (s, EBadSyntax)) /\ fields s = fs /\ args s = ToCLA fs.
Proof.
  intros fs C X. destruct (to_cla_head fs) as [(_ & F) | (f & r & I & E)].
  { exfalso. rewrite Exists_exists in X. rewrite Forall_forall in F. destruct X as (f & I & N). apply N, F, I. }
  destruct (C47_flags fs [] fs (ToCLA fs) C (sa_nil fs)) as (s & A & B & D).
  - right. exists (f_name f), r. split; [exact E|]. destruct (names_ok fs f C I) as (N & _). unfold not_flag. destruct (f_name f) as [|c t]; [left; cbn; lia|right].
    cbn [starts] in N. cbn [hd]. lia.
  - exists s. cbn [map concat app] in A. rewrite E in A at 2. auto.
Qed.
Print Assumptions C48_refuted.
Lemma to_cla_nil fs : Forall (fun f => f_value f = []) fs -> ToCLA fs = [].
Proof. induction 1 as [|f l V F IH]; [reflexivity|]. cbn [ToCLA]. rewrite V. exact IH. Qed.
Theorem C48_empty_partial : forall fs, checkFields fs = Ok tt -> Forall (fun f => f_value f = []) fs ->
  exists s, FromCLA fs (ToCLA fs) = Ok (Some (s, ENone)) /\ fields s = fs.
Proof.
  intros fs C F. rewrite (to_cla_nil fs F). destruct (C47_flags fs [] fs [] C (sa_nil fs) (or_introl eq_refl)) as (s & A & B & D). exists s. auto.
Qed.
Print Assumptions C48_empty_partial.
(** With a dash before each name they would parse back into a fresh object: for fields that are
    not booleans, read back the texts they print and have names no other field answers to. *)
Definition dashed (fs : list field) : list bytes :=
  concat (map (fun f => match f_value f with [] => [] | _ => [45 :: f_name f; f_value f] end) fs).
Definition blank (f : field) := holding f [].
Definition own_names (fs : list field) : Prop := forall i j f g, nth_error fs i = Some f -> nth_error fs j = Some g ->
  f_name g = f_name f \/ f_abbr g = f_name f -> i = j.
Lemma check_blank fs : checkFields (map blank fs) = checkFields fs.
Proof.
  unfold checkFields. rewrite map_map. change (map (fun x => f_name (blank x)) fs) with (map f_name fs).
  replace (existsb (fun f => starts 45 (f_name f) || has_eq (f_name f)) (map blank fs)) with (existsb (fun f => starts 45 (f_name f) || has_eq (f_name f)) fs); [reflexivity|].
  induction fs as [|f fs IH]; [reflexivity|]. cbn [map existsb]. rewrite IH. reflexivity.
Qed.
Lemma dashed_sets suf : forall pre, checkFields (pre ++ suf) = Ok tt -> own_names (pre ++ suf) ->
  Forall (fun f => f_name f <> [] /\ f_bool f = false /\ f_parse f (f_value f) = Some (f_value f)) suf ->
  exists l, dashed suf = concat (map render l) /\ sets_all (pre ++ map blank suf) l (pre ++ suf).
Proof.
  induction suf as [|f suf IH]; intros pre C O F; [exists []; split; [reflexivity|constructor]|].
  inversion F as [|? ? (N & B & P) F']; subst. specialize (IH (pre ++ [f])). rewrite <- !app_assoc in IH. cbn [app] in IH. destruct (IH C O F') as (l & D & SA). clear IH.
  cbn [dashed map concat]. destruct (f_value f) as [|v0 v] eqn:V.
  - exists l. split; [exact D|]. cbn [map]. replace (blank f) with f; [exact SA|]. unfold blank, holding. destruct f; cbn in *; subst; reflexivity.
  - exists (NextArg false (f_name f) (v0 :: v) :: l). split; [cbn [map concat render dashes app]; fold (dashed suf); rewrite D; reflexivity|].
    cbn [map]. eapply sa_cons; [| |exact SA].
    + cbn [item_name]. destruct (names_ok _ f C) as (N1 & N2); [apply in_or_app; right; left; reflexivity|]. split; [exact N|]. split.
      * destruct (f_name f) as [|c t]; [contradiction|]. cbn [starts] in N1. cbn [hd]. lia.
      * intros I. unfold has_eq in N2. assert (X : existsb (fun c => c =? 61) (f_name f) = true) by (apply existsb_exists; exists 61; auto). congruence.
    + exists (length pre), (blank f), (v0 :: v). cbn [item_name item_value].
      assert (E : nth_error (pre ++ blank f :: map blank suf) (length pre) = Some (blank f)) by (rewrite nth_error_app2, Nat.sub_diag by lia; reflexivity).
      split; [|split; [exact E|split; [exact P|split; [|exact B]]]].
      * exists (blank f). split; [exact E|]. split; [left; reflexivity|]. intros j g Hj Hg. rewrite nth_error_app1 in Hg by lia.
        assert (Nj : forall q, f_name g = f_name f \/ f_abbr g = f_name f -> q) by (intros q H; exfalso; assert (length pre = j); [|lia]; apply (O (length pre) j f g); [rewrite nth_error_app2, Nat.sub_diag by lia; reflexivity|rewrite nth_error_app1 by lia; exact Hg|exact H]).
        split; intros H; apply Nj; auto.
      * rewrite upd_firstn_skipn by (rewrite app_length; cbn [length]; lia). rewrite firstn_app, Nat.sub_diag, firstn_all, skipn_app, skipn_all2 by lia. replace (S (length pre) - length pre)%nat with 1%nat by lia.
        cbn [firstn skipn app]. rewrite app_nil_r. do 2 f_equal. unfold blank, holding. destruct f; cbn in *; subst; reflexivity.
Qed.
Theorem C48_dashed_partial : forall fs, checkFields fs = Ok tt -> own_names fs ->
  Forall (fun f => f_name f <> [] /\ f_bool f = false /\ f_parse f (f_value f) = Some (f_value f)) fs ->
  exists s, FromCLA (map blank fs) (dashed fs) = Ok (Some (s, ENone)) /\ fields s = fs.
Proof.
  intros fs C O F. destruct (dashed_sets fs [] C O F) as (l & D & S).
  destruct (C47_flags (map blank fs) l fs [] ltac:(rewrite check_blank; exact C) S (or_introl eq_refl)) as (s & A & B & _).
  exists s. rewrite app_nil_r, <- D in A. auto.
Qed.
Print Assumptions C48_dashed_partial.
Example C48_nonvacuous : checkFields [name_field] = Ok tt /\ Exists (fun f => f_value f <> []) [name_field] /\ own_names [name_field] /\
  ToCLA [name_field; flag_field] = [str "name"; str "old"; str "force"; str "false"] /\ dashed [name_field] = [str "-name"; str "old"].
Proof.
  split; [reflexivity|]. split; [constructor; discriminate|]. split; [|split; reflexivity].
  intros [|[|i]] [|[|j]] f g H1 H2 _; try reflexivity; discriminate.
Qed.

(** * C82 *)
Lemma answers_dec c n : beq (c_name c) n || beq (c_abbr c) n || existsb (fun a => beq a n) (c_aliases c) = true <-> answers c n.
Proof.
  unfold answers. rewrite !orb_true_iff, !beq_iff, existsb_exists. split.
  - intros [[H|H]|(a & I & E)]; auto. apply beq_iff in E. subst. auto.
  - intros [H|[H|H]]; auto. right. exists n. split; [exact H|apply beq_refl].
Qed.
Lemma sub_cases c r n : SubCommand (c :: r) n = if beq (c_name c) n || beq (c_abbr c) n || existsb (fun a => beq a n) (c_aliases c) then Some c else SubCommand r n.
Proof. cbn [SubCommand]. destruct (beq (c_name c) n), (beq (c_abbr c) n), (existsb _ _); reflexivity. Qed.
(** The sub command of a name is the first one that answers to it. *)
Theorem C82_lookup : forall subs n, match SubCommand subs n with
  | Some c => first_answer subs n c
  | None => Forall (fun d => ~ answers d n) subs
  end.
Proof.
  intros subs n. induction subs as [|c r IH]; [constructor|]. rewrite sub_cases. pose proof (answers_dec c n) as A.
  destruct (beq (c_name c) n || beq (c_abbr c) n || existsb (fun a => beq a n) (c_aliases c)).
  - exists [], r. split; [reflexivity|]. split; [tauto|constructor].
  - assert (N : ~ answers c n) by (rewrite <- A; discriminate). destruct (SubCommand r n) as [d|]; [|constructor; auto].
    destruct IH as (a & b & -> & X & Y). exists (c :: a), b. split; [reflexivity|]. split; [exact X|constructor; auto].
Qed.
Print Assumptions C82_lookup.
Lemma first_unique subs n c d : first_answer subs n c -> first_answer subs n d -> c = d.
Proof.
  intros (a & b & -> & A & F) (a' & b' & E & A' & F'). revert a' E F'. induction a as [|x a IH]; intros [|y a'] E F'; cbn [app] in E; try congruence.
  - injection E as E1 E2. subst y. inversion F'. contradiction.
  - injection E as E1 E2. subst x. inversion F. contradiction.
  - injection E as E0 E. inversion F; subst. inversion F'; subst. eapply IH; eauto.
Qed.
Lemma sub_first subs n c : first_answer subs n c -> SubCommand subs n = Some c.
Proof.
  intros H. pose proof (C82_lookup subs n) as L. destruct (SubCommand subs n) as [d|]; [f_equal; symmetry; eapply first_unique; eauto|].
  destruct H as (a & b & -> & A & _). rewrite Forall_app in L. destruct L as (_ & L). inversion L. contradiction.
Qed.
Lemma sub_none subs n : Forall (fun d => ~ answers d n) subs -> SubCommand subs n = None.
Proof.
  intros H. pose proof (C82_lookup subs n) as L. destruct (SubCommand subs n) as [d|]; [|reflexivity]. destruct L as (a & b & -> & A & _).
  rewrite Forall_app in H. destruct H as (_ & H). inversion H. contradiction.
Qed.
(** Serving arguments runs the command they denote with the arguments after its name, and reports
    aliases and unknown commands. *)
Lemma serve_dispatch c a r : dispatch c a r -> forall k, (length a <= k)%nat -> ServeCLA (S k) c a = Some (Ok r).
Proof.
  induction 1 as [c a G|c n rest d r G F N D IH|c n rest d G F N1 N2|c n rest G F|c G F]; intros k L; cbn [ServeCLA]; rewrite G; cbn [negb].
  - reflexivity.
  - rewrite (sub_first _ _ _ F). replace (negb (beq n (c_name d)) && negb (beq n (c_abbr d))) with false.
    + rewrite slice_from_ok by (rewrite zlen_cons; pose proof (zlen_nonneg rest); lia). change (skipn (Z.to_nat 1) (n :: rest)) with rest.
      destruct k as [|k]; [cbn in L; lia|]. apply IH. cbn [length] in L. lia.
    + destruct N as [<- | <-]; rewrite beq_refl; [reflexivity|]. destruct (negb _); reflexivity.
  - rewrite (sub_first _ _ _ F). rewrite (proj2 (beq_neq _ _) N1), (proj2 (beq_neq _ _) N2). reflexivity.
  - rewrite (sub_none _ _ F). reflexivity.
  - rewrite (sub_none _ _ F). reflexivity.
Qed.
Theorem C82_dispatch : forall c a r, dispatch c a r -> ServeCLA (S (length a)) c a = Some (Ok r).
Proof. intros c a r D. apply serve_dispatch; auto. Qed.
Print Assumptions C82_dispatch.
(** Every call is one of these, or comes to a group without arguments that has a help command - *)
Inductive helpless : command -> list bytes -> Prop :=
| h_here c d : c_group c = true -> first_answer (c_subs c) (str "help") d -> helpless c []
| h_sub c n rest d : c_group c = true -> first_answer (c_subs c) n d -> n = c_name d \/ n = c_abbr d -> helpless d rest -> helpless c (n :: rest).
Theorem C82_total_partial : forall a c, (exists r, dispatch c a r) \/ helpless c a.
Proof.
  induction a as [|n rest IH]; intros c.
  - destruct (c_group c) eqn:G; [|left; eexists; apply d_own; exact G]. pose proof (C82_lookup (c_subs c) (str "help")) as L.
    destruct (SubCommand (c_subs c) (str "help")) as [d|]; [right; eapply h_here; eauto|left; eexists; apply d_help; auto].
  - destruct (c_group c) eqn:G; [|left; eexists; apply d_own; exact G]. pose proof (C82_lookup (c_subs c) n) as L.
    destruct (SubCommand (c_subs c) n) as [d|]; [|left; eexists; apply d_unknown; auto].
    destruct (beq n (c_name d)) eqn:E1; [|destruct (beq n (c_abbr d)) eqn:E2].
    + apply beq_eq in E1. destruct (IH d) as [(r & D)|H]; [left; exists r; eapply d_sub; eauto|right; eapply h_sub; eauto].
    + apply beq_eq in E2. destruct (IH d) as [(r & D)|H]; [left; exists r; eapply d_sub; eauto|right; eapply h_sub; eauto].
    + left. eexists. eapply d_alias; eauto; intros ->; rewrite beq_refl in *; discriminate.
Qed.
Print Assumptions C82_total_partial.
(** where a help command that is there by name makes the call panic. *)
Theorem C82_help_refuted : forall c d k, c_group c = true -> first_answer (c_subs c) (str "help") d -> c_name d = str "help" -> ServeCLA (S k) c [] = Some Panic.
Proof.
  intros c d k G F N. cbn [ServeCLA]. rewrite G, (sub_first _ _ _ F), N, beq_refl. cbn [negb andb].
  rewrite slice_from_panic by (change (zlen (@nil bytes)) with 0; lia). reflexivity.
Qed.
Print Assumptions C82_help_refuted.
(** The path of a command is the names from the root down to the command itself. *)
Lemma path_acc_spec names : forall acc, path_acc acc names = concat (map (fun n => n ++ [32]) (rev names)) ++ acc.
Proof.
  induction names as [|n r IH]; intros acc; [reflexivity|]. cbn [path_acc rev]. rewrite IH, map_app, concat_app. cbn [map concat]. rewrite app_nil_r, <- !app_assoc. reflexivity.
Qed.
Lemma spaced_snoc l w : spaced (l ++ [w]) = concat (map (fun n => n ++ [32]) l) ++ w.
Proof.
  induction l as [|x l IH]; [reflexivity|]. cbn [app map concat]. rewrite <- app_assoc. rewrite <- IH, <- app_assoc. destruct l; reflexivity.
Qed.
Theorem C82_path : forall name parents, CommandPath name parents = Ok (spaced (rev parents ++ [name])).
Proof.
  intros name parents. unfold CommandPath. rewrite path_acc_spec, app_nil_r. cbn [rev]. rewrite map_app, concat_app. cbn [map concat]. rewrite app_nil_r, spaced_snoc, app_assoc.
  set (p := concat (map (fun n => n ++ [32]) (rev parents)) ++ name). rewrite zlen_app. change (zlen [32]) with 1. replace (zlen p + 1 - 1) with (zlen p) by lia.
  rewrite slice_to_ok by (rewrite zlen_app; change (zlen [32]) with 1; pose proof (zlen_nonneg p); lia). unfold zlen. rewrite Nat2Z.id, firstn_app, Nat.sub_diag, firstn_all. cbn [firstn]. rewrite app_nil_r. reflexivity.
Qed.
Print Assumptions C82_path.
(** Asking for the root always panics. *)
Theorem C82_root_refuted : forall c, Root c = Panic.
Proof. reflexivity. Qed.
Print Assumptions C82_root_refuted.
Definition get_cmd := Cmd (str "get") (str "g") [str "fetch"] false [].
Definition app_cmd := Cmd (str "app") [] [] true [get_cmd; Cmd (str "help") [] [] false []].
Example C82_nonvacuous : ServeCLA 5 app_cmd [str "g"; str "x"] = Some (Ok (Ran get_cmd [str "x"])) /\ ServeCLA 5 app_cmd [str "fetch"] = Some (Ok ByAlias) /\
  ServeCLA 5 app_cmd [] = Some Panic /\ dispatch app_cmd [str "g"; str "x"] (Ran get_cmd [str "x"]) /\ CommandPath (str "get") [str "app"] = Ok (str "app get").
Proof.
  repeat (split; [reflexivity|]). split; [|reflexivity]. apply (d_sub app_cmd (str "g") [str "x"] get_cmd); [reflexivity| |right; reflexivity|apply d_own; reflexivity].
  exists [], [Cmd (str "help") [] [] false []]. split; [reflexivity|]. split; [right; left; reflexivity|constructor].
Qed.
