(** C124 types of a parsed Go file; C125 its functions; C126 files and imports. *)
From Coq Require Import String ZifyBool ZifyNat.
From Verif Require Import Go GoFacts RegModel GoParseModel GoParseSpec.
Import ListNotations.
Local Open Scope Z_scope.
Local Open Scope list_scope.

(** * Types *)
Fixpoint each_flat (pt : expr -> option ty) (l : list (bytes * expr)) (acc : list ty) : option (list ty) :=
  match l with
  | [] => Some acc
  | (n, e) :: r => match pt e with Some t => each_flat pt r (acc ++ [set_field t n (zlen acc)]) | None => None end
  end.
Lemma each_name_flat pt e : forall ns acc, each_name pt ns e acc = each_flat pt (map (fun n => (n, e)) ns) acc.
Proof. induction ns as [|n r IH]; intros acc; [reflexivity|]. cbn [each_name map each_flat]. destruct (pt e); auto. Qed.
Lemma each_flat_app pt b : forall a acc, each_flat pt (a ++ b) acc = match each_flat pt a acc with Some x => each_flat pt b x | None => None end.
Proof. induction a as [|(n, e) r IH]; intros acc; [reflexivity|]. cbn [List.app each_flat]. destruct (pt e); auto. Qed.
Lemma each_field_flat pt : forall fs acc, each_field pt fs acc = each_flat pt (fields fs) acc.
Proof.
  induction fs as [|(ns, e) r IH]; intros acc; [reflexivity|]. cbn [each_field fields flat_map fst snd].
  rewrite each_flat_app, each_name_flat. destruct each_flat; [apply IH|reflexivity].
Qed.
Lemma each_flat_some pt : forall l acc out, each_flat pt l acc = Some out ->
  exists ts, out = acc ++ ts /\ length ts = length l /\
    forall i f u, nth_error l i = Some f -> nth_error ts i = Some u ->
      exists t, pt (snd f) = Some t /\ u = set_field t (fst f) (zlen acc + Z.of_nat i).
Proof.
  induction l as [|(n, e) r IH]; intros acc out H; cbn [each_flat] in H.
  - exists []. rewrite app_nil_r. split; [congruence|]. split; [reflexivity|]. intros [|i] f u E; discriminate E.
  - destruct (pt e) as [t|] eqn:P; [|discriminate]. destruct (IH _ _ H) as (ts & -> & L & A).
    exists (set_field t n (zlen acc) :: ts). rewrite <- app_assoc. split; [reflexivity|]. split; [cbn [length]; congruence|].
    intros [|i] f u E U; cbn [nth_error] in E, U.
    + exists t. assert (f = (n, e)) by congruence. subst f. split; [exact P|]. rewrite Z.add_0_r. cbn [fst]. congruence.
    + destruct (A i f u E U) as (t' & P' & ->). exists t'. split; [exact P'|]. f_equal. rewrite zlen_app. unfold zlen. cbn [length]. lia.
Qed.
Lemma each_flat_none pt l : forall acc, (forall n e, In (n, e) l -> pt e <> None) -> each_flat pt l acc <> None.
Proof.
  induction l as [|(n, e) r IH]; intros acc H; cbn [each_flat]; [discriminate|].
  destruct (pt e) eqn:P; [apply IH; intros; eapply H; right; eauto|]. exfalso. eapply H; [left; reflexivity|exact P].
Qed.
Lemma each_flat_all pt l : forall acc, each_flat pt l acc <> None -> forall n e, In (n, e) l -> pt e <> None.
Proof.
  induction l as [|(n, e) r IH]; intros acc H m x I; [destruct I|]. cbn [each_flat] in H. destruct (pt e) eqn:P; [|now destruct H].
  destruct I as [E|I]; [injection E as <- <-; congruence|eapply IH; eauto].
Qed.
Lemma each_flat_mono pt pt' : (forall e t, pt e = Some t -> pt' e = Some t) ->
  forall l acc out, each_flat pt l acc = Some out -> each_flat pt' l acc = Some out.
Proof.
  intros M. induction l as [|(n, e) r IH]; intros acc out H; cbn [each_flat] in *; [exact H|].
  destruct (pt e) eqn:P; [|discriminate]. rewrite (M _ _ P). auto.
Qed.
Lemma parse_mono decls imports : forall k e t, parseType decls imports k e = Some t -> parseType decls imports (S k) e = Some t.
Proof.
  induction k as [|k IH]; intros e t H; [discriminate|].
  assert (F : forall fs out, each_field (parseType decls imports k) fs [] = Some out -> each_field (parseType decls imports (S k)) fs [] = Some out)
    by (intros fs out; rewrite !each_field_flat; apply each_flat_mono; exact IH).
  remember (S k) as k1. rewrite Heqk1 in H. cbn [parseType] in H |- *. destruct e; auto.
  - destruct (parseType decls imports k e) eqn:P; [|discriminate]. now rewrite (IH _ _ P).
  - destruct (decls name); [|exact H]. destruct (parseType decls imports k e) eqn:P; [|discriminate]. now rewrite (IH _ _ P).
  - destruct (each_field (parseType decls imports k) fields []) eqn:P; [|discriminate]. now rewrite (F _ _ P).
Qed.
Lemma parse_le decls imports : forall j k e t, (k <= j)%nat -> parseType decls imports k e = Some t -> parseType decls imports j e = Some t.
Proof. intros j k e t L H. induction L; [exact H|]. now apply parse_mono. Qed.

Lemma describes_field d i e t n p : describes d i e t -> describes d i e (set_field t n p).
Proof. intros H. inversion H as [? ? l F T P K L A]. subst. destruct t. eapply Describes; [exact F|exact T|exact P|exact K|exact L|exact A]. Qed.
Lemma describes_decl d i e t n x : describes d i e t -> describes d i e (set_decl t n x).
Proof. intros H. inversion H as [? ? l F T P K L A]. subst. destruct t. eapply Describes; [exact F|exact T|exact P|exact K|exact L|exact A]. Qed.
Lemma describes_leaf d i e t : has_fields d e [] -> t_type t = type_name e -> t_pointer t = is_pointer e -> t_pkg t = package_of i e -> t_inner t = [] -> describes d i e t.
Proof. intros F T P K L. apply (Describes d i e t [] F T P K); [now rewrite L|]. intros [|j] f u E; discriminate E. Qed.
(** C124.  Whenever the parser comes back, what it gives describes the type it was given: name, pointer,
    package and every named field, in order, numbered from 0, all the way down. *)
Theorem C124_describes : forall decls imports k e t, parseType decls imports k e = Some t -> describes decls imports e t.
Proof.
  intros d im. induction k as [|k IH]; intros e t H; [discriminate|]. cbn [parseType] in H. destruct e.
  - destruct (parseType d im k e) as [u|] eqn:P; [|discriminate]. assert (t = set_pointer u) by congruence. subst t.
    pose proof (IH _ _ P) as D. inversion D as [? ? l F T Q K L A]. subst. destruct u. apply (Describes d im (EStar e) _ l (hf_star d e l F)); auto.
  - assert (t = Ty [] 0 (im pkg) sel false false []) by congruence. subst t. apply describes_leaf; try reflexivity. constructor.
  - assert (t = zero_ty) by congruence. subst t. apply describes_leaf; try reflexivity. constructor.
  - assert (t = zero_ty) by congruence. subst t. apply describes_leaf; try reflexivity. constructor.
  - assert (t = zero_ty) by congruence. subst t. apply describes_leaf; try reflexivity. constructor.
  - destruct (d name) as [x|] eqn:N.
    + destruct (parseType d im k x) as [u|] eqn:P; [|discriminate]. assert (t = Ty [] 0 None name false false (t_inner u)) by congruence. subst t.
      pose proof (IH _ _ P) as D. inversion D as [? ? l F T Q K L A]. subst. apply (Describes d im (EIdent name) _ l (hf_named d name x l N F)); auto.
    + assert (t = Ty [] 0 None name false false []) by congruence. subst t. apply describes_leaf; try reflexivity. now constructor.
  - destruct (each_field (parseType d im k) fields []) as [l|] eqn:P; [|discriminate]. assert (t = Ty [] 0 None [] false false l) by congruence. subst t.
    rewrite each_field_flat in P. destruct (each_flat_some _ _ _ _ P) as (ts & -> & L & A).
    apply (Describes d im (EStruct fields) _ _ (hf_struct d fields)); try reflexivity; [exact L|].
    intros i f u F U. cbn [t_inner List.app] in U. destruct (A i f u F U) as (t' & P' & ->). specialize (IH _ _ P').
    split; [destruct t'; reflexivity|]. split; [destruct t'; cbn; unfold zlen; cbn [length]; lia|]. now apply describes_field.
  - assert (t = zero_ty) by congruence. subst t. apply describes_leaf; try reflexivity. constructor.
Qed.
Print Assumptions C124_describes.
Lemma flat_bound d im : forall l : list (list Z * expr), (forall n e, In (n, e) l -> exists k, parseType d im k e <> None) -> exists K, forall n e, In (n, e) l -> parseType d im K e <> None.
Proof.
  induction l as [|(n, e) r IH]; intros H; [exists O; intros ? ? []|].
  destruct IH as (K & A); [intros; eapply H; right; eauto|]. destruct (H n e (or_introl eq_refl)) as (k & P).
  exists (Nat.max k K). intros m x [E|I].
  - injection E as <- <-. destruct (parseType d im k e) as [t|] eqn:Q; [|now destruct P]. rewrite (parse_le d im (Nat.max k K) k e t ltac:(lia) Q). discriminate.
  - specialize (A m x I). destruct (parseType d im K x) as [t|] eqn:Q; [|now destruct A]. rewrite (parse_le d im (Nat.max k K) K x t ltac:(lia) Q). discriminate.
Qed.
(** C124.  The parser comes back from a type exactly when the type is finite. *)
(** The type itself has no name of its own and no number, whatever it is: only fields have. *)
Theorem C124_unnamed : forall decls imports k e t, parseType decls imports k e = Some t -> t_name t = [] /\ t_id t = 0 /\ t_exported t = false.
Proof.
  intros d im. induction k as [|k IH]; intros e t H; [discriminate|]. cbn [parseType] in H. destruct e; try (injection H as <-; now repeat split).
  - destruct (parseType d im k e) as [u|] eqn:P; [|discriminate]. injection H as <-. apply IH in P. now destruct u.
  - destruct (d name); [destruct (parseType d im k e); [|discriminate]|]; injection H as <-; now repeat split.
  - destruct (each_field _ _ _); [|discriminate]. injection H as <-. now repeat split.
Qed.
Print Assumptions C124_unnamed.
Theorem C124_ends_partial : forall decls imports e, (exists k t, parseType decls imports k e = Some t) <-> finite decls e.
Proof.
  intros d im e. split.
  - intros (k & t & H). revert e t H. induction k as [|k IH]; intros e t H; [discriminate|]. constructor. intros y N.
    inversion N; subst; cbn [parseType] in H.
    + destruct (parseType d im k y) eqn:P; [|discriminate]. exact (IH _ _ P).
    + rewrite H0 in H. destruct (parseType d im k y) eqn:P; [|discriminate]. exact (IH _ _ P).
    + destruct (each_field (parseType d im k) fs []) as [l|] eqn:P; [|discriminate]. rewrite each_field_flat in P.
      assert (Q : parseType d im k y <> None) by (eapply each_flat_all; [rewrite P; discriminate|eauto]).
      destruct (parseType d im k y) eqn:Y; [exact (IH _ _ Y)|now destruct Q].
  - intros F. assert (G : exists k, parseType d im k e <> None).
    { induction F as [e _ IH]. destruct e.
      - destruct (IH e (need_star d e)) as (k & P). exists (S k). cbn [parseType]. destruct (parseType d im k e); [discriminate|now destruct P].
      - exists 1%nat. discriminate.
      - exists 1%nat. discriminate.
      - exists 1%nat. discriminate.
      - exists 1%nat. discriminate.
      - destruct (d name) as [x|] eqn:N.
        + destruct (IH x (need_named d name x N)) as (k & P). exists (S k). cbn [parseType]. rewrite N. destruct (parseType d im k x); [discriminate|now destruct P].
        + exists 1%nat. cbn [parseType]. rewrite N. discriminate.
      - destruct (flat_bound d im (GoParseSpec.fields fields)) as (K & A).
        + intros n x I. apply IH. econstructor. exact I.
        + exists (S K). cbn [parseType]. pose proof (each_flat_none (parseType d im K) _ [] A) as Q. rewrite <- each_field_flat in Q.
          destruct each_field; [discriminate|now destruct Q].
      - exists 1%nat. discriminate. }
    destruct G as (k & G). destruct (parseType d im k e) as [t|] eqn:P; [eauto|now destruct G].
Qed.
Print Assumptions C124_ends_partial.
Lemma leads_not_finite d : forall a, finite d a -> ~ leads d a a.
Proof.
  assert (T : forall a, finite d a -> forall b, leads d a b -> finite d b).
  { intros a F b L. induction L; [eapply Acc_inv; eauto|]. apply IHL. eapply Acc_inv; eauto. }
  assert (TR : forall a b c, leads d a b -> leads d b c -> leads d a c).
  { intros a b c L M. induction L; eapply lead_more; eauto. }
  intros a F. induction F as [a _ IH]. intros L. inversion L; subst.
  - exact (IH a H L).
  - apply (IH b H). apply TR with a; [exact H0|now constructor].
Qed.
(** C124, refuted: a type that leads back to itself, such as a struct with a pointer to its own kind,
    is never described: the call only goes deeper. *)
Theorem C124_recursive_refuted : forall decls imports e, leads decls e e -> forall k, parseType decls imports k e = None.
Proof.
  intros d im e L k. destruct (parseType d im k e) as [t|] eqn:P; [|reflexivity]. exfalso.
  assert (F : finite d e) by (apply (C124_ends_partial d im); eauto). exact (leads_not_finite d e F L).
Qed.
Print Assumptions C124_recursive_refuted.
(** C124, refuted: what is written may be lost.  Arrays, maps, interfaces and functions all give the same
    empty answer, a pointer to a pointer is a pointer, and a field without a name is left out. *)
Theorem C124_lost_refuted : forall decls imports k x y z fs, 
  parseType decls imports (S k) (EArray x) = parseType decls imports (S k) (EMap y z) /\
  parseType decls imports (S k) (EArray x) = parseType decls imports (S k) EInterface /\
  (forall t, parseType decls imports k x = Some t -> parseType decls imports (S (S k)) (EStar (EStar x)) = parseType decls imports (S k) (EStar x)) /\
  parseType decls imports (S k) (EStruct (([], y) :: fs)) = parseType decls imports (S k) (EStruct fs).
Proof.
  intros d im k x y z fs. repeat split. intros t P. cbn [parseType]. rewrite P. destruct t. reflexivity.
Qed.
Print Assumptions C124_lost_refuted.
Example C124_case : 
  parseType (fun n => if beq n (str "User"%string) then Some (EStruct [([str "ID"%string; str "Age"%string], EIdent (str "int"%string)); ([], EIdent (str "Base"%string)); ([str "At"%string], EStar (ESel (str "time"%string) (str "Time"%string)))]) else None) (fun _ => None) 5 (EStar (EIdent (str "User"%string))) =
  Some (Ty [] 0 None (str "User"%string) false true
    [Ty (str "ID"%string) 0 None (str "int"%string) false false []; Ty (str "Age"%string) 1 None (str "int"%string) false false [];
     Ty (str "At"%string) 2 None (str "Time"%string) false true []]) /\
  leads (fun n => if beq n (str "List"%string) then Some (EStruct [([str "next"%string], EStar (EIdent (str "List"%string)))]) else None) (EIdent (str "List"%string)) (EIdent (str "List"%string)).
Proof.
  split; [reflexivity|]. eapply lead_more; [apply need_named; reflexivity|]. eapply lead_more; [eapply need_field; left; reflexivity|]. apply lead_one. constructor.
Qed.

(** * Functions *)
Fixpoint results_flat (pt : expr -> option ty) (l : list (bytes * expr)) (f : func) : option func :=
  match l with
  | [] => Some f
  | (n, e) :: r =>
      match pt e with
      | None => None
      | Some t =>
          let t := set_decl t n (IsExported n) in
          results_flat pt r
            (if beq (t_type t) (str "error"%string) then Func (f_name f) (f_param f) (f_result f) (Some t)
             else Func (f_name f) (f_param f) (Some t) (f_err f))
      end
  end.
Lemma each_result_flat pt e : forall ns f, each_result pt ns e f = results_flat pt (map (fun n => (n, e)) ns) f.
Proof. induction ns as [|n r IH]; intros f; [reflexivity|]. cbn [each_result map results_flat]. destruct (pt e); auto. Qed.
Lemma results_flat_app pt b : forall a f, results_flat pt (a ++ b) f = match results_flat pt a f with Some x => results_flat pt b x | None => None end.
Proof. induction a as [|(n, e) r IH]; intros f; [reflexivity|]. cbn [List.app results_flat]. destruct (pt e); auto. Qed.
Lemma each_group_flat pt : forall gs f, each_group pt gs f = results_flat pt (fields gs) f.
Proof.
  induction gs as [|(ns, e) r IH]; intros f; [reflexivity|]. cbn [each_group fields flat_map fst snd].
  rewrite results_flat_app, each_result_flat. destruct results_flat; [apply IH|reflexivity].
Qed.
Lemma last_opt_cons {A} (x : A) l : last_opt (x :: l) = match last_opt l with Some y => Some y | None => Some x end.
Proof. revert x. induction l as [|y l IH]; intros x; [reflexivity|]. change (last_opt (x :: y :: l)) with (last_opt (y :: l)). rewrite IH. now destruct (last_opt l). Qed.
Lemma type_named d im e t : describes d im e t -> t_type t = type_name e.
Proof. intros H. now inversion H. Qed.
Lemma t_type_set_decl t n x : t_type (set_decl t n x) = t_type t.
Proof. now destruct t. Qed.
Definition pick d im (want : bool) (l : list (bytes * expr)) (old o : option ty) : Prop :=
  match last_opt (filter (fun r => Bool.eqb (beq (type_name (snd r)) (str "error"%string)) want) l) with
  | None => o = old
  | Some w => kept d im o (Some w)
  end.
Lemma results_kept d im k : forall l f f', results_flat (parseType d im k) l f = Some f' ->
  f_name f' = f_name f /\ f_param f' = f_param f /\ pick d im false l (f_result f) (f_result f') /\ pick d im true l (f_err f) (f_err f').
Proof.
  induction l as [|(n, e) r IH]; intros f f' H; cbn [results_flat] in H.
  - assert (f' = f) by congruence. subst. repeat split.
  - destruct (parseType d im k e) as [t|] eqn:P; [|discriminate]. cbv zeta in H. pose proof (C124_describes _ _ _ _ _ P) as D.
    rewrite t_type_set_decl, (type_named _ _ _ _ D) in H. destruct (IH _ _ H) as (N & Q & R & E). clear IH H.
    assert (K : kept d im (Some (set_decl t n (IsExported n))) (Some (n, e))).
    { cbn [kept]. split; [destruct t; reflexivity|]. split; [destruct t; reflexivity|]. now apply describes_decl. }
    unfold pick in *. cbn [filter snd]. destruct (beq (type_name e) (str "error"%string)); cbn [Bool.eqb f_name f_param f_result f_err] in *;
      rewrite last_opt_cons; repeat split; auto.
    + destruct (last_opt _) in E |- *; [exact E|]. rewrite E. exact K.
    + destruct (last_opt _) in R |- *; [exact R|]. rewrite R. exact K.
Qed.
Lemma add_decl_imports d k p x p' : add_decl d k p x = Some (Ok p') -> p_imports p' = p_imports p.
Proof.
  intros H. unfold add_decl in H. destruct x as [n e|m n params res|].
  - destruct parseType; [|discriminate]. assert (p' = with_types p (map_set beq (p_types p) n (Some (set_decl t n (IsExported n))))) by congruence. now subst.
  - destruct (IsExported n); cbn [negb] in H; [|congruence]. destruct params as [|(ns, e) [|g [|]]]; try congruence.
    destruct parseType as [t|]; [|discriminate]. destruct ns as [|a ns]; [discriminate|]. destruct each_group as [f|]; [|discriminate].
    assert (p' = with_funcs p (map_set beq (p_funcs p) n (Some f))) by congruence. now subst.
  - congruence.
Qed.
Lemma add_decl_other d k p x p' n : add_decl d k p x = Some (Ok p') -> candidate x n = false -> p_funcs p' n = p_funcs p n.
Proof.
  intros H C. unfold add_decl in H. destruct x as [m e|m m' params res|].
  - destruct parseType; [|discriminate]. assert (p' = with_types p (map_set beq (p_types p) m (Some (set_decl t m (IsExported m))))) by congruence. now subst.
  - cbn [candidate] in C. destruct (IsExported m'); cbn [negb andb] in *; [|congruence]. destruct params as [|(ns, e) [|g [|]]]; try congruence.
    destruct parseType as [t|]; [|discriminate]. destruct ns as [|a ns]; [discriminate|]. destruct each_group as [f|]; [|discriminate].
    assert (p' = with_funcs p (map_set beq (p_funcs p) m' (Some f))) by congruence. subst. cbn [with_funcs p_funcs]. unfold map_set. now rewrite C.
  - congruence.
Qed.
Lemma add_decls_app d k b : forall a p, add_decls d k p (a ++ b) = match add_decls d k p a with Some (Ok q) => add_decls d k q b | x => x end.
Proof. induction a as [|x a IH]; intros p; [reflexivity|]. cbn [List.app add_decls]. destruct (add_decl d k p x) as [[q|]|]; auto. Qed.
Lemma add_decls_imports d k : forall l p p', add_decls d k p l = Some (Ok p') -> p_imports p' = p_imports p.
Proof.
  induction l as [|x l IH]; intros p p' H; cbn [add_decls] in H; [congruence|]. destruct (add_decl d k p x) as [[q|]|] eqn:A; try discriminate.
  rewrite (IH _ _ H). eapply add_decl_imports; eauto.
Qed.
(** C125.  A function without a declaration that qualifies keeps what was known of it. *)
Theorem C125_others : forall decls k l p p', add_decls decls k p l = Some (Ok p') ->
  forall n, (forall d, In d l -> candidate d n = false) -> p_funcs p' n = p_funcs p n.
Proof.
  intros d k. induction l as [|x l IH]; intros p p' H n C; cbn [add_decls] in H; [congruence|].
  destruct (add_decl d k p x) as [[q|]|] eqn:A; try discriminate.
  rewrite (IH _ _ H n ltac:(intros; apply C; now right)). eapply add_decl_other; eauto. apply C. now left.
Qed.
Print Assumptions C125_others.
(** C125.  A name is exported exactly if it begins with one of the letters A to Z. *)
Theorem C125_exported : forall n, IsExported n = true <-> exists c r, n = c :: r /\ 65 <= c <= 90.
Proof.
  intros n. unfold IsExported. destruct n as [|c r].
  - split; [discriminate|]. intros (c & r & X & _). discriminate.
  - split; [intros H; exists c, r; split; [reflexivity|lia]|]. intros (c' & r' & E & H). injection E as <- <-. lia.
Qed.
Print Assumptions C125_exported.
(** C124.  A name stands for its first declaration in the file, and for nothing when there is none. *)
Theorem C124_declared : forall n,
  (forall l1 e l2, (forall e', ~ In (DType n e') l1) -> declared (l1 ++ DType n e :: l2) n = Some e) /\
  (forall l, (forall e', ~ In (DType n e') l) -> declared l n = None).
Proof.
  intros n. split.
  - induction l1 as [|d l1 IH]; intros e l2 H; cbn [app declared]; [now rewrite beq_refl|].
    assert (R : declared (l1 ++ DType n e :: l2) n = Some e) by (apply IH; intros e' X; apply (H e'); now right).
    destruct d as [m x| |]; auto. destruct (beq m n) eqn:B; auto. apply beq_eq in B. subst. exfalso. apply (H x). now left.
  - induction l as [|d l IH]; intros H; cbn [declared]; [reflexivity|].
    assert (R : declared l n = None) by (apply IH; intros e' X; apply (H e'); now right).
    destruct d as [m x| |]; auto. destruct (beq m n) eqn:B; auto. apply beq_eq in B. subst. exfalso. apply (H x). now left.
Qed.
Print Assumptions C124_declared.
(** C125.  The last qualifying declaration of a name is what is recorded: its first parameter under the
    first name of its group, the last error among its named results and the last other named result. *)
Theorem C125_recorded_partial : forall decls k p p' l1 l2 m n a more e g gs,
  add_decls decls k p (l1 ++ DFunc m n [(a :: more, e); g] gs :: l2) = Some (Ok p') -> IsExported n = true ->
  (forall d, In d l2 -> candidate d n = false) ->
  exists t r q, p_funcs p' n = Some (Func n (Some t) r q) /\
    kept decls (p_imports p) (Some t) (Some (a, e)) /\
    kept decls (p_imports p) r (last_opt (results_of false gs)) /\
    kept decls (p_imports p) q (last_opt (results_of true gs)).
Proof.
  intros d k p p' l1 l2 m n a more e g gs H X C. rewrite add_decls_app in H. destruct (add_decls d k p l1) as [[q|]|] eqn:A1; try discriminate.
  cbn [add_decls] in H. destruct (add_decl d k q _) as [[w|]|] eqn:A2; try discriminate.
  rewrite (C125_others _ _ _ _ _ H n C). rewrite <- (add_decls_imports _ _ _ _ _ A1). clear A1 H p l1.
  unfold add_decl in A2. rewrite X in A2. cbn [negb] in A2. destruct (parseType d (p_imports q) k e) as [t|] eqn:P; [|discriminate].
  destruct (each_group _ gs _) as [f|] eqn:G; [|discriminate]. assert (w = with_funcs q (map_set beq (p_funcs q) n (Some f))) by congruence. subst w.
  cbn [with_funcs p_funcs]. unfold map_set. rewrite beq_refl. rewrite each_group_flat in G. destruct (results_kept _ _ _ _ _ _ G) as (N & Q & R & E).
  destruct f as [fn fp fr fe]. cbn [f_name f_param f_result f_err] in *. subst fn fp.
  eexists _, fr, fe. split; [reflexivity|]. pose proof (C124_describes _ _ _ _ _ P) as D. split.
  - cbn [kept]. split; [destruct t; reflexivity|]. split; [destruct t; reflexivity|]. now apply describes_decl.
  - unfold pick in R, E. unfold results_of. split.
    + destruct (last_opt _) in R |- *; [exact R|]. now rewrite R.
    + destruct (last_opt _) in E |- *; [exact E|]. now rewrite E.
Qed.
Print Assumptions C125_recorded_partial.
(** C125, refuted: an exported function of two parameters whose first has no name ends the parsing in a
    panic, and nothing else does. *)
Theorem C125_panics_refuted : forall decls k l p, add_decls decls k p l <> None ->
  (add_decls decls k p l = Some Panic <-> exists m n e g gs, In (DFunc m n [([], e); g] gs) l /\ IsExported n = true).
Proof.
  intros d k. induction l as [|x l IH]; intros p H; cbn [add_decls] in H |- *.
  - split; [discriminate|]. intros (m & n & e & g & gs & [] & _).
  - assert (HERE : add_decl d k p x <> None -> (add_decl d k p x = Some Panic <-> exists m n e g gs, x = DFunc m n [([], e); g] gs /\ IsExported n = true)).
    { unfold add_decl. destruct x as [n e|m n params res|].
      - destruct parseType; intros ?; split; try discriminate; intros (? & ? & ? & ? & ? & E & _); discriminate E.
      - destruct (IsExported n) eqn:X; cbn [negb].
        + destruct params as [|(ns, e) [|g [|]]]; intros Y; split; try discriminate; try (intros (? & ? & ? & ? & ? & E & _); discriminate E).
          * destruct parseType; [|discriminate]. destruct ns; [intros _; eauto 10|]. destruct each_group; discriminate.
          * intros (? & ? & ? & ? & ? & E & _). injection E as <- <- -> <- <- <-. destruct parseType; [reflexivity|now destruct Y].
        + intros _. split; [discriminate|]. intros (? & ? & ? & ? & ? & E & X'). injection E. intros; subst. congruence.
      - intros _. split; [discriminate|]. intros (? & ? & ? & ? & ? & E & _); discriminate E. }
    destruct (add_decl d k p x) as [[q|]|] eqn:A.
    + specialize (HERE ltac:(discriminate)). rewrite (IH q H). split; intros (m & n & e & g & gs & I & X).
      * exists m, n, e, g, gs. split; [now right|exact X].
      * destruct I as [->|I]; [|eauto 10]. exfalso. assert (Z : Some (Ok q) = Some Panic) by (apply HERE; eauto 10). discriminate Z.
    + split; [intros _|reflexivity]. destruct HERE as (F & _); [discriminate|]. destruct F as (m & n & e & g & gs & -> & X); [reflexivity|]. exists m, n, e, g, gs. split; [now left|exact X].
    + now destruct H.
Qed.
Print Assumptions C125_panics_refuted.
(** C125, refuted: groups are counted, not parameters: two parameters of one written type are passed over,
    three in two groups are taken for two; and a method counts like a function of that name. *)
Theorem C125_groups_refuted : forall decls k p m n a b e c gs, 
  add_decl decls k p (DFunc m n [([a; b], e)] gs) = Some (Ok p) /\
  add_decl decls k p (DFunc m n [([a; b], e); c] gs) = add_decl decls k p (DFunc m n [([a], e); c] gs) /\
  add_decl decls k p (DFunc true n [([a; b], e); c] gs) = add_decl decls k p (DFunc false n [([a; b], e); c] gs).
Proof. intros. unfold add_decl. destruct (IsExported n); repeat split. Qed.
Print Assumptions C125_groups_refuted.
Example C125_case : exists p', add_decls (fun _ => None) 5 empty_package
  [DFunc false (str "Serve"%string) [([str "st"%string], EIdent (str "Stream"%string)); ([str "req"%string], EStar (EIdent (str "Req"%string)))]
     [([str "res"%string], EIdent (str "Res"%string)); ([str "err"%string], EIdent (str "error"%string))];
   DFunc false (str "help"%string) [([], EOther); ([], EOther)] []] = Some (Ok p') /\
  option_map f_err (p_funcs p' (str "Serve"%string)) = Some (Some (Ty (str "err"%string) 0 None (str "error"%string) false false [])).
Proof. eexists. split; [reflexivity|]. reflexivity. Qed.

(** * Files and imports *)
(** C126, refuted: the choice of files chooses every file, whatever its name. *)
Theorem C126_every_file_refuted : forall name, wanted name = true.
Proof.
  intros name. unfold wanted. destruct (HasSuffix name (str "_test.go"%string)) eqn:T; [|apply Bool.orb_true_r].
  unfold HasSuffix in *. apply andb_prop in T. destruct T as (L & E). apply beq_eq in E.
  change (zlen (str "_test.go"%string)) with 8 in *. change (zlen (str ".go"%string)) with 3.
  set (n := Z.to_nat (zlen name - 8)) in *. replace (Z.to_nat (zlen name - 3)) with (n + 5)%nat by lia.
  assert (S5 : forall (l : bytes) i j, skipn (i + j) l = skipn j (skipn i l)).
  { induction l as [|x l IH]; intros [|i] j; try reflexivity; [now rewrite !skipn_nil|apply IH]. }
  rewrite S5, E. change (skipn 5 (str "_test.go"%string)) with (str ".go"%string). rewrite beq_refl, Bool.andb_true_r. cbn [orb]. lia.
Qed.
Print Assumptions C126_every_file_refuted.
(** C126.  A file is kept under its name whatever becomes of its text; a syntax error comes back as an
    error and changes nothing else; no other error comes back. *)
Theorem C126_files : forall k p name text ast p' err, Parse k p name text ast = Some (Ok (p', err)) ->
  (forall n, p_files p' n = if beq name n then Some text else p_files p n) /\ (err = true <-> ast = None) /\
  (ast = None -> p_name p' = p_name p /\ p_imports p' = p_imports p /\ p_funcs p' = p_funcs p /\ p_types p' = p_types p).
Proof.
  assert (F : forall d k l p p', add_decls d k p l = Some (Ok p') -> p_files p' = p_files p).
  { intros d k. induction l as [|x l IH]; intros p p' H; cbn [add_decls] in H; [congruence|]. destruct (add_decl d k p x) as [[q|]|] eqn:A; try discriminate.
    rewrite (IH _ _ H). clear - A. unfold add_decl in A. destruct x as [n e|m n params res|].
    - destruct parseType; [|discriminate]. assert (q = with_types p (map_set beq (p_types p) n (Some (set_decl t n (IsExported n))))) by congruence. now subst.
    - destruct (IsExported n); cbn [negb] in A; [|congruence]. destruct params as [|(ns, e) [|g [|]]]; try congruence.
      destruct parseType as [t|]; [|discriminate]. destruct ns as [|a ns]; [discriminate|]. destruct each_group as [f|]; [|discriminate].
      assert (q = with_funcs p (map_set beq (p_funcs p) n (Some f))) by congruence. now subst.
    - congruence. }
  intros k p name text ast p' err H. unfold Parse in H. rewrite C126_every_file_refuted in H. destruct ast as [s|].
  - destruct (parseFile _ _ s) as [[q|]|] eqn:A; try discriminate. assert (q = p' /\ err = false) as (-> & ->) by (split; congruence).
    unfold parseFile in A. apply F in A. rewrite A. cbn. repeat split; intros; try discriminate.
  - match type of H with Some (Ok (?q, _)) = _ => assert (E : p' = q) by congruence; assert (E2 : err = true) by congruence end. subst. cbn. repeat split.
Qed.
Print Assumptions C126_files.
Lemma until_slash_no s : ~ In 47 s -> until_slash s = s.
Proof. induction s as [|c r IH]; intros H; [reflexivity|]. cbn [until_slash]. destruct (Z.eqb_spec c 47) as [->|]; [destruct H; now left|]. rewrite IH; [reflexivity|]. intros I. apply H. now right. Qed.
Lemma until_slash_at s r : ~ In 47 s -> until_slash (s ++ 47 :: r) = s.
Proof. induction s as [|c s IH]; intros H; [reflexivity|]. cbn [List.app until_slash]. destruct (Z.eqb_spec c 47) as [->|]; [destruct H; now left|]. rewrite IH; [reflexivity|]. intros I. apply H. now right. Qed.
Lemma drop_slashes_no c s : c <> 47 -> drop_slashes (c :: s) = c :: s.
Proof. intros H. unfold drop_slashes. destruct c as [|p|p]; try reflexivity. repeat (match goal with q : positive |- _ => destruct q; try reflexivity end). now destruct H. Qed.
Lemma Base_last path last : ends_with_element path last -> Base path = last.
Proof.
  intros (NE & NS & dir & -> & D). unfold Base. destruct (dir ++ last) eqn:E0; [apply app_eq_nil in E0; destruct E0; now destruct NE|]. rewrite <- E0. clear E0.
  rewrite rev_app_distr. assert (NS' : ~ In 47 (rev last)) by (rewrite <- in_rev; exact NS). destruct (rev last) as [|c r] eqn:R.
  { exfalso. apply NE. rewrite <- (rev_involutive last), R. reflexivity. }
  cbn [List.app]. rewrite drop_slashes_no by (intros ->; apply NS'; now left). change (c :: r ++ rev dir) with ((c :: r) ++ rev dir). rewrite <- R in *.
  destruct D as [->|(d & ->)].
  - cbn [rev]. rewrite app_nil_r, until_slash_no, rev_involutive by exact NS'. now destruct last.
  - rewrite rev_app_distr. cbn [rev List.app]. rewrite until_slash_at, rev_involutive by exact NS'. now destruct last.
Qed.
(** C126.  A name is looked up in all the imports seen so far, of this file and of those before: the
    last one used under that name answers.  An import without a name of its own is used under the last
    element of its path. *)
Theorem C126_imports_partial : forall l m n, fold_left add_import l m n =
  match last_opt (filter (fun i => beq (used_as i) n) l) with
  | Some i => Some (Import (used_as i) (Base (snd i)) (snd i))
  | None => m n
  end.
Proof.
  induction l as [|(al, path) l IH]; intros m n; [reflexivity|]. cbn [fold_left filter]. rewrite IH. unfold used_as at 2. cbn [fst snd].
  unfold add_import, map_set. destruct (beq _ n) eqn:B.
  - rewrite last_opt_cons. destruct (last_opt _); [reflexivity|]. unfold used_as. cbn [fst snd]. reflexivity.
  - reflexivity.
Qed.
Print Assumptions C126_imports_partial.
Theorem C126_path : forall path last m, ends_with_element path last -> add_import m (None, path) last = Some (Import last last path).
Proof. intros path last m E. unfold add_import, map_set. rewrite (Base_last _ _ E), beq_refl. reflexivity. Qed.
Print Assumptions C126_path.
(** the empty path is a dot *)
Theorem C126_empty_path : forall m, add_import m (None, []) [46] = Some (Import [46] [46] []).
Proof. reflexivity. Qed.
Print Assumptions C126_empty_path.
(** C126, refuted: a package whose name is not the last element of its path, such as one whose path ends
    in a version, is not found under its own name: the type names no package or another one. *)
Theorem C126_version_refuted : forall decls k path last pkg sel m t, ends_with_element path last -> pkg <> last ->
  parseType decls (add_import m (None, path)) (S k) (ESel pkg sel) = Some t -> t_pkg t = m pkg.
Proof.
  intros d k path last pkg sel m t E N H. cbn [parseType] in H. assert (t = Ty [] 0 (add_import m (None, path) pkg) sel false false []) by congruence. subst t.
  cbn [t_pkg]. unfold add_import, map_set. rewrite (Base_last _ _ E). destruct (beq last pkg) eqn:B; [apply beq_eq in B; congruence|reflexivity].
Qed.
Print Assumptions C126_version_refuted.
Example C126_case : ends_with_element (str "example.com/yaml/v3"%string) (str "v3"%string) /\ wanted (str "a_test.go"%string) = true /\
  exists p', Parse 3 empty_package (str "x.go"%string) [1] (Some (Source (str "x"%string) [(None, str "a/time"%string)] [DType (str "T"%string) (ESel (str "time"%string) (str "Time"%string))])) = Some (Ok (p', false)) /\
    option_map t_pkg (p_types p' (str "T"%string)) = Some (Some (Import (str "time"%string) (str "time"%string) (str "a/time"%string))).
Proof.
  split; [|split; [reflexivity|eexists; split; reflexivity]]. split; [discriminate|]. split; [cbn; intuition discriminate|].
  exists (str "example.com/yaml/"%string). split; [reflexivity|]. right. exists (str "example.com/yaml"%string). reflexivity.
Qed.
