From Coq Require Import ZifyBool ZifyNat Permutation.
From Verif Require Import Go GoFacts EscapeModel EscapeSpec EscapeProofs UriModel UriSpec.
Ltac Zify.zify_post_hook ::= Z.div_mod_to_equations.

(** * The map *)
Lemma beq_dec a b : beq a b = if list_eq_dec Z.eq_dec a b then true else false.
Proof.
  destruct (list_eq_dec Z.eq_dec a b) as [->|N]; [apply beq_refl|].
  destruct (beq a b) eqn:E; [|reflexivity]. apply beq_eq in E. congruence.
Qed.

Lemma qfind_put q k v j : qfind (qput q k v) j = if list_eq_dec Z.eq_dec k j then Some v else qfind q j.
Proof.
  induction q as [|[k' v'] t IH]; cbn [qput qfind].
  - rewrite beq_dec. destruct (list_eq_dec Z.eq_dec j k), (list_eq_dec Z.eq_dec k j); congruence.
  - rewrite (beq_dec k k'). destruct (list_eq_dec Z.eq_dec k k') as [<-|N]; cbn [qfind].
    + rewrite beq_dec. destruct (list_eq_dec Z.eq_dec j k), (list_eq_dec Z.eq_dec k j); congruence.
    + rewrite IH, beq_dec. destruct (list_eq_dec Z.eq_dec j k'), (list_eq_dec Z.eq_dec k j); congruence.
Qed.

Lemma qput_keys q k v : exists l, map fst (qput q k v) = map fst q ++ l /\ (l = [] \/ (l = [k] /\ ~ In k (map fst q))).
Proof.
  induction q as [|[k' v'] t (l & E & H)]; cbn [qput map fst].
  - exists [k]. split; [reflexivity|]. right. split; [reflexivity|intros []].
  - rewrite beq_dec. destruct (list_eq_dec Z.eq_dec k k') as [<-|N]; cbn [map fst].
    + exists []. rewrite app_nil_r. auto.
    + exists l. rewrite E. split; [reflexivity|]. destruct H as [->|[-> H]]; [now left|].
      right. split; [reflexivity|]. cbn [In]. intros [|]; [congruence|auto].
Qed.
Lemma qput_nodup q k v : NoDup (map fst q) -> NoDup (map fst (qput q k v)).
Proof.
  intros H. destruct (qput_keys q k v) as (l & -> & [->|[-> N]]); [now rewrite app_nil_r|].
  apply Permutation_NoDup with (k :: map fst q); [apply Permutation_cons_append|now constructor].
Qed.
Lemma qfind_none q k : qfind q k = None <-> ~ In k (map fst q).
Proof.
  induction q as [|[k' v'] t IH]; cbn [qfind map fst In]; [split; [intros _ []|reflexivity]|].
  rewrite beq_dec. destruct (list_eq_dec Z.eq_dec k k') as [<-|N].
  - split; [discriminate|]. intros H. exfalso. apply H. now left.
  - rewrite IH. split; [intros H [|]; [congruence|auto]|tauto].
Qed.
Lemma qfind_del q k j : NoDup (map fst q) -> qfind (qdel q k) j = if list_eq_dec Z.eq_dec k j then None else qfind q j.
Proof.
  induction q as [|[k' v'] t IH]; cbn [qdel qfind map fst]; intros H.
  - destruct (list_eq_dec Z.eq_dec k j); reflexivity.
  - inversion H as [|? ? Hn Ht]; subst. rewrite (beq_dec k k'). destruct (list_eq_dec Z.eq_dec k k') as [<-|N]; cbn [qfind].
    + destruct (list_eq_dec Z.eq_dec k j) as [<-|Nj]; [now apply qfind_none|].
      rewrite beq_dec. destruct (list_eq_dec Z.eq_dec j k); [congruence|reflexivity].
    + rewrite IH by assumption. rewrite beq_dec.
      destruct (list_eq_dec Z.eq_dec j k'), (list_eq_dec Z.eq_dec k j); congruence.
Qed.
Lemma qdel_incl q k x : In x (qdel q k) -> In x q.
Proof.
  induction q as [|[k' v'] t IH]; cbn [qdel]; [auto|]. destruct (beq k k'); cbn [In]; tauto.
Qed.
Lemma qdel_nodup q k : NoDup (map fst q) -> NoDup (map fst (qdel q k)).
Proof.
  induction q as [|[k' v'] t IH]; cbn [qdel map fst]; [auto|]. intros H. inversion H as [|? ? Hn Ht]; subst.
  destruct (beq k k'); [assumption|]. cbn [map fst]. constructor; [|auto].
  intros K. apply Hn. apply in_map_iff in K as ([a b] & <- & K). apply in_map_iff. eauto using qdel_incl.
Qed.

Definition apply_op (q : qmap) (o : qop) : qmap :=
  match o with OpAdd k v => QAdd q k v | OpSet k v => QSet q k v | OpDel k => QDel q k end.
(** History listed latest first. *)
Fixpoint run (h : list qop) : qmap := match h with [] => [] | o :: h => apply_op (run h) o end.

Definition qwf (q : qmap) : Prop :=
  NoDup (map fst q) /\ Forall (fun e => snd e <> []) q.

Lemma qput_nonempty q k v : Forall (fun e => snd e <> ([] : list bytes)) q -> v <> [] ->
  Forall (fun e => snd e <> []) (qput q k v).
Proof.
  induction 1 as [|[k' v'] t H Ht IH]; cbn [qput]; intros Hv; [repeat constructor; auto|].
  destruct (beq k k'); constructor; auto.
Qed.
Lemma run_wf h : qwf (run h).
Proof.
  unfold qwf. induction h as [|o h [IH1 IH2]]; cbn [run]; [split; constructor|].
  destruct o; cbn [apply_op]; unfold QAdd, QSet, QDel; split; auto using qput_nodup, qdel_nodup.
  - apply qput_nonempty; auto. destruct (qvals _ _); discriminate.
  - apply qput_nonempty; auto. discriminate.
  - rewrite Forall_forall in *. intros x Hx. apply IH2. eapply qdel_incl; eauto.
Qed.

Lemma run_values h k : qvals (run h) k = values h k.
Proof.
  induction h as [|o h IH]; [reflexivity|]. destruct (run_wf h) as [ND _].
  destruct o; cbn [run apply_op values]; unfold qvals, QAdd, QSet, QDel in *.
  - rewrite qfind_put. destruct (list_eq_dec Z.eq_dec k0 k) as [->|N]; [now rewrite <- IH|assumption].
  - rewrite qfind_put. now destruct (list_eq_dec Z.eq_dec k0 k).
  - rewrite qfind_del by assumption. now destruct (list_eq_dec Z.eq_dec k0 k).
Qed.

Lemma qfind_in q k v : qfind q k = Some v -> In (k, v) q.
Proof.
  induction q as [|[k' v'] t IH]; cbn [qfind]; [discriminate|]. rewrite beq_dec.
  destruct (list_eq_dec Z.eq_dec k k') as [<-|N]; [intros E; inversion E; now left|right; auto].
Qed.
Lemma qwf_has q k : qwf q -> QHas q k = match qvals q k with [] => false | _ => true end.
Proof.
  intros [_ H]. unfold QHas, qvals. destruct (qfind q k) as [v|] eqn:E; [|reflexivity].
  apply qfind_in in E. rewrite Forall_forall in H. specialize (H _ E). cbn in H. now destruct v.
Qed.

(** * Text of a query *)
Definition pairs (es : qmap) : list (bytes * bytes) :=
  concat (map (fun e => map (fun v => (fst e, v)) (snd e)) es).
Definition item (p : bytes * bytes) : bytes :=
  concat (map (esc1 QueryComponent) (fst p)) ++ [61] ++ concat (map (esc1 QueryComponent) (snd p)).
Fixpoint join (l : list (bytes * bytes)) : bytes :=
  match l with [] => [] | [p] => item p | p :: t => item p ++ 38 :: join t end.
Definition more (buf : bytes) (l : list (bytes * bytes)) : bytes :=
  match l with [] => buf | _ => if 0 <? zlen buf then buf ++ [38] ++ join l else join l end.

Lemma item_long p : 1 <= zlen (item p).
Proof.
  unfold item. rewrite !zlen_app. change (zlen [61]) with 1.
  pose proof (zlen_nonneg (concat (map (esc1 QueryComponent) (fst p)))).
  pose proof (zlen_nonneg (concat (map (esc1 QueryComponent) (snd p)))). lia.
Qed.

Lemma join_cons p t : t <> [] -> join (p :: t) = item p ++ 38 :: join t.
Proof. destruct t; [congruence|reflexivity]. Qed.
Lemma join_app a b : a <> [] -> b <> [] -> join (a ++ b) = join a ++ [38] ++ join b.
Proof.
  intros Ha Hb. induction a as [|p a IH]; [congruence|]. destruct a as [|p' a].
  - change ([p] ++ b) with (p :: b). now rewrite join_cons.
  - change ((p :: p' :: a) ++ b) with (p :: (p' :: a) ++ b). rewrite !join_cons by discriminate.
    rewrite IH by discriminate. now rewrite <- app_assoc.
Qed.
Lemma join_long a : a <> [] -> 1 <= zlen (join a).
Proof.
  intros H. destruct a as [|p [|p' a]]; [congruence|apply item_long|].
  rewrite join_cons by discriminate. rewrite zlen_app. pose proof (item_long p). pose proof (zlen_nonneg (38 :: join (p' :: a))). lia.
Qed.
Lemma more_app buf a b : more (more buf a) b = more buf (a ++ b).
Proof.
  destruct a as [|p a]; [reflexivity|]. destruct b as [|p' b]; [rewrite app_nil_r; reflexivity|].
  pose proof (join_long (p :: a) ltac:(discriminate)) as L.
  set (x := p :: a) in *. set (y := p' :: b) in *.
  assert (Hx : x <> []) by discriminate. assert (Hy : y <> []) by discriminate.
  assert (M : forall b l, l <> [] -> more b l = if 0 <? zlen b then b ++ [38] ++ join l else join l)
    by (intros ? [|] ?; [congruence|reflexivity]).
  rewrite (M (more buf x)), (M buf x), (M buf (x ++ y)) by (auto; destruct x; discriminate).
  rewrite join_app by assumption.
  destruct (Z.ltb_spec 0 (zlen buf)).
  - rewrite zlen_app, zlen_app. change (zlen [38]) with 1. replace (0 <? zlen buf + (1 + zlen (join x))) with true by lia.
    now rewrite <- !app_assoc.
  - now replace (0 <? zlen (join x)) with true by lia.
Qed.

Lemma qvalues_spec k vs : Forall wf_bytes vs -> forall buf,
  qvalues buf (concat (map (esc1 QueryComponent) k)) vs = Ok (more buf (map (fun v => (k, v)) vs)).
Proof.
  induction 1 as [|v vs Hv Hvs IH]; intros buf; cbn [qvalues map]; [reflexivity|].
  rewrite Escape_spec by assumption. cbn [bind]. rewrite IH.
  f_equal. change ((k, v) :: map (fun v0 => (k, v0)) vs) with ([(k, v)] ++ map (fun v0 => (k, v0)) vs).
  rewrite <- more_app. f_equal. cbn [more join]. unfold item. cbn [fst snd].
  destruct (0 <? zlen buf) eqn:E; [now rewrite <- !app_assoc|].
  assert (buf = []) by (destruct buf; [reflexivity|rewrite zlen_cons in E; pose proof (zlen_nonneg buf); lia]).
  now subst buf.
Qed.
Definition wf_entry (e : bytes * list bytes) : Prop := wf_bytes (fst e) /\ Forall wf_bytes (snd e).
Lemma qstring_spec es : Forall wf_entry es -> forall buf, qstring buf es = Ok (more buf (pairs es)).
Proof.
  induction 1 as [|[k vs] es [Hk Hv] Hes IH]; intros buf; cbn [qstring]; [reflexivity|].
  cbn [fst snd] in *. rewrite Escape_spec by assumption. cbn [bind]. rewrite qvalues_spec by assumption. cbn [bind].
  rewrite IH, more_app. reflexivity.
Qed.

Lemma cut_app a c r : ~ In c a -> CutByte (a ++ c :: r) c = (a, r).
Proof.
  induction a as [|x t IH]; cbn [app CutByte In]; intros H; [now rewrite Z.eqb_refl|].
  replace (x =? c) with false by (symmetry; apply Z.eqb_neq; tauto). rewrite IH by tauto. reflexivity.
Qed.
Lemma cut_none a c : ~ In c a -> CutByte a c = (a, []).
Proof.
  induction a as [|x t IH]; cbn [CutByte In]; intros H; [reflexivity|].
  replace (x =? c) with false by (symmetry; apply Z.eqb_neq; tauto). rewrite IH by tauto. reflexivity.
Qed.
Lemma index_none a c : ~ In c a -> index_byte a c = -1.
Proof.
  induction a as [|x t IH]; cbn [index_byte In]; intros H; [reflexivity|].
  replace (x =? c) with false by (symmetry; apply Z.eqb_neq; tauto). rewrite IH by tauto. reflexivity.
Qed.

Lemma escaped_query_chars t : escaped QueryComponent t -> Forall (fun c => c <> 38 /\ c <> 61 /\ c <> 58 /\ c <> 59) t.
Proof.
  induction 1 as [|c t [H|H] E IH|t _ E IH|a b x y t Ha Hb E IH].
  - constructor.
  - constructor; [unfold alnum in H; lia|assumption].
  - constructor; [|assumption]. change (str "-._~") with [45; 46; 95; 126] in H. cbn [In] in H. lia.
  - constructor; [lia|assumption].
  - unfold hexval in *. constructor; [lia|]. constructor; [lia|]. constructor; [lia|assumption].
Qed.
Lemma esc_query_free s : wf_bytes s -> forall c, c = 38 \/ c = 61 \/ c = 58 -> ~ In c (concat (map (esc1 QueryComponent) s)).
Proof.
  intros W c Hc K. pose proof (escaped_query_chars _ (escape_escaped QueryComponent s W)) as F.
  rewrite Forall_forall in F. specialize (F _ K). lia.
Qed.
Lemma item_free p c : wf_bytes (fst p) -> wf_bytes (snd p) -> c = 38 \/ c = 58 -> ~ In c (item p).
Proof.
  intros W1 W2 Hc K. unfold item in K. apply in_app_or in K as [K|K]; [eapply esc_query_free; [exact W1| |exact K]; lia|].
  cbn [app In] in K. destruct K as [K|K]; [lia|]. eapply esc_query_free; [exact W2| |exact K]; lia.
Qed.

Lemma unescape_escape s : wf_bytes s -> Unescape (concat (map (esc1 QueryComponent) s)) QueryComponent = Ok (inr s).
Proof.
  intros W. apply Unescape_spec; [now apply escaped_wf|]. split; [|now apply escape_denotes].
  apply escape_allowed; [assumption|]. apply Forall_forall. intros; exact I.
Qed.

Definition add_pair (q : qmap) (p : bytes * bytes) : qmap := QAdd q (fst p) (snd p).

Lemma qparse_join ps : Forall (fun p => wf_bytes (fst p) /\ wf_bytes (snd p)) ps ->
  forall fuel q err, (length (join ps) < fuel)%nat ->
  qparse fuel (join ps) q err = Some (Ok (err, fold_left add_pair ps q)).
Proof.
  induction 1 as [|p ps [W1 W2] Hps IH]; intros fuel q err Hf.
  - destruct fuel; [lia|]. reflexivity.
  - assert (C : CutByte (join (p :: ps)) 38 = (item p, join ps)).
    { destruct ps as [|p' ps]; [change (join [p]) with (item p); rewrite cut_none; [reflexivity|]|rewrite join_cons by discriminate; rewrite cut_app; [reflexivity|]];
      apply item_free; auto. }
    pose proof (item_long p) as LI.
    assert (L : (length (join ps) < length (join (p :: ps)))%nat).
    { destruct ps as [|p' ps]; [change (join [p]) with (item p); unfold zlen in LI; cbn; lia|].
      rewrite (join_cons p (p' :: ps)) by discriminate. rewrite app_length. cbn [length].
      unfold zlen in LI. lia. }
    assert (NE : beq (join (p :: ps)) [] = false).
    { destruct (beq (join (p :: ps)) []) eqn:E; [|reflexivity]. apply beq_eq in E.
      pose proof (join_long (p :: ps) ltac:(discriminate)) as K. rewrite E in K. unfold zlen in K. cbn in K. lia. }
    destruct fuel as [|fuel]; [lia|]. cbn [qparse]. rewrite NE, C.
    destruct (beq (item p) []) eqn:E; [apply beq_eq in E; rewrite E in LI; unfold zlen in LI; cbn in LI; lia|].
    unfold has_byte. rewrite index_none by (apply item_free; auto). change (-1 <? -1) with false. cbn iota.
    unfold item at 1. cbn [app]. rewrite cut_app by (apply esc_query_free; auto).
    rewrite !unescape_escape by assumption. rewrite IH by lia. reflexivity.
Qed.

Lemma add_pair_vals k vs : forall q, qvals (fold_left add_pair (map (fun v => (k, v)) vs) q) k = qvals q k ++ vs.
Proof.
  induction vs as [|v vs IH]; intros q; cbn [map fold_left]; [now rewrite app_nil_r|].
  rewrite IH. unfold add_pair, QAdd. cbn [fst snd]. unfold qvals at 1. rewrite qfind_put.
  destruct (list_eq_dec Z.eq_dec k k); [now rewrite <- app_assoc|congruence].
Qed.
Lemma add_pair_other k j vs : j <> k -> forall q, qvals (fold_left add_pair (map (fun v => (k, v)) vs) q) j = qvals q j.
Proof.
  intros N. induction vs as [|v vs IH]; intros q; cbn [map fold_left]; [reflexivity|].
  rewrite IH. unfold add_pair, QAdd. cbn [fst snd]. unfold qvals at 1. rewrite qfind_put.
  destruct (list_eq_dec Z.eq_dec k j); [congruence|reflexivity].
Qed.
Lemma fold_pairs es k : NoDup (map fst es) -> forall q,
  qvals (fold_left add_pair (pairs es) q) k = qvals q k ++ qvals es k.
Proof.
  induction es as [|[k' vs] es IH]; intros ND q; [cbn; now rewrite app_nil_r|].
  inversion ND as [|? ? Hn ND']; subst. unfold pairs. cbn [map concat fst snd]. rewrite fold_left_app.
  fold (pairs es). rewrite IH by assumption. unfold qvals at 4. cbn [qfind]. rewrite beq_dec.
  destruct (list_eq_dec Z.eq_dec k k') as [->|N].
  - rewrite add_pair_vals. unfold qvals at 2.
    replace (qfind es k') with (@None (list bytes)) by (symmetry; now apply qfind_none). now rewrite app_nil_r.
  - rewrite add_pair_other by congruence. reflexivity.
Qed.
Lemma fold_wf ps : forall q, qwf q -> qwf (fold_left add_pair ps q).
Proof.
  induction ps as [|p ps IH]; intros q [H1 H2]; cbn [fold_left]; [split; auto|].
  apply IH. unfold add_pair, QAdd. split; [now apply qput_nodup|]. apply qput_nonempty; auto.
  destruct (qvals _ _); discriminate.
Qed.
Lemma qvals_perm q es k : NoDup (map fst q) -> Permutation q es -> qvals es k = qvals q k.
Proof.
  intros ND P. assert (ND' : NoDup (map fst es)) by (eapply Permutation_NoDup; [apply Permutation_map; eassumption|assumption]).
  assert (U : forall q v, NoDup (map fst q) -> (qfind q k = Some v <-> In (k, v) q)).
  { clear. intros q v ND. split; [apply qfind_in|]. induction q as [|[k' v'] t IH]; [intros []|].
    inversion ND; subst. cbn [qfind In]. rewrite beq_dec. intros [E|K].
    - inversion E; subst. destruct (list_eq_dec Z.eq_dec k k); congruence.
    - destruct (list_eq_dec Z.eq_dec k k') as [<-|N]; [|auto]. exfalso. apply H1. apply in_map_iff. now exists (k, v). }
  unfold qvals. destruct (qfind q k) as [v|] eqn:E.
  - apply U in E; [|assumption]. apply (Permutation_in _ P), U in E; [|assumption]. now rewrite E.
  - destruct (qfind es k) as [v|] eqn:E'; [|reflexivity]. apply U in E'; [|assumption].
    apply (Permutation_in _ (Permutation_sym P)), U in E'; [|assumption]. congruence.
Qed.

Lemma pairs_wf es : Forall wf_entry es -> Forall (fun p => wf_bytes (fst p) /\ wf_bytes (snd p)) (pairs es).
Proof.
  unfold pairs. induction 1 as [|[k vs] es [Hk Hv] Hes IH]; cbn [map concat]; [constructor|].
  apply Forall_app. split; [|assumption]. cbn [fst snd] in *. apply Forall_map.
  eapply Forall_impl; [|exact Hv]. intros v Wv. cbn. auto.
Qed.

Lemma query_round_trip q es : qwf q -> Forall wf_entry q -> Permutation q es ->
  exists text q', QToString es = Ok text /\ QFromString text [] = Some (Ok (None, q')) /\
    (forall k, qvals q' k = qvals q k) /\ (forall k, QHas q' k = QHas q k) /\ (forall k, QGet q' k = QGet q k).
Proof.
  intros [ND NE] W P.
  assert (We : Forall wf_entry es) by (rewrite Forall_forall in *; intros x Hx; apply W; eapply Permutation_in; [symmetry; exact P|exact Hx]).
  assert (NDe : NoDup (map fst es)) by (eapply Permutation_NoDup; [apply Permutation_map; eassumption|assumption]).
  exists (join (pairs es)), (fold_left add_pair (pairs es) []).
  assert (V : forall k, qvals (fold_left add_pair (pairs es) []) k = qvals q k).
  { intros k. rewrite fold_pairs by assumption. cbn. now apply qvals_perm. }
  split; [|split; [|split; [|split]]].
  - unfold QToString. rewrite qstring_spec by assumption. unfold more. now destruct (pairs es).
  - unfold QFromString. apply qparse_join; [now apply pairs_wf|lia].
  - exact V.
  - intros k. rewrite !qwf_has; [now rewrite V| |]; [split; assumption|].
    apply fold_wf. split; constructor.
  - intros k. unfold QGet. now rewrite V.
Qed.

Definition op_wf (o : qop) : Prop :=
  match o with OpAdd k v | OpSet k v => wf_bytes k /\ wf_bytes v | OpDel _ => True end.
Lemma run_entries h : Forall op_wf h -> Forall wf_entry (run h).
Proof.
  assert (P : forall q k v, Forall wf_entry q -> wf_bytes k -> Forall wf_bytes v -> Forall wf_entry (qput q k v)).
  { induction 1 as [|[k' v'] t H Ht IH]; cbn [qput]; intros Hk Hv; [repeat constructor; auto|].
    destruct (beq k k'); constructor; auto. split; auto. }
  assert (Q : forall q k, Forall wf_entry q -> Forall wf_bytes (qvals q k)).
  { intros q k H. unfold qvals. destruct (qfind q k) as [v|] eqn:E; [|constructor]. apply qfind_in in E.
    rewrite Forall_forall in H. destruct (H _ E) as [_ H']. exact H'. }
  induction 1 as [|o h Ho Hh IH]; cbn [run]; [constructor|].
  destruct o; cbn [apply_op op_wf] in *; unfold QAdd, QSet, QDel.
  - apply P; [assumption|tauto|]. apply Forall_app. split; [auto|]. constructor; [tauto|constructor].
  - apply P; [assumption|tauto|]. constructor; [tauto|constructor].
  - rewrite Forall_forall in *. intros x Hx. apply IH. eapply qdel_incl; eauto.
Qed.

(** Any text: parsing terminates without panic. *)
Lemma cut_shorter s c : forall a b, CutByte s c = (a, b) -> s <> [] -> (length b < length s)%nat.
Proof.
  induction s as [|x t IH]; cbn [CutByte]; intros a b E N; [congruence|].
  destruct (x =? c); [inversion E; subst; cbn; lia|].
  destruct (CutByte t c) as [a' b'] eqn:E'. inversion E; subst. cbn [length].
  destruct t as [|y t]; [cbn in E'; inversion E'; subst; cbn; lia|].
  specialize (IH a' b eq_refl ltac:(discriminate)). cbn [length] in *. lia.
Qed.
Lemma cut_wf s c a b : wf_bytes s -> CutByte s c = (a, b) -> wf_bytes a /\ wf_bytes b.
Proof.
  intros W. revert a b. induction W as [|x t Hx Ht IH]; cbn [CutByte]; intros a b E; [inversion E; subst; split; constructor|].
  destruct (x =? c); [inversion E; subst; split; [constructor|assumption]|].
  destruct (CutByte t c) as [a' b'] eqn:E'. inversion E; subst. destruct (IH a' b eq_refl). split; [constructor|]; assumption.
Qed.
Lemma qparse_total fuel : forall text q err, wf_bytes text -> (length text < fuel)%nat ->
  exists e q', qparse fuel text q err = Some (Ok (e, q')).
Proof.
  induction fuel as [|f IH]; intros text q err W Hl; [lia|]. cbn [qparse].
  destruct (beq text []) eqn:E; [eauto|].
  assert (N : text <> []) by (intros ->; discriminate).
  destruct (CutByte text 38) as [st rest] eqn:C. pose proof (cut_shorter _ _ _ _ C N). destruct (cut_wf _ _ _ _ W C) as [Ws Wr].
  destruct (beq st []); [apply IH; auto; lia|].
  destruct (has_byte st 58); [apply IH; auto; lia|].
  destruct (CutByte st 61) as [k v] eqn:C2. destruct (cut_wf _ _ _ _ Ws C2) as [Wk Wv].
  destruct (Unescape_total QueryComponent k Wk) as ([e|k'] & ->); [apply IH; auto; lia|].
  destruct (Unescape_total QueryComponent v Wv) as ([e|v'] & ->); apply IH; auto; lia.
Qed.
