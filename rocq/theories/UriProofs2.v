From Coq Require Import ZifyBool ZifyNat.
From Verif Require Import Go GoFacts UriModel UriSpec.
Ltac Zify.zify_post_hook ::= Z.div_mod_to_equations.

Lemma slice_mid (a b c : bytes) lo hi : lo = zlen a -> hi = zlen a + zlen b -> slice (a ++ b ++ c) lo hi = Ok b.
Proof.
  intros -> ->. pose proof (zlen_nonneg a). pose proof (zlen_nonneg b). pose proof (zlen_nonneg c).
  rewrite slice_ok by (rewrite ?zlen_app; lia). f_equal.
  replace (Z.to_nat (zlen a + zlen b - zlen a)) with (length b) by (unfold zlen; lia).
  replace (Z.to_nat (zlen a)) with (length a) by (unfold zlen; lia).
  rewrite skipn_app, skipn_all, Nat.sub_diag. cbn [skipn app].
  rewrite firstn_app, firstn_all, Nat.sub_diag. cbn [firstn]. now rewrite app_nil_r.
Qed.
Lemma slice_to_mid (b c : bytes) hi : hi = zlen b -> slice_to (b ++ c) hi = Ok b.
Proof. intros ->. unfold slice_to. now apply (slice_mid [] b c). Qed.

(** Characters the loop passes over. *)
Definition inert (o : bool) (st : pst) (c : Z) : Prop :=
  c <> 32 /\ (c = 58 -> auI st <> 0) /\ (c = 47 -> paI st <> 0 \/ (o = true /\ auI st = 0)) /\
  (c = 63 -> quI st <> 0) /\ (c = 35 -> nuI st <> 0).

Lemma loop_skip s o p : forall r i st, Forall (inert o st) p ->
  uri_loop s o (p ++ r) i st = uri_loop s o r (i + zlen p) st.
Proof.
  induction p as [|c p IH]; intros r i st H; [unfold zlen; cbn; now rewrite Z.add_0_r|].
  inversion H as [|? ? (H1 & H2 & H3 & H4 & H5) Hp]; subst. cbn [app uri_loop].
  rewrite zlen_cons. replace (i + (1 + zlen p)) with (i + 1 + zlen p) by lia. rewrite <- IH by assumption.
  destruct (Z.eqb_spec c 58) as [->|N58].
  { specialize (H2 eq_refl). now replace (auI st =? 0) with false by lia. }
  destruct (Z.eqb_spec c 47) as [->|N47].
  { destruct (H3 eq_refl) as [P|[-> P]].
    - replace (paI st =? 0) with false by lia. now rewrite !andb_false_r.
    - rewrite P. cbn [Z.eqb negb andb]. reflexivity. }
  destruct (Z.eqb_spec c 63) as [->|N63].
  { specialize (H4 eq_refl). now replace (quI st =? 0) with false by lia. }
  destruct (Z.eqb_spec c 35) as [->|N35].
  { specialize (H5 eq_refl). now replace (nuI st =? 0) with false by lia. }
  now replace (c =? 32) with false by lia.
Qed.

(** The part of UnmarshalFromString after the loop. *)
Definition finish (s : bytes) (l : Z * pst) : res (Z * uri) :=
  let '(e, st) := l in
  let! u1 := (if (quI st =? 0) && (nuI st =? 0)
              then let! p := slice s (paI st) e in Ok (SetPath (pu st) p) else Ok (pu st)) in
  let! u2 := (if negb (nuI st =? 0)
              then let! f := slice s (nuI st + 1) e in Ok (set_fragment u1 f) else Ok u1) in
  let! u3 := (if negb (quI st =? 0) && (nuI st =? 0)
              then let! q := slice s (quI st + 1) e in Ok (set_query u2 q) else Ok u2) in
  Ok (e, u3).

Definition opt_text (c : Z) (o : option bytes) : bytes := match o with Some t => c :: t | None => [] end.
Definition opt_or (o : option bytes) (d : bytes) : bytes := match o with Some t => t | None => d end.
(** Text that only the end-of-target space interrupts. *)
Definition calm (o : bool) (st : pst) (p : bytes) : Prop :=
  Forall (fun c => c <> 32 /\ (c = 58 -> auI st <> 0) /\ (c = 47 -> paI st <> 0 \/ (o = true /\ auI st = 0))) p.

Lemma calm_inert o st st' p : calm o st p -> auI st' = auI st -> paI st' = paI st ->
  (quI st' = 0 -> ~ In 63 p) -> (nuI st' = 0 -> ~ In 35 p) -> Forall (inert o st') p.
Proof.
  unfold calm, inert. rewrite !Forall_forall. intros H E1 E2 H3 H4 c Hc. rewrite E1, E2.
  destruct (H c Hc) as (A & B & C). repeat split; auto.
  - intros -> K. now apply (H3 K).
  - intros -> K. now apply (H4 K).
Qed.

Definition ends (t : bytes) : Prop := t = [] \/ exists r, t = 32 :: r.
Lemma loop_end s o t i st : ends t -> uri_loop s o t i st = Ok (i, st).
Proof. intros [->|(r & ->)]; reflexivity. Qed.

Lemma tail_parse s o pre pa' qu fr tl u au pi :
  s = pre ++ (47 :: pa') ++ opt_text 63 qu ++ opt_text 35 fr ++ tl -> ends tl -> pi = zlen pre ->
  let st := Pst au pi 0 0 u in
  calm o st pa' -> calm o st (opt_or qu []) -> calm o st (opt_or fr []) ->
  free "?#" pa' -> free "#" (opt_or qu []) -> (qu = None -> free "?" (opt_or fr [])) ->
  bind (uri_loop s o (pa' ++ opt_text 63 qu ++ opt_text 35 fr ++ tl) (zlen pre + 1) st) (finish s) =
    Ok (zlen pre + 1 + zlen pa' + zlen (opt_text 63 qu) + zlen (opt_text 35 fr),
        Uri (raw u) (scheme u) (authority u) (47 :: pa') (opt_or qu (query u)) (opt_or fr (fragment u))).
Proof.
  intros Es He -> st C1 C2 C3 F1 F2 F3.
  pose proof (zlen_nonneg pre) as Np. pose proof (zlen_nonneg pa') as Na.
  assert (F63 : ~ In 63 pa') by (apply F1; cbn; tauto). assert (F35 : ~ In 35 pa') by (apply F1; cbn; tauto).
  rewrite loop_skip by (eapply calm_inert; [exact C1|reflexivity|reflexivity|auto|auto]).
  set (i1 := zlen pre + 1 + zlen pa').
  assert (Path : forall x y, x ++ y = opt_text 63 qu ++ opt_text 35 fr ++ tl -> slice s (zlen pre) (i1) = Ok (47 :: pa')).
  { intros _ _ _. subst s. apply slice_mid; [reflexivity|]. rewrite zlen_cons. unfold i1. lia. }
  specialize (Path [] _ eq_refl).
  destruct qu as [qu|]; cbn [opt_text opt_or app] in *.
  - (* '?' *)
    cbn [uri_loop]. replace (63 =? 58) with false by reflexivity. replace (63 =? 47) with false by reflexivity.
    replace (63 =? 63) with true by reflexivity. unfold st at 1. cbn [quI]. replace (0 =? 0) with true by reflexivity.
    unfold st at 1. cbn [paI]. rewrite Path. cbn [bind].
    set (st2 := Pst (auI st) (paI st) i1 (nuI st) (SetPath (pu st) (47 :: pa'))).
    assert (G35 : ~ In 35 qu) by (apply F2; cbn; tauto).
    assert (K : forall d, free "#" d -> True) by auto. clear K.
    rewrite loop_skip by (eapply calm_inert; [exact C2|reflexivity|reflexivity|cbn [quI st2]; lia|auto]).
    set (i2 := i1 + 1 + zlen qu).
    pose proof (zlen_nonneg qu) as Nq.
    assert (Query : slice s (i1 + 1) i2 = Ok qu).
    { subst s. replace (pre ++ 47 :: pa' ++ 63 :: qu ++ opt_text 35 fr ++ tl) with
        ((pre ++ 47 :: pa' ++ [63]) ++ qu ++ opt_text 35 fr ++ tl) by (rewrite <- app_assoc; cbn [app]; rewrite <- app_assoc; reflexivity).
      apply slice_mid; rewrite !zlen_app, zlen_cons, zlen_app; change (zlen [63]) with 1; unfold i2, i1; lia. }
    destruct fr as [fr|]; cbn [opt_text opt_or app] in *.
    + cbn [uri_loop]. replace (35 =? 58) with false by reflexivity. replace (35 =? 47) with false by reflexivity.
      replace (35 =? 63) with false by reflexivity. replace (35 =? 35) with true by reflexivity.
      unfold st2 at 1. cbn [nuI]. unfold st at 1. cbn [nuI]. replace (0 =? 0) with true by reflexivity.
      unfold st2 at 1. cbn [quI]. replace (i1 =? 0) with false by lia.
      unfold st2 at 1. cbn [quI]. rewrite Query. cbn [bind].
      pose proof (zlen_nonneg fr) as Nf.
      rewrite loop_skip by (eapply calm_inert; [exact C3|reflexivity|reflexivity|cbn [quI st2]; lia|cbn [nuI]; lia]).
      rewrite loop_end by assumption. cbn [bind finish quI nuI paI pu st2 st].
      replace (i1 =? 0) with false by lia. replace (i2 =? 0) with false by lia. cbn [andb negb bind].
      replace (slice s (i2 + 1) (i2 + 1 + zlen fr)) with (Ok fr).
      2:{ symmetry. subst s. replace (pre ++ 47 :: pa' ++ 63 :: qu ++ 35 :: fr ++ tl) with
        ((pre ++ 47 :: pa' ++ 63 :: qu ++ [35]) ++ fr ++ tl)
          by (repeat (rewrite <- app_assoc; cbn [app]); reflexivity).
        apply slice_mid; rewrite !zlen_app, zlen_cons, zlen_app, zlen_cons, zlen_app; change (zlen [35]) with 1; unfold i2, i1; lia. }
      cbn [bind]. f_equal. f_equal. rewrite !zlen_cons. unfold i2, i1. lia.
    + rewrite loop_end by assumption. cbn [bind finish quI nuI paI pu st2 st].
      replace (i1 =? 0) with false by lia. cbn [andb negb bind Z.eqb].
      rewrite Query. cbn [bind]. f_equal. f_equal. rewrite !zlen_cons. change (zlen (@nil Z)) with 0. unfold i2, i1. lia.
  - destruct fr as [fr|]; cbn [opt_text opt_or app] in *.
    + cbn [uri_loop]. replace (35 =? 58) with false by reflexivity. replace (35 =? 47) with false by reflexivity.
      replace (35 =? 63) with false by reflexivity. replace (35 =? 35) with true by reflexivity.
      unfold st at 1. cbn [nuI]. replace (0 =? 0) with true by reflexivity.
      unfold st at 1. cbn [quI]. replace (0 =? 0) with true by reflexivity.
      unfold st at 1. cbn [paI]. rewrite Path. cbn [bind].
      pose proof (zlen_nonneg fr) as Nf.
      assert (G63 : ~ In 63 fr) by (apply (F3 eq_refl); cbn; tauto).
      rewrite loop_skip by (eapply calm_inert; [exact C3|reflexivity|reflexivity|auto|cbn [nuI]; unfold i1; lia]).
      rewrite loop_end by assumption. cbn [bind finish quI nuI paI pu st].
      replace (i1 =? 0) with false by lia. cbn [andb negb bind Z.eqb].
      replace (slice s (i1 + 1) (i1 + 1 + zlen fr)) with (Ok fr).
      2:{ symmetry. subst s. replace (pre ++ 47 :: pa' ++ 35 :: fr ++ tl) with
        ((pre ++ 47 :: pa' ++ [35]) ++ fr ++ tl)
          by (repeat (rewrite <- app_assoc; cbn [app]); reflexivity).
        apply slice_mid; rewrite !zlen_app, zlen_cons, zlen_app; change (zlen [35]) with 1; unfold i1; lia. }
      cbn [bind]. f_equal. f_equal. rewrite !zlen_cons. change (zlen (@nil Z)) with 0. unfold i1. lia.
    + rewrite loop_end by assumption. cbn [bind finish quI nuI paI pu st].
      cbn [andb negb bind Z.eqb]. rewrite Path. cbn [bind]. f_equal. f_equal. change (zlen (@nil Z)) with 0. unfold i1. lia.
Qed.

Lemma free_notin d p c : free d p -> In c (str d) -> ~ In c p.
Proof. intros F H. exact (F c H). Qed.
Lemma free_not d p x : free d p -> In x p -> ~ In x (str d).
Proof. intros F H K. exact (F x K H). Qed.

Definition full (u : uri) (s : bytes) (r : res (Z * uri)) : res (Z * uri) :=
  let! r := r in let '(e, u) := r in
  let! t := slice_to s e in Ok (e, Uri (Some t) (scheme u) (authority u) (path u) (query u) (fragment u)).

Lemma unmarshal_unfold u s c t : s = c :: t -> c <> 42 ->
  UnmarshalFromString u s = full u s (bind (uri_loop s (c =? 47) s 0 (Pst 0 0 0 0 u)) (finish s)).
Proof.
  intros -> N. unfold UnmarshalFromString. change (idx (c :: t) 0) with (Ok c). cbn [bind].
  replace (c =? 42) with false by lia. reflexivity.
Qed.

Definition text_after (pa' : bytes) (qu fr : option bytes) (tl : bytes) : bytes :=
  (47 :: pa') ++ opt_text 63 qu ++ opt_text 35 fr ++ tl.
(** Constraints on path, query and fragment text. *)
Definition tail_ok (pa' : bytes) (qu fr : option bytes) : Prop :=
  free "?# " pa' /\ free "# " (opt_or qu []) /\ free " " (opt_or fr []) /\ (qu = None -> free "?" (opt_or fr [])).

Lemma free_weaken d d' p : (forall c, In c (str d') -> In c (str d)) -> free d p -> free d' p.
Proof. intros H F c Hc. apply F. auto. Qed.

Lemma calm_loose o st p : auI st <> 0 -> paI st <> 0 -> free " " p -> calm o st p.
Proof.
  intros H1 H2 F. apply Forall_forall. intros c Hc. pose proof (free_not _ _ _ F Hc) as N. cbn in N.
  repeat split; auto; lia.
Qed.
Lemma calm_strict o st p : (paI st <> 0 \/ (o = true /\ auI st = 0)) -> free " :" p -> calm o st p.
Proof.
  intros H F. apply Forall_forall. intros c Hc. pose proof (free_not _ _ _ F Hc) as N. cbn in N.
  repeat split; auto; lia.
Qed.

Lemma full_ok u s e u' : 0 <= e <= zlen s ->
  full u s (Ok (e, u')) = Ok (e, Uri (Some (firstn (Z.to_nat e) s)) (scheme u') (authority u') (path u') (query u') (fragment u')).
Proof. intros H. unfold full. cbn [bind]. rewrite slice_to_ok by assumption. reflexivity. Qed.

Definition consumed (pre pa' : bytes) (qu fr : option bytes) : bytes :=
  pre ++ (47 :: pa') ++ opt_text 63 qu ++ opt_text 35 fr.
Lemma consumed_len pre pa' qu fr :
  zlen (consumed pre pa' qu fr) = zlen pre + 1 + zlen pa' + zlen (opt_text 63 qu) + zlen (opt_text 35 fr).
Proof. unfold consumed. rewrite !zlen_app, zlen_cons. lia. Qed.
Lemma consumed_text pre pa' qu fr tl : pre ++ text_after pa' qu fr tl = consumed pre pa' qu fr ++ tl.
Proof. unfold consumed, text_after. rewrite <- !app_assoc. reflexivity. Qed.

Lemma finish_full u s pre pa' qu fr tl u' :
  s = pre ++ text_after pa' qu fr tl ->
  full u s (Ok (zlen pre + 1 + zlen pa' + zlen (opt_text 63 qu) + zlen (opt_text 35 fr), u')) =
  Ok (zlen (consumed pre pa' qu fr),
      Uri (Some (consumed pre pa' qu fr)) (scheme u') (authority u') (path u') (query u') (fragment u')).
Proof.
  intros Es. rewrite <- consumed_len. rewrite full_ok.
  - rewrite Es, consumed_text. unfold zlen at 2. rewrite Nat2Z.id, firstn_app, firstn_all, Nat.sub_diag.
    cbn [firstn]. now rewrite app_nil_r.
  - rewrite Es, consumed_text, zlen_app. pose proof (zlen_nonneg (consumed pre pa' qu fr)). pose proof (zlen_nonneg tl). lia.
Qed.

Ltac wk := match goal with H : free _ ?p |- free _ ?p => eapply free_weaken; [|exact H]; cbn; tauto end.

(** Absolute form. *)
Lemma parse_absolute u sc au pa' qu fr tl :
  sc <> [] -> free ":/?# *" sc -> free "/?# " au -> tail_ok pa' qu fr -> ends tl ->
  UnmarshalFromString u ((sc ++ str "://" ++ au) ++ text_after pa' qu fr tl) =
    Ok (zlen (consumed (sc ++ str "://" ++ au) pa' qu fr),
        Uri (Some (consumed (sc ++ str "://" ++ au) pa' qu fr)) sc au (47 :: pa') (opt_or qu (query u)) (opt_or fr (fragment u))).
Proof.
  intros Hne Fs Fa (F1 & F2 & F3 & F4) He. set (pre := sc ++ str "://" ++ au). set (s := pre ++ text_after pa' qu fr tl).
  assert (exists c0 sc', sc = c0 :: sc') as (c0 & sc' & Esc) by (destruct sc; [congruence|eauto]).
  assert (H0 : ~ In c0 (str ":/?# *")) by (apply (free_not _ sc); [assumption|rewrite Esc; now left]). cbn in H0.
  rewrite (unmarshal_unfold u s c0 (skipn 1 s)).
  2:{ unfold s, pre. rewrite Esc. reflexivity. }
  2:{ lia. }
  replace (c0 =? 47) with false by lia.
  pose proof (zlen_nonneg sc) as Ns. pose proof (zlen_nonneg au) as Na.
  assert (Ls : 1 <= zlen sc) by (rewrite Esc, zlen_cons; pose proof (zlen_nonneg sc'); lia).
  replace (uri_loop s false s 0 (Pst 0 0 0 0 u)) with
    (uri_loop s false (sc ++ 58 :: 47 :: 47 :: au ++ text_after pa' qu fr tl) 0 (Pst 0 0 0 0 u)).
  2:{ f_equal. unfold s, pre. change (str "://") with [58; 47; 47]. rewrite <- !app_assoc. reflexivity. }
  rewrite loop_skip.
  2:{ apply Forall_forall. intros c Hc. pose proof (free_not _ _ _ Fs Hc) as N. cbn in N.
      unfold inert. cbn [auI paI quI nuI]. repeat split; intros; lia. }
  cbn [uri_loop]. replace (58 =? 58) with true by reflexivity. cbn [auI]. replace (0 =? 0) with true by reflexivity.
  rewrite ?Z.add_0_l.
  replace (slice_to s (zlen sc)) with (Ok sc).
  2:{ symmetry. unfold s, pre. rewrite <- !app_assoc. now apply slice_to_mid. }
  cbn [bind paI quI nuI pu].
  rewrite loop_skip.
  2:{ apply Forall_forall. intros c Hc. pose proof (free_not _ _ _ Fa Hc) as N. cbn in N.
      unfold inert. cbn [auI paI quI nuI]. repeat split; intros; lia. }
  unfold text_after at 1. cbn [app uri_loop]. replace (47 =? 58) with false by reflexivity. replace (47 =? 47) with true by reflexivity.
  cbn [auI paI]. replace (zlen sc + 3 =? 0) with false by lia. cbn [Z.eqb negb andb].
  assert (Lp : zlen pre = zlen sc + 3 + zlen au).
  { unfold pre. rewrite !zlen_app. change (zlen (str "://")) with 3. lia. }
  replace (slice s (zlen sc + 3) (zlen sc + 3 + zlen au)) with (Ok au).
  2:{ symmetry. unfold s, pre. replace ((sc ++ str "://" ++ au) ++ text_after pa' qu fr tl) with ((sc ++ str "://") ++ au ++ text_after pa' qu fr tl)
        by (rewrite <- !app_assoc; reflexivity).
      apply slice_mid; rewrite zlen_app; change (zlen (str "://")) with 3; lia. }
  cbn [bind quI nuI pu]. rewrite <- Lp.
  match goal with |- context [uri_loop s false _ _ (Pst _ _ _ _ ?uu)] => set (u1 := uu) end.
  rewrite (tail_parse s false pre pa' qu fr tl u1 (zlen sc + 3) (zlen pre)); try reflexivity; auto;
    try (apply calm_loose; cbn [auI paI]; [lia|lia|]); try wk.
  rewrite (finish_full u s pre pa' qu fr tl) by reflexivity.
  unfold u1. reflexivity.
Qed.

(** Origin form, without colons. *)
Lemma parse_origin u pa' qu fr tl :
  tail_ok pa' qu fr -> free ":" pa' -> free ":" (opt_or qu []) -> free ":" (opt_or fr []) -> ends tl ->
  UnmarshalFromString u (text_after pa' qu fr tl) =
    Ok (zlen (consumed [] pa' qu fr),
        Uri (Some (consumed [] pa' qu fr)) (scheme u) (authority u) (47 :: pa') (opt_or qu (query u)) (opt_or fr (fragment u))).
Proof.
  intros (F1 & F2 & F3 & F4) C1 C2 C3 He. set (s := text_after pa' qu fr tl).
  rewrite (unmarshal_unfold u s 47 (skipn 1 s)); [|reflexivity|lia].
  replace (47 =? 47) with true by reflexivity. unfold s at 3. unfold text_after at 1. cbn [app uri_loop].
  replace (47 =? 58) with false by reflexivity. replace (47 =? 47) with true by reflexivity.
  cbn [auI paI Z.eqb negb andb].
  assert (M : forall p, free " " p -> free ":" p -> free " :" p).
  { intros p A B c Hc. cbn in Hc. destruct Hc as [<-|[<-|[]]]; [apply A|apply B]; cbn; tauto. }
  change (0 + 1) with (zlen (@nil Z) + 1).
  rewrite (tail_parse s true [] pa' qu fr tl u 0 0); try reflexivity; auto;
    try (apply calm_strict; [right; cbn [auI]; tauto|apply M; [|assumption]]);
    try wk.
  rewrite (finish_full u s [] pa' qu fr tl) by reflexivity. reflexivity.
Qed.

(** authority/path without a scheme, without colons. *)
Lemma parse_authority u au pa' qu fr tl :
  au <> [] -> free ":/?# *" au -> tail_ok pa' qu fr ->
  free ":" pa' -> free ":" (opt_or qu []) -> free ":" (opt_or fr []) -> ends tl ->
  UnmarshalFromString u (au ++ text_after pa' qu fr tl) =
    Ok (zlen (consumed au pa' qu fr),
        Uri (Some (consumed au pa' qu fr)) (scheme u) au (47 :: pa') (opt_or qu (query u)) (opt_or fr (fragment u))).
Proof.
  intros Hne Fa (F1 & F2 & F3 & F4) C1 C2 C3 He. set (s := au ++ text_after pa' qu fr tl).
  assert (exists c0 au', au = c0 :: au') as (c0 & au' & Eau) by (destruct au; [congruence|eauto]).
  assert (H0 : ~ In c0 (str ":/?# *")) by (apply (free_not _ au); [assumption|rewrite Eau; now left]). cbn in H0.
  rewrite (unmarshal_unfold u s c0 (skipn 1 s)); [|unfold s; rewrite Eau; reflexivity|lia].
  replace (c0 =? 47) with false by lia.
  assert (La : 1 <= zlen au) by (rewrite Eau, zlen_cons; pose proof (zlen_nonneg au'); lia).
  unfold s at 3. rewrite loop_skip.
  2:{ apply Forall_forall. intros c Hc. pose proof (free_not _ _ _ Fa Hc) as N. cbn in N.
      unfold inert. cbn [auI paI quI nuI]. repeat split; intros; lia. }
  rewrite Z.add_0_l. unfold text_after at 1. cbn [app uri_loop].
  replace (47 =? 58) with false by reflexivity. replace (47 =? 47) with true by reflexivity.
  cbn [auI paI Z.eqb negb andb]. replace (zlen au =? 0) with false by lia. cbn [negb].
  replace (slice_to s (zlen au)) with (Ok au) by (symmetry; unfold s; now apply slice_to_mid).
  cbn [bind quI nuI pu].
  assert (M : forall p, free " " p -> free ":" p -> free " :" p).
  { intros p A B c Hc. cbn in Hc. destruct Hc as [<-|[<-|[]]]; [apply A|apply B]; cbn; tauto. }
  match goal with |- context [uri_loop s false _ _ (Pst _ _ _ _ ?uu)] => set (u1 := uu) end.
  rewrite (tail_parse s false au pa' qu fr tl u1 0 (zlen au)); try reflexivity; auto;
    try (apply calm_strict; [left; cbn [paI]; lia|apply M; [|assumption]]);
    try wk.
  rewrite (finish_full u s au pa' qu fr tl) by reflexivity. reflexivity.
Qed.
