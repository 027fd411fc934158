(** Proofs about the web asset tools. *)
From Coq Require Import String ZifyBool ZifyNat Permutation.
From Verif Require Import Go GoFacts UriModel UriProofs StrconvModel StringsModel StringsProofs IntSpec IntProofs JsonProofs HttpTheorems WwwModel WwwSpec.
Import ListNotations.
Local Open Scope Z_scope.
Local Open Scope list_scope.

Lemma HasPrefix_iff p : forall s, HasPrefix s p = true <-> exists r, s = p ++ r.
Proof.
  induction p as [|a p IH]; intros s.
  { replace (HasPrefix s []) with true by (destruct s; reflexivity). split; [intros _; exists s; reflexivity|reflexivity]. }
  destruct s as [|b s]; cbn [HasPrefix]. { split; [discriminate|]. intros (r & E). discriminate. }
  rewrite andb_true_iff, IH. split.
  - intros (E & r & ->). apply Z.eqb_eq in E. subst. exists r. reflexivity.
  - intros (r & E). cbn [app] in E. injection E as -> ->. split; [apply Z.eqb_refl|eauto].
Qed.
Lemma HasPrefix_app p r : HasPrefix (p ++ r) p = true.
Proof. apply HasPrefix_iff. eauto. Qed.

(** Position of the first occurrence *)
Lemma Index_none pat s : ~ occurs pat s -> Index s pat = -1.
Proof.
  induction s as [|c s IH]; intros N; cbn [Index].
  - destruct (HasPrefix [] pat) eqn:E; [|reflexivity]. apply HasPrefix_iff in E. destruct E as (r & E). destruct N. exists [], r. exact E.
  - destruct (HasPrefix (c :: s) pat) eqn:E. { apply HasPrefix_iff in E. destruct E as (r & E). destruct N. exists [], r. exact E. }
    rewrite IH; [reflexivity|]. intros (a & r & E2). apply N. exists (c :: a), r. cbn [app]. now rewrite E2.
Qed.
Lemma Index_cases pat s : (~ occurs pat s /\ Index s pat = -1) \/
  exists a r, s = a ++ pat ++ r /\ Index s pat = zlen a.
Proof.
  induction s as [|c s IH]; cbn [Index].
  - destruct (HasPrefix [] pat) eqn:E.
    + right. apply HasPrefix_iff in E. destruct E as (r & E). exists [], r. split; [exact E|reflexivity].
    + left. split; [|reflexivity]. intros (a & r & E2). symmetry in E2. apply app_eq_nil in E2. destruct E2 as (-> & E2).
      apply app_eq_nil in E2. destruct E2 as (-> & ->). discriminate.
  - destruct (HasPrefix (c :: s) pat) eqn:E.
    + right. apply HasPrefix_iff in E. destruct E as (r & E). exists [], r. split; [exact E|reflexivity].
    + destruct IH as [(N & ->)|(a & r & -> & E2)].
      * left. split; [|reflexivity]. intros (a & r & E2). destruct a as [|x a].
        -- cbn [app] in E2. rewrite E2, HasPrefix_app in E. discriminate.
        -- cbn [app] in E2. injection E2 as -> E2. apply N. exists a, r. exact E2.
      * right. exists (c :: a), r. split; [reflexivity|]. rewrite E2. rewrite zlen_cons. pose proof (zlen_nonneg a).
        replace (zlen a =? -1) with false by lia. lia.
Qed.
(** A pattern whose first byte occurs only there: before its first occurrence nothing overlaps *)
Lemma Index_first p0 p a r : ~ In p0 p -> ~ occurs (p0 :: p) a -> Index (a ++ (p0 :: p) ++ r) (p0 :: p) = zlen a.
Proof.
  intros N. induction a as [|x a IH]; intros F.
  { cbn [app]. destruct r; cbn [Index app]; change (p0 :: p ++ ?r) with ((p0 :: p) ++ r); now rewrite HasPrefix_app. }
  change ((x :: a) ++ (p0 :: p) ++ r) with (x :: a ++ (p0 :: p) ++ r). cbn [Index].
  destruct (HasPrefix (x :: a ++ (p0 :: p) ++ r) (p0 :: p)) eqn:E.
  - exfalso. apply HasPrefix_iff in E. destruct E as (r2 & E). cbn [app] in E. injection E as -> E.
    destruct (le_lt_dec (length p) (length a)) as [L|L].
    + apply F. exists [], (skipn (length p) a). cbn [app]. f_equal.
      assert (firstn (length p) (a ++ p0 :: p ++ r) = p) by (rewrite E, firstn_app, firstn_all, Nat.sub_diag; cbn [firstn]; apply app_nil_r).
      rewrite firstn_app in H. replace (length p - length a)%nat with 0%nat in H by lia. cbn [firstn] in H. rewrite app_nil_r in H.
      rewrite <- H at 1. symmetry. apply firstn_skipn.
    + apply N. assert (nth_error (a ++ p0 :: p ++ r) (length a) = Some p0) by (rewrite nth_error_app2, Nat.sub_diag by lia; reflexivity).
      rewrite E in H. rewrite nth_error_app1 in H by lia. now apply nth_error_In in H.
  - rewrite IH. + rewrite zlen_cons. pose proof (zlen_nonneg a). replace (zlen a =? -1) with false by lia. lia.
    + intros (u & v & E2). apply F. exists (x :: u), v. cbn [app]. now rewrite E2.
Qed.
Lemma occurs_break pat a c b : pat <> [] -> ~ In c pat -> occurs pat (a ++ c :: b) -> occurs pat a \/ occurs pat b.
Proof.
  intros NE N (u & v & E).
  destruct (le_lt_dec (length u + length pat) (length a)) as [L|L].
  - left. exists u, (skipn (length u + length pat) a).
    assert (firstn (length u + length pat) a = u ++ pat).
    { assert (X : firstn (length u + length pat) (a ++ c :: b) = u ++ pat).
      { rewrite E. rewrite app_assoc, firstn_app. replace (length u + length pat - length (u ++ pat))%nat with 0%nat by (rewrite app_length; lia).
        cbn [firstn]. rewrite app_nil_r. apply firstn_all2. rewrite app_length. lia. }
      rewrite firstn_app in X. replace (length u + length pat - length a)%nat with 0%nat in X by lia. cbn [firstn] in X. now rewrite app_nil_r in X. }
    rewrite app_assoc, <- H. symmetry. apply firstn_skipn.
  - destruct (le_lt_dec (length u) (length a)) as [M|M].
    + exfalso. apply N. assert (X : nth_error (a ++ c :: b) (length a) = Some c) by (rewrite nth_error_app2, Nat.sub_diag by lia; reflexivity).
      rewrite E in X. rewrite nth_error_app2 in X by lia. rewrite nth_error_app1 in X by lia. now apply nth_error_In in X.
    + right. exists (skipn (S (length a)) u), v.
      assert (X : skipn (S (length a)) (a ++ c :: b) = b).
      { rewrite skipn_app. rewrite skipn_all2 by lia. replace (S (length a) - length a)%nat with 1%nat by lia. reflexivity. }
      rewrite E in X. rewrite skipn_app in X. replace (S (length a) - length u)%nat with 0%nat in X by lia. rewrite skipn_O in X. exact (eq_sym X).
Qed.

Lemma firstn_len_app {A} (a b : list A) : firstn (length a) (a ++ b) = a.
Proof. rewrite firstn_app, firstn_all, Nat.sub_diag. cbn [firstn]. apply app_nil_r. Qed.
Lemma skipn_len_app {A} (a b : list A) : skipn (length a) (a ++ b) = b.
Proof. rewrite skipn_app, skipn_all, Nat.sub_diag. reflexivity. Qed.

(** ** Localisation *)
Section Loop.
Variables (p0 : Z) (p : bytes) (off : Z) (texts : list bytes).
Let pat := p0 :: p.
Hypothesis N0 : ~ In p0 p.
Hypothesis N93 : ~ In 93 pat.
Hypothesis OFF : off = zlen pat.

Definition slot (w : bytes) : res bytes :=
  let '(n, bad) := ParseUint10 8 w in if bad then Ok [] else idx texts n.
Lemma loop_none f s mix : ~ occurs pat s -> replace_loop (S f) pat off s texts mix = Some (Ok (mix ++ s)).
Proof. intros F. cbn [replace_loop]. now rewrite Index_none. Qed.
Lemma loop_step f pre w rest mix : ~ occurs pat pre -> ~ In 93 w ->
  replace_loop (S f) pat off (pre ++ pat ++ w ++ 93 :: rest) texts mix =
  match slot w with Ok x => replace_loop f pat off rest texts (mix ++ pre ++ x) | Panic => Some Panic end.
Proof.
  intros F W. cbn [replace_loop]. rewrite (Index_first p0 p pre _ N0 F : Index (pre ++ pat ++ _) pat = zlen pre).
  pose proof (zlen_nonneg pre) as Zp. replace (zlen pre <? 0) with false by lia.
  replace (Z.to_nat (zlen pre)) with (length pre) by (unfold zlen; lia).
  rewrite firstn_len_app, skipn_len_app.
  rewrite (app_assoc pat w). rewrite index_at by (rewrite in_app_iff; tauto). rewrite zlen_app.
  pose proof (zlen_nonneg w). pose proof (zlen_nonneg pat). pose proof (zlen_nonneg rest).
  rewrite slice_ok; [|lia|rewrite !zlen_app, zlen_cons; lia].
  replace (firstn _ (skipn _ _)) with w.
  2: { rewrite OFF. replace (Z.to_nat (zlen pat)) with (length pat) by (unfold zlen; lia).
       rewrite <- app_assoc. rewrite skipn_len_app.
       replace (Z.to_nat (zlen pat + zlen w - zlen pat)) with (length w) by (unfold zlen; lia).
       now rewrite firstn_len_app. }
  unfold slot. destruct (ParseUint10 8 w) as (n, bad).
  assert (R : slice_from ((pat ++ w) ++ 93 :: rest) (zlen pat + zlen w + 1) = Ok rest).
  { change (93 :: rest) with ([93] ++ rest). rewrite app_assoc. rewrite slice_from_ok by (rewrite !zlen_app; change (zlen [93]) with 1; lia).
    replace (Z.to_nat (zlen pat + zlen w + 1)) with (length ((pat ++ w) ++ [93])) by (rewrite !app_length; unfold zlen; cbn [length]; lia).
    rewrite skipn_app, skipn_all, Nat.sub_diag. reflexivity. }
  destruct bad.
  - rewrite R. now rewrite app_nil_r.
  - destruct (idx texts n) as [t|]; [|reflexivity]. rewrite R. now rewrite <- app_assoc.
Qed.
Lemma loop_open f pre rest mix : ~ occurs pat pre -> ~ In 93 rest ->
  replace_loop (S f) pat off (pre ++ pat ++ rest) texts mix = Some Panic.
Proof.
  intros F W. cbn [replace_loop]. rewrite (Index_first p0 p pre _ N0 F : Index (pre ++ pat ++ _) pat = zlen pre).
  pose proof (zlen_nonneg pre) as Zp. replace (zlen pre <? 0) with false by lia.
  replace (Z.to_nat (zlen pre)) with (length pre) by (unfold zlen; lia).
  rewrite skipn_len_app. rewrite index_none by (rewrite in_app_iff; tauto).
  rewrite slice_panic; [reflexivity|]. pose proof (zlen_nonneg pat). lia.
Qed.
Definition tpl (t0 : bytes) (l : list (bytes * bytes)) : bytes :=
  t0 ++ flat_map (fun x => pat ++ fst x ++ [93] ++ snd x) l.
Lemma loop_tpl : forall l f t0 mix (g : bytes -> bytes), (length l < f)%nat -> ~ occurs pat t0 ->
  Forall (fun x => ~ In 93 (fst x) /\ ~ occurs pat (snd x) /\ slot (fst x) = Ok (g (fst x))) l ->
  replace_loop f pat off (tpl t0 l) texts mix = Some (Ok (mix ++ t0 ++ flat_map (fun x => g (fst x) ++ snd x) l)).
Proof.
  induction l as [|(w, t) l IH]; intros f t0 mix g Hf F A; (destruct f as [|f]; [cbn [length] in Hf; lia|]).
  - unfold tpl. cbn [flat_map]. rewrite !app_nil_r. now apply loop_none.
  - unfold tpl. cbn [flat_map fst snd]. pose proof (Forall_inv A) as (A1 & A2 & A3). pose proof (Forall_inv_tail A) as A4. cbn [fst snd] in A1, A2, A3.
    replace (t0 ++ (pat ++ w ++ [93] ++ t) ++ flat_map (fun x => pat ++ fst x ++ [93] ++ snd x) l)
      with (t0 ++ pat ++ w ++ 93 :: tpl t l) by (unfold tpl; rewrite <- !app_assoc; reflexivity).
    rewrite loop_step by auto. rewrite A3. rewrite (IH f t (mix ++ t0 ++ g w) g) by (cbn [length] in Hf; auto; lia).
    do 2 f_equal. now rewrite <- !app_assoc.
Qed.
End Loop.

Lemma fmt_no n c : 0 <= n -> (c < 48 \/ 57 < c) -> ~ In c (FormatUint10 n).
Proof.
  intros H C I. destruct (format_spec n H) as (D & _). rewrite Forall_forall in D. apply D in I. unfold is_digit in I. lia.
Qed.
Lemma slot_number texts n : 0 <= n < 256 -> n < zlen texts -> slot texts (FormatUint10 n) = Ok (nth (Z.to_nat n) texts []).
Proof.
  intros H L. unfold slot. rewrite ParseUint10_format by (change (2 ^ 8) with 256; lia).
  unfold idx. replace (n <? 0) with false by lia. rewrite (nth_error_nth' texts []) by (unfold zlen in L; lia). reflexivity.
Qed.
Lemma slot_missing texts n : 0 <= n < 256 -> zlen texts <= n -> slot texts (FormatUint10 n) = Panic.
Proof.
  intros H L. unfold slot. rewrite ParseUint10_format by (change (2 ^ 8) with 256; lia).
  unfold idx. replace (n <? 0) with false by lia. replace (nth_error texts (Z.to_nat n)) with (@None bytes); [reflexivity|].
  symmetry. apply nth_error_None. unfold zlen in L. lia.
Qed.
Lemma slot_bad texts w : ~ octet_number w -> slot texts w = Ok [].
Proof.
  intros H. unfold slot, ParseUint10. destruct (parse_digits w) as [n|] eqn:E; [|reflexivity].
  change (2 ^ 8) with 256. replace (n <? 256) with false; [reflexivity|].
  symmetry. apply Z.ltb_ge. destruct (Z_le_gt_dec n 255) as [L|L]; [|lia]. destruct H. exists n. auto.
Qed.

(** ** Imports *)
Definition imp := str "import "%string.
Lemma imp_eq : imp = 105 :: [109; 112; 111; 114; 116; 32]. Proof. reflexivity. Qed.
Lemma imp_first a r : ~ occurs imp a -> Index (a ++ imp ++ r) imp = zlen a.
Proof. intros F. rewrite imp_eq in *. apply Index_first; [cbn [In]; lia|exact F]. Qed.
Lemma overwrite_cut (a m rest : bytes) : firstn (length a + length rest) (overwrite (a ++ m ++ rest) (length a) rest) = a ++ rest.
Proof.
  rewrite overwrite_fits by (rewrite !app_length; lia). rewrite firstn_len_app.
  replace (length a + length rest)%nat with (length (a ++ rest)) at 1 by apply app_length.
  rewrite app_assoc. apply firstn_len_app.
Qed.
Lemma extract_step f a b0 w pth rest ps : ~ occurs imp (a ++ [b0]) -> ~ In 39 w -> ~ In 39 pth ->
  extract (S f) (a ++ b0 :: imp ++ w ++ 39 :: pth ++ 39 :: rest) ps = extract f (a ++ rest) (ps ++ [pth]).
Proof.
  intros F W P. cbn [extract]. set (d := a ++ b0 :: imp ++ w ++ 39 :: pth ++ 39 :: rest). fold imp.
  assert (D1 : d = (a ++ [b0]) ++ imp ++ w ++ 39 :: pth ++ 39 :: rest) by (unfold d; now rewrite <- app_assoc).
  assert (K : Index d imp = zlen a + 1) by (rewrite D1, imp_first by auto; rewrite zlen_app; reflexivity).
  rewrite K. pose proof (zlen_nonneg a). pose proof (zlen_nonneg w). pose proof (zlen_nonneg pth). pose proof (zlen_nonneg rest).
  replace (zlen a + 1 =? -1) with false by lia.
  assert (LD : zlen d = zlen a + 10 + zlen w + zlen pth + zlen rest).
  { unfold d. rewrite zlen_app, zlen_cons, !zlen_app, zlen_cons, zlen_app, zlen_cons. change (zlen imp) with 7. lia. }
  assert (Q1 : index_byte (skipn (Z.to_nat (zlen a + 1)) d) 39 = 7 + zlen w).
  { rewrite D1. replace (Z.to_nat (zlen a + 1)) with (length (a ++ [b0])) by (rewrite app_length; unfold zlen; cbn [length]; lia).
    rewrite skipn_len_app. rewrite app_assoc. rewrite index_at; [rewrite zlen_app; reflexivity|].
    rewrite in_app_iff. intros [I|I]; [|contradiction]. cbn in I. lia. }
  rewrite Q1. set (st := zlen a + 1 + (7 + zlen w) + 1).
  assert (D2 : d = ((a ++ [b0]) ++ imp ++ w ++ [39]) ++ pth ++ 39 :: rest) by (rewrite D1, <- !app_assoc; reflexivity).
  assert (L2 : zlen ((a ++ [b0]) ++ imp ++ w ++ [39]) = st) by (rewrite !zlen_app; change (zlen imp) with 7; change (zlen [b0]) with 1; change (zlen [39]) with 1; unfold st; lia).
  assert (S2 : skipn (Z.to_nat st) d = pth ++ 39 :: rest).
  { rewrite D2, <- L2. replace (Z.to_nat (zlen _)) with (length ((a ++ [b0]) ++ imp ++ w ++ [39])) by (unfold zlen; lia). apply skipn_len_app. }
  rewrite slice_from_ok by (unfold st; lia). cbn [bind]. rewrite S2.
  rewrite (index_at pth 39 rest) by auto.
  rewrite slice_ok by (unfold st; lia). cbn [bind].
  rewrite S2. replace (Z.to_nat (st + zlen pth - st)) with (length pth) by (unfold zlen; lia). rewrite firstn_len_app.
  rewrite slice_from_ok by (unfold st; lia). cbn [bind].
  assert (D3 : d = a ++ ([b0] ++ imp ++ w ++ [39] ++ pth ++ [39]) ++ rest) by (rewrite D1, <- !app_assoc; reflexivity).
  assert (S3 : skipn (Z.to_nat (st + zlen pth + 1)) d = rest).
  { rewrite D3. rewrite app_assoc.
    replace (Z.to_nat (st + zlen pth + 1)) with (length (a ++ [b0] ++ imp ++ w ++ [39] ++ pth ++ [39])); [apply skipn_len_app|].
    rewrite !app_length. change (length imp) with 7%nat. cbn [length]. unfold st, zlen. lia. }
  rewrite S3. replace (zlen a + 1 - 1) with (zlen a) by lia.
  unfold copy_at. replace ((0 <=? zlen a) && (zlen a <=? zlen d)) with true by lia. cbn [bind].
  replace (Z.to_nat (zlen a)) with (length a) by (unfold zlen; lia).
  assert (L4 : zlen (overwrite d (length a) rest) = zlen d) by (unfold zlen; rewrite overwrite_length; [reflexivity|unfold zlen in LD; lia]).
  unfold slice_to. rewrite slice_ok; [|unfold st; lia|rewrite L4; unfold st; lia]. cbn [bind skipn Z.to_nat].
  replace (Z.to_nat (zlen d - (st + zlen pth - (zlen a + 1)) - 2 - 0)) with (length a + length rest)%nat by (rewrite LD; unfold st, zlen; lia).
  rewrite D3. rewrite overwrite_cut. reflexivity.
Qed.
Lemma extract_all : forall l f a ps, (length l < f)%nat -> ~ occurs imp a -> Forall import_ok l ->
  extract f (source a l) ps = Some (Ok (code a l, ps ++ map path l)).
Proof.
  induction l as [|i l IH]; intros f a ps Hf F A; (destruct f as [|f]; [cbn [length] in Hf; lia|]).
  - unfold source, code. cbn [flat_map map]. rewrite !app_nil_r. cbn [extract]. fold imp. now rewrite Index_none.
  - pose proof (Forall_inv A) as (B & W & P & H & O). pose proof (Forall_inv_tail A) as A'. fold imp in *.
    unfold source. cbn [flat_map]. fold imp.
    replace (a ++ (before i :: imp ++ words i ++ [39] ++ path i ++ [39] ++ after i) ++
              flat_map (fun i => before i :: imp ++ words i ++ [39] ++ path i ++ [39] ++ after i) l)
      with (a ++ before i :: imp ++ words i ++ 39 :: path i ++ 39 :: (after i ++
              flat_map (fun i => before i :: imp ++ words i ++ [39] ++ path i ++ [39] ++ after i) l))
      by (cbn [app]; repeat (rewrite <- app_assoc; cbn [app]); reflexivity).
    rewrite extract_step; auto.
    + rewrite app_assoc. etransitivity; [apply (IH f (a ++ after i) (ps ++ [path i])); auto|].
      3: { unfold code. cbn [flat_map map]. rewrite <- !app_assoc. reflexivity. }
      * cbn [length] in Hf. lia.
      * destruct (after i) as [|c t]; [now rewrite app_nil_r|]. destruct H as [H|H]; [discriminate|]. cbn [hd] in H.
        intros X. apply occurs_break in X; [|discriminate|exact H]. destruct X as [X|(u & v & X)]; [contradiction|].
        apply O. exists (c :: u), v. cbn [app]. now rewrite X.
    + intros X. apply occurs_break in X; [|discriminate|exact B]. destruct X as [X|(u & v & X)]; [contradiction|].
      destruct u; discriminate.
Qed.
Lemma extract_inv : forall f d ps d' ps', extract f d ps = Some (Ok (d', ps')) -> ~ occurs imp d'.
Proof.
  induction f as [|f IH]; intros d ps d' ps' E; [discriminate|]. cbn [extract] in E. fold imp in E.
  destruct (Index_cases imp d) as [(N & K)|(a & r & D & K)]; rewrite K in E.
  - change (-1 =? -1) with true in E. cbv iota in E. assert (d' = d) by congruence. now subst.
  - pose proof (zlen_nonneg a). replace (zlen a =? -1) with false in E by lia.
    match type of E with match ?x with _ => _ end = _ => destruct x as [(cut, pth)|]; [|discriminate] end.
    now apply IH in E.
Qed.
Lemma extract_total : forall f d ps, (length d < f)%nat -> extract f d ps <> None.
Proof.
  induction f as [|f IH]; intros d ps L; [lia|]. cbn [extract]. fold imp.
  destruct (Index_cases imp d) as [(N & K)|(a & r & D & K)]; rewrite K; [discriminate|].
  pose proof (zlen_nonneg a). replace (zlen a =? -1) with false by lia.
  set (q := index_byte (skipn (Z.to_nat (zlen a)) d) 39). set (st := zlen a + q + 1).
  destruct (slice_from d st) as [tail|]; [|discriminate]. cbn [bind].
  destruct (slice d st (st + index_byte tail 39)) as [pth|] eqn:E2; [|discriminate]. cbn [bind].
  assert (QR : -1 <= q) by (unfold q; destruct (index_range (skipn (Z.to_nat (zlen a)) d) 39); lia).
  assert (LE : 0 <= index_byte tail 39).
  { unfold slice in E2. destruct ((0 <=? st) && (st <=? st + index_byte tail 39) && (st + index_byte tail 39 <=? zlen d)) eqn:G; [lia|discriminate]. }
  destruct (slice_from d (st + index_byte tail 39 + 1)) as [src|]; [|discriminate]. cbn [bind].
  destruct (copy_at d (zlen a - 1) src) as [moved|] eqn:E4; [|discriminate]. cbn [bind].
  destruct (slice_to moved _) as [cut|] eqn:E5; [|discriminate]. cbn [bind].
  apply IH. unfold slice_to in E5.
  unfold slice in E5. destruct (_ && _); [|discriminate]. assert (X : cut = firstn (Z.to_nat (zlen d - (st + index_byte tail 39 - zlen a) - 2 - 0)) (skipn (Z.to_nat 0) moved)) by congruence.
  assert (LD : (7 <= length d)%nat) by (rewrite D, !app_length; change (length imp) with 7%nat; lia).
  rewrite X, firstn_length. unfold st, zlen in *. lia.
Qed.
Lemma extract_first d ps f : (exists r, d = imp ++ r) -> extract (S f) d ps = Some Panic.
Proof.
  intros (r & D). cbn [extract]. fold imp.
  assert (K : Index d imp = 0) by (rewrite D; change (imp ++ r) with ([] ++ imp ++ r); rewrite imp_first; [reflexivity|]; intros (u & v & X); destruct u; discriminate).
  rewrite K. change (0 =? -1) with false. cbv iota.
  destruct (slice_from d _) as [tail|]; [|reflexivity]. cbn [bind]. destruct (slice d _ _); [|reflexivity]. cbn [bind].
  destruct (slice_from d _) as [src|]; [|reflexivity]. cbn [bind]. reflexivity.
Qed.
Lemma extract_unquoted d ps f a r : ~ occurs imp a -> d = a ++ imp ++ r ->
  (~ In 39 r \/ exists u v, r = u ++ 39 :: v /\ ~ In 39 u /\ ~ In 39 v) -> extract (S f) d ps = Some Panic.
Proof.
  intros F D Q. cbn [extract]. fold imp. assert (K : Index d imp = zlen a) by (rewrite D; now apply imp_first).
  rewrite K. pose proof (zlen_nonneg a). replace (zlen a =? -1) with false by lia.
  assert (SK : skipn (Z.to_nat (zlen a)) d = imp ++ r) by (rewrite D; replace (Z.to_nat (zlen a)) with (length a) by (unfold zlen; lia); apply skipn_len_app).
  rewrite SK. destruct Q as [Q|(u & v & R & U & V)].
  - rewrite (index_none (imp ++ r)) by (rewrite in_app_iff; intros [I|I]; [cbn in I; lia|contradiction]).
    replace (zlen a + -1 + 1) with (zlen a) by lia.
    pose proof (zlen_nonneg (imp ++ r)). rewrite slice_from_ok by (rewrite D, zlen_app; lia). cbn [bind]. rewrite SK.
    rewrite (index_none (imp ++ r)) by (rewrite in_app_iff; intros [I|I]; [cbn in I; lia|contradiction]).
    rewrite slice_panic by lia. reflexivity.
  - rewrite R. rewrite app_assoc. rewrite index_at by (rewrite in_app_iff; intros [I|I]; [cbn in I; lia|contradiction]).
    assert (D2 : d = (a ++ (imp ++ u) ++ [39]) ++ v) by (rewrite D, R, <- !app_assoc; reflexivity).
    set (st := zlen a + zlen (imp ++ u) + 1).
    assert (ST : st = zlen (a ++ (imp ++ u) ++ [39])) by (rewrite (zlen_app a), (zlen_app _ [39]); change (zlen [39]) with 1; unfold st; lia).
    pose proof (zlen_nonneg v). pose proof (zlen_nonneg (a ++ (imp ++ u) ++ [39])).
    rewrite slice_from_ok by (rewrite D2, zlen_app; lia). cbn [bind].
    replace (skipn (Z.to_nat st) d) with v.
    2: { rewrite D2, ST. replace (Z.to_nat (zlen _)) with (length (a ++ (imp ++ u) ++ [39])) by (unfold zlen; lia). now rewrite skipn_len_app. }
    rewrite (index_none v) by auto. rewrite slice_panic by lia. reflexivity.
Qed.

(** ** HTML minifier *)
Definition opening := str "<!--"%string.
Definition closing := str "-->"%string.
Lemma minify_no_lf : forall f s, ~ In 10 (html_loop f s).
Proof.
  induction f as [|f IH]; intros s; [intros []|]. cbn [html_loop]. destruct (html_match s) as [r|] eqn:E; [apply IH|].
  destruct s as [|c t]; [intros []|]. intros [->|I]; [|now apply IH in I].
  unfold html_match in E. cbn [HasPrefix] in E. change (13 =? 10) with false in E. change (10 =? 10) with true in E. cbn [andb] in E.
  destruct t; discriminate.
Qed.
Lemma no_match s : ~ (exists t, s = 10 :: t) -> ~ (exists t, s = 13 :: 10 :: t) -> ~ (exists t, s = opening ++ t) -> html_match s = None.
Proof.
  intros A B C. unfold html_match. fold opening.
  destruct (HasPrefix s [13; 10]) eqn:E. { apply HasPrefix_iff in E. destruct E as (r & E). destruct B. now exists r. }
  destruct (HasPrefix s [10]) eqn:E2. { apply HasPrefix_iff in E2. destruct E2 as (r & E2). destruct A. now exists r. }
  destruct (HasPrefix s opening) eqn:E3; [|reflexivity]. apply HasPrefix_iff in E3. destruct E3 as (r & E3). destruct C. now exists r.
Qed.
(** Copying a plain text in front of anything that does not start inside a marker *)
Lemma copy_plain : forall u f v, ~ In 10 u -> ~ occurs opening u -> (v = [] \/ exists c t, v = c :: t /\ ~ (c = 10 /\ last u 0 = 13) /\ (c = 60 \/ ~ In c opening)) ->
  html_loop (length u + f) (u ++ v) = u ++ html_loop f v.
Proof.
  induction u as [|x u IH]; intros f v L O V; [reflexivity|].
  cbn [length Nat.add html_loop app]. rewrite no_match.
  - f_equal. apply IH.
    + intros I. apply L. now right.
    + intros (a & r & E). apply O. exists (x :: a), r. cbn [app]. now rewrite E.
    + destruct V as [->|(c & t & -> & V1 & V2)]; [now left|]. right. exists c, t. split; [reflexivity|]. split; [|exact V2].
      intros (E1 & E2). apply V1. split; [exact E1|]. destruct u; [cbn [last] in E2; lia|exact E2].
  - intros (t & E). injection E as -> _. apply L. now left.
  - intros (t & E). injection E as -> E. destruct u as [|y u].
    + cbn [app] in E. destruct V as [->|(c & t' & -> & V1 & _)]; [discriminate|]. injection E as -> _. now apply V1.
    + cbn [app] in E. injection E as -> _. apply L. right. now left.
  - intros (t & E). change (x :: u ++ v) with ((x :: u) ++ v) in E.
    destruct (le_lt_dec (length opening) (length (x :: u))) as [G|G].
    + apply O. exists [], (skipn (length opening) (x :: u)). cbn [app].
      assert (X : firstn (length opening) ((x :: u) ++ v) = opening) by (rewrite E; apply firstn_len_app).
      rewrite firstn_app in X. replace (length opening - length (x :: u))%nat with 0%nat in X by lia.
      cbn [firstn] in X. rewrite app_nil_r in X. rewrite <- X at 1. symmetry. apply firstn_skipn.
    + destruct V as [->|(c & t' & -> & _ & V2)].
      * rewrite app_nil_r in E. rewrite E, app_length in G. lia.
      * assert (X : nth_error ((x :: u) ++ c :: t') (length (x :: u)) = Some c) by (rewrite nth_error_app2, Nat.sub_diag by lia; reflexivity).
        rewrite E in X. rewrite nth_error_app1 in X by exact G.
        assert (I : In c opening) by (now apply nth_error_In in X).
        destruct V2 as [->|V2]; [|contradiction].
        destruct (length (x :: u)) as [|[|[|[|k]]]] eqn:LL; cbn in X, LL, G; try discriminate; lia.
Qed.
Lemma more_fuel : forall f s, (length s < f)%nat -> html_loop f s = html_loop (S (length s)) s.
Proof.
  assert (H : forall n s, (length s < n)%nat -> forall f g, (length s < f)%nat -> (length s < g)%nat -> html_loop f s = html_loop g s).
  { assert (UC : forall s r, until_close s = Some r -> (length r < length s)%nat).
    { induction s as [|c t IH]; intros r E; cbn [until_close] in E; [discriminate|].
      destruct (HasPrefix (c :: t) (str "-->"%string)) eqn:P.
      - apply HasPrefix_iff in P. destruct P as (z & P). assert (r = skipn 3 (c :: t)) by congruence. subst r. rewrite P. cbn. lia.
      - apply IH in E. cbn [length]. lia. }
    assert (UL : forall s r, until_close_line s = Some r -> (length r < length s)%nat).
    { induction s as [|c t IH]; intros r E; cbn [until_close_line] in E; [discriminate|].
      destruct (HasPrefix (c :: t) (str "-->"%string)) eqn:P.
      - apply HasPrefix_iff in P. destruct P as (z & P). assert (r = skipn 3 (c :: t)) by congruence. subst r. rewrite P. cbn. lia.
      - destruct (c =? 10); [discriminate|]. apply IH in E. cbn [length]. lia. }
    assert (HM : forall s r, html_match s = Some r -> (length r < length s)%nat).
    { intros s r E. unfold html_match in E.
      destruct (HasPrefix s [13; 10]) eqn:P1. { apply HasPrefix_iff in P1. destruct P1 as (z & ->). cbn in E. assert (r = z) by congruence. subst. cbn. lia. }
      destruct (HasPrefix s [10]) eqn:P2. { apply HasPrefix_iff in P2. destruct P2 as (z & ->). cbn in E. assert (r = z) by congruence. subst. cbn. lia. }
      destruct (HasPrefix s (str "<!--"%string)) eqn:P3; [|discriminate]. apply HasPrefix_iff in P3. destruct P3 as (z & ->).
      change (skipn 4 (str "<!--"%string ++ z)) with z in E. rewrite app_length.
      destruct (until_close_line z) as [r1|] eqn:Q. { apply UL in Q. assert (r = r1) by congruence. subst. lia. }
      destruct z as [|c z]; [discriminate|]. apply UC in E. cbn [length]. lia. }
    induction n as [|n IH]; intros s Ls f g Hf Hg; [lia|]. destruct f as [|f]; [lia|]. destruct g as [|g]; [lia|]. cbn [html_loop].
    destruct (html_match s) as [r|] eqn:E.
    - apply HM in E. apply IH; lia.
    - destruct s as [|c t]; [reflexivity|]. f_equal. cbn [length] in *. apply IH; lia. }
  intros f s L. apply (H (S (length s))); lia.
Qed.
Lemma close_line c v : ~ occurs closing (c ++ [45; 45]) -> ~ In 10 c -> until_close_line (c ++ closing ++ v) = Some v.
Proof.
  induction c as [|x c IH]; intros O L. { destruct v; reflexivity. }
  change ((x :: c) ++ closing ++ v) with (x :: c ++ closing ++ v). cbn [until_close_line]. fold closing.
  destruct (HasPrefix (x :: c ++ closing ++ v) closing) eqn:P.
  - exfalso. apply O. apply HasPrefix_iff in P. destruct P as (z & P). exists [].
    destruct c as [|y [|w c]]; cbn in P |- *.
    + inversion P.
    + inversion P.
    + inversion P; subst. eexists. reflexivity.
  - replace (x =? 10) with false. 2: { symmetry. apply Z.eqb_neq. intros ->. apply L. now left. }
    apply IH. + intros (a & r & E). apply O. exists (x :: a), r. cbn [app]. now rewrite E.
    + intros I. apply L. now right.
Qed.
Lemma close_any c v : ~ occurs closing (c ++ [45; 45]) -> until_close (c ++ closing ++ v) = Some v.
Proof.
  induction c as [|x c IH]; intros O. { destruct v; reflexivity. }
  change ((x :: c) ++ closing ++ v) with (x :: c ++ closing ++ v). cbn [until_close]. fold closing.
  destruct (HasPrefix (x :: c ++ closing ++ v) closing) eqn:P.
  - exfalso. apply O. apply HasPrefix_iff in P. destruct P as (z & P). exists [].
    destruct c as [|y [|w c]]; cbn in P |- *.
    + inversion P.
    + inversion P.
    + inversion P; subst. eexists. reflexivity.
  - apply IH. intros (a & r & E). apply O. exists (x :: a), r. cbn [app]. now rewrite E.
Qed.
Lemma close_lf c v : ~ occurs closing (c ++ [45; 45]) -> In 10 c -> until_close_line (c ++ closing ++ v) = None.
Proof.
  induction c as [|x c IH]; intros O L; [destruct L|].
  change ((x :: c) ++ closing ++ v) with (x :: c ++ closing ++ v). cbn [until_close_line]. fold closing.
  destruct (HasPrefix (x :: c ++ closing ++ v) closing) eqn:P.
  - exfalso. apply O. apply HasPrefix_iff in P. destruct P as (z & P). exists [].
    destruct c as [|y [|w c]]; cbn in P |- *.
    + inversion P.
    + inversion P.
    + inversion P; subst. eexists. reflexivity.
  - destruct (Z.eqb_spec x 10) as [Q|Q]; [reflexivity|]. apply IH.
    + intros (a & r & E). apply O. exists (x :: a), r. cbn [app]. now rewrite E.
    + destruct L as [L|L]; [congruence|exact L].
Qed.
Lemma comment_match c v : ~ occurs closing (c ++ [45; 45]) -> html_match (opening ++ c ++ closing ++ v) = Some v.
Proof.
  intros O. unfold html_match.
  replace (HasPrefix (opening ++ c ++ closing ++ v) [13; 10]) with false by reflexivity.
  replace (HasPrefix (opening ++ c ++ closing ++ v) [10]) with false by reflexivity.
  fold opening. rewrite HasPrefix_app. change (skipn 4 (opening ++ c ++ closing ++ v)) with (c ++ closing ++ v).
  destruct (in_dec Z.eq_dec 10 c) as [I|N].
  - rewrite close_lf by auto. destruct c as [|x c]; [destruct I|]. cbn [app]. apply close_any.
    intros (a & r & E). apply O. exists (x :: a), r. cbn [app]. now rewrite E.
  - now rewrite close_line.
Qed.

(** ** Import recursion *)
Lemma mem_iff x l : mem x l = true <-> In x l.
Proof. unfold mem. rewrite existsb_exists. split; [intros (y & I & E); apply Nat.eqb_eq in E; now subst|intros I; exists x; split; [exact I|apply Nat.eqb_refl]]. Qed.
Lemma mem_not x l : mem x l = false <-> ~ In x l.
Proof. rewrite <- mem_iff. destruct (mem x l); split; congruence. Qed.
Section Rec.
Variable imports_of : nat -> list nat.
Variable U : list nat.
Hypothesis closed : forall g, In g U -> incl (imports_of g) U.
Record grown (file : list nat) (I D I' D' : list nat) : Prop := {
  g_nodup : NoDup D'; g_incl : incl D' U; g_old : incl D D';
  g_new : forall x, In x I' -> In x D';
  g_imports : forall g, In g D' -> In g D \/ exists p q, I ++ I' = p ++ g :: q /\ incl (imports_of g) q;
  g_reach : forall x, In x I' -> exists m, In m file /\ reach imports_of m x;
  g_done : incl file D';
  g_perm : exists E, D' = E ++ D /\ Permutation I' (flat_map imports_of E)
}.
Lemma reach_first m x y : In x (imports_of m) -> reach imports_of x y -> reach imports_of m y.
Proof. intros H R. induction R as [m'|m' u v R IH I]; [eapply reach_step; [apply reach_self|exact H]|eapply reach_step; [now apply IH|exact I]]. Qed.
Lemma each_ok f
  (REC : forall file I D, NoDup D -> incl D U -> In file U -> In file I -> (length U - length D < f)%nat ->
    exists I' D', recursively imports_of f file (I, D) = Some (I ++ I', D') /\ grown [file] I D I' D') :
  forall l I D, NoDup D -> incl D U -> incl l U -> incl l I -> (length U - length D < f)%nat ->
  exists I' D', each (recursively imports_of f) l (I, D) = Some (I ++ I', D') /\ grown l I D I' D'.
Proof.
  induction l as [|x l IH]; intros I D ND ID IL II F; cbn [each].
  - exists [], D. rewrite app_nil_r. split; [reflexivity|]. constructor; auto; try (intros ? []); try apply incl_refl.
    exists []. split; [reflexivity|apply perm_nil].
  - destruct (REC x I D) as (I1 & D1 & E1 & G1); auto. { apply IL. now left. } { apply II. now left. }
    rewrite E1. destruct G1 as [G1a G1b G1c G1d G1e G1f G1g (E_1 & G1h & G1i)].
    destruct (IH (I ++ I1) D1) as (I2 & D2 & E2 & G2); auto.
    { intros y Y. apply IL. now right. } { intros y Y. apply in_or_app. left. apply II. now right. }
    { assert (length D <= length D1)%nat by (rewrite G1h, app_length; lia). lia. }
    destruct G2 as [G2a G2b G2c G2d G2e G2f G2g (E_2 & G2h & G2i)].
    exists (I1 ++ I2), D2. rewrite app_assoc. split; [exact E2|]. constructor; auto.
    + intros y Y. apply G2c, G1c, Y.
    + intros y Y. apply in_app_or in Y. destruct Y as [Y|Y]; [apply G2c, G1d, Y|now apply G2d].
    + intros g Y. apply G2e in Y. destruct Y as [Y|(p & q & E & Q)].
      * apply G1e in Y. destruct Y as [Y|(p & q & E & Q)]; [now left|]. right. exists p, (q ++ I2).
        split; [|intros z Z'; apply in_or_app; left; now apply Q]. rewrite app_assoc, E, <- app_assoc. reflexivity.
      * right. exists p, q. split; [now rewrite app_assoc|exact Q].
    + intros y Y. apply in_app_or in Y. destruct Y as [Y|Y].
      * apply G1f in Y. destruct Y as (m & [<-|[]] & R). exists x. split; [now left|exact R].
      * apply G2f in Y. destruct Y as (m & M & R). exists m. split; [now right|exact R].
    + intros y [<-|Y]; [apply G2c, G1g; now left|now apply G2g].
    + exists (E_2 ++ E_1). rewrite G2h, G1h, app_assoc. split; [reflexivity|]. rewrite flat_map_app.
      etransitivity; [apply Permutation_app_comm|]. now apply Permutation_app.
Qed.
Lemma rec_ok : forall f file I D, NoDup D -> incl D U -> In file U -> In file I -> (length U - length D < f)%nat ->
  exists I' D', recursively imports_of f file (I, D) = Some (I ++ I', D') /\ grown [file] I D I' D'.
Proof.
  induction f as [|f IH]; intros file I D ND ID FU FI F; [lia|]. cbn [recursively].
  destruct (mem file D) eqn:M.
  - apply mem_iff in M. cbn [each]. exists [], D. split; [reflexivity|]. constructor; auto; try (intros ? []); try apply incl_refl.
    + now subst.
    + contradiction.
    + exists []. split; [reflexivity|apply perm_nil].
  - apply mem_not in M.
    assert (ND2 : NoDup (file :: D)) by now constructor.
    assert (ID2 : incl (file :: D) U) by (intros y [<-|Y]; [exact FU|now apply ID]).
    assert (LE : (length (file :: D) <= length U)%nat) by now apply NoDup_incl_length.
    destruct (each_ok f IH (imports_of file) (I ++ imports_of file) (file :: D)) as (I2 & D2 & E2 & G2); auto.
    { intros y Y. apply in_or_app. now right. } { cbn [length] in *. lia. }
    destruct G2 as [G2a G2b G2c G2d G2e G2f G2g (E_2 & G2h & G2i)].
    exists (imports_of file ++ I2), D2. rewrite app_assoc. split; [exact E2|]. constructor; auto.
    + intros y Y. apply G2c. now right.
    + intros y Y. apply in_app_or in Y. destruct Y as [Y|Y]; [now apply G2g|now apply G2d].
    + intros g Y. apply G2e in Y. destruct Y as [[<-|Y]|(p & q & E & Q)].
      * right. apply in_split in FI. destruct FI as (p & q & ->). exists p, (q ++ imports_of file ++ I2).
        split; [rewrite <- app_assoc; reflexivity|]. intros z Z'. apply in_or_app. right. apply in_or_app. now left.
      * now left.
      * right. exists p, q. split; [now rewrite app_assoc|exact Q].
    + intros y Y. exists file. split; [now left|]. apply in_app_or in Y. destruct Y as [Y|Y].
      * eapply reach_step; [apply reach_self|exact Y].
      * apply G2f in Y. destruct Y as (m & M2 & R). now apply reach_first with m.
    + intros y [<-|[]]. apply G2c. now left.
    + exists (E_2 ++ [file]). rewrite G2h, <- app_assoc. split; [reflexivity|]. rewrite flat_map_app. cbn [flat_map]. rewrite app_nil_r.
      etransitivity; [apply Permutation_app_comm|]. now apply Permutation_app.
Qed.
End Rec.
Lemma inline_spec : forall l inl, NoDup (inline l inl) /\ (forall x, In x (inline l inl) <-> In x l /\ ~ In x inl).
Proof.
  induction l as [|y l IH]; intros inl; cbn [inline]. { split; [constructor|]. intros x. cbn [In]. tauto. }
  destruct (mem y inl) eqn:M.
  - apply mem_iff in M. destruct (IH inl) as (A & B). split; [exact A|]. intros x. rewrite B. cbn [In]. split; [tauto|].
    intros ([->|I] & N); [contradiction|tauto].
  - apply mem_not in M. destruct (IH (y :: inl)) as (A & B). split.
    + constructor; [|exact A]. rewrite B. cbn [In]. tauto.
    + intros x. cbn [In]. rewrite B. cbn [In]. destruct (Nat.eq_dec y x); [subst; tauto|tauto].
Qed.
Lemma inline_id : forall l inl, NoDup l -> (forall x, In x l -> ~ In x inl) -> inline l inl = l.
Proof.
  induction l as [|y l IH]; intros inl ND N; [reflexivity|]. cbn [inline]. inversion ND as [|? ? A B]; subst.
  replace (mem y inl) with false by (symmetry; apply mem_not, N; now left). f_equal. apply IH; [exact B|].
  intros x I [->|J]; [contradiction|]. apply (N x); [now right|exact J].
Qed.
Lemma inline_last : forall l inl x, ~ In x l -> ~ In x inl -> inline (l ++ [x]) inl = inline l inl ++ [x].
Proof.
  induction l as [|y l IH]; intros inl x N M; cbn [inline app].
  - apply mem_not in M. now rewrite M.
  - destruct (mem y inl) eqn:E; [apply IH; [|exact M]; intros I; apply N; now right|].
    cbn [app]. f_equal. apply IH; [intros I; apply N; now right|]. intros [->|I]; [apply N; now left|contradiction].
Qed.
