From Coq Require Import String ZifyBool ZifyNat Permutation.
From Verif Require Import Go GoFacts StrconvModel StringsModel StringsProofs UriModel FileModel TreeModel TreeSpec WwwModel WwwSpec WwwProofs CombineModel CombineSpec.
From Verif Require FileTheorems TreeTheorems.
Import ListNotations.
Local Open Scope Z_scope.
Local Open Scope list_scope.

(** * Stores *)
Lemma beq_ne a b : a <> b -> beq a b = false.
Proof. intros N. destruct (beq a b) eqn:E; [|reflexivity]. apply beq_eq in E. contradiction. Qed.
Lemma put_same d n b : entry (put d n b) n = Some b.
Proof.
  induction d as [|[m x] d IH]; cbn [put entry]; [now rewrite beq_refl|].
  destruct (beq m n) eqn:E; cbn [entry]; [now rewrite beq_refl|]. now rewrite E.
Qed.
Lemma put_other d n b k : k <> n -> entry (put d n b) k = entry d k.
Proof.
  intros N. induction d as [|[m x] d IH]; cbn [put entry].
  - rewrite ?(beq_ne k n), ?(beq_ne n k) by congruence. reflexivity.
  - destruct (beq m n) eqn:E.
    + apply beq_eq in E. subst m. cbn [entry]. rewrite ?(beq_ne k n), ?(beq_ne n k) by congruence. reflexivity.
    + cbn [entry]. rewrite IH. reflexivity.
Qed.
Lemma remove_same d n : entry (remove d n) n = None.
Proof.
  induction d as [|[m x] d IH]; [reflexivity|]. unfold remove in *. cbn [filter fst]. destruct (beq m n) eqn:E; cbn [negb]; [exact IH|].
  cbn [entry]. now rewrite E.
Qed.
Lemma remove_other d n k : k <> n -> entry (remove d n) k = entry d k.
Proof.
  intros N. induction d as [|[m x] d IH]; [reflexivity|]. unfold remove in *. cbn [filter fst]. destruct (beq m n) eqn:E; cbn [negb].
  - apply beq_eq in E. subst m. rewrite IH. cbn [entry]. rewrite ?(beq_ne k n), ?(beq_ne n k) by congruence. reflexivity.
  - cbn [entry]. now rewrite IH.
Qed.
Lemma data_put_same d n b : data_of (put d n b) n = b.
Proof. unfold data_of. now rewrite put_same. Qed.
Lemma data_entry d n b : entry d n = Some b -> data_of d n = b.
Proof. unfold data_of. now intros ->. Qed.
Lemma data_eq d e n : entry d n = entry e n -> data_of d n = data_of e n.
Proof. unfold data_of. now intros ->. Qed.

(** * Replacing *)
Lemma replace_skip old new a r : replace_all (a ++ r) old new (length a) = replace_all r old new 0.
Proof. induction a as [|x a IH]; cbn [app length replace_all]; [reflexivity|exact IH]. Qed.
Lemma replace_here old new r : old <> [] -> ReplaceAll (old ++ r) old new = new ++ ReplaceAll r old new.
Proof.
  intros N. unfold ReplaceAll. destruct old as [|x o]; [contradiction|]. cbn [app replace_all].
  change (x :: o ++ r) with ((x :: o) ++ r). rewrite HasPrefix_app. f_equal. cbn [length]. replace (S (length o) - 1)%nat with (length o) by lia. apply replace_skip.
Qed.
Lemma replace_free old new s : old <> [] -> ~ occurs old s -> ReplaceAll s old new = s.
Proof.
  intros N. unfold ReplaceAll. induction s as [|c s IH]; intros F; [reflexivity|]. cbn [replace_all].
  destruct (HasPrefix (c :: s) old) eqn:E. { apply HasPrefix_iff in E. destruct E as (r & E). destruct F. exists [], r. exact E. }
  f_equal. apply IH. intros (a & r & E2). apply F. exists (c :: a), r. cbn [app]. now rewrite E2.
Qed.
Lemma replace_first old new : old <> [] -> forall a r, (forall b q, a ++ old ++ r = b ++ old ++ q -> (length a <= length b)%nat) ->
  ReplaceAll (a ++ old ++ r) old new = a ++ new ++ ReplaceAll r old new.
Proof.
  intros N. induction a as [|x a IH]; intros r F; [cbn [app]; now apply replace_here|].
  cbn [app]. unfold ReplaceAll at 1. cbn [replace_all]. destruct (HasPrefix (x :: a ++ old ++ r) old) eqn:E.
  { exfalso. apply HasPrefix_iff in E. destruct E as (q & E). specialize (F [] q E). cbn [length] in F. lia. }
  f_equal. fold (ReplaceAll (a ++ old ++ r) old new). apply IH. intros b q E2. specialize (F (x :: b) q). cbn [app length] in F. rewrite E2 in F. specialize (F eq_refl). lia.
Qed.
Lemma occurs_split old s : old <> [] -> ~ occurs old s \/
  exists a r, s = a ++ old ++ r /\ (forall b q, a ++ old ++ r = b ++ old ++ q -> (length a <= length b)%nat).
Proof.
  intros N. induction s as [|c s IH].
  - left. intros (a & r & E). symmetry in E. apply app_eq_nil in E. destruct E as (_ & E). apply app_eq_nil in E. tauto.
  - destruct (HasPrefix (c :: s) old) eqn:E.
    + right. apply HasPrefix_iff in E. destruct E as (r & E). exists [], r. split; [exact E|]. intros. cbn [length]. lia.
    + destruct IH as [F|(a & r & -> & F)].
      * left. intros (a & r & E2). destruct a as [|x a]; cbn [app] in E2.
        -- rewrite E2, HasPrefix_app in E. discriminate.
        -- injection E2 as -> E2. apply F. now exists a, r.
      * right. exists (c :: a), r. split; [reflexivity|]. intros b q E2. destruct b as [|y b]; cbn [app] in E2.
        -- cbn [app] in E. rewrite E2, HasPrefix_app in E. discriminate.
        -- injection E2 as -> E2. specialize (F b q E2). cbn [length]. lia.
Qed.
Lemma replaced_all old new : old <> [] -> forall k s, (length s < k)%nat -> replaced old new s (ReplaceAll s old new).
Proof.
  intros N. induction k as [|k IH]; intros s L; [lia|]. destruct (occurs_split old s N) as [F|(a & r & -> & F)].
  - rewrite replace_free by auto. now constructor.
  - rewrite replace_first by auto. constructor; auto. apply IH. rewrite !app_length in L. destruct old; [contradiction|]. cbn [length] in L. lia.
Qed.
Lemma replace_len old : old <> [] -> forall k s, (length s < k)%nat ->
  exists c : nat, (occurs old s -> 1 <= c)%nat /\ forall new, (length (ReplaceAll s old new) + c * length old = length s + c * length new)%nat.
Proof.
  intros N. induction k as [|k IH]; intros s L; [lia|]. destruct (occurs_split old s N) as [F|(a & r & -> & F)].
  - exists 0%nat. split; [tauto|]. intros new. rewrite replace_free by auto. lia.
  - destruct (IH r) as (c & _ & E). { rewrite !app_length in L. destruct old; [contradiction|]. cbn [length] in L. lia. }
    exists (S c). split; [lia|]. intros new. rewrite replace_first by auto. rewrite !app_length. specialize (E new). lia.
Qed.
Lemma replace_tells old n1 n2 s : old <> [] -> occurs old s -> ReplaceAll s old n1 = ReplaceAll s old n2 -> n1 = n2.
Proof.
  intros N O E. destruct (replace_len old N (S (length s)) s ltac:(lia)) as (c & C & L).
  specialize (C O). pose proof (L n1) as L1. pose proof (L n2) as L2. rewrite E in L1.
  assert (length n1 = length n2) by nia.
  destruct (occurs_split old s N) as [F|(a & r & -> & F)]; [contradiction|]. rewrite !replace_first in E by auto.
  apply app_inv_head in E. apply (f_equal (firstn (length n1))) in E. rewrite firstn_app, firstn_all, Nat.sub_diag in E. cbn [firstn] in E. rewrite app_nil_r in E.
  rewrite H in E. rewrite firstn_app, firstn_all, Nat.sub_diag in E. cbn [firstn] in E. now rewrite app_nil_r in E.
Qed.

(** * Names *)
Lemma ext_of b e : ~ In 46 e -> Extension (b ++ 46 :: e) = e.
Proof. intros N. destruct (proj2 (FileTheorems.C54_extension_partial no_uri (b ++ 46 :: e)) b e eq_refl N) as (E & _). exact E. Qed.
Lemma hash_shape b e d : ~ In 46 e -> hash_name (b ++ 46 :: e) d = b ++ str ".-"%string ++ FormatUint10 (ChecksumIEEE d) ++ 46 :: e.
Proof. intros N. unfold hash_name, uri_of. now rewrite (proj1 (TreeTheorems.C146_name_refuted no_uri d) b e N). Qed.
Fixpoint stem (s : bytes) : bytes := match s with [] => [] | c :: t => if c =? 46 then [] else c :: stem t end.
Lemma stem_at a r : ~ In 46 a -> stem (a ++ 46 :: r) = a.
Proof. induction a as [|x a IH]; intros N; [reflexivity|]. cbn [app stem In] in *. replace (x =? 46) with false by lia. rewrite IH by tauto. reflexivity. Qed.
Lemma js_no : ~ In 46 (str "js"%string). Proof. cbn. lia. Qed.
Lemma html_no : ~ In 46 (str "html"%string). Proof. cbn. lia. Qed.
Lemma css_no : ~ In 46 (str "css"%string). Proof. cbn. lia. Qed.
Lemma js_name_eq lang : js_name lang = (str "main-"%string ++ lang) ++ 46 :: str "js"%string.
Proof. unfold js_name. rewrite <- app_assoc. reflexivity. Qed.
Lemma html_name_eq lang : html_name lang = (str "main-"%string ++ lang) ++ 46 :: str "html"%string.
Proof. unfold html_name. rewrite <- app_assoc. reflexivity. Qed.
Definition tagged (lang : bytes) : bytes := str "main-"%string ++ lang.
Lemma tagged_no lang : ~ In 46 lang -> ~ In 46 (tagged lang).
Proof. unfold tagged. rewrite in_app_iff. intros N [H|H]; [cbn in H; lia|tauto]. Qed.
Lemma tagged_inj a b : tagged a = tagged b -> a = b.
Proof. unfold tagged. apply app_inv_head. Qed.
Definition jname (lang b : bytes) : bytes := hash_name (js_name lang) b.
Definition hname (lang b : bytes) : bytes := hash_name (html_name lang) b.
Lemma jname_eq lang b : jname lang b = (tagged lang ++ str ".-"%string ++ FormatUint10 (ChecksumIEEE b)) ++ 46 :: str "js"%string.
Proof. unfold jname. rewrite js_name_eq, hash_shape by apply js_no. unfold tagged. rewrite <- !app_assoc. reflexivity. Qed.
Lemma hname_eq lang b : hname lang b = (tagged lang ++ str ".-"%string ++ FormatUint10 (ChecksumIEEE b)) ++ 46 :: str "html"%string.
Proof. unfold hname. rewrite html_name_eq, hash_shape by apply html_no. unfold tagged. rewrite <- !app_assoc. reflexivity. Qed.
Lemma stem_any lang r x : ~ In 46 lang -> stem (tagged lang ++ str "."%string ++ x ++ r) = tagged lang.
Proof. intros N. apply (stem_at (tagged lang)). now apply tagged_no. Qed.

(** * Compressed copies *)
Section Copies.
Variable by_name : bytes -> option compressor.
Lemma copies_other n k : forall encs d err, (forall ce ext f, In ce encs -> by_name ce = Some (ext, f) -> k <> n ++ [46] ++ ext) ->
  entry (fst (compress_loop by_name d n encs err)) k = entry d k.
Proof.
  induction encs as [|ce r IH]; intros d err H; [reflexivity|]. cbn [compress_loop]. destruct (by_name ce) as [[ext f]|] eqn:E.
  - destruct (f (data_of d n)) as [b|]; [|reflexivity]. rewrite IH by (intros c2 e2 f2 I; apply H; now right). apply put_other.
    apply (H ce ext f); [now left|exact E].
  - apply IH. intros c2 e2 f2 I; apply H; now right.
Qed.
Lemma compressed_other d n encs k : (forall ce ext f, In ce encs -> by_name ce = Some (ext, f) -> k <> n ++ [46] ++ ext) ->
  entry (compressed by_name encs d n) k = entry d k.
Proof. intros H. unfold compressed, Compress. destruct (existsb _ _); [reflexivity|]. now apply copies_other. Qed.
Lemma compressed_self d n encs : entry (compressed by_name encs d n) n = entry d n.
Proof. apply compressed_other. intros _ ext _ _ _ E. apply (f_equal (@length Z)) in E. rewrite !app_length in E. cbn [length] in E. lia. Qed.
End Copies.

(** * One language *)
Section Language.
Variables mini_html mini_css mini_js : bytes -> bytes.
Variable sdk : bytes -> bytes.
Variable by_name : bytes -> option compressor.
Variable encodings : list bytes.
Variable mixed : list (list (bytes * bytes)).
Notation lang_step := (ready_lang mini_html sdk by_name encodings mixed).
Notation bundle := (bundle_of sdk mixed).
Hypothesis EX : own_extensions by_name.
Lemma stem_dot lang x : ~ In 46 lang -> stem (tagged lang ++ 46 :: x) = tagged lang.
Proof. intros N. apply stem_at. now apply tagged_no. Qed.
Lemma stem_js lang : ~ In 46 lang -> stem (js_name lang) = tagged lang.
Proof. intros N. rewrite js_name_eq. now apply stem_dot. Qed.
Lemma stem_html lang : ~ In 46 lang -> stem (html_name lang) = tagged lang.
Proof. intros N. rewrite html_name_eq. now apply stem_dot. Qed.
Lemma stem_jname lang b r : ~ In 46 lang -> stem (jname lang b ++ r) = tagged lang.
Proof. intros N. rewrite jname_eq. rewrite <- !app_assoc. now apply stem_dot. Qed.
Lemma stem_hname lang b r : ~ In 46 lang -> stem (hname lang b ++ r) = tagged lang.
Proof. intros N. rewrite hname_eq. rewrite <- !app_assoc. now apply stem_dot. Qed.
Lemma stem_jn lang b : ~ In 46 lang -> stem (jname lang b) = tagged lang.
Proof. intros N. rewrite <- (app_nil_r (jname lang b)). now apply stem_jname. Qed.
Lemma stem_hn lang b : ~ In 46 lang -> stem (hname lang b) = tagged lang.
Proof. intros N. rewrite <- (app_nil_r (hname lang b)). now apply stem_hname. Qed.
Lemma ext_jn lang b : Extension (jname lang b) = str "js"%string.
Proof. rewrite jname_eq. apply ext_of, js_no. Qed.
Lemma ext_hn lang b : Extension (hname lang b) = str "html"%string.
Proof. rewrite hname_eq. apply ext_of, html_no. Qed.
Lemma ext_copy n ce ext f : by_name ce = Some (ext, f) -> Extension (n ++ [46] ++ ext) = ext.
Proof. intros E. destruct (EX _ _ _ E) as (N & _). now apply (ext_of n). Qed.
Lemma html_not_hashed lang b r : html_name lang <> jname lang b ++ r /\ html_name lang <> hname lang b ++ r /\ html_name lang <> js_name lang.
Proof.
  rewrite html_name_eq, js_name_eq, jname_eq, hname_eq. rewrite <- !app_assoc. change (str "main-"%string ++ lang ++ ?x) with (str "main-"%string ++ (lang ++ x)).
  unfold tagged. rewrite <- !app_assoc. repeat split; intros H; do 2 apply app_inv_head in H; cbn in H; discriminate.
Qed.
(** Only names with the stem of the language are touched *)
Lemma other_stem s lang k : ~ In 46 lang -> stem k <> tagged lang -> entry (gui (lang_step s lang)) k = entry (gui s) k.
Proof.
  intros N K. unfold ready_lang. cbn [gui]. cbv zeta.
  set (b := bundle lang). fold (jname lang b). set (g1 := compressed _ _ _ (jname lang b)).
  set (page := Replace1 _ _ _). fold (hname lang page).
  rewrite compressed_other. 2:{ intros ce ext f _ _ E. apply K. rewrite E. now apply stem_hname. }
  unfold put_hashed. rewrite put_other. 2:{ intros E. apply K. rewrite E. now apply stem_hn. }
  rewrite remove_other. 2:{ intros E. apply K. rewrite E. now apply stem_html. }
  subst g1. rewrite compressed_other. 2:{ intros ce ext f _ _ E. apply K. rewrite E. now apply stem_jname. }
  unfold put_hashed. rewrite put_other. 2:{ intros E. apply K. rewrite E. now apply stem_jn. }
  apply remove_other. intros E. apply K. rewrite E. now apply stem_js.
Qed.
(** The page of a language *)
Definition page_of (s : site) (lang : bytes) : bytes :=
  Replace1 (mini_html (data_of (gui s) (html_name lang))) (str "/main.js"%string) (jname lang (bundle lang)).
Lemma own_files s lang : let s' := lang_step s lang in
  entry (gui s') (jname lang (bundle lang)) = Some (bundle lang) /\
  entry (gui s') (hname lang (page_of s lang)) = Some (page_of s lang) /\
  entry (gui s') (html_name lang) = None /\
  s' = Site (gui s') (dl s) (put (served s) lang (page_of s lang)) (put (main_js s) lang (jname lang (bundle lang))) (put (main_html s) lang (hname lang (page_of s lang))).
Proof.
  cbv zeta. set (b := bundle lang).
  set (g1 := compressed by_name encodings (put_hashed (gui s) (js_name lang) b) (jname lang b)).
  assert (J1 : entry g1 (jname lang b) = Some b). { subst g1. rewrite compressed_self. unfold put_hashed. apply put_same. }
  assert (P : Replace1 (mini_html (data_of g1 (html_name lang))) (str "/main.js"%string) (jname lang b) = page_of s lang).
  { unfold page_of. fold b. do 2 f_equal. apply data_eq. subst g1. destruct (html_not_hashed lang b []) as (H1 & _ & H3). rewrite app_nil_r in H1.
    rewrite compressed_other. 2:{ intros ce ext f _ _. apply html_not_hashed. }
    unfold put_hashed. fold (jname lang b). rewrite put_other by auto. now apply remove_other. }
  assert (E : lang_step s lang = Site (compressed by_name encodings (put_hashed g1 (html_name lang) (page_of s lang)) (hname lang (page_of s lang)))
     (dl s) (put (served s) lang (page_of s lang)) (put (main_js s) lang (jname lang b)) (put (main_html s) lang (hname lang (page_of s lang)))).
  { unfold ready_lang. cbv zeta. fold b. fold (jname lang b). fold g1. rewrite P. reflexivity. }
  rewrite E. cbn [gui]. set (pg := page_of s lang). fold pg in E, P.
  assert (JH : jname lang b <> html_name lang). { destruct (html_not_hashed lang b []) as (H1 & _). rewrite app_nil_r in H1. congruence. }
  repeat split.
  - rewrite compressed_other. 2:{ intros ce ext f _ B H. apply (f_equal Extension) in H. rewrite ext_jn, (ext_copy _ _ _ _ B) in H. destruct (EX _ _ _ B) as (_ & X & _). congruence. }
    unfold put_hashed. fold (hname lang pg). rewrite put_other. 2:{ intros H. apply (f_equal Extension) in H. rewrite ext_jn, ext_hn in H. discriminate. }
    rewrite remove_other by auto. exact J1.
  - rewrite compressed_self. unfold put_hashed. apply put_same.
  - rewrite compressed_other. 2:{ intros ce ext f _ _. apply html_not_hashed. }
    unfold put_hashed. fold (hname lang pg). rewrite put_other. 2:{ destruct (html_not_hashed lang pg []) as (_ & H2 & _). now rewrite app_nil_r in H2. }
    apply remove_same.
Qed.
(** The compressed copy of the script, when one encoding is asked for *)
Lemma own_copy s lang ce ext f z : encodings = [ce] -> by_name ce = Some (ext, f) -> f (bundle lang) = Some z -> 
  entry (gui (lang_step s lang)) (jname lang (bundle lang) ++ [46] ++ ext) = Some z.
Proof.
  intros EE B Z. set (b := bundle lang) in *. destruct (EX _ _ _ B) as (X0 & X1 & X2 & X3).
  assert (E1 : Extension (jname lang b ++ [46] ++ ext) = ext) by (eapply ext_copy; eauto).
  unfold ready_lang. cbv zeta. cbn [gui]. fold b. fold (jname lang b). set (g1 := compressed _ _ _ (jname lang b)). set (pg := Replace1 _ _ _). fold (hname lang pg).
  rewrite compressed_other. 2:{ intros ce2 ext2 f2 I B2 H. rewrite EE in I. destruct I as [<-|[]]. rewrite B in B2. injection B2 as <- <-. apply app_inv_tail in H.
    apply (f_equal Extension) in H. rewrite ext_jn, ext_hn in H. discriminate. }
  unfold put_hashed. fold (hname lang pg). rewrite put_other. 2:{ intros H. apply (f_equal Extension) in H. rewrite E1, ext_hn in H. congruence. }
  rewrite remove_other. 2:{ intros H. symmetry in H. revert H. apply html_not_hashed. }
  subst g1. unfold compressed, Compress. replace (existsb _ never_compressed) with false.
  2:{ unfold uri_of, Rename. cbn [extension_]. rewrite ext_jn. reflexivity. }
  rewrite EE. cbn [compress_loop]. rewrite B. unfold put_hashed. rewrite data_put_same. rewrite Z. cbn [fst]. apply put_same.
Qed.
Lemma put_new d n b : entry d n = None -> put d n b = d ++ [(n, b)].
Proof.
  induction d as [|[m x] d IH]; intros H; [reflexivity|]. cbn [entry put app] in *. destruct (beq m n); [discriminate|]. now rewrite IH.
Qed.
Lemma entry_app {A} (d e : list (bytes * A)) n : entry (d ++ e) n = match entry d n with Some x => Some x | None => entry e n end.
Proof. induction d as [|[m x] d IH]; [reflexivity|]. cbn [app entry]. now destruct (beq m n). Qed.
Lemma all_languages : forall langs s, NoDup langs -> Forall (fun l => ~ In 46 l) langs -> (forall l, In l langs -> entry (main_js s) l = None /\ entry (main_html s) l = None) ->
  let s' := fold_left lang_step langs s in
  dl s' = dl s /\
  main_js s' = main_js s ++ map (fun l => (l, jname l (bundle l))) langs /\
  main_html s' = main_html s ++ map (fun l => (l, hname l (page_of s l))) langs /\
  (forall k, (forall l, In l langs -> stem k <> tagged l) -> entry (gui s') k = entry (gui s) k) /\
  (forall l, In l langs -> entry (gui s') (jname l (bundle l)) = Some (bundle l) /\ entry (gui s') (hname l (page_of s l)) = Some (page_of s l) /\
     entry (gui s') (html_name l) = None /\ entry (served s') l = Some (page_of s l)) /\
  (forall l, ~ In l langs -> entry (served s') l = entry (served s) l).
Proof.
  induction langs as [|l0 langs IH]; intros s ND NO KN; cbv zeta.
  { cbn [fold_left map]. rewrite !app_nil_r. repeat split; auto; match goal with H : In _ [] |- _ => destruct H end. }
  cbn [fold_left]. inversion ND as [|? ? NI ND']; subst. inversion NO as [|? ? N0 NO']; subst.
  destruct (own_files s l0) as (O1 & O2 & O3 & O4). set (s1 := lang_step s l0) in *.
  destruct (KN l0 (or_introl eq_refl)) as (K1 & K2).
  assert (PG : forall l, In l langs -> page_of s1 l = page_of s l).
  { intros l I. unfold page_of. do 2 f_equal. apply data_eq. apply other_stem; auto. rewrite stem_html by (eapply Forall_forall in NO'; eauto). intros E. apply tagged_inj in E. subst. contradiction. }
  specialize (IH s1 ND' NO').
  destruct IH as (A1 & A2 & A3 & A4 & A5 & A6).
  { intros l I. rewrite O4. cbn [main_js main_html]. rewrite !put_other by (intros ->; contradiction). apply KN. now right. }
  assert (ST : forall l, In l langs -> tagged l0 <> tagged l). { intros l I E. apply tagged_inj in E. subst. contradiction. }
  repeat split.
  - rewrite A1, O4. reflexivity.
  - rewrite A2, O4. cbn [main_js]. rewrite put_new by auto. rewrite <- app_assoc. reflexivity.
  - assert (M3 : main_html s1 = put (main_html s) l0 (hname l0 (page_of s l0))) by (rewrite O4; reflexivity). rewrite A3, M3. rewrite put_new by auto. rewrite <- app_assoc. cbn [app map]. do 2 f_equal. apply map_ext_in. intros l I. cbv beta. now rewrite PG.
  - intros k K. rewrite A4 by (intros l I; apply K; now right). apply other_stem; auto. apply K. now left.
  - destruct H as [<-|I]; [|destruct (A5 _ I) as (B1 & _); exact B1]. rewrite A4; [exact O1|]. intros l2 I2. rewrite stem_jn by auto. auto.
  - destruct H as [<-|I]; [|destruct (A5 _ I) as (_ & B2 & _); rewrite PG in B2 by exact I; exact B2]. rewrite A4; [exact O2|]. intros l2 I2. rewrite stem_hn by auto. auto.
  - destruct H as [<-|I]; [|destruct (A5 _ I) as (_ & _ & B3 & _); exact B3]. rewrite A4; [exact O3|]. intros l2 I2. rewrite stem_html by auto. auto.
  - destruct H as [<-|I]; [|destruct (A5 _ I) as (_ & _ & _ & B4); rewrite PG in B4 by exact I; exact B4]. rewrite A6 by auto. rewrite O4. cbn [served]. apply put_same.
  - intros l NI2. rewrite A6 by (intros I; apply NI2; now right). rewrite O4. cbn [served]. apply put_other. intros ->. apply NI2. now left.
Qed.

(** * The service worker and the style sheets *)
Lemma workers_other d k : hd_error k <> Some 115 -> forall l g,
  entry (fold_left (fun g e => compressed by_name encodings (put g (sw_name (fst e)) (sw_of mini_js d (snd e))) (sw_name (fst e))) l g) k = entry g k.
Proof.
  intros K. induction l as [|e l IH]; intros g; [reflexivity|]. cbn [fold_left]. rewrite IH.
  rewrite compressed_other. 2:{ intros ce ext f _ _ ->. apply K. reflexivity. } apply put_other. intros ->. apply K. reflexivity.
Qed.
Lemma refs_other old new k : forall js g, ~ In k (map snd js) -> entry (rewrite_refs g old new js) k = entry g k.
Proof.
  unfold rewrite_refs. induction js as [|e js IH]; intros g K; [reflexivity|]. cbn [fold_left map In] in *. rewrite IH by tauto. apply put_other. intuition congruence.
Qed.
Lemma refs_own old new k b : forall js g, NoDup (map snd js) -> In k (map snd js) -> entry g k = Some b -> entry (rewrite_refs g old new js) k = Some (ReplaceAll b old new).
Proof.
  induction js as [|e js IH]; intros g ND I E; [contradiction|]. cbn [map] in *. inversion ND as [|? ? NI ND']; subst. unfold rewrite_refs. cbn [fold_left]. fold (rewrite_refs (put g (snd e) (ReplaceAll (data_of g (snd e)) old new)) old new js).
  destruct I as [<-|I].
  - rewrite refs_other by auto. rewrite put_same. now rewrite (data_entry _ _ _ E).
  - apply IH; auto. rewrite put_other; auto. intros ->. contradiction.
Qed.
End Language.

Section Sheets.
Variable mini_css : bytes -> bytes.
Variable by_name : bytes -> option compressor.
Variable encodings : list bytes.
(** The script of a language after the style sheets [l]: each in turn put out by a hashed name *)
Notation sheet_step := (ready_sheet mini_css by_name encodings).
(** a name with a prefix of two bytes *)
Definition marked (n : bytes) : Prop := exists r, n = str "h-"%string ++ r.
Lemma hash_marked c d : is_css c = true -> marked (hash_name (h_name c) d) /\ exists b, c = b ++ 46 :: str "css"%string /\ hash_name (h_name c) d = h_name b ++ str ".-"%string ++ FormatUint10 (ChecksumIEEE d) ++ 46 :: str "css"%string.
Proof.
  intros C. assert (X : exists b, c = b ++ 46 :: str "css"%string).
  { unfold is_css in C. apply beq_eq in C. unfold uri_of, Rename in C. cbn [extension_] in C.
    destruct (in_dec Z.eq_dec 46 c) as [I|I].
    - assert (L : exists a e, c = a ++ 46 :: e /\ ~ In 46 e).
      { clear C. induction c as [|x c IH]; [contradiction|]. destruct (in_dec Z.eq_dec 46 c) as [J|J].
        - destruct (IH J) as (a & e & -> & N). exists (x :: a), e. auto.
        - destruct I as [->|I]; [|contradiction]. exists [], c. auto. }
      destruct L as (a & e & -> & N). rewrite ext_of in C by auto. subst e. now exists a.
    - destruct (proj1 (FileTheorems.C54_extension_partial no_uri c) I) as (E & _). change (Extension c = []) in E. rewrite E in C. discriminate. }
  destruct X as (b & ->). unfold h_name. rewrite app_assoc. rewrite hash_shape by apply css_no. split; [|exists b; split; reflexivity].
  exists (b ++ str ".-"%string ++ FormatUint10 (ChecksumIEEE d) ++ 46 :: str "css"%string). now rewrite <- app_assoc.
Qed.
Lemma sheet_dl s c k : is_css c = true -> ~ marked k -> entry (dl (ready_sheet mini_css by_name encodings s c)) k = entry (dl s) k.
Proof.
  intros C K. unfold ready_sheet. cbn [dl]. destruct (hash_marked c (mini_css (data_of (dl s) c)) C) as (M & _). set (h := hash_name _ _) in *.
  rewrite compressed_other. 2:{ intros ce ext f _ _ ->. apply K. destruct M as (r & ->). exists (r ++ [46] ++ ext). now rewrite <- app_assoc. }
  unfold put_hashed. fold h. rewrite put_other by (intros ->; auto). apply remove_other. intros ->. apply K. now exists c.
Qed.
(** With no sheet marked, each is replaced by the hashed name of its minified text *)
Lemma sheets_exact : forall l s, Forall (fun c => is_css c = true /\ ~ marked c) l ->
  let s' := fold_left (ready_sheet mini_css by_name encodings) l s in
  (forall k, ~ marked k -> entry (dl s') k = entry (dl s) k) /\ main_js s' = main_js s /\
  (NoDup (map snd (main_js s)) -> forall k b, In k (map snd (main_js s)) -> entry (gui s) k = Some b ->
    entry (gui s') k = Some (fold_left (fun b c => ReplaceAll b c (hash_name (h_name c) (mini_css (data_of (dl s) c)))) l b)).
Proof.
  induction l as [|c l IH]; intros s F; cbv zeta.
  { cbn. repeat split; auto. }
  inversion F as [|? ? (C & M) F']; subst. cbn [fold_left]. set (s1 := ready_sheet mini_css by_name encodings s c).
  assert (D : forall k, ~ marked k -> entry (dl s1) k = entry (dl s) k) by (intros k K; now apply sheet_dl).
  destruct (IH s1 F') as (A1 & A2 & A3). repeat split.
  - intros k K. rewrite A1 by auto. auto.
  - rewrite A2. reflexivity.
  - intros ND k b I E. erewrite A3; [|exact ND|exact I|].
    2:{ subst s1. unfold ready_sheet. cbn [gui]. apply refs_own; eauto. }
    f_equal. generalize (ReplaceAll b c (hash_name (h_name c) (mini_css (data_of (dl s) c)))). clear - F' D.
    induction l as [|c2 l IH]; intros b; [reflexivity|]. cbn [fold_left]. inversion F' as [|? ? (_ & M2) F2]; subst. rewrite (data_eq _ _ _ (D c2 M2)). now apply IH.
Qed.
Lemma sheets_refs : forall l s, exists refs, map fst refs = l /\ (forall c h, In (c, h) refs -> exists d, h = hash_name (h_name c) d) /\
  let s' := fold_left sheet_step l s in
  main_js s' = main_js s /\ main_html s' = main_html s /\ served s' = served s /\
  (forall k, ~ In k (map snd (main_js s)) -> entry (gui s') k = entry (gui s) k) /\
  (NoDup (map snd (main_js s)) -> forall k b, In k (map snd (main_js s)) -> entry (gui s) k = Some b -> entry (gui s') k = Some (fold_left (fun b e => ReplaceAll b (fst e) (snd e)) refs b)).
Proof.
  induction l as [|c l IH]; intros s.
  { exists []. cbn. repeat split; auto; intros ? ? []. }
  set (d := mini_css (data_of (dl s) c)). destruct (IH (sheet_step s c)) as (refs & R1 & R2 & R3). cbv zeta in R3. destruct R3 as (A1 & A2 & A3 & A4 & A5).
  exists ((c, hash_name (h_name c) d) :: refs). cbn [map fst fold_left]. split; [now rewrite R1|]. split.
  { intros c' h [E|I]; [|eauto]. injection E as <- <-. now exists d. }
  cbv zeta. unfold ready_sheet in A1, A2, A3, A4, A5 at 1. cbn [main_js main_html served gui] in A1, A2, A3, A4, A5.
  change (main_js (sheet_step s c)) with (main_js s) in *.
  repeat split; auto.
  - intros k K. rewrite A4 by auto. unfold ready_sheet. cbn [gui]. now apply refs_other.
  - intros ND k b I E. apply A5; auto. unfold ready_sheet. cbn [gui]. fold d. cbn [snd]. now apply refs_own.
Qed.
End Sheets.
