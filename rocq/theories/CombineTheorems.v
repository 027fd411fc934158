(** C148 to C153: scripts, pages, style sheets, workers and landing pages put together, compressed copies. *)
From Coq Require Import String ZifyBool ZifyNat Permutation.
From Verif Require Import Go GoFacts StrconvModel StringsModel StringsProofs UriModel FileModel TreeModel WwwModel WwwSpec WwwProofs CombineModel CombineSpec CombineProofs.
From Verif Require FileTheorems TreeTheorems WwwTheorems.
Import ListNotations.
Local Open Scope Z_scope.
Local Open Scope list_scope.

Section Site.
Variables mini_html mini_css mini_js : bytes -> bytes.
Variable sdk : bytes -> bytes.
Variable by_name : bytes -> option compressor.
Variable encodings : list bytes.
Notation upd := (update mini_html mini_css mini_js sdk by_name encodings).

Lemma bundle_text mixed lang : bundle_of sdk mixed lang = str "
"%string ++ in_language lang mixed ++ sdk lang.
Proof.
  unfold bundle_of. change (str "
"%string) with [10]. rewrite app_assoc. f_equal.
  assert (G : forall l acc, fold_left (addLocalized lang) l acc = acc ++ in_language lang l).
  { induction l as [|m l IH]; intros acc; cbn [fold_left in_language flat_map]; [now rewrite app_nil_r|].
    rewrite IH. unfold addLocalized. fold (in_language lang l). destruct (entry m lang); [now rewrite app_assoc|reflexivity]. }
  apply G.
Qed.
Definition start (s : site) : site := Site (gui s) (dl s) (served s) [] [].
Lemma names_nodup mixed langs : NoDup langs -> Forall (fun l => ~ In 46 l) langs -> NoDup (map snd (map (fun l => (l, jname l (bundle_of sdk mixed l))) langs)).
Proof.
  intros ND F. rewrite map_map. cbn [snd]. induction ND as [|l r NI ND IH]; [constructor|]. inversion F as [|? ? N F']; subst. cbn [map]. constructor; auto.
  intros I. apply in_map_iff in I. destruct I as (m & E & I). apply (f_equal stem) in E. rewrite !stem_jn in E; auto; [|eapply Forall_forall in F'; eauto].
  apply tagged_inj in E. congruence.
Qed.
(** what an update leaves of the script and the page of a language *)
Lemma after_update mixed sw p langs s : own_extensions by_name -> NoDup langs -> Forall (fun l => ~ In 46 l) langs ->
  exists refs, map fst refs = filter is_css (map fst (dl s)) /\ (forall c h, In (c, h) refs -> exists d, h = hash_name (h_name c) d) /\
  let s' := upd (Some p) sw langs mixed s in
  forall l, In l langs ->
    entry (main_js s') l = Some (jname l (bundle_of sdk mixed l)) /\
    entry (gui s') (jname l (bundle_of sdk mixed l)) = Some (fold_left (fun b e => ReplaceAll b (fst e) (snd e)) refs (bundle_of sdk mixed l)) /\
    entry (main_html s') l = Some (hname l (page_of mini_html sdk mixed s l)) /\
    entry (gui s') (hname l (page_of mini_html sdk mixed s l)) = Some (page_of mini_html sdk mixed s l) /\
    entry (served s') l = Some (page_of mini_html sdk mixed s l) /\
    entry (gui s') (html_name l) = None.
Proof.
  intros EX ND F.
  set (s1 := readyAppJSFiles mini_html sdk by_name encodings (Some p) langs mixed (start s)).
  set (s2 := readySWFile mini_js by_name encodings sw s1).
  pose proof (all_languages mini_html sdk by_name encodings mixed EX langs (start s) ND F) as A. cbv zeta in A.
  change (fold_left (ready_lang mini_html sdk by_name encodings mixed) langs (start s)) with s1 in A.
  destruct A as (A1 & A2 & A3 & A4 & A5 & A6). { intros. split; reflexivity. }
  assert (W : forall k, hd_error k <> Some 115 -> entry (gui s2) k = entry (gui s1) k).
  { intros k K. subst s2. unfold readySWFile. destruct sw; [|reflexivity]. cbn [gui]. now apply workers_other. }
  assert (M2 : main_js s2 = main_js s1 /\ main_html s2 = main_html s1 /\ served s2 = served s1 /\ dl s2 = dl s1).
  { subst s2. unfold readySWFile. destruct sw; cbn; auto. }
  destruct M2 as (M2 & H2 & V2 & D2).
  destruct (sheets_refs mini_css by_name encodings (filter is_css (map fst (dl s2))) s2) as (refs & R1 & R2 & R3). cbv zeta in R3.
  destruct R3 as (B1 & B2 & B3 & B4 & B5).
  exists refs. rewrite D2, A1 in R1. cbn [dl start] in R1. split; [exact R1|]. split; [exact R2|]. cbv zeta.
  change (upd (Some p) sw langs mixed s) with (fold_left (ready_sheet mini_css by_name encodings) (filter is_css (map fst (dl s2))) s2).
  intros l I. assert (Nl : ~ In 46 l) by (eapply Forall_forall in F; eauto). destruct (A5 l I) as (C1 & C2 & C3 & C4).
  change (page_of mini_html sdk mixed (start s) l) with (page_of mini_html sdk mixed s l) in *.
  cbn [main_js main_html start app] in A2, A3.
  assert (EN : forall f : bytes -> bytes, entry (map (fun l => (l, f l)) langs) l = Some (f l)).
  { intros f. clear - I. induction langs as [|x r IH]; [contradiction|]. cbn [map entry]. destruct (beq x l) eqn:E; [apply beq_eq in E; now subst|].
    destruct I as [->|I]; [now rewrite beq_refl in E|auto]. }
  assert (HM : forall x, hd_error (tagged x) <> Some 115) by (intros; discriminate).
  assert (HD : forall x r, hd_error (tagged x ++ r) <> Some 115) by (intros; discriminate).
  assert (NS : forall k, (forall b x, k <> jname x b) -> ~ In k (map snd (main_js s2))).
  { intros k K IK. rewrite M2, A2, map_map in IK. apply in_map_iff in IK. destruct IK as (x & E & _). now apply (K (bundle_of sdk mixed x) x). }
  repeat apply conj.
  - rewrite B1, M2, A2. apply (EN (fun l => jname l (bundle_of sdk mixed l))).
  - apply B5.
    + rewrite M2, A2. now apply names_nodup.
    + rewrite M2, A2, map_map. cbn [snd]. now apply (in_map (fun l => jname l (bundle_of sdk mixed l))).
    + rewrite W; [exact C1|]. rewrite jname_eq, <- !app_assoc. apply HD.
  - rewrite B2, H2, A3. apply (EN (fun l => hname l (page_of mini_html sdk mixed s l))).
  - rewrite B4. + rewrite W; [exact C2|]. rewrite hname_eq, <- !app_assoc. apply HD.
    + apply NS. intros b x E. apply (f_equal Extension) in E. rewrite ext_hn, ext_jn in E. discriminate.
  - rewrite B3, V2. exact C4.
  - rewrite B4. + rewrite W; [exact C3|]. rewrite html_name_eq. apply HD.
    + apply NS. intros b x E. apply (f_equal Extension) in E. rewrite html_name_eq, ext_jn, ext_of in E by apply html_no. discriminate.
Qed.
End Site.

(** C148.  For every project, set of languages and minifiers: after an update each language has its own
    script, named by the hash of its text: a line feed, every module's text in that language in the order of
    the bundle, and the error texts.  In it each style sheet's name is then put out by the hashed one, for
    one sheet after the other. *)
Theorem C148_script_partial : forall mini_html mini_css mini_js sdk by_name encodings mixed sw p langs s,
  own_extensions by_name -> NoDup langs -> Forall (fun l => ~ In 46 l) langs ->
  let s' := update mini_html mini_css mini_js sdk by_name encodings (Some p) sw langs mixed s in
  exists refs, map fst refs = filter is_css (map fst (dl s)) /\
  forall l, In l langs ->
    let text := str "
"%string ++ in_language l mixed ++ sdk l in
    let name := str "main-"%string ++ l ++ str ".-"%string ++ FormatUint10 (ChecksumIEEE text) ++ str ".js"%string in
    entry (main_js s') l = Some name /\
    holds_file (gui s') name (fold_left (fun b e => ReplaceAll b (fst e) (snd e)) refs text).
Proof.
  intros mh mc mj sdk bn encs mixed sw p langs s EX ND F s'. destruct (after_update mh mc mj sdk bn encs mixed sw p langs s EX ND F) as (refs & R1 & R2 & R3).
  exists refs. split; [exact R1|]. intros l I text name. destruct (R3 l I) as (A & B & _). rewrite bundle_text in A, B. fold text in A, B.
  assert (N : jname l text = name). { rewrite jname_eq. unfold name, tagged. rewrite <- !app_assoc. reflexivity. }
  rewrite N in A, B. split; [exact A|exact B].
Qed.
Print Assumptions C148_script_partial.
(** With no style sheets the script is that text, so its name is made from what it holds. *)
Theorem C148_plain_partial : forall mini_html mini_css mini_js sdk by_name encodings mixed sw p langs s l,
  own_extensions by_name -> NoDup langs -> Forall (fun l => ~ In 46 l) langs -> filter is_css (map fst (dl s)) = [] -> In l langs ->
  let s' := update mini_html mini_css mini_js sdk by_name encodings (Some p) sw langs mixed s in
  exists name text, entry (main_js s') l = Some name /\ holds_file (gui s') name text /\
    text = str "
"%string ++ in_language l mixed ++ sdk l /\ hashed_name (Rename no_uri (str "main-"%string ++ l ++ str ".js"%string)) text = Ok name.
Proof.
  intros mh mc mj sdk bn encs mixed sw p langs s l EX ND F NC I s'. destruct (after_update mh mc mj sdk bn encs mixed sw p langs s EX ND F) as (refs & R1 & _ & R3).
  rewrite NC in R1. destruct refs; [|discriminate]. destruct (R3 l I) as (A & B & _). exists (jname l (bundle_of sdk mixed l)), (bundle_of sdk mixed l).
  split; [exact A|]. split; [exact B|]. split; [apply bundle_text|]. unfold jname, hash_name, uri_of. fold (js_name l).
  rewrite js_name_eq. rewrite (proj1 (TreeTheorems.C146_name_refuted no_uri _) _ _ js_no). reflexivity.
Qed.
Print Assumptions C148_plain_partial.
(** A module without texts in a language is left out of its script, though the log says it is used as it is. *)
Theorem C148_left_out_refuted : forall mini_html mini_css mini_js sdk by_name encodings a m c sw p langs s,
  Forall (fun l => entry m l = None) langs ->
  update mini_html mini_css mini_js sdk by_name encodings (Some p) sw langs (a ++ m :: c) s =
  update mini_html mini_css mini_js sdk by_name encodings (Some p) sw langs (a ++ c) s.
Proof.
  intros mh mc mj sdk bn encs a m c sw p langs s F. unfold update. do 2 f_equal. unfold readyAppJSFiles.
  generalize (Site (gui s) (dl s) (served s) [] []). induction langs as [|l langs IH]; intros t; [reflexivity|]. inversion F as [|? ? N F']; subst.
  cbn [fold_left]. rewrite IH by auto. f_equal. unfold ready_lang. cbv zeta.
  assert (E : bundle_of sdk (a ++ m :: c) l = bundle_of sdk (a ++ c) l).
  { rewrite !bundle_text. unfold in_language. rewrite !flat_map_app. cbn [flat_map]. rewrite N. reflexivity. }
  now rewrite E.
Qed.
Print Assumptions C148_left_out_refuted.
Definition proj148 : site := Site [] [] [] [] [].
Definition mixed148 : list (list (bytes * bytes)) := [[(str "en"%string, str "hello()"%string); (str "fa"%string, str "salam()"%string)]; [(str "en"%string, str "end()"%string)]].
Example C148_nonvacuous : own_extensions (fun _ => Some (str "gz"%string, Some)) /\
  let s := update (fun x => x) (fun x => x) (fun x => x) (fun _ => str ";"%string) (fun _ => None) [] (Some []) None [str "en"%string; str "fa"%string] mixed148 proj148 in
  main_js s = [(str "en"%string, str "main-en.-2358791337.js"%string); (str "fa"%string, str "main-fa.-2902626439.js"%string)] /\
  entry (gui s) (str "main-fa.-2902626439.js"%string) = Some (str "
salam();"%string).
Proof. split; [|vm_compute; auto]. intros ce ext f E. injection E as <- <-. repeat split; try discriminate. cbn. lia. Qed.

(** C149.  When no sheet's name starts with "h-": in the script each sheet's name, for one sheet after the
    other as listed, is put out by the name of its minified copy, which has its hash. *)
Section Exact.
Variables mini_html mini_css mini_js : bytes -> bytes.
Variable sdk : bytes -> bytes.
Variable by_name : bytes -> option compressor.
Variable encodings : list bytes.
Lemma exact_update mixed sw p langs s : own_extensions by_name -> NoDup langs -> Forall (fun l => ~ In 46 l) langs ->
  Forall (fun c => ~ marked c) (map fst (dl s)) ->
  let s' := update mini_html mini_css mini_js sdk by_name encodings (Some p) sw langs mixed s in
  (forall k, ~ marked k -> entry (dl s') k = entry (dl s) k) /\
  forall l, In l langs ->
    entry (main_js s') l = Some (jname l (bundle_of sdk mixed l)) /\
    entry (gui s') (jname l (bundle_of sdk mixed l)) =
      Some (fold_left (fun b c => ReplaceAll b c (hash_name (h_name c) (mini_css (data_of (dl s) c)))) (filter is_css (map fst (dl s))) (bundle_of sdk mixed l)).
Proof.
  intros EX ND F U s'. destruct (after_update mini_html mini_css mini_js sdk by_name encodings mixed sw p langs s EX ND F) as (rf & _ & _ & R). cbv zeta in R. fold s' in R.
  set (s1 := readyAppJSFiles mini_html sdk by_name encodings (Some p) langs mixed (start s)).
  set (s2 := readySWFile mini_js by_name encodings sw s1).
  pose proof (all_languages mini_html sdk by_name encodings mixed EX langs (start s) ND F) as A. cbv zeta in A.
  change (fold_left (ready_lang mini_html sdk by_name encodings mixed) langs (start s)) with s1 in A.
  destruct A as (A1 & A2 & A3 & A4 & A5 & A6). { intros. split; reflexivity. }
  assert (M2 : main_js s2 = main_js s1 /\ dl s2 = dl s). { subst s2. unfold readySWFile. destruct sw; cbn [main_js dl]; rewrite A1; auto. }
  destruct M2 as (M2 & D2).
  assert (S' : s' = fold_left (ready_sheet mini_css by_name encodings) (filter is_css (map fst (dl s2))) s2) by reflexivity. rewrite D2 in S'.
  destruct (sheets_exact mini_css by_name encodings (filter is_css (map fst (dl s))) s2) as (B1 & B2 & B3).
  { apply Forall_forall. intros c I. apply filter_In in I. destruct I as (I & C). split; [exact C|]. eapply Forall_forall in U; eauto. }
  rewrite <- S' in B1, B3. rewrite D2 in B1, B3. split; [exact B1|]. intros l I. split; [destruct (R l I) as (Q & _); exact Q|].
  rewrite M2, A2 in B3. cbn [main_js start app] in B3. apply B3.
  - now apply names_nodup.
  - rewrite map_map. cbn [snd]. now apply (in_map (fun l => jname l (bundle_of sdk mixed l))).
  - destruct (A5 l I) as (Q & _). subst s2. unfold readySWFile. destruct sw; [|exact Q]. cbn [gui]. rewrite workers_other; [exact Q|].
    rewrite jname_eq, <- !app_assoc. discriminate.
Qed.
End Exact.
Theorem C149_sheets_partial : forall mini_html mini_css mini_js sdk by_name encodings mixed sw p langs s,
  own_extensions by_name -> NoDup langs -> Forall (fun l => ~ In 46 l) langs -> Forall (fun c => ~ marked c) (map fst (dl s)) ->
  let s' := update mini_html mini_css mini_js sdk by_name encodings (Some p) sw langs mixed s in
  exists new, (forall b data, holds_file (dl s) (b ++ str ".css"%string) data ->
      new (b ++ str ".css"%string) = str "h-"%string ++ b ++ str ".-"%string ++ FormatUint10 (ChecksumIEEE (mini_css data)) ++ str ".css"%string) /\
  forall l, In l langs -> exists name, entry (main_js s') l = Some name /\
    holds_file (gui s') name (fold_left (fun b c => ReplaceAll b c (new c)) (filter is_css (map fst (dl s))) (str "
"%string ++ in_language l mixed ++ sdk l)).
Proof.
  intros mh mc mj sdk bn encs mixed sw p langs s EX ND F U s'. exists (fun c => hash_name (h_name c) (mc (data_of (dl s) c))). split.
  - intros b data H. rewrite (data_entry _ _ _ H). unfold h_name. change (b ++ str ".css"%string) with (b ++ 46 :: str "css"%string). rewrite app_assoc, hash_shape by apply css_no. rewrite <- app_assoc. reflexivity.
  - intros l I. destruct (exact_update mh mc mj sdk bn encs mixed sw p langs s EX ND F U) as (_ & R). destruct (R l I) as (A & B). rewrite bundle_text in A, B.
    eexists. split; [exact A|exact B].
Qed.
Print Assumptions C149_sheets_partial.
(** With one sheet: every reference in the script is put out by the name of a file that is there and holds
    the minified sheet, and the sheet itself stays. *)
Lemma copy_there mini_css by_name encodings s c d : is_css c = true -> dl s = [(c, d)] ->
  entry (dl (ready_sheet mini_css by_name encodings s c)) (hash_name (h_name c) (mini_css d)) = Some (mini_css d).
Proof.
  intros C D. unfold ready_sheet. cbn [dl]. assert (E : data_of (dl s) c = d). { rewrite D. unfold data_of. cbn [entry]. now rewrite beq_refl. } rewrite E.
  rewrite compressed_self. unfold put_hashed. apply put_same.
Qed.
Lemma is_css_sheet c : sheet c -> is_css c = true.
Proof. intros (b & ->). unfold is_css, uri_of, Rename. cbn [extension_]. change (b ++ str ".css"%string) with (b ++ 46 :: str "css"%string). rewrite ext_of by apply css_no. reflexivity. Qed.
Lemma sheet_nonempty c : sheet c -> c <> [].
Proof. intros (b & ->) H. apply app_eq_nil in H. destruct H. discriminate. Qed.
Theorem C149_one_partial : forall mini_html mini_css mini_js sdk by_name encodings mixed sw p langs g v js h c d l,
  own_extensions by_name -> NoDup langs -> Forall (fun l => ~ In 46 l) langs -> sheet c -> ~ marked c -> In l langs ->
  let s' := update mini_html mini_css mini_js sdk by_name encodings (Some p) sw langs mixed (Site g [(c, d)] v js h) in
  exists name new script, entry (main_js s') l = Some name /\ holds_file (gui s') name script /\
    replaced c new (str "
"%string ++ in_language l mixed ++ sdk l) script /\
    holds_file (dl s') new (mini_css d) /\ holds_file (dl s') c d.
Proof.
  intros mh mc mj sdk bn encs mixed sw p langs g v js h c d l EX ND F C U I s'. set (s := Site g [(c, d)] v js h) in *.
  assert (FC : filter is_css (map fst (dl s)) = [c]). { change (filter is_css [c] = [c]). cbn [filter]. now rewrite (is_css_sheet c C). }
  destruct (exact_update mh mc mj sdk bn encs mixed sw p langs s EX ND F) as (D & R). { repeat constructor; auto. }
  destruct (R l I) as (A & B). rewrite FC in B. cbn [fold_left] in B. rewrite bundle_text in A, B.
  assert (E : data_of (dl s) c = d). { unfold data_of. cbn. now rewrite beq_refl. } rewrite E in B.
  do 3 eexists. split; [exact A|]. split; [exact B|]. split; [eapply replaced_all; [now apply sheet_nonempty|apply Nat.lt_succ_diag_r]|].
  split.
  - unfold holds_file, s', update, readyDesignLanguagesFiles.
    set (s2 := readySWFile _ _ _ _ _).
    assert (D2 : dl s2 = [(c, d)]). { subst s2. pose proof (all_languages mh sdk bn encs mixed EX langs (start s) ND F) as Q. cbv zeta in Q.
      destruct Q as (Q & _). { intros; split; reflexivity. } unfold readySWFile, readyAppJSFiles. fold (start s). destruct sw; cbn [dl]; exact Q. }
    rewrite D2. cbn [map fst filter]. rewrite (is_css_sheet c C). cbn [fold_left]. apply copy_there; [now apply is_css_sheet|exact D2].
  - unfold holds_file. rewrite D by auto. cbn. now rewrite beq_refl.
Qed.
Print Assumptions C149_one_partial.
(** But the script was named before that: for every script with a reference to a sheet, when the sheet
    changes (so that its hash does), the script's contents change while its name stays the same, *)
Theorem C149_stale_refuted : forall mini_html mini_css mini_js sdk by_name encodings mixed sw p langs g v js h c d1 d2 l,
  own_extensions by_name -> NoDup langs -> Forall (fun l => ~ In 46 l) langs -> sheet c -> ~ marked c -> In l langs ->
  occurs c (in_language l mixed) ->
  FormatUint10 (ChecksumIEEE (mini_css d1)) <> FormatUint10 (ChecksumIEEE (mini_css d2)) ->
  let s1 := update mini_html mini_css mini_js sdk by_name encodings (Some p) sw langs mixed (Site g [(c, d1)] v js h) in
  let s2 := update mini_html mini_css mini_js sdk by_name encodings (Some p) sw langs mixed (Site g [(c, d2)] v js h) in
  exists name t1 t2, entry (main_js s1) l = Some name /\ entry (main_js s2) l = Some name /\
    holds_file (gui s1) name t1 /\ holds_file (gui s2) name t2 /\ t1 <> t2.
Proof.
  intros mh mc mj sdk bn encs mixed sw p langs g v js h c d1 d2 l EX ND F C U I O NE s1 s2.
  assert (G : forall d, let s := Site g [(c, d)] v js h in let s' := update mh mc mj sdk bn encs (Some p) sw langs mixed s in
    entry (main_js s') l = Some (jname l (bundle_of sdk mixed l)) /\ entry (gui s') (jname l (bundle_of sdk mixed l)) = Some (ReplaceAll (bundle_of sdk mixed l) c (hash_name (h_name c) (mc d)))).
  { intros d s s'. destruct (exact_update mh mc mj sdk bn encs mixed sw p langs s EX ND F) as (D & R). { repeat constructor; auto. }
    destruct (R l I) as (A & B). assert (FC : filter is_css (map fst (dl s)) = [c]). { change (filter is_css [c] = [c]). cbn [filter]. now rewrite (is_css_sheet c C). } rewrite FC in B. cbn [fold_left] in B.
    assert (E : data_of (dl s) c = d). { unfold data_of. cbn. now rewrite beq_refl. } rewrite E in B. split; [exact A|exact B]. }
  destruct (G d1) as (A1 & B1). destruct (G d2) as (A2 & B2). do 3 eexists. split; [exact A1|]. split; [exact A2|]. split; [exact B1|]. split; [exact B2|].
  intros E. apply replace_tells in E.
  - destruct (hash_marked c (mc d1) (is_css_sheet c C)) as (_ & b1 & C1 & H1). destruct (hash_marked c (mc d2) (is_css_sheet c C)) as (_ & b2 & C2 & H2).
    rewrite H1, H2 in E. rewrite C1 in C2. apply app_inv_tail in C2. subst b2. do 2 apply app_inv_head in E. apply app_inv_tail in E. contradiction.
  - now apply sheet_nonempty.
  - rewrite bundle_text. destruct O as (a & r & ->). exists (str "
"%string ++ a), (r ++ sdk l). rewrite <- !app_assoc. reflexivity.
Qed.
Print Assumptions C149_stale_refuted.
(** and a compressed copy of the script keeps the references to the sheets as they were. *)
Theorem C149_copy_refuted : forall mini_html mini_css mini_js sdk by_name ce ext f z mixed sw p s l,
  own_extensions by_name -> ~ In 46 l -> by_name ce = Some (ext, f) -> f (str "
"%string ++ in_language l mixed ++ sdk l) = Some z ->
  let s' := update mini_html mini_css mini_js sdk by_name [ce] (Some p) sw [l] mixed s in
  exists name, entry (main_js s') l = Some name /\ holds_file (gui s') (name ++ str "."%string ++ ext) z.
Proof.
  intros mh mc mj sdk bn ce ext f z mixed sw p s l EX Nl B FZ s'.
  destruct (after_update mh mc mj sdk bn [ce] mixed sw p [l] s EX) as (rf & _ & _ & R). { repeat constructor; auto. } { repeat constructor; auto. }
  destruct (R l (or_introl eq_refl)) as (A & _). exists (jname l (bundle_of sdk mixed l)). split; [exact A|]. unfold holds_file.
  set (k := jname l (bundle_of sdk mixed l) ++ str "."%string ++ ext).
  set (s1 := ready_lang mh sdk bn [ce] mixed (start s) l). set (s2 := readySWFile mj bn [ce] sw s1).
  assert (K1 : entry (gui s1) k = Some z). { apply (own_copy mh sdk bn [ce] mixed EX (start s) l ce ext f z); auto. now rewrite bundle_text. }
  assert (K2 : entry (gui s2) k = Some z).
  { subst s2. unfold readySWFile. destruct sw; [|exact K1]. cbn [gui]. rewrite workers_other; [exact K1|]. unfold k. rewrite jname_eq, <- !app_assoc. discriminate. }
  assert (M2 : main_js s2 = [(l, jname l (bundle_of sdk mixed l))]). { subst s2. unfold readySWFile. destruct sw; reflexivity. }
  destruct (sheets_refs mc bn [ce] (filter is_css (map fst (dl s2))) s2) as (refs & _ & _ & _ & _ & _ & Q & _).
  change s' with (fold_left (ready_sheet mc bn [ce]) (filter is_css (map fst (dl s2))) s2). rewrite Q; [exact K2|].
  rewrite M2. cbn [map snd In]. intros [H|[]]. unfold k in H. apply (f_equal (@length Z)) in H. rewrite !app_length in H. change (length (str "."%string)) with 1%nat in H. lia.
Qed.
Print Assumptions C149_copy_refuted.
(** A sheet whose name ends in that of another one loses its reference: nothing is under the name put in. *)
Theorem C149_inside_refuted : exists s l name script a r x,
  let s' := update (fun x => x) (fun x => x) (fun x => x) (fun _ => []) (fun _ => None) [] (Some []) None [l] [[(l, str "use('data.css')"%string)]] s in
  map fst (dl s) = [str "a.css"%string; str "data.css"%string] /\ entry (main_js s') l = Some name /\ entry (gui s') name = Some script /\
  script = a ++ x ++ r /\ a = str "
use('"%string /\ r = str "')"%string /\ entry (dl s') x = None /\ x <> str "data.css"%string.
Proof.
  exists (Site [] [(str "a.css"%string, str "p{}"%string); (str "data.css"%string, str "q{}"%string)] [] [] []), (str "en"%string).
  eexists. eexists. exists (str "
use('"%string), (str "')"%string), (str "dath-a.-1238310142.css"%string). cbv zeta. split; [reflexivity|]. split; [vm_compute; reflexivity|]. split; [vm_compute; reflexivity|].
  split; [vm_compute; reflexivity|]. repeat split; try (vm_compute; reflexivity). discriminate.
Qed.
Print Assumptions C149_inside_refuted.
Example C149_nonvacuous : let c := str "a.css"%string in let l := str "en"%string in let mixed := [[(l, str "use('a.css')"%string)]] in
  sheet c /\ ~ marked c /\ occurs c (in_language l mixed) /\
  FormatUint10 (ChecksumIEEE (str "p{}"%string)) <> FormatUint10 (ChecksumIEEE (str "q{}"%string)) /\
  gui (update (fun x => x) (fun x => x) (fun x => x) (fun _ => []) (fun _ => Some (str "gz"%string, fun x => Some (90 :: x))) [l] (Some []) None [l] mixed (Site [] [(c, str "p{}"%string)] [] [] [])) =
    [(str "main-en.-1793702794.js"%string, str "
use('h-a.-1238310142.css')"%string); (str "main-en.-1793702794.js.gz"%string, 90 :: str "
use('a.css')"%string); (str "main-en.-0.html"%string, []); (str "main-en.-0.html.gz"%string, [90])].
Proof.
  cbv zeta. split; [now exists (str "a"%string)|]. split; [intros (r & E); discriminate|]. split; [now exists (str "use('"%string), (str "')"%string)|].
  split; [vm_compute; discriminate|]. vm_compute. reflexivity.
Qed.

(** C150.  The page served for a language is the file main-<language>.html of the directory, minified, with
    the first "/main.js" in it put out by the name of that language's script; it is stored under a hashed name too. *)
Theorem C150_page_partial : forall mini_html mini_css mini_js sdk by_name encodings mixed sw p langs s l,
  own_extensions by_name -> NoDup langs -> Forall (fun l => ~ In 46 l) langs -> In l langs ->
  let s' := update mini_html mini_css mini_js sdk by_name encodings (Some p) sw langs mixed s in
  exists script page stored, entry (main_js s') l = Some script /\ entry (served s') l = Some page /\
    entry (main_html s') l = Some stored /\ holds_file (gui s') stored page /\
    hashed_name (Rename no_uri (str "main-"%string ++ l ++ str ".html"%string)) page = Ok stored /\
    (forall file a r, holds_file (gui s) (str "main-"%string ++ l ++ str ".html"%string) file -> mini_html file = a ++ str "/main.js"%string ++ r -> ~ occurs (str "/main.js"%string) a -> page = a ++ script ++ r) /\
    (forall file, holds_file (gui s) (str "main-"%string ++ l ++ str ".html"%string) file -> ~ occurs (str "/main.js"%string) (mini_html file) -> page = mini_html file).
Proof.
  intros mh mc mj sdk bn encs mixed sw p langs s l EX ND F I s'. destruct (after_update mh mc mj sdk bn encs mixed sw p langs s EX ND F) as (rf & _ & _ & R).
  destruct (R l I) as (A & _ & B & C & D & _). do 3 eexists. split; [exact A|]. split; [exact D|]. split; [exact B|]. split; [exact C|]. split.
  { unfold hname, hash_name, uri_of. fold (html_name l). rewrite html_name_eq. rewrite (proj1 (TreeTheorems.C146_name_refuted no_uri _) _ _ html_no). reflexivity. }
  fold (html_name l). unfold page_of. split; intros file.
  - intros a r H E O. rewrite (data_entry _ _ _ H), E. change (str "/main.js"%string) with (47 :: str "main.js"%string). apply WwwTheorems.replace1_at; [cbn; lia|exact O].
  - intros H O. rewrite (data_entry _ _ _ H). unfold Replace1. rewrite Index_none by auto. reflexivity.
Qed.
Print Assumptions C150_page_partial.
(** What landings/main.html holds never matters: the same is made from any two of them; *)
Theorem C150_main_refuted : forall mini_html mini_css mini_js sdk by_name encodings mixed sw p1 p2 langs s,
  update mini_html mini_css mini_js sdk by_name encodings (Some p1) sw langs mixed s = update mini_html mini_css mini_js sdk by_name encodings (Some p2) sw langs mixed s.
Proof. reflexivity. Qed.
Print Assumptions C150_main_refuted.
(** so where the directory has no main-<language>.html the page served is empty, *)
Theorem C150_empty_refuted : forall mini_html mini_css mini_js sdk by_name encodings mixed sw p langs s l,
  own_extensions by_name -> NoDup langs -> Forall (fun l => ~ In 46 l) langs -> In l langs -> mini_html [] = [] ->
  no_file (gui s) (str "main-"%string ++ l ++ str ".html"%string) ->
  entry (served (update mini_html mini_css mini_js sdk by_name encodings (Some p) sw langs mixed s)) l = Some [].
Proof.
  intros mh mc mj sdk bn encs mixed sw p langs s l EX ND F I E NF. destruct (after_update mh mc mj sdk bn encs mixed sw p langs s EX ND F) as (rf & _ & _ & R).
  destruct (R l I) as (_ & _ & _ & _ & D & _). rewrite D. f_equal. unfold page_of, data_of. fold (html_name l) in NF. unfold no_file in NF. rewrite NF, E. reflexivity.
Qed.
Print Assumptions C150_empty_refuted.
(** and where it has one, that file is gone after the first update and the second one serves an empty page. *)
Theorem C150_again_refuted : forall mini_html mini_css mini_js sdk by_name encodings mixed1 mixed2 sw1 sw2 p1 p2 langs s l,
  own_extensions by_name -> NoDup langs -> Forall (fun l => ~ In 46 l) langs -> In l langs -> mini_html [] = [] ->
  let s1 := update mini_html mini_css mini_js sdk by_name encodings (Some p1) sw1 langs mixed1 s in
  let s2 := update mini_html mini_css mini_js sdk by_name encodings (Some p2) sw2 langs mixed2 s1 in
  no_file (gui s1) (str "main-"%string ++ l ++ str ".html"%string) /\ entry (served s2) l = Some [].
Proof.
  intros mh mc mj sdk bn encs m1 m2 sw1 sw2 p1 p2 langs s l EX ND F I E s1 s2.
  destruct (after_update mh mc mj sdk bn encs m1 sw1 p1 langs s EX ND F) as (rf & _ & _ & R). destruct (R l I) as (_ & _ & _ & _ & _ & G).
  split; [exact G|]. now apply C150_empty_refuted.
Qed.
Print Assumptions C150_again_refuted.
(** The link put in is not from the root any more: the script's name does not start with a slash. *)
Theorem C150_relative_refuted : forall mini_html mini_css mini_js sdk by_name encodings mixed sw p langs s l script,
  own_extensions by_name -> NoDup langs -> Forall (fun l => ~ In 46 l) langs -> In l langs ->
  entry (main_js (update mini_html mini_css mini_js sdk by_name encodings (Some p) sw langs mixed s)) l = Some script -> hd_error script = Some 109.
Proof.
  intros mh mc mj sdk bn encs mixed sw p langs s l script EX ND F I H. destruct (after_update mh mc mj sdk bn encs mixed sw p langs s EX ND F) as (rf & _ & _ & R).
  destruct (R l I) as (A & _). rewrite A in H. injection H as <-. rewrite jname_eq, <- !app_assoc. reflexivity.
Qed.
Print Assumptions C150_relative_refuted.
Example C150_nonvacuous : let l := str "en"%string in let s := Site [(str "main-en.html"%string, str "<script src='/main.js'>"%string)] [] [] [] [] in
  let up := update (fun x => x) (fun x => x) (fun x => x) (fun _ => []) (fun _ => None) [] (Some (str "<html>"%string)) None [l] [[(l, str "run()"%string)]] in
  served (up s) = [(l, str "<script src='main-en.-2450305320.js'>"%string)] /\ served (up (up s)) = [(l, [])] /\
  ~ occurs (str "/main.js"%string) (str "<script src='"%string).
Proof.
  cbv zeta. split; [vm_compute; reflexivity|]. split; [vm_compute; reflexivity|].
  destruct (Index_cases (str "/main.js"%string) (str "<script src='"%string)) as [(N & _)|(a & r & _ & E)]; [exact N|]. exfalso. revert E. 
  replace (Index _ _) with (-1) by (vm_compute; reflexivity). pose proof (zlen_nonneg a). lia.
Qed.

(** C151.  An update with any style sheet at all makes a new one: afterwards there is one with a longer name
    than all there were. *)
Lemma in_names (d : store) k : In k (map fst d) <-> entry d k <> None.
Proof.
  induction d as [|[m x] d IH]; cbn [map fst In entry]; [tauto|]. destruct (beq m k) eqn:E.
  - apply beq_eq in E. split; [discriminate|auto].
  - rewrite IH. split; [|auto]. intros [->|H]; [now rewrite beq_refl in E|auto].
Qed.
Lemma put_keeps d n b k : entry d k <> None -> entry (put d n b) k <> None.
Proof. intros H. destruct (list_eq_dec Z.eq_dec k n) as [->|N]; [now rewrite put_same|now rewrite put_other]. Qed.
Lemma hash_longer c d : is_css c = true -> sheet (hash_name (h_name c) d) /\ (length (hash_name (h_name c) d) >= length c + 4)%nat.
Proof.
  intros C. destruct (hash_marked c d C) as (_ & b & -> & ->). split.
  - exists (h_name b ++ str ".-"%string ++ FormatUint10 (ChecksumIEEE d)). rewrite <- !app_assoc. reflexivity.
  - unfold h_name. rewrite !app_length. change (length (str "h-"%string)) with 2%nat. change (length (str ".-"%string)) with 2%nat. lia.
Qed.
Lemma longest (l : list bytes) c : In c l -> exists m, In m l /\ forall x, In x l -> (length x <= length m)%nat.
Proof.
  revert c. induction l as [|y l IH]; intros c I; [contradiction|]. destruct l as [|z l].
  - exists y. split; [now left|]. intros x [->|[]]. lia.
  - destruct (IH z (or_introl eq_refl)) as (m & Im & Hm). destruct (le_lt_dec (length y) (length m)).
    + exists m. split; [now right|]. intros x [<-|Ix]; [lia|auto].
    + exists y. split; [now left|]. intros x [<-|Ix]; [lia|]. specialize (Hm x Ix). lia.
Qed.
Section Growth.
Variable mini_css : bytes -> bytes.
Variable by_name : bytes -> option compressor.
Variable encodings : list bytes.
Lemma compressed_keeps d n k : entry d k <> None -> entry (compressed by_name encodings d n) k <> None.
Proof.
  intros H. unfold compressed, Compress. destruct (existsb _ _); [exact H|]. generalize false. revert d H.
  induction encodings as [|ce r IH]; intros d H err; [exact H|]. cbn [compress_loop]. destruct (by_name ce) as [[ext f]|]; [|now apply IH].
  destruct (f (data_of d n)); [|exact H]. apply IH. now apply put_keeps.
Qed.
Lemma sheet_keeps s c k : (length k > length (h_name c))%nat -> entry (dl s) k <> None -> entry (dl (ready_sheet mini_css by_name encodings s c)) k <> None.
Proof.
  intros L H. unfold ready_sheet. cbn [dl]. apply compressed_keeps. unfold put_hashed. apply put_keeps. rewrite remove_other; [exact H|]. intros ->. lia.
Qed.
Lemma sheet_makes s c : entry (dl (ready_sheet mini_css by_name encodings s c)) (hash_name (h_name c) (mini_css (data_of (dl s) c))) <> None.
Proof. unfold ready_sheet. cbn [dl]. rewrite compressed_self. unfold put_hashed. rewrite put_same. discriminate. Qed.
Lemma sheets_grow c : is_css c = true -> forall l s, (forall x, In x l -> (length x <= length c)%nat) ->
  (In c l \/ exists d, entry (dl s) (hash_name (h_name c) d) <> None) ->
  exists d, entry (dl (fold_left (ready_sheet mini_css by_name encodings) l s)) (hash_name (h_name c) d) <> None.
Proof.
  intros C. induction l as [|x l IH]; intros s M H.
  { destruct H as [[]|H]; exact H. }
  cbn [fold_left]. apply IH; [intros y I; apply M; now right|]. destruct H as [[->|I]|(d & H)].
  - right. eexists. apply sheet_makes.
  - now left.
  - right. exists d. apply sheet_keeps; [|exact H]. destruct (hash_longer c d C) as (_ & L). specialize (M x (or_introl eq_refl)). unfold h_name at 2. rewrite app_length. change (length (str "h-"%string)) with 2%nat. lia.
Qed.
End Growth.
Lemma dl_before mini_html mini_js sdk by_name encodings p sw langs mixed s :
  dl (readySWFile mini_js by_name encodings sw (readyAppJSFiles mini_html sdk by_name encodings p langs mixed (start s))) = dl s.
Proof.
  assert (G : forall t, dl (fold_left (ready_lang mini_html sdk by_name encodings mixed) langs t) = dl t).
  { induction langs as [|l r IH]; intros t; [reflexivity|]. cbn [fold_left]. now rewrite IH. }
  unfold readySWFile, readyAppJSFiles. destruct sw, p; cbn [dl]; try reflexivity; (etransitivity; [apply G|reflexivity]).
Qed.
Theorem C151_grows_refuted : forall mini_html mini_css mini_js sdk by_name encodings p sw langs mixed s c, sheet c -> In c (map fst (dl s)) ->
  let s' := update mini_html mini_css mini_js sdk by_name encodings p sw langs mixed s in
  exists c', sheet c' /\ In c' (map fst (dl s')) /\ forall x, sheet x -> In x (map fst (dl s)) -> (length x < length c')%nat.
Proof.
  intros mh mc mj sdk bn encs p sw langs mixed s c C I s'.
  destruct (longest (filter is_css (map fst (dl s))) c) as (m & Im & Hm). { apply filter_In. split; [exact I|now apply is_css_sheet]. }
  assert (Cm : is_css m = true) by (apply filter_In in Im; tauto).
  destruct (sheets_grow mc bn encs m Cm (filter is_css (map fst (dl s))) (readySWFile mj bn encs sw (readyAppJSFiles mh sdk bn encs p langs mixed (start s))) Hm (or_introl Im)) as (d & H).
  exists (hash_name (h_name m) d). destruct (hash_longer m d Cm) as (S1 & L). split; [exact S1|]. split.
  - apply in_names. unfold s', update, readyDesignLanguagesFiles. fold (start s). rewrite dl_before. exact H.
  - intros x X Ix. specialize (Hm x). rewrite filter_In in Hm. specialize (Hm (conj Ix (is_css_sheet x X))). lia.
Qed.
Print Assumptions C151_grows_refuted.
(** So however often the assets are reloaded, with whatever is changed in between except the directory of
    style sheets, and in whatever order its files are listed, that directory never settles: after n updates
    there is a sheet whose name is at least n bytes long; *)
Inductive reloads : nat -> store -> store -> Prop :=
| reloads_0 : forall d, reloads 0 d d
| reloads_S : forall n d e f mini_html mini_css mini_js sdk by_name encodings p sw langs mixed s, reloads n d e -> same_files e (dl s) ->
    f = dl (update mini_html mini_css mini_js sdk by_name encodings p sw langs mixed s) -> reloads (S n) d f.
Theorem C151_never_settles_refuted : forall n d e c, reloads n d e -> sheet c -> In c (map fst d) ->
  exists c', sheet c' /\ In c' (map fst e) /\ (length c + n <= length c')%nat.
Proof.
  intros n d e c R C I. induction R as [d|n d e f mh mc mj sdk bn encs p sw langs mixed s R IH P ->].
  - exists c. repeat split; auto. lia.
  - destruct (IH I) as (c1 & S1 & I1 & L1). assert (I2 : In c1 (map fst (dl s))) by (eapply Permutation_in; [apply Permutation_map; exact P|exact I1]).
    destruct (C151_grows_refuted mh mc mj sdk bn encs p sw langs mixed s c1 S1 I2) as (c2 & S2 & J2 & L2). exists c2. repeat split; auto. specialize (L2 c1 S1 I2). lia.
Qed.
Print Assumptions C151_never_settles_refuted.
(** without any sheet nothing changes there; *)
Theorem C151_none_partial : forall mini_html mini_css mini_js sdk by_name encodings p sw langs mixed s, filter is_css (map fst (dl s)) = [] ->
  dl (update mini_html mini_css mini_js sdk by_name encodings p sw langs mixed s) = dl s.
Proof.
  intros mh mc mj sdk bn encs p sw langs mixed s E. unfold update, readyDesignLanguagesFiles. fold (start s). rewrite dl_before, E. cbn [fold_left]. apply dl_before.
Qed.
Print Assumptions C151_none_partial.
(** and a sheet of the project's own called h-<other sheet> is lost. *)
Theorem C151_lost_refuted : forall mini_html mini_css mini_js sdk by_name encodings p sw langs mixed g v js h c d own, own_extensions by_name -> sheet c ->
  no_file (dl (update mini_html mini_css mini_js sdk by_name encodings p sw langs mixed (Site g [(c, d); (str "h-"%string ++ c, own)] v js h))) (str "h-"%string ++ c).
Proof.
  intros mh mc mj sdk bn encs p sw langs mixed g v js h c d own EX C. unfold no_file. fold (h_name c). set (s := Site _ _ _ _ _).
  assert (C2 : is_css (h_name c) = true). { apply is_css_sheet. destruct C as (b & ->). exists (h_name b). unfold h_name. now rewrite <- app_assoc. }
  assert (C1 := is_css_sheet c C).
  unfold update, readyDesignLanguagesFiles. fold (start s). rewrite dl_before. set (s2 := readySWFile _ _ _ _ _).
  assert (FC : filter is_css (map fst (dl s)) = [c; h_name c]). { change (filter is_css [c; h_name c] = [c; h_name c]). cbn [filter]. now rewrite C1, C2. } rewrite FC. cbn [fold_left].
  assert (EXT : Extension (h_name c) = str "css"%string). { unfold is_css in C2. now apply beq_eq in C2. }
  assert (K : forall t x, is_css x = true -> (length c <= length x)%nat -> entry (dl t) (h_name c) = None \/ x = c -> entry (dl (ready_sheet mc bn encs t x)) (h_name c) = None).
  { intros t x X L H. unfold ready_sheet. cbn [dl]. rewrite compressed_other.
    2:{ intros ce ext f _ B E. apply (f_equal Extension) in E. rewrite EXT, (ext_copy bn EX _ _ _ _ B) in E. destruct (EX _ _ _ B) as (_ & _ & _ & Q). congruence. }
    unfold put_hashed. rewrite put_other. 2:{ intros E. destruct (hash_longer x (mc (data_of (dl t) x)) X) as (_ & Lx). apply (f_equal (@length Z)) in E. unfold h_name at 1 in E. rewrite app_length in E. change (length (str "h-"%string)) with 2%nat in E. lia. }
    destruct (list_eq_dec Z.eq_dec (h_name c) (h_name x)) as [->|N]; [apply remove_same|]. rewrite remove_other by exact N. destruct H as [H| ->]; [exact H|congruence]. }
  apply K; [exact C2|unfold h_name; rewrite app_length; lia|]. left. apply K; auto.
Qed.
Print Assumptions C151_lost_refuted.
Example C151_nonvacuous : let up := update (fun x => x) (fun x => x) (fun x => x) (fun _ => []) (fun _ => None) [] None None [] [] in
  map fst (dl (up (up (Site [] [(str "a.css"%string, str "p{}"%string)] [] [] [])))) =
  [str "a.css"%string; str "h-a.-1238310142.css"%string; str "h-h-a.-1238310142.-1238310142.css"%string].
Proof. vm_compute. reflexivity. Qed.
