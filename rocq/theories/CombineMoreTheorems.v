(** C152 to C154: service workers, landing pages, compressed copies. *)
From Coq Require Import String ZifyBool ZifyNat.
From Verif Require Import Go GoFacts StrconvModel StringsModel StringsProofs UriModel FileModel TreeModel WwwModel WwwSpec WwwProofs CombineModel CombineSpec CombineProofs CombineTheorems.
From Verif Require FileTheorems TreeTheorems WwwTheorems.
Import ListNotations.
Local Open Scope Z_scope.
Local Open Scope list_scope.

Section Workers.
Variable mini_js : bytes -> bytes.
Variable by_name : bytes -> option compressor.
Variable encodings : list bytes.
Definition sw_tag (l : bytes) : bytes := str "sw-"%string ++ l.
Lemma sw_name_eq l : sw_name l = sw_tag l ++ 46 :: str "js"%string.
Proof. unfold sw_name, sw_tag. rewrite <- app_assoc. reflexivity. Qed.
Lemma stem_sw l r : ~ In 46 l -> stem (sw_name l ++ r) = sw_tag l.
Proof. intros N. rewrite sw_name_eq, <- app_assoc. apply stem_at. unfold sw_tag. rewrite in_app_iff. intros [H|H]; [cbn in H; lia|tauto]. Qed.
Notation wstep d := (fun g e => compressed by_name encodings (put g (sw_name (fst e)) (sw_of mini_js d (snd e))) (sw_name (fst e))).
Lemma worker_apart d l : ~ In 46 l -> forall r g, Forall (fun e => ~ In 46 (fst e)) r -> ~ In l (map fst r) -> entry (fold_left (wstep d) r g) (sw_name l) = entry g (sw_name l).
Proof.
  intros N. induction r as [|e r IH]; intros g F NI; [reflexivity|]. inversion F as [|? ? Ne F']; subst. cbn [map In] in NI. cbn [fold_left]. rewrite IH by tauto.
  assert (D : sw_tag l <> sw_tag (fst e)) by (unfold sw_tag; intros E; apply app_inv_head in E; intuition congruence).
  assert (SL : stem (sw_name l) = sw_tag l) by (rewrite <- (app_nil_r (sw_name l)); now apply stem_sw).
  assert (SE : stem (sw_name (fst e)) = sw_tag (fst e)) by (rewrite <- (app_nil_r (sw_name (fst e))); now apply stem_sw).
  rewrite compressed_other. 2:{ intros ce ext f _ _ E. apply (f_equal stem) in E. rewrite SL, stem_sw in E by auto. contradiction. }
  apply put_other. intros E. apply (f_equal stem) in E. rewrite SL, SE in E. contradiction.
Qed.
Lemma worker_own d l n : forall r g, NoDup (map fst r) -> Forall (fun e => ~ In 46 (fst e)) r -> In (l, n) r -> entry (fold_left (wstep d) r g) (sw_name l) = Some (sw_of mini_js d n).
Proof.
  induction r as [|e r IH]; intros g ND F I; [contradiction|]. cbn [map] in ND. inversion ND as [|? ? NI ND']; subst. inversion F as [|? ? Ne F']; subst.
  cbn [fold_left]. destruct I as [->|I]; [|now apply IH]. cbn [fst snd] in *. rewrite worker_apart by auto. rewrite compressed_self. apply put_same.
Qed.
End Workers.

(** C152.  After an update every language has a service worker: the minified text of sw.js with every
    "main.html" in it put out by the name of that language's page, and that page is there. *)
Theorem C152_worker : forall mini_html mini_css mini_js sdk by_name encodings mixed d p langs s l,
  own_extensions by_name -> NoDup langs -> Forall (fun l => ~ In 46 l) langs -> In l langs ->
  let s' := update mini_html mini_css mini_js sdk by_name encodings (Some p) (Some d) langs mixed s in
  exists page text data, entry (main_html s') l = Some page /\ holds_file (gui s') page data /\ entry (served s') l = Some data /\
    replaced (str "main.html"%string) page d text /\ holds_file (gui s') (str "sw-"%string ++ l ++ str ".js"%string) (mini_js text).
Proof.
  intros mh mc mj sdk bn encs mixed d p langs s l EX ND F I s'.
  destruct (after_update mh mc mj sdk bn encs mixed (Some d) p langs s EX ND F) as (rf & _ & _ & R). destruct (R l I) as (_ & _ & A & B & C & _).
  do 3 eexists. split; [exact A|]. split; [exact B|]. split; [exact C|].
  split; [eapply replaced_all; [discriminate|apply Nat.lt_succ_diag_r]|]. fold (sw_name l). unfold holds_file.
  set (s1 := readyAppJSFiles mh sdk bn encs (Some p) langs mixed (start s)).
  pose proof (all_languages mh sdk bn encs mixed EX langs (start s) ND F) as Q. cbv zeta in Q.
  change (fold_left (ready_lang mh sdk bn encs mixed) langs (start s)) with s1 in Q.
  destruct Q as (A1 & A2 & A3 & _ & _ & _). { intros. split; reflexivity. } cbn [main_html main_js start app] in A2, A3.
  set (s2 := readySWFile mj bn encs (Some d) s1).
  assert (K : entry (gui s2) (sw_name l) = Some (sw_of mj d (hname l (page_of mh sdk mixed s l)))).
  { subst s2. unfold readySWFile. cbn [gui]. rewrite A3. apply worker_own.
    - rewrite map_map. cbn [fst]. now rewrite map_id.
    - apply Forall_forall. intros e Ie. apply in_map_iff in Ie. destruct Ie as (x & <- & Ix). cbn [fst]. eapply Forall_forall in F; eauto.
    - now apply (in_map (fun l => (l, hname l (page_of mh sdk mixed (start s) l)))). }
  destruct (sheets_refs mc bn encs (filter is_css (map fst (dl s2))) s2) as (refs & _ & _ & _ & _ & _ & Q & _).
  change s' with (fold_left (ready_sheet mc bn encs) (filter is_css (map fst (dl s2))) s2). rewrite Q; [exact K|].
  change (main_js s2) with (main_js s1). rewrite A2, map_map. cbn [snd]. intros J. apply in_map_iff in J. destruct J as (x & E & _). apply (f_equal (fun z => hd_error z)) in E.
  rewrite jname_eq, <- !app_assoc in E. discriminate.
Qed.
Print Assumptions C152_worker.
(** Without sw.js no worker is made: only the scripts and pages of the languages are touched. *)
Theorem C152_none : forall mini_html mini_css mini_js sdk by_name encodings mixed p langs s k,
  own_extensions by_name -> NoDup langs -> Forall (fun l => ~ In 46 l) langs -> hd_error k = Some 115 ->
  entry (gui (update mini_html mini_css mini_js sdk by_name encodings (Some p) None langs mixed s)) k = entry (gui s) k.
Proof.
  intros mh mc mj sdk bn encs mixed p langs s k EX ND F K.
  set (s1 := readyAppJSFiles mh sdk bn encs (Some p) langs mixed (start s)).
  pose proof (all_languages mh sdk bn encs mixed EX langs (start s) ND F) as Q. cbv zeta in Q.
  change (fold_left (ready_lang mh sdk bn encs mixed) langs (start s)) with s1 in Q.
  destruct Q as (A1 & A2 & A3 & A4 & _ & _). { intros. split; reflexivity. } cbn [main_html main_js start app] in A2, A3.
  destruct (sheets_refs mc bn encs (filter is_css (map fst (dl s1))) s1) as (refs & _ & _ & _ & _ & _ & Q & _).
  change (entry (gui (fold_left (ready_sheet mc bn encs) (filter is_css (map fst (dl s1))) s1)) k = entry (gui s) k). rewrite Q.
  - rewrite A4; [reflexivity|]. intros l _ E. destruct k as [|c k]; [discriminate|]. injection K as ->. cbn [stem] in E. change (115 =? 46) with false in E. cbv iota in E. discriminate.
  - rewrite A2, map_map. cbn [snd]. intros J. apply in_map_iff in J. destruct J as (x & E & _). subst k. rewrite jname_eq, <- !app_assoc in K. discriminate.
Qed.
Print Assumptions C152_none.
Example C152_nonvacuous : let l := str "en"%string in
  entry (gui (update (fun x => x) (fun x => x) (fun x => x) (fun _ => []) (fun _ => None) [] (Some []) (Some (str "get(/main.html); put(/main.html)"%string)) [l] [] (Site [] [] [] [] [])))
    (str "sw-en.js"%string) = Some (str "get(/main-en.-0.html); put(/main-en.-0.html)"%string).
Proof. vm_compute. reflexivity. Qed.

(** C153.  The landing page b.html takes its texts from b..json and its styles from b..css, with two dots: *)
Lemma plain_html b : plain_name (b ++ str ".html"%string) = b ++ str "."%string.
Proof.
  unfold plain_name, uri_of. destruct (proj2 (FileTheorems.C54_extension_partial no_uri (b ++ 46 :: str "html"%string)) b (str "html"%string) eq_refl html_no) as (_ & E).
  change (b ++ str ".html"%string) with (b ++ 46 :: str "html"%string). now rewrite E.
Qed.
Lemma is_html_inv n : is_html n = true -> exists b, n = b ++ str ".html"%string.
Proof.
  unfold is_html. intros C. apply beq_eq in C. unfold uri_of, Rename in C. cbn [extension_] in C. destruct (in_dec Z.eq_dec 46 n) as [I|I].
  - assert (L : exists a e, n = a ++ 46 :: e /\ ~ In 46 e).
    { clear C. induction n as [|x c IH]; [contradiction|]. destruct (in_dec Z.eq_dec 46 c) as [J|J].
      - destruct (IH J) as (a & e & -> & N). exists (x :: a), e. auto.
      - destruct I as [->|I]; [|contradiction]. exists [], c. auto. }
    destruct L as (a & e & -> & N). rewrite ext_of in C by auto. subst e. now exists a.
  - destruct (proj1 (FileTheorems.C54_extension_partial no_uri n) I) as (E & _). change (Extension n = []) in E. rewrite E in C. discriminate.
Qed.
Lemma open_other d n k : k <> n -> entry (open_ d n) k = entry d k.
Proof. apply put_other. Qed.
(** so in a directory without such names no localised page is made at all; an empty b..json is made for each
    page and every other file stays as it was. *)
Theorem C153_none_refuted : forall mini_html by_name encodings decode d, decode [] = [] ->
  (forall b, ~ In (b ++ str "..json"%string) (map fst d)) ->
  exists d', readyLandingsFiles mini_html by_name encodings decode d = Some (Ok d') /\
    (forall b, In (b ++ str ".html"%string) (map fst d) -> holds_file d' (b ++ str "..json"%string) []) /\
    (forall k, entry d' k = entry d k \/ exists b, k = b ++ str "..json"%string).
Proof.
  intros mh bn encs decode d E0 NJ. unfold readyLandingsFiles.
  assert (G : forall l t, Forall (fun n => is_html n = true) l -> (forall b, entry t (b ++ str "..json"%string) = None \/ entry t (b ++ str "..json"%string) = Some []) ->
    exists t', landings mh bn encs decode t l = Some (Ok t') /\ (forall b, In (b ++ str ".html"%string) l -> entry t' (b ++ str "..json"%string) = Some []) /\
      (forall b, entry t (b ++ str "..json"%string) = Some [] -> entry t' (b ++ str "..json"%string) = Some []) /\
      (forall k, entry t' k = entry t k \/ exists b, k = b ++ str "..json"%string)).
  { induction l as [|n l IH]; intros t F J.
    - exists t. cbn [landings]. repeat split; auto. intros b [].
    - inversion F as [|? ? H F']; subst. destruct (is_html_inv n H) as (b & ->). cbn [landings]. unfold landing. rewrite plain_html.
      rewrite <- !app_assoc. change (str "."%string ++ str ".json"%string) with (str "..json"%string). set (j := b ++ str "..json"%string) in *.
      assert (DJ : data_of (open_ t j) j = []). { unfold open_. rewrite data_put_same. unfold data_of. subst j. destruct (J b) as [->| ->]; reflexivity. }
      rewrite DJ, E0. destruct (IH (open_ t j) F') as (t' & L & A & B & C).
      { intros b2. destruct (list_eq_dec Z.eq_dec (b2 ++ str "..json"%string) j) as [->|N]; [right|rewrite open_other by exact N; apply J].
        unfold open_. rewrite put_same. f_equal. subst j. unfold data_of. destruct (J b) as [->| ->]; reflexivity. }
      assert (OJ : entry (open_ t j) j = Some []). { unfold open_. rewrite put_same. f_equal. subst j. unfold data_of. destruct (J b) as [->| ->]; reflexivity. }
      exists t'. split; [exact L|]. split; [|split].
      + intros b2 [X|X]; [|now apply A]. apply app_inv_tail in X. subst b2. apply B. exact OJ.
      + intros b2 X. destruct (list_eq_dec Z.eq_dec (b2 ++ str "..json"%string) j) as [Y|N]; [rewrite Y; subst j; apply B; exact OJ|]. apply B. now rewrite open_other.
      + intros k. destruct (C k) as [X|X]; [|now right]. destruct (list_eq_dec Z.eq_dec k j) as [->|N]; [right; now exists b|left]. rewrite X. now apply open_other. }
  destruct (G (filter is_html (map fst d)) d) as (d' & L & A & B & C).
  - apply Forall_forall. intros x X. now apply filter_In in X.
  - intros b. left. specialize (NJ b). rewrite in_names in NJ. destruct (entry d (b ++ str "..json"%string)); [destruct NJ; discriminate|reflexivity].
  - exists d'. split; [exact L|]. split; [|exact C]. intros b I. apply A. apply filter_In. split; [exact I|]. unfold is_html, uri_of, Rename. cbn [extension_].
    change (b ++ str ".html"%string) with (b ++ 46 :: str "html"%string). rewrite ext_of by apply html_no. reflexivity.
Qed.
Print Assumptions C153_none_refuted.
(** With those files there, a page is made for each language: the localised text of the page and its styles,
    minified, under the name b.-<language>.html. *)
Theorem C153_made_partial : forall mini_html by_name encodings decode d b texts lj pages styles text, own_extensions by_name ->
  holds_file d (b ++ str ".html"%string) text -> holds_file d (b ++ str "..json"%string) texts -> holds_file d (b ++ str "..css"%string) styles ->
  decode texts = lj -> lj <> [] -> localizeHTMLFile (mixCSSToHTML text styles) lj = Some (Ok pages) -> NoDup (map fst pages) ->
  exists d', landing mini_html by_name encodings decode d (b ++ str ".html"%string) = Some (Ok d') /\
    forall l data, In (l, data) pages -> holds_file d' (b ++ str ".-"%string ++ l ++ str ".html"%string) (mini_html data).
Proof.
  intros mh bn encs decode d b texts lj pages styles text EX HT HJ HC DE NE LO ND. unfold landing. rewrite plain_html.
  rewrite <- !app_assoc. change (str "."%string ++ str ".json"%string) with (str "..json"%string). change (str "."%string ++ str ".css"%string) with (str "..css"%string).
  assert (OP : forall t n x k, entry t n = Some x -> entry (open_ t n) k = entry t k).
  { intros t n x k H. destruct (list_eq_dec Z.eq_dec k n) as [->|N]; [|now apply open_other]. unfold open_. now rewrite put_same, (data_entry _ _ _ H), H. }
  set (j := b ++ str "..json"%string) in *. set (c := b ++ str "..css"%string) in *. set (n := b ++ str ".html"%string) in *.
  rewrite (data_eq _ d j (OP d j _ j HJ)), (data_entry _ _ _ HJ), DE. destruct lj as [|x lj]; [contradiction|].
  assert (C2 : entry (open_ d j) c = Some styles) by (rewrite (OP d j _ c HJ); exact HC).
  assert (N2 : entry (open_ (open_ d j) c) n = Some text) by (rewrite (OP _ c _ n C2), (OP d j _ n HJ); exact HT).
  assert (C3 : entry (open_ (open_ d j) c) c = Some styles) by (rewrite (OP _ c _ c C2); exact C2).
  rewrite (data_entry _ _ _ N2), (data_entry _ _ _ C3), LO. eexists. split; [reflexivity|]. intros l data I. unfold holds_file. clear - EX ND I.
  set (g := open_ (open_ d j) c). clearbody g. revert g. induction pages as [|e r IH]; intros g; [contradiction|].
  cbn [map] in ND. inversion ND as [|? ? NI ND']; subst. cbn [fold_left]. destruct I as [->|I]; [|now apply IH].
  cbn [fst snd] in *. set (m := (b ++ str "."%string) ++ str "-"%string ++ l ++ str ".html"%string).
  replace (b ++ str ".-"%string ++ l ++ str ".html"%string) with m by (unfold m; rewrite <- !app_assoc; reflexivity).
  assert (XM : Extension m = str "html"%string). { unfold m. rewrite !app_assoc. apply ext_of, html_no. }
  assert (K : forall q g, ~ In l (map fst q) -> entry (fold_left (fun d p => compressed bn encs (put d ((b ++ str "."%string) ++ str "-"%string ++ fst p ++ str ".html"%string) (mh (snd p))) ((b ++ str "."%string) ++ str "-"%string ++ fst p ++ str ".html"%string)) q g) m = entry g m).
  { induction q as [|e q IHq]; intros g0 NQ; [reflexivity|]. cbn [fold_left map In] in *. rewrite IHq by tauto.
    rewrite compressed_other. 2:{ intros ce ext f _ B E. apply (f_equal Extension) in E. rewrite XM, (ext_copy bn EX _ _ _ _ B) in E. destruct (EX _ _ _ B) as (_ & _ & Q & _). congruence. }
    apply put_other. intros E. unfold m in E. do 2 apply app_inv_head in E. apply app_inv_tail in E. intuition congruence. }
  fold m. rewrite K by auto. rewrite compressed_self. apply put_same.
Qed.
Print Assumptions C153_made_partial.
Example C153_nonvacuous : let decode := fun t : bytes => match t with [] => [] | _ => [(str "en"%string, [t])] end in
  readyLandingsFiles (fun x => x) (fun _ => None) [] decode [(str "about.html"%string, str "${LocaleText[0]"%string); (str "about.json"%string, str "Hi"%string)] =
    Some (Ok [(str "about.html"%string, str "${LocaleText[0]"%string); (str "about.json"%string, str "Hi"%string); (str "about..json"%string, [])]) /\
  readyLandingsFiles (fun x => x) (fun _ => None) [] decode [(str "about.html"%string, str "${LocaleText[0]"%string); (str "about..json"%string, str "Hi"%string); (str "about..css"%string, str "p{}"%string)] =
    Some (Ok [(str "about.html"%string, str "${LocaleText[0]"%string); (str "about..json"%string, str "Hi"%string); (str "about..css"%string, str "p{}"%string);
      (str "about.-en.html"%string, str "Hi
<style>p{}</style>"%string)]).
Proof. vm_compute. auto. Qed.

(** C154.  Compressing a file: *)
Definition all_work (by_name : bytes -> option compressor) (encodings : list bytes) (data : bytes) : Prop :=
  forall ce ext f, In ce encodings -> by_name ce = Some (ext, f) -> f data <> None.
Lemma copy_self_name (n ext : bytes) : n <> n ++ [46] ++ ext.
Proof. intros E. apply (f_equal (@length Z)) in E. rewrite !app_length in E. cbn [length] in E. lia. Qed.
Lemma loop_copies by_name n data : forall encs d err, entry d n = Some data -> all_work by_name encs data ->
  (forall ce1 ce2 ext f1 f2, In ce1 encs -> In ce2 encs -> by_name ce1 = Some (ext, f1) -> by_name ce2 = Some (ext, f2) -> f1 data = f2 data) ->
  (forall ce ext f, In ce encs -> by_name ce = Some (ext, f) -> entry (fst (compress_loop by_name d n encs err)) (n ++ [46] ++ ext) = f data).
Proof.
  induction encs as [|c r IH]; intros d err E W U ce ext f I B; [contradiction|]. cbn [compress_loop].
  assert (W' : all_work by_name r data) by (intros c2 e2 f2 I2; apply W; now right).
  assert (U' : forall ce1 ce2 ext f1 f2, In ce1 r -> In ce2 r -> by_name ce1 = Some (ext, f1) -> by_name ce2 = Some (ext, f2) -> f1 data = f2 data) by (intros c1 c2 e0 g1 g2 I1 I2; apply (U c1 c2 e0); now right).
  destruct (by_name c) as [[ext1 f1]|] eqn:B1.
  - rewrite (data_entry _ _ _ E). destruct (f1 data) as [z|] eqn:Fz; [|exfalso; eapply W; [now left|exact B1|exact Fz]].
    assert (E1 : entry (put d (n ++ [46] ++ ext1) z) n = Some data) by (rewrite put_other; [exact E|apply copy_self_name]).
    destruct (in_dec (list_eq_dec Z.eq_dec) ce r) as [J|J]; [now apply IH with ce|].
    destruct I as [->|I]; [|contradiction]. rewrite B in B1. injection B1 as <- <-.
    destruct (entry (fst (compress_loop by_name (put d (n ++ [46] ++ ext) z) n r false)) (n ++ [46] ++ ext)) as [y|] eqn:Q.
    + rewrite <- Q.
      assert (X : (exists ce2 f2, In ce2 r /\ by_name ce2 = Some (ext, f2)) \/ (forall ce2 f2, In ce2 r -> by_name ce2 <> Some (ext, f2))).
      { clear. induction r as [|c2 r IHr]; [right; intros ? ? []|]. destruct IHr as [(c3 & f3 & I3 & B3)|N]; [left; exists c3, f3; split; [now right|exact B3]|].
        destruct (by_name c2) as [[e2 f2]|] eqn:B2.
        - destruct (list_eq_dec Z.eq_dec e2 ext) as [->|Ne]; [left; exists c2, f2; split; [now left|exact B2]|]. right. intros c4 f4 [<-|I4]; [congruence|now apply N].
        - right. intros c4 f4 [<-|I4]; [congruence|now apply N]. }
      destruct X as [(ce2 & f2 & I2 & B2)|N].
      * rewrite (IH _ false E1 W' U' ce2 ext f2 I2 B2). eapply U; [right; exact I2|left; reflexivity|exact B2|exact B].
      * rewrite copies_other. { rewrite put_same. congruence. } intros c4 e4 f4 I4 B4 H. apply app_inv_head in H. apply app_inv_head in H. subst e4. now apply (N c4 f4).
    + exfalso. assert (K : forall encs t err, entry t (n ++ [46] ++ ext) <> None -> entry (fst (compress_loop by_name t n encs err)) (n ++ [46] ++ ext) <> None).
      { clear. induction encs as [|c2 encs IHe]; intros t err H; [exact H|]. cbn [compress_loop]. destruct (by_name c2) as [[e2 f2]|]; [|now apply IHe].
        destruct (f2 (data_of t n)); [|exact H]. apply IHe. now apply put_keeps. }
      apply (K r (put d (n ++ [46] ++ ext) z) false); [rewrite put_same; discriminate|exact Q].
  - destruct I as [->|I]; [congruence|]. now apply IH with ce.
Qed.
(** for every file not of a kind left alone and every list of encodings, where no compressor fails and two
    encodings with one extension compress alike, there is afterwards a copy name.extension for each encoding that is known, holding the
    compressed data, and every other file is as it was; *)
Theorem C154_copies : forall by_name encodings d n data, holds_file d n data -> ~ In (Extension n) never_compressed -> all_work by_name encodings data ->
  (forall ce1 ce2 ext f1 f2, In ce1 encodings -> In ce2 encodings -> by_name ce1 = Some (ext, f1) -> by_name ce2 = Some (ext, f2) -> f1 data = f2 data) ->
  let d' := fst (Compress by_name d n encodings) in
  (forall ce ext f, In ce encodings -> by_name ce = Some (ext, f) -> exists z, f data = Some z /\ holds_file d' (n ++ str "."%string ++ ext) z) /\
  holds_file d' n data /\
  (forall k, (forall ce ext f, In ce encodings -> by_name ce = Some (ext, f) -> k <> n ++ str "."%string ++ ext) -> entry d' k = entry d k).
Proof.
  intros bn encs d n data H NC W U d'. unfold d', Compress. replace (existsb _ never_compressed) with false.
  2:{ symmetry. apply Bool.not_true_is_false. intros E. apply existsb_exists in E. destruct E as (x & I & E). apply beq_eq in E. subst x. now apply NC. }
  split; [|split].
  - intros ce ext f I B. destruct (f data) as [z|] eqn:E; [|exfalso; now apply (W ce ext f)]. exists z. split; [reflexivity|]. unfold holds_file.
    rewrite <- E. now apply (loop_copies bn n data encs d false H W U ce ext f).
  - unfold holds_file. rewrite copies_other; [exact H|]. intros ce ext f _ _. apply copy_self_name.
  - intros k K. apply copies_other. exact K.
Qed.
Print Assumptions C154_copies.
(** pictures, films and sounds are left alone; *)
Theorem C154_left_alone : forall by_name encodings d n, In (Extension n) [str "png"; str "jpg"; str "gif"; str "jpeg"; str "mkv"; str "avi"; str "mp3"; str "mp4"]%string ->
  Compress by_name d n encodings = (d, false).
Proof.
  intros bn encs d n I. unfold Compress. replace (existsb _ never_compressed) with true; [reflexivity|]. symmetry. apply existsb_exists. exists (Extension n). split; [exact I|]. apply beq_refl.
Qed.
Print Assumptions C154_left_alone.
(** the error returned is only about the last encoding: one that is not known is reported if it is the last
    and never otherwise, when no compressor fails. *)
Theorem C154_error_refuted : forall by_name encodings d n data ce, holds_file d n data -> ~ In (Extension n) never_compressed -> all_work by_name (encodings ++ [ce]) data ->
  snd (Compress by_name d n (encodings ++ [ce])) = match by_name ce with Some _ => false | None => true end.
Proof.
  intros bn encs d n data ce H NC W. unfold Compress. replace (existsb _ never_compressed) with false.
  2:{ symmetry. apply Bool.not_true_is_false. intros E. apply existsb_exists in E. destruct E as (x & I & E). apply beq_eq in E. subst x. now apply NC. }
  cut (forall err, snd (compress_loop bn d n (encs ++ [ce]) err) = match bn ce with Some _ => false | None => true end); [auto|].
  unfold holds_file in H. revert d H. induction encs as [|c r IH]; intros d H err.
  - cbn [app compress_loop]. destruct (bn ce) as [[ext f]|] eqn:B; [|reflexivity]. rewrite (data_entry _ _ _ H). destruct (f data) eqn:E; [reflexivity|]. exfalso. eapply W; [apply in_or_app; right; now left|exact B|exact E].
  - cbn [app compress_loop]. assert (W' : all_work bn (r ++ [ce]) data) by (intros c2 e2 f2 I2; apply W; now right).
    destruct (bn c) as [[ext f]|] eqn:B; [|now apply IH]. rewrite (data_entry _ _ _ H). destruct (f data) as [z|] eqn:E; [|exfalso; eapply W; [now left|exact B|exact E]].
    apply IH; [exact W'|]. rewrite put_other; [exact H|apply copy_self_name].
Qed.
Print Assumptions C154_error_refuted.
(** When a compressor fails an error is returned, and the encodings after it are not tried. *)
Theorem C154_fails : forall by_name a ce b d n data ext f, holds_file d n data -> ~ In (Extension n) never_compressed -> all_work by_name a data -> by_name ce = Some (ext, f) -> f data = None ->
  Compress by_name d n (a ++ ce :: b) = (fst (Compress by_name d n a), true).
Proof.
  intros bn a ce b d n data ext f H NC W B Fn. unfold Compress. replace (existsb _ never_compressed) with false.
  2:{ symmetry. apply Bool.not_true_is_false. intros E. apply existsb_exists in E. destruct E as (x & I & E). apply beq_eq in E. subst x. now apply NC. }
  cut (forall err, compress_loop bn d n (a ++ ce :: b) err = (fst (compress_loop bn d n a err), true)); [auto|].
  unfold holds_file in H. revert d H. induction a as [|c r IH]; intros d H err.
  - cbn [app compress_loop fst]. rewrite B, (data_entry _ _ _ H), Fn. reflexivity.
  - cbn [app compress_loop]. assert (W' : all_work bn r data) by (intros c2 e2 f2 I2; apply W; now right).
    destruct (bn c) as [[ext2 f2]|] eqn:B2; [|now apply IH]. rewrite (data_entry _ _ _ H). destruct (f2 data) as [z|] eqn:E; [|exfalso; eapply W; [now left|exact B2|exact E]].
    apply IH; [exact W'|]. rewrite put_other; [exact H|apply copy_self_name].
Qed.
Print Assumptions C154_fails.
Example C154_nonvacuous : let by_name := fun ce : bytes => if beq ce (str "gzip"%string) then Some (str "gz"%string, fun x : bytes => Some (31 :: x)) else if beq ce (str "br"%string) then Some (str "br"%string, fun x : bytes => Some (7 :: x)) else None in
  all_work by_name [str "gzip"%string; str "x"%string; str "br"%string] [1] /\
  Compress by_name [(str "a.js"%string, [1])] (str "a.js"%string) [str "gzip"%string; str "x"%string; str "br"%string] = ([(str "a.js"%string, [1]); (str "a.js.gz"%string, [31; 1]); (str "a.js.br"%string, [7; 1])], false) /\
  snd (Compress by_name [(str "a.js"%string, [1])] (str "a.js"%string) [str "gzip"%string; str "x"%string]) = true.
Proof.
  cbv zeta. split; [|vm_compute; auto]. intros ce ext f _. destruct (beq ce (str "gzip"%string)); [intros E; injection E as <- <-; discriminate|].
  destruct (beq ce (str "br"%string)); [intros E; injection E as <- <-; discriminate|discriminate].
Qed.

(** C150.  Without landings/main.html no script, page or worker is made and nothing served changes: what the
    directory holds stays as it was. *)
Lemma no_scripts mini_css by_name encodings : forall names s, main_js s = [] ->
  let s' := fold_left (ready_sheet mini_css by_name encodings) names s in
  gui s' = gui s /\ served s' = served s /\ main_js s' = [] /\ main_html s' = main_html s.
Proof.
  induction names as [|n names IH]; intros s E; cbv zeta; [cbn [fold_left]; auto|]. cbn [fold_left].
  destruct (IH (ready_sheet mini_css by_name encodings s n)) as (A & B & C & D); [exact E|]. rewrite A, B, C, D. unfold ready_sheet. cbn [gui served main_js main_html]. rewrite E. auto.
Qed.
Theorem C150_no_main_page : forall mini_html mini_css mini_js sdk by_name encodings mixed sw langs s,
  let s' := update mini_html mini_css mini_js sdk by_name encodings None sw langs mixed s in
  gui s' = gui s /\ served s' = served s /\ main_js s' = [] /\ main_html s' = [].
Proof.
  intros mh mc mj sdk bn encs mixed sw langs s s'.
  assert (E : s' = readyDesignLanguagesFiles mc bn encs (start s)) by (subst s'; unfold update, readyAppJSFiles; destruct sw; reflexivity).
  rewrite E. unfold readyDesignLanguagesFiles. destruct (no_scripts mc bn encs (filter is_css (map fst (dl (start s)))) (start s) eq_refl) as (A & B & C & D). auto.
Qed.
Print Assumptions C150_no_main_page.
Example C150_no_main_nonvacuous : let s := Site [(str "x"%string, [1])] [(str "a.css"%string, [2])] [(str "en"%string, [3])] [] [] in
  let s' := update (fun b => b) (fun b => b) (fun b => b) (fun _ => []) (fun _ => None) [] None (Some [4]) [str "en"%string] [] s in
  gui s' = gui s /\ served s' = served s /\ length (dl s') = 2%nat.
Proof. vm_compute. auto. Qed.
