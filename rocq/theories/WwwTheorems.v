(** Property theorems C106-C110 (localising, mixing and bundling web assets). *)
From Coq Require Import String ZifyBool ZifyNat Permutation.
From Verif Require Import Go GoFacts UriModel UriProofs StrconvModel StringsModel StringsProofs IntSpec IntProofs HttpTheorems WwwModel WwwSpec WwwProofs.
Import ListNotations.
Local Open Scope Z_scope.
Local Open Scope list_scope.

Definition js_mark := str "LocaleText["%string.
Definition html_mark := str "${LocaleText["%string.
Lemma js_mark_eq : js_mark = 76 :: tl js_mark /\ ~ In 76 (tl js_mark) /\ ~ In 93 js_mark /\ 11 = zlen js_mark.
Proof. repeat split; cbn; lia. Qed.
Lemma html_mark_eq : html_mark = 36 :: tl html_mark /\ ~ In 36 (tl html_mark) /\ ~ In 93 html_mark /\ 13 = zlen html_mark.
Proof. repeat split; cbn; lia. Qed.
(** C106.  In a script every slot is replaced by the text of that number, and nothing else changes. *)
Lemma tpl_of (mark : bytes) (l : slots) (tail : bytes) : 
  flat_map (fun x => mark ++ FormatUint10 (fst x) ++ [93] ++ tail ++ snd x) l =
  flat_map (fun x => mark ++ fst x ++ [93] ++ snd x) (map (fun x => (FormatUint10 (fst x), tail ++ snd x)) l).
Proof. induction l as [|x l IH]; [reflexivity|]. cbn [flat_map map fst snd]. now rewrite IH. Qed.
Lemma fuel_tpl p0 p t0 l : (length l < S (length (tpl p0 p t0 l)))%nat.
Proof.
  unfold tpl. rewrite app_length. enough (length l <= length (flat_map (fun x => (p0 :: p) ++ fst x ++ [93%Z] ++ snd x) l))%nat by lia.
  induction l as [|x l IH]; [cbn; lia|]. cbn [flat_map length]. rewrite !app_length. cbn [length]. lia.
Qed.
Lemma fill_tpl p0 p off texts t0 (l : slots) tail : ~ In p0 p -> ~ In 93 (p0 :: p) -> off = zlen (p0 :: p) ->
  ~ occurs (p0 :: p) t0 -> (tail = [] \/ tail = [125]) -> p0 <> 125 -> ~ In 125 p ->
  Forall (fun x => 0 <= fst x < 256 /\ fst x < zlen texts /\ ~ occurs (p0 :: p) (snd x)) l ->
  let s := t0 ++ flat_map (fun x => (p0 :: p) ++ FormatUint10 (fst x) ++ [93] ++ tail ++ snd x) l in
  replace_loop (S (length s)) (p0 :: p) off s texts [] =
  Some (Ok (t0 ++ flat_map (fun x => nth (Z.to_nat (fst x)) texts [] ++ tail ++ snd x) l)).
Proof.
  intros N0 N93 OFF F T P1 P2 A s. unfold s. clear s. rewrite tpl_of. fold (tpl p0 p t0 (map (fun x => (FormatUint10 (fst x), tail ++ snd x)) l)).
  pose (g := fun w => match slot texts w with Ok t => t | Panic => [] end).
  rewrite (loop_tpl p0 p off texts N0 N93 OFF _ _ t0 [] g); [|apply fuel_tpl|exact F|].
  - cbn [app]. do 3 f_equal. clear - A. induction l as [|(n, t) l IH]; [reflexivity|].
    pose proof (Forall_inv A) as (A1 & A2 & A3). cbn [map flat_map fst snd] in *. rewrite <- (IH (Forall_inv_tail A)). unfold g.
    rewrite slot_number by auto. reflexivity.
  - rewrite Forall_map. eapply Forall_impl; [|exact A]. intros (n, t) (A1 & A2 & A3). cbn [fst snd] in *.
    split; [apply fmt_no; lia|]. split.
    + destruct T as [->| ->]; [exact A3|]. intros X. change ([125] ++ t) with ([] ++ 125 :: t) in X. apply occurs_break in X; [|discriminate|cbn [In]; intuition].
      destruct X as [(u & v & X)|X]; [destruct u; discriminate|contradiction].
    + unfold g. now rewrite slot_number.
Qed.
Theorem C106_script : forall texts t0 l, ~ occurs (str "LocaleText["%string) t0 ->
  Forall (fun x => 0 <= fst x < 256 /\ fst x < zlen texts /\ ~ occurs (str "LocaleText["%string) (snd x)) l ->
  replaceLocalizeTextInJS (script t0 l) texts = Some (Ok (filled texts t0 l)).
Proof.
  intros texts t0 l F A. unfold replaceLocalizeTextInJS, script, filled.
  apply (fill_tpl 76 (tl js_mark) 11 texts t0 l []); auto; try apply js_mark_eq; try (cbn; lia).
Qed.
Print Assumptions C106_script.
(** In a page the closing brace of the slot is left behind, for every page and every text: *)
Theorem C106_page_partial : forall texts t0 l, ~ occurs (str "${LocaleText["%string) t0 ->
  Forall (fun x => 0 <= fst x < 256 /\ fst x < zlen texts /\ ~ occurs (str "${LocaleText["%string) (snd x)) l ->
  replaceLocalizeTextInHTML (page t0 l) texts = Some (Ok (filled texts t0 (map (fun x => (fst x, str "}"%string ++ snd x)) l))).
Proof.
  intros texts t0 l F A. unfold replaceLocalizeTextInHTML, page, filled.
  etransitivity; [apply (fill_tpl 36 (tl html_mark) 13 texts t0 l [125]); auto; try apply html_mark_eq; try (cbn; lia)|].
  do 3 f_equal. clear. induction l as [|x l IH]; [reflexivity|]. cbn [flat_map map fst snd]. now rewrite IH.
Qed.
Print Assumptions C106_page_partial.
Theorem C106_page_refuted : forall texts t0 l, l <> [] -> ~ occurs (str "${LocaleText["%string) t0 ->
  Forall (fun x => 0 <= fst x < 256 /\ fst x < zlen texts /\ ~ occurs (str "${LocaleText["%string) (snd x)) l ->
  replaceLocalizeTextInHTML (page t0 l) texts <> Some (Ok (filled texts t0 l)).
Proof.
  intros texts t0 l NE F A H. rewrite C106_page_partial in H by auto.
  assert (E : filled texts t0 (map (fun x => (fst x, str "}"%string ++ snd x)) l) = filled texts t0 l) by congruence. clear - NE E.
  unfold filled in E. apply app_inv_head in E. apply (f_equal (@length Z)) in E.
  assert (G : forall l : slots, length (flat_map (fun x => nth (Z.to_nat (fst x)) texts [] ++ snd x) (map (fun x => (fst x, str "}"%string ++ snd x)) l)) =
    (length l + length (flat_map (fun x => nth (Z.to_nat (fst x)) texts [] ++ snd x) l))%nat).
  { clear. induction l as [|x l IH]; [reflexivity|]. cbn [flat_map map fst snd length]. rewrite !app_length, IH. change (length (str "}"%string)) with 1%nat. lia. }
  rewrite G in E. destruct l; [congruence|]. cbn [length] in E. lia.
Qed.
Print Assumptions C106_page_refuted.
(** A slot whose number is not the decimal of an octet vanishes without a report; *)
Theorem C106_bad_number_refuted : forall texts pre w rest, ~ In 93 w -> ~ octet_number w ->
  (~ occurs (str "LocaleText["%string) pre -> ~ occurs (str "LocaleText["%string) rest ->
     replaceLocalizeTextInJS (pre ++ str "LocaleText["%string ++ w ++ [93] ++ rest) texts = Some (Ok (pre ++ rest))) /\
  (~ occurs (str "${LocaleText["%string) pre -> ~ occurs (str "${LocaleText["%string) rest ->
     replaceLocalizeTextInHTML (pre ++ str "${LocaleText["%string ++ w ++ [93] ++ rest) texts = Some (Ok (pre ++ rest))).
Proof.
  intros texts pre w rest W B. split; intros F G.
  - unfold replaceLocalizeTextInJS. change (str "LocaleText["%string) with (76 :: tl js_mark) in *. change ([93] ++ rest) with (93 :: rest).
    destruct (length (pre ++ (76 :: tl js_mark) ++ w ++ 93 :: rest)) as [|k] eqn:L.
    { exfalso. rewrite !app_length in L. cbn [length] in L. lia. }
    rewrite loop_step by (auto; try apply js_mark_eq). rewrite slot_bad by exact B. rewrite app_nil_r.
    now rewrite loop_none.
  - unfold replaceLocalizeTextInHTML. change (str "${LocaleText["%string) with (36 :: tl html_mark) in *. change ([93] ++ rest) with (93 :: rest).
    destruct (length (pre ++ (36 :: tl html_mark) ++ w ++ 93 :: rest)) as [|k] eqn:L.
    { exfalso. rewrite !app_length in L. cbn [length] in L. lia. }
    rewrite loop_step by (auto; try apply html_mark_eq). rewrite slot_bad by exact B. rewrite app_nil_r.
    now rewrite loop_none.
Qed.
Print Assumptions C106_bad_number_refuted.
(** a number with no text, and a slot that is not closed, stop the program. *)
Theorem C106_panic_refuted : forall texts pre n rest,
  (0 <= n < 256 -> zlen texts <= n ->
    (~ occurs (str "LocaleText["%string) pre -> replaceLocalizeTextInJS (pre ++ str "LocaleText["%string ++ FormatUint10 n ++ [93] ++ rest) texts = Some Panic) /\
    (~ occurs (str "${LocaleText["%string) pre -> replaceLocalizeTextInHTML (pre ++ str "${LocaleText["%string ++ FormatUint10 n ++ [93] ++ rest) texts = Some Panic)) /\
  (~ In 93 rest ->
    (~ occurs (str "LocaleText["%string) pre -> replaceLocalizeTextInJS (pre ++ str "LocaleText["%string ++ rest) texts = Some Panic) /\
    (~ occurs (str "${LocaleText["%string) pre -> replaceLocalizeTextInHTML (pre ++ str "${LocaleText["%string ++ rest) texts = Some Panic)).
Proof.
  intros texts pre n rest. split.
  - intros H L. unfold replaceLocalizeTextInJS, replaceLocalizeTextInHTML. split; intros F.
    + change (str "LocaleText["%string) with (76 :: tl js_mark) in *. change ([93] ++ rest) with (93 :: rest).
      rewrite loop_step by (auto; try apply js_mark_eq; apply fmt_no; lia). now rewrite slot_missing.
    + change (str "${LocaleText["%string) with (36 :: tl html_mark) in *. change ([93] ++ rest) with (93 :: rest).
      rewrite loop_step by (auto; try apply html_mark_eq; apply fmt_no; lia). now rewrite slot_missing.
  - intros N. unfold replaceLocalizeTextInJS, replaceLocalizeTextInHTML. split; intros F.
    + change (str "LocaleText["%string) with (76 :: tl js_mark) in *. apply loop_open; auto; apply js_mark_eq.
    + change (str "${LocaleText["%string) with (36 :: tl html_mark) in *. apply loop_open; auto; apply html_mark_eq.
Qed.
Print Assumptions C106_panic_refuted.
Example C106_nonvacuous :
  script (str "a("%string) [(1, str ") b"%string)] = str "a(LocaleText[1]) b"%string /\
  replaceLocalizeTextInJS (str "a(LocaleText[1]) b"%string) [str "x"%string; str "yz"%string] = Some (Ok (str "a(yz) b"%string)) /\
  replaceLocalizeTextInHTML (str "<p>${LocaleText[0]}</p>"%string) [str "x"%string] = Some (Ok (str "<p>x}</p>"%string)) /\
  replaceLocalizeTextInJS (str "LocaleText[256]LocaleText[a]."%string) [] = Some (Ok (str "."%string)) /\
  replaceLocalizeTextInJS (str "LocaleText[2]"%string) [str "x"%string] = Some Panic.
Proof. repeat split. Qed.
(** Whatever the text, localising it ends. *)
Lemma loop_total pat off : 0 <= off -> forall f s texts mix, (length s < f)%nat -> replace_loop f pat off s texts mix <> None.
Proof.
  intros P. induction f as [|f IH]; intros s texts mix L; [lia|]. cbn [replace_loop].
  destruct (Index_cases pat s) as [(_ & ->)|(a & r & -> & ->)]; [discriminate|].
  pose proof (zlen_nonneg a). replace (zlen a <? 0) with false by lia.
  replace (Z.to_nat (zlen a)) with (length a) by (unfold zlen; lia). rewrite skipn_len_app.
  destruct (slice (pat ++ r) off _) as [w|] eqn:E; [|discriminate].
  assert (B : 0 <= index_byte (pat ++ r) 93).
  { unfold slice in E. destruct ((0 <=? off) && (off <=? index_byte (pat ++ r) 93) && _) eqn:G; [lia|discriminate]. }
  destruct (ParseUint10 8 w) as (n, bad).
  destruct (if bad then _ else _) as [mix'|]; [|discriminate].
  destruct (slice_from (pat ++ r) _) as [s'|] eqn:E2; [|discriminate]. apply IH.
  destruct (index_range (pat ++ r) 93) as [Q|Q]; [lia|].
  rewrite slice_from_ok in E2 by lia. assert (X : s' = skipn (Z.to_nat (index_byte (pat ++ r) 93 + 1)) (pat ++ r)) by congruence.
  rewrite X, skipn_length. rewrite !app_length in *. unfold zlen in Q. rewrite app_length in Q. lia.
Qed.
Theorem C106_ends : forall s texts, replaceLocalizeTextInJS s texts <> None /\ replaceLocalizeTextInHTML s texts <> None.
Proof. intros s texts. split; apply loop_total; lia. Qed.
Print Assumptions C106_ends.

(** C107.  The style sheet goes right after the first marker of the script, and nothing else changes; *)
Lemma replace1_at p0 p a r new : ~ In p0 p -> ~ occurs (p0 :: p) a ->
  Replace1 (a ++ (p0 :: p) ++ r) (p0 :: p) new = a ++ new ++ r.
Proof.
  intros N F. unfold Replace1. rewrite Index_first by auto. pose proof (zlen_nonneg a). replace (zlen a <? 0) with false by lia.
  replace (Z.to_nat (zlen a)) with (length a) by (unfold zlen; lia). rewrite firstn_len_app. do 2 f_equal.
  replace (Z.to_nat (zlen a + zlen (p0 :: p))) with (length (a ++ p0 :: p)) by (rewrite app_length; unfold zlen; lia).
  rewrite (app_assoc a). apply skipn_len_app.
Qed.
Theorem C107_style : forall lib a css css' r, lib css = Some css' ->
  (~ occurs (str "CSS: '"%string) a ->
     mixCSSToJS lib (a ++ str "CSS: '"%string ++ r) css = a ++ str "CSS: '"%string ++ css' ++ r) /\
  (~ occurs (str "CSS = '"%string) a -> ~ occurs (str "CSS: '"%string) (a ++ str "CSS = '"%string ++ r) ->
     mixCSSToJS lib (a ++ str "CSS = '"%string ++ r) css = a ++ str "CSS = '"%string ++ css' ++ r) /\
  (forall js, ~ occurs (str "CSS: '"%string) js -> ~ occurs (str "CSS = '"%string) js -> mixCSSToJS lib js css = js).
Proof.
  intros lib a css css' r E. unfold mixCSSToJS, CSS_MinifyBytes. rewrite E. split; [|split].
  - intros F. change (str "CSS: '"%string) with (67 :: [83; 83; 58; 32; 39]) in *.
    rewrite Index_first by (auto; cbn [In]; lia). pose proof (zlen_nonneg a). replace (zlen a <? 0) with false by lia.
    rewrite replace1_at by (auto; cbn [In]; lia). now rewrite <- app_assoc.
  - intros F G. rewrite (Index_none _ _ G). change (-1 <? 0) with true. cbv iota.
    change (str "CSS = '"%string) with (67 :: [83; 83; 32; 61; 32; 39]) in *.
    rewrite replace1_at by (auto; cbn [In]; lia). now rewrite <- app_assoc.
  - intros js F G. rewrite (Index_none _ _ F). change (-1 <? 0) with true. cbv iota. unfold Replace1. now rewrite (Index_none _ _ G).
Qed.
Print Assumptions C107_style.
(** a style sheet the minifier refuses is dropped without a report. *)
Theorem C107_style_lost_refuted : forall lib js css, lib css = None -> mixCSSToJS lib js css = js.
Proof.
  intros lib js css E. unfold mixCSSToJS, CSS_MinifyBytes. rewrite E. rewrite !app_nil_r.
  assert (R : forall p0 p, Replace1 js (p0 :: p) (p0 :: p) = js).
  { intros p0 p. unfold Replace1. destruct (Index_cases (p0 :: p) js) as [(_ & ->)|(a & r & -> & ->)]; [reflexivity|].
    pose proof (zlen_nonneg a). replace (zlen a <? 0) with false by lia.
    replace (Z.to_nat (zlen a)) with (length a) by (unfold zlen; lia). rewrite firstn_len_app. do 2 f_equal.
    replace (Z.to_nat (zlen a + zlen (p0 :: p))) with (length (a ++ p0 :: p)) by (rewrite app_length; unfold zlen; lia).
    rewrite (app_assoc a). now rewrite skipn_len_app. }
  destruct (_ <? 0); apply R.
Qed.
Print Assumptions C107_style_lost_refuted.
(** The page goes right after the grave accent that follows the marker; *)
Lemma insert_ok a m b r html : ~ In 96 m -> ~ In 96 b -> insert_at_accent (a ++ m ++ b ++ [96] ++ r) html (zlen a) = a ++ m ++ b ++ [96] ++ html ++ r.
Proof.
  intros M B. unfold insert_at_accent. replace (Z.to_nat (zlen a)) with (length a) by (unfold zlen; lia). rewrite skipn_len_app.
  replace (m ++ b ++ [96] ++ r) with ((m ++ b) ++ 96 :: r) by (now rewrite <- app_assoc). rewrite index_at by (rewrite in_app_iff; tauto).
  pose proof (zlen_nonneg a). pose proof (zlen_nonneg (m ++ b)).
  replace (Z.to_nat (zlen (m ++ b) + (zlen a + 1))) with (length (a ++ (m ++ b) ++ [96])) by (rewrite !app_length; unfold zlen; rewrite app_length; cbn [length]; lia).
  replace (a ++ (m ++ b) ++ 96 :: r) with ((a ++ (m ++ b) ++ [96]) ++ r) by (rewrite <- !app_assoc; reflexivity).
  rewrite firstn_len_app, skipn_len_app. rewrite <- !app_assoc. reflexivity.
Qed.
Theorem C107_page : forall a b r html name, ~ In 96 b ->
  (~ occurs (str "HTML: ("%string) a ->
     mixHTMLToJS (a ++ str "HTML: ("%string ++ b ++ [96] ++ r) html = a ++ str "HTML: ("%string ++ b ++ [96] ++ HTML_MinifyBytes html ++ r) /\
  (~ occurs (str "HTML = ("%string) a -> ~ occurs (str "HTML: ("%string) (a ++ str "HTML = ("%string ++ b ++ [96] ++ r) ->
     mixHTMLToJS (a ++ str "HTML = ("%string ++ b ++ [96] ++ r) html = a ++ str "HTML = ("%string ++ b ++ [96] ++ HTML_MinifyBytes html ++ r) /\
  (forall c n, name = c :: n -> c <> 34 -> c <> 58 -> c <> 32 -> c <> 40 -> ~ In c n -> ~ In 96 name -> let mark := name ++ [34] ++ str ": ("%string in
     ~ occurs mark a ->
     mixHTMLTemplateToJS (a ++ mark ++ b ++ [96] ++ r) html name = a ++ mark ++ b ++ [96] ++ HTML_MinifyBytes html ++ r).
Proof.
  intros a b r html name B. pose proof (zlen_nonneg a) as Za. split; [|split].
  - intros F. unfold mixHTMLToJS. change (str "HTML: ("%string) with (72 :: [84; 77; 76; 58; 32; 40]) in *.
    rewrite Index_first by (auto; cbn [In]; lia). replace (zlen a <? 0) with false by lia. apply insert_ok; [cbn [In]; lia|exact B].
  - intros F G. unfold mixHTMLToJS. rewrite (Index_none _ _ G). change (-1 <? 0) with true. cbv iota.
    change (str "HTML = ("%string) with (72 :: [84; 77; 76; 32; 61; 32; 40]) in *.
    rewrite Index_first by (auto; cbn [In]; lia). replace (zlen a <? 0) with false by lia. apply insert_ok; [cbn [In]; lia|exact B].
  - intros c n -> C1 C2 C3 C4 CN N96 mark F. unfold mixHTMLTemplateToJS. fold mark.
    assert (M : mark = c :: (n ++ [34] ++ str ": ("%string)) by reflexivity.
    rewrite M in *. rewrite Index_first; [|rewrite in_app_iff; intros [I|I]; [contradiction|]; cbn in I; lia|exact F].
    replace (zlen a <? 0) with false by lia. rewrite <- M. apply insert_ok; [|exact B].
    unfold mark. rewrite in_app_iff. intros [I|I]; [contradiction|]. cbn in I. lia.
Qed.
Print Assumptions C107_page.
(** without an accent it is put before the marker, and without a marker the script itself is lost; *)
Theorem C107_page_refuted : forall a r html,
  (~ occurs (str "HTML: ("%string) a -> ~ In 96 r ->
     mixHTMLToJS (a ++ str "HTML: ("%string ++ r) html = a ++ HTML_MinifyBytes html ++ str "HTML: ("%string ++ r) /\
  (forall js, ~ occurs (str "HTML: ("%string) js -> ~ occurs (str "HTML = ("%string) js -> mixHTMLToJS js html = []).
Proof.
  intros a r html. split.
  - intros F N. unfold mixHTMLToJS. change (str "HTML: ("%string) with (72 :: [84; 77; 76; 58; 32; 40]) in *.
    rewrite Index_first by (auto; cbn [In]; lia). pose proof (zlen_nonneg a). replace (zlen a <? 0) with false by lia.
    unfold insert_at_accent. replace (Z.to_nat (zlen a)) with (length a) by (unfold zlen; lia). rewrite skipn_len_app.
    rewrite index_none by (rewrite in_app_iff; intros [I|I]; [cbn in I; lia|contradiction]).
    replace (-1 + (zlen a + 1)) with (zlen a) by lia. replace (Z.to_nat (zlen a)) with (length a) by (unfold zlen; lia).
    now rewrite firstn_len_app, skipn_len_app.
  - intros js F G. unfold mixHTMLToJS. now rewrite (Index_none _ _ F), (Index_none _ _ G).
Qed.
Print Assumptions C107_page_refuted.
(** and in the combining of a script with its files the pages are never in the result: it is the
    same whatever the page and the templates are. *)
Theorem C107_pages_lost_refuted : forall dev lib js json css html templates m,
  localeAndMixJSFile dev lib js json css html templates = Some (Ok m) ->
  localeAndMixJSFile dev lib js json css None [] = Some (Ok m).
Proof.
  intros dev lib js json css html templates m H. unfold localeAndMixJSFile in *. destruct json as [lj|]; [|exact H].
  destruct (localizeJSFile _ lj) as [[mixed|]|]; try exact H. cbn [localize_each].
  destruct (localize_each lj _) as [[u|]|]; [exact H|discriminate|discriminate].
Qed.
Print Assumptions C107_pages_lost_refuted.
(** A style put on a page stands after it, in a style element of its own; *)
Theorem C107_style_on_page : forall page css,
  mixCSSToHTML page css = page ++ [10] ++ str "<style>"%string ++ css ++ str "</style>"%string.
Proof. reflexivity. Qed.
Print Assumptions C107_style_on_page.
(** a script with a localisation file gives one script for every language in it, in which the texts
    of this language are put; *)
Theorem C107_languages : forall dev lib js lj css m,
  localeAndMixJSFile dev lib js (Some lj) css None [] = Some (Ok m) ->
  Forall2 (fun a b => fst b = fst a /\
    replaceLocalizeTextInJS (match css with Some c => mixCSSToJS lib js c | None => js end) (snd a) = Some (Ok (snd b))) lj m.
Proof.
  intros dev lib js lj css m H. unfold localeAndMixJSFile in H. cbn [localize_each] in H.
  set (d := match css with Some c => mixCSSToJS lib js c | None => js end) in *.
  assert (E : localizeJSFile d lj = Some (Ok m)).
  { destruct (localizeJSFile d lj) as [[x|]|]; [exact H|discriminate|discriminate]. }
  clear H. unfold localizeJSFile in E. clearbody d. revert m E.
  induction lj as [|[lang text] lj IH]; intros m E; cbn [localize_all] in E.
  - injection E as <-. constructor.
  - destruct (replaceLocalizeTextInJS d text) as [[y|]|] eqn:F; [|discriminate|destruct (localize_all _ d lj) as [[?|]|]; discriminate].
    destruct (localize_all replaceLocalizeTextInJS d lj) as [[z|]|] eqn:G; try discriminate. injection E as <-.
    constructor; [|now apply IH]. cbn [fst snd]. now split.
Qed.
Print Assumptions C107_languages.
(** the work ends whatever the files are, and stops the program exactly when putting the texts of some
    language in the script, or in one of the pages that are then lost, does: a wrong reference in a
    page takes the whole script with it; *)
Lemma localize_all_total f (T : forall d t, f d t <> None) : forall lj d, localize_all f d lj <> None /\
  (localize_all f d lj = Some Panic <-> exists x, In x lj /\ f d (snd x) = Some Panic).
Proof.
  induction lj as [|[lang text] lj IH]; intros d; cbn [localize_all].
  - split; [discriminate|]. split; [discriminate|]. intros (x & [] & _).
  - destruct (IH d) as (N & P). pose proof (T d text) as N1. destruct (f d text) as [[y|]|] eqn:F; [| |congruence].
    + destruct (localize_all f d lj) as [[z|]|]; [| |congruence].
      * split; [discriminate|]. split; [discriminate|]. intros (x & [<-|I] & Q); [cbn [snd] in Q; congruence|].
        exfalso. assert (X : Some (Ok z) = Some Panic) by (apply P; eauto). discriminate X.
      * split; [discriminate|]. split; [|reflexivity]. intros _. destruct (proj1 P eq_refl) as (x & I & Q). exists x. split; [now right|exact Q].
    + split; [destruct (localize_all f d lj) as [[?|]|]; discriminate|]. split; [|destruct (localize_all f d lj) as [[?|]|]; reflexivity].
      intros _. exists (lang, text). split; [now left|exact F].
Qed.
Theorem C107_ends_exact_partial : forall dev lib js lj css html templates,
  let script := match css with Some c => mixCSSToJS lib js c | None => js end in
  let pages := match html with Some h => h :: templates | None => templates end in
  let r := localeAndMixJSFile dev lib js (Some lj) css html templates in
  r <> None /\
  (r = Some Panic <-> exists lang texts, In (lang, texts) lj /\
     (replaceLocalizeTextInJS script texts = Some Panic \/ exists page, In page pages /\ replaceLocalizeTextInHTML page texts = Some Panic)).
Proof.
  intros dev lib js lj css html templates script pages. cbv zeta. unfold localeAndMixJSFile. fold script. fold pages. clearbody script pages.
  assert (E : localize_each lj pages <> None /\
    (localize_each lj pages = Some Panic <-> exists page, In page pages /\ exists x, In x lj /\ replaceLocalizeTextInHTML page (snd x) = Some Panic)).
  { induction pages as [|p pages IH]; cbn [localize_each].
    - split; [discriminate|]. split; [discriminate|]. intros (x & [] & _).
    - destruct (localize_all_total replaceLocalizeTextInHTML (fun d t => proj2 (C106_ends d t)) lj p) as (N & P).
      fold localizeHTMLFile in N, P. destruct (localizeHTMLFile p lj) as [[z|]|]; [| |congruence].
      + destruct IH as (IN & IP). split; [exact IN|]. rewrite IP. split.
        * intros (q & I & R). exists q. split; [now right|exact R].
        * intros (q & [<-|I] & R); [|eauto]. apply P in R. discriminate R.
      + split; [discriminate|]. split; [|reflexivity]. intros _. exists p. split; [now left|]. now apply P. }
  destruct E as (EN & EP).
  destruct (localize_all_total replaceLocalizeTextInJS (fun d t => proj1 (C106_ends d t)) lj script) as (N & P).
  fold localizeJSFile in N, P. destruct (localizeJSFile script lj) as [[z|]|]; [| |congruence].
  - destruct (localize_each lj pages) as [[u|]|]; [| |congruence]; (split; [discriminate|]; split; [|try reflexivity]).
    + discriminate.
    + intros (lang & texts & I & [R|(q & J & R)]); exfalso.
      * assert (X : Some (Ok z) = Some Panic) by (apply P; exists (lang, texts); auto). discriminate X.
      * assert (X : Some (Ok u) = Some Panic) by (apply EP; exists q; split; [exact J|]; exists (lang, texts); auto). discriminate X.
    + intros _. destruct (proj1 EP eq_refl) as (q & J & [lang texts] & I & R). exists lang, texts. split; [exact I|]. right. eauto.
  - split; [discriminate|]. split; [|reflexivity]. intros _. destruct (proj1 P eq_refl) as ([lang texts] & I & R). exists lang, texts. auto.
Qed.
Print Assumptions C107_ends_exact_partial.
(** but without a localisation file a script gives nothing, and in production it stops the program. *)
Theorem C107_no_texts_refuted : forall lib js css html templates,
  localeAndMixJSFile true lib js None css html templates = Some (Ok []) /\
  localeAndMixJSFile false lib js None css html templates = Some Panic.
Proof. split; reflexivity. Qed.
Print Assumptions C107_no_texts_refuted.
Example C107_nonvacuous :
  mixCSSToJS Some (str "x = {CSS: ''}"%string) (str "p{}"%string) = str "x = {CSS: 'p{}'}"%string /\
  mixHTMLToJS (str "HTML: () => ``,"%string) (str "<p>"%string) = str "HTML: () => `<p>`,"%string /\
  mixHTMLToJS (str "class A"%string) (str "<p>"%string) = [] /\
  localeAndMixJSFile false Some (str "HTML: () => ``"%string) (Some [(str "en"%string, [])]) None (Some (str "<p>"%string)) [] =
    Some (Ok [(str "en"%string, str "HTML: () => ``"%string)]) /\
  localeAndMixJSFile false Some (str "HTML: () => ``"%string) (Some [(str "en"%string, [])]) None (Some (str "${LocaleText[0]}"%string)) [] =
    Some Panic.
Proof. repeat split. Qed.

(** C108.  The imports of a script are found in order and removed, with the byte before the keyword,
    and the other code is kept; *)
Theorem C108_extract_partial : forall t0 l, ~ occurs (str "import "%string) t0 -> Forall import_ok l ->
  extractJSImports (source t0 l) = Some (Ok (code t0 l, map path l)).
Proof.
  intros t0 l F A. unfold extractJSImports. rewrite extract_all; auto.
  unfold source. rewrite app_length. enough (length l <= length (flat_map (fun i => before i :: str "import "%string ++ words i ++ [39%Z] ++ path i ++ [39%Z] ++ after i) l))%nat by lia.
  clear. induction l as [|x l IH]; [cbn; lia|]. cbn [flat_map length]. rewrite app_length. cbn [length]. lia.
Qed.
Print Assumptions C108_extract_partial.
(** whatever the script, extraction ends, and what it leaves holds no import keyword, so extracting
    again changes nothing; *)
Theorem C108_again : forall d, extractJSImports d <> None /\
  (forall d' ps, extractJSImports d = Some (Ok (d', ps)) ->
    ~ occurs (str "import "%string) d' /\ extractJSImports d' = Some (Ok (d', []))).
Proof.
  intros d. split; [apply extract_total; lia|]. intros d' ps E. apply extract_inv in E. split; [exact E|].
  unfold extractJSImports. cbn [extract]. now rewrite Index_none.
Qed.
Print Assumptions C108_again.
(** but a script that starts with an import stops the program, and so does the keyword (in a comment,
    a string, an import with double quotes) with fewer than two apostrophes after it. *)
Theorem C108_panic_refuted : forall a r,
  extractJSImports (str "import "%string ++ r) = Some Panic /\
  (~ occurs (str "import "%string) a ->
    (~ In 39 r \/ exists u v, r = u ++ [39] ++ v /\ ~ In 39 u /\ ~ In 39 v) ->
    extractJSImports (a ++ str "import "%string ++ r) = Some Panic).
Proof.
  intros a r. split.
  - apply extract_first. now exists r.
  - intros F Q. apply (extract_unquoted _ _ _ a r); auto.
Qed.
Print Assumptions C108_panic_refuted.
Example C108_nonvacuous :
  source (str "//"%string) [Import 10 (str "a from "%string) (str "./a.js"%string) (str ";go()"%string)] = str "//
import a from './a.js';go()"%string /\
  import_ok (Import 10 (str "a from "%string) (str "./a.js"%string) (str ";go()"%string)) /\
  extractJSImports (str "//
import a from './a.js';go()"%string) = Some (Ok (str "//;go()"%string, [str "./a.js"%string])).
Proof.
  split; [reflexivity|]. split; [|reflexivity]. unfold import_ok. cbn [before words path after].
  split; [cbn; lia|]. split; [cbn; lia|]. split; [cbn; lia|]. split; [right; cbn; lia|].
  intros (u & v & E). do 6 (destruct u as [|? u]; [discriminate|]). destruct u; discriminate.
Qed.

(** C109.  For every project of finitely many files, with any import cycles, collecting ends and the
    bundle has every file reachable from the main file exactly once. *)
Theorem C109_bundle : forall imports_of U main, In main U -> (forall g, In g U -> incl (imports_of g) U) ->
  exists b, bundle imports_of (S (length U)) main = Some b /\ NoDup b /\ (forall x, In x b <-> reach imports_of main x).
Proof.
  intros imports_of U main M C.
  destruct (rec_ok imports_of U C (S (length U)) main [main] []) as (I' & D' & E & G).
  { constructor. } { intros ? []. } { exact M. } { now left. } { cbn [length]. lia. }
  unfold bundle. rewrite E. exists (inline (rev ([main] ++ I')) []). split; [reflexivity|].
  destruct (inline_spec (rev ([main] ++ I')) []) as (A & B). split; [exact A|]. intros x. rewrite B, <- in_rev.
  destruct G as [Ga Gb Gc Gd Ge Gf Gg Gh].
  assert (CL : forall y, In y ([main] ++ I') -> In y D').
  { intros y [<-|Y]; [apply Gg; now left|now apply Gd]. }
  split.
  - intros ([<-|Y] & _); [apply reach_self|]. apply Gf in Y. destruct Y as (m & [<-|[]] & R). exact R.
  - intros R. split; [|intros []]. remember main as m eqn:Hm. revert Hm. induction R as [m|m x y R IH Y]; intros ->; [now left|].
    specialize (IH M). 
    assert (X : In x D') by (apply CL, IH; auto). apply Ge in X. destruct X as [[]|(p & q & E2 & Q)].
    rewrite E2. apply in_or_app. right. right. now apply Q.
Qed.
Print Assumptions C109_bundle.
(** When no file imports the main file it comes last, *)
Theorem C109_main_last : forall imports_of U main, In main U -> (forall g, In g U -> incl (imports_of g) U) ->
  (forall g, In g U -> ~ In main (imports_of g)) ->
  exists b, bundle imports_of (S (length U)) main = Some (b ++ [main]).
Proof.
  intros imports_of U main M C NM.
  destruct (rec_ok imports_of U C (S (length U)) main [main] []) as (I' & D' & E & G).
  { constructor. } { intros ? []. } { exact M. } { now left. } { cbn [length]. lia. }
  unfold bundle. rewrite E. exists (inline (rev I') []). cbn [app rev]. f_equal. apply inline_last; [|intros []].
  rewrite <- in_rev. intros X. destruct G as [Ga Gb Gc Gd Ge Gf Gg (E' & Gh & Gi)].
  rewrite app_nil_r in Gh. apply (Permutation_in _ Gi) in X. apply in_flat_map in X. destruct X as (g & I & J).
  apply (NM g); [|exact J]. apply Gb. now rewrite Gh.
Qed.
Print Assumptions C109_main_last.
(** and when no file is imported twice every file comes after the files it imports; *)
Theorem C109_order_partial : forall imports_of U main, NoDup U -> In main U -> (forall g, In g U -> incl (imports_of g) U) ->
  NoDup (main :: flat_map imports_of U) ->
  exists b, bundle imports_of (S (length U)) main = Some b /\
    forall x y, reach imports_of main x -> In y (imports_of x) -> exists p q r, b = p ++ y :: q ++ x :: r.
Proof.
  intros imports_of U main NU M C ND.
  destruct (rec_ok imports_of U C (S (length U)) main [main] []) as (I' & D' & E & G).
  { constructor. } { intros ? []. } { exact M. } { now left. } { cbn [length]. lia. }
  destruct G as [Ga Gb Gc Gd Ge Gf Gg (E' & Gh & Gi)]. rewrite app_nil_r in Gh. subst E'.
  assert (P : exists rest, Permutation U (D' ++ rest)).
  { clear - NU Ga Gb. revert U NU Gb. induction D' as [|d D IH]; intros U NU I; [exists U; reflexivity|].
    inversion Ga as [|? ? N1 N2]; subst. destruct (in_split d U) as (p & q & ->). { apply I. now left. }
    destruct (IH N2 (p ++ q)) as (rest & R).
    - apply NoDup_remove_1 in NU. exact NU.
    - intros y Y. assert (Y2 := I y (or_intror Y)). apply in_app_or in Y2. apply in_or_app. destruct Y2 as [Y2|[->|Y2]]; [now left|contradiction|now right].
    - exists rest. cbn [app]. rewrite <- R. symmetry. apply Permutation_middle. }
  destruct P as (rest & P).
  assert (NI : NoDup (main :: I')).
  { assert (X : Permutation (main :: flat_map imports_of U) ((main :: I') ++ flat_map imports_of rest)).
    { cbn [app]. apply perm_skip. etransitivity; [apply (Permutation_flat_map _ P)|]. rewrite flat_map_app. apply Permutation_app_tail. now symmetry. }
    apply (Permutation_NoDup X) in ND. clear - ND. revert ND. generalize (main :: I'). generalize (flat_map imports_of rest).
    intros l2 l1. induction l1 as [|a l1 IH]; intros H; [constructor|]. cbn [app] in H. inversion H as [|? ? H1 H2]; subst.
    constructor; [|now apply IH]. intros I. apply H1. apply in_or_app. now left. }
  unfold bundle. rewrite E. exists (inline (rev ([main] ++ I')) []). split; [reflexivity|].
  rewrite inline_id; [|apply NoDup_rev; exact NI|intros ? ? []].
  intros x y R Y.
  assert (X : In x D').
  { remember main as m eqn:Hm. revert Hm. clear - Gd Ge Gg R. induction R as [m|m x y R IH Y]; intros ->; [apply Gg; now left|].
    assert (X : In x D') by auto. apply Ge in X. destruct X as [[]|(p & q & E2 & Q)].
    assert (Z : In y ([main] ++ I')) by (rewrite E2; apply in_or_app; right; right; now apply Q).
    destruct Z as [<-|Z]; [apply Gg; now left|now apply Gd]. }
  apply Ge in X. destruct X as [[]|(p & q & E2 & Q)]. rewrite E2. specialize (Q y Y). apply in_split in Q. destruct Q as (q1 & q2 & ->).
  exists (rev q2), (rev q1), (rev p). rewrite rev_app_distr. cbn [rev]. rewrite rev_app_distr. cbn [rev]. rewrite <- !app_assoc. reflexivity.
Qed.
Print Assumptions C109_order_partial.
(** more generally every file that is imported from one place comes after the files it imports, however often those are imported *)
Lemma inline_before : forall a x y b inl, ~ In x a -> In y a -> ~ In y inl -> ~ In x inl ->
  exists p q r, inline (a ++ x :: b) inl = p ++ y :: q ++ x :: r.
Proof.
  assert (A : forall a x b inl, ~ In x a -> ~ In x inl -> exists q r, inline (a ++ x :: b) inl = q ++ x :: r).
  { induction a as [|z a IH]; intros x b inl N M; cbn [inline app].
    - replace (mem x inl) with false by (symmetry; now apply mem_not). exists [], (inline b (x :: inl)). reflexivity.
    - destruct (mem z inl).
      + apply IH; [intros I; apply N; now right|exact M].
      + destruct (IH x b (z :: inl)) as (q & r & E); [intros I; apply N; now right|intros [->|I]; [apply N; now left|contradiction]|].
        exists (z :: q), r. now rewrite E. }
  induction a as [|z a IH]; intros x y b inl N Y M1 M2; [destruct Y|]. cbn [inline app].
  destruct (mem z inl) eqn:E.
  - destruct Y as [->|Y]; [exfalso; apply mem_not in M1; congruence|]. apply IH; auto. intros I; apply N; now right.
  - destruct (Nat.eq_dec z y) as [->|NE].
    + destruct (A a x b (y :: inl)) as (q & r & F); [intros I; apply N; now right|intros [->|I]; [apply N; now left|contradiction]|].
      exists [], q, r. now rewrite F.
    + destruct Y as [->|Y]; [contradiction|].
      destruct (IH x y b (z :: inl)) as (p & q & r & F); [intros I; apply N; now right|exact Y|intros [->|I]; contradiction|intros [->|I]; [apply N; now left|contradiction]|].
      exists (z :: p), q, r. now rewrite F.
Qed.
Theorem C109_order_once_partial : forall imports_of U main x y, NoDup U -> In main U -> (forall g, In g U -> incl (imports_of g) U) ->
  count_occ Nat.eq_dec (main :: flat_map imports_of U) x = 1%nat -> reach imports_of main x -> In y (imports_of x) ->
  exists b p q r, bundle imports_of (S (length U)) main = Some b /\ b = p ++ y :: q ++ x :: r.
Proof.
  intros imports_of U main x y NU M C ND R Y.
  destruct (rec_ok imports_of U C (S (length U)) main [main] []) as (I' & D' & E & G).
  { constructor. } { intros ? []. } { exact M. } { now left. } { cbn [length]. lia. }
  destruct G as [Ga Gb Gc Gd Ge Gf Gg (E' & Gh & Gi)]. rewrite app_nil_r in Gh. subst E'.
  assert (P : exists rest, Permutation U (D' ++ rest)).
  { clear - NU Ga Gb. revert U NU Gb. induction D' as [|d D IH]; intros U NU I; [exists U; reflexivity|].
    inversion Ga as [|? ? N1 N2]; subst. destruct (in_split d U) as (p & q & ->). { apply I. now left. }
    destruct (IH N2 (p ++ q)) as (rest & R).
    - apply NoDup_remove_1 in NU. exact NU.
    - intros y Y. assert (Y2 := I y (or_intror Y)). apply in_app_or in Y2. apply in_or_app. destruct Y2 as [Y2|[->|Y2]]; [now left|contradiction|now right].
    - exists rest. cbn [app]. rewrite <- R. symmetry. apply Permutation_middle. }
  destruct P as (rest & P).
  assert (NI : (count_occ Nat.eq_dec ([main] ++ I') x <= 1)%nat).
  { assert (X : Permutation (main :: flat_map imports_of U) (([main] ++ I') ++ flat_map imports_of rest)).
    { cbn [app]. apply perm_skip. etransitivity; [apply (Permutation_flat_map _ P)|]. rewrite flat_map_app. apply Permutation_app_tail. now symmetry. }
    apply (Permutation_count_occ Nat.eq_dec) with (x := x) in X. rewrite count_occ_app in X. lia. }
  assert (X : In x D').
  { remember main as m eqn:Hm. revert Hm. clear - Gd Ge Gg R. induction R as [m|m x y R IH Y]; intros ->; [apply Gg; now left|].
    assert (X : In x D') by auto. apply Ge in X. destruct X as [[]|(p & q & E2 & Q)].
    assert (Z : In y ([main] ++ I')) by (rewrite E2; apply in_or_app; right; right; now apply Q).
    destruct Z as [<-|Z]; [apply Gg; now left|now apply Gd]. }
  apply Ge in X. destruct X as [[]|(p & q & E2 & Q)]. specialize (Q y Y).
  assert (NQ : ~ In x (rev q)).
  { rewrite <- in_rev. intros I. rewrite E2, count_occ_app in NI. cbn [count_occ] in NI. destruct (Nat.eq_dec x x) as [_|F]; [|now destruct F].
    apply (count_occ_In Nat.eq_dec) in I. lia. }
  unfold bundle. rewrite E, E2, rev_app_distr. cbn [rev]. rewrite <- app_assoc. cbn [app].
  destruct (inline_before (rev q) x y (rev p) [] NQ (proj1 (in_rev q y) Q)) as (a & b & c & F); [intros []|intros []|].
  eexists _, a, b, c. split; [reflexivity|exact F].
Qed.
Print Assumptions C109_order_once_partial.
Example C109_order_once_case : count_occ Nat.eq_dec (0 :: flat_map (fun n => match n with 0 => [1; 2] | 1 => [3] | 2 => [3] | _ => [] end) [0; 1; 2; 3])%nat 1%nat = 1%nat /\ bundle (fun n => match n with 0 => [1; 2] | 1 => [3] | 2 => [3] | _ => [] end)%nat 5 0 = Some [3; 2; 1; 0]%nat.
Proof. split; reflexivity. Qed.
Lemma reach_closed f (P : nat -> Prop) m : P m -> (forall x y, P x -> In y (f x) -> P y) -> forall y, reach f m y -> P y.
Proof. intros H0 H y R. induction R as [m|m x y R IH I]; [exact H0|]. eapply H; [now apply IH|exact I]. Qed.
(** but not in general: here 1 imports 3 and is imported by 0 and 2, and comes before 3. *)
Theorem C109_order_refuted : exists imports_of U, (forall g, In g U -> incl (imports_of g) U) /\ NoDup U /\ In 0%nat U /\
  (forall x y, In x U -> In y (imports_of x) -> reach imports_of y x -> False) /\
  bundle imports_of (S (length U)) 0 = Some [1; 3; 2; 0]%nat /\ In 3%nat (imports_of 1%nat).
Proof.
  exists (fun n => match n with 0 => [1; 2] | 1 => [3] | 2 => [1] | _ => [] end)%nat, [0; 1; 2; 3]%nat.
  set (f := fun n => match n with 0 => [1; 2] | 1 => [3] | 2 => [1] | _ => [] end%nat).
  split. { intros g [<-|[<-|[<-|[<-|[]]]]] y Y; cbn in *; intuition lia. }
  split. { repeat constructor; cbn; intuition lia. }
  split; [now left|]. split; [|split; [reflexivity|now left]].
  assert (R3 : forall y, reach f 3%nat y -> y = 3%nat) by (apply (reach_closed f (fun y => y = 3%nat)); [reflexivity|intros x y -> []]).
  assert (R1 : forall y, reach f 1%nat y -> y = 1%nat \/ y = 3%nat).
  { apply (reach_closed f (fun y => y = 1%nat \/ y = 3%nat)); [now left|]. intros x y [->| ->] I; [destruct I as [<-|[]]; auto|destruct I]. }
  assert (R2 : forall y, reach f 2%nat y -> y = 2%nat \/ y = 1%nat \/ y = 3%nat).
  { apply (reach_closed f (fun y => y = 2%nat \/ y = 1%nat \/ y = 3%nat)); [now left|].
    intros x y [->|[->| ->]] I; [destruct I as [<-|[]]; auto|destruct I as [<-|[]]; auto|destruct I]. }
  intros x y [<-|[<-|[<-|[<-|[]]]]] Y R; cbn in Y.
  - destruct Y as [<-|[<-|[]]]; [apply R1 in R|apply R2 in R]; intuition lia.
  - destruct Y as [<-|[]]. apply R3 in R. lia.
  - destruct Y as [<-|[]]. apply R1 in R. intuition lia.
  - destruct Y.
Qed.
Print Assumptions C109_order_refuted.
Example C109_nonvacuous : bundle (fun n => match n with 0 => [1; 2] | 1 => [0; 2] | _ => [] end)%nat 4 0 = Some [2; 0; 1]%nat /\
  bundle (fun n => match n with 0 => [1; 2] | 2 => [3] | _ => [] end)%nat 5 0 = Some [3; 2; 1; 0]%nat.
Proof. split; reflexivity. Qed.

(** C110.  A minified page has no line feed; *)
Theorem C110_no_line_feed : forall s, ~ In 10 (HTML_MinifyBytes s).
Proof. intros s. apply minify_no_lf. Qed.
Print Assumptions C110_no_line_feed.
(** a text with neither line feeds nor comments is kept, and a comment is removed with nothing else; *)
Theorem C110_plain : forall s, ~ In 10 s -> ~ occurs (str "<!--"%string) s -> HTML_MinifyBytes s = s.
Proof.
  intros s L O. unfold HTML_MinifyBytes. replace (S (length s)) with (length s + 1)%nat by lia.
  rewrite <- (app_nil_r s) at 2. rewrite copy_plain by auto. apply app_nil_r.
Qed.
Print Assumptions C110_plain.
Lemma html_step f s r : html_match s = Some r -> html_loop (S f) s = html_loop f r.
Proof. intros E. cbn [html_loop]. now rewrite E. Qed.
Theorem C110_comment : forall u c v, ~ In 10 u -> ~ In 10 v -> ~ occurs (str "<!--"%string) u -> ~ occurs (str "<!--"%string) v ->
  ~ occurs (str "-->"%string) (c ++ str "--"%string) ->
  HTML_MinifyBytes (u ++ str "<!--"%string ++ c ++ str "-->"%string ++ v) = u ++ v.
Proof.
  intros u c v LU LV OU OV C. unfold HTML_MinifyBytes. fold opening closing in *.
  replace (S (length (u ++ opening ++ c ++ closing ++ v))) with (length u + S (length (opening ++ c ++ closing ++ v)))%nat by (rewrite (app_length u); lia).
  rewrite copy_plain; [|exact LU|exact OU|].
  - f_equal. rewrite (html_step _ _ v) by (now apply comment_match).
    rewrite more_fuel by (rewrite !app_length; change (length opening) with 4%nat; lia).
    apply C110_plain; auto.
  - right. exists 60, (33 :: 45 :: 45 :: c ++ closing ++ v). split; [reflexivity|]. split; [intros (? & _); discriminate|now left].
Qed.
Print Assumptions C110_comment.
(** but a line feed is removed and not replaced by a space: two words on two lines become one, for
    every two words; *)
Theorem C110_words_refuted : forall u v, ~ In 10 u -> ~ In 13 u -> ~ In 10 v -> ~ occurs (str "<!--"%string) u -> ~ occurs (str "<!--"%string) v ->
  HTML_MinifyBytes (u ++ [10] ++ v) = u ++ v /\ HTML_MinifyBytes (u ++ [13; 10] ++ v) = u ++ v.
Proof.
  intros u v LU CU LV OU OV. 
  assert (LAST : last u 0 <> 13).
  { clear - CU. induction u as [|x u IH]; [cbn; lia|]. destruct u as [|y u]; [cbn [last]; intros ->; apply CU; now left|].
    change (last (x :: y :: u) 0) with (last (y :: u) 0). apply IH. intros I. apply CU. now right. }
  unfold HTML_MinifyBytes. split.
  - replace (S (length (u ++ [10] ++ v))) with (length u + S (S (length v)))%nat by (rewrite !app_length; cbn [length]; lia).
    rewrite copy_plain; [|exact LU|exact OU|].
    + f_equal. change ([10] ++ v) with (10 :: v). rewrite (html_step _ _ v) by (destruct v; reflexivity).
      now apply C110_plain.
    + right. exists 10, v. split; [reflexivity|]. split; [tauto|right; cbn; lia].
  - replace (S (length (u ++ [13; 10] ++ v))) with (length u + S (S (S (length v))))%nat by (rewrite !app_length; cbn [length]; lia).
    rewrite copy_plain; [|exact LU|exact OU|].
    + f_equal. change ([13; 10] ++ v) with (13 :: 10 :: v). rewrite (html_step _ _ v) by (destruct v; reflexivity).
      rewrite more_fuel by lia. now apply C110_plain.
    + right. exists 13, (10 :: v). split; [reflexivity|]. split; [intros (? & _); discriminate|right; cbn; lia].
Qed.
Print Assumptions C110_words_refuted.
(** and removing can make a comment that was not there, so minifying twice is not minifying once. *)
Theorem C110_twice_refuted : forall c, ~ In 10 c -> ~ occurs (str "<!--"%string) (str "-"%string ++ c ++ str "-->"%string) ->
  ~ occurs (str "-->"%string) (c ++ str "--"%string) ->
  let s := str "<!-"%string ++ [10] ++ str "-"%string ++ c ++ str "-->"%string in
  HTML_MinifyBytes s = str "<!--"%string ++ c ++ str "-->"%string /\ HTML_MinifyBytes (HTML_MinifyBytes s) = [].
Proof.
  intros c L O C s. assert (E : HTML_MinifyBytes s = str "<!--"%string ++ c ++ str "-->"%string).
  { unfold s. destruct (C110_words_refuted (str "<!-"%string) (str "-"%string ++ c ++ str "-->"%string)) as (-> & _); try (cbn; lia).
    - rewrite !in_app_iff. intros [I|[I|I]]; [cbn in I; lia|contradiction|cbn in I; lia].
    - intros (u & v & X). apply (f_equal (@length Z)) in X. rewrite !app_length in X. cbn in X. lia.
    - exact O.
    - reflexivity. }
  split; [exact E|]. rewrite E. pose proof (C110_comment [] c []) as H. cbn [app] in H. rewrite app_nil_r in H. apply H; auto;
  intros (u & v & X); destruct u; discriminate.
Qed.
Print Assumptions C110_twice_refuted.
Example C110_nonvacuous : HTML_MinifyBytes (str "<p>one
two</p><!-- a
b --><i>"%string) = str "<p>onetwo</p><i>"%string /\ ~ occurs (str "-->"%string) (str " x "%string ++ str "--"%string).
Proof.
  split; [reflexivity|]. intros (u & v & E). apply (f_equal (fun l => In 62 l)) in E. assert (X : In 62 (u ++ str "-->"%string ++ v)) by (rewrite !in_app_iff; right; left; cbn; auto).
  rewrite <- E in X. cbn in X. lia.
Qed.
