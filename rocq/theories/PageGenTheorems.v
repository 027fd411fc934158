(** C181: the files of a new page. *)
From Coq Require Import String ZifyBool ZifyNat.
From Verif Require Import Go GoFacts PageGenModel PageGenSpec.
Import ListNotations.
Local Open Scope Z_scope.
Local Open Scope list_scope.

(** The name the script gives its page *)
Definition name_of (req : request) : bytes := str "page"%string ++ PageVarName (fst (MakeNewPage req)).

Lemma seg_has req (l : list piece) a x b : l = a ++ x ++ b -> contains (flat_map (put req) l) (flat_map (put req) x).
Proof. intros ->. exists (flat_map (put req) a), (flat_map (put req) b). now rewrite !flat_map_app. Qed.
Lemma has_sub b w v : contains b w -> contains w v -> contains b v.
Proof. intros (p & r & ->) (q & s & ->). exists (p ++ q), (s ++ r). now rewrite <- !app_assoc. Qed.
(** [x] is in the template between a text that ends in [u] and one that starts with [v] *)
Lemma around req n x u v : (exists a b t, jsPageFile = firstn n jsPageFile ++ [Text (a ++ u); x; Text (v ++ b)] ++ t) ->
  contains (flat_map (put req) jsPageFile) (u ++ put req x ++ v).
Proof.
  intros (a & b & t & E). eapply has_sub; [apply (seg_has req _ _ _ _ E)|]. cbn [flat_map put]. rewrite app_nil_r.
  exists a, b. now rewrite <- !app_assoc.
Qed.
Ltac spot n u v := match goal with |- exists a b t, _ =>
  let p := eval vm_compute in (nth n jsPageFile PageVar) in let q := eval vm_compute in (nth (n + 2) jsPageFile PageVar) in
  match p with Text ?p' => match q with Text ?q' =>
    exists (firstn (List.length p' - List.length u) p'), (skipn (List.length v) q'), (skipn (n + 3) jsPageFile); vm_compute; reflexivity end end end.

(** The script declares the page under its name, registers it and sets its three functions, all under the same name; *)
Theorem C181_named : forall req, let js := JS (snd (MakeNewPage req)) in let n := name_of req in
  contains js (str "const "%string ++ n ++ str " = {"%string) /\ contains js (str "Application.RegisterPage("%string ++ n ++ str ")"%string) /\
  contains js (n ++ str ".ActivatePage = "%string) /\ contains js (n ++ str ".DeactivatePage = "%string) /\ contains js (n ++ str ".OtherAction = "%string).
Proof.
  intros req. unfold name_of. cbv zeta. set (r := fst (MakeNewPage req)).
  change (JS (snd (MakeNewPage req))) with (flat_map (put r) jsPageFile). change (PageVarName r) with (put r PageVar).
  rewrite <- !app_assoc. split; [|split; [|split; [|split]]].
  - change (str "const "%string ++ str "page"%string ++ put r PageVar ++ str " = {"%string) with (str "const page"%string ++ put r PageVar ++ str " = {"%string).
    apply (around r 0). spot 0%nat (str "const page"%string) (str " = {"%string).
  - change (str "Application.RegisterPage("%string ++ str "page"%string ++ put r PageVar ++ str ")"%string) with (str "Application.RegisterPage(page"%string ++ put r PageVar ++ str ")"%string).
    apply (around r 12). spot 12%nat (str "Application.RegisterPage(page"%string) (str ")"%string).
  - apply (around r 14). spot 14%nat (str "page"%string) (str ".ActivatePage = "%string).
  - apply (around r 16). spot 16%nat (str "page"%string) (str ".DeactivatePage = "%string).
  - apply (around r 18). spot 18%nat (str "page"%string) (str ".OtherAction = "%string).
Qed.
Print Assumptions C181_named.
(** its URN is that of the domain and the scope, a name that is given is kept, and the other files are the same for every page. *)
Theorem C181_rest : forall req,
  contains (JS (snd (MakeNewPage req))) (str "URN: ""domain/"%string ++ Domain req ++ str ":page:"%string ++ ScopeName req ++ str """,") /\
  contains (JS (snd (MakeNewPage req))) (str "Name: """%string ++ ScopeName req ++ str """,") /\
  (PageVarName req <> [] -> name_of req = str "page"%string ++ PageVarName req) /\
  forall other, HTML (snd (MakeNewPage req)) = HTML (snd (MakeNewPage other)) /\ CSS (snd (MakeNewPage req)) = CSS (snd (MakeNewPage other)) /\
    JSON (snd (MakeNewPage req)) = JSON (snd (MakeNewPage other)).
Proof.
  intros req. set (r := fst (MakeNewPage req)).
  assert (D : Domain r = Domain req /\ ScopeName r = ScopeName req) by (subst r; unfold MakeNewPage; destruct (beq _ _); split; reflexivity). destruct D as (D & S).
  change (JS (snd (MakeNewPage req))) with (flat_map (put r) jsPageFile). rewrite <- D, <- S. split; [|split; [|split]].
  - change jsPageFile with (firstn 2 jsPageFile ++ firstn 5 (skipn 2 jsPageFile) ++ skipn 7 jsPageFile). eapply has_sub; [eapply seg_has; reflexivity|].
    match goal with |- contains ?x _ => let y := eval cbn [flat_map put firstn skipn jsPageFile] in x in change x with y end. rewrite app_nil_r.
    exists (str " = {"%string ++ [10] ++ str "    URN: {"%string ++ [10] ++ [9; 9]), ([10] ++ str "		ID: """","%string ++ [10] ++ str "        Domain: """%string).
    rewrite <- !app_assoc. reflexivity.
  - change (ScopeName r) with (put r ScopeOf). apply (around r 8). spot 8%nat (str "Name: """%string) (str """,").
  - intros N. unfold name_of, MakeNewPage. destruct (beq (PageVarName req) []) eqn:E; [apply beq_eq in E; contradiction|reflexivity].
  - intros other. repeat split.
Qed.
Print Assumptions C181_rest.

Lemma auto_name D S : name_of (Request D S []) = str "page"%string ++ dashes_out (Title S).
Proof. reflexivity. Qed.
Lemma upper_letter c : letter c \/ figure c -> letter (upper c) \/ figure (upper c).
Proof. unfold upper, letter, figure. destruct ((97 <=? c) && (c <=? 122)) eqn:E; lia. Qed.
Lemma title_dash p s : In 32 (dashes_out (title p s)) \/ ~ In 45 s.
Proof.
  revert p. induction s as [|c t IH]; intros p; [now right|]. cbn [title dashes_out map]. destruct (Z.eqb_spec c 45) as [->|N].
  - left. left. destruct (separator p); reflexivity.
  - destruct (IH c) as [H|H]; [left; now right|right; intros [K|K]; auto].
Qed.
Lemma word_not c : word_char c -> separator c = false /\ c <> 45.
Proof. unfold word_char, letter, figure, separator. lia. Qed.
Lemma tail_end p w : word_char p -> Forall word_char w -> dashes_out (title p w) = w.
Proof.
  revert p. induction w as [|c t IH]; intros p P F; [reflexivity|]. inversion F as [|? ? F1 F2]; subst. cbn [title dashes_out map].
  destruct (word_not p P) as (-> & _). destruct (word_not c F1) as (_ & N). fold (dashes_out (title c t)). rewrite (IH c F1 F2). destruct (Z.eqb_spec c 45); [contradiction|reflexivity].
Qed.
Lemma tail_dash p w r : word_char p -> Forall word_char w -> dashes_out (title p (w ++ 45 :: r)) = w ++ 32 :: dashes_out (title 45 r).
Proof.
  revert p. induction w as [|c t IH]; intros p P F.
  - cbn [app title dashes_out map]. destruct (word_not p P) as (-> & _). reflexivity.
  - inversion F as [|? ? F1 F2]; subst. cbn [app title dashes_out map]. destruct (word_not p P) as (-> & _). destruct (word_not c F1) as (_ & N).
    fold (dashes_out (title c (t ++ 45 :: r))). rewrite (IH c F1 F2). destruct (Z.eqb_spec c 45); [contradiction|reflexivity].
Qed.
Lemma head_char p c : separator p = true -> word_char c -> (if (if separator p then upper c else c) =? 45 then 32 else (if separator p then upper c else c)) = (if (97 <=? c) && (c <=? 122) then c - 32 else c).
Proof. intros -> W. unfold upper. unfold word_char, letter, figure in W. cbv iota.
  destruct ((97 <=? c) && (c <=? 122)) eqn:E; match goal with |- context [?a =? 45] => destruct (Z.eqb_spec a 45) end; lia. Qed.
Lemma words_made p ws : separator p = true -> Forall (Forall word_char) ws -> dashes_out (title p (joined 45 ws)) = joined 32 (map capital ws).
Proof.
  revert p. induction ws as [|w ws IH]; intros p P F; [reflexivity|]. inversion F as [|? ? F1 F2]; subst. destruct ws as [|w2 ws].
  - cbn [joined map]. destruct w as [|c t]; [reflexivity|]. inversion F1 as [|? ? G1 G2]; subst. cbn [title dashes_out map capital]. fold (dashes_out (title c t)).
    rewrite (tail_end c t G1 G2), head_char by assumption. reflexivity.
  - change (joined 45 (w :: w2 :: ws)) with (w ++ 45 :: joined 45 (w2 :: ws)). change (joined 32 (map capital (w :: w2 :: ws))) with (capital w ++ 32 :: joined 32 (map capital (w2 :: ws))).
    rewrite <- (IH 45 eq_refl F2). destruct w as [|c t].
    + cbn [app title dashes_out map capital]. rewrite P. reflexivity.
    + inversion F1 as [|? ? G1 G2]; subst. cbn [app capital]. cbn [title dashes_out map]. fold (dashes_out (title c (t ++ 45 :: joined 45 (w2 :: ws)))).
      rewrite (tail_dash c t _ G1 G2), head_char by assumption. reflexivity.
Qed.
(** The name made: "page" and the words of the scope, each with a capital first and as it is otherwise, with a space for every dash. *)
Theorem C181_made : forall D ws, Forall (Forall word_char) ws ->
  name_of (Request D (joined 45 ws) []) = str "page"%string ++ joined 32 (map capital ws).
Proof. intros D ws F. rewrite auto_name. f_equal. unfold Title. now apply words_made. Qed.
Print Assumptions C181_made.
Example C181_made_case : name_of (Request [] (joined 45 [str "my"; str "new_orders"; str "z9"]%string) []) = str "pageMy New_orders Z9"%string /\
  Forall (Forall word_char) [str "my"; str "z9"]%string.
Proof.
  split; [reflexivity|]. change [str "my"; str "z9"]%string with [[109; 121]; [122; 57]].
  repeat (apply Forall_cons || apply Forall_nil); unfold word_char, letter, figure; lia.
Qed.
(** The name made from a scope is one JavaScript takes exactly when the scope has no dash: *)
Theorem C181_identifier_exact : forall D S, scope_name S -> (identifier (name_of (Request D S [])) <-> ~ In 45 S).
Proof.
  intros D S W. rewrite auto_name. split.
  - intros (F & _) H. apply Forall_app in F. destruct F as (_ & F). destruct (title_dash 32 S) as [K|K]; [|contradiction].
    rewrite Forall_forall in F. specialize (F 32 K). unfold letter, figure in F. lia.
  - intros N. split; [|exists 112, (str "age"%string ++ dashes_out (Title S)); split; [reflexivity|unfold figure; lia]].
    apply Forall_app. split; [change (str "page"%string) with [112; 97; 103; 101]; repeat (apply Forall_cons; [unfold letter; lia|]); apply Forall_nil|].
    unfold Title. generalize 32. induction S as [|c t IH]; intros p; [constructor|]. inversion W as [|? ? C W']; subst.
    assert (L : letter c \/ figure c) by (destruct C as [C|[C|C]]; auto; subst; exfalso; apply N; now left).
    cbn [title dashes_out map]. constructor; [|apply IH; [exact W'|intros K; apply N; now right]].
    assert (X : forall x, letter x \/ figure x -> letter (if x =? 45 then 32 else x) \/ figure (if x =? 45 then 32 else x) \/ (if x =? 45 then 32 else x) = 95 \/ (if x =? 45 then 32 else x) = 36).
    { intros x [Hx|Hx]; replace (x =? 45) with false by (unfold letter, figure in Hx; lia); auto. }
    apply X. destruct (separator p); [now apply upper_letter|exact L].
Qed.
Print Assumptions C181_identifier_exact.
(** so with a dash the script declares "page" and a word, a space, and another word. *)
Theorem C181_dash_refuted : forall D S, In 45 S -> In 32 (name_of (Request D S [])) /\ ~ identifier (name_of (Request D S [])).
Proof.
  intros D S H. rewrite auto_name. destruct (title_dash 32 S) as [K|K]; [|contradiction].
  assert (I : In 32 (str "page"%string ++ dashes_out (Title S))) by (apply in_or_app; now right). split; [exact I|].
  intros (F & _). rewrite Forall_forall in F. specialize (F 32 I). unfold letter, figure in F. lia.
Qed.
Print Assumptions C181_dash_refuted.
(** Scopes in lower case get different names; *)
Definition back (c : Z) : Z := if c =? 32 then 45 else if (65 <=? c) && (c <=? 90) then c + 32 else c.
Lemma back_title p s : lower_scope s -> map back (dashes_out (title p s)) = s.
Proof.
  intros W. revert p. induction W as [|c t C W IH]; intros p; [reflexivity|]. cbn [title dashes_out map]. f_equal; [|apply IH].
  assert (X : forall x, x = c \/ x = upper c -> back (if x =? 45 then 32 else x) = c); [|apply X; destruct (separator p); auto].
  unfold upper, figure in *. intros x H. assert (Hx : (x = 45 /\ c = 45) \/ (97 <= x <= 122 /\ x = c) \/ (65 <= x <= 90 /\ x + 32 = c) \/ (48 <= x <= 57 /\ x = c))
    by (destruct ((97 <=? c) && (c <=? 122)) eqn:E; lia).
  destruct Hx as [(-> & ->)|[(A & B)|[(A & B)|(A & B)]]]; [reflexivity| | |]; replace (x =? 45) with false by lia; unfold back; replace (x =? 32) with false by lia;
    destruct ((65 <=? x) && (x <=? 90)) eqn:F; lia.
Qed.
Theorem C181_distinct_partial : forall D D' S S', lower_scope S -> lower_scope S' ->
  (name_of (Request D S []) = name_of (Request D' S' []) <-> S = S').
Proof.
  intros D D' S S' W W'. rewrite !auto_name. split; [|now intros ->]. intros E. apply app_inv_head in E.
  rewrite <- (back_title 32 S W), <- (back_title 32 S' W'). unfold Title in E. now rewrite E.
Qed.
Print Assumptions C181_distinct_partial.
(** those that differ in the case of their first letter do not. *)
Theorem C181_case_refuted : forall D D' c t, 97 <= c <= 122 -> name_of (Request D (c :: t) []) = name_of (Request D' ((c - 32) :: t) []) /\ c :: t <> (c - 32) :: t.
Proof.
  intros D D' c t C. split; [|intros E; assert (c = c - 32) by congruence; lia]. rewrite !auto_name. f_equal. unfold Title. cbn [title].
  change (separator 32) with true. cbv iota. replace (upper c) with (c - 32) by (unfold upper; replace ((97 <=? c) && (c <=? 122)) with true by lia; reflexivity).
  replace (upper (c - 32)) with (c - 32) by (unfold upper; destruct ((97 <=? c - 32) && (c - 32 <=? 122)) eqn:E; lia).
  f_equal. f_equal. destruct t as [|d t]; [reflexivity|]. cbn [title]. unfold separator.
  replace (((48 <=? c) && (c <=? 57)) || ((65 <=? c) && (c <=? 90)) || ((97 <=? c) && (c <=? 122)) || (c =? 95)) with true by lia.
  replace (((48 <=? c - 32) && (c - 32 <=? 57)) || ((65 <=? c - 32) && (c - 32 <=? 90)) || ((97 <=? c - 32) && (c - 32 <=? 122)) || (c - 32 =? 95)) with true by lia. reflexivity.
Qed.
Print Assumptions C181_case_refuted.
(** The name is written into the request: the same request with another scope gives that page the name of the first. *)
Theorem C181_reuse_refuted : forall D S D' S', S <> [] -> let used := fst (MakeNewPage (Request D S [])) in
  name_of (Request D' S' (PageVarName used)) = name_of (Request D S []) /\
  (lower_scope S -> lower_scope S' -> S <> S' -> name_of (Request D' S' (PageVarName used)) <> name_of (Request D' S' [])).
Proof.
  intros D S D' S' N used.
  assert (E : name_of (Request D' S' (PageVarName used)) = name_of (Request D S [])).
  { unfold name_of. f_equal. change (PageVarName (fst (MakeNewPage (Request D S [])))) with (dashes_out (Title S)). subst used.
    change (PageVarName (fst (MakeNewPage (Request D S [])))) with (dashes_out (Title S)). unfold MakeNewPage. cbn [PageVarName].
    destruct (beq (dashes_out (Title S)) []) eqn:B; [|reflexivity]. apply beq_eq in B. destruct S; [congruence|discriminate B]. }
  split; [exact E|]. intros W W' NE. rewrite E. rewrite (C181_distinct_partial D D' S S' W W'). exact NE.
Qed.
Print Assumptions C181_reuse_refuted.
Example C181_case : name_of (Request (str "a.b"%string) (str "orders"%string) []) = str "pageOrders"%string /\ name_of (Request [] (str "my-orders"%string) []) = str "pageMy Orders"%string /\
  scope_name (str "my-orders"%string) /\ lower_scope (str "my-orders"%string) /\ In 45 (str "my-orders"%string) /\ ~ In 45 (str "orders"%string) /\
  PageVarName (fst (MakeNewPage (Request [] (str "orders"%string) []))) = str "Orders"%string.
Proof.
  split; [reflexivity|]. split; [reflexivity|].
  assert (A : str "my-orders"%string = [109; 121; 45; 111; 114; 100; 101; 114; 115]) by reflexivity. rewrite A.
  split; [unfold scope_name; repeat (apply Forall_cons; [unfold letter; lia|]); apply Forall_nil|]. split; [unfold lower_scope; repeat (apply Forall_cons; [lia|]); apply Forall_nil|].
  split; [right; right; now left|]. split; [|reflexivity]. intros H. vm_compute in H. intuition discriminate.
Qed.
