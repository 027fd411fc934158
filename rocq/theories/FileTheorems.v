(** C53, C54, C55, C59: files, paths, directories, media types. *)
From Coq Require Import ZifyBool ZifyNat.
From Verif Require Import Go GoFacts UriModel StringsModel StringsProofs FileModel FileSpec.

(** * C53 *)
Lemma from_app {A} (p q : list A) : slice_from (p ++ q) (zlen p) = Ok q.
Proof. rewrite slice_from_ok by (rewrite zlen_app; pose proof (zlen_nonneg q); pose proof (zlen_nonneg p); lia). f_equal. unfold zlen. rewrite Nat2Z.id. rewrite skipn_app, skipn_all, Nat.sub_diag. reflexivity. Qed.
Lemma over_app {A} (p q s : list A) : (length s <= length q)%nat -> overwrite (p ++ q) (length p) s = p ++ s ++ skipn (length s) q.
Proof.
  intros H. rewrite overwrite_fits by (rewrite app_length; lia). rewrite firstn_app, firstn_all, Nat.sub_diag. cbn [firstn]. rewrite app_nil_r. f_equal. f_equal.
  rewrite skipn_app, skipn_all2 by lia. cbn [app]. f_equal. lia.
Qed.
Lemma replace_one_ok reveal k p b c total d : (forall k n, 0 <= n -> zlen (reveal k n) = n) ->
  Start d + total = zlen p -> End_ d + total = zlen p + zlen b -> replace_one reveal k (p ++ b ++ c) total d = Ok (p ++ Data d ++ c, total + (zlen (Data d) - zlen b)).
Proof.
  intros HR S1 E1. unfold replace_one. rewrite S1, E1. set (D := Data d). set (a := zlen D - (zlen p + zlen b - zlen p)). assert (Ha : a = zlen D - zlen b) by (unfold a; lia). clearbody a.
  pose proof (zlen_nonneg p); pose proof (zlen_nonneg b); pose proof (zlen_nonneg c); pose proof (zlen_nonneg D).
  assert (G : exists x, (if 0 <? a then (p ++ b ++ c) ++ reveal k a else p ++ b ++ c) = p ++ b ++ c ++ x /\ zlen x = Z.max a 0).
  { destruct (Z.ltb_spec 0 a); [exists (reveal k a); split; [rewrite <- !app_assoc; reflexivity|rewrite HR by lia; lia]|exists []; split; [rewrite app_nil_r; reflexivity|cbn; lia]]. }
  destruct G as (x & -> & Lx). replace (zlen p + zlen b) with (zlen (p ++ b)) by apply zlen_app. rewrite (app_assoc p b). rewrite from_app. cbn [bind].
  assert (T : exists y z, (p ++ b) ++ c ++ x = (p ++ y) ++ z /\ zlen y = zlen D /\ zlen z = zlen c + Z.max (- a) 0).
  { exists (firstn (length D) (b ++ c ++ x)), (skipn (length D) (b ++ c ++ x)). split; [rewrite <- !app_assoc, firstn_skipn; reflexivity|].
    assert (zlen (b ++ c ++ x) = zlen b + zlen c + Z.max a 0) by (rewrite !zlen_app; lia). unfold zlen in *. rewrite firstn_length, skipn_length. lia. }
  destruct T as (y & z & -> & Ly & Lz).
  replace (zlen (p ++ b) + a) with (zlen (p ++ y)) by (rewrite !zlen_app; lia). unfold copy_at at 1. rewrite !zlen_app.
  replace ((0 <=? zlen p + zlen y) && (zlen p + zlen y <=? zlen p + zlen y + zlen z)) with true by lia. cbn [bind].
  replace (Z.to_nat (zlen p + zlen y)) with (length (p ++ y)) by (rewrite app_length; unfold zlen; lia).
  assert (O1 : overwrite ((p ++ y) ++ z) (length (p ++ y)) (c ++ x) = (p ++ y) ++ c ++ skipn (length c) z).
  { destruct (Z.ltb_spec 0 a) as [Pa|Pa].
    - unfold overwrite. rewrite firstn_app, firstn_all, Nat.sub_diag. cbn [firstn]. rewrite app_nil_r. f_equal.
      replace (length ((p ++ y) ++ z) - length (p ++ y))%nat with (length c) by (rewrite app_length; unfold zlen in *; lia).
      rewrite firstn_app, firstn_all, Nat.sub_diag. cbn [firstn]. rewrite app_nil_r. f_equal. rewrite !skipn_all2; [reflexivity| |]; rewrite ?app_length; unfold zlen in *; lia.
    - assert (x = []) by (destruct x; [reflexivity|unfold zlen in Lx; cbn in Lx; lia]). subst x. rewrite app_nil_r. apply over_app. unfold zlen in *; lia. }
  rewrite O1. rewrite <- app_assoc. unfold copy_at. assert (Z1 : zlen (skipn (length c) z) = Z.max (- a) 0) by (unfold zlen in *; rewrite skipn_length; lia).
  set (w := skipn (length c) z) in *. clearbody w. rewrite !zlen_app. replace ((0 <=? zlen p) && (zlen p <=? zlen p + (zlen y + (zlen c + zlen w)))) with true by lia. cbn [bind].
  replace (Z.to_nat (zlen p)) with (length p) by (unfold zlen; lia). rewrite over_app by (rewrite !app_length; unfold zlen in *; lia).
  replace (skipn (length D) (y ++ c ++ w)) with (c ++ w) by (rewrite skipn_app, skipn_all2 by (unfold zlen in *; lia); replace (length D - length y)%nat with 0%nat by (unfold zlen in *; lia); reflexivity).
  replace (total + (zlen D - zlen b)) with (total + a) by lia. destruct (Z.ltb_spec a 0) as [Na|Na].
  - rewrite slice_to_ok by (rewrite !zlen_app; lia). cbn [bind]. f_equal. f_equal. replace (Z.to_nat _) with (length (p ++ D ++ c)) by (rewrite !zlen_app, !app_length; unfold zlen in *; lia).
    replace (p ++ D ++ c ++ w) with ((p ++ D ++ c) ++ w) by (rewrite <- !app_assoc; reflexivity). rewrite firstn_app, firstn_all, Nat.sub_diag. cbn [firstn]. apply app_nil_r.
  - assert (w = []) by (destruct w; [reflexivity|unfold zlen in Z1; cbn in Z1; lia]). subst w. rewrite app_nil_r. reflexivity.
Qed.
Lemma replace_inv reveal orig : (forall k n, 0 <= n -> zlen (reveal k n) = n) -> forall l k done pos, 0 <= pos <= zlen orig -> increasing (zlen orig) pos l ->
  replace_loop reveal k (done ++ skipn (Z.to_nat pos) orig) (zlen done - pos) l = Ok (done ++ replaced orig pos l).
Proof.
  intros HR. induction l as [|d l IH]; intros k done pos P I; cbn [replace_loop replaced]; [reflexivity|]. destruct I as (I1 & I2 & I3).
  set (a := firstn (Z.to_nat (Start d - pos)) (skipn (Z.to_nat pos) orig)). set (b := firstn (Z.to_nat (End_ d - Start d)) (skipn (Z.to_nat (Start d)) orig)).
  assert (La : zlen a = Start d - pos) by (unfold a, zlen; rewrite firstn_length, skipn_length; unfold zlen in *; lia).
  assert (Lb : zlen b = End_ d - Start d) by (unfold b, zlen; rewrite firstn_length, skipn_length; unfold zlen in *; lia).
  assert (SK : forall (l : bytes) n m, skipn m (skipn n l) = skipn (n + m) l).
  { induction l0 as [|x t IHt]; intros [|n] m; cbn [skipn Nat.add]; rewrite ?skipn_nil; auto. }
  assert (SP : skipn (Z.to_nat pos) orig = a ++ b ++ skipn (Z.to_nat (End_ d)) orig).
  { rewrite <- (firstn_skipn (Z.to_nat (Start d - pos)) (skipn (Z.to_nat pos) orig)) at 1. unfold a. f_equal. rewrite SK.
    replace (Z.to_nat pos + Z.to_nat (Start d - pos))%nat with (Z.to_nat (Start d)) by lia.
    rewrite <- (firstn_skipn (Z.to_nat (End_ d - Start d)) (skipn (Z.to_nat (Start d)) orig)) at 1. unfold b. f_equal. rewrite SK. f_equal. lia. }
  rewrite SP. replace (done ++ a ++ b ++ skipn (Z.to_nat (End_ d)) orig) with ((done ++ a) ++ b ++ skipn (Z.to_nat (End_ d)) orig) by (rewrite <- app_assoc; reflexivity).
  rewrite replace_one_ok; [|exact HR|rewrite zlen_app; lia|rewrite zlen_app; lia]. cbn [bind].
  replace ((done ++ a) ++ Data d ++ skipn (Z.to_nat (End_ d)) orig) with ((done ++ a ++ Data d) ++ skipn (Z.to_nat (End_ d)) orig) by (rewrite <- !app_assoc; reflexivity).
  replace (zlen done - pos + (zlen (Data d) - zlen b)) with (zlen (done ++ a ++ Data d) - End_ d) by (rewrite !zlen_app; lia).
  rewrite IH by (try lia; exact I3). rewrite <- !app_assoc. reflexivity.
Qed.
(** Whatever the spare capacity holds, the edited content is the original with every range
    replaced by its text. *)
Theorem C53_replace : forall reveal orig l, (forall k n, 0 <= n -> zlen (reveal k n) = n) -> increasing (zlen orig) 0 l ->
  ReplaceLocation reveal orig l = Ok (replaced orig 0 l).
Proof. intros reveal orig l HR I. unfold ReplaceLocation. pose proof (zlen_nonneg orig). exact (replace_inv reveal orig HR l 0 [] 0 ltac:(lia) I). Qed.
Print Assumptions C53_replace.
(** What [replaced] says: outside the ranges nothing changes, and each range becomes its text. *)
Theorem C53_single : forall reveal p b c t, (forall k n, 0 <= n -> zlen (reveal k n) = n) ->
  ReplaceLocation reveal (p ++ b ++ c) [{| Data := t; Start := zlen p; End_ := zlen p + zlen b |}] = Ok (p ++ t ++ c).
Proof.
  intros reveal p b c t HR. unfold ReplaceLocation. cbn [replace_loop]. rewrite (replace_one_ok reveal 0 p b c 0) by (cbn; auto; lia). reflexivity.
Qed.
Print Assumptions C53_single.
Example C53_nonvacuous_grow_shrink : ReplaceLocation (fun _ n => repeat 255 (Z.to_nat n)) [97; 98; 99; 100; 101; 102]
  [{| Data := [1; 2; 3]; Start := 1; End_ := 2 |}; {| Data := []; Start := 3; End_ := 5 |}; {| Data := [9]; Start := 6; End_ := 6 |}] = Ok [97; 1; 2; 3; 99; 102; 9].
Proof. reflexivity. Qed.
Example C53_nonvacuous : increasing 6 0 [{| Data := [1; 2; 3]; Start := 1; End_ := 2 |}; {| Data := []; Start := 3; End_ := 5 |}; {| Data := [9]; Start := 6; End_ := 6 |}].
Proof. cbn. lia. Qed.

(** * C54 *)
(** The loop without indices: the part so far and the rest. *)
Fixpoint pieces (pre rest : bytes) : list bytes :=
  match rest with
  | [] => [pre]
  | c :: r => if c =? 47 then pre :: match r with [] => [[]] | x :: r' => pieces [x] r' end else pieces (pre ++ [c]) r
  end.
Lemma parts_pieces : forall fuel u i, (length u - i < fuel)%nat -> (i <= length u)%nat \/ u = [] -> parts_loop fuel u i = Some (pieces (firstn i u) (skipn i u)).
Proof.
  induction fuel as [|f IH]; intros u i H B; [lia|]. cbn [parts_loop]. destruct (nth_error u i) as [c|] eqn:E.
  - assert (i < length u)%nat by (apply nth_error_Some; congruence).
    assert (SK : skipn i u = c :: skipn (S i) u).
    { clear -E. revert i E. induction u as [|x u IHu]; intros [|i] E; cbn in *; try discriminate; [injection E as ->; reflexivity|apply IHu; exact E]. }
    assert (FK : firstn (S i) u = firstn i u ++ [c]).
    { clear -E. revert i E. induction u as [|x u IHu]; intros [|i] E; cbn in *; try discriminate; [injection E as ->; reflexivity|f_equal; apply IHu; exact E]. }
    rewrite SK. cbn [pieces]. destruct (c =? 47).
    + rewrite IH; [| |destruct (skipn (S i) u); [right; reflexivity|left; cbn; lia]].
      * destruct (skipn (S i) u) as [|x r']; reflexivity.
      * rewrite skipn_length. lia.
    + rewrite IH by (try lia; left; lia). rewrite FK. reflexivity.
  - apply nth_error_None in E. rewrite skipn_all2, firstn_all2 by lia. reflexivity.
Qed.
Lemma parts_eq p : FilePathParts p = Some (pieces [] p).
Proof. unfold FilePathParts. rewrite parts_pieces by (try lia; left; lia). reflexivity. Qed.
Lemma pieces_ind (P : bytes -> bytes -> Prop) : (forall pre, P pre []) -> (forall pre, P pre [47]) -> (forall pre x r, P [x] r -> P pre (47 :: x :: r)) ->
  (forall pre c r, c <> 47 -> P (pre ++ [c]) r -> P pre (c :: r)) -> forall rest pre, P pre rest.
Proof.
  intros H1 H2 H3 H4 rest. remember (length rest) as n eqn:E. revert rest E. induction n as [n IH] using (well_founded_induction lt_wf). intros [|c r] -> pre; [apply H1|].
  destruct (Z.eq_dec c 47) as [->|N].
  - destruct r as [|x r]; [apply H2|]. apply H3. apply (IH (length r)); [cbn; lia|reflexivity].
  - apply H4; [exact N|]. apply (IH (length r)); [cbn; lia|reflexivity].
Qed.
Lemma pieces_nonempty pre rest : pieces pre rest <> [].
Proof. revert pre. induction rest as [|c r IH]; intros pre; cbn [pieces]; [discriminate|]. destruct (c =? 47); [discriminate|apply IH]. Qed.
(** Joining the parts gives the path back, for every path. *)
Theorem C54_join : forall p, exists l, FilePathParts p = Some l /\ Join l [47] = p.
Proof.
  intros p. exists (pieces [] p). split; [apply parts_eq|]. enough (G : forall rest pre, Join (pieces pre rest) [47] = pre ++ rest) by apply G.
  apply pieces_ind; intros; cbn [pieces].
  - cbn [Join]. rewrite app_nil_r. reflexivity.
  - reflexivity.
  - change (47 =? 47) with true. cbv iota. destruct (pieces [x] r) as [|y l] eqn:E; [exfalso; exact (pieces_nonempty _ _ E)|].
    change (pre ++ [47] ++ Join (y :: l) [47] = pre ++ 47 :: x :: r). rewrite H. reflexivity.
  - replace (c =? 47) with false by lia. rewrite H0, <- app_assoc. reflexivity.
Qed.
Print Assumptions C54_join.
Lemma double_cons c r : (exists a b, c :: r = a ++ 47 :: 47 :: b) <-> (c = 47 /\ hd_error r = Some 47) \/ (exists a b, r = a ++ 47 :: 47 :: b).
Proof.
  split.
  - intros ([|x a] & b & E); cbn in E; injection E as -> ->; [left; auto|right; eauto].
  - intros [(-> & E)|(a & b & ->)]; [destruct r; [discriminate|]; injection E as ->; exists [], r; reflexivity|exists (c :: a), b; reflexivity].
Qed.
(** The parts are free of separators exactly when the path has no two separators in a row, *)
Theorem C54_separator_partial : forall p l, FilePathParts p = Some l -> (Forall (fun x => ~ In 47 x) l <-> ~ exists a b, p = a ++ 47 :: 47 :: b).
Proof.
  intros p l E. rewrite parts_eq in E. injection E as <-.
  enough (G : forall rest pre, Forall (fun x => ~ In 47 x) (pieces pre rest) <-> ~ In 47 pre /\ ~ exists a b, rest = a ++ 47 :: 47 :: b).
  { rewrite G. cbn [In]. tauto. }
  apply pieces_ind; intros; cbn [pieces].
  - rewrite Forall_cons_iff. split; [intros (A & _); split; [exact A|intros ([|? a] & b & E); discriminate]|intros (A & _); auto].
  - change (47 =? 47) with true. cbv iota. rewrite !Forall_cons_iff. split; [intros (A & _); split; [exact A|]|intros (A & _); auto].
    intros ([|? [|? a]] & b & E); discriminate.
  - change (47 =? 47) with true. cbv iota. rewrite Forall_cons_iff, H, !double_cons. cbn [hd_error In]. split.
    + intros (A & B & C). split; [exact A|]. intros [(_ & [= ->])|[(-> & _)|D]]; [apply B; auto|apply B; auto|apply C; exact D].
    + intros (A & B). split; [exact A|]. split; [intros [->|[]]; apply B; left; auto|]. intros D. apply B. right. right. exact D.
  - replace (c =? 47) with false by lia. rewrite H0, in_app_iff, double_cons. cbn [In]. split.
    + intros (A & B). split; [tauto|]. intros [(D & _)|D]; [contradiction|tauto].
    + intros (A & B). split; [intros [D|[D|[]]]; [tauto|congruence]|tauto].
Qed.
Print Assumptions C54_separator_partial.
(** so some part of any other path contains one. *)
Theorem C54_separator_refuted : forall a b, exists l x, FilePathParts (a ++ 47 :: 47 :: b) = Some l /\ In x l /\ In 47 x.
Proof.
  intros a b. destruct (C54_join (a ++ 47 :: 47 :: b)) as (l & E & _). exists l. pose proof (C54_separator_partial _ _ E) as H.
  destruct (Exists_dec (fun x => In 47 x) l) as [X|X]; [intros x; apply (in_dec Z.eq_dec)| |].
  - apply Exists_exists in X. destruct X as (x & I1 & I2). eauto.
  - exfalso. apply (proj1 H); [|eauto]. apply Forall_forall. intros x I1 I2. apply X. apply Exists_exists. eauto.
Qed.
Print Assumptions C54_separator_refuted.
Lemma ext_at b e : ~ In 46 e -> forall e2 n, e = e2 ++ skipn (length e2) e -> n = (S (length b) + length e2)%nat -> extension_loop (b ++ 46 :: e) n = e.
Proof.
  intros N e2. induction e2 as [|x e2 IH] using rev_ind; intros n E ->.
  - cbn [length]. rewrite Nat.add_0_r. cbn [extension_loop]. rewrite nth_error_app2, Nat.sub_diag by lia. cbn [nth_error]. change (46 =? 46) with true. cbv iota.
    replace (b ++ 46 :: e) with ((b ++ [46]) ++ e) by (rewrite <- app_assoc; reflexivity). replace (S (length b)) with (length (b ++ [46])) by (rewrite app_length; cbn; lia).
    rewrite skipn_app, skipn_all, Nat.sub_diag. reflexivity.
  - rewrite app_length. cbn [length]. replace (S (length b) + (length e2 + 1))%nat with (S (S (length b) + length e2)) by lia. cbn [extension_loop].
    rewrite nth_error_app2 by lia. replace (S (length b) + length e2 - length b)%nat with (S (length e2)) by lia. cbn [nth_error].
    assert (X : nth_error e (length e2) = Some x) by (rewrite E, <- app_assoc, nth_error_app2, Nat.sub_diag by lia; reflexivity). rewrite X.
    assert (In x e) by (eapply nth_error_In; eauto). replace (x =? 46) with false by (symmetry; apply Z.eqb_neq; intros ->; contradiction).
    apply IH; [|lia]. rewrite E at 1. rewrite <- app_assoc. f_equal. rewrite E at 2. rewrite <- app_assoc, skipn_app, skipn_all, Nat.sub_diag. reflexivity.
Qed.
Lemma ext_none n : ~ In 46 n -> forall k, extension_loop n k = [].
Proof. intros N. induction k as [|k IH]; [reflexivity|]. cbn [extension_loop]. destruct (nth_error n k) as [c|] eqn:E; [|reflexivity]. apply nth_error_In in E. replace (c =? 46) with false by (symmetry; apply Z.eqb_neq; intros ->; contradiction). exact IH. Qed.
(** The extension is what follows the last dot; the name without it keeps the dot, *)
Theorem C54_extension_partial : forall u n,
  (~ In 46 n -> extension_ (Rename u n) = [] /\ NameWithoutExtension (Rename u n) = Ok n) /\
  (forall b e, n = b ++ 46 :: e -> ~ In 46 e -> extension_ (Rename u n) = e /\ NameWithoutExtension (Rename u n) = Ok (b ++ [46])).
Proof.
  intros u n. unfold NameWithoutExtension, Rename, Extension. cbn [extension_ name_]. pose proof (zlen_nonneg n). split.
  - intros N. rewrite ext_none by exact N. split; [reflexivity|]. cbn [zlen length]. rewrite slice_to_ok by (cbn; lia). rewrite firstn_all2; [reflexivity|cbn; unfold zlen; lia].
  - intros b e -> N. rewrite (ext_at b e N e) by (first [rewrite skipn_all, app_nil_r; reflexivity|rewrite app_length; cbn [length]; lia]). split; [reflexivity|].
    replace (b ++ 46 :: e) with ((b ++ [46]) ++ e) by (rewrite <- app_assoc; reflexivity). rewrite zlen_app. pose proof (zlen_nonneg (b ++ [46])). pose proof (zlen_nonneg e).
    rewrite slice_to_ok by (rewrite (zlen_app (b ++ [46]) e); lia). f_equal. replace (Z.to_nat _) with (length (b ++ [46])) by (unfold zlen; lia). rewrite firstn_app, firstn_all, Nat.sub_diag. cbn [firstn]. apply app_nil_r.
Qed.
Print Assumptions C54_extension_partial.
(** so base, dot and extension never make up the name again, unless it has no dot. *)
Theorem C54_dot_refuted : forall u n, In 46 n -> forall base, NameWithoutExtension (Rename u n) = Ok base -> base ++ 46 :: extension_ (Rename u n) <> n /\ base ++ extension_ (Rename u n) = n.
Proof.
  intros u n I base E. assert (G : exists b e, n = b ++ 46 :: e /\ ~ In 46 e).
  { clear -I. induction n as [|x n IH]; [destruct I|]. destruct (in_dec Z.eq_dec 46 n) as [J|J]; [destruct (IH J) as (b & e & -> & N); exists (x :: b), e; auto|].
    destruct I as [->|I]; [exists [], n; auto|contradiction]. }
  destruct G as (b & e & -> & N). destruct (proj2 (C54_extension_partial u (b ++ 46 :: e)) b e eq_refl N) as (E1 & E2). rewrite E1. rewrite E in E2. assert (base = b ++ [46]) by congruence. subst base.
  split; [|rewrite <- app_assoc; reflexivity]. rewrite <- app_assoc. cbn [app]. intros C. apply (f_equal (@length Z)) in C. rewrite !app_length in C. cbn in C. lia.
Qed.
Print Assumptions C54_dot_refuted.
(** Directory and name of a file URI are the text it was made from, the name without separators. *)
Lemma split_file u : fst (filepath_Split u) ++ snd (filepath_Split u) = u /\ ~ In 47 (snd (filepath_Split u)).
Proof.
  unfold filepath_Split. cbn [fst snd]. split; [apply firstn_skipn|]. destruct (in_dec Z.eq_dec 47 u) as [I|I].
  - assert (G : exists b e, u = b ++ 47 :: e /\ ~ In 47 e).
    { clear -I. induction u as [|x n IH]; [destruct I|]. destruct (in_dec Z.eq_dec 47 n) as [J|J]; [destruct (IH J) as (b & e & -> & N); exists (x :: b), e; auto|].
      destruct I as [->|I]; [exists [], n; auto|contradiction]. }
    destruct G as (b & e & -> & N). rewrite last_index_at by exact N. replace (b ++ 47 :: e) with ((b ++ [47]) ++ e) by (rewrite <- app_assoc; reflexivity).
    replace (Z.to_nat (zlen b + 1)) with (length (b ++ [47])) by (rewrite app_length; unfold zlen; cbn; lia). rewrite skipn_app, skipn_all, Nat.sub_diag. exact N.
  - rewrite last_index_none by exact I. exact I.
Qed.
Theorem C54_init : forall u0 u, path_ (FInit u0 u) ++ name_ (FInit u0 u) = u /\ ~ In 47 (name_ (FInit u0 u)) /\ extension_ (FInit u0 u) = Extension (name_ (FInit u0 u)).
Proof. intros u0 u. unfold FInit. pose proof (split_file u) as (A & B). destruct (filepath_Split u) as [d f]. cbn in *. auto. Qed.
Print Assumptions C54_init.
(** Decoding a URI keeps the extension of the previous one; with a shorter name it then panics. *)
Theorem C54_stale_refuted : forall u data, extension_ (FUnmarshal u data) = extension_ u /\
  (zlen (snd (filepath_Split data)) < zlen (extension_ u) -> NameWithoutExtension (FUnmarshal u data) = Panic).
Proof.
  intros u data. unfold FUnmarshal, NameWithoutExtension. destruct (filepath_Split data) as [d f]. cbn [extension_ name_ snd]. split; [reflexivity|]. intros H.
  apply slice_panic. lia.
Qed.
Print Assumptions C54_stale_refuted.
(** Asking whether it is a directory looks at the last byte and panics when there is none: for any
    URI without a separator. *)
Theorem C54_directory_partial : forall p c, IsPathDirectory (p ++ [c]) = Ok (c =? 47).
Proof. intros p c. unfold IsPathDirectory. rewrite zlen_app. rewrite (idx_ok _ _ c); [reflexivity|unfold zlen; cbn; lia|]. change (zlen [c]) with 1. replace (Z.to_nat _) with (length p) by (unfold zlen; lia). rewrite nth_error_app2, Nat.sub_diag by lia. reflexivity. Qed.
Print Assumptions C54_directory_partial.
Theorem C54_directory_refuted : forall u0 u, ~ In 47 u -> IsDirectory (FInit u0 u) = Panic.
Proof. intros u0 u N. unfold FInit, filepath_Split. rewrite last_index_none by exact N. reflexivity. Qed.
Print Assumptions C54_directory_refuted.
Example C54_nonvacuous : FilePathParts [47; 97; 47; 98; 47] = Some [[]; [97]; [98]; []] /\ FilePathParts [97; 47; 47; 98] = Some [[97]; [47; 98]] /\
  extension_ (FInit {| path_ := []; name_ := []; extension_ := [] |} [97; 47; 98; 46; 99]) = [99].
Proof. repeat split. Qed.

(** * C55 *)
(** Asking for a file that is not loaded neither makes nor finds one, however often: the caller gets
    a nil file. *)
Theorem C55_create_refuted : forall d name fresh, files_ d name = None -> File_ d name fresh = (d, IPtr None) /\
  (~ In 47 name -> forall f2, let d2 := fst (File_ d name fresh) in snd (File_ d2 name f2) = IPtr None /\ fileByPath d2 name = None).
Proof.
  intros d name fresh E. unfold File_ at 1. rewrite E. cbn [is_inil]. split; [reflexivity|]. intros N f2. unfold File_. rewrite E. cbn [is_inil fst snd]. rewrite E. split; [reflexivity|].
  unfold fileByPath. rewrite split_none by exact N. exact E.
Qed.
Print Assumptions C55_create_refuted.
(** So in a directory read from disk no call ever finds any file or directory. *)
Inductive dop := DFile (name : bytes) (fresh : nat) | DDir (name : bytes) (mk : bool).
Definition dstep (d : dir) (o : dop) : dir := match o with DFile n f => fst (File_ d n f) | DDir n mk => fst (Directory d n mk) end.
Theorem C55_empty_refuted : forall names l, let d := fold_left dstep l (dir_init names) in
  (forall n f, snd (File_ d n f) = IPtr None) /\ (forall n mk, snd (Directory d n mk) = IPtr None) /\ (forall p, fileByPath d p = None) /\ (forall p, p <> [] -> directoryByPath d p = None \/ directoryByPath d p = Some d).
Proof.
  intros names l. assert (G : fold_left dstep l (dir_init names) = dir_init names).
  { induction l as [|o l IH] using rev_ind; [reflexivity|]. rewrite fold_left_app, IH. destruct o as [n f|n mk]; [reflexivity|]. cbn [fold_left dstep]. unfold Directory. cbn [is_inil]. destruct (negb (listed_ (dir_init names) n) && negb mk); reflexivity. }
  cbv zeta. rewrite G. repeat split.
  - intros n mk. unfold Directory. destruct (negb (listed_ (dir_init names) n) && negb mk); reflexivity.
  - intros p. unfold fileByPath. destruct (_ <? 3); [reflexivity|]. destruct (drop_root (Split1 p 47)); reflexivity.
  - intros p _. unfold directoryByPath. destruct (drop_root (Split1 p 47)); [right|left]; reflexivity.
Qed.
Print Assumptions C55_empty_refuted.
(** In a tree that has files: directories are found by their parts at every depth, files by their
    name in the directory itself, *)
Theorem C55_lookup_partial : forall d, (forall parts d', directoryByPathParts d parts = Some d' <-> reaches d parts d') /\
  (forall n, ~ In 47 n -> fileByPath d n = files_ d n /\ fileByPath d (47 :: n) = files_ d n).
Proof.
  intros d. split.
  - intros parts. revert d. induction parts as [|p r IH]; intros d d'; cbn [directoryByPathParts].
    + split; [intros E; assert (d = d') by congruence; subst; constructor|inversion 1; reflexivity].
    + destruct (dirs_ d p) as [d1|] eqn:E; [rewrite IH; split; [intros R; econstructor; eauto|inversion 1; subst; congruence]|]. split; [intros X; discriminate X|inversion 1; congruence].
  - intros n N. unfold fileByPath. rewrite split_none by exact N. split; [reflexivity|]. change (47 :: n) with ([] ++ 47 :: n). rewrite split_app by (intros []). rewrite split_none by exact N. reflexivity.
Qed.
Print Assumptions C55_lookup_partial.
(** but the directory of a two part path is ignored, *)
Theorem C55_ignored_refuted : forall d s n, ~ In 47 s -> ~ In 47 n -> fileByPath d (s ++ 47 :: n) = files_ d n.
Proof. intros d s n S N. unfold fileByPath. rewrite split_app by exact S. rewrite split_none by exact N. reflexivity. Qed.
Print Assumptions C55_ignored_refuted.
(** and a deeper path is followed to a directory with the name of the file: *)
Lemma reach_app d p q : directoryByPathParts d (p ++ q) = match directoryByPathParts d p with Some d' => directoryByPathParts d' q | None => None end.
Proof. revert d. induction p as [|x p IH]; intros d; [reflexivity|]. cbn [app directoryByPathParts]. destruct (dirs_ d x); [apply IH|reflexivity]. Qed.
Theorem C55_deep_refuted : forall d parts n d', Forall (fun p => ~ In 47 p) parts -> ~ In 47 n -> (2 <= length parts)%nat -> hd_error parts <> Some [] ->
  reaches d parts d' -> dirs_ d' n = None -> fileByPath d (Join (parts ++ [n]) [47]) = None.
Proof.
  intros d parts n d' F N L H R E. apply (proj1 (C55_lookup_partial d)) in R. unfold fileByPath.
  rewrite split_join; [|destruct parts; discriminate|apply Forall_app; auto]. unfold zlen. rewrite app_length. cbn [length]. replace (_ <? 3) with false by lia.
  replace (drop_root (parts ++ [n])) with (parts ++ [n]) by (destruct parts as [|[|? ?] ?]; [cbn in L; lia|contradiction|reflexivity]).
  rewrite reach_app, R. cbn [directoryByPathParts]. rewrite E. reflexivity.
Qed.
Print Assumptions C55_deep_refuted.
(** Deleting what is not found panics, and a directory path, which ends in a slash, is never found
    in a tree without an empty name. *)
Theorem C55_delete_refuted : forall d p c, (c <> 47 -> fileByPath d (p ++ [c]) = None -> Delete_ d (p ++ [c]) = Panic) /\
  (c = 47 -> p <> [] -> (forall parts d', reaches d parts d' -> dirs_ d' [] = None) -> Delete_ d (p ++ [c]) = Panic).
Proof.
  intros d p c. unfold Delete_. rewrite C54_directory_partial. cbn [bind]. split.
  - intros N E. replace (c =? 47) with false by lia. rewrite E. reflexivity.
  - intros -> P H. change (47 =? 47) with true. cbv iota. unfold directoryByPath.
    assert (S1 : exists q, Split1 (p ++ [47]) 47 = q ++ [[]] /\ q <> []).
    { clear. induction p as [|x p (q & E & N)]; [exists [[]]; split; [reflexivity|discriminate]|]. cbn [app Split1]. rewrite E. destruct (x =? 47); [exists ([] :: q); split; [reflexivity|discriminate]|].
      destruct q as [|y q]; [contradiction|]. cbn [app]. exists ((x :: y) :: q). split; [reflexivity|discriminate]. }
    destruct S1 as (q & E & N). rewrite E. assert (D : exists q', drop_root (q ++ [[]]) = q' ++ [[]]).
    { destruct q as [|[|? ?] q]; [contradiction|exists q; reflexivity|eexists; reflexivity]. }
    destruct D as (q' & ->). rewrite reach_app. destruct (directoryByPathParts d q') as [d'|] eqn:R; [|reflexivity]. apply (proj1 (C55_lookup_partial d)) in R. cbn [directoryByPathParts]. rewrite (H _ _ R). reflexivity.
Qed.
Print Assumptions C55_delete_refuted.
Example C55_nonvacuous : let leaf := Dir (fun n => if beq n [120] then Some 7%nat else None) (fun _ => None) (fun _ => true) in
  let mid := Dir (fun _ => None) (fun n => if beq n [98] then Some leaf else None) (fun _ => true) in
  let top := Dir (fun _ => None) (fun n => if beq n [97] then Some mid else None) (fun _ => true) in
  reaches top [[97]; [98]] leaf /\ files_ leaf [120] = Some 7%nat /\ fileByPath top [97; 47; 98; 47; 120] = None.
Proof. cbv zeta. split; [|split; reflexivity]. econstructor; [reflexivity|]. econstructor; [reflexivity|]. constructor. Qed.

(** * C59 *)
Theorem C59_parse_partial : forall t, In 47 t -> exists r, media_parse t = Ok r /\ mainType r ++ 47 :: subType r = t /\ ~ In 47 (mainType r) /\ mediaType r = t.
Proof.
  intros t I. destruct (index_cases t 47) as [(E & N)|(a & r & E & N & X)].
  - contradiction.
  - unfold media_parse. subst t. rewrite X. pose proof (zlen_nonneg a). pose proof (zlen_nonneg r). replace (zlen a <? 0) with false by lia.
    rewrite slice_to_ok by (rewrite zlen_app, zlen_cons; lia). cbn [bind]. rewrite slice_from_ok by (rewrite zlen_app, zlen_cons; lia). cbn [bind]. eexists. split; [reflexivity|]. cbn [mainType subType mediaType].
    replace (Z.to_nat (zlen a)) with (length a) by (unfold zlen; lia). rewrite firstn_app, firstn_all, Nat.sub_diag. cbn [firstn]. rewrite app_nil_r.
    replace (a ++ 47 :: r) with ((a ++ [47]) ++ r) by (rewrite <- app_assoc; reflexivity). replace (Z.to_nat (zlen a + 1)) with (length (a ++ [47])) by (rewrite app_length; unfold zlen; cbn; lia).
    rewrite skipn_app, skipn_all, Nat.sub_diag. cbn [skipn app]. rewrite <- app_assoc. auto.
Qed.
Print Assumptions C59_parse_partial.
Theorem C59_panic_refuted : forall t, ~ In 47 t -> media_parse t = Panic.
Proof.
  intros t N. unfold media_parse. destruct (index_cases t 47) as [(_ & E)|(a & r & E & _)]; [rewrite E; reflexivity|]. subst t. exfalso. apply N. rewrite in_app_iff. right. left. reflexivity.
Qed.
Print Assumptions C59_panic_refuted.
Example C59_nonvacuous : media_parse [97; 47; 98; 47; 99] = Ok {| mediaType := [97; 47; 98; 47; 99]; mainType := [97]; subType := [98; 47; 99] |}.
Proof. reflexivity. Qed.
