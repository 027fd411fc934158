(** C62 exactly: the texts on which each JSON decoder panics or never returns. *)
From Coq Require Import String ZifyBool ZifyNat.
From Verif Require Import Go GoFacts IntSpec IntModel StrconvModel Base64Model Base64Proofs
  IntProofs JsonModel JsonSpec JsonProofs JsonTheorems JsonObjModel JsonObjSpec JsonObjProofs.
Import ListNotations.
Local Open Scope Z_scope.
Local Open Scope list_scope.
Ltac Zify.zify_post_hook ::= Z.div_mod_to_equations.

Lemma off_ok d o : 0 <= o <= zlen (dbuf d) -> Offset d o = Ok (Dec (skipn (Z.to_nat o) (dbuf d)) (dtok d) (dlast d)).
Proof. intros H. unfold Offset. now rewrite slice_from_ok. Qed.
Lemma off_panic d o : 0 <= o -> Offset d o = Panic <-> zlen (dbuf d) < o.
Proof.
  intros H. unfold Offset. destruct (Z_lt_dec (zlen (dbuf d)) o) as [L|L]; [rewrite slice_from_panic by lia; cbn [bind]; tauto|].
  rewrite slice_from_ok by lia. cbn [bind]. split; [discriminate|lia].
Qed.
Lemma off_suffix d o d' : Offset d o = Ok d' -> suffix (dbuf d') (dbuf d).
Proof.
  unfold Offset. destruct (Z_le_dec 0 o) as [A|A]; [destruct (Z_le_dec o (zlen (dbuf d))) as [B|B]|].
  - rewrite slice_from_ok by lia. cbn [bind]. intros E. assert (d' = Dec (skipn (Z.to_nat o) (dbuf d)) (dtok d) (dlast d)) by congruence. subst d'. cbn [dbuf]. exists (firstn (Z.to_nat o) (dbuf d)). symmetry. apply firstn_skipn.
  - rewrite slice_from_panic by lia. discriminate.
  - rewrite slice_from_panic by lia. discriminate.
Qed.

(** * Null *)
(** an n among the last three bytes, with no quote or comma before it *)
Definition late_n (b : bytes) : Prop := exists p r, b = p ++ 110 :: r /\ ~ In 34 p /\ ~ In 44 p /\ zlen r < 3.
Lemma check_null_exact b : forall null, check_null b null = Panic <-> late_n b.
Proof.
  induction b as [|c t IH]; intros null; cbn [check_null].
  { split; [discriminate|]. intros (p & r & E & _). destruct p; discriminate. }
  assert (Skip : c <> 110 -> c <> 34 -> c <> 44 -> late_n (c :: t) <-> late_n t).
  { intros N1 N2 N3. split.
    - intros (p & r & E & A & B & L). destruct p as [|x p]; cbn [app] in E; [congruence|]. assert (x = c /\ t = p ++ 110 :: r) as (-> & ->) by (split; congruence). exists p, r. repeat split; auto; intros K; [apply A|apply B]; now right.
    - intros (p & r & -> & A & B & L). exists (c :: p), r. repeat split; auto; intros [K|K]; auto. }
  destruct (Z.eqb_spec c 110) as [->|N1].
  { destruct (Z_lt_dec (zlen t) 3) as [L|L].
    - unfold slice_to. rewrite slice_panic by (rewrite zlen_cons; lia). cbn [bind]. split; [intros _|reflexivity]. exists [], t. repeat split; auto.
    - rewrite slice_to_ok by (rewrite zlen_cons; lia). cbn [bind]. rewrite IH. split.
      + intros (p & r & -> & A & B & Lr). exists (110 :: p), r. repeat split; auto; intros [K|K]; auto; lia.
      + intros (p & r & E & A & B & Lr). destruct p as [|x p]; cbn [app] in E; [assert (t = r) by congruence; subst; lia|]. assert (t = p ++ 110 :: r) by congruence. exists p, r. repeat split; auto; intros K; [apply A|apply B]; now right. }
  destruct (Z.eqb_spec c 34) as [->|N2]; [|destruct (Z.eqb_spec c 44) as [->|N3]].
  - split; [discriminate|]. intros (p & r & E & A & B & L). destruct p as [|x p]; cbn [app] in E; [congruence|]. exfalso. apply A. left. congruence.
  - split; [discriminate|]. intros (p & r & E & A & B & L). destruct p as [|x p]; cbn [app] in E; [congruence|]. exfalso. apply B. left. congruence.
  - rewrite IH. symmetry. auto.
Qed.
(** Asking for null, and decoding a string or an array of numbers, panics exactly on those texts. *)
Theorem C62_null_exact_partial : forall d array,
  (CheckNullValue d = Panic <-> late_n (dbuf d)) /\ (DecodeString d = Panic <-> late_n (dbuf d)) /\
  (UDecodeString d = Panic <-> late_n (dbuf d)) /\ (DecodeByteArrayAsNumber array d = Panic <-> late_n (dbuf d)).
Proof.
  intros d array. unfold DecodeString, UDecodeString, DecodeByteArrayAsNumber, CheckNullValue. rewrite <- (check_null_exact (dbuf d) false).
  destruct (check_null (dbuf d) false) as [[|]|]; cbn [bind]; repeat split; intros H; try discriminate H; try reflexivity; exfalso; revert H; cbv zeta;
  repeat match goal with |- context [match ?x with Some _ => _ | None => _ end] => destruct x as [(?, ?)|] end; discriminate.
Qed.
Print Assumptions C62_null_exact_partial.
(** and otherwise a value is taken for null exactly when "null" is somewhere before the next comma, and no string comes before it *)
Fixpoint field (b : bytes) : bytes * bytes :=
  match b with
  | [] => ([], [])
  | c :: t => if (c =? 34) || (c =? 44) then ([], b) else let '(f, r) := field t in (c :: f, r)
  end.
Definition holds_null (f : bytes) : Prop := exists p r, f = p ++ str "null"%string ++ r.
Lemma null_at b w : zlen b >= 4 -> w = firstn 4 b -> (w = str "null"%string <-> exists r, fst (field b) = str "null"%string ++ r).
Proof.
  intros L ->. change (str "null"%string) with [110; 117; 108; 108]. split.
  - intros E. destruct b as [|a [|b [|c [|d t]]]]; try discriminate E. cbn [firstn] in E. injection E as -> -> -> ->.
    cbn [field]. change ((110 =? 34) || (110 =? 44)) with false. change ((117 =? 34) || (117 =? 44)) with false. change ((108 =? 34) || (108 =? 44)) with false.
    destruct (field t) as [f r]. exists f. reflexivity.
  - intros (r & E). assert (P : exists s, b = fst (field b) ++ s).
    { clear. induction b as [|c t IH]; [now exists []|]. cbn [field]. destruct ((c =? 34) || (c =? 44)); [now exists (c :: t)|].
      destruct (field t) as [f r]. destruct IH as (s & E). exists s. cbn [fst app] in E |- *. now f_equal. }
    destruct P as (s & P). rewrite P, E. reflexivity.
Qed.
Lemma check_null_true b : forall null v, check_null b null = Ok v ->
  (v = true <-> hd 0 (snd (field b)) <> 34 /\ (null = true \/ holds_null (fst (field b)))).
Proof.
  assert (No : ~ holds_null []) by (intros (p & r & E); destruct p; discriminate).
  induction b as [|c t IH]; intros null v E; cbn [check_null] in E.
  { injection E as <-. cbn [field fst snd hd]. split; [intros ->; split; [discriminate|now left] | intros [_ [H|H]]; [exact H|contradiction]]. }
  assert (Cons : forall f, c <> 110 -> holds_null (c :: f) <-> holds_null f).
  { intros f N. split; intros (p & r & F).
    - destruct p as [|x p]; cbn [app] in F; [change (str "null"%string ++ r) with (110 :: 117 :: 108 :: 108 :: r) in F; congruence|]. exists p, r. congruence.
    - exists (c :: p), r. cbn [app]. now f_equal. }
  destruct (Z.eqb_spec c 110) as [->|N1].
  - destruct (Z_lt_dec (zlen t) 3) as [L|L]; [unfold slice_to in E; rewrite slice_panic in E by (rewrite zlen_cons; lia); discriminate|].
    rewrite slice_to_ok in E by (rewrite zlen_cons; lia). cbn [bind] in E. change (Z.to_nat 4) with 4%nat in E.
    pose proof (null_at (110 :: t) (firstn 4 (110 :: t)) ltac:(rewrite zlen_cons; lia) eq_refl) as W.
    specialize (IH _ _ E). cbn [field] in W |- *. change ((110 =? 34) || (110 =? 44)) with false in *. cbv iota in *. destruct (field t) as [f r]. cbn [fst snd] in *.
    rewrite IH. assert (Q : holds_null (110 :: f) <-> firstn 4 (110 :: t) = str "null"%string \/ holds_null f).
    { rewrite W. split.
      - intros (p & q & F). destruct p as [|x p]; [left; exists q; exact F|]. right. exists p, q. cbn [app] in F. congruence.
      - intros [(q & F)|(p & q & F)]; [exists [], q; exact F|]. exists (110 :: p), q. cbn [app]. now f_equal. }
    rewrite Q. destruct (beq (firstn 4 (110 :: t)) (str "null"%string)) eqn:B.
    + apply beq_eq in B. tauto.
    + assert (NB : firstn 4 (110 :: t) <> str "null"%string) by (intros F; rewrite F in B; discriminate B). tauto.
  - destruct (Z.eqb_spec c 34) as [->|N2]; [|destruct (Z.eqb_spec c 44) as [->|N3]].
    + injection E as <-. cbn [field]. change ((34 =? 34) || (34 =? 44)) with true. cbv iota. cbn [fst snd hd]. split; [discriminate|]. intros [H _]. now destruct H.
    + injection E as <-. cbn [field]. change ((44 =? 34) || (44 =? 44)) with true. cbv iota. cbn [fst snd hd].
      split; [intros ->; split; [discriminate|now left] | intros [_ [H|H]]; [exact H|contradiction]].
    + specialize (IH _ _ E). cbn [field]. replace ((c =? 34) || (c =? 44)) with false by lia. destruct (field t) as [f r]. cbn [fst snd] in *. now rewrite (Cons f N1).
Qed.
Theorem C95_null_exact : forall d, ~ late_n (dbuf d) ->
  CheckNullValue d = Ok true <-> holds_null (fst (field (dbuf d))) /\ hd 0 (snd (field (dbuf d))) <> 34.
Proof.
  intros d N. unfold CheckNullValue. destruct (check_null (dbuf d) false) as [v|] eqn:E; [|exfalso; apply N, (check_null_exact _ false); exact E].
  pose proof (check_null_true _ _ _ E) as Q. split; [intros F; injection F as ->; destruct Q as [Q _]; destruct (Q eq_refl) as [A [B|B]]; [discriminate|auto]|].
  intros [A B]. f_equal. apply Q. auto.
Qed.
Print Assumptions C95_null_exact.
(** Then every decoder that knows null leaves the array it was given, the string empty and its place in the text as they were. *)
Theorem C95_null_kept : forall d array, ~ late_n (dbuf d) -> holds_null (fst (field (dbuf d))) -> hd 0 (snd (field (dbuf d))) <> 34 ->
  DecodeString d = Ok (None, [], d) /\ UDecodeString d = Ok (None, [], d) /\
  DecodeByteArrayAsNumber array d = Ok (None, array, d) /\ DecodeByteArrayAsBase64 array d = Ok (None, array, d).
Proof.
  intros d array N A B. assert (E : CheckNullValue d = Ok true) by (apply C95_null_exact; auto).
  unfold DecodeString, UDecodeString, DecodeByteArrayAsNumber, DecodeByteArrayAsBase64. rewrite E. cbn [bind]. auto.
Qed.
Print Assumptions C95_null_kept.
(** and the next key is found from there. *)
Lemma cut_at q a b : ~ In q a -> cut_byte q (a ++ q :: b) = Some (a, b).
Proof.
  induction a as [|c t IH]; intros H; cbn [app cut_byte]; [now rewrite Z.eqb_refl|].
  destruct (Z.eqb_spec c q) as [->|_]; [exfalso; apply H; now left|]. rewrite IH; [reflexivity|]. intros K. apply H. now right.
Qed.
Lemma field_at a b : ~ In 34 a -> ~ In 44 a -> field (a ++ 44 :: b) = (a, 44 :: b).
Proof.
  induction a as [|c t IH]; intros H K; cbn [app field]; [reflexivity|].
  replace ((c =? 34) || (c =? 44)) with false by (cbn [In] in H, K; lia). rewrite IH; [reflexivity|intros L; apply H; now right|intros L; apply K; now right].
Qed.
Theorem C95_null_next : forall p q w key v r array tok last, ~ In 34 (p ++ q ++ w) -> ~ In 34 key -> ~ In 58 v ->
  ~ In 44 (p ++ q) ->
  let d := Dec (p ++ str "null"%string ++ q ++ 44 :: w ++ 34 :: key ++ 34 :: v ++ 58 :: r) tok last in
  DecodeByteArrayAsNumber array d = Ok (None, array, d) /\ DecodeString d = Ok (None, [], d) /\ DecodeKey d = (key, Dec r tok last).
Proof.
  intros p q w key v r array tok last Q K V C d.
  rewrite !in_app_iff in Q. rewrite in_app_iff in C.
  assert (F : field (dbuf d) = (p ++ str "null"%string ++ q, 44 :: w ++ 34 :: key ++ 34 :: v ++ 58 :: r)).
  { unfold d. cbn [dbuf]. change (p ++ str "null"%string ++ q ++ 44 :: w ++ 34 :: key ++ 34 :: v ++ 58 :: r) with (p ++ [110; 117; 108; 108] ++ q ++ (44 :: w ++ 34 :: key ++ 34 :: v ++ 58 :: r)).
    rewrite (app_assoc [110; 117; 108; 108] q), (app_assoc p). change (str "null"%string) with [110; 117; 108; 108].
    apply field_at; rewrite !in_app_iff; cbn [In]; intuition lia. }
  assert (L : ~ late_n (dbuf d)).
  { intros (a & b & E & A1 & A2 & Lb). unfold d in E. cbn [dbuf] in E.
    assert (Z' : forall (x y a b : bytes), x ++ 44 :: y = a ++ b -> ~ In 44 a -> exists z, b = z ++ 44 :: y).
    { clear. induction x as [|c t IH]; intros y a b E N; destruct a as [|c' a]; cbn [app] in E.
      - exists []. now rewrite <- E.
      - exfalso. apply N. left. congruence.
      - exists (c :: t). now rewrite <- E.
      - apply (IH y a b); [congruence|]. intros K. apply N. now right. }
    destruct (Z' (p ++ str "null"%string ++ q) _ a (110 :: b) ltac:(rewrite <- E, <- !app_assoc; reflexivity) A2) as (z & Ez).
    assert (Lt : zlen (110 :: b) >= 4); [|rewrite zlen_cons in Lt; lia].
    rewrite Ez. unfold zlen. rewrite !app_length. cbn [length]. rewrite !app_length. cbn [length]. rewrite !app_length. cbn [length]. rewrite !app_length. cbn [length]. lia. }
  assert (H : holds_null (fst (field (dbuf d)))) by (rewrite F; exists p, q; reflexivity).
  assert (Hd : hd 0 (snd (field (dbuf d))) <> 34) by (rewrite F; discriminate).
  destruct (C95_null_kept d array L H Hd) as (E1 & _ & E2 & _). split; [exact E2|]. split; [exact E1|].
  assert (T : TrimToStringStart d = Dec (key ++ 34 :: v ++ 58 :: r) tok last).
  { unfold TrimToStringStart, d. cbn [dbuf dtok dlast].
    replace (p ++ str "null"%string ++ q ++ 44 :: w ++ 34 :: key ++ 34 :: v ++ 58 :: r) with ((p ++ str "null"%string ++ q ++ 44 :: w) ++ 34 :: (key ++ 34 :: v ++ 58 :: r)) by (rewrite <- !app_assoc; reflexivity).
    rewrite cut_at by (change (str "null"%string) with [110; 117; 108; 108]; rewrite !in_app_iff; cbn [In]; rewrite ?in_app_iff; cbn [In]; intuition lia).
    reflexivity. }
  unfold DecodeKey. rewrite T. cbv zeta. cbn [dbuf dtok dlast]. rewrite (cut_at 34 key) by exact K. rewrite (cut_at 58 v) by exact V. reflexivity.
Qed.
Print Assumptions C95_null_next.
Example C95_null_kept_case : DecodeByteArrayAsNumber [7; 8] (dec_init ([32] ++ str "null"%string ++ [] ++ 44 :: [32] ++ 34 :: [98] ++ 34 :: [] ++ 58 :: [49; 125])) =
  Ok (None, [7; 8], dec_init ([32] ++ str "null"%string ++ [] ++ 44 :: [32] ++ 34 :: [98] ++ 34 :: [] ++ 58 :: [49; 125])).
Proof. apply (C95_null_next [32] [] [32] [98] [] [49; 125] [7; 8] 0 []); cbn [app In]; intuition lia. Qed.
Example C95_null_case : CheckNullValue (dec_init (str ":null,x"%string)) = Ok true /\ ~ late_n (str ":null,x"%string) /\
  CheckNullValue (dec_init (str ":nul ,null"%string)) = Ok false /\ CheckNullValue (dec_init ([58; 110; 117; 108; 108; 34; 97])) = Ok false.
Proof.
  split; [reflexivity|]. split; [|split; reflexivity]. rewrite <- (check_null_exact _ false). discriminate.
Qed.

(** * Booleans and keys *)
Definition bool_short (b : bytes) : Prop := zlen b < (if hd 0 b =? 116 then 5 else 6).
Lemma bool_at d : (let! c := idx (dbuf d) 0 in if c =? 116 then let! d' := Offset d 5 in Ok (true, d') else let! d' := Offset d 6 in Ok (false, d')) = Panic <-> bool_short (dbuf d).
Proof.
  unfold bool_short. destruct (dbuf d) as [|c t] eqn:E; [rewrite idx_panic by (right; reflexivity); cbn; split; [intros; lia|reflexivity]|].
  change (idx (c :: t) 0) with (Ok c). cbn [bind hd]. rewrite <- E. destruct (c =? 116).
  - rewrite <- (off_panic d 5) by lia. destruct (Offset d 5); cbn [bind]; split; congruence.
  - rewrite <- (off_panic d 6) by lia. destruct (Offset d 6); cbn [bind]; split; congruence.
Qed.
Lemma drop_spaces_app n b : drop_spaces (repeat 32 n ++ b) = drop_spaces b.
Proof. induction n as [|n IH]; [reflexivity|]. exact IH. Qed.
(** A boolean panics exactly when fewer than five bytes follow from a t, or six from anything else: the
    text of a boolean without a byte after it always does. *)
Theorem C62_bool_exact_partial : forall n b tok last, b <> [] -> hd 0 b <> 32 ->
  (DecodeBool (Dec (repeat 32 n ++ b) tok last) = Panic <-> bool_short b) /\ (MDecodeBool (Dec b tok last) = Panic <-> bool_short b).
Proof.
  intros n b tok last NE H. split; [|apply (bool_at (Dec b tok last))]. unfold DecodeBool, TrimSpaces. cbn [dbuf]. rewrite drop_spaces_app.
  assert (D : drop_spaces b = Some b) by (destruct b as [|c t]; [contradiction|]; cbn [hd] in H; cbn [drop_spaces]; now replace (c =? 32) with false by lia).
  rewrite D. cbv zeta. apply (bool_at (Dec b tok last)).
Qed.
Print Assumptions C62_bool_exact_partial.
Theorem C62_bool_end_refuted : forall d, dbuf d = str "true"%string \/ dbuf d = str "false"%string -> DecodeBool d = Panic /\ MDecodeBool d = Panic.
Proof.
  intros [b tok last] H. cbn [dbuf] in H. destruct H as [-> | ->]; split; reflexivity.
Qed.
Print Assumptions C62_bool_end_refuted.
Lemma cut_none_in q b : cut_byte q b = None <-> ~ In q b.
Proof.
  induction b as [|c t IH]; cbn [cut_byte In]; [tauto|]. destruct (Z.eqb_spec c q) as [->|N]; [split; [discriminate|tauto]|].
  destruct (cut_byte q t) as [(p, r)|]; [split; [discriminate|]; intros K; exfalso; assert (X : Some (p, r) = None) by (apply IH; tauto); discriminate X|]. split; [intros _ [K|K]; [congruence|]; now apply IH in K|reflexivity].
Qed.
(** A key of the minified decoder panics exactly when no second byte is there, no quote comes after it, or
    nothing comes after that quote. *)
Theorem C62_key_exact_partial : forall d, MDecodeKey d = Panic <->
  zlen (dbuf d) < 2 \/ exists a b k, dbuf d = a :: b :: k /\ (~ In 34 k \/ exists p, k = p ++ [34] /\ ~ In 34 p).
Proof.
  intros d. unfold MDecodeKey. destruct (Z_lt_dec (zlen (dbuf d)) 2) as [L|L].
  { rewrite (proj2 (off_panic d 2 ltac:(lia)) L). cbn [bind]. split; [now left|reflexivity]. }
  rewrite off_ok by lia. cbn [bind]. change (Z.to_nat 2) with 2%nat. destruct (dbuf d) as [|a [|b k]] eqn:E; [cbn in L; lia|cbn in L; lia|]. cbn [skipn dbuf].
  destruct (cut_byte 34 k) as [(key, r)|] eqn:C.
  - apply cut_byte_some in C as (Ek & Fk). rewrite Forall_forall in Fk. set (d2 := Dec k (dtok d) (dlast d)).
    assert (P : Offset d2 (zlen key + 2) = Panic <-> r = []).
    { rewrite off_panic by (pose proof (zlen_nonneg key); lia). cbn [d2 dbuf]. rewrite Ek, zlen_app, zlen_cons. pose proof (zlen_nonneg r). split; [|intros ->; cbn; lia]. intros H1. destruct r; [reflexivity|rewrite zlen_cons in H1; pose proof (zlen_nonneg r); lia]. }
    assert (Q : (let! d' := Offset d2 (zlen key + 2) in Ok (key, d')) = Panic <-> r = []) by (rewrite <- P; destruct (Offset d2 (zlen key + 2)); cbn [bind]; split; congruence).
    rewrite Q. split.
    + intros ->. right. exists a, b, k. split; [reflexivity|]. right. exists key. split; [exact Ek|]. intros K. now apply (Fk 34).
    + intros [H|(a' & b' & k' & E' & H)]; [rewrite !zlen_cons in H; pose proof (zlen_nonneg k); lia|]. assert (k' = k) by congruence. subst k'. destruct H as [H|(p & H & Np)].
      * exfalso. apply H. rewrite Ek. apply in_app_iff. right. now left.
      * clear - Ek H Np Fk. rewrite H in Ek. clear H. revert key Ek Fk. induction p as [|x p IH]; intros key Ek Fk; destruct key as [|y key]; cbn [app] in Ek.
        -- congruence.
        -- exfalso. apply (Fk y); [now left|congruence].
        -- exfalso. apply Np. left. congruence.
        -- apply (IH ltac:(intros K; apply Np; now right) key); [congruence|]. intros z Hz. apply Fk. now right.
  - split; [|reflexivity]. intros _. right. exists a, b, k. split; [reflexivity|]. left. now apply cut_none_in.
Qed.
Print Assumptions C62_key_exact_partial.
(** Strings and base64 texts of the minified decoders *)
Theorem C62_minified_exact_partial : forall d,
  (MDecodeString d = Panic <-> dbuf d = []) /\ (UMDecodeString d = Panic <-> dbuf d = []) /\
  (MDecodeByteSliceAsBase64 d = Panic <-> dbuf d = [] \/ ~ In 34 (tl (dbuf d))).
Proof.
  intros [b tok last]. cbn [dbuf]. split; [|split].
  - unfold MDecodeString. cbn [dbuf]. destruct (cut_byte 34 b) as [(s, r)|] eqn:C; [split; [discriminate|]; intros ->; discriminate C|]. destruct b as [|c t]; [split; reflexivity|].
    rewrite zlen_cons. replace (zlen t + 1 - 1) with (zlen t) by lia. pose proof (zlen_nonneg t). rewrite slice_to_ok by (rewrite zlen_cons; lia). cbn [bind]. rewrite off_ok by (cbn [dbuf]; rewrite zlen_cons; lia). cbn [bind]. split; discriminate.
  - unfold UMDecodeString. destruct b as [|c t]; [split; reflexivity|]. pose proof (zlen_nonneg t). rewrite off_ok by (cbn [dbuf]; rewrite zlen_cons; lia). cbn [bind dbuf]. change (Z.to_nat 1) with 1%nat. cbn [skipn].
    destruct (cut_byte 34 t) as [(s, r)|] eqn:C; [|split; discriminate]. apply cut_byte_some in C as (-> & _). pose proof (zlen_nonneg s). pose proof (zlen_nonneg r). rewrite off_ok by (cbn [dbuf]; rewrite zlen_app, zlen_cons; lia). split; discriminate.
  - unfold MDecodeByteSliceAsBase64. destruct b as [|c t]; [split; [now left|reflexivity]|]. pose proof (zlen_nonneg t). rewrite off_ok by (cbn [dbuf]; rewrite zlen_cons; lia). cbn [bind dbuf]. change (Z.to_nat 1) with 1%nat. cbn [skipn tl].
    destruct (cut_byte 34 t) as [(s, r)|] eqn:C.
    + assert (I : In 34 t) by (apply cut_byte_some in C as (-> & _); apply in_app_iff; right; now left).
      split; [|intros [K|K]; [discriminate|contradiction]]. intros H1. exfalso. revert H1. destruct (b64_decode std_digit s); [|discriminate].
      apply cut_byte_some in C as (-> & _). pose proof (zlen_nonneg s). pose proof (zlen_nonneg r). rewrite off_ok by (cbn [dbuf]; rewrite zlen_app, zlen_cons; lia). discriminate.
    + split; [intros _; right; now apply cut_none_in|reflexivity].
Qed.
Print Assumptions C62_minified_exact_partial.

(** * Numbers *)
Definition endless (b : bytes) : Prop := Forall (fun c => is_end c = false) b.
Lemma cut_end_none b : cut_end b = None <-> endless b.
Proof.
  unfold endless. induction b as [|c t IH]; cbn [cut_end]; [split; [constructor|reflexivity]|]. destruct (is_end c) eqn:E.
  - split; [discriminate|]. intros H. inversion H; congruence.
  - destruct (cut_end t) as [((p, k), r)|].
    + split; [discriminate|]. intros H. inversion H; subst. assert (X : Some (p, k, r) = None) by (now apply IH). discriminate X.
    + split; [intros _; constructor; [exact E|now apply IH]|reflexivity].
Qed.
Lemma cut_end_some b p k r : cut_end b = Some (p, k, r) -> b = p ++ r /\ endless p /\ is_end k = true /\ exists t, r = k :: t.
Proof.
  revert p k r. induction b as [|c t IH]; intros p k r; cbn [cut_end]; [discriminate|]. destruct (is_end c) eqn:E.
  - intros H. assert (p = [] /\ k = c /\ r = c :: t) as (-> & -> & ->) by (repeat split; congruence). repeat split; auto; [constructor|eauto].
  - destruct (cut_end t) as [((p', k'), r')|]; [|discriminate]. intros H. assert (p = c :: p' /\ k = k' /\ r = r') as (-> & -> & ->) by (repeat split; congruence).
    destruct (IH p' k' r' eq_refl) as (-> & F & K & T). repeat split; auto. constructor; assumption.
Qed.
(** Without a comma or a closing bracket after it, a number is not read: the text of the value decoded
    before is taken instead, whatever the number is. *)
Theorem C62_number_at_end_refuted : forall parse b tok last, endless b ->
  DecodeUInt parse (Dec b tok last) = (match parse last 0 with (None, n) => (None, n) | (Some _, n) => (Some ErrIntegerCorrupted, n) end, TrimToDigit (Dec b tok last)) /\
  MDecodeUInt parse (Dec b tok last) = (match parse last 0 with (None, n) => (None, n) | (Some _, n) => (Some ErrIntegerCorrupted, n) end, Dec b tok last).
Proof.
  intros parse b tok last H. assert (T : exists b', TrimToDigit (Dec b tok last) = Dec b' tok last /\ endless b').
  { unfold TrimToDigit. cbn [dbuf dtok dlast]. destruct (drop_to_digit b) as [b'|] eqn:E; [|eauto]. exists b'. split; [reflexivity|]. clear tok last. revert b' E. induction H as [|c t Hc Ht IH]; intros b' E; cbn [drop_to_digit] in E; [discriminate|].
    destruct ((48 <=? c) && (c <=? 57)); [assert (b' = c :: t) by congruence; subst; constructor; assumption|auto]. }
  destruct T as (b' & T & F). apply cut_end_none in F. apply cut_end_none in H. split.
  - unfold DecodeUInt. rewrite T. unfold FindEndToken. cbn [dbuf]. rewrite F. cbv zeta. cbn [dlast]. destruct (parse last 0) as [[e|] n]; reflexivity.
  - unfold MDecodeUInt, FindEndToken. cbn [dbuf]. rewrite H. cbv zeta. cbn [dlast]. destruct (parse last 0) as [[e|] n]; reflexivity.
Qed.
Print Assumptions C62_number_at_end_refuted.

(** * Lists of numbers *)
Lemma parse_empty parse max : width_of parse max -> exists e, parse [] 0 = (Some e, 0).
Proof. intros [(-> & _)|[(-> & _)|[(-> & _)|(-> & _)]]]; eexists; reflexivity. Qed.
Lemma drop_digit_some b b' : drop_to_digit b = Some b' -> exists p, b = p ++ b'.
Proof.
  revert b'. induction b as [|c t IH]; intros b' E; cbn [drop_to_digit] in E; [discriminate|]. destruct ((48 <=? c) && (c <=? 57)); [exists []; cbn; congruence|].
  destruct (IH b' E) as (p & ->). exists (c :: p). reflexivity.
Qed.
Lemma drop_digit_end c t b' : is_end c = true -> drop_to_digit (c :: t) = Some b' -> exists p, t = p ++ b'.
Proof.
  intros E D. cbn [drop_to_digit] in D. unfold is_end in E. replace ((48 <=? c) && (c <=? 57)) with false in D by lia. now apply drop_digit_some.
Qed.
Lemma find_at_end k t tok last : is_end k = true -> FindEndToken (Dec (k :: t) tok last) = Dec (k :: t) k [].
Proof. intros E. unfold FindEndToken. cbn [dbuf cut_end]. rewrite E. reflexivity. Qed.
Lemma find_some b tok last p k r : cut_end b = Some (p, k, r) -> FindEndToken (Dec b tok last) = Dec r k p.
Proof. intros C. unfold FindEndToken. cbn [dbuf]. now rewrite C. Qed.
Lemma find_none b tok last : cut_end b = None -> FindEndToken (Dec b tok last) = Dec b tok last.
Proof. intros C. unfold FindEndToken. cbn [dbuf]. now rewrite C. Qed.
(** after one number, at a terminator *)
Lemma list_ends parse max : width_of parse max -> forall n k t acc, (length t <= n)%nat -> is_end k = true ->
  exists r, slice_loop parse (S (S n)) (Dec (k :: t) k []) acc = Some r /\ suffix (dbuf (snd r)) (k :: t).
Proof.
  intros W. induction n as [|n IH]; intros k t acc L E; cbn [slice_loop]; unfold CheckToken; cbn [dtok dbuf dlast].
  all: destruct (k =? 93); [eexists; split; [reflexivity|apply suffix_refl]|]; unfold DecodeUInt, TrimToDigit; cbn [dbuf dtok dlast];
    (destruct (drop_to_digit (k :: t)) as [b'|] eqn:D; [destruct (drop_digit_end _ _ _ E D) as (p & Et)|]).
  - destruct t as [|t0 t]; [|cbn in L; lia]. clear Et.
    cbn [drop_to_digit] in D. destruct ((48 <=? k) && (k <=? 57)) eqn:Dk; [unfold is_end in E; lia|discriminate].
  - rewrite find_at_end by exact E. cbn [dlast]. destruct (parse_empty _ _ W) as (e & ->). eexists. split; [reflexivity|]. apply suffix_refl.
  - assert (Sf : suffix b' (k :: t)) by (exists (k :: p); cbn [app]; now rewrite Et).
    destruct (cut_end b') as [((q, k'), r')|] eqn:C.
    + rewrite (find_some _ _ _ _ _ _ C). destruct (cut_end_some _ _ _ _ C) as (Eb & F & K & (t' & Er)). cbn [dlast]. assert (Sr : suffix r' (k :: t)) by (eapply suffix_trans; [|exact Sf]; exists q; exact Eb).
      destruct (parse q 0) as [[e|] m]; [eexists; split; [reflexivity|exact Sr]|]. subst r'. rewrite find_at_end by exact K.
      destruct (IH k' t' (acc ++ [m])) as (r & Hr & Sr'); [|exact K|].
      * assert (length t = length p + (length q + S (length t')))%nat by (rewrite Et, Eb, !app_length; reflexivity). lia.
      * exists r. split; [exact Hr|]. eapply suffix_trans; [exact Sr'|exact Sr].
    + rewrite (find_none _ _ _ C). cbn [dlast]. destruct (parse_empty _ _ W) as (e & ->). eexists. split; [reflexivity|]. exact Sf.
  - rewrite find_at_end by exact E. cbn [dlast]. destruct (parse_empty _ _ W) as (e & ->). eexists. split; [reflexivity|]. apply suffix_refl.
Qed.
(** the rest of a text from its first digit on, or all of it when there is none *)
Definition from_digit (b t : bytes) : Prop := (exists p, b = p ++ t /\ Forall (fun c => ~ is_digit c) p /\ exists c r, t = c :: r /\ is_digit c) \/ (t = b /\ Forall (fun c => ~ is_digit c) b).
Lemma trim_from d : from_digit (dbuf d) (dbuf (TrimToDigit d)).
Proof.
  unfold TrimToDigit. assert (H : forall b, match drop_to_digit b with Some t => exists p, b = p ++ t /\ Forall (fun c => ~ is_digit c) p /\ exists c r, t = c :: r /\ is_digit c | None => Forall (fun c => ~ is_digit c) b end).
  { induction b as [|c t IH]; cbn [drop_to_digit]; [constructor|]. destruct ((48 <=? c) && (c <=? 57)) eqn:D.
    - exists []. split; [reflexivity|]. split; [constructor|]. exists c, t. split; [reflexivity|]. unfold is_digit. lia.
    - assert (N : ~ is_digit c) by (unfold is_digit; lia). destruct (drop_to_digit t) as [t'|]; [|now constructor]. destruct IH as (p & -> & F & X). exists (c :: p). split; [reflexivity|]. split; [now constructor|exact X]. }
  specialize (H (dbuf d)). destruct (drop_to_digit (dbuf d)) as [t|]; cbn [dbuf]; [left; exact H|right; split; [reflexivity|exact H]].
Qed.
Lemma from_unique b t t' : from_digit b t -> from_digit b t' -> t = t'.
Proof.
  assert (A : forall p q t t', p ++ t = q ++ t' -> Forall (fun c => ~ is_digit c) p -> Forall (fun c => ~ is_digit c) q -> (exists c r, t = c :: r /\ is_digit c) -> (exists c r, t' = c :: r /\ is_digit c) -> t = t').
  { induction p as [|x p IH]; intros q u u' E Fp Fq (c & r & Eu & Dc) (c' & r' & Eu' & Dc').
    - destruct q as [|y q]; [exact E|]. inversion Fq; subst. cbn [app] in E. exfalso. congruence.
    - inversion Fp; subst. destruct q as [|y q]; cbn [app] in E; [exfalso; congruence|]. inversion Fq; subst. apply (IH q); eauto. congruence. }
  assert (B : forall b u, Forall (fun c => ~ is_digit c) b -> ~ (exists p, b = p ++ u /\ Forall (fun c => ~ is_digit c) p /\ exists c r, u = c :: r /\ is_digit c)).
  { intros l u F (p & E & _ & c & r & Eu & D). rewrite Forall_forall in F. apply (F c); [|exact D]. rewrite E, Eu. apply in_app_iff. right. now left. }
  intros [(p & E & F & X)|(-> & F)] [(q & E' & F' & X')|(-> & F')].
  - apply (A p q); auto. congruence.
  - exfalso. apply (B b t F'). eauto.
  - exfalso. apply (B b t' F). eauto.
  - reflexivity.
Qed.
(** A list of numbers is read for ever exactly when no terminator follows the first digit and the text of the
    value decoded before reads as a number (which is then added again and again); else the decoder returns. *)
Theorem C62_list_exact_partial : forall parse max d t, width_of parse max -> from_digit (dbuf d) t ->
  ((forall fuel, DecodeSliceAsNumber parse fuel d = None) <-> dtok d <> 93 /\ endless t /\ exists n, parse (dlast d) 0 = (None, n)) /\
  (~ (dtok d <> 93 /\ endless t /\ exists n, parse (dlast d) 0 = (None, n)) -> exists r, DecodeSliceAsNumber parse (S (S (length (dbuf d)))) d = Some r /\ suffix (dbuf (snd r)) (dbuf d)).
Proof.
  intros parse max d t W T. assert (Et : t = dbuf (TrimToDigit d)) by (eapply from_unique; [exact T|apply trim_from]). subst t.
  assert (R : ~ (dtok d <> 93 /\ endless (dbuf (TrimToDigit d)) /\ exists n, parse (dlast d) 0 = (None, n)) -> exists r, DecodeSliceAsNumber parse (S (S (length (dbuf d)))) d = Some r /\ suffix (dbuf (snd r)) (dbuf d)).
  { intros N. unfold DecodeSliceAsNumber. remember (S (length (dbuf d))) as g eqn:Eg. cbn [slice_loop]. unfold CheckToken. destruct (Z.eqb_spec (dtok d) 93) as [E|E]; [eexists; split; [reflexivity|apply suffix_refl]|].
    unfold DecodeUInt. pose proof (trim_digit_suffix d) as St. assert (Dl : dlast (TrimToDigit d) = dlast d) by (unfold TrimToDigit; destruct (drop_to_digit (dbuf d)); reflexivity).
    destruct (TrimToDigit d) as [b tok last] eqn:Td. cbn [dbuf dlast] in *.
    destruct (cut_end b) as [((p, k), r)|] eqn:C.
    - rewrite (find_some _ _ _ _ _ _ C). destruct (cut_end_some _ _ _ _ C) as (Eb & F & K & (u & Er)). subst r. cbn [dlast]. assert (Sr : suffix (k :: u) (dbuf d)) by (eapply suffix_trans; [|exact St]; exists p; exact Eb).
      destruct (parse p 0) as [[e|] n]; [eexists; split; [reflexivity|exact Sr]|]. rewrite find_at_end by exact K.
      assert (Lu : (length u < length (dbuf d))%nat) by (destruct Sr as (q & ->); rewrite app_length; cbn; lia).
      destruct (list_ends parse max W (length u) k u ([] ++ [n]) ltac:(lia) K) as (r & Hr & Sr').
      assert (Mono : forall f d1 acc r1, slice_loop parse f d1 acc = Some r1 -> slice_loop parse (S f) d1 acc = Some r1).
      { induction f as [|f IH]; intros d1 acc r1 H; [discriminate|]. change (slice_loop parse (S (S f)) d1 acc) with (let '(stop, d) := CheckToken d1 93 in if stop then Some (None, acc, d) else match DecodeUInt parse d with | (Some _, _, d) => Some (Some ErrSliceCorrupted, acc, d) | (None, n, d) => slice_loop parse (S f) (FindEndToken d) (acc ++ [n]) end).
        change (slice_loop parse (S f) d1 acc) with (let '(stop, d) := CheckToken d1 93 in if stop then Some (None, acc, d) else match DecodeUInt parse d with | (Some _, _, d) => Some (Some ErrSliceCorrupted, acc, d) | (None, n, d) => slice_loop parse f (FindEndToken d) (acc ++ [n]) end) in H.
        destruct (CheckToken d1 93) as [[|] d2]; [exact H|]. destruct (DecodeUInt parse d2) as [[[e|] n1] d3]; [exact H|]. apply IH. exact H. }
      assert (Mono' : forall m f d1 acc r1, slice_loop parse f d1 acc = Some r1 -> slice_loop parse (m + f) d1 acc = Some r1) by (induction m as [|m IH]; intros f d1 acc r1 H; [exact H|]; cbn [Nat.add]; apply Mono, IH, H).
      exists r. split; [|eapply suffix_trans; [exact Sr'|exact Sr]].
      rewrite Eg. replace (S (length (dbuf d))) with ((length (dbuf d) - S (length u)) + S (S (length u)))%nat by lia. apply Mono'. exact Hr.
    - rewrite (find_none _ _ _ C). apply cut_end_none in C. cbn [dlast]. rewrite Dl. destruct (parse (dlast d) 0) as [[e|] n] eqn:P; [eexists; split; [reflexivity|]; exact St|]. exfalso. apply N. eauto. }
  split; [|exact R]. split.
  - intros H. destruct (Z.eq_dec (dtok d) 93) as [E|E].
    { specialize (H 1%nat). unfold DecodeSliceAsNumber in H. cbn [slice_loop] in H. unfold CheckToken in H. replace (dtok d =? 93) with true in H by lia. discriminate. }
    destruct (cut_end (dbuf (TrimToDigit d))) as [x|] eqn:C.
    { exfalso. destruct R as (r & Hr & _); [|rewrite H in Hr; discriminate]. intros (_ & F & _). apply cut_end_none in F. congruence. }
    destruct (parse (dlast d) 0) as [[e|] n] eqn:P.
    { exfalso. destruct R as (r & Hr & _); [|rewrite H in Hr; discriminate]. intros (_ & _ & m & Pm). congruence. }
    split; [exact E|]. split; [now apply cut_end_none|eauto].
  - intros (E & F & n & P) fuel. unfold DecodeSliceAsNumber. apply cut_end_none in F.
    assert (Td : TrimToDigit (TrimToDigit d) = TrimToDigit d /\ dlast (TrimToDigit d) = dlast d /\ dtok (TrimToDigit d) = dtok d).
    { unfold TrimToDigit. destruct (drop_to_digit (dbuf d)) as [b|] eqn:D; cbn [dbuf dlast dtok]; [|rewrite D; auto]. assert (D2 : drop_to_digit b = Some b).
      { clear - D. revert b D. induction (dbuf d) as [|c u IH]; intros b D; cbn [drop_to_digit] in D; [discriminate|]. destruct ((48 <=? c) && (c <=? 57)) eqn:X; [|auto]. assert (b = c :: u) by congruence. subst b. cbn [drop_to_digit]. now rewrite X. }
      rewrite D2. auto. }
    destruct Td as (T1 & T2 & T3).
    assert (Lp : forall fuel d1 acc, TrimToDigit d1 = TrimToDigit d -> dtok d1 = dtok d -> slice_loop parse fuel d1 acc = None).
    { induction fuel0 as [|f IH]; intros d1 acc E1 E2; [reflexivity|]. cbn [slice_loop]. unfold CheckToken. rewrite E2. replace (dtok d =? 93) with false by lia. unfold DecodeUInt. rewrite E1. assert (X : FindEndToken (TrimToDigit d) = TrimToDigit d) by (unfold FindEndToken; now rewrite F). rewrite X, T2, P, X. apply IH; [exact T1|exact T3]. }
    now apply Lp.
Qed.
Print Assumptions C62_list_exact_partial.

(** The minified decoder of lists: it runs out of text, a good number being the last one read *)
Inductive runs_out (parse : parser) : bytes -> bytes -> Prop :=
| ro_end last t : endless t -> (exists n, parse last 0 = (None, n)) -> runs_out parse last t
| ro_next last s k t : endless s -> is_end k = true -> k <> 93 -> (exists n, parse s 0 = (None, n)) -> runs_out parse s t -> runs_out parse last (s ++ k :: t).
Lemma ro_inv parse last b : runs_out parse last b -> (endless b /\ exists n, parse last 0 = (None, n)) \/
  exists s k t, b = s ++ k :: t /\ endless s /\ is_end k = true /\ k <> 93 /\ (exists n, parse s 0 = (None, n)) /\ runs_out parse s t.
Proof. intros H. destruct H as [last t F G|last s k t F K N G R]; [left; auto|right; exists s, k, t; auto 8]. Qed.
Lemma cut_end_next s k t : endless s -> is_end k = true -> cut_end (s ++ k :: t) = Some (s, k, k :: t).
Proof. apply cut_end_app. Qed.
Lemma mlist_exact parse : forall n b tok last acc fuel, (length b <= n)%nat -> (n < fuel)%nat -> tok <> 93 ->
  exists r, mslice_loop parse fuel (Dec b tok last) acc = Some r /\ (r = Panic <-> runs_out parse last b) /\ forall x, r = Ok x -> suffix (dbuf (snd x)) b.
Proof.
  induction n as [|n IH]; intros b tok last acc fuel L Fu NT; (destruct fuel as [|f]; [lia|]); cbn [mslice_loop]; unfold CheckToken; cbn [dtok]; replace (tok =? 93) with false by lia; unfold MDecodeUInt, FindEndToken; cbn [dbuf].
  - destruct b; [|cbn in L; lia]. cbn [cut_end dlast]. destruct (parse last 0) as [[e|] m] eqn:P.
    + eexists. split; [reflexivity|]. split; [|intros x E; assert (x = (Some ErrSliceCorrupted, acc, Dec [] tok last)) by congruence; subst x; apply suffix_refl].
      split; [discriminate|]. intros H. apply ro_inv in H as [(_ & m' & Q)|(s & k & t & E & _)]; [congruence|destruct s; discriminate].
    + replace (Offset (Dec [] tok last) 1) with (@Panic dec) by reflexivity. exists Panic. split; [reflexivity|]. split; [|discriminate]. split; [intros _; apply ro_end; [constructor|eauto]|reflexivity].
  - destruct (cut_end b) as [((p, k), r)|] eqn:C.
    + destruct (cut_end_some _ _ _ _ C) as (Eb & F & K & (u & Er)). subst r. cbn [dlast].
      assert (Inv : runs_out parse last b -> (exists m, parse p 0 = (None, m)) /\ k <> 93 /\ runs_out parse p u).
      { intros H. apply ro_inv in H as [(F0 & _)|(s & k0 & t & Eb0 & Fs & Ks & N93 & G & R)]; [apply cut_end_none in F0; congruence|]. pose proof (cut_end_next s k0 t Fs Ks) as C2. rewrite <- Eb0, Eb in C2.
        rewrite (cut_end_next p k u F K) in C2. assert (s = p /\ k0 = k /\ t = u) as (-> & -> & ->) by (repeat split; congruence). auto. }
      destruct (parse p 0) as [[e|] m] eqn:P.
      * eexists. split; [reflexivity|]. split; [|intros x E; assert (x = (Some ErrSliceCorrupted, acc, Dec (k :: u) k p)) by congruence; subst x; exists p; exact Eb].
        split; [discriminate|]. intros H. destruct (Inv H) as ((m' & Q) & _). congruence.
      * pose proof (zlen_nonneg u). rewrite off_ok by (cbn [dbuf]; rewrite zlen_cons; lia). change (Z.to_nat 1) with 1%nat. cbn [dbuf skipn dtok dlast].
        assert (Su : suffix u b) by (exists (p ++ [k]); rewrite Eb, <- app_assoc; reflexivity).
        destruct (Z.eq_dec k 93) as [->|N93].
        { destruct f as [|f]; [lia|]. cbn [mslice_loop]. unfold CheckToken. cbn [dtok]. rewrite Z.eqb_refl. eexists. split; [reflexivity|]. split; [|intros x E; injection E as Ex; subst x; exact Su]. split; [discriminate|]. intros H0. destruct (Inv H0) as (_ & N & _). contradiction. }
        destruct (IH u k p (acc ++ [m]) f) as (r & Hr & Pr & Sr); [rewrite Eb, app_length in L; cbn in L; lia|lia|exact N93|].
        exists r. split; [exact Hr|]. split; [|intros x Ex; eapply suffix_trans; [now apply Sr|exact Su]].
        rewrite Pr. split; [intros R; rewrite Eb; apply ro_next; eauto|]. intros H0. now destruct (Inv H0) as (_ & _ & R).
    + apply cut_end_none in C. cbn [dlast].
      assert (Inv : runs_out parse last b -> exists m, parse last 0 = (None, m)).
      { intros H. apply ro_inv in H as [(_ & G)|(s & k0 & t & Eb0 & Fs & Ks & N93 & G & R)]; [exact G|]. exfalso. apply cut_end_none in C. rewrite Eb0 in C. rewrite (cut_end_next s k0 t Fs Ks) in C. discriminate. }
      destruct (parse last 0) as [[e|] m] eqn:P.
      * eexists. split; [reflexivity|]. split; [|intros x E; assert (x = (Some ErrSliceCorrupted, acc, Dec b tok last)) by congruence; subst x; apply suffix_refl].
        split; [discriminate|]. intros H. destruct (Inv H) as (? & ?). congruence.
      * destruct b as [|c b]; [replace (Offset (Dec [] tok last) 1) with (@Panic dec) by reflexivity; exists Panic; split; [reflexivity|]; split; [|discriminate]; split; [intros _; apply ro_end; eauto|reflexivity]|].
        pose proof (zlen_nonneg b). rewrite off_ok by (cbn [dbuf]; rewrite zlen_cons; lia). change (Z.to_nat 1) with 1%nat. cbn [dbuf skipn dtok dlast].
        destruct (IH b tok last (acc ++ [m]) f) as (r & Hr & Pr & Sr); [cbn in L; lia|lia|exact NT|].
        exists r. split; [exact Hr|]. inversion C; subst. split; [|intros x Ex; apply suffix_cons; now apply Sr].
        rewrite Pr. split; [intros _; apply ro_end; eauto|]. intros _. apply ro_end; eauto.
Qed.
(** It always returns or panics, and panics exactly when there is nothing at all or it runs out. *)
Theorem C62_list_minified_exact_partial : forall parse d, dtok d <> 93 ->
  exists r, MDecodeSliceAsNumber parse (S (length (dbuf d))) d = Some r /\
    (r = Panic <-> dbuf d = [] \/ exists c t, dbuf d = c :: t /\ runs_out parse (dlast d) t) /\ forall x, r = Ok x -> suffix (dbuf (snd x)) (dbuf d).
Proof.
  intros parse [b tok last] NT. cbn [dtok dbuf dlast] in *. unfold MDecodeSliceAsNumber. destruct b as [|c t].
  { exists Panic. split; [reflexivity|]. split; [|discriminate]. split; [now left|reflexivity]. }
  pose proof (zlen_nonneg t). rewrite off_ok by (cbn [dbuf]; rewrite zlen_cons; lia). change (Z.to_nat 1) with 1%nat. cbn [dbuf skipn dtok dlast].
  destruct (mlist_exact parse (length t) t tok last [] (S (length (c :: t)))) as (r & Hr & Pr & Sr); [lia|cbn; lia|exact NT|].
  exists r. split; [exact Hr|]. split; [|intros x Ex; apply suffix_cons; now apply Sr]. rewrite Pr. split; [eauto|]. intros [K|(c' & t' & E & R)]; [discriminate|]. assert (t' = t) by congruence. now subst.
Qed.
Print Assumptions C62_list_minified_exact_partial.
Example C62_exact_nonvacuous : late_n (str "x: nu"%string) /\ CheckNullValue (dec_init (str "x: nu"%string)) = Panic /\
  from_digit (str "[7"%string) (str "7"%string) /\ endless (str "7"%string) /\ U8_FromString_Base10 (str "5"%string) 0 = (None, 5) /\
  runs_out U8_FromString_Base10 [] (str "7,"%string) /\ MDecodeSliceAsNumber U8_FromString_Base10 4 (dec_init (str "[7,"%string)) = Some Panic /\
  (exists r, MDecodeSliceAsNumber U8_FromString_Base10 6 (dec_init (str "[7,x]"%string)) = Some (Ok r)).
Proof.
  split; [exists (str "x: "%string), (str "u"%string); cbn; repeat split; lia|]. split; [reflexivity|]. split; [left; exists (str "["%string); split; [reflexivity|]; split; [repeat constructor; vm_compute; intuition lia|]; exists 55, []; split; [reflexivity|]; vm_compute; split; discriminate|].
  split; [repeat constructor|]. split; [reflexivity|]. split; [|split; [reflexivity|eexists; reflexivity]].
  apply (ro_next _ [] (str "7"%string) 44 []); [repeat constructor|reflexivity|lia|eexists; reflexivity|]. apply ro_end; [constructor|eexists; reflexivity].
Qed.
