(** C182: keys that are not known are skipped. *)
From Coq Require Import String ZifyBool ZifyNat.
From Verif Require Import Go GoFacts IntSpec IntModel StrconvModel IntProofs JsonModel JsonSpec JsonProofs JsonTheorems JsonCrashTheorems JsonLoopModel JsonLoopSpec.
Import ListNotations.
Local Open Scope Z_scope.
Local Open Scope list_scope.

Lemma flat_clean v : flat v -> Forall (fun c => is_end c = false) v.
Proof. intros (A & B & C). apply Forall_forall. intros x H. unfold is_end. destruct (Z.eqb_spec x 44) as [->|_]; [contradiction|]. destruct (Z.eqb_spec x 93) as [->|_]; [contradiction|]. destruct (Z.eqb_spec x 125) as [->|_]; [contradiction|reflexivity]. Qed.
Lemma key_at c k r tok last : c <> 34 -> ~ In 34 k -> DecodeKey (Dec (c :: 34 :: k ++ 34 :: 58 :: r) tok last) = (k, Dec r tok last).
Proof.
  intros C K. unfold DecodeKey.
  assert (T : TrimToStringStart (Dec (c :: 34 :: k ++ 34 :: 58 :: r) tok last) = Dec (k ++ 34 :: 58 :: r) tok last).
  { unfold TrimToStringStart. cbn [dbuf dtok dlast cut_byte]. replace (c =? 34) with false by lia. reflexivity. }
  rewrite T. cbv zeta. cbn [dbuf dtok dlast]. rewrite (cut_at 34 k) by exact K. reflexivity.
Qed.
Lemma skip_at v e r tok last : flat v -> is_end e = true -> NotFoundKey (Dec (v ++ e :: r) tok last) = Dec (e :: r) e v.
Proof. intros F E. unfold NotFoundKey. apply find_some. apply cut_end_app; [now apply flat_clean|exact E]. Qed.
Lemma one_turn parse max want fuel c f e r tok last v : width_of parse max -> ~ In 34 want -> good want max f -> c <> 34 -> tok <> 125 -> is_end e = true ->
  exists last', read_loop parse want (S fuel) (Dec (c :: member want f ++ e :: r) tok last) v = read_loop parse want fuel (Dec (e :: r) e last') (kept v [f]).
Proof.
  intros W Q G C T E. cbn [read_loop].
  assert (N : forall k x, End (Dec (c :: 34 :: k ++ 34 :: 58 :: x) tok last) = false).
  { intros k x. unfold End. cbn [dbuf dtok]. rewrite !zlen_cons. pose proof (Zlength_correct (@nil Z)). unfold zlen. rewrite app_length. cbn [length]. lia. }
  destruct f as [n|k x]; cbn [member good kept] in *; rewrite <- !app_comm_cons, <- app_assoc, <- !app_comm_cons.
  - rewrite N, key_at by assumption. replace (beq want want) with true by (symmetry; now apply beq_eq).
    destruct (C16_uint_round_trip parse max n e r tok last W G) as (_ & R & _).
    { unfold terminator. unfold is_end in E. lia. }
    unfold EncodeUInt, eapp in R. cbn [ebuf app] in R. rewrite R. eexists. reflexivity.
  - destruct G as (G1 & G2 & G3). rewrite N, key_at by assumption. replace (beq k want) with false.
    2: { symmetry. apply Bool.not_true_iff_false. intros B. apply beq_eq in B. contradiction. }
    rewrite skip_at by assumption. eexists. reflexivity.
Qed.
(** Other fields before, between and after are skipped, whatever they are called and as long as nothing in their values ends a value: the
    loop ends after one turn for each field and the number is that of the last field with the wanted key. *)
Theorem C182_skipped_partial : forall parse max want fs extra v, width_of parse max -> ~ In 34 want -> Forall (good want max) fs ->
  read_loop parse want (S (length fs) + extra) (dec_init (object want fs)) v = Some (None, kept v fs).
Proof.
  intros parse max want fs extra v W Q G. unfold dec_init, object.
  assert (L : forall fs c tok last v, c <> 34 -> tok <> 125 -> Forall (good want max) fs -> fs <> [] ->
    read_loop parse want (S (length fs) + extra) (Dec (c :: members want fs ++ [125]) tok last) v = Some (None, kept v fs)).
  { clear fs v G. induction fs as [|f fs IH]; intros c tok last v C T G NE; [congruence|]. inversion G as [|? ? G1 G2]; subst.
    destruct fs as [|f2 fs].
    - change (read_loop parse want (S (S extra)) (Dec (c :: member want f ++ [125]) tok last) v = Some (None, kept v [f])). destruct (one_turn parse max want (S extra) c f 125 [] tok last v W Q G1 C T eq_refl) as (l' & E).
      rewrite E. cbn [read_loop]. change (End (Dec [125] 125 l')) with true. cbv iota. destruct f; reflexivity.
    - change (members want (f :: f2 :: fs)) with (member want f ++ 44 :: members want (f2 :: fs)). rewrite <- app_assoc, <- app_comm_cons.
      change (S (length (f :: f2 :: fs)) + extra)%nat with (S (S (length (f2 :: fs)) + extra)).
      destruct (one_turn parse max want (S (length (f2 :: fs)) + extra) c f 44 (members want (f2 :: fs) ++ [125]) tok last v W Q G1 C T eq_refl) as (l' & E).
      rewrite E, (IH 44 44 l' (kept v [f])) by (auto; discriminate). destruct f; reflexivity. }
  destruct fs as [|f fs]; [reflexivity|]. apply L; auto; discriminate.
Qed.
Print Assumptions C182_skipped_partial.
(** A value of another field whose first closing sign is a brace, such as an object with one member, ends the loop: all fields after it are lost, in silence. *)
Theorem C182_nested_refuted : forall parse want k v r extra kept_, ~ In 34 k -> k <> want -> flat v ->
  read_loop parse want (S (S extra)) (dec_init (123 :: 34 :: k ++ 34 :: 58 :: v ++ 125 :: r)) kept_ = Some (None, kept_).
Proof.
  intros parse want k v r extra kp K W F. unfold dec_init. cbn [read_loop].
  assert (N : End (Dec (123 :: 34 :: k ++ 34 :: 58 :: v ++ 125 :: r) 0 []) = false) by (unfold End; cbn [dbuf dtok]; rewrite !zlen_cons; unfold zlen; rewrite app_length; cbn [length]; lia).
  rewrite N, key_at by (assumption || lia). replace (beq k want) with false by (symmetry; apply Bool.not_true_iff_false; intros B; apply beq_eq in B; contradiction).
  rewrite skip_at by (assumption || reflexivity). unfold End. cbn [dbuf dtok]. rewrite Bool.orb_true_r. reflexivity.
Qed.
Print Assumptions C182_nested_refuted.
(** A comma inside a string of another field makes the next key unseen: a wanted field right after it is lost, in silence. *)
Theorem C182_comma_refuted : forall parse want k a b n extra kept_, ~ In 34 k -> k <> want -> flat a -> ~ In 34 b -> want <> [44] -> ~ In 58 want -> 0 <= n ->
  read_loop parse want (S (S (S extra))) (dec_init (object want [Other k (34 :: a ++ 44 :: b ++ [34]); Wanted n])) kept_ = Some (None, kept_).
Proof.
  intros parse want k a b n extra kp K W F B WN WC P. unfold dec_init, object. cbn [members member].
  replace (123 :: ((34 :: k ++ 34 :: 58 :: 34 :: a ++ 44 :: b ++ [34]) ++ 44 :: 34 :: want ++ 34 :: 58 :: FormatUint10 n) ++ [125])
    with (123 :: 34 :: k ++ 34 :: 58 :: (34 :: a) ++ 44 :: b ++ 34 :: [44] ++ 34 :: want ++ 34 :: 58 :: FormatUint10 n ++ [125]).
  2: { repeat (cbn [app]; rewrite <- ?app_assoc). reflexivity. }
  set (tail := b ++ 34 :: [44] ++ 34 :: want ++ 34 :: 58 :: FormatUint10 n ++ [125]).
  change (S (S (S extra))) with (S (S (S extra))). cbn [read_loop].
  assert (N : End (Dec (123 :: 34 :: k ++ 34 :: 58 :: (34 :: a) ++ 44 :: tail) 0 []) = false) by (unfold End; cbn [dbuf dtok]; rewrite !zlen_cons; unfold zlen; rewrite app_length; cbn [length]; lia).
  rewrite N, key_at by (assumption || lia). replace (beq k want) with false by (symmetry; apply Bool.not_true_iff_false; intros X; apply beq_eq in X; contradiction).
  assert (F2 : flat (34 :: a)) by (destruct F as (F1 & F2 & F3); unfold flat; cbn [In]; intuition lia).
  rewrite (skip_at (34 :: a)) by (assumption || reflexivity).
  assert (N2 : End (Dec (44 :: tail) 44 (34 :: a)) = false).
  { unfold End, tail. cbn [dbuf dtok]. rewrite zlen_cons. unfold zlen. rewrite app_length. cbn [length app]. lia. }
  rewrite N2.
  assert (DK : DecodeKey (Dec (44 :: tail) 44 (34 :: a)) = ([44], Dec (FormatUint10 n ++ [125]) 44 (34 :: a))).
  { unfold DecodeKey.
    assert (T : TrimToStringStart (Dec (44 :: tail) 44 (34 :: a)) = Dec ([44] ++ 34 :: want ++ 34 :: 58 :: FormatUint10 n ++ [125]) 44 (34 :: a)).
    { unfold TrimToStringStart. cbn [dbuf dtok dlast]. change (44 :: tail) with ((44 :: b) ++ 34 :: ([44] ++ 34 :: want ++ 34 :: 58 :: FormatUint10 n ++ [125])).
      rewrite cut_at by (cbn [In]; intuition lia). reflexivity. }
    rewrite T. cbv zeta. cbn [dbuf dtok dlast]. rewrite (cut_at 34 [44]) by (cbn [In]; intuition lia).
    replace (want ++ 34 :: 58 :: FormatUint10 n ++ [125]) with ((want ++ [34]) ++ 58 :: FormatUint10 n ++ [125]) by (rewrite <- app_assoc; reflexivity).
    rewrite (cut_at 58) by (rewrite in_app_iff; cbn [In]; intuition lia). reflexivity. }
  rewrite DK. replace (beq [44] want) with false by (symmetry; apply Bool.not_true_iff_false; intros X; apply beq_eq in X; congruence).
  unfold NotFoundKey. rewrite (find_some _ _ _ (FormatUint10 n) 125 [125]); [reflexivity|].
  apply cut_end_app; [|reflexivity]. destruct (format_spec n P) as (D & _). eapply Forall_impl; [|exact D]. unfold is_digit, is_end. intros; lia.
Qed.
Print Assumptions C182_comma_refuted.
(** On a text with no quote and no closing sign the loop never ends. *)
Theorem C182_ends_refuted : forall parse want b fuel tok last v, want <> [] -> ~ In 34 b -> flat b -> 3 <= zlen b -> tok <> 125 ->
  read_loop parse want fuel (Dec b tok last) v = None.
Proof.
  intros parse want b fuel tok last v W Q F L T.
  assert (E : End (Dec b tok last) = false) by (unfold End; cbn [dbuf dtok]; lia).
  assert (C : cut_byte 34 b = None) by (apply cut_byte_none; apply Forall_forall; intros x H X; congruence).
  assert (K : DecodeKey (Dec b tok last) = ([], Dec b tok last)).
  { unfold DecodeKey, TrimToStringStart. cbn [dbuf]. rewrite C. cbv zeta. cbn [dbuf]. now rewrite C. }
  assert (S : NotFoundKey (Dec b tok last) = Dec b tok last) by (unfold NotFoundKey; apply find_none, cut_end_none; now apply flat_clean).
  induction fuel as [|fuel IH]; cbn [read_loop]; [reflexivity|]. rewrite E, K.
  replace (beq [] want) with false by (symmetry; apply Bool.not_true_iff_false; intros X; apply beq_eq in X; congruence). rewrite S. exact IH.
Qed.
Print Assumptions C182_ends_refuted.

(** A found number among others; a nested object and a comma in a string before it lose it; a text on which the loop spins. *)
Example C182_case :
  read_loop U8_FromString_Base10 (str "age"%string) 9 (dec_init (object (str "age"%string) [Other (str "a"%string) (str "true"%string); Wanted 42; Other (str "name"%string) (34 :: str "bob"%string ++ [34])])) None = Some (None, Some 42) /\
  Forall (good (str "age"%string) 255) [Other (str "a"%string) (str "true"%string); Wanted 42] /\
  read_loop U8_FromString_Base10 (str "age"%string) 9 (dec_init (object (str "age"%string) [Other (str "a"%string) (str "{1}"%string); Wanted 42])) None = Some (None, None) /\
  read_loop U8_FromString_Base10 (str "age"%string) 9 (dec_init (object (str "age"%string) [Other (str "name"%string) (34 :: str "a,b"%string ++ [34]); Wanted 42])) None = Some (None, None) /\
  read_loop U8_FromString_Base10 (str "age"%string) 100 (dec_init (str "hello"%string)) None = None.
Proof.
  split; [vm_compute; reflexivity|]. split.
  { apply Forall_cons; [|apply Forall_cons; [cbn [good]; lia|apply Forall_nil]]. cbn [good]. repeat split; try discriminate; vm_compute; intuition discriminate. }
  split; [vm_compute; reflexivity|]. split; vm_compute; reflexivity.
Qed.
