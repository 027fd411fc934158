(** Property theorems C95 and C96 (whole JSON objects), and the missing ones of C16. *)
From Coq Require Import String ZifyBool ZifyNat.
From Verif Require Import Go GoFacts IntSpec IntModel StrconvModel Base64Model Base64Proofs
  IntProofs JsonModel JsonSpec JsonProofs JsonTheorems JsonObjModel JsonObjSpec JsonObjProofs.
Import ListNotations.
Local Open Scope Z_scope.
Local Open Scope list_scope.

(** C16: the minified decoder's keys: one character (the opening brace or the comma),
    then the text of EncodeKey; the decoder is left after the colon. *)
Theorem C16_key_minified_round_trip : forall c key rest tok last, unquoted key ->
  MDecodeKey (Dec (c :: ebuf (EncodeKey (Enc [] 0) key) ++ rest) tok last) = Ok (key, Dec rest tok last).
Proof.
  intros c key rest tok last H. apply quote_free in H.
  replace (c :: ebuf (EncodeKey (Enc [] 0) key) ++ rest) with (c :: [34] ++ key ++ [34; 58] ++ rest).
  - now apply mdecode_key.
  - unfold EncodeKey, eapp. cbn [ebuf app]. now rewrite <- app_assoc.
Qed.
Print Assumptions C16_key_minified_round_trip.

Example C16_key_minified_case :
  MDecodeKey (dec_init (str "{""age"":7}")) = Ok (str "age", Dec (str "7}") 0 []).
Proof. vm_compute. reflexivity. Qed.

(** C16: a written 32-bit number is read back, and a number that does not fit is an error. *)
Theorem C16_unsafe_int32 : forall n k rest tok last, is_end k = true ->
  UDecodeInt32 (Dec (FormatInt10 n ++ k :: rest) tok last) =
    if (- 2 ^ 31 <=? n) && (n <? 2 ^ 31) then (None, n, Dec (k :: rest) k (FormatInt10 n))
    else (Some ErrIntegerCorrupted, 0, Dec (k :: rest) k (FormatInt10 n)).
Proof.
  intros n k rest tok last K. unfold UDecodeInt32. rewrite find_end by (auto using int_chars). cbn [dlast].
  assert (E : ParseInt10 32 (FormatInt10 n) = if (- 2 ^ 31 <=? n) && (n <? 2 ^ 31) then Some n else None).
  { unfold FormatInt10. destruct (Z.ltb_spec n 0).
    - unfold ParseInt10. rewrite parse_digits_format by lia. change (2 ^ (32 - 1)) with (2 ^ 31).
      destruct (Z.leb_spec (- n) (2 ^ 31)).
      + replace ((- 2 ^ 31 <=? n) && (n <? 2 ^ 31)) with true by lia. f_equal. lia.
      + replace ((- 2 ^ 31 <=? n) && (n <? 2 ^ 31)) with false by lia. reflexivity.
    - destruct (format_hd n) as (c & t & E & Hc); [lia|].
      rewrite (parse_int_signless 32 _ c t E Hc), parse_digits_format by lia. change (2 ^ (32 - 1)) with (2 ^ 31).
      replace (- 2 ^ 31 <=? n) with true by lia. reflexivity. }
  rewrite E. destruct ((- 2 ^ 31 <=? n) && (n <? 2 ^ 31)); reflexivity.
Qed.
Print Assumptions C16_unsafe_int32.

(** C16: strings through the two decoders that do not copy. *)
Theorem C16_unsafe_string_round_trip : forall s k rest tok last, unquoted s ->
  let text := str """" ++ s ++ str """" in
  UDecodeString (Dec (text ++ k :: rest) tok last) = Ok (None, s, Dec (k :: rest) tok last) /\
  UMDecodeString (Dec (text ++ k :: rest) tok last) = Ok (None, s, Dec (k :: rest) tok last).
Proof.
  intros s k rest tok last H. cbn zeta. apply quote_free in H. split.
  - change (UDecodeString) with DecodeString.
    replace ((str """" ++ s ++ str """") ++ k :: rest) with ([] ++ 34 :: s ++ 34 :: k :: rest)
      by (cbn; now rewrite <- app_assoc).
    apply decode_string_gen; [constructor|assumption].
  - replace ((str """" ++ s ++ str """") ++ k :: rest) with (34 :: (s ++ 34 :: k :: rest)) by (cbn; now rewrite <- app_assoc).
    unfold UMDecodeString. rewrite offset_cons. cbn [bind dbuf]. rewrite cut_byte_app by assumption.
    replace (s ++ 34 :: k :: rest) with ((s ++ [34]) ++ k :: rest) by (now rewrite <- app_assoc).
    rewrite offset_at by (rewrite zlen_app; reflexivity). reflexivity.
Qed.
Print Assumptions C16_unsafe_string_round_trip.

Example C16_unsafe_string_case : unquoted (str "a,b}") /\
  UMDecodeString (dec_init (str """a,b}"",")) = Ok (None, str "a,b}", Dec (str ",") 0 []).
Proof. split; [vm_compute; intuition discriminate|vm_compute; reflexivity]. Qed.

(** * C95 *)
(** The encoder's calls, field by field, give one JSON object with the fields in
    order, for every list of fields. *)
Theorem C95_object_is_json : forall cap fs,
  Forall (fun f => plain (fst f) /\ in_type (snd f) /\ nonempty (snd f) /\ val_plain (snd f)) fs ->
  (Exists (fun f => needs_room (snd f)) fs ->
     zlen (obj_text fs) <= cap) ->
  exists e, put_object cap fs = Ok e /\ json_object (ebuf e) (map (fun f => (fst f, denote (snd f))) fs).
Proof.
  intros cap fs H R.
  assert (H' : Forall (fun f => in_type (snd f) /\ nonempty (snd f)) fs) by (eapply Forall_impl; [|exact H]; cbn; tauto).
  destruct (put_object_ok cap fs H' R) as (c & E).
  exists (Enc (obj_text fs) c). split; [exact E|]. cbn [ebuf].
  exists (map mtext fs). split; [unfold obj_text, body_text; reflexivity|].
  clear - H. induction H as [|[k v] t (Pk & T & N & Pv) Ht IH]; cbn [map]; [constructor|].
  constructor; [|exact IH]. cbn [fst snd] in *. unfold mtext. cbn [fst snd].
  replace ([34] ++ k ++ [34; 58] ++ vtext v) with (([34] ++ k ++ [34]) ++ [58] ++ vtext v)
    by (now rewrite <- !app_assoc).
  constructor; [now apply string_token_iff|].
  assert (NUM : forall l, Forall (fun n => 0 <= n) l -> Forall2 json_value (map FormatUint10 l) (map VInt l)).
  { induction 1 as [|n l Hn Hl IHl]; cbn [map]; constructor; [constructor; now apply uint_token|assumption]. }
  assert (B : forall l, wf_bytes l -> json_value ([34] ++ b64_encode std_char l ++ [34]) (VStr (b64_encode std_char l))).
  { intros l W. constructor. apply string_token_iff. now apply b64_json. }
  destruct v as [w n|i|b|s|w l|l|l|l|ls]; cbn [vtext denote in_type val_plain] in *.
  - constructor. apply uint_token. lia.
  - constructor. apply int_token.
  - destruct b; constructor.
  - constructor. now apply string_token_iff.
  - constructor. apply NUM. eapply Forall_impl; [|exact T]. cbn. lia.
  - constructor. apply NUM. eapply Forall_impl; [|exact T]. unfold is_byte. cbn. lia.
  - now apply B.
  - now apply B.
  - constructor. clear N. induction T as [|l ls [W _] _ IHl]; cbn [map]; constructor; auto.
Qed.
Print Assumptions C95_object_is_json.

(** Reading it back with the ordinary decoder gives the same keys and values in the
    same order; [plain_readable] leaves out negative integers and lists of numbers
    after a fixed array. *)
Theorem C95_round_trip_partial : forall cap fs,
  Forall (fun f => unquoted (fst f) /\ in_type (snd f) /\ nonempty (snd f) /\ val_unquoted (snd f)) fs ->
  (Exists (fun f => needs_room (snd f)) fs -> zlen (obj_text fs) <= cap) ->
  plain_readable false (map snd fs) ->
  exists e, put_object cap fs = Ok e /\ ebuf e = obj_text fs /\
    get_object (ebuf e) (map (fun f => kind_of (snd f)) fs) = Some fs.
Proof.
  intros cap fs H R P.
  destruct (put_object_ok cap fs) as (c & E); [eapply Forall_impl; [|exact H]; cbn; tauto|exact R|].
  eexists. split; [exact E|]. split; [reflexivity|]. cbn [ebuf].
  unfold get_object, dec_init, obj_text. apply get_fields_ok; auto. repeat constructor; lia.
Qed.
Print Assumptions C95_round_trip_partial.

Definition sample : list (bytes * jval) :=
  [(str "id", JU W64 18446744073709551615); (str "on", JB true); (str "name", JS (str "a:{}b"));
   (str "ports", JN W16 [80; 443]); (str "off", JB false); (str "mac", JA [1; 2; 255]);
   (str "key", JA64 [0; 16; 131]); (str "bin", J64 (str "hello")); (str "ids", J32 [repeat 7 32; repeat 255 32])].
Example C95_nonvacuous :
  Forall (fun f => unquoted (fst f) /\ in_type (snd f) /\ nonempty (snd f) /\ val_unquoted (snd f)) sample /\
  zlen (obj_text sample) <= 300 /\ plain_readable false (map snd sample) /\
  (exists e, put_object 300 sample = Ok e /\ firstn 57 (ebuf e) = str "{""id"":18446744073709551615,""on"":true,""name"":""a:{}b"",""port") /\
  get_object (obj_text sample) (map (fun f => kind_of (snd f)) sample) = Some sample.
Proof.
  split.
  { repeat constructor; try (unfold unquoted; vm_compute; intuition discriminate); cbn; unfold is_byte; lia. }
  split; [vm_compute; discriminate|]. split; [cbn; tauto|].
  split; [eexists; split; vm_compute; reflexivity|vm_compute; reflexivity].
Qed.

(** A list of numbers directly after a fixed array is read as the empty list, whatever
    both hold. *)
Theorem C95_list_after_array_refuted : forall k1 k2 a w l,
  unquoted k1 -> unquoted k2 -> wf_bytes a -> a <> [] -> Forall (fun n => 0 <= n <= max_of w) l -> l <> [] ->
  exists e, put_object 0 [(k1, JA a); (k2, JN w l)] = Ok e /\
    get_object (ebuf e) [KA (length a); KN w] = Some [(k1, JA a); (k2, JN w [])].
Proof.
  intros k1 k2 a w l Q1 Q2 Wa Ha Hl Hne. set (fs := [(k1, JA a); (k2, JN w l)]).
  destruct (put_object_ok 0 fs) as (c & E).
  { constructor; [split; [exact Wa|destruct a; [congruence|exact I]]|].
    constructor; [split; [exact Hl|destruct l; [congruence|exact I]]|constructor]. }
  { intros H. subst fs. inversion H as [? ? K|? ? K]; [destruct K|]. inversion K as [? ? K'|? ? K']; [destruct K'|inversion K']. }
  eexists. split; [exact E|]. cbn [ebuf]. unfold get_object, dec_init, obj_text, fs.
  apply quote_free in Q1, Q2.
  cbn [get_fields]. rewrite body_cons. rewrite decode_key by (auto; repeat constructor; lia).
  change (match [(k2, JN w l)] with [] => [125] | _ => 44 :: body_text [(k2, JN w l)] end) with (44 :: body_text [(k2, JN w l)]).
  destruct (get_value_ok (JA a) 44 (body_text [(k2, JN w l)]) 0 []) as (q & tok' & last' & G & Hq & Ht); auto.
  { destruct a; [congruence|exact I]. }
  { exact I. }
  change (kind_of (JA a)) with (KA (length a)) in G. rewrite G. cbn zeta in Ht. subst tok'.
  rewrite body_cons. rewrite decode_key by assumption. reflexivity.
Qed.
Print Assumptions C95_list_after_array_refuted.

Example C95_list_after_array_case :
  get_object (str "{""m"":[1,2],""p"":[80,443]}") [KA 2; KN W16] = Some [(str "m", JA [1; 2]); (str "p", JN W16 [])].
Proof. vm_compute. reflexivity. Qed.

(** Every negative integer comes back with the wrong sign, or as an error. *)
Theorem C95_negative_refuted : forall k i, unquoted k -> - 2 ^ 63 <= i < 0 ->
  exists e, put_object 0 [(k, JI i)] = Ok e /\
    get_object (ebuf e) [KI] = if i =? - 2 ^ 63 then None else Some [(k, JI (- i))].
Proof.
  intros k i Q Hi. destruct (put_object_ok 0 [(k, JI i)]) as (c & E).
  { repeat constructor; cbn; lia. }
  { intros H. inversion H as [? ? K|? ? K]; [destruct K|inversion K]. }
  eexists. split; [exact E|]. cbn [ebuf]. unfold get_object, dec_init, obj_text. apply quote_free in Q.
  cbn [get_fields]. rewrite body_cons. rewrite decode_key by (auto; repeat constructor; lia).
  unfold get_value. cbn zeta. change (vtext (JI i)) with (FormatInt10 i).
  rewrite decode_int by (unfold terminator; lia). rewrite Z.abs_neq by lia.
  destruct (i =? - 2 ^ 63); reflexivity.
Qed.
Print Assumptions C95_negative_refuted.

(** * C96: the minified decoder *)
Theorem C96_round_trip_partial : forall cap fs,
  Forall (fun f => unquoted (fst f) /\ in_type (snd f) /\ nonempty (snd f) /\ val_unquoted (snd f)) fs ->
  (Exists (fun f => needs_room (snd f)) fs -> zlen (obj_text fs) <= cap) ->
  mini_readable false (map snd fs) ->
  exists e, put_object cap fs = Ok e /\ mget_object (ebuf e) (map (fun f => kind_of (snd f)) fs) = Some fs.
Proof.
  intros cap fs H R P.
  destruct (put_object_ok cap fs) as (c & E); [eapply Forall_impl; [|exact H]; cbn; tauto|exact R|].
  eexists. split; [exact E|]. cbn [ebuf]. unfold mget_object, dec_init, obj_text. now apply mget_fields_ok.
Qed.
Print Assumptions C96_round_trip_partial.

Definition msample : list (bytes * jval) :=
  [(str "id", JU W8 255); (str "t", JI (-9223372036854775808)); (str "name", JS (str "a:{}b"));
   (str "ports", JN W16 [80; 443]); (str "key", JA64 [0; 16; 131]); (str "bin", J64 (str "hello"));
   (str "mac", JA [1; 2; 255]); (str "on", JB true)].
Example C96_nonvacuous :
  Forall (fun f => unquoted (fst f) /\ in_type (snd f) /\ nonempty (snd f) /\ val_unquoted (snd f)) msample /\
  zlen (obj_text msample) <= 200 /\ mini_readable false (map snd msample) /\
  mget_object (obj_text msample) (map (fun f => kind_of (snd f)) msample) = Some msample.
Proof.
  split.
  { repeat constructor; try (unfold unquoted; vm_compute; intuition discriminate); cbn; unfold is_byte; lia. }
  split; [vm_compute; discriminate|]. split; [cbn; tauto|vm_compute; reflexivity].
Qed.

(** After a boolean the next key loses its first character, for every key and value;
    so the next field is not found by its name. *)
Theorem C96_key_after_boolean_refuted : forall b k1 c k2 n, unquoted k1 -> unquoted (c :: k2) ->
  0 <= n <= max_of W64 ->
  exists e, put_object 0 [(k1, JB b); (c :: k2, JU W64 n)] = Ok e /\
    mget_object (ebuf e) [KB; KU W64] = Some [(k1, JB b); (k2, JU W64 n)].
Proof.
  intros b k1 c k2 n Q1 Q2 Hn. set (fs := [(k1, JB b); (c :: k2, JU W64 n)]).
  destruct (put_object_ok 0 fs) as (cp & E).
  { repeat constructor; cbn; try exact I; apply Hn. }
  { intros H. subst fs. inversion H as [? ? K|? ? K]; [destruct K|]. inversion K as [? ? K'|? ? K']; [destruct K'|inversion K']. }
  eexists. split; [exact E|]. cbn [ebuf]. unfold mget_object, dec_init, obj_text, fs.
  apply quote_free in Q1, Q2. apply Forall_cons_iff in Q2 as [_ Q2].
  cbn [mget_fields]. rewrite body_cons. cbn [app]. 
  change (123 :: 34 :: k1 ++ 34 :: 58 :: ?x) with (123 :: [34] ++ k1 ++ [34; 58] ++ x).
  rewrite mdecode_key by assumption.
  destruct (mget_value_ok (JB b) 44 (body_text [(c :: k2, JU W64 n)]) 0 []) as (tok' & last' & G & Ht); auto; try exact I.
  change (kind_of (JB b)) with KB in G. rewrite G. rewrite body_cons.
  change ([34] ++ (c :: k2) ++ [34; 58] ++ vtext (JU W64 n) ++ [125]) with
    ([34; c] ++ (k2 ++ 34 :: 58 :: (FormatUint10 n ++ 125 :: []))).
  unfold MDecodeKey. rewrite offset_at by reflexivity. cbn [bind dbuf]. rewrite cut_byte_app by assumption.
  replace (k2 ++ 34 :: 58 :: (FormatUint10 n ++ 125 :: [])) with ((k2 ++ [34; 58]) ++ FormatUint10 n ++ 125 :: [])
    by (now rewrite <- app_assoc).
  rewrite offset_at by (rewrite zlen_app; reflexivity). cbn [bind]. unfold mget_value. cbn zeta.
  rewrite (mdecode_uint (parser_of W64) (max_of W64) n 125 [] tok' last' (reads_width W64) Hn) by (unfold terminator; auto).
  reflexivity.
Qed.
Print Assumptions C96_key_after_boolean_refuted.

(** No list of 32-byte identifiers is ever accepted. *)
Theorem C96_identifiers_refuted : forall ls k rest fuel tok last,
  Forall (fun l => wf_bytes l /\ zlen l = 32) ls -> ls <> [] ->
  exists d, MDecode32ByteArraySliceAsBase64 (S fuel) (Dec (vtext (J32 ls) ++ k :: rest) tok last) =
    Some (Ok (Some ErrSliceCorrupted, [], d)).
Proof.
  intros ls k rest fuel tok last H Hne. destruct ls as [|l ls]; [congruence|].
  apply Forall_cons_iff in H as [[W L] _]. clear Hne.
  pose proof (b64_len43 l L) as L43. destruct (b64_json l W) as [B _].
  pose proof (b64_chars _ _ l std_alphabet W) as CH.
  destruct (b64_encode std_char l) as [|c t] eqn:Et; [discriminate|].
  assert (Lt : zlen t = 42) by (rewrite zlen_cons in L43; lia).
  apply Forall_cons_iff in B as [[Hc1 Hc2] Bt].
  set (tail := match map id_text ls with [] => [] | _ => [44] ++ comma_sep (map id_text ls) end ++ [93] ++ k :: rest).
  replace (vtext (J32 (l :: ls)) ++ k :: rest) with (91 :: ([34; c] ++ ((t ++ [34]) ++ tail))).
  2:{ subst tail. cbn [vtext]. change (map (fun l => [34] ++ b64_encode std_char l ++ [34]) (l :: ls)) with (map id_text (l :: ls)).
      cbn [map]. rewrite sep_cons. unfold id_text at 3. rewrite Et. cbn [app]. rewrite <- !app_assoc. reflexivity. }
  unfold MDecode32ByteArraySliceAsBase64. rewrite offset_cons. cbn [mloop_32 dbuf].
  erewrite (idx_ok _ 1 c); [|lia|reflexivity].
  replace (c =? 93) with false by (unfold is_end in Hc2; lia).
  rewrite offset_at by reflexivity. cbn [dbuf].
  assert (L' : zlen (t ++ [34]) = 43) by (rewrite zlen_app, Lt; reflexivity).
  replace 43 with (zlen (t ++ [34])) by exact L'. rewrite slice_to_app.
  assert (D : b64_decode std_digit (t ++ [34]) = None); [|unfold b64_into; rewrite D; eexists; reflexivity].
  unfold b64_decode. rewrite filter_app. cbn [filter]. change (negb ((34 =? 10) || (34 =? 13))) with true. cbv iota.
  generalize (filter (fun c => negb ((c =? 10) || (c =? 13))) t). clear.
  assert (G : forall n f, (length f <= n)%nat -> b64_groups std_digit (f ++ [34]) = None).
  { induction n as [|n IH]; intros f Hf.
    - destruct f; [reflexivity|cbn in Hf; lia].
    - destruct f as [|a [|b [|d [|e f]]]]; cbn [app b64_groups]; try reflexivity.
      + now destruct (std_digit a).
      + destruct (std_digit a); [|reflexivity]. now destruct (std_digit b).
      + destruct (std_digit a); [|reflexivity]. destruct (std_digit b); [|reflexivity].
        now destruct (std_digit d).
      + rewrite IH by (cbn [length] in Hf; lia).
        destruct (std_digit a), (std_digit b), (std_digit d), (std_digit e); reflexivity. }
  intros f. now apply (G (length f)).
Qed.
Print Assumptions C96_identifiers_refuted.

(** What it accepts instead: identifiers each with two characters before it, the second not a
    bracket, and a closing bracket after one more character; it then reads all of them. *)
Definition odd_text (ids : list (Z * Z * bytes)) : bytes :=
  concat (map (fun x => fst (fst x) :: snd (fst x) :: b64_encode std_char (snd x)) ids).
Theorem C96_identifiers_odd_partial : forall ids c z k rest tok last,
  Forall (fun x => snd (fst x) <> 93 /\ wf_bytes (snd x) /\ zlen (snd x) = 32) ids ->
  MDecode32ByteArraySliceAsBase64 (S (length ids)) (Dec (c :: odd_text ids ++ z :: 93 :: k :: rest) tok last) =
    Some (Ok (None, map snd ids, Dec (k :: rest) tok last)).
Proof.
  intros ids c z k rest tok last H. unfold MDecode32ByteArraySliceAsBase64. rewrite offset_cons.
  assert (G : forall ids acc a, length a = 32%nat ->
    Forall (fun x => snd (fst x) <> 93 /\ wf_bytes (snd x) /\ zlen (snd x) = 32) ids ->
    mloop_32 (S (length ids)) (Dec (odd_text ids ++ z :: 93 :: k :: rest) tok last) a acc =
      Some (Ok (None, acc ++ map snd ids, Dec (k :: rest) tok last))).
  { clear ids H. induction ids as [|[[p q] l] ids IH]; intros acc a La H.
    - cbn [length odd_text map concat app]. cbn [mloop_32 dbuf]. change (idx (z :: 93 :: k :: rest) 1) with (@Ok Z 93). cbn iota.
      change (93 =? 93) with true. cbn iota. change (z :: 93 :: k :: rest) with ([z; 93] ++ k :: rest).
      rewrite offset_at by reflexivity. cbn [bind]. now rewrite app_nil_r.
    - apply Forall_cons_iff in H as [(Hq & W & L) H]. cbn [fst snd] in *.
      change (length ((p, q, l) :: ids)) with (S (length ids)). set (n := S (length ids)) in *. cbn [mloop_32 dbuf].
      assert (E : odd_text ((p, q, l) :: ids) ++ z :: 93 :: k :: rest = [p; q] ++ (b64_encode std_char l ++ (odd_text ids ++ z :: 93 :: k :: rest))).
      { unfold odd_text. cbn [map concat fst snd app]. now rewrite <- app_assoc. }
      rewrite E. change (idx ([p; q] ++ (b64_encode std_char l ++ (odd_text ids ++ z :: 93 :: k :: rest))) 1) with (Ok q). cbn iota.
      assert (Eq : q =? 93 = false) by lia. rewrite Eq.
      pose proof (b64_len43 l L) as L43.
      rewrite offset_at; [|reflexivity]. cbn [dbuf]. rewrite <- L43 at 1. rewrite slice_to_app.
      rewrite (b64_into_ok l 32 W) by (auto; unfold zlen in L; lia). cbn iota.
      destruct (odd_text ids ++ z :: 93 :: k :: rest) as [|y ys] eqn:Y.
      { destruct (odd_text ids); discriminate. }
      rewrite offset_at by (symmetry; exact L43). rewrite IH; auto; [|unfold zlen in L; lia].
      cbn [map snd]. now rewrite <- app_assoc. }
  rewrite G; auto.
Qed.
Print Assumptions C96_identifiers_odd_partial.
(** An identifier whose 43 characters stand for fewer octets, having line ends among them, is filled up
    with zeros. *)
Theorem C96_identifiers_short_refuted : forall c p q w l z k rest tok last,
  q <> 93 -> zlen w = 43 -> b64_decode std_digit w = Some l -> zlen l <= 32 ->
  MDecode32ByteArraySliceAsBase64 2 (Dec (c :: p :: q :: w ++ z :: 93 :: k :: rest) tok last) =
    Some (Ok (None, [l ++ repeat 0 (Z.to_nat (32 - zlen l))], Dec (k :: rest) tok last)).
Proof.
  intros c p q w l z k rest tok last Q W D L. unfold MDecode32ByteArraySliceAsBase64. rewrite offset_cons. cbn [mloop_32 dbuf].
  change (idx (p :: q :: w ++ z :: 93 :: k :: rest) 1) with (Ok q). cbn iota. replace (q =? 93) with false by lia.
  change (p :: q :: w ++ z :: 93 :: k :: rest) with ([p; q] ++ (w ++ z :: 93 :: k :: rest)). rewrite offset_at by reflexivity. cbn [dbuf].
  rewrite <- W at 1. rewrite slice_to_app. unfold b64_into. rewrite D. change (zlen (repeat 0 32)) with 32. replace (zlen l <=? 32) with true by lia.
  rewrite offset_at by (symmetry; exact W). cbn [dbuf]. change (idx (z :: 93 :: k :: rest) 1) with (@Ok Z 93). cbn iota. change (93 =? 93) with true. cbn iota.
  change (z :: 93 :: k :: rest) with ([z; 93] ++ k :: rest). rewrite offset_at by reflexivity. cbn [bind app]. do 5 f_equal.
  rewrite overwrite_fits by (rewrite repeat_length; unfold zlen in L; lia). cbn [firstn app Nat.add]. f_equal. f_equal.
  replace 32%nat with (length l + Z.to_nat (32 - zlen l))%nat by (unfold zlen in *; lia). rewrite repeat_app, skipn_app, repeat_length, Nat.sub_diag. cbn [skipn].
  rewrite skipn_all2 by (rewrite repeat_length; lia). reflexivity.
Qed.
Print Assumptions C96_identifiers_short_refuted.
Example C96_identifiers_short_case : MDecode32ByteArraySliceAsBase64 2
    (dec_init (91 :: 32 :: 34 :: (repeat 10 41 ++ str "BB") ++ str """]}")) = Some (Ok (None, [4 :: repeat 0 31], Dec (str "}") 0 [])).
Proof. vm_compute. reflexivity. Qed.

Example C96_identifiers_odd_case :
  MDecode32ByteArraySliceAsBase64 3 (dec_init (91 :: odd_text [(32, 34, repeat 7 32); (34, 44, repeat 200 32)] ++ str """]}")) =
    Some (Ok (None, [repeat 7 32; repeat 200 32], Dec (str "}") 0 [])).
Proof. vm_compute. reflexivity. Qed.
Example C16_unsafe_int32_case :
  UDecodeInt32 (dec_init (str "-2147483648,")) = (None, - 2147483648, Dec (str ",") 44 (str "-2147483648")) /\
  UDecodeInt32 (dec_init (str "2147483648,")) = (Some ErrIntegerCorrupted, 0, Dec (str ",") 44 (str "2147483648")).
Proof. vm_compute. split; reflexivity. Qed.
Example C96_identifiers_case :
  exists d, MDecode32ByteArraySliceAsBase64 9 (dec_init (vtext (J32 [repeat 7 32]) ++ str ",")) =
    Some (Ok (Some ErrSliceCorrupted, [], d)).
Proof. eexists. vm_compute. reflexivity. Qed.
