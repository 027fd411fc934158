(** Proofs about writing and reading one JSON object. *)
From Coq Require Import ZifyBool ZifyNat.
From Verif Require Import Go GoFacts IntSpec IntModel StrconvModel Base64Model Base64Proofs
  IntProofs JsonModel JsonSpec JsonProofs JsonObjModel JsonObjSpec.
Local Open Scope Z_scope.
Local Open Scope list_scope.

Lemma commas_sep l : commas l = comma_sep (map FormatUint10 l).
Proof.
  induction l as [|n t IH]; [reflexivity|]. destruct t as [|m t]; [reflexivity|].
  change (commas (n :: m :: t)) with (FormatUint10 n ++ 44 :: commas (m :: t)). rewrite IH. reflexivity.
Qed.
Lemma sep_snoc (ts : list bytes) : ts <> [] -> concat (map (fun t => t ++ [44]) ts) = comma_sep ts ++ [44].
Proof.
  induction ts as [|t r IH]; [congruence|]. intros _. destruct r as [|u r]; [cbn; now rewrite app_nil_r|].
  change (comma_sep (t :: u :: r)) with (t ++ [44] ++ comma_sep (u :: r)).
  change (concat (map (fun t => t ++ [44]) (t :: u :: r))) with
    ((t ++ [44]) ++ concat (map (fun t => t ++ [44]) (u :: r))).
  rewrite IH by discriminate. now rewrite <- !app_assoc.
Qed.
Lemma sep_cons t (r : list bytes) : comma_sep (t :: r) = t ++ match r with [] => [] | _ => [44] ++ comma_sep r end.
Proof. destruct r; cbn [comma_sep]; [now rewrite app_nil_r|reflexivity]. Qed.

Lemma eapp_cap e s : ecap e <= ecap (eapp e s).
Proof. unfold eapp. cbn [ecap]. lia. Qed.
Lemma eapp_fits e s : zlen (ebuf (eapp e s)) <= ecap (eapp e s).
Proof. unfold eapp. cbn [ecap ebuf]. lia. Qed.

Lemma b64_len43 l : zlen l = 32 -> zlen (b64_encode std_char l) = 43.
Proof. intros H. rewrite b64_length, H. reflexivity. Qed.

(** * Writing *)
Lemma encode_numbers_cap l : forall e, ecap e <= ecap (encode_numbers e l).
Proof.
  induction l as [|n t IH]; intros e; cbn [encode_numbers]; [lia|].
  etransitivity; [|apply IH]. etransitivity; apply eapp_cap.
Qed.
Lemma encode_slice_cap e l : l <> [] -> exists c, ecap e <= c /\ EncodeSliceAsNumber e l = Ok (Enc (ebuf e ++ commas l) c).
Proof.
  intros Hl. destruct (encode_slice e l Hl) as (c & E). exists c. split; [|exact E].
  unfold EncodeSliceAsNumber, RemoveTrailingComma in E.
  destruct (idx (ebuf (encode_numbers e l)) (zlen (ebuf (encode_numbers e l)) - 1)) as [x|]; [|discriminate].
  cbn [bind] in E. pose proof (encode_numbers_cap l e).
  destruct (x =? 44).
  - destruct (slice_to _ _) as [b|]; [|discriminate]. cbn [bind] in E.
    assert (ecap (encode_numbers e l) = c) by congruence. lia.
  - assert (ecap (encode_numbers e l) = c) by (destruct (encode_numbers e l); cbn in *; congruence). lia.
Qed.

Lemma encode_32s_ok ls : Forall (fun l => wf_bytes l /\ zlen l = 32) ls -> forall e,
  zlen (ebuf e) + zlen (concat (map (fun t => t ++ [44]) (map (fun l => [34] ++ b64_encode std_char l ++ [34]) ls))) <= ecap e + 1 ->
  exists e', encode_32s e ls = Ok e' /\ ecap e <= ecap e' /\
    ebuf e' = ebuf e ++ concat (map (fun t => t ++ [44]) (map (fun l => [34] ++ b64_encode std_char l ++ [34]) ls)).
Proof.
  intros H. induction H as [|l t [Wl Hl] _ IH]; intros e R; cbn [encode_32s].
  - exists e. split; [reflexivity|]. split; [lia|]. cbn. now rewrite app_nil_r.
  - cbn [map concat] in R. rewrite !zlen_app in R. pose proof (b64_len43 l Hl) as L. rewrite L in R.
    change (zlen [34]) with 1 in R. change (zlen [44]) with 1 in R.
    set (rest := concat (map (fun t => t ++ [44]) (map (fun l => [34] ++ b64_encode std_char l ++ [34]) t))) in *.
    pose proof (zlen_nonneg rest).
    cbn zeta. unfold eapp at 1 2. cbn [ebuf ecap]. rewrite zlen_app. change (zlen [34]) with 1.
    replace (zlen (ebuf e) + 1 + 43 <=? Z.max (ecap e) (zlen (ebuf e) + 1)) with true by lia.
    set (e1 := eapp _ [34; 44]).
    assert (B : ebuf e1 = ebuf e ++ [34] ++ b64_encode std_char l ++ [34] ++ [44]).
    { subst e1. unfold eapp. cbn [ebuf]. now rewrite <- !app_assoc. }
    assert (C : ecap e <= ecap e1). { subst e1. unfold eapp. cbn [ecap ebuf]. lia. }
    destruct (IH e1) as (e' & E & C' & B').
    { rewrite B. rewrite !zlen_app, L. change (zlen [34]) with 1. change (zlen [44]) with 1. lia. }
    exists e'. split; [exact E|]. split; [lia|]. rewrite B', B. cbn [map concat]. fold rest.
    now rewrite <- !app_assoc.
Qed.

Lemma put_value_ok e v : in_type v -> nonempty v ->
  (needs_room v -> zlen (ebuf e) + zlen (vtext v) <= ecap e) ->
  exists e', put_value e v = Ok e' /\ ecap e <= ecap e' /\ ebuf e' = ebuf e ++ vtext v ++ [44].
Proof.
  intros T N R.
  assert (num : forall l, l <> [] -> exists e',
    (let! e := EncodeSliceAsNumber (EncodeByte e 91) l in Ok (AddTrailingComma (EncodeByte e 93))) = Ok e' /\
    ecap e <= ecap e' /\ ebuf e' = ebuf e ++ ([91] ++ comma_sep (map FormatUint10 l) ++ [93]) ++ [44]).
  { intros l Hl. destruct (encode_slice_cap (EncodeByte e 91) l Hl) as (c & Hc & E). rewrite E. cbn [bind].
    eexists. split; [reflexivity|]. unfold EncodeByte in Hc. pose proof (eapp_cap e [91]).
    split; [unfold AddTrailingComma, EncodeByte, eapp; cbn [ebuf ecap]; lia|].
    unfold AddTrailingComma, EncodeByte, eapp. cbn [ebuf]. rewrite commas_sep, <- !app_assoc. reflexivity. }
  assert (b64 : forall l, wf_bytes l ->
    zlen (ebuf e) + zlen ([34] ++ b64_encode std_char l ++ [34]) <= ecap e -> exists e',
    (let! e := EncodeByteSliceAsBase64 (EncodeByte e 34) l in Ok (AddTrailingComma (EncodeByte e 34))) = Ok e' /\
    ecap e <= ecap e' /\ ebuf e' = ebuf e ++ ([34] ++ b64_encode std_char l ++ [34]) ++ [44]).
  { intros l Wl Hr. rewrite !zlen_app, b64_length in Hr. change (zlen [34]) with 1 in Hr.
    unfold EncodeByteSliceAsBase64, EncodeByte at 1 2. unfold eapp at 1 2. cbn [ebuf ecap].
    rewrite zlen_app. change (zlen [34]) with 1.
    replace (zlen (ebuf e) + 1 + encoded_len (zlen l) <=? Z.max (ecap e) (zlen (ebuf e) + 1)) with true by lia.
    cbn [bind]. eexists. split; [reflexivity|].
    unfold AddTrailingComma, EncodeByte, eapp. cbn [ebuf ecap]. split; [lia|]. now rewrite <- !app_assoc. }
  destruct v as [w n|i|b|s|w l|l|l|l|ls]; cbn [put_value vtext in_type nonempty needs_room] in *.
  - eexists. split; [reflexivity|]. unfold AddTrailingComma, EncodeUInt, eapp. cbn [ebuf ecap].
    split; [lia|]. now rewrite <- app_assoc.
  - eexists. split; [reflexivity|]. unfold AddTrailingComma, EncodeInt64, eapp. cbn [ebuf ecap].
    split; [lia|]. now rewrite <- app_assoc.
  - eexists. split; [reflexivity|]. unfold AddTrailingComma, EncodeBoolean, eapp. cbn [ebuf ecap].
    split; [lia|]. now rewrite <- app_assoc.
  - eexists. split; [reflexivity|]. unfold EncodeStringValue, eapp. cbn [ebuf ecap].
    split; [lia|]. now rewrite <- !app_assoc.
  - apply num. destruct l; [contradiction|discriminate].
  - apply num. destruct l; [contradiction|discriminate].
  - apply b64; [assumption|now apply R].
  - apply b64; [assumption|now apply R].
  - assert (Hls : ls <> []) by (destruct ls; [contradiction|discriminate]).
    specialize (R I).
    set (ts := map (fun l => [34] ++ b64_encode std_char l ++ [34]) ls) in *.
    assert (Hts : ts <> []) by (destruct ls; [congruence|discriminate]).
    assert (P : concat (map (fun t => t ++ [44]) ts) = comma_sep ts ++ [44]) by now apply sep_snoc.
    rewrite !zlen_app in R. change (zlen [91]) with 1 in R. change (zlen [93]) with 1 in R.
    destruct (encode_32s_ok ls T (EncodeByte e 91)) as (e1 & E1 & C1 & B1).
    { fold ts. rewrite P. unfold EncodeByte, eapp. cbn [ebuf ecap]. rewrite !zlen_app.
      change (zlen [91]) with 1. change (zlen [44]) with 1. lia. }
    fold ts in B1. rewrite P in B1.
    unfold Encode32ByteArraySliceAsBase64. rewrite E1. cbn [bind].
    destruct e1 as [b1 c1]. cbn [ebuf ecap] in *.
    replace b1 with ((ebuf (EncodeByte e 91) ++ comma_sep ts) ++ [44]) by (rewrite B1; now rewrite <- app_assoc).
    rewrite remove_comma. cbn [bind]. eexists. split; [reflexivity|].
    unfold AddTrailingComma, EncodeByte, eapp in *. cbn [ebuf ecap] in *. split; [lia|]. now rewrite <- !app_assoc.
Qed.

Lemma put_fields_ok fs : forall e,
  Forall (fun f => in_type (snd f) /\ nonempty (snd f)) fs ->
  (Exists (fun f => needs_room (snd f)) fs ->
     zlen (ebuf e) + zlen (concat (map (fun t => t ++ [44]) (map mtext fs))) <= ecap e + 1) ->
  exists e', put_fields e fs = Ok e' /\ ebuf e' = ebuf e ++ concat (map (fun t => t ++ [44]) (map mtext fs)).
Proof.
  induction fs as [|[k v] t IH]; intros e H R; cbn [put_fields].
  - exists e. split; [reflexivity|]. cbn. now rewrite app_nil_r.
  - apply Forall_cons_iff in H as [[Tv Nv] H]. cbn [snd] in *.
    cbn [map concat] in R. unfold mtext at 1 in R. cbn [fst snd] in R. rewrite !zlen_app in R.
    set (rest := concat (map (fun t => t ++ [44]) (map mtext t))) in *. pose proof (zlen_nonneg rest).
    change (zlen [34]) with 1 in R. change (zlen [34; 58]) with 2 in R. change (zlen [44]) with 1 in R.
    destruct (put_value_ok (EncodeKey e k) v Tv Nv) as (e1 & E1 & C1 & B1).
    { intros Hr. specialize (R ltac:(now left)).
      unfold EncodeKey, eapp. cbn [ebuf ecap]. rewrite !zlen_app.
      change (zlen [34]) with 1. change (zlen [34; 58]) with 2. lia. }
    rewrite E1. cbn [bind].
    assert (B2 : ebuf e1 = ebuf e ++ [34] ++ k ++ [34; 58] ++ vtext v ++ [44]).
    { rewrite B1. unfold EncodeKey, eapp. cbn [ebuf]. now rewrite <- !app_assoc. }
    assert (C2 : ecap e <= ecap e1).
    { etransitivity; [|exact C1]. unfold EncodeKey, eapp. cbn [ecap ebuf]. lia. }
    destruct (IH e1 H) as (e' & E' & B').
    { intros Hx. specialize (R ltac:(now right)). fold rest. rewrite B2, !zlen_app.
      change (zlen [34]) with 1. change (zlen [34; 58]) with 2. change (zlen [44]) with 1. lia. }
    exists e'. split; [exact E'|]. rewrite B', B2. cbn [map concat]. fold rest. unfold mtext. cbn [fst snd].
    now rewrite <- !app_assoc.
Qed.

Lemma put_object_ok cap fs :
  Forall (fun f => in_type (snd f) /\ nonempty (snd f)) fs ->
  (Exists (fun f => needs_room (snd f)) fs -> zlen (obj_text fs) <= cap) ->
  exists c, put_object cap fs = Ok (Enc (obj_text fs) c).
Proof.
  intros H R. unfold put_object.
  destruct fs as [|f fs].
  - cbn [put_fields bind]. unfold RemoveTrailingComma, EncodeByte, eapp. cbn. eexists. reflexivity.
  - set (l := f :: fs) in *. assert (Hl : map mtext l <> []) by discriminate.
    pose proof (sep_snoc _ Hl) as P.
    destruct (put_fields_ok l (EncodeByte (Enc [] cap) 123) H) as (e1 & E1 & B1).
    { intros Hx. specialize (R Hx). unfold obj_text, body_text in R. rewrite !zlen_app in R.
      change (zlen [123]) with 1 in R. change (zlen [125]) with 1 in R.
      rewrite P, zlen_app. unfold EncodeByte, eapp. cbn [ebuf ecap app]. change (zlen [123]) with 1.
      change (zlen [44]) with 1. lia. }
    rewrite E1. cbn [bind]. destruct e1 as [b1 c1]. cbn [ebuf] in B1. rewrite P in B1.
    replace b1 with (([123] ++ comma_sep (map mtext l)) ++ [44])
      by (rewrite B1; unfold EncodeByte, eapp; cbn [ebuf app]; reflexivity).
    rewrite remove_comma. cbn [bind]. unfold EncodeByte, eapp. cbn [ebuf ecap].
    eexists. unfold obj_text, body_text. rewrite <- !app_assoc. reflexivity.
Qed.

(** * Reading *)
Lemma quote_free s : unquoted s <-> Forall (fun c => c <> 34) s.
Proof.
  unfold unquoted. rewrite Forall_forall. split; [intros H x K E; subst; auto|intros H K; exact (H _ K eq_refl)].
Qed.
Lemma reads_width w : reads (parser_of w) (max_of w).
Proof. destruct reads_all as (A & B & C & D). destruct w; assumption. Qed.

Lemma b64_into_ok l n : wf_bytes l -> length l = n -> forall a, length a = n ->
  b64_into a (b64_encode std_char l) = Ok (Some l).
Proof.
  intros W Hl a Ha. unfold b64_into. rewrite b64_round_trip by (auto using std_alphabet).
  replace (zlen l <=? zlen a) with true by (unfold zlen; lia).
  rewrite overwrite_fits by lia. cbn [firstn app]. rewrite skipn_all2 by lia. now rewrite app_nil_r.
Qed.

Lemma offset_app a r t l : Offset (Dec (a ++ r) t l) (zlen a) = Ok (Dec r t l).
Proof.
  unfold Offset. cbn [dbuf dtok dlast]. pose proof (zlen_nonneg a). pose proof (zlen_nonneg r).
  rewrite slice_from_ok by (rewrite zlen_app; lia). cbn [bind]. unfold zlen. rewrite Nat2Z.id.
  rewrite skipn_app, skipn_all, Nat.sub_diag. reflexivity.
Qed.
Lemma slice_to_app (a r : bytes) : slice_to (a ++ r) (zlen a) = Ok a.
Proof.
  pose proof (zlen_nonneg a). pose proof (zlen_nonneg r).
  rewrite slice_to_ok by (rewrite zlen_app; lia). unfold zlen. rewrite Nat2Z.id.
  now rewrite firstn_app, firstn_all, Nat.sub_diag, app_nil_r.
Qed.

(** [n]byte as numbers. *)
Lemma array_loop_ok l : Forall (fun n => 0 <= n <= 2 ^ 8 - 1) l -> l <> [] ->
  forall todo done w r t last, length todo = length l -> Forall (fun c => ~ is_digit c) w ->
  array_loop (Dec (w ++ commas l ++ 93 :: r) t last) todo done = (None, done ++ l, Dec (93 :: r) 93 []).
Proof.
  destruct reads_all as (R & _).
  induction l as [|n l IH]; intros Hl Hne todo done w r t last Ht Hw; [congruence|].
  apply Forall_cons_iff in Hl as [Hn Hl]. destruct todo as [|x todo]; [discriminate|]. cbn [array_loop].
  destruct l as [|m l'].
  - destruct todo; [|discriminate]. cbn [commas].
    rewrite (decode_uint _ _ w n 93 r t last R Hn) by (unfold terminator; auto).
    rewrite find_end_again by reflexivity. reflexivity.
  - replace (w ++ commas (n :: m :: l') ++ 93 :: r) with (w ++ FormatUint10 n ++ 44 :: (commas (m :: l') ++ 93 :: r))
      by (cbn [commas]; now rewrite <- app_assoc).
    rewrite (decode_uint _ _ w n 44 _ t last R Hn) by (unfold terminator; auto).
    rewrite find_end_again by reflexivity.
    change (44 :: commas (m :: l') ++ 93 :: r) with ([44] ++ commas (m :: l') ++ 93 :: r).
    rewrite IH; auto; try discriminate.
    + now rewrite <- app_assoc.
    + constructor; [unfold is_digit; lia|constructor].
Qed.

Lemma check_null_stop p b : Forall (fun c => c <> 110 /\ c <> 34 /\ c <> 44) p ->
  check_null (p ++ 44 :: b) false = Ok false /\ check_null p false = Ok false.
Proof.
  induction 1 as [|c t (H1 & H2 & H3) Ht [IH1 IH2]]; cbn [app check_null]; [split; reflexivity|].
  replace (c =? 110) with false by lia. replace (c =? 34) with false by lia.
  replace (c =? 44) with false by lia. split; assumption.
Qed.
Lemma digits_clean n : 0 <= n -> Forall (fun c => c <> 110 /\ c <> 34 /\ c <> 44) (FormatUint10 n).
Proof.
  intros H. destruct (format_spec n H) as (Hd & _). eapply Forall_impl; [|exact Hd].
  intros c. unfold is_digit. cbn. lia.
Qed.
Lemma check_null_array l k r : Forall (fun n => 0 <= n) l -> l <> [] -> k = 44 \/ (k = 125 /\ r = []) ->
  check_null ([91] ++ commas l ++ [93] ++ k :: r) false = Ok false.
Proof.
  intros Hl Hne Hk. destruct l as [|n [|m l]]; [congruence| |].
  - apply Forall_cons_iff in Hl as [Hn _]. cbn [commas].
    assert (C : Forall (fun c => c <> 110 /\ c <> 34 /\ c <> 44) ([91] ++ FormatUint10 n ++ [93])).
    { apply Forall_app. split; [constructor; [lia|constructor]|].
      apply Forall_app. split; [now apply digits_clean|constructor; [lia|constructor]]. }
    destruct Hk as [-> | [-> ->]].
    + pose proof (proj1 (check_null_stop _ r C)) as E. now rewrite <- !app_assoc in E.
    + replace ([91] ++ FormatUint10 n ++ [93] ++ [125]) with (([91] ++ FormatUint10 n ++ [93]) ++ [125])
        by now rewrite <- !app_assoc.
      apply (check_null_stop _ []). apply Forall_app. split; [exact C|constructor; [lia|constructor]].
  - apply Forall_cons_iff in Hl as [Hn _].
    assert (C : Forall (fun c => c <> 110 /\ c <> 34 /\ c <> 44) ([91] ++ FormatUint10 n)).
    { apply Forall_app. split; [constructor; [lia|constructor]|now apply digits_clean]. }
    pose proof (proj1 (check_null_stop _ (commas (m :: l) ++ [93] ++ k :: r) C)) as E.
    replace ([91] ++ commas (n :: m :: l) ++ [93] ++ k :: r) with
      (([91] ++ FormatUint10 n) ++ 44 :: commas (m :: l) ++ [93] ++ k :: r); [exact E|].
    cbn [commas]. rewrite <- !app_assoc. reflexivity.
Qed.

(** [][32]byte. *)
Definition id_text (l : bytes) : bytes := [34] ++ b64_encode std_char l ++ [34].
Lemma loop_32_ok ls : Forall (fun l => wf_bytes l /\ zlen l = 32) ls -> ls <> [] ->
  forall fuel w r t last a acc, length a = 32%nat -> t <> 93 -> Forall (fun c => c <> 34) w ->
  (length ls < fuel)%nat ->
  exists last', loop_32 fuel (Dec (w ++ comma_sep (map id_text ls) ++ 93 :: r) t last) a acc =
    Some (Ok (None, acc ++ ls, Dec (93 :: r) 0 last')).
Proof.
  intros H. induction H as [|l ls [W L] Hls IH]; intros Hne fuel w r t last a acc Ha Ht Hw Hf; [congruence|].
  destruct fuel as [|f]; [cbn in Hf; lia|].
  set (tail := match map id_text ls with [] => [] | _ => [44] ++ comma_sep (map id_text ls) end ++ 93 :: r).
  replace (w ++ comma_sep (map id_text (l :: ls)) ++ 93 :: r) with (w ++ 34 :: (b64_encode std_char l ++ 34 :: tail)).
  2:{ subst tail. cbn [map]. rewrite sep_cons. unfold id_text at 3. cbn [app]. rewrite <- !app_assoc. reflexivity. }
  cbn [loop_32]. unfold CheckToken. cbn [dtok].
  replace (t =? 93) with false by lia.
  unfold TrimToStringStart. cbn [dbuf dtok dlast]. rewrite cut_byte_app by assumption. cbn [dbuf dtok dlast].
  replace 43 with (zlen (b64_encode std_char l)) by now apply b64_len43.
  rewrite slice_to_app. rewrite (b64_into_ok l 32) by (auto; unfold zlen in L; lia). rewrite offset_app.
  destruct ls as [|l2 ls].
  - change (34 :: tail) with ([34] ++ 93 :: r). rewrite (find_end [34] 93 r t last) by (repeat constructor).
    destruct f as [|f]; [cbn in Hf; lia|]. cbn [loop_32]. unfold CheckToken. cbn [dtok dbuf dlast].
    eexists. reflexivity.
  - change (34 :: tail) with ([34] ++ 44 :: (comma_sep (map id_text (l2 :: ls)) ++ 93 :: r)).
    rewrite (find_end [34] 44 _ t last) by (repeat constructor).
    change (44 :: comma_sep (map id_text (l2 :: ls)) ++ 93 :: r) with ([44] ++ comma_sep (map id_text (l2 :: ls)) ++ 93 :: r).
    destruct (IH ltac:(discriminate) f [44] r 44 [34] l (acc ++ [l])) as (x & E); try lia.
    { unfold zlen in L. lia. }
    { repeat constructor; lia. }
    { cbn [length] in *. lia. }
    exists x. rewrite E. now rewrite <- app_assoc.
Qed.

Lemma commas_length l : (length l <= S (length (commas l)))%nat.
Proof.
  induction l as [|n t IH]; [cbn; lia|]. destruct t as [|m t]; [cbn; lia|].
  change (commas (n :: m :: t)) with (FormatUint10 n ++ 44 :: commas (m :: t)).
  rewrite app_length. cbn [length] in *. lia.
Qed.
Lemma sep_length (ts : list bytes) : (length ts <= S (length (comma_sep ts)))%nat.
Proof.
  induction ts as [|n t IH]; [cbn; lia|]. destruct t as [|m t]; [cbn; lia|].
  change (comma_sep (n :: m :: t)) with (n ++ 44 :: comma_sep (m :: t)).
  rewrite app_length. cbn [length] in *. lia.
Qed.

Lemma get_value_ok v k r tok last : in_type v -> nonempty v -> val_unquoted v ->
  k = 44 \/ (k = 125 /\ r = []) ->
  match v with JI i => 0 <= i | JN _ _ | J32 _ => tok <> 93 | _ => True end ->
  exists p tok' last', get_value (Dec (vtext v ++ k :: r) tok last) (kind_of v) = Some (v, Dec (p ++ r) tok' last') /\
    Forall (fun c => c <> 34) p /\
    match v with JB _ | JS _ => tok' = tok | JA _ => tok' = 93 | _ => tok' <> 93 end.
Proof.
  intros T N Q Hk C.
  assert (Tk : terminator k) by (unfold terminator; lia).
  assert (K93 : k <> 93) by lia.
  destruct v as [w n|i|b|s|w l|l|l|l|ls]; cbn [in_type nonempty val_unquoted vtext kind_of] in *; unfold get_value; cbn zeta.
  - exists [k], k, (FormatUint10 n).
    change (FormatUint10 n ++ k :: r) with ([] ++ FormatUint10 n ++ k :: r).
    rewrite (decode_uint (parser_of w) (max_of w) [] n k r tok last (reads_width w) T Tk) by constructor.
    split; [reflexivity|]. split; [repeat constructor; lia|exact K93].
  - exists [k], k, (FormatUint10 (Z.abs i)). rewrite decode_int by assumption.
    replace (i =? - 2 ^ 63) with false by lia. rewrite Z.abs_eq by lia.
    split; [reflexivity|]. split; [repeat constructor; lia|exact K93].
  - exists [], tok, last. split; [|split; [constructor|reflexivity]].
    destruct b.
    + pose proof (offset_app [116; 114; 117; 101; k] r tok last) as E. change (zlen [116; 114; 117; 101; k]) with 5 in E.
      cbn [app] in E. unfold DecodeBool, TrimSpaces. cbn -[Offset]. rewrite E. reflexivity.
    + pose proof (offset_app [102; 97; 108; 115; 101; k] r tok last) as E. change (zlen [102; 97; 108; 115; 101; k]) with 6 in E.
      cbn [app] in E. unfold DecodeBool, TrimSpaces. cbn -[Offset]. rewrite E. reflexivity.
  - exists [k], tok, last. apply quote_free in Q.
    replace (([34] ++ s ++ [34]) ++ k :: r) with ([] ++ 34 :: s ++ 34 :: k :: r) by (cbn [app]; now rewrite <- app_assoc).
    rewrite decode_string_gen by (auto; constructor).
    split; [reflexivity|]. split; [repeat constructor; lia|reflexivity].
  - exists [93; k], 0, []. rewrite <- commas_sep.
    replace (([91] ++ commas l ++ [93]) ++ k :: r) with ([91] ++ commas l ++ 93 :: k :: r)
      by (now rewrite <- !app_assoc).
    unfold DecodeSliceAsNumber.
    rewrite (slice_loop_ok (parser_of w) (max_of w) l (reads_width w) T).
    + split; [reflexivity|]. split; [repeat constructor; lia|lia].
    + destruct l; [contradiction|discriminate].
    + exact C.
    + repeat constructor; unfold is_digit; lia.
    + cbn [dbuf]. rewrite !app_length. pose proof (commas_length l). cbn [length]. lia.
  - exists [93; k], 93, []. rewrite <- commas_sep. rewrite <- !app_assoc.
    assert (Hl : l <> []) by (destruct l; [contradiction|discriminate]).
    assert (T' : Forall (fun n => 0 <= n <= 2 ^ 8 - 1) l).
    { eapply Forall_impl; [|exact T]. intros c. unfold is_byte. cbn. lia. }
    unfold DecodeByteArrayAsNumber, CheckNullValue. cbn [dbuf].
    rewrite check_null_array; [| |exact Hl|exact Hk].
    2:{ eapply Forall_impl; [|exact T']. cbn. lia. }
    cbn [bind]. change ([93] ++ k :: r) with (93 :: k :: r).
    rewrite (array_loop_ok l T' Hl); [| |repeat constructor; unfold is_digit; lia].
    2:{ now rewrite repeat_length. }
    split; [reflexivity|]. split; [repeat constructor; lia|reflexivity].
  - exists [k], k, (b64_encode std_char l ++ [34]). rewrite <- !app_assoc.
    change ([34] ++ k :: r) with ([34] ++ k :: r). rewrite decode_b64 by assumption.
    split; [reflexivity|]. split; [repeat constructor; lia|exact K93].
  - exists [k], k, (b64_encode std_char l ++ [34]). rewrite <- !app_assoc. destruct (b64_json l T) as [B _].
    assert (B1 : Forall (fun c => c <> 34) (b64_encode std_char l)) by (eapply Forall_impl; [|exact B]; cbn; tauto).
    unfold DecodeByteArrayAsBase64, CheckNullValue, TrimToStringStart. cbn [dbuf dtok dlast].
    change ([34] ++ b64_encode std_char l ++ [34] ++ k :: r) with ([] ++ 34 :: b64_encode std_char l ++ 34 :: k :: r).
    rewrite check_null_quote by constructor. cbn [bind]. rewrite cut_byte_app by constructor. cbn [dbuf dtok dlast].
    rewrite cut_byte_app by assumption. rewrite (b64_into_ok l (length l)) by (auto; apply repeat_length).
    cbn [bind got].
    replace (b64_encode std_char l ++ 34 :: k :: r) with ((b64_encode std_char l ++ [34]) ++ k :: r) by now rewrite <- app_assoc.
    rewrite find_end; [| |now apply term_is_end].
    2:{ apply Forall_app. split; [eapply Forall_impl; [|exact B]; cbn; tauto|repeat constructor]. }
    split; [reflexivity|]. split; [repeat constructor; lia|exact K93].
  - assert (Hls : ls <> []) by (destruct ls; [contradiction|discriminate]).
    fold id_text. change (map (fun l : list Z => [34] ++ b64_encode std_char l ++ [34]) ls) with (map id_text ls).
    unfold Decode32ByteArraySliceAsBase64. cbn [dbuf dtok dlast].
    replace (([91] ++ comma_sep (map id_text ls) ++ [93]) ++ k :: r) with ([] ++ 91 :: (comma_sep (map id_text ls) ++ 93 :: k :: r))
      by (cbn [app]; now rewrite <- !app_assoc).
    rewrite cut_byte_app by constructor.
    destruct (loop_32_ok ls T Hls (S (S (length ([] ++ 91 :: (comma_sep (map id_text ls) ++ 93 :: k :: r))))) [] (k :: r) tok last (repeat 0 32) [])
      as (x & E); [apply repeat_length|exact C|constructor| |].
    { cbn [app length]. rewrite app_length. pose proof (sep_length (map id_text ls)). rewrite map_length in *. lia. }
    cbn [app] in E |- *. rewrite E. exists [93; k], 0, x.
    split; [reflexivity|]. split; [repeat constructor; lia|lia].
Qed.

Lemma body_cons k v t : body_text ((k, v) :: t) =
  [34] ++ k ++ [34; 58] ++ vtext v ++ match t with [] => [125] | _ => 44 :: body_text t end.
Proof.
  unfold body_text. cbn [map]. rewrite sep_cons. unfold mtext at 1. cbn [fst snd].
  destruct t as [|f t]; cbn [map]; rewrite <- ?app_assoc; [reflexivity|].
  cbn [app]. rewrite <- ?app_assoc. reflexivity.
Qed.

Lemma get_fields_ok fs : forall p tok last,
  Forall (fun f => unquoted (fst f) /\ in_type (snd f) /\ nonempty (snd f) /\ val_unquoted (snd f)) fs ->
  plain_readable (tok =? 93) (map snd fs) -> Forall (fun c => c <> 34) p ->
  get_fields (Dec (p ++ body_text fs) tok last) (map (fun f => kind_of (snd f)) fs) = Some fs.
Proof.
  induction fs as [|[k v] t IH]; intros p tok last H P Hp; [reflexivity|].
  apply Forall_cons_iff in H as [(Qk & Tv & Nv & Qv) H]. cbn [fst snd] in *.
  cbn [map get_fields]. rewrite body_cons. apply quote_free in Qk. rewrite decode_key by assumption. cbn [fst snd].
  set (k' := match t with [] => 125 | _ => 44 end).
  set (r' := match t with [] => [] | _ => body_text t end).
  replace (match t with [] => [125] | _ => 44 :: body_text t end) with (k' :: r') by (subst k' r'; now destruct t).
  destruct (get_value_ok v k' r' tok last Tv Nv Qv) as (q & tok' & last' & E & Hq & Ht).
  { subst k' r'. destruct t; auto. }
  { destruct v; cbn [map snd plain_readable] in P; try exact I; try tauto; destruct P; lia. }
  rewrite E.
  assert (P' : plain_readable (tok' =? 93) (map snd t)).
  { destruct v; cbn [map snd plain_readable] in P;
      try (replace (tok' =? 93) with false by lia; tauto); subst tok'; exact P. }
  destruct t as [|f t]; [reflexivity|].
  change r' with (body_text (f :: t)). rewrite (IH q tok' last' H P' Hq). reflexivity.
Qed.

(** * Reading with the minified decoder *)
Lemma offset_at a r t l n : n = zlen a -> Offset (Dec (a ++ r) t l) n = Ok (Dec r t l).
Proof. intros ->. apply offset_app. Qed.

Lemma mdecode_key c key r t l : Forall (fun c => c <> 34) key ->
  MDecodeKey (Dec (c :: [34] ++ key ++ [34; 58] ++ r) t l) = Ok (key, Dec r t l).
Proof.
  intros H. unfold MDecodeKey.
  change (c :: [34] ++ key ++ [34; 58] ++ r) with ([c; 34] ++ (key ++ [34; 58] ++ r)).
  rewrite offset_at by reflexivity. cbn [bind dbuf]. change ([34; 58] ++ r) with (34 :: 58 :: r).
  rewrite cut_byte_app by assumption.
  replace (key ++ 34 :: 58 :: r) with ((key ++ [34; 58]) ++ r) by (now rewrite <- app_assoc).
  rewrite offset_at by (rewrite zlen_app; reflexivity). reflexivity.
Qed.

Lemma marray_loop_ok l : Forall (fun n => 0 <= n <= 2 ^ 8 - 1) l -> l <> [] ->
  forall todo done c r t last, length todo = length l ->
  exists last', marray_loop (Dec (c :: commas l ++ 93 :: r) t last) todo done = Ok (None, done ++ l, Dec r 93 last').
Proof.
  destruct reads_all as (R & _).
  induction l as [|n l IH]; intros Hl Hne todo done c r t last Ht; [congruence|].
  apply Forall_cons_iff in Hl as [Hn Hl]. destruct todo as [|x todo]; [discriminate|]. cbn [marray_loop].
  rewrite offset_cons. cbn [bind].
  destruct l as [|m l'].
  - destruct todo; [|discriminate]. cbn [commas].
    rewrite (mdecode_uint _ _ n 93 r t last R Hn) by (unfold terminator; auto).
    cbn [marray_loop dbuf]. rewrite offset_cons. eexists. reflexivity.
  - replace (commas (n :: m :: l') ++ 93 :: r) with (FormatUint10 n ++ 44 :: (commas (m :: l') ++ 93 :: r))
      by (cbn [commas]; now rewrite <- app_assoc).
    rewrite (mdecode_uint _ _ n 44 _ t last R Hn) by (unfold terminator; auto).
    destruct (IH Hl ltac:(discriminate) todo (done ++ [n]) 44 r 44 (FormatUint10 n)) as (y & E); [now injection Ht|].
    exists y. rewrite E. now rewrite <- app_assoc.
Qed.

Lemma mget_value_ok v k r tok last : in_type v -> nonempty v -> val_unquoted v ->
  k = 44 \/ (k = 125 /\ r = []) ->
  match v with JN _ _ => tok <> 93 | J32 _ => False | _ => True end ->
  exists tok' last', mget_value (Dec (vtext v ++ k :: r) tok last) (kind_of v) =
      Some (v, Dec (match v with JB _ => r | _ => k :: r end) tok' last') /\
    match v with JU _ _ | JI _ | JN _ _ => tok' <> 93 | JA _ => tok' = 93 | _ => tok' = tok end.
Proof.
  intros T N Q Hk C.
  assert (Tk : terminator k) by (unfold terminator; lia).
  assert (K93 : k <> 93) by lia.
  destruct v as [w n|i|b|s|w l|l|l|l|ls]; cbn [in_type nonempty val_unquoted vtext kind_of] in *; unfold mget_value; cbn zeta.
  - exists k, (FormatUint10 n).
    rewrite (mdecode_uint (parser_of w) (max_of w) n k r tok last (reads_width w) T Tk).
    split; [reflexivity|exact K93].
  - exists k, (FormatInt10 i). rewrite mdecode_int by assumption. split; [reflexivity|exact K93].
  - exists tok, last. split; [|reflexivity].
    destruct b.
    + change (str "true" ++ k :: r) with ([116; 114; 117; 101; k] ++ r). unfold MDecodeBool.
      cbn [dbuf]. erewrite (idx_ok _ 0 116) by (try reflexivity; cbn; lia). cbn [bind]. change (116 =? 116) with true.
      cbv iota. rewrite offset_at by reflexivity. reflexivity.
    + change (str "false" ++ k :: r) with ([102; 97; 108; 115; 101; k] ++ r). unfold MDecodeBool.
      cbn [dbuf]. erewrite (idx_ok _ 0 102) by (try reflexivity; cbn; lia). cbn [bind]. change (102 =? 116) with false.
      cbv iota. rewrite offset_at by reflexivity. reflexivity.
  - exists tok, last. apply quote_free in Q. split; [|reflexivity].
    replace (([34] ++ s ++ [34]) ++ k :: r) with (34 :: (s ++ 34 :: k :: r)) by (cbn [app]; now rewrite <- app_assoc).
    unfold UMDecodeString. rewrite offset_cons. cbn [bind dbuf]. rewrite cut_byte_app by assumption.
    replace (s ++ 34 :: k :: r) with ((s ++ [34]) ++ k :: r) by (now rewrite <- app_assoc).
    rewrite offset_at by (rewrite zlen_app; reflexivity). reflexivity.
  - rewrite <- commas_sep.
    replace (([91] ++ commas l ++ [93]) ++ k :: r) with (91 :: (commas l ++ 93 :: k :: r))
      by (cbn [app]; now rewrite <- !app_assoc).
    unfold MDecodeSliceAsNumber. rewrite offset_cons.
    destruct (mslice_loop_ok (parser_of w) (max_of w) l (reads_width w) T) with (r := k :: r) (t := tok) (last := last) (acc := @nil Z)
      (fuel := S (S (length (91 :: (commas l ++ 93 :: k :: r))))) as (x & E).
    + destruct l; [contradiction|discriminate].
    + exact C.
    + cbn [length]. rewrite app_length. pose proof (commas_length l). lia.
    + cbn [dbuf]. rewrite E. exists 0, x. split; [reflexivity|lia].
  - rewrite <- commas_sep.
    replace (([91] ++ commas l ++ [93]) ++ k :: r) with (91 :: (commas l ++ 93 :: k :: r))
      by (cbn [app]; now rewrite <- !app_assoc).
    assert (T' : Forall (fun n => 0 <= n <= 2 ^ 8 - 1) l).
    { eapply Forall_impl; [|exact T]. intros c. unfold is_byte. cbn. lia. }
    destruct (marray_loop_ok l T') with (todo := repeat 0 (length l)) (done := @nil Z) (c := 91) (r := k :: r) (t := tok) (last := last) as (x & E).
    + destruct l; [contradiction|discriminate].
    + apply repeat_length.
    + unfold MDecodeByteArrayAsNumber. rewrite E. exists 93, x. split; reflexivity.
  - exists tok, last. destruct (b64_json l T) as [B _].
    assert (B1 : Forall (fun c => c <> 34) (b64_encode std_char l)) by (eapply Forall_impl; [|exact B]; cbn; tauto).
    replace (([34] ++ b64_encode std_char l ++ [34]) ++ k :: r) with (34 :: (b64_encode std_char l ++ 34 :: k :: r))
      by (cbn [app]; now rewrite <- app_assoc).
    unfold MDecodeByteSliceAsBase64. rewrite offset_cons. cbn [bind dbuf]. rewrite cut_byte_app by assumption.
    rewrite b64_round_trip by (auto using std_alphabet).
    replace (b64_encode std_char l ++ 34 :: k :: r) with ((b64_encode std_char l ++ [34]) ++ k :: r) by (now rewrite <- app_assoc).
    rewrite offset_at by (rewrite zlen_app; reflexivity). split; reflexivity.
  - exists tok, last. destruct (b64_json l T) as [B _].
    assert (B1 : Forall (fun c => c <> 34) (b64_encode std_char l)) by (eapply Forall_impl; [|exact B]; cbn; tauto).
    replace (([34] ++ b64_encode std_char l ++ [34]) ++ k :: r) with (34 :: (b64_encode std_char l ++ 34 :: k :: r))
      by (cbn [app]; now rewrite <- app_assoc).
    unfold MDecodeByteArrayAsBase64. rewrite offset_cons. cbn [bind dbuf]. rewrite cut_byte_app by assumption.
    rewrite (b64_into_ok l (length l)) by (auto; apply repeat_length). cbn [bind].
    replace (b64_encode std_char l ++ 34 :: k :: r) with ((b64_encode std_char l ++ [34]) ++ k :: r) by (now rewrite <- app_assoc).
    rewrite offset_at by (rewrite zlen_app; reflexivity). split; reflexivity.
  - contradiction.
Qed.

Lemma mget_fields_ok fs : forall c tok last,
  Forall (fun f => unquoted (fst f) /\ in_type (snd f) /\ nonempty (snd f) /\ val_unquoted (snd f)) fs ->
  mini_readable (tok =? 93) (map snd fs) ->
  mget_fields (Dec (c :: body_text fs) tok last) (map (fun f => kind_of (snd f)) fs) = Some fs.
Proof.
  induction fs as [|[k v] t IH]; intros c tok last H P; [reflexivity|].
  apply Forall_cons_iff in H as [(Qk & Tv & Nv & Qv) H]. cbn [fst snd] in *.
  cbn [map mget_fields]. rewrite body_cons. apply quote_free in Qk. rewrite mdecode_key by assumption. cbn [fst snd].
  set (k' := match t with [] => 125 | _ => 44 end).
  set (r' := match t with [] => [] | _ => body_text t end).
  replace (match t with [] => [125] | _ => 44 :: body_text t end) with (k' :: r') by (subst k' r'; now destruct t).
  destruct (mget_value_ok v k' r' tok last Tv Nv Qv) as (tok' & last' & E & Ht).
  { subst k' r'. destruct t; auto. }
  { destruct v; cbn [map snd mini_readable] in P; try exact I; try tauto; destruct P; lia. }
  rewrite E.
  destruct t as [|f t]; [reflexivity|].
  assert (P' : mini_readable (tok' =? 93) (map snd (f :: t))).
  { change (map snd ((k, v) :: f :: t)) with (v :: map snd (f :: t)) in P.
    assert (Hvs : map snd (f :: t) <> []) by discriminate.
    revert P Hvs. generalize (map snd (f :: t)). intros vs P Hvs.
    destruct v; cbn [mini_readable] in P; try contradiction;
      try (replace (tok' =? 93) with false by lia; tauto); subst tok'; exact P. }
  assert (B : match v with JB _ => r' | _ => k' :: r' end = 44 :: body_text (f :: t)).
  { destruct v; try reflexivity. discriminate P. }
  rewrite B. rewrite (IH 44 tok' last' H P'). reflexivity.
Qed.
