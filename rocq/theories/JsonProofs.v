From Coq Require Import ZifyBool ZifyNat.
From Verif Require Import Go GoFacts IntSpec IntModel IntProofs StrconvModel Base64Model Base64Proofs JsonModel JsonSpec.
Ltac Zify.zify_post_hook ::= Z.div_mod_to_equations.

(** * Scanners *)
Lemma cut_end_app p k r : Forall (fun c => is_end c = false) p -> is_end k = true ->
  cut_end (p ++ k :: r) = Some (p, k, k :: r).
Proof.
  intros Hp Hk. induction Hp as [|c t Hc Ht IH]; cbn [app cut_end]; [now rewrite Hk|].
  now rewrite Hc, IH.
Qed.

Lemma find_end p k r t l : Forall (fun c => is_end c = false) p -> is_end k = true ->
  FindEndToken (Dec (p ++ k :: r) t l) = Dec (k :: r) k p.
Proof. intros. unfold FindEndToken. cbn [dbuf]. now rewrite cut_end_app. Qed.

Lemma cut_byte_app q p r : Forall (fun c => c <> q) p -> cut_byte q (p ++ q :: r) = Some (p, r).
Proof.
  induction 1 as [|c t Hc Ht IH]; cbn [app cut_byte]; [now rewrite Z.eqb_refl|].
  replace (c =? q) with false by lia. now rewrite IH.
Qed.

Lemma cut_byte_none q p : Forall (fun c => c <> q) p -> cut_byte q p = None.
Proof.
  induction 1 as [|c t Hc Ht IH]; cbn [cut_byte]; [reflexivity|].
  replace (c =? q) with false by lia. now rewrite IH.
Qed.

Lemma cut_byte_some q b p r : cut_byte q b = Some (p, r) -> b = p ++ q :: r /\ Forall (fun c => c <> q) p.
Proof.
  revert p r. induction b as [|c t IH]; intros p r; cbn [cut_byte]; [discriminate|].
  destruct (Z.eqb_spec c q) as [->|N].
  - intros E. inversion E; subst. split; [reflexivity|constructor].
  - destruct (cut_byte q t) as [[p' r']|]; [|discriminate]. intros E. inversion E; subst.
    destruct (IH p' r eq_refl) as [-> F]. split; [reflexivity|now constructor].
Qed.

Lemma digits_not_end p : Forall is_digit p -> Forall (fun c => is_end c = false) p.
Proof. apply Forall_impl. intros c. unfold is_digit, is_end. lia. Qed.

Lemma term_is_end k : terminator k -> is_end k = true.
Proof. unfold terminator, is_end. lia. Qed.

Lemma drop_digit_at p r : Forall is_digit p -> p <> [] -> drop_to_digit (p ++ r) = Some (p ++ r).
Proof.
  intros H N. destruct p as [|c t]; [congruence|]. inversion H; subst. cbn [app drop_to_digit].
  unfold is_digit in *. replace ((48 <=? c) && (c <=? 57)) with true by lia. reflexivity.
Qed.

Lemma drop_digit_skip w b : Forall (fun c => ~ is_digit c) w -> drop_to_digit (w ++ b) = drop_to_digit b.
Proof.
  induction 1 as [|c t Hc Ht IH]; cbn [app drop_to_digit]; [reflexivity|].
  unfold is_digit in *. replace ((48 <=? c) && (c <=? 57)) with false by lia. exact IH.
Qed.

(** * Unsigned integers *)
Definition reads (parse : parser) (max : Z) := forall n old, 0 <= n <= max -> parse (FormatUint10 n) old = (None, n).

Lemma reads_all : reads U8_FromString_Base10 (2 ^ 8 - 1) /\ reads U16_FromString_Base10 (2 ^ 16 - 1) /\
  reads U32_FromString_Base10 (2 ^ 32 - 1) /\ reads U64_FromString_Base10 (2 ^ 64 - 1).
Proof.
  destruct roundtrip_all as (A & B & C & D).
  split; [|split; [|split]]; intros n old Hn.
  - apply A. lia. 
  - apply B. lia.
  - apply C. lia.
  - apply D. lia.
Qed.

Lemma decode_uint parse max w n k r t l : reads parse max -> 0 <= n <= max -> terminator k ->
  Forall (fun c => ~ is_digit c) w ->
  DecodeUInt parse (Dec (w ++ FormatUint10 n ++ k :: r) t l) = (None, n, Dec (k :: r) k (FormatUint10 n)).
Proof.
  intros R Hn Hk Hw. destruct (format_spec n) as (Hd & Hne & Hv & Hl); [lia|].
  unfold DecodeUInt, TrimToDigit. cbn [dbuf dtok dlast]. rewrite drop_digit_skip by assumption.
  rewrite drop_digit_at by assumption. rewrite find_end by auto using digits_not_end, term_is_end.
  cbn [dlast]. now rewrite R.
Qed.

Lemma mdecode_uint parse max n k r t l : reads parse max -> 0 <= n <= max -> terminator k ->
  MDecodeUInt parse (Dec (FormatUint10 n ++ k :: r) t l) = (None, n, Dec (k :: r) k (FormatUint10 n)).
Proof.
  intros R Hn Hk. destruct (format_spec n) as (Hd & Hne & Hv & Hl); [lia|].
  unfold MDecodeUInt. rewrite find_end by auto using digits_not_end, term_is_end.
  cbn [dlast]. now rewrite R.
Qed.

(** * The text is a JSON integer *)
Lemma fold_shift (l : list Z) a b :
  fold_left (fun x c => 10 * x + (c - 48)) l a - fold_left (fun x c => 10 * x + (c - 48)) l b
  = (a - b) * 10 ^ zlen l.
Proof.
  revert a b. induction l as [|c t IH]; intros a b; cbn [fold_left].
  - change (zlen []) with 0. lia.
  - rewrite IH, zlen_cons. pose proof (zlen_nonneg t). rewrite Z.pow_add_r by lia. change (10 ^ 1) with 10. ring.
Qed.

Lemma dec_bound (l : list Z) : Forall is_digit l -> 0 <= dec_value l < 10 ^ zlen l.
Proof.
  induction l as [|c t IH] using rev_ind; intros H; [cbn; lia|].
  apply Forall_app in H as [Ht Hc]. inversion Hc; subst. specialize (IH Ht).
  unfold dec_value in *. rewrite fold_left_app. cbn [fold_left]. rewrite zlen_app.
  change (zlen [c]) with 1. pose proof (zlen_nonneg t). rewrite Z.pow_add_r by lia.
  change (10 ^ 1) with 10. unfold is_digit in *. lia.
Qed.

Lemma dec_cons c t : dec_value (c :: t) = (c - 48) * 10 ^ zlen t + dec_value t.
Proof.
  unfold dec_value. cbn [fold_left]. pose proof (fold_shift t (10 * 0 + (c - 48)) 0). lia.
Qed.

Lemma no_leading_zero n : 0 <= n -> FormatUint10 n = [48] \/ hd 0 (FormatUint10 n) <> 48.
Proof.
  intros Hn. destruct (format_spec n) as (Hd & Hne & Hv & Hl); [lia|].
  destruct (FormatUint10 n) as [|c t] eqn:E; [congruence|]. cbn [hd].
  destruct (Z.eq_dec c 48) as [->|N]; [|now right]. left.
  destruct t as [|d t]; [reflexivity|]. exfalso.
  inversion Hd as [|? ? Hc Ht]; subst n. pose proof (dec_bound _ Ht) as Hb. rewrite dec_cons in Hl.
  rewrite (zlen_cons 48) in Hl. rewrite (Z.sub_diag 48), Z.mul_0_l in Hl.
  assert (1 <= zlen (d :: t)) by (rewrite zlen_cons; pose proof (zlen_nonneg t); lia).
  destruct Hl as [Hl|Hl]; [lia|]. replace (1 + zlen (d :: t) - 1) with (zlen (d :: t)) in Hl by lia. lia.
Qed.

Lemma uint_token n : 0 <= n -> json_int (FormatUint10 n) n.
Proof.
  intros Hn. destruct (format_spec n) as (Hd & Hne & Hv & Hl); [lia|].
  exists false, (FormatUint10 n). repeat split; auto. now apply no_leading_zero.
Qed.

Lemma int_token i : json_int (FormatInt10 i) i.
Proof.
  unfold FormatInt10. destruct (Z.ltb_spec i 0); [|apply uint_token; lia].
  destruct (format_spec (- i)) as (Hd & Hne & Hv & Hl); [lia|].
  exists true, (FormatUint10 (- i)). repeat split; auto. apply no_leading_zero. lia. lia.
Qed.

(** * Signed integers *)
Lemma parse_digits_format n : 0 <= n -> parse_digits (FormatUint10 n) = Some n.
Proof.
  intros Hn. destruct (format_spec n) as (Hd & Hne & Hv & Hl); [lia|].
  unfold parse_digits. destruct (beq (FormatUint10 n) []) eqn:E; [apply beq_eq in E; congruence|].
  replace (forallb digit (FormatUint10 n)) with true.
  - f_equal. exact Hv.
  - symmetry. apply forallb_forall. intros c Hc. rewrite Forall_forall in Hd. specialize (Hd c Hc).
    unfold is_digit, digit in *. lia.
Qed.

Lemma format_hd n : 0 <= n -> exists c t, FormatUint10 n = c :: t /\ 48 <= c <= 57.
Proof.
  intros Hn. destruct (format_spec n) as (Hd & Hne & Hv & Hl); [lia|].
  destruct (FormatUint10 n) as [|c t]; [congruence|]. inversion Hd; subst. eauto.
Qed.

Lemma parse_int_signless bits s c t : s = c :: t -> 48 <= c <= 57 ->
  ParseInt10 bits s = match parse_digits s with
    | None => None | Some n => if n <? 2 ^ (bits - 1) then Some n else None end.
Proof.
  intros -> H. unfold ParseInt10.
  assert (E : forall (A : Type) (a b d : A), match c with 43 => a | 45 => b | _ => d end = d).
  { intros. assert (K : c = 48 \/ c = 49 \/ c = 50 \/ c = 51 \/ c = 52 \/ c = 53 \/ c = 54 \/ c = 55 \/ c = 56 \/ c = 57) by lia.
    repeat (destruct K as [->|K]; [reflexivity|]). now subst. }
  rewrite E. reflexivity.
Qed.

Lemma parse_int_pos n : 0 <= n -> ParseInt10 64 (FormatUint10 n) = if n <? 2 ^ 63 then Some n else None.
Proof.
  intros Hn. destruct (format_hd n Hn) as (c & t & E & Hc).
  rewrite (parse_int_signless 64 _ c t E Hc), parse_digits_format by lia. reflexivity.
Qed.

Lemma parse_int_format i : - 2 ^ 63 <= i < 2 ^ 63 -> ParseInt10 64 (FormatInt10 i) = Some i.
Proof.
  intros Hi. unfold FormatInt10. destruct (Z.ltb_spec i 0).
  - unfold ParseInt10. rewrite parse_digits_format by lia.
    change (2 ^ (64 - 1)) with (2 ^ 63).
    replace (- i <=? 2 ^ 63) with true by lia. f_equal. lia.
  - rewrite parse_int_pos by lia. now replace (i <? 2 ^ 63) with true by lia.
Qed.

Lemma int_chars i : Forall (fun c => is_end c = false) (FormatInt10 i).
Proof.
  unfold FormatInt10. destruct (Z.ltb_spec i 0); [constructor; [reflexivity|]|];
  apply digits_not_end, format_spec; lia.
Qed.

Lemma mdecode_int i k r t l : - 2 ^ 63 <= i < 2 ^ 63 -> terminator k ->
  MDecodeInt64 (Dec (FormatInt10 i ++ k :: r) t l) = (None, i, Dec (k :: r) k (FormatInt10 i)).
Proof.
  intros Hi Hk. unfold MDecodeInt64. rewrite find_end by auto using int_chars, term_is_end.
  cbn [dlast]. now rewrite parse_int_format.
Qed.

Lemma format_int_shape i : exists w, FormatInt10 i = w ++ FormatUint10 (Z.abs i) /\ Forall (fun c => ~ is_digit c) w.
Proof.
  unfold FormatInt10. destruct (Z.ltb_spec i 0).
  - exists [45]. split; [|constructor; [unfold is_digit; lia|constructor]].
    cbn [app]. f_equal. f_equal. lia.
  - exists []. split; [|constructor]. cbn [app]. f_equal. lia.
Qed.

Lemma decode_int i k r t l : - 2 ^ 63 <= i < 2 ^ 63 -> terminator k ->
  DecodeInt64 (Dec (FormatInt10 i ++ k :: r) t l) =
    (if i =? - 2 ^ 63 then (Some ErrIntegerCorrupted, 0, Dec (k :: r) k (FormatUint10 (Z.abs i)))
     else (None, Z.abs i, Dec (k :: r) k (FormatUint10 (Z.abs i)))).
Proof.
  intros Hi Hk. destruct (format_int_shape i) as (w & -> & Hw).
  destruct (format_spec (Z.abs i)) as (Hd & Hne & Hv & Hl); [lia|].
  unfold DecodeInt64, TrimToDigit. cbn [dbuf dtok dlast]. rewrite <- app_assoc.
  rewrite drop_digit_skip by assumption. rewrite drop_digit_at by assumption.
  rewrite find_end by auto using digits_not_end, term_is_end. cbn [dlast].
  rewrite parse_int_pos by lia.
  destruct (Z.eqb_spec i (- 2 ^ 63)) as [->|N].
  - now replace (Z.abs (- 2 ^ 63) <? 2 ^ 63) with false by lia.
  - now replace (Z.abs i <? 2 ^ 63) with true by lia.
Qed.

(** * Strings *)
Lemma check_null_quote w b null : Forall (fun c => c <> 110 /\ c <> 34 /\ c <> 44) w ->
  check_null (w ++ 34 :: b) null = Ok false.
Proof.
  induction 1 as [|c t (H1 & H2 & H3) Ht IH]; cbn [app check_null]; [reflexivity|].
  replace (c =? 110) with false by lia. replace (c =? 34) with false by lia.
  replace (c =? 44) with false by lia. exact IH.
Qed.

Lemma decode_string_gen w p r t l :
  Forall (fun c => c <> 110 /\ c <> 34 /\ c <> 44) w -> Forall (fun c => c <> 34) p ->
  DecodeString (Dec (w ++ 34 :: p ++ 34 :: r) t l) = Ok (None, p, Dec r t l).
Proof.
  intros Hw Hp. unfold DecodeString, CheckNullValue. cbn [dbuf]. rewrite check_null_quote by assumption.
  cbn [bind]. unfold TrimToStringStart. cbn [dbuf dtok dlast].
  rewrite cut_byte_app; [|eapply Forall_impl; [|exact Hw]; cbn; tauto].
  cbn [dbuf dtok dlast]. now rewrite cut_byte_app.
Qed.

Lemma split_quote s : Forall (fun c => c <> 34) s \/
  exists p q, s = p ++ 34 :: q /\ Forall (fun c => c <> 34) p.
Proof.
  destruct (cut_byte 34 s) as [[p q]|] eqn:E.
  - right. apply cut_byte_some in E. destruct E. eauto.
  - left. induction s as [|c t IH]; [constructor|]. cbn [cut_byte] in E.
    destruct (Z.eqb_spec c 34); [discriminate|]. destruct (cut_byte 34 t) as [[]|]; [discriminate|].
    constructor; auto.
Qed.

Lemma decode_string_iff w s r t l : Forall (fun c => c <> 110 /\ c <> 34 /\ c <> 44) w ->
  (exists d, DecodeString (Dec (w ++ [34] ++ s ++ [34; 44] ++ r) t l) = Ok (None, s, d)) <->
  Forall (fun c => c <> 34) s.
Proof.
  intros Hw. cbn [app]. split.
  - intros (d & E). destruct (split_quote s) as [H|(p & q & -> & Hp)]; [assumption|exfalso].
    rewrite <- app_assoc in E. cbn [app] in E. rewrite decode_string_gen in E by assumption.
    inversion E as [[E1 E2]]. apply (f_equal (@length Z)) in E1. rewrite app_length in E1. cbn in E1. lia.
  - intros H. rewrite decode_string_gen by assumption. eauto.
Qed.

Lemma mdecode_string_iff s r t l :
  (exists d, MDecodeString (Dec (s ++ [34] ++ r) t l) = Ok (s, d)) <-> Forall (fun c => c <> 34) s.
Proof.
  unfold MDecodeString. cbn [dbuf dtok dlast app]. split.
  - intros (d & E). destruct (split_quote s) as [H|(p & q & -> & Hp)]; [assumption|exfalso].
    rewrite <- app_assoc in E. cbn [app] in E. rewrite cut_byte_app in E by assumption.
    inversion E as [[E1 E2]]. apply (f_equal (@length Z)) in E1. rewrite app_length in E1. cbn in E1. lia.
  - intros H. rewrite cut_byte_app by assumption. eauto.
Qed.

Lemma plain_body s : plain s -> json_body s s.
Proof. induction 1 as [|c t (H1 & H2 & H3) Ht IH]; constructor; auto. Qed.

Lemma json_body_plain s : json_body s s -> plain s.
Proof.
  intros H. remember s as b eqn:E in H at 1. 
  assert (G : forall b s, json_body b s -> (length s <= length b)%nat /\ (length s = length b -> plain b)).
  { clear. induction 1 as [|c b s H1 H2 H3 H (L & I)|e c b s He H (L & I)]; cbn [length].
    - split; [lia|]. constructor.
    - split; [lia|]. intros E. constructor; [auto|]. apply I. lia.
    - split; [lia|]. intros E. lia. }
  subst b. apply (G s s H). reflexivity.
Qed.

Lemma string_token_iff s : json_string ([34] ++ s ++ [34]) s <-> plain s.
Proof.
  split.
  - intros (b & E & H). cbn [app] in E. inversion E as [E']. apply app_inj_tail in E' as [-> _].
    now apply json_body_plain.
  - intros H. exists s. split; [reflexivity|]. now apply plain_body.
Qed.

(** * Number slices *)
Fixpoint commas (l : list Z) : bytes :=
  match l with [] => [] | [n] => FormatUint10 n | n :: t => FormatUint10 n ++ 44 :: commas t end.

Lemma encode_numbers_app l : forall e, ebuf (encode_numbers e l) = ebuf e ++ concat (map (fun n => FormatUint10 n ++ [44]) l).
Proof.
  induction l as [|n t IH]; intros e; cbn [encode_numbers map concat]; [now rewrite app_nil_r|].
  rewrite IH. unfold eapp. cbn [ebuf]. now rewrite <- !app_assoc.
Qed.

Lemma concat_commas l : l <> [] -> concat (map (fun n => FormatUint10 n ++ [44]) l) = commas l ++ [44].
Proof.
  induction l as [|n t IH]; intros H; [congruence|]. cbn [map concat].
  destruct t as [|m t]; [cbn [map concat commas]; now rewrite app_nil_r|].
  rewrite IH by discriminate. cbn [commas]. now rewrite <- !app_assoc.
Qed.

Lemma remove_comma b c : RemoveTrailingComma (Enc (b ++ [44]) c) = Ok (Enc b c).
Proof.
  unfold RemoveTrailingComma. cbn [ebuf ecap]. rewrite zlen_app. change (zlen [44]) with 1.
  replace (zlen b + 1 - 1) with (zlen b) by lia. pose proof (zlen_nonneg b).
  erewrite idx_ok with (a := 44); [|lia|].
  - cbn [bind]. replace (44 =? 44) with true by reflexivity.
    rewrite slice_to_ok by (rewrite zlen_app; change (zlen [44]) with 1; lia). cbn [bind]. unfold zlen. rewrite Nat2Z.id, firstn_app, Nat.sub_diag, firstn_all, app_nil_r. reflexivity.
  - unfold zlen. rewrite Nat2Z.id, nth_error_app2, Nat.sub_diag by lia. reflexivity.
Qed.

Lemma encode_slice e l : l <> [] -> exists c, EncodeSliceAsNumber e l = Ok (Enc (ebuf e ++ commas l) c).
Proof.
  intros H. unfold EncodeSliceAsNumber.
  destruct (encode_numbers e l) as [b c] eqn:E.
  assert (Hb : b = (ebuf e ++ commas l) ++ [44]).
  { change b with (ebuf (Enc b c)). rewrite <- E, encode_numbers_app, concat_commas by assumption. now rewrite app_assoc. }
  exists c. rewrite Hb. apply remove_comma.
Qed.

Lemma find_end_again k r t l : is_end k = true -> FindEndToken (Dec (k :: r) t l) = Dec (k :: r) k [].
Proof. intros. apply (find_end [] k r); [constructor|assumption]. Qed.

Lemma slice_loop_ok parse max l : reads parse max -> Forall (fun n => 0 <= n <= max) l -> l <> [] ->
  forall w r t last acc fuel, t <> 93 -> Forall (fun c => ~ is_digit c) w -> (length l < fuel)%nat ->
  slice_loop parse fuel (Dec (w ++ commas l ++ 93 :: r) t last) acc = Some (None, acc ++ l, Dec (93 :: r) 0 []).
Proof.
  intros R. induction l as [|n l IH]; intros Hl Hne w r t last acc fuel Ht Hw Hf; [congruence|].
  inversion Hl as [|? ? Hn Hl']; subst.
  destruct fuel as [|fuel]; [cbn in Hf; lia|]. cbn [slice_loop]. unfold CheckToken. cbn [dtok].
  replace (t =? 93) with false by lia.
  destruct l as [|m l'].
  - cbn [commas]. rewrite (decode_uint parse max w n 93 r t last R Hn) by (unfold terminator; auto).
    rewrite find_end_again by reflexivity.
    destruct fuel as [|fuel]; [cbn in Hf; lia|]. cbn [slice_loop]. unfold CheckToken. cbn [dtok dbuf dlast].
    reflexivity.
  - replace (w ++ commas (n :: m :: l') ++ 93 :: r) with (w ++ FormatUint10 n ++ 44 :: (commas (m :: l') ++ 93 :: r)).
    2:{ cbn [commas]. rewrite <- app_assoc. reflexivity. }
    rewrite (decode_uint parse max w n 44 _ t last R Hn) by (unfold terminator; auto).
    rewrite find_end_again by reflexivity.
    change (44 :: commas (m :: l') ++ 93 :: r) with ([44] ++ commas (m :: l') ++ 93 :: r).
    rewrite IH; auto; try discriminate.
    + now rewrite <- app_assoc.
    + constructor; [unfold is_digit; lia|constructor].
    + cbn [length] in *. lia.
Qed.

Lemma offset_cons c r t l : Offset (Dec (c :: r) t l) 1 = Ok (Dec r t l).
Proof.
  unfold Offset. cbn [dbuf dtok dlast]. pose proof (zlen_nonneg r). rewrite slice_from_ok by (rewrite ?zlen_cons; lia). reflexivity.
Qed.

Lemma mslice_loop_ok parse max l : reads parse max -> Forall (fun n => 0 <= n <= max) l -> l <> [] ->
  forall r t last acc fuel, t <> 93 -> (length l < fuel)%nat ->
  exists last', mslice_loop parse fuel (Dec (commas l ++ 93 :: r) t last) acc = Some (Ok (None, acc ++ l, Dec r 0 last')).
Proof.
  intros R. induction l as [|n l IH]; intros Hl Hne r t last acc fuel Ht Hf; [congruence|].
  inversion Hl as [|? ? Hn Hl']; subst.
  destruct fuel as [|fuel]; [cbn in Hf; lia|]. cbn [mslice_loop]. unfold CheckToken. cbn [dtok].
  replace (t =? 93) with false by lia.
  destruct l as [|m l'].
  - cbn [commas]. rewrite (mdecode_uint parse max n 93 r t last R Hn) by (unfold terminator; auto).
    rewrite offset_cons.
    destruct fuel as [|fuel]; [cbn in Hf; lia|]. cbn [mslice_loop]. unfold CheckToken. cbn [dtok dbuf dlast].
    eexists. reflexivity.
  - replace (commas (n :: m :: l') ++ 93 :: r) with (FormatUint10 n ++ 44 :: (commas (m :: l') ++ 93 :: r)).
    2:{ cbn [commas]. rewrite <- app_assoc. reflexivity. }
    rewrite (mdecode_uint parse max n 44 _ t last R Hn) by (unfold terminator; auto).
    rewrite offset_cons.
    destruct (IH Hl' ltac:(discriminate) r 44 (FormatUint10 n) (acc ++ [n]) fuel) as (x & E); [lia|cbn [length] in *; lia|].
    exists x. rewrite E. now rewrite <- app_assoc.
Qed.

(** * Base64 values *)
Lemma b64_json l : wf_bytes l ->
  Forall (fun c => c <> 34 /\ is_end c = false) (b64_encode std_char l) /\ plain (b64_encode std_char l).
Proof.
  intros W. pose proof (b64_chars _ _ l std_alphabet W) as H.
  split; eapply Forall_impl; try exact H; intros c (i & Hi & ->); pose proof (std_alphabet i Hi); unfold is_end; lia.
Qed.

Lemma decode_b64 l k r t last : wf_bytes l -> terminator k ->
  DecodeByteSliceAsBase64 (Dec ([34] ++ b64_encode std_char l ++ [34] ++ k :: r) t last) =
    (None, l, Dec (k :: r) k (b64_encode std_char l ++ [34])).
Proof.
  intros W Hk. destruct (b64_json l W) as [H _].
  assert (H1 : Forall (fun c => c <> 34) (b64_encode std_char l)) by (eapply Forall_impl; [|exact H]; cbn; tauto).
  unfold DecodeByteSliceAsBase64, TrimToStringStart. cbn [app dbuf dtok dlast cut_byte].
  replace (34 =? 34) with true by reflexivity. cbn [dbuf].
  rewrite cut_byte_app by assumption. rewrite b64_round_trip by (auto using std_alphabet).
  f_equal. replace (b64_encode std_char l ++ 34 :: k :: r) with ((b64_encode std_char l ++ [34]) ++ k :: r) by now rewrite <- app_assoc.
  apply find_end; [|now apply term_is_end]. apply Forall_app. split.
  - eapply Forall_impl; [|exact H]. cbn. tauto.
  - constructor; [reflexivity|constructor].
Qed.

(** * Keys and booleans *)
Lemma decode_key w k r t l : Forall (fun c => c <> 34) w -> Forall (fun c => c <> 34) k ->
  DecodeKey (Dec (w ++ [34] ++ k ++ [34; 58] ++ r) t l) = (k, Dec r t l).
Proof.
  intros Hw Hk. unfold DecodeKey, TrimToStringStart. cbn [app dbuf dtok dlast].
  rewrite cut_byte_app by assumption. cbn [dbuf dtok dlast]. rewrite cut_byte_app by assumption.
  reflexivity.
Qed.
