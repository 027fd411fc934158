From Coq Require Import ZifyBool ZifyNat.
From Verif Require Import Go GoFacts StrconvModel IntSpec IntModel.
Ltac Zify.zify_post_hook ::= Z.div_mod_to_equations.

Definition dec_acc (a : Z) (s : bytes) : Z := fold_left (fun a c => 10 * a + (c - 48)) s a.

Lemma dec_acc_nonneg s a : Forall is_digit s -> 0 <= a -> a <= dec_acc a s.
Proof.
  revert a; induction s as [|c s IH]; intros a H Ha; cbn [dec_acc fold_left]; [lia|].
  inversion H; subst. unfold is_digit in *.
  specialize (IH (10 * a + (c - 48)) H3). unfold dec_acc in *. lia.
Qed.

Lemma dec_acc_app a s t : dec_acc a (s ++ t) = dec_acc (dec_acc a s) t.
Proof. unfold dec_acc. now rewrite fold_left_app. Qed.

Lemma dec_acc_pow s a : dec_acc a s = a * 10 ^ zlen s + dec_acc 0 s.
Proof.
  revert a; induction s as [|c s IH]; intros a.
  - cbn. lia.
  - cbn [dec_acc fold_left]. change (fold_left _ s ?x) with (dec_acc x s).
    rewrite IH, (IH (10 * 0 + _)), zlen_cons, Z.pow_add_r by (pose proof (zlen_nonneg s); lia).
    change (10 ^ 1) with 10. ring.
Qed.

Lemma dec_value_bound s : Forall is_digit s -> 0 <= dec_value s < 10 ^ zlen s.
Proof.
  change (dec_value s) with (dec_acc 0 s).
  induction s as [|c s IH]; intros H.
  - cbn. lia.
  - inversion H; subst. cbn [dec_acc fold_left]. change (fold_left _ s ?x) with (dec_acc x s).
    rewrite dec_acc_pow, zlen_cons, Z.pow_add_r by (pose proof (zlen_nonneg s); lia).
    specialize (IH H3). unfold is_digit in *. change (10 ^ 1) with 10. nia.
Qed.

Lemma digit_dec c : {is_digit c} + {~ is_digit c}.
Proof. unfold is_digit. destruct (Z_le_dec 48 c), (Z_le_dec c 57); [left|right|right|right]; lia. Qed.

(** The shape of the three checked loops. *)
Section Checked.
  Variables (w max : Z) (loop : bytes -> Z -> perr + Z).
  Hypothesis Hmax : 0 <= max.
  Hypothesis Hw : max * 10 + 9 < w.
  Hypothesis loop_nil : forall n, loop [] n = inr n.
  Hypothesis loop_cons : forall c t n, loop (c :: t) n =
    if (48 <=? c) && (c <=? 57) then
      if max <? ((n * 10) mod w + (c - 48) mod 256) mod w then inl ErrValueOutOfRange
      else loop t (((n * 10) mod w + (c - 48) mod 256) mod w)
    else inl ErrBadValue.

  Lemma loop_digit c t n : is_digit c -> 0 <= n <= max ->
    loop (c :: t) n = if max <? 10 * n + (c - 48) then inl ErrValueOutOfRange
                      else loop t (10 * n + (c - 48)).
  Proof.
    intros Hc Hn. rewrite loop_cons. unfold is_digit in Hc.
    replace ((48 <=? c) && (c <=? 57)) with true by lia.
    rewrite (Z.mod_small (n * 10)) by lia. rewrite (Z.mod_small (c - 48)) by lia.
    rewrite Z.mod_small by lia. now replace (n * 10 + (c - 48)) with (10 * n + (c - 48)) by lia.
  Qed.

  Lemma loop_bad c t n : ~ is_digit c -> loop (c :: t) n = inl ErrBadValue.
  Proof.
    intros Hc. rewrite loop_cons. unfold is_digit in Hc.
    now replace ((48 <=? c) && (c <=? 57)) with false by lia.
  Qed.

  Lemma loop_ok s n v : 0 <= n <= max ->
    loop s n = inr v <-> Forall is_digit s /\ dec_acc n s <= max /\ v = dec_acc n s.
  Proof.
    revert n; induction s as [|c s IH]; intros n Hn.
    - rewrite loop_nil. cbn. split.
      + intros E; inversion E; subst. repeat split; auto; lia.
      + now intros (_ & _ & ->).
    - destruct (digit_dec c) as [Hc|Hc].
      + rewrite loop_digit by auto. destruct (Z.ltb_spec max (10 * n + (c - 48))).
        * split; [discriminate|]. intros (Hd & Hle & _). exfalso.
          inversion Hd; subst. cbn [dec_acc fold_left] in Hle.
          pose proof (dec_acc_nonneg s (10 * n + (c - 48)) H3). unfold dec_acc in *.
          unfold is_digit in *. lia.
        * rewrite IH by (unfold is_digit in *; lia). cbn [dec_acc fold_left].
          split; intros (H1 & H2 & H3); repeat split; auto. now inversion H1.
      + rewrite loop_bad by auto. split; [discriminate|].
        intros (Hd & _). inversion Hd; subst. contradiction.
  Qed.

  Lemma loop_err s n e : 0 <= n <= max -> loop s n = inl e ->
    (e = ErrBadValue /\ ~ Forall is_digit s) \/
    (e = ErrValueOutOfRange /\ exists p r, s = p ++ r /\ Forall is_digit p /\ max < dec_acc n p).
  Proof.
    revert n; induction s as [|c s IH]; intros n Hn E.
    - rewrite loop_nil in E; discriminate.
    - destruct (digit_dec c) as [Hc|Hc].
      + rewrite loop_digit in E by auto. destruct (Z.ltb_spec max (10 * n + (c - 48))).
        * inversion E; subst. right. split; auto. exists [c], s. repeat split; auto.
        * apply IH in E; [|unfold is_digit in *; lia].
          destruct E as [[-> Hb]|[-> (p & r & -> & Hp & Hlt)]].
          -- left. split; auto. intros HF; inversion HF; contradiction.
          -- right. split; auto. exists (c :: p), r. repeat split; auto.
      + rewrite loop_bad in E by auto. inversion E; subst. left. split; auto.
        intros HF; inversion HF; contradiction.
  Qed.

  Lemma checked_parser k parse (conv : Z -> Z) :
    0 < k ->
    (forall x, 0 <= x <= max -> conv x = x) ->
    (forall s old, parse s old =
       if beq s [] then (Some ErrEmptyValue, old)
       else if k <? zlen s then (Some ErrValueOutOfRange, old)
       else match loop s 0 with inl e => (Some e, old) | inr n => (None, conv n) end) ->
    parser_ok k max parse.
  Proof.
    intros Hk Hconv Hp.
    assert (C : forall s old,
      (s = [] /\ parse s old = (Some ErrEmptyValue, old)) \/
      (s <> [] /\ k < zlen s /\ parse s old = (Some ErrValueOutOfRange, old)) \/
      (s <> [] /\ zlen s <= k /\ exists e, loop s 0 = inl e /\ parse s old = (Some e, old)) \/
      (s <> [] /\ zlen s <= k /\ exists v, loop s 0 = inr v /\ parse s old = (None, v))).
    { intros s old. rewrite Hp. destruct (beq s []) eqn:E.
      - apply beq_eq in E. auto.
      - apply beq_neq in E. destruct (Z.ltb_spec k (zlen s)); auto.
        destruct (loop s 0) as [e|v] eqn:El.
        + right; right; left. eauto.
        + right; right; right. repeat split; auto. exists v. split; auto.
          rewrite Hconv; auto. apply loop_ok in El; [|lia]. destruct El as (Hd & Hle & ->).
          pose proof (dec_acc_nonneg s 0 Hd). lia. }
    split.
    - intros s old v. unfold numeral.
      destruct (C s old) as [(-> & ->)|[(H1 & H2 & ->)|[(H1 & H2 & e & He & ->)|(H1 & H2 & x & Hx & ->)]]].
      + split; [discriminate|]. intros ((H & _) & _). congruence.
      + split; [discriminate|]. intros ((_ & H & _) & _). lia.
      + split; [discriminate|]. intros ((_ & _ & Hd) & Hle & ->).
        assert (X : loop s 0 = inr (dec_value s)) by (apply loop_ok; [lia|auto]). congruence.
      + apply loop_ok in Hx; [|lia]. destruct Hx as (Hd & Hle & ->). change (dec_acc 0 s) with (dec_value s) in *.
        split; [intros E; inversion E; subst; auto|]. intros (_ & _ & ->); auto.
    - intros s old e v.
      destruct (C s old) as [(-> & ->)|[(H1 & H2 & ->)|[(H1 & H2 & e' & He & ->)|(H1 & H2 & x & Hx & ->)]]];
        intros E; inversion E; auto.
    - intros s old.
      destruct (C s old) as [(-> & ->)|[(H1 & H2 & ->)|[(H1 & H2 & e' & He & ->)|(H1 & H2 & x & Hx & ->)]]];
        cbn [fst]; split; intros E; try congruence; auto.
      apply loop_err in He; [|lia]. destruct He as [[-> _]|[-> _]]; discriminate.
    - intros s old.
      destruct (C s old) as [(-> & ->)|[(H1 & H2 & ->)|[(H1 & H2 & e' & He & ->)|(H1 & H2 & x & Hx & ->)]]];
        cbn [fst]; intros E; try congruence.
      apply loop_err in He; [|lia]. destruct He as [[-> ?]|[-> _]]; [auto|discriminate].
    - intros s old.
      destruct (C s old) as [(-> & ->)|[(H1 & H2 & ->)|[(H1 & H2 & e' & He & ->)|(H1 & H2 & x & Hx & ->)]]];
        cbn [fst]; intros E; try congruence; auto.
      apply loop_err in He; [|lia]. destruct He as [[-> ?]|[-> ?]]; [discriminate|auto].
  Qed.
End Checked.

Lemma u8_parser_ok : parser_ok 3 255 U8_FromString_Base10.
Proof.
  apply (checked_parser (2 ^ 16) 255 U8_loop) with (conv := u8); try lia; try reflexivity.
  intros x Hx. apply u8_small; lia.
Qed.
Lemma u16_parser_ok : parser_ok 5 65535 U16_FromString_Base10.
Proof.
  apply (checked_parser (2 ^ 32) 65535 U16_loop) with (conv := u16); try lia; try reflexivity.
  intros x Hx. apply u16_small; lia.
Qed.
Lemma u32_parser_ok : parser_ok 10 4294967295 U32_FromString_Base10.
Proof.
  apply (checked_parser (2 ^ 64) 4294967295 U32_loop) with (conv := u32); try lia; try reflexivity.
  intros x Hx. apply u32_small; lia.
Qed.

(** ** 64 bits *)

Lemma u64_loop_cons_digit c t n : is_digit c -> 0 <= n < 2 ^ 64 ->
  U64_loop (c :: t) n = if u64 (n * 10) <? n then inl ErrValueOutOfRange
                        else U64_loop t (u64 (10 * n + (c - 48))).
Proof.
  intros Hc Hn. cbn [U64_loop]. unfold is_digit in Hc.
  replace ((48 <=? c) && (c <=? 57)) with true by lia.
  destruct (u64 (n * 10) <? n); auto. f_equal.
  rewrite (u8_small (c - 48)) by lia. unfold u64.
  rewrite Zplus_mod_idemp_l. f_equal. lia.
Qed.

Lemma u64_loop_cons_bad c t n : ~ is_digit c -> U64_loop (c :: t) n = inl ErrBadValue.
Proof.
  intros Hc. cbn [U64_loop]. unfold is_digit in Hc.
  now replace ((48 <=? c) && (c <=? 57)) with false by lia.
Qed.

(** No wrap as long as the value fits. *)
Lemma u64_loop_small s n : Forall is_digit s -> 0 <= n -> dec_acc n s < 2 ^ 64 ->
  U64_loop s n = inr (dec_acc n s).
Proof.
  revert n; induction s as [|c s IH]; intros n Hd Hn Hv; [reflexivity|].
  inversion Hd; subst.
  assert (Hle : 10 * n + (c - 48) <= dec_acc n (c :: s)).
  { cbn [dec_acc fold_left]. apply (dec_acc_nonneg s (10 * n + (c - 48))); auto.
    unfold is_digit in *; lia. }
  unfold is_digit in H1.
  rewrite u64_loop_cons_digit by (auto; lia).
  rewrite (u64_small (n * 10)) by lia. replace (n * 10 <? n) with false by lia.
  rewrite u64_small by lia. apply IH; auto; lia.
Qed.

Lemma u64_loop_mod s n v : 0 <= n < 2 ^ 64 -> U64_loop s n = inr v ->
  Forall is_digit s /\ v = dec_acc n s mod 2 ^ 64.
Proof.
  revert n; induction s as [|c s IH]; intros n Hn E.
  - cbn in E. inversion E; subst. split; auto. cbn. now rewrite Z.mod_small.
  - destruct (digit_dec c) as [Hc|Hc].
    + rewrite u64_loop_cons_digit in E by auto.
      destruct (u64 (n * 10) <? n); [discriminate|].
      apply IH in E; [|apply u64_range]. destruct E as [H1 ->]. split; auto.
      cbn [dec_acc fold_left]. change (fold_left _ s ?x) with (dec_acc x s).
      rewrite (dec_acc_pow s (u64 _)), (dec_acc_pow s (10 * n + (c - 48))). unfold u64.
      rewrite <- Zplus_mod_idemp_l, Zmult_mod_idemp_l, Zplus_mod_idemp_l. reflexivity.
    + rewrite u64_loop_cons_bad in E by auto. discriminate.
Qed.

Lemma u64_loop_app s t n v : Forall is_digit s -> U64_loop s n = inr v ->
  U64_loop (s ++ t) n = U64_loop t v.
Proof.
  revert n; induction s as [|c s IH]; intros n Hd E.
  - cbn in E. inversion E; now subst.
  - inversion Hd; subst. cbn [app]. cbn [U64_loop] in *.
    destruct ((48 <=? c) && (c <=? 57)); [|discriminate].
    destruct (u64 (n * 10) <? n); [discriminate|]. now apply IH.
Qed.

Lemma u64_parse_unfold s old : s <> [] -> zlen s <= 20 ->
  U64_FromString_Base10 s old =
  match U64_loop s 0 with inl e => (Some e, old) | inr n => (None, n) end.
Proof.
  intros H1 H2. unfold U64_FromString_Base10.
  apply beq_neq in H1. rewrite H1. replace (20 <? zlen s) with false by lia. reflexivity.
Qed.

Lemma u64_correct_below s old : numeral 20 s -> dec_value s < 2 ^ 64 ->
  U64_FromString_Base10 s old = (None, dec_value s).
Proof.
  intros (H1 & H2 & H3) Hv. rewrite u64_parse_unfold by auto.
  rewrite u64_loop_small; auto; lia.
Qed.

Lemma u64_success_mod s old v : U64_FromString_Base10 s old = (None, v) ->
  numeral 20 s /\ v = dec_value s mod 2 ^ 64.
Proof.
  intros E. unfold U64_FromString_Base10 in E.
  destruct (beq s []) eqn:E1; [discriminate|]. apply beq_neq in E1.
  destruct (Z.ltb_spec 20 (zlen s)); [discriminate|].
  destruct (U64_loop s 0) eqn:El; [discriminate|]. inversion E; subst.
  apply u64_loop_mod in El; [|lia]. destruct El. repeat split; auto.
Qed.

(** On twenty digits the only check that can fire is the last one. *)
Lemma u64_twenty p c old : zlen p = 19 -> Forall is_digit p -> is_digit c ->
  U64_FromString_Base10 (p ++ [c]) old =
  if (10 * dec_value p) mod 2 ^ 64 <? dec_value p then (Some ErrValueOutOfRange, old)
  else (None, (10 * dec_value p + (c - 48)) mod 2 ^ 64).
Proof.
  intros Hl Hp Hc. pose proof (dec_value_bound p Hp) as Hb. rewrite Hl in Hb.
  rewrite u64_parse_unfold.
  2:{ destruct p; discriminate. }
  2:{ rewrite zlen_app, Hl. cbn. lia. }
  rewrite (u64_loop_app p [c] 0 (dec_value p)); auto.
  2:{ apply u64_loop_small; auto; [lia|]. change (dec_acc 0 p) with (dec_value p). lia. }
  rewrite u64_loop_cons_digit by (auto; lia).
  unfold u64. rewrite (Z.mul_comm (dec_value p) 10).
  destruct ((10 * dec_value p) mod 2 ^ 64 <? dec_value p); reflexivity.
Qed.

Lemma u64_keep s old e v : U64_FromString_Base10 s old = (Some e, v) -> v = old.
Proof.
  unfold U64_FromString_Base10.
  destruct (beq s []); [intros E; inversion E; auto|].
  destruct (20 <? zlen s); [intros E; inversion E; auto|].
  destruct (U64_loop s 0); intros E; inversion E; auto.
Qed.

Lemma u64_refuted : exists s v, (forall n, n < 2 ^ 64 -> dec_value s <> n) /\
  U64_FromString_Base10 s 7 = (None, v).
Proof.
  exists (str "18446744073709551616"), 0. split; [|vm_compute; reflexivity].
  intros n Hn E. subst n. revert Hn. vm_compute. discriminate.
Qed.

(** ** Formatting *)

Lemma one_digit n : 0 <= n < 10 -> Forall is_digit [48 + n] /\ [48 + n] <> [] /\
  dec_value [48 + n] = n /\ (zlen [48 + n] = 1 \/ 10 ^ (zlen [48 + n] - 1) <= n).
Proof.
  intros Hn. split; [|split; [discriminate|split; [|left; reflexivity]]].
  - constructor; [unfold is_digit; lia|constructor].
  - unfold dec_value; cbn [fold_left]. lia.
Qed.

Lemma fmt_loop_spec f n acc : 0 <= n < 10 * 2 ^ Z.of_nat f ->
  exists p, fmt_loop (S f) n acc = p ++ acc /\ Forall is_digit p /\ p <> [] /\ dec_value p = n /\
    (zlen p = 1 \/ 10 ^ (zlen p - 1) <= n).
Proof.
  revert n acc; induction f as [|f IH]; intros n acc Hn.
  - change (2 ^ Z.of_nat 0) with 1 in Hn.
    exists [48 + n]. cbn [fmt_loop]. replace (n <? 10) with true by lia.
    split; [reflexivity|]. apply one_digit; lia.
  - remember (S f) as sf eqn:Esf. cbn [fmt_loop]. destruct (Z.ltb_spec n 10).
    + exists [48 + n]. split; [reflexivity|]. apply one_digit; lia.
    + subst sf. rewrite Nat2Z.inj_succ, Z.pow_succ_r in Hn by lia.
      destruct (IH (n / 10) ((48 + n mod 10) :: acc)) as (p & E & Hd & Hne & Hv & Hl).
      { split; [lia|]. lia. }
      rewrite E. exists (p ++ [48 + n mod 10]). rewrite <- app_assoc. cbn [app].
      repeat split; auto.
      * apply Forall_app. split; auto. constructor; [unfold is_digit; lia|constructor].
      * destruct p; discriminate.
      * unfold dec_value. rewrite fold_left_app. fold (dec_value p). cbn [fold_left]. lia.
      * right. rewrite zlen_app. change (zlen [48 + n mod 10]) with 1.
        replace (zlen p + 1 - 1) with (zlen p) by lia.
        destruct Hl as [Hl|Hl].
        -- rewrite Hl. change (10 ^ 1) with 10. lia.
        -- assert (1 <= zlen p) by (destruct p; [congruence|rewrite zlen_cons; pose proof (zlen_nonneg p); lia]).
           replace (zlen p) with (1 + (zlen p - 1)) by lia.
           rewrite Z.pow_add_r by lia. change (10 ^ 1) with 10. lia.
Qed.

Lemma format_spec n : 0 <= n ->
  Forall is_digit (FormatUint10 n) /\ FormatUint10 n <> [] /\ dec_value (FormatUint10 n) = n /\
  (zlen (FormatUint10 n) = 1 \/ 10 ^ (zlen (FormatUint10 n) - 1) <= n).
Proof.
  intros Hn. unfold FormatUint10.
  destruct (fmt_loop_spec (Z.to_nat (Z.log2 n)) n []) as (p & E & H).
  - split; [lia|]. destruct (Z.eq_dec n 0) as [->|Hnz]; [cbn; lia|].
    pose proof (Z.log2_nonneg n). rewrite Z2Nat.id by lia.
    pose proof (Z.log2_spec n) as Hs. rewrite Z.pow_succ_r in Hs by lia. lia.
  - rewrite app_nil_r in E. rewrite E. exact H.
Qed.

Lemma format_numeral n k : 0 <= n < 10 ^ k -> 1 <= k -> numeral k (FormatUint10 n).
Proof.
  intros Hn Hk. destruct (format_spec n) as (Hd & Hne & Hv & Hl); [lia|].
  repeat split; auto. destruct Hl as [Hl|Hl]; [lia|].
  destruct (Z.le_gt_cases (zlen (FormatUint10 n)) k); auto. exfalso.
  assert (10 ^ k <= 10 ^ (zlen (FormatUint10 n) - 1)) by (apply Z.pow_le_mono_r; lia). lia.
Qed.

Lemma roundtrip_checked k max parse n old : parser_ok k max parse -> 1 <= k ->
  0 <= n <= max -> max < 10 ^ k -> parse (FormatUint10 n) old = (None, n).
Proof.
  intros P Hk Hn Hm. apply (po_ok _ _ _ P).
  destruct (format_spec n) as (Hd & Hne & Hv & Hl); [lia|].
  split; [|rewrite Hv; lia]. apply format_numeral; lia.
Qed.

Lemma roundtrip_all :
  (forall n old, 0 <= n < 2 ^ 8 -> U8_FromString_Base10 (U_ToString n) old = (None, n)) /\
  (forall n old, 0 <= n < 2 ^ 16 -> U16_FromString_Base10 (U_ToString n) old = (None, n)) /\
  (forall n old, 0 <= n < 2 ^ 32 -> U32_FromString_Base10 (U_ToString n) old = (None, n)) /\
  (forall n old, 0 <= n < 2 ^ 64 -> U64_FromString_Base10 (U_ToString n) old = (None, n)).
Proof.
  repeat apply conj; intros n old Hn; unfold U_ToString.
  - apply (roundtrip_checked _ _ _ n old u8_parser_ok); lia.
  - apply (roundtrip_checked _ _ _ n old u16_parser_ok); lia.
  - apply (roundtrip_checked _ _ _ n old u32_parser_ok); lia.
  - destruct (format_spec n) as (Hd & Hne & Hv & Hl); [lia|].
    rewrite u64_correct_below; [now rewrite Hv| |lia].
    apply format_numeral; lia.
Qed.
