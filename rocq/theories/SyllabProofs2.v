From Verif Require Import Go GoFacts BinSpec BinProofs SyllabModel SyllabSpec SyllabProofs.
From Coq Require Import ZifyBool ZifyNat Permutation.
Ltac Zify.zify_post_hook ::= Z.div_mod_to_equations.
Local Open Scope Z_scope.

Lemma width_pos k : 0 < width k <= 8.
Proof. destruct k; cbn; lia. Qed.

(** * Single field *)
Lemma field_round_trip k p si v : inside p si (width k) -> fits k v ->
  exists p', set_field k p si v = Ok p' /\ get_field k p' si = Ok v /\
    same_outside (fun i => si <= i < si + width k) p p' /\
    region p' si (width k) = le_digits (Z.to_nat (width k)) v.
Proof.
  intros Hin Hv. pose proof Hin as (H1 & H2 & H3). pose proof (width_pos k) as Hw.
  exists (overwrite p (Z.to_nat si) (word k v)).
  assert (Hreg : region (overwrite p (Z.to_nat si) (word k v)) si (width k) = word k v).
  { rewrite <- (word_len k v) at 1. apply region_overwrite_same; rewrite ?word_len; lia. }
  assert (Hlen : zlen (overwrite p (Z.to_nat si) (word k v)) = zlen p)
    by (apply zlen_overwrite; lia).
  split; [now apply set_field_ok|]. split; [|split].
  - apply get_field_word; auto. unfold inside. lia.
  - split; auto. intros i Hi Ho. apply overwrite_outside; rewrite ?word_len; auto.
  - exact Hreg.
Qed.

Lemma field_out_of_range k p si v : 0 <= si -> zlen p < si + width k ->
  si + width k <= 2 ^ 32 -> fits k v ->
  set_field k p si v = Panic /\ (wf_bytes p -> get_field k p si = Panic).
Proof.
  intros H1 H2 H3 Hv. split; [now apply set_field_panic|]. intros _.
  assert (G : forall j, (0 <= j < width k) -> sidx p si j <> Panic -> si + j < zlen p).
  { intros j Hj Hs. destruct (Z.ltb_spec (si + j) (zlen p)); auto.
    exfalso. apply Hs. apply sidx_out; lia. }
  assert (L : sidx p si (width k - 1) = Panic).
  { apply sidx_out; pose proof (width_pos k); lia. }
  destruct k; cbn [width] in *; cbn [get_field];
    unfold GetByte, GetInt8, GetUInt8, GetInt16, GetUInt16, GetInt32, GetUInt32, GetInt64, GetUInt64;
    repeat match goal with
    | |- context [sidx p si ?j] =>
        first [ change (sidx p si j = Panic) in L; rewrite L; reflexivity
              | destruct (sidx p si j); [rewrite bind_ok|reflexivity] ]
    end; auto.
Qed.

(** * Several fields, any order *)
Definition field_ok (p : bytes) (f : kind * Z * Z) : Prop :=
  match f with (k, si, v) => inside p si (width k) /\ fits k v end.

Lemma inside_len p q off n : zlen q = zlen p -> inside p off n -> inside q off n.
Proof. unfold inside. intros ->. auto. Qed.

Lemma field_ok_len p q f : zlen q = zlen p -> field_ok p f -> field_ok q f.
Proof.
  destruct f as [[k si] v]. intros E [H1 H2]. split; auto. eapply inside_len; eauto.
Qed.

Lemma set_fields_ok fs : forall p, Forall (field_ok p) fs -> all_apart fs ->
  exists p', set_fields p fs = Ok p' /\ zlen p' = zlen p /\
    (forall k si v, In (k, si, v) fs -> region p' si (width k) = word k v) /\
    (forall i, 0 <= i -> (forall k si v, In (k, si, v) fs -> ~ (si <= i < si + width k)) ->
       nth_error p' (Z.to_nat i) = nth_error p (Z.to_nat i)).
Proof.
  induction fs as [|[[k si] v] t IH]; intros p Hok Hap; cbn [set_fields].
  - exists p. split; [auto|]. split; [auto|]. split; [intros ? ? ? []|auto].
  - inversion Hok as [|? ? Hf Hok']; subst. destruct Hf as [Hin Hv].
    inversion Hap as [|? ? ? ? Ha Hap']; subst.
    pose proof Hin as (H1 & H2 & H3). pose proof (width_pos k) as Hw.
    rewrite set_field_ok by auto. rewrite bind_ok.
    set (p1 := overwrite p (Z.to_nat si) (word k v)).
    assert (L1 : zlen p1 = zlen p) by (apply zlen_overwrite; lia).
    destruct (IH p1) as (p' & E & L & R & O).
    { eapply Forall_impl; [|exact Hok']. intros a. now apply field_ok_len. }
    { exact Hap'. }
    exists p'. split; auto. split; [congruence|]. split.
    + intros k' si' v' [Heq|Hi]; [|now apply R].
      injection Heq as <- <- <-.
      transitivity (region p1 si (width k)).
      * apply region_ext; try lia. intros i Hi. apply O; [lia|].
        intros k' si' v' Hi' Hc. rewrite Forall_forall in Ha. specialize (Ha _ Hi').
        cbn in Ha. unfold apart in Ha. lia.
      * unfold p1. rewrite <- (word_len k v) at 1.
        apply region_overwrite_same; rewrite ?word_len; lia.
    + intros i Hi Hn. rewrite O; auto.
      * unfold p1. apply overwrite_outside; rewrite ?word_len; auto.
        apply (Hn k si v). now left.
      * intros k' si' v' Hi'. apply (Hn k' si' v'). now right.
Qed.

Lemma all_apart_perm fs gs : Permutation fs gs -> all_apart fs -> all_apart gs.
Proof.
  intros HP. induction HP as [|[[k si] v] l l' HP IH|[[k si] v] [[k' si'] v'] l|]; intros H; auto.
  - inversion H as [|? ? ? ? Ha Hr]; subst. constructor; auto. rewrite Forall_forall in *.
    intros x Hx. apply Ha. eapply Permutation_in; [|exact Hx]. now apply Permutation_sym.
  - inversion H as [|? ? ? ? Ha Hr]; subst. inversion Hr as [|? ? ? ? Hb Hr']; subst.
    inversion Ha as [|? ? Hc Ha']; subst. constructor.
    + constructor; auto. unfold apart in *. tauto.
    + constructor; auto.
Qed.

Lemma set_fields_any_order fs gs p :
  Permutation fs gs -> Forall (field_ok p) fs -> all_apart fs ->
  exists p', set_fields p fs = Ok p' /\ set_fields p gs = Ok p' /\
    (forall k si v, In (k, si, v) fs -> get_field k p' si = Ok v) /\
    same_outside (fun i => exists k si v, In (k, si, v) fs /\ si <= i < si + width k) p p'.
Proof.
  intros HP Hok Hap.
  destruct (set_fields_ok fs p Hok Hap) as (p1 & E1 & L1 & R1 & O1).
  destruct (set_fields_ok gs p) as (p2 & E2 & L2 & R2 & O2).
  { rewrite Forall_forall in *. intros x Hx. apply Hok.
    eapply Permutation_in; [apply Permutation_sym, HP|exact Hx]. }
  { eapply all_apart_perm; eauto. }
  assert (EQ : p1 = p2).
  { apply list_ext. intros n. rewrite <- (Nat2Z.id n).
    assert (D : (exists k si v, In (k, si, v) fs /\ si <= Z.of_nat n < si + width k) \/
      (forall k si v, In (k, si, v) fs -> ~ (si <= Z.of_nat n < si + width k))).
    { clear - fs. induction fs as [|[[k si] v] t IH].
      - right. intros ? ? ? [].
      - destruct IH as [(k' & si' & v' & Hi & Hr)|Hn].
        + left. exists k', si', v'. split; auto. now right.
        + destruct (Z_le_dec si (Z.of_nat n)); [destruct (Z_lt_dec (Z.of_nat n) (si + width k))|].
          * left. exists k, si, v. split; [now left|lia].
          * right. intros k' si' v' [Heq|Hi]; [injection Heq as <- <- <-; lia|eauto].
          * right. intros k' si' v' [Heq|Hi]; [injection Heq as <- <- <-; lia|eauto]. }
    destruct D as [(k & si & v & Hi & Hr)|Hn].
    - assert (Hin : inside p si (width k)).
      { rewrite Forall_forall in Hok. apply (Hok _ Hi). }
      destruct Hin as (I1 & I2 & I3).
      assert (RR : region p1 si (width k) = region p2 si (width k)).
      { rewrite (R1 _ _ _ Hi), (R2 _ _ v); auto. eapply Permutation_in; eauto. }
      assert (G : forall q, nth_error q (Z.to_nat (Z.of_nat n)) =
         nth_error (region q si (width k)) (Z.to_nat (Z.of_nat n - si))).
      { intros q. rewrite nth_region by lia.
        destruct (Nat.ltb_spec (Z.to_nat (Z.of_nat n - si)) (Z.to_nat (width k))); [|lia].
        f_equal. lia. }
      rewrite (G p1), (G p2). congruence.
    - rewrite O1, O2; auto; try lia.
      intros k si v Hi. apply (Hn k si v). eapply Permutation_in; [apply Permutation_sym, HP|exact Hi]. }
  exists p1. split; auto. split; [congruence|]. split.
  - intros k si v Hi. rewrite Forall_forall in Hok. destruct (Hok _ Hi) as [Hin Hv].
    apply get_field_word; auto. eapply inside_len; eauto.
  - split; auto. intros i Hi Hn. apply O1; auto. intros k si v Hin Hc. apply Hn. eauto 6.
Qed.

(** * Slots and heap blocks of dynamic fields *)
Lemma SetUInt32_ok p si v : inside p si 4 -> 0 <= v < 2 ^ 32 ->
  SetUInt32 p si v = Ok (overwrite p (Z.to_nat si) (le_digits 4 v)).
Proof. intros. exact (set_field_ok KUInt32 p si v H H0). Qed.

Lemma GetUInt32_at p si v : inside p si 4 -> 0 <= v < 2 ^ 32 ->
  region p si 4 = le_digits 4 v -> GetUInt32 p si = Ok v.
Proof. intros H H0 H1. exact (get_field_word KUInt32 p si v H H0 H1). Qed.

Definition slot (ha ln : Z) : bytes := le_digits 4 ha ++ le_digits 4 ln.
Lemma slot_len ha ln : zlen (slot ha ln) = 8.
Proof. unfold slot, zlen. rewrite app_length, !le_digits_length. reflexivity. Qed.
Lemma len4 v : zlen (le_digits 4 v) = 4.
Proof. unfold zlen. now rewrite le_digits_length. Qed.

Lemma set_slot p si ha ln : inside p si 8 -> 0 <= ha < 2 ^ 32 -> 0 <= ln < 2 ^ 32 ->
  (let! p1 := SetUInt32 p si ha in SetUInt32 p1 (u32 (si + 4)) ln)
  = Ok (overwrite p (Z.to_nat si) (slot ha ln)).
Proof.
  intros (H1 & H2 & H3) Hh Hl. rewrite SetUInt32_ok; [|unfold inside; lia|lia]. rewrite bind_ok.
  rewrite u32_small by lia. rewrite SetUInt32_ok; [|unfold inside; rewrite zlen_overwrite by lia; lia|lia].
  apply Ok_eq. unfold slot. unfold zlen in *.
  replace (Z.to_nat (si + 4)) with (Z.to_nat si + length (le_digits 4 ha))%nat
    by (rewrite le_digits_length; lia).
  apply overwrite_app. rewrite !le_digits_length. lia.
Qed.

Lemma get_slot p si ha ln : inside p si 8 -> 0 <= ha < 2 ^ 32 -> 0 <= ln < 2 ^ 32 ->
  region p si 8 = slot ha ln ->
  GetUInt32 p si = Ok ha /\ GetUInt32 p (u32 (si + 4)) = Ok ln.
Proof.
  intros (H1 & H2 & H3) Hh Hl Hr. split.
  - apply GetUInt32_at; auto; [unfold inside; lia|].
    apply list_ext; intros k. assert (E := f_equal (fun l => nth_error l k) Hr). cbn beta in E.
    rewrite nth_region in * by lia. unfold slot in E.
    destruct (Nat.ltb_spec k (Z.to_nat 4)).
    + destruct (Nat.ltb_spec k (Z.to_nat 8)); [|lia].
      rewrite E. apply nth_error_app1. rewrite le_digits_length. lia.
    + symmetry. apply nth_error_None. rewrite le_digits_length. lia.
  - rewrite u32_small by lia. apply GetUInt32_at; auto; [unfold inside; lia|].
    apply list_ext; intros k. assert (E := f_equal (fun l => nth_error l (4 + k)) Hr). cbn beta in E.
    rewrite nth_region in * by lia. unfold slot in E.
    destruct (Nat.ltb_spec k (Z.to_nat 4)).
    + destruct (Nat.ltb_spec (4 + k) (Z.to_nat 8)); [|lia].
      rewrite nth_error_app2 in E by (rewrite le_digits_length; lia).
      rewrite le_digits_length in E. replace (4 + k - 4)%nat with k in E by lia.
      rewrite <- E. f_equal. lia.
    + symmetry. apply nth_error_None. rewrite le_digits_length. lia.
Qed.

(** Element memory. *)
Lemma mem_le_digits n v : mem_le n v = le_digits n v.
Proof. revert v; induction n as [|n IH]; intros v; cbn [mem_le le_digits]; [auto|now rewrite IH]. Qed.
Lemma val_le_value l : val_le l = le_value l.
Proof. induction l as [|b t IH]; cbn [val_le le_value]; [auto|now rewrite IH]. Qed.
Lemma elem_mem_length e v : length (elem_mem e v) = esize e.
Proof. unfold elem_mem. now rewrite mem_le_digits, le_digits_length. Qed.
Lemma elem_val_mem e v : elem_fits e v -> elem_val e (elem_mem e v) = v.
Proof.
  intros H. unfold elem_val, elem_mem. rewrite val_le_value, mem_le_digits, le_digits_mod.
  destruct e; cbn [elem_fits esize] in *;
    match goal with |- context [256 ^ Z.of_nat ?n] =>
      let m := eval vm_compute in (256 ^ Z.of_nat n) in change (256 ^ Z.of_nat n) with m end;
    unfold i8, i16, i32, i64;
    try (rewrite Z.mod_small by lia; reflexivity); lia.
Qed.

Lemma esize_pos e : (1 <= esize e)%nat.
Proof. destruct e; cbn; lia. Qed.
Lemma esize_bytes e : Z.of_nat (esize e) = elem_bytes e.
Proof. destruct e; reflexivity. Qed.

Lemma to_byte_slice_length e s : length (to_byte_slice e s) = (length s * esize e)%nat.
Proof.
  unfold to_byte_slice. induction s as [|v t IH]; cbn [flat_map length]; auto.
  rewrite app_length, elem_mem_length, IH. lia.
Qed.
Lemma to_byte_slice_zlen e s : zlen (to_byte_slice e s) = zlen s * elem_bytes e.
Proof. unfold zlen. rewrite to_byte_slice_length, <- esize_bytes. lia. Qed.

Lemma cast_mem e s rest : Forall (elem_fits e) s ->
  cast e (length s) (to_byte_slice e s ++ rest) = s.
Proof.
  intros H. induction H as [|v t Hv Ht IH]; cbn [cast length]; auto.
  unfold to_byte_slice in *; cbn [flat_map]. rewrite <- app_assoc.
  rewrite firstn_app, elem_mem_length, Nat.sub_diag. cbn [firstn].
  rewrite app_nil_r, firstn_all2 by (rewrite elem_mem_length; lia).
  rewrite skipn_app, elem_mem_length, Nat.sub_diag. cbn [skipn].
  rewrite skipn_all2 by (rewrite elem_mem_length; lia). cbn [app].
  now rewrite IH, elem_val_mem.
Qed.

Lemma cast_length e n p : length (cast e n p) = n.
Proof. revert p; induction n as [|n IH]; intros p; cbn [cast length]; auto. Qed.
Lemma firstn_cast e n : forall m p, (n <= m)%nat -> firstn n (cast e m p) = cast e n p.
Proof.
  induction n as [|n IH]; intros [|m] p H; cbn [cast firstn]; auto; try lia.
  rewrite IH by lia. reflexivity.
Qed.

Lemma overwrite_zero {A} (d : list A) s : (length d <= length s)%nat ->
  overwrite d 0 s = firstn (length d) s.
Proof.
  intros H. unfold overwrite. cbn [firstn app]. rewrite Nat.sub_0_r.
  rewrite skipn_all2 by (cbn; lia). apply app_nil_r.
Qed.

Lemma skip_skip {A} (l : list A) : forall a b, skipn a (skipn b l) = skipn (b + a) l.
Proof.
  induction l as [|x l IH]; intros a [|b]; cbn [skipn Nat.add]; auto; now rewrite ?skipn_nil.
Qed.

Lemma region_split p off n : inside p off n -> 0 <= n ->
  skipn (Z.to_nat off) p = region p off n ++ skipn (Z.to_nat (off + n)) p.
Proof.
  intros (H1 & H2 & H3) Hn. unfold region.
  rewrite <- (firstn_skipn (Z.to_nat n) (skipn (Z.to_nat off) p)) at 1.
  f_equal. rewrite skip_skip. f_equal. lia.
Qed.

Lemma get_typed e p si ha s : inside p si 8 -> Forall (elem_fits e) s ->
  inside p ha (zlen s * elem_bytes e) -> zlen p < 2 ^ 32 ->
  region p si 8 = slot ha (zlen s) ->
  region p ha (zlen s * elem_bytes e) = to_byte_slice e s ->
  GetTypedArray e p si = Ok s /\ UnsafeGetTypedArray e p si = Ok s.
Proof.
  intros Hsi Hs Hha Hp Hslot Hheap. pose proof Hha as (H1 & H2 & H3).
  pose proof (zlen_nonneg s) as Hns.
  assert (Hen : 1 <= elem_bytes e) by (rewrite <- esize_bytes; pose proof (esize_pos e); lia).
  assert (Hl : 0 <= zlen s < 2 ^ 32) by nia.
  destruct (get_slot p si ha (zlen s)) as [G1 G2]; auto; [nia|].
  unfold GetTypedArray, UnsafeGetTypedArray. rewrite G1, G2, !bind_ok. split.
  - rewrite slice_from_ok by nia. rewrite bind_ok. apply Ok_eq.
    rewrite (region_split p ha (zlen s * elem_bytes e)) by (auto; nia). rewrite Hheap.
    unfold of_byte_slice.
    set (rest := skipn _ p).
    rewrite overwrite_zero.
    + rewrite repeat_length. unfold zlen. rewrite Nat2Z.id. rewrite firstn_cast.
      * now apply cast_mem.
      * rewrite app_length, to_byte_slice_length. pose proof (esize_pos e).
        apply Nat.div_le_lower_bound; lia.
    + rewrite repeat_length, cast_length. unfold zlen. rewrite Nat2Z.id.
      rewrite app_length, to_byte_slice_length. pose proof (esize_pos e).
      apply Nat.div_le_lower_bound; lia.
  - rewrite esize_bytes. rewrite (u32_small (zlen s * _)) by nia. rewrite u32_small by nia.
    rewrite slice_ok by nia. rewrite bind_ok. apply Ok_eq.
    replace (ha + zlen s * elem_bytes e - ha) with (zlen s * elem_bytes e) by lia.
    change (firstn _ _) with (region p ha (zlen s * elem_bytes e)). rewrite Hheap.
    unfold of_byte_slice. rewrite to_byte_slice_length.
    rewrite Nat.div_mul by (pose proof (esize_pos e); lia).
    rewrite <- (app_nil_r (to_byte_slice e s)). now apply cast_mem.
Qed.

Lemma copy_at_ok {A} (p : list A) at_ s : 0 <= at_ <= zlen p ->
  copy_at p at_ s = Ok (overwrite p (Z.to_nat at_) s).
Proof.
  intros. unfold copy_at.
  destruct (Z.leb_spec 0 at_), (Z.leb_spec at_ (zlen p)); cbn [andb]; auto; lia.
Qed.

Lemma bind_assoc {A B C} (r : res A) (f : A -> res B) (g : B -> res C) :
  bind (bind r f) g = bind r (fun x => bind (f x) g).
Proof. destruct r; reflexivity. Qed.

Lemma set_typed e p si ha s : inside p si 8 -> zlen p < 2 ^ 32 ->
  0 <= ha -> ha + zlen s * elem_bytes e <= zlen p ->
  SetTypedArray e p s si ha =
  Ok (overwrite (overwrite p (Z.to_nat si) (slot ha (zlen s))) (Z.to_nat ha) (to_byte_slice e s),
      ha + zlen s * elem_bytes e).
Proof.
  intros Hsi Hp H1 H2. pose proof Hsi as (S1 & S2 & S3). pose proof (zlen_nonneg s).
  assert (Hen : 1 <= elem_bytes e) by (rewrite <- esize_bytes; pose proof (esize_pos e); lia).
  unfold SetTypedArray. rewrite (u32_small (zlen s)) by nia.
  rewrite <- bind_assoc. rewrite set_slot by (auto; nia). rewrite bind_ok.
  rewrite copy_at_ok by (rewrite zlen_overwrite by lia; nia). rewrite bind_ok.
  rewrite esize_bytes. rewrite (u32_small (zlen s * _)) by nia. rewrite u32_small by nia. reflexivity.
Qed.

Lemma set_string_typed p s si ha : inside p si 8 -> zlen p < 2 ^ 32 ->
  0 <= ha -> ha + zlen s <= zlen p -> wf_bytes s ->
  SetString p s si ha = SetTypedArray EByte p s si ha.
Proof.
  intros Hsi Hp H1 H2 Hw. pose proof Hsi as (S1 & S2 & S3). pose proof (zlen_nonneg s).
  rewrite set_typed; auto; cbn [elem_bytes]; [|lia].
  unfold SetString. rewrite (u32_small (zlen s)) by lia.
  change (sput p si 0 _) with (SetUInt32 p si ha).
  rewrite SetUInt32_ok by (unfold inside; lia). rewrite bind_ok.
  assert (E : [u8 (zlen s); u8 (Z.shiftr (zlen s) 8); u8 (Z.shiftr (zlen s) 16); u8 (Z.shiftr (zlen s) 24)]
     = le_digits 4 (zlen s)).
  { cbn [le_digits]. rewrite ?shr_u8 by lia. unfold u8. now rewrite ?Z.div_div by lia. }
  rewrite E. rewrite sput_ok; rewrite ?len4, ?zlen_overwrite; try lia. rewrite bind_ok.
  assert (E2 : overwrite (overwrite p (Z.to_nat si) (le_digits 4 ha)) (Z.to_nat (si + 4)) (le_digits 4 (zlen s))
    = overwrite p (Z.to_nat si) (slot ha (zlen s))).
  { unfold slot. unfold zlen in S2.
    replace (Z.to_nat (si + 4)) with (Z.to_nat si + length (le_digits 4 ha))%nat
      by (rewrite le_digits_length; lia).
    apply overwrite_app. rewrite !le_digits_length. lia. }
  rewrite E2. rewrite copy_at_ok by (rewrite zlen_overwrite by lia; lia). rewrite bind_ok.
  rewrite u32_small by lia.
  assert (E3 : to_byte_slice EByte s = s).
  { clear - Hw. induction Hw as [|b t Hb Ht IH]; [reflexivity|].
    unfold to_byte_slice in *. cbn [flat_map]. rewrite IH.
    unfold elem_mem. cbn [esize mem_le]. unfold is_byte in Hb. rewrite Z.mod_small by lia. reflexivity. }
  rewrite E3. apply Ok_eq. f_equal. lia.
Qed.

(** Arrays of strings: the table of addresses and lengths, then the text. *)
Fixpoint table (l : list bytes) (next : Z) : bytes :=
  match l with
  | [] => []
  | x :: t => slot next (zlen x) ++ table t (next + zlen x)
  end.
Lemma table_len l : forall next, zlen (table l next) = 8 * zlen l.
Proof.
  induction l as [|x t IH]; intros next; cbn [table]; auto.
  rewrite zlen_app, slot_len, IH, zlen_cons. lia.
Qed.

Lemma set_strings_ok l : forall p ha next, zlen p < 2 ^ 32 -> 0 <= ha ->
  ha + 8 * zlen l <= next -> next + zlen (concat l) <= zlen p ->
  set_strings p l ha next =
  Ok (overwrite (overwrite p (Z.to_nat ha) (table l next)) (Z.to_nat next) (concat l),
      next + zlen (concat l)).
Proof.
  induction l as [|x t IH]; intros p ha next Hp H1 H2 H3; cbn [set_strings table concat] in *.
  - rewrite zlen_nil in *. rewrite !overwrite_nil; [now rewrite Z.add_0_r| |];
      rewrite ?overwrite_nil; unfold zlen in *; cbn [length] in *; lia.
  - rewrite zlen_cons in H2. rewrite zlen_app in *.
    pose proof (zlen_nonneg t); pose proof (zlen_nonneg x); pose proof (zlen_nonneg (concat t)).
    rewrite (u32_small (zlen x)) by lia.
    rewrite <- bind_assoc. rewrite set_slot by (unfold inside; lia). rewrite bind_ok.
    rewrite copy_at_ok by (rewrite zlen_overwrite by lia; lia). rewrite bind_ok.
    rewrite (u32_small (ha + 8)) by lia. rewrite (u32_small (next + _)) by lia.
    set (p1 := overwrite p (Z.to_nat ha) (slot next (zlen x))).
    assert (L1 : zlen p1 = zlen p) by (apply zlen_overwrite; lia).
    assert (L2 : zlen (overwrite p1 (Z.to_nat next) x) = zlen p) by (rewrite zlen_overwrite; lia).
    rewrite IH by lia. apply Ok_eq. f_equal; [|lia].
    pose proof (table_len t (next + zlen x)) as TL. pose proof (slot_len next (zlen x)) as SL.
    set (T := table t (next + zlen x)) in *. set (Sl := slot next (zlen x)) in *.
    assert (EN : Z.to_nat (next + zlen x) = (Z.to_nat next + length x)%nat) by (unfold zlen; lia).
    rewrite EN. clearbody T Sl. unfold zlen in * |-.
    assert (EH : Z.to_nat (ha + 8) = (Z.to_nat ha + length Sl)%nat) by lia.
    assert (N1 : length p1 = length p) by (apply Nat2Z.inj; exact L1).
    clear IH L1 L2.
    rewrite (overwrite_comm p1 (Z.to_nat next) x) by (rewrite ?N1; lia).
    unfold p1. rewrite EH.
    rewrite (overwrite_app p (Z.to_nat ha) Sl T) by lia.
    rewrite overwrite_app; [reflexivity|rewrite overwrite_length; lia].
Qed.

Lemma region_region p off n o2 m : 0 <= off -> 0 <= n -> 0 <= o2 -> 0 <= m -> o2 + m <= n ->
  region (region p off n) o2 m = region p (off + o2) m.
Proof.
  intros. apply list_ext; intros k. rewrite !nth_region by lia.
  destruct (Nat.ltb_spec k (Z.to_nat m)); auto.
  destruct (Nat.ltb_spec (Z.to_nat o2 + k) (Z.to_nat n)); [|lia]. f_equal. lia.
Qed.

Lemma region_app_l a b n : 0 <= n -> n = zlen a -> region (a ++ b) 0 n = a.
Proof.
  intros H ->. unfold region. rewrite Z2Nat.inj_0. cbn [skipn]. unfold zlen. rewrite Nat2Z.id.
  rewrite firstn_app, Nat.sub_diag, firstn_all. cbn [firstn]. apply app_nil_r.
Qed.
Lemma region_app_r a b o n : 0 <= n -> o = zlen a -> region (a ++ b) o n = region b 0 n.
Proof.
  intros H ->. unfold region, zlen. rewrite Nat2Z.id. rewrite skipn_app, skipn_all, Nat.sub_diag. reflexivity.
Qed.
Lemma region_all a n : n = zlen a -> region a 0 n = a.
Proof. intros ->. rewrite <- (app_nil_r a) at 1. apply region_app_l; auto. apply zlen_nonneg. Qed.

Lemma get_strings_ok l : forall p ha next, zlen p < 2 ^ 32 -> 0 <= ha -> 0 <= next ->
  ha + 8 * zlen l <= zlen p -> next + zlen (concat l) <= zlen p ->
  region p ha (8 * zlen l) = table l next ->
  region p next (zlen (concat l)) = concat l ->
  get_strings p (length l) ha = Ok l.
Proof.
  induction l as [|x t IH]; intros p ha next Hp H1 Hn H2 H3 Ht Hc;
    cbn [get_strings length table concat] in *; auto.
  rewrite zlen_cons in *. rewrite zlen_app in *.
  pose proof (zlen_nonneg t); pose proof (zlen_nonneg x); pose proof (zlen_nonneg (concat t)).
  assert (S : region p ha 8 = slot next (zlen x)).
  { rewrite <- (Z.add_0_r ha) at 1. rewrite <- (region_region p ha (8 * (1 + zlen t)) 0 8) by lia.
    rewrite Ht. apply region_app_l; [lia|]. now rewrite slot_len. }
  assert (T : region p (ha + 8) (8 * zlen t) = table t (next + zlen x)).
  { rewrite <- (region_region p ha (8 * (1 + zlen t)) 8 _) by lia. rewrite Ht.
    rewrite region_app_r by (rewrite ?slot_len; lia). apply region_all. now rewrite table_len. }
  assert (X : region p next (zlen x) = x).
  { rewrite <- (Z.add_0_r next) at 1.
    rewrite <- (region_region p next (zlen x + zlen (concat t)) 0 _) by lia. rewrite Hc.
    now apply region_app_l. }
  assert (C : region p (next + zlen x) (zlen (concat t)) = concat t).
  { rewrite <- (region_region p next (zlen x + zlen (concat t)) (zlen x) _) by lia. rewrite Hc.
    rewrite region_app_r by auto. now apply region_all. }
  destruct (get_slot p ha next (zlen x)) as [G1 G2]; auto; [unfold inside; lia|lia|lia|].
  rewrite G1, G2, !bind_ok. rewrite u32_small by lia. rewrite slice_ok by lia. rewrite bind_ok.
  replace (next + zlen x - next) with (zlen x) by lia.
  change (firstn _ _) with (region p next (zlen x)). rewrite X.
  rewrite u32_small by lia. rewrite (IH p (ha + 8) (next + zlen x)); auto; lia.
Qed.

(** * Heap image of a value *)
Definition count (v : dval) : Z :=
  match v with DString s => zlen s | DArray _ s => zlen s | DStrings l => zlen l end.
Definition image (v : dval) (ha : Z) : bytes :=
  match v with
  | DString s => s
  | DArray e s => to_byte_slice e s
  | DStrings l => table l (ha + 8 * zlen l) ++ concat l
  end.
Lemma image_len v ha : zlen (image v ha) = heap_size v.
Proof.
  destruct v; cbn [image heap_size]; auto using to_byte_slice_zlen.
  rewrite zlen_app, table_len. reflexivity.
Qed.
Lemma heap_size_count v : 0 <= count v <= heap_size v.
Proof.
  destruct v; cbn [count heap_size].
  - pose proof (zlen_nonneg s); lia.
  - pose proof (zlen_nonneg s).
    assert (1 <= elem_bytes e) by (rewrite <- esize_bytes; pose proof (esize_pos e); lia). nia.
  - pose proof (zlen_nonneg l); pose proof (zlen_nonneg (concat l)); lia.
Qed.

Lemma set_dval_ok p v si ha : dval_ok v -> inside p si 8 -> zlen p < 2 ^ 32 ->
  0 <= ha -> ha + heap_size v <= zlen p -> 
  set_dval p v si ha =
  Ok (overwrite (overwrite p (Z.to_nat si) (slot ha (count v))) (Z.to_nat ha) (image v ha),
      ha + heap_size v).
Proof.
  intros Hv Hsi Hp H1 H2. pose proof Hsi as (S1 & S2 & S3).
  destruct v; cbn [dval_ok heap_size count image set_dval] in *.
  - rewrite set_string_typed by auto. rewrite set_typed; auto; cbn [elem_bytes]; [|lia].
    assert (E3 : to_byte_slice EByte s = s).
    { clear - Hv. induction Hv as [|b t Hb Ht IH]; [reflexivity|].
      unfold to_byte_slice in *. cbn [flat_map]. rewrite IH.
      unfold elem_mem. cbn [esize mem_le]. unfold is_byte in Hb. rewrite Z.mod_small by lia. reflexivity. }
    rewrite E3. apply Ok_eq. f_equal. lia.
  - now apply set_typed.
  - pose proof (zlen_nonneg l); pose proof (zlen_nonneg (concat l)).
    unfold SetStringArray. rewrite (u32_small (zlen l)) by lia.
    rewrite <- bind_assoc. rewrite set_slot by (auto; lia). rewrite bind_ok.
    replace (firstn (Z.to_nat (zlen l)) l) with l
      by (unfold zlen; rewrite Nat2Z.id, firstn_all; reflexivity).
    rewrite (u32_small (zlen l * 8)) by lia. rewrite u32_small by lia.
    rewrite set_strings_ok; rewrite ?zlen_overwrite; try lia.
    replace (ha + zlen l * 8) with (ha + 8 * zlen l) by lia.
    apply Ok_eq. f_equal; [|lia].
    pose proof (table_len l (ha + 8 * zlen l)) as TL.
    assert (LO : zlen (overwrite p (Z.to_nat si) (slot ha (zlen l))) = zlen p) by (apply zlen_overwrite; lia).
    unfold zlen in TL, LO, H2, H. 
    replace (Z.to_nat (ha + 8 * zlen l)) with (Z.to_nat ha + length (table l (ha + 8 * zlen l)))%nat
      by (unfold zlen in *; lia).
    apply overwrite_app. unfold zlen in *. lia.
Qed.

Lemma reads_ok p v si ha : dval_ok v -> inside p si 8 -> zlen p < 2 ^ 32 ->
  0 <= ha -> ha + heap_size v <= zlen p ->
  region p si 8 = slot ha (count v) -> region p ha (heap_size v) = image v ha ->
  reads_back p si v.
Proof.
  intros Hv Hsi Hp H1 H2 Hs Hh.
  destruct v; cbn [dval_ok heap_size count image reads_back] in *.
  - apply (get_typed EByte p si ha s); auto; cbn [elem_bytes]; rewrite ?Z.mul_1_r; auto.
    + unfold inside; lia.
    + rewrite Hh. symmetry. clear - Hv. induction Hv as [|b t Hb Ht IH]; [reflexivity|].
      unfold to_byte_slice in *. cbn [flat_map]. rewrite IH.
      unfold elem_mem. cbn [esize mem_le]. unfold is_byte in Hb. rewrite Z.mod_small by lia. reflexivity.
  - apply (get_typed e p si ha s); auto. unfold inside. lia.
  - pose proof (zlen_nonneg l); pose proof (zlen_nonneg (concat l)).
    unfold GetStringArray. destruct (get_slot p si ha (zlen l)) as [G1 G2]; auto; try lia.
    rewrite G1, G2, !bind_ok.
    replace (Z.to_nat (zlen l)) with (length l) by (unfold zlen; now rewrite Nat2Z.id).
    apply (get_strings_ok l p ha (ha + 8 * zlen l)); auto; try lia.
    + rewrite <- (Z.add_0_r ha) at 1.
      rewrite <- (region_region p ha (8 * zlen l + zlen (concat l)) 0 _) by lia. rewrite Hh.
      apply region_app_l; [lia|]. now rewrite table_len.
    + rewrite <- (region_region p ha (8 * zlen l + zlen (concat l)) (8 * zlen l) _) by lia.
      rewrite Hh. rewrite region_app_r by (rewrite ?table_len; lia). now apply region_all.
Qed.

Lemma dyn_field p v si ha : dval_ok v -> inside p si 8 -> zlen p < 2 ^ 32 ->
  0 <= ha -> ha + heap_size v <= zlen p -> apart si 8 ha (heap_size v) ->
  exists p', set_dval p v si ha = Ok (p', ha + heap_size v) /\ reads_back p' si v /\
    same_outside (fun i => si <= i < si + 8 \/ ha <= i < ha + heap_size v) p p'.
Proof.
  intros Hv Hsi Hp H1 H2 Hd. pose proof Hsi as (S1 & S2 & S3).
  pose proof (heap_size_count v) as Hc.
  eexists. split; [now apply set_dval_ok|].
  set (p1 := overwrite p (Z.to_nat si) (slot ha (count v))).
  assert (L1 : zlen p1 = zlen p) by (apply zlen_overwrite; lia).
  assert (L2 : zlen (overwrite p1 (Z.to_nat ha) (image v ha)) = zlen p) by (rewrite zlen_overwrite; lia).
  split.
  - apply (reads_ok _ v si ha); auto; rewrite ?L2; auto.
    + eapply inside_len; [exact L2|exact Hsi].
    + rewrite region_overwrite_apart; rewrite ?image_len; auto; try lia.
      * unfold p1. rewrite <- (slot_len ha (count v)) at 1.
        apply region_overwrite_same; rewrite ?slot_len; lia.
      * unfold apart in *; lia.
    + rewrite <- (image_len v ha) at 1. apply region_overwrite_same; rewrite ?image_len; lia.
  - split; auto. intros i Hi Hn.
    rewrite overwrite_outside; rewrite ?image_len; auto; try lia.
    unfold p1. rewrite overwrite_outside; rewrite ?slot_len; auto; lia.
Qed.

Lemma record_size_nonneg fs : 0 <= record_size fs.
Proof.
  induction fs as [|[si v] t IH]; cbn [record_size]; [lia|].
  pose proof (heap_size_count v); lia.
Qed.

Lemma record_ok fs : forall p ha,
  Forall (fun f => dval_ok (snd f) /\ 0 <= fst f /\ fst f + 8 <= ha) fs ->
  slots_apart fs -> 0 <= ha -> zlen p < 2 ^ 32 -> ha + record_size fs <= zlen p ->
  exists p', set_record p fs ha = Ok (p', ha + record_size fs) /\ zlen p' = zlen p /\
    (forall si v, In (si, v) fs -> exists h, ha <= h /\ h + heap_size v <= ha + record_size fs /\
       region p' si 8 = slot h (count v) /\ region p' h (heap_size v) = image v h) /\
    (forall i, 0 <= i -> ~ (ha <= i < ha + record_size fs) ->
       (forall si v, In (si, v) fs -> ~ (si <= i < si + 8)) ->
       nth_error p' (Z.to_nat i) = nth_error p (Z.to_nat i)).
Proof.
  induction fs as [|[si v] t IH]; intros p ha Hok Hap H1 Hp H2; cbn [set_record record_size] in *.
  - exists p. rewrite Z.add_0_r. split; [auto|]. split; [auto|]. split; [intros ? ? []|auto].
  - inversion Hok as [|? ? (Hv & Hs0 & Hs1) Hok']; subst. inversion Hap as [|? ? ? Ha Hap']; subst.
    cbn [fst snd] in *. pose proof (heap_size_count v) as Hc. pose proof (record_size_nonneg t) as Hr.
    rewrite set_dval_ok; auto; [|unfold inside; lia|lia]. rewrite bind_ok. cbn [fst snd].
    set (p1 := overwrite p (Z.to_nat si) (slot ha (count v))).
    set (p2 := overwrite p1 (Z.to_nat ha) (image v ha)).
    assert (L1 : zlen p1 = zlen p) by (apply zlen_overwrite; lia).
    assert (L2 : zlen p2 = zlen p) by (unfold p2; rewrite zlen_overwrite; lia).
    destruct (IH p2 (ha + heap_size v)) as (p' & E & L & R & O); auto; try lia.
    { eapply Forall_impl; [|exact Hok']. cbn. intros a (A1 & A2 & A3). repeat split; auto; lia. }
    exists p'. split; [rewrite E; apply Ok_eq; f_equal; lia|]. split; [congruence|]. split.
    + intros si' v' [Heq|Hi].
      * injection Heq as <- <-. exists ha. split; [lia|]. split; [lia|].
        assert (Hslots : forall si' v', In (si', v') t -> apart si 8 si' 8).
        { intros si' v' Hi. rewrite Forall_forall in Ha. exact (Ha _ Hi). }
        assert (Hbelow : forall si' v', In (si', v') t -> 0 <= si' /\ si' + 8 <= ha).
        { intros si' v' Hi. rewrite Forall_forall in Hok'. destruct (Hok' _ Hi) as (? & ? & ?).
          cbn in *; lia. }
        split.
        -- transitivity (region p2 si 8).
           ++ apply region_ext; try lia. intros i Hi. apply O; try lia.
              intros si' v' Hi'. specialize (Hslots _ _ Hi'). unfold apart in Hslots. lia.
           ++ unfold p2. rewrite region_overwrite_apart; rewrite ?image_len; auto; try lia.
              ** unfold p1. rewrite <- (slot_len ha (count v)) at 1.
                 apply region_overwrite_same; rewrite ?slot_len; lia.
              ** unfold apart; lia.
        -- transitivity (region p2 ha (heap_size v)).
           ++ apply region_ext; try lia. intros i Hi. apply O; try lia.
           ++ unfold p2. rewrite <- (image_len v ha) at 1.
              apply region_overwrite_same; rewrite ?image_len; lia.
      * destruct (R _ _ Hi) as (h & B1 & B2 & B3 & B4). exists h. repeat split; auto; lia.
    + intros i Hi Hn Hs. rewrite O; auto; try lia.
      * unfold p2. rewrite overwrite_outside; rewrite ?image_len; auto; try lia.
        unfold p1. apply overwrite_outside; rewrite ?slot_len; auto; try lia.
        apply (Hs si v). now left.
      * intros si' v' Hi'. apply (Hs si' v'). now right.
Qed.

Lemma record_round_trip fs p ha :
  Forall (fun f => dval_ok (snd f) /\ 0 <= fst f /\ fst f + 8 <= ha) fs ->
  slots_apart fs -> 0 <= ha -> zlen p < 2 ^ 32 -> ha + record_size fs <= zlen p ->
  exists p', set_record p fs ha = Ok (p', ha + record_size fs) /\
    (forall si v, In (si, v) fs -> reads_back p' si v) /\
    same_outside (fun i => ha <= i < ha + record_size fs \/
       exists si v, In (si, v) fs /\ si <= i < si + 8) p p'.
Proof.
  intros Hok Hap H1 Hp H2.
  destruct (record_ok fs p ha Hok Hap H1 Hp H2) as (p' & E & L & R & O).
  exists p'. split; auto. split.
  - intros si v Hi. destruct (R _ _ Hi) as (h & B1 & B2 & B3 & B4).
    rewrite Forall_forall in Hok. destruct (Hok _ Hi) as (C1 & C2 & C3). cbn [fst snd] in *.
    pose proof (heap_size_count v).
    apply (reads_ok p' v si h); auto; rewrite ?L; try lia. unfold inside; lia.
  - split; auto. intros i Hi Hn. apply O; auto. intros si v Hin Hc. apply Hn. right. eauto.
Qed.

(** * Booleans, complex numbers, fixed arrays *)
Lemma bool_exact p si old b : 0 <= si < 2 ^ 32 -> idx p si = Ok old ->
  exists p', SetBool p si b = Ok p' /\
    (GetBool p' si = Ok b <-> (b = true \/ old <> 1)) /\
    same_outside (fun i => i = si) p p'.
Proof.
  intros Hs Hi. destruct (idx_inv _ _ _ Hi) as [Hr Hn]. unfold SetBool. destruct b.
  - rewrite sput_ok by (change (zlen [1]) with 1; lia). rewrite Z.add_0_r.
    eexists; split; [reflexivity|].
    assert (L : zlen (overwrite p (Z.to_nat si) [1]) = zlen p) by (apply zlen_overwrite; lia).
    split; [|split; auto].
    + split; [now left|]. intros _. unfold GetBool.
      erewrite (sidx_at _ si 1 0 1); [reflexivity|unfold inside; lia|lia|].
      change 1 with (zlen [1]) at 2. rewrite region_overwrite_same; [reflexivity|lia|].
      rewrite zlen_cons, zlen_nil; lia.
    + intros i H0 H. apply overwrite_outside; rewrite ?zlen_cons, ?zlen_nil; lia.
  - exists p. split; auto. split; [|split; auto].
    unfold GetBool, sidx. rewrite Z.add_0_r, u32_small by lia. rewrite Hi, bind_ok.
    destruct (Z.eqb_spec old 1); split; intros; try discriminate; auto.
    destruct H; [discriminate|congruence].
Qed.

Lemma fixed_array_written p si a : 0 <= si -> si + zlen a <= zlen p -> zlen p < 2 ^ 32 ->
  exists p', SetArray p si a = Ok p' /\ region p' si (zlen a) = a /\
    same_outside (fun i => si <= i < si + zlen a) p p' /\
    (GetFixedByteArray p' si (zlen a) = Ok a <-> a = []).
Proof.
  intros H1 H2 H3. pose proof (zlen_nonneg a). unfold SetArray. rewrite copy_at_ok by lia.
  eexists; split; [reflexivity|]. split; [now apply region_overwrite_same|].
  assert (L : zlen (overwrite p (Z.to_nat si) a) = zlen p) by (apply zlen_overwrite; lia).
  split; [split; auto; intros; now apply overwrite_outside|].
  unfold GetFixedByteArray. rewrite u32_small by lia. rewrite slice_ok by lia. rewrite bind_ok.
  split; [intros E; injection E; auto|now intros ->].
Qed.

Lemma float32_exact p si x : inside p si 4 -> 0 <= Qfloor x < 2 ^ 32 ->
  exists p', SetFloat32 p si x = Ok p' /\ GetFloat32 p' si = Ok (inject_Z (Qfloor x)).
Proof.
  intros Hin Hx. unfold SetFloat32. rewrite u32_small by lia.
  destruct (field_round_trip KUInt32 p si (Qfloor x) Hin Hx) as (p' & E1 & E2 & _).
  exists p'. split; auto. unfold GetFloat32. cbn [get_field] in E2. now rewrite E2.
Qed.

Lemma float64_exact p si x : inside p si 8 -> 0 <= Qfloor x < 2 ^ 64 ->
  exists p', SetFloat64 p si x = Ok p' /\ GetFloat64 p' si = Ok (inject_Z (Qfloor x)).
Proof.
  intros Hin Hx. unfold SetFloat64. rewrite u64_small by lia.
  destruct (field_round_trip KUInt64 p si (Qfloor x) Hin Hx) as (p' & E1 & E2 & _).
  exists p'. split; auto. unfold GetFloat64. cbn [get_field] in E2. now rewrite E2.
Qed.

(** Complex numbers: where the overlapping halves end up. *)
Lemma le_digits_snoc n : forall v, exists x, le_digits (S n) v = le_digits n v ++ [x].
Proof.
  induction n as [|n IH]; intros v.
  - eexists; reflexivity.
  - destruct (IH (v / 256)) as [x E]. exists x.
    change (le_digits (S (S n)) v) with (v mod 256 :: le_digits (S n) (v / 256)).
    exact (f_equal (cons (v mod 256)) E).
Qed.
Lemma le_value_app a b : le_value (a ++ b) = le_value a + 256 ^ zlen a * le_value b.
Proof.
  induction a as [|x t IH]; cbn [app le_value].
  - change (256 ^ zlen (@nil Z)) with 1. lia.
  - rewrite IH, zlen_cons, Z.pow_add_r by (pose proof (zlen_nonneg t); lia). lia.
Qed.

Lemma overwrite_overlap {A} (p : list A) a s x t : t <> [] ->
  (a + length s + length t <= length p)%nat ->
  overwrite (overwrite p a (s ++ [x])) (a + length s) t = overwrite p a (s ++ t).
Proof.
  intros Ht H. assert (1 <= length t)%nat by (destruct t; [congruence|cbn; lia]).
  apply list_ext; intros k.
  rewrite !nth_overwrite by (rewrite ?overwrite_length, ?app_length; cbn [length]; lia).
  rewrite !app_length. cbn [length].
  destruct (Nat.leb_spec (a + length s) k), (Nat.ltb_spec k (a + length s + length t)),
    (Nat.leb_spec a k), (Nat.ltb_spec k (a + (length s + 1))),
    (Nat.ltb_spec k (a + (length s + length t))); cbn [andb]; try lia; auto.
  all: try (rewrite nth_error_app2 by lia; f_equal; lia).
  all: now rewrite !nth_error_app1 by lia.
Qed.

Lemma region_snoc p off n : 0 <= off -> 0 <= n ->
  region p off (n + 1) = region p off n ++ region p (off + n) 1.
Proof.
  intros H1 H2. unfold region.
  replace (Z.to_nat (n + 1)) with (Z.to_nat n + Z.to_nat 1)%nat by lia.
  replace (Z.to_nat (off + n)) with (Z.to_nat off + Z.to_nat n)%nat by lia.
  rewrite <- skip_skip. generalize (Z.to_nat 1) (skipn (Z.to_nat off) p).
  generalize (Z.to_nat n). clear. intros n m. revert m.
  induction n as [|n IH]; intros m [|x l]; cbn [firstn skipn app Nat.add]; auto.
  - now rewrite firstn_nil.
  - now rewrite IH.
Qed.

Lemma halves p si w a b o : let n := S w in
  0 <= si -> si + 2 * Z.of_nat n <= zlen p ->
  nth_error p (Z.to_nat (si + 2 * Z.of_nat n - 1)) = Some o ->
  let p2 := overwrite (overwrite p (Z.to_nat si) (le_digits n a)) (Z.to_nat (si + Z.of_nat w)) (le_digits n b) in
  region p2 si (Z.of_nat n) = le_digits w a ++ [b mod 256] /\
  region p2 (si + Z.of_nat n) (Z.of_nat n) = le_digits w (b / 256) ++ [o].
Proof.
  intros n H1 H2 Ho p2. subst n.
  assert (E : p2 = overwrite p (Z.to_nat si) (le_digits w a ++ le_digits (S w) b)).
  { unfold p2. destruct (le_digits_snoc w a) as [x Ex]. rewrite Ex.
    replace (Z.to_nat (si + Z.of_nat w)) with (Z.to_nat si + length (le_digits w a))%nat
      by (rewrite le_digits_length; lia).
    apply overwrite_overlap; [discriminate|]. rewrite !le_digits_length. unfold zlen in H2. lia. }
  set (L := le_digits w a ++ le_digits (S w) b) in *.
  assert (LL : zlen L = Z.of_nat w + Z.of_nat (S w)).
  { unfold L, zlen. rewrite app_length, !le_digits_length. lia. }
  assert (R : region p2 si (zlen L) = L) by (rewrite E; apply region_overwrite_same; lia).
  change (le_digits (S w) b) with ([b mod 256] ++ le_digits w (b / 256)) in L.
  assert (W : zlen (le_digits w a) = Z.of_nat w) by (unfold zlen; now rewrite le_digits_length).
  assert (W' : zlen (le_digits w (b / 256)) = Z.of_nat w) by (unfold zlen; now rewrite le_digits_length).
  split.
  - rewrite <- (Z.add_0_r si) at 1. rewrite <- (region_region p2 si (zlen L) 0) by lia.
    rewrite R. unfold L. rewrite app_assoc. apply region_app_l; [lia|].
    rewrite zlen_app, W. unfold zlen; cbn [length]. lia.
  - replace (Z.of_nat (S w)) with (Z.of_nat w + 1) at 2 by lia.
    rewrite region_snoc by lia. f_equal.
    + rewrite <- (region_region p2 si (zlen L) (Z.of_nat (S w))) by lia. rewrite R.
      unfold L. rewrite app_assoc. rewrite region_app_r; [|lia|].
      * apply region_all. auto.
      * rewrite zlen_app, W. unfold zlen; cbn [length]. lia.
    + replace (si + Z.of_nat (S w) + Z.of_nat w) with (si + 2 * Z.of_nat (S w) - 1) by lia.
      rewrite E. rewrite region_overwrite_apart by (unfold apart; lia).
      apply list_ext. intros k. rewrite nth_region by lia. destruct k as [|k].
      * change ((0 <? Z.to_nat 1)%nat) with true. cbn iota. rewrite Nat.add_0_r. rewrite Ho. reflexivity.
      * change (Z.to_nat 1) with 1%nat. destruct (Nat.ltb_spec (S k) 1); [lia|]. now destruct k.
Qed.

Lemma get_u32_bytes p si bs : inside p si 4 -> region p si 4 = bs -> zlen bs = 4 -> wf_bytes bs ->
  GetUInt32 p si = Ok (le_value bs).
Proof.
  intros H1 H2 H3 H4. apply GetUInt32_at; auto.
  - pose proof (le_value_range bs H4) as Hr. rewrite H3 in Hr. exact Hr.
  - rewrite H2. symmetry. apply le_digits_value'; auto. unfold zlen in H3. lia.
Qed.
Lemma get_u64_bytes p si bs : inside p si 8 -> region p si 8 = bs -> zlen bs = 8 -> wf_bytes bs ->
  GetUInt64 p si = Ok (le_value bs).
Proof.
  intros H1 H2 H3 H4. apply (get_field_word KUInt64 p si); auto.
  - pose proof (le_value_range bs H4) as Hr. rewrite H3 in Hr. exact Hr.
  - cbn [width]. rewrite H2. symmetry. apply le_digits_value'; auto. unfold zlen in H3. cbn [width]. lia.
Qed.

Lemma wf_snoc n v b : is_byte b -> wf_bytes (le_digits n v ++ [b]).
Proof. intros. apply wf_app. split; [apply le_digits_wf|]. repeat constructor; apply H. Qed.
Lemma val_snoc n v b : le_value (le_digits n v ++ [b]) = v mod 256 ^ Z.of_nat n + b * 256 ^ Z.of_nat n.
Proof.
  rewrite le_value_app, le_digits_mod. unfold zlen. rewrite le_digits_length. cbn [le_value]. lia.
Qed.

Lemma complex64_exact p si re im o : inside p si 8 -> zlen p < 2 ^ 32 ->
  0 <= Qfloor re < 2 ^ 32 -> 0 <= Qfloor im < 2 ^ 32 ->
  is_byte o -> nth_error p (Z.to_nat (si + 7)) = Some o ->
  exists p', SetComplex64 p si re im = Ok p' /\
    GetComplex64 p' si =
      Ok (inject_Z (Qfloor re mod 2 ^ 24 + Qfloor im mod 2 ^ 8 * 2 ^ 24),
          inject_Z (Qfloor im / 2 ^ 8 + o * 2 ^ 24)).
Proof.
  intros (H1 & H2 & H3) Hp Ha Hb Ho Hn. unfold SetComplex64, SetFloat32.
  rewrite (u32_small (Qfloor re)), (u32_small (Qfloor im)), u32_small by lia.
  rewrite SetUInt32_ok by (unfold inside; lia). rewrite bind_ok.
  rewrite SetUInt32_ok by (unfold inside; rewrite ?zlen_overwrite by lia; lia).
  eexists; split; [reflexivity|].
  destruct (halves p si 3 (Qfloor re) (Qfloor im) o) as [R1 R2]; auto; try lia.
  { replace (si + 2 * Z.of_nat 4 - 1) with (si + 7) by lia. exact Hn. }
  set (p2 := overwrite _ _ _) in *.
  assert (L : zlen p2 = zlen p) by (unfold p2; rewrite !zlen_overwrite; rewrite ?zlen_overwrite; lia).
  unfold GetComplex64, GetFloat32. rewrite (u32_small (si + 4)) by lia.
  erewrite (get_u32_bytes p2 si); [|unfold inside; lia|exact R1| |].
  2:{ rewrite zlen_app. unfold zlen. rewrite le_digits_length. reflexivity. }
  2:{ apply wf_snoc. apply mod256. }
  rewrite !bind_ok.
  erewrite (get_u32_bytes p2 (si + 4)); [|unfold inside; lia|exact R2| |].
  2:{ rewrite zlen_app. unfold zlen. rewrite le_digits_length. reflexivity. }
  2:{ apply wf_snoc. exact Ho. }
  rewrite !bind_ok. rewrite !val_snoc. apply Ok_eq. f_equal; f_equal.
  change (256 ^ Z.of_nat 3) with (2 ^ 24). change (2 ^ 8) with 256.
  f_equal. apply Z.mod_small. lia.
Qed.

Lemma complex128_exact p si re im o : inside p si 16 -> zlen p < 2 ^ 32 ->
  0 <= Qfloor re < 2 ^ 64 -> 0 <= Qfloor im < 2 ^ 64 ->
  is_byte o -> nth_error p (Z.to_nat (si + 15)) = Some o ->
  exists p', SetComplex128 p si re im = Ok p' /\
    GetComplex128 p' si =
      Ok (inject_Z (Qfloor re mod 2 ^ 56 + Qfloor im mod 2 ^ 8 * 2 ^ 56),
          inject_Z (Qfloor im / 2 ^ 8 + o * 2 ^ 56)).
Proof.
  intros (H1 & H2 & H3) Hp Ha Hb Ho Hn. unfold SetComplex128, SetFloat64.
  rewrite (u64_small (Qfloor re)), (u64_small (Qfloor im)), u32_small by lia.
  change SetUInt64 with (set_field KUInt64).
  rewrite set_field_ok by (unfold inside; cbn [width fits]; lia). rewrite bind_ok.
  rewrite set_field_ok by (unfold inside; rewrite ?zlen_overwrite by lia; cbn [width fits]; lia).
  eexists; split; [reflexivity|].
  destruct (halves p si 7 (Qfloor re) (Qfloor im) o) as [R1 R2]; auto; try lia.
  { replace (si + 2 * Z.of_nat 8 - 1) with (si + 15) by lia. exact Hn. }
  change (word KUInt64) with (le_digits 8).
  set (p2 := overwrite _ _ _) in *.
  assert (L : zlen p2 = zlen p) by (unfold p2; rewrite !zlen_overwrite; rewrite ?zlen_overwrite; lia).
  unfold GetComplex128, GetFloat64. rewrite (u32_small (si + 8)) by lia.
  erewrite (get_u64_bytes p2 si); [|unfold inside; lia|exact R1| |].
  2:{ rewrite zlen_app. unfold zlen. rewrite le_digits_length. reflexivity. }
  2:{ apply wf_snoc. apply mod256. }
  rewrite !bind_ok.
  erewrite (get_u64_bytes p2 (si + 8)); [|unfold inside; lia|exact R2| |].
  2:{ rewrite zlen_app. unfold zlen. rewrite le_digits_length. reflexivity. }
  2:{ apply wf_snoc. exact Ho. }
  rewrite !bind_ok. rewrite !val_snoc. apply Ok_eq. f_equal; f_equal.
  change (256 ^ Z.of_nat 7) with (2 ^ 56). change (2 ^ 8) with 256.
  f_equal. apply Z.mod_small. lia.
Qed.
