(** C92-C94: the code syllab generates for struct types. *)
From Coq Require Import ZifyBool ZifyNat.
From Verif Require Import Go GoFacts BinSpec SyllabModel SyllabSpec SyllabProofs SyllabProofs2 SyllabGenModel SyllabGenSpec.
Import ListNotations. Local Open Scope Z_scope.

(** * C92 *)
Lemma step_good t : good t = true -> step t = size_of t.
Proof.
  destruct t as [b|[e| |]|n [e| |]|fs|]; cbn [good]; try discriminate.
  - destruct b; try discriminate; reflexivity.
  - reflexivity.
  - destruct e; try discriminate; intros _; cbn [step array_step size_of elem_bytes basic_size kind_of width]; lia.
Qed.
Lemma size_nonneg t : good t = true -> 0 <= size_of t.
Proof.
  destruct t as [b|[e| |]|n [e| |]|fs|]; cbn [good]; try discriminate.
  - destruct b; try discriminate; intros _; cbn [step array_step size_of elem_bytes basic_size kind_of width]; lia.
  - destruct e; try discriminate; intros _; cbn [step array_step size_of elem_bytes basic_size kind_of width]; lia.
Qed.
Lemma stack_nonneg fs : forallb good fs = true -> 0 <= stack_len fs.
Proof. induction fs as [|t r IH]; [cbn; lia|]. cbn [forallb stack_len]. intro H. apply andb_prop in H. destruct H as (G & H). specialize (IH H). rewrite step_good by exact G. pose proof (size_nonneg t G). lia. Qed.
Lemma layout_bounds fs : forallb good fs = true -> forall a n at_ t, nth_error (layout a fs) n = Some (at_, t) -> a <= at_ /\ at_ + size_of t <= a + stack_len fs /\ good t = true /\ nth_error fs n = Some t.
Proof.
  induction fs as [|x r IH]; intros F a n at_ t E; [destruct n; discriminate|]. cbn [forallb] in F. apply andb_prop in F. destruct F as (G & F). pose proof (step_good x G). pose proof (size_nonneg x G). pose proof (stack_nonneg r F).
  destruct n as [|n]; cbn [layout nth_error stack_len] in *.
  - injection E as <- <-. repeat split; auto; lia.
  - destruct (IH F _ _ _ _ E) as (A & B & C & D). repeat split; auto; lia.
Qed.
(** Every field lies in the fixed part, and no byte belongs to two fields. *)
Theorem C92_layout_partial : forall fs, forallb good fs = true ->
  (forall n i, belongs fs n i -> 0 <= i < stack_len fs) /\
  (forall n m i, belongs fs n i -> belongs fs m i -> n = m) /\
  (forall i, 0 <= i < stack_len fs -> exists n, belongs fs n i).
Proof.
  intros fs F. split; [|split].
  - intros n i (a & t & E & B). destruct (layout_bounds fs F 0 n a t E). lia.
  - assert (forall fs, forallb good fs = true -> forall c n m a t b u, (n < m)%nat -> nth_error (layout c fs) n = Some (a, t) -> nth_error (layout c fs) m = Some (b, u) -> a + size_of t <= b) as L.
    { clear. induction fs as [|x r IH]; intros F c n m a t b u O En Em; [destruct n; discriminate|]. cbn [forallb] in F. apply andb_prop in F. destruct F as (G & F). destruct m as [|m]; [lia|]. cbn [layout nth_error] in Em.
      destruct n as [|n]; cbn [layout nth_error] in En.
      - injection En as <- <-. destruct (layout_bounds r F _ _ _ _ Em). rewrite step_good in * by exact G. lia.
      - apply (IH F (c + step x) n m a t b u); auto. lia. }
    intros n m i (a & t & En & Bn) (b & u & Em & Bm). destruct (Nat.lt_trichotomy n m) as [O | [O | O]]; [|exact O|].
    + pose proof (L fs F 0 n m a t b u O En Em). lia.
    + pose proof (L fs F 0 m n b u a t O Em En). lia.
  - assert (forall fs, forallb good fs = true -> forall c i, c <= i < c + stack_len fs -> exists n at_ t, nth_error (layout c fs) n = Some (at_, t) /\ at_ <= i < at_ + size_of t) as L; [|intros i B; destruct (L fs F 0 i ltac:(lia)) as (n & a & t & E & K); exists n, a, t; auto].
    clear. induction fs as [|x r IH]; intros F c i B; cbn [stack_len] in B; [lia|]. cbn [forallb] in F. apply andb_prop in F. destruct F as (G & F).
    destruct (Z.lt_ge_cases i (c + step x)) as [O | O].
    + exists 0%nat, c, x. split; [reflexivity|]. rewrite <- (step_good x G). lia.
    + destruct (IH F (c + step x) i ltac:(lia)) as (n & a & t & E & K). exists (S n), a, t. auto.
Qed.
Print Assumptions C92_layout_partial.
Lemma layout_app a b c : layout c (a ++ b) = layout c a ++ layout (c + stack_len a) b.
Proof. revert c. induction a as [|t a IH]; intro c; cbn [app layout stack_len]; [f_equal; lia|]. rewrite IH. f_equal. f_equal. f_equal. lia. Qed.
Lemma layout_length c a : length (layout c a) = length a.
Proof. revert c. induction a as [|t a IH]; intro c; [reflexivity|]. cbn [layout length]. rewrite IH. reflexivity. Qed.
Lemma layout_two pre t u post : nth_error (layout 0 (pre ++ t :: u :: post)) (length pre) = Some (stack_len pre, t) /\
  nth_error (layout 0 (pre ++ t :: u :: post)) (S (length pre)) = Some (stack_len pre + step t, u).
Proof.
  rewrite layout_app. rewrite !nth_error_app2 by (rewrite layout_length; lia). rewrite layout_length. replace (length pre - length pre)%nat with 0%nat by lia. replace (S (length pre) - length pre)%nat with 1%nat by lia. cbn [layout nth_error]. rewrite Z.add_0_l. auto.
Qed.
(** A float64 array of any length shares its second half with what comes after it; an array of
    strings shares its slot with the next field. *)
Theorem C92_float64_array_refuted : forall pre n u post, (1 <= n)%nat -> 0 < size_of u ->
  let fs := pre ++ Array n (Fixed EFloat64) :: u :: post in exists i, belongs fs (length pre) i /\ belongs fs (S (length pre)) i.
Proof.
  intros pre n u post N U fs. destruct (layout_two pre (Array n (Fixed EFloat64)) u post) as (E1 & E2). exists (stack_len pre + step (Array n (Fixed EFloat64))). split.
  - do 2 eexists. split; [exact E1|]. cbn [step array_step size_of elem_bytes]. lia.
  - do 2 eexists. split; [exact E2|]. lia.
Qed.
Print Assumptions C92_float64_array_refuted.
Theorem C92_string_array_refuted : forall pre n u post, 0 < size_of u ->
  let fs := pre ++ Array n Text :: u :: post in exists i, belongs fs (length pre) i /\ belongs fs (S (length pre)) i.
Proof.
  intros pre n u post U fs. destruct (layout_two pre (Array n Text) u post) as (E1 & E2). exists (stack_len pre). split.
  - do 2 eexists. split; [exact E1|]. cbn [size_of]. lia.
  - do 2 eexists. split; [exact E2|]. cbn [step array_step]. lia.
Qed.
Print Assumptions C92_string_array_refuted.
Example C92_nonvacuous :
  let fs := [Scalar TUInt32; Scalar TString; Array 3 (Fixed EUInt16); Slice (Fixed EInt32); Scalar TBool] in
  forallb good fs = true /\ map fst (layout 0 fs) = [0; 4; 12; 18; 26] /\ stack_len fs = 27 /\
  map fst (layout 0 [Array 2 (Fixed EFloat64); Scalar TUInt64]) = [0; 8].
Proof. repeat split. Qed.

(** * C93 *)
Lemma elements_mem e l : elements e l = to_byte_slice e l.
Proof. unfold elements, to_byte_slice. apply flat_map_ext. intro v. unfold elem_mem. rewrite <- esize_bytes, Nat2Z.id. reflexivity. Qed.
Lemma elements_zlen e l : zlen (elements e l) = zlen l * elem_bytes e.
Proof. rewrite elements_mem. apply to_byte_slice_zlen. Qed.
Lemma elements_byte s : wf_bytes s -> elements EByte s = s.
Proof.
  intro T. induction T as [|x l B T IH]; [reflexivity|]. unfold elements in *. cbn [flat_map]. rewrite IH. change (Z.to_nat (elem_bytes EByte)) with 1%nat. cbn [le_digits app]. f_equal. unfold is_byte in B. apply Z.mod_small. lia.
Qed.
Lemma need_heap t v : good t = true -> typed t v -> zlen (heap_bytes t v) = need t v.
Proof.
  destruct t as [b|[e| |]|n [e| |]|fs|]; cbn [good]; try discriminate; intros G T.
  - destruct b, v; try contradiction T; reflexivity.
  - destruct v; try contradiction T. cbn [heap_bytes need heap_size]. apply elements_zlen.
  - destruct v; try contradiction T. reflexivity.
Qed.
Lemma fixed_size t v ha : good t = true -> typed t v -> zlen (fixed_bytes t v ha) = size_of t.
Proof.
  destruct t as [b|[e| |]|n [e| |]|fs|]; cbn [good]; try discriminate; intros G T.
  - destruct b, v; try contradiction T; try discriminate G; reflexivity.
  - destruct v; try contradiction T. reflexivity.
  - destruct v; try contradiction T. destruct T as (T & L). cbn [fixed_bytes size_of]. rewrite elements_zlen. unfold zlen. rewrite L. reflexivity.
Qed.
Lemma need_nonneg t v : good t = true -> typed t v -> 0 <= need t v.
Proof. intros G T. rewrite <- need_heap by assumption. apply zlen_nonneg. Qed.
(** Writing one field, when its place in the fixed part is still zero. *)
Lemma enc_good t v p si ha : good t = true -> typed t v -> 0 <= si -> si + size_of t <= ha -> ha + need t v <= zlen p -> zlen p < 2 ^ 32 ->
  region p si (size_of t) = repeat 0 (Z.to_nat (size_of t)) ->
  enc_field t p si ha v = Ok (overwrite (overwrite p (Z.to_nat si) (fixed_bytes t v ha)) (Z.to_nat ha) (heap_bytes t v), ha + need t v).
Proof.
  intros G T H0 H1 H2 H3 Z0. pose proof (need_nonneg t v G T) as NN. pose proof (fixed_size t v ha G T) as FS.
  assert (forall x, overwrite (overwrite p (Z.to_nat si) x) (Z.to_nat ha) [] = overwrite p (Z.to_nat si) x) as NIL.
  { intro x. apply overwrite_nil. unfold overwrite. rewrite !app_length, skipn_length, !firstn_length. unfold zlen in *. lia. }
  destruct t as [b|[e| |]|n [e| |]|fs|]; cbn [good] in G; try discriminate.
  - cbn [enc_field]. cbn [size_of] in *. assert (forall k x, fits k x -> si + width k <= ha -> ha <= zlen p -> set_field k p si x = Ok (overwrite p (Z.to_nat si) (le_digits (Z.to_nat (width k)) x))) as I.
    { intros k x F W1 W2. apply set_field_ok; [unfold inside; lia|exact F]. }
    destruct b, v; try contradiction T; try discriminate G; cbn [typed kind_of basic_size width] in *; cbn [need heap_bytes fixed_bytes kind_of] in *; rewrite ?NIL, ?Z.add_0_r.
    + unfold enc_scalar, SetBool. destruct b; cbn [bind].
      * pose proof (I KUInt8 1 ltac:(cbn; lia) ltac:(cbn; lia) ltac:(lia)) as J. cbn [set_field] in J. unfold SetUInt8 in J. change (u8 1) with 1 in J. rewrite J. reflexivity.
      * f_equal. f_equal. symmetry. rewrite <- (firstn_skipn (Z.to_nat si) p) at 2. unfold region in Z0. change (Z.to_nat 1) with 1%nat in Z0. cbn [repeat] in Z0.
        unfold overwrite. cbn [length]. unfold zlen in *. replace (firstn (length p - Z.to_nat si) [0]) with [0] by (destruct (length p - Z.to_nat si)%nat eqn:E; [lia|cbn [firstn]; rewrite firstn_nil; reflexivity]).
        f_equal. destruct (skipn (Z.to_nat si) p) as [|x r] eqn:E; [discriminate|]. injection Z0 as ->. f_equal. rewrite Nat.add_comm. cbn [Nat.add]. 
        change (S (Z.to_nat si)) with (1 + Z.to_nat si)%nat. rewrite Nat.add_comm, <- skip_skip, E. reflexivity.
    + pose proof (I KByte n T ltac:(cbn; lia) ltac:(lia)) as J. cbn [set_field] in J. cbn [enc_scalar]. rewrite J. reflexivity.
    + pose proof (I KInt8 n T ltac:(cbn; lia) ltac:(lia)) as J. cbn [set_field] in J. cbn [enc_scalar]. rewrite J. reflexivity.
    + pose proof (I KUInt8 n T ltac:(cbn; lia) ltac:(lia)) as J. cbn [set_field] in J. cbn [enc_scalar]. rewrite J. reflexivity.
    + pose proof (I KInt16 n T ltac:(cbn; lia) ltac:(lia)) as J. cbn [set_field] in J. cbn [enc_scalar]. rewrite J. reflexivity.
    + pose proof (I KUInt16 n T ltac:(cbn; lia) ltac:(lia)) as J. cbn [set_field] in J. cbn [enc_scalar]. rewrite J. reflexivity.
    + pose proof (I KInt32 n T ltac:(cbn; lia) ltac:(lia)) as J. cbn [set_field] in J. cbn [enc_scalar]. rewrite J. reflexivity.
    + pose proof (I KUInt32 n T ltac:(cbn; lia) ltac:(lia)) as J. cbn [set_field] in J. cbn [enc_scalar]. rewrite J. reflexivity.
    + pose proof (I KInt64 n T ltac:(cbn; lia) ltac:(lia)) as J. cbn [set_field] in J. cbn [enc_scalar]. rewrite J. reflexivity.
    + pose proof (I KUInt64 n T ltac:(cbn; lia) ltac:(lia)) as J. cbn [set_field] in J. cbn [enc_scalar]. rewrite J. reflexivity.
    + destruct T as (z & -> & B). cbn [enc_scalar]. unfold SetFloat32. rewrite Qfloor_Z in *. rewrite u32_small by lia. pose proof (I KUInt32 z ltac:(cbn; lia) ltac:(cbn; lia) ltac:(lia)) as J. cbn [set_field] in J. rewrite J. reflexivity.
    + destruct T as (z & -> & B). cbn [enc_scalar]. unfold SetFloat64. rewrite Qfloor_Z in *. rewrite u64_small by lia. pose proof (I KUInt64 z ltac:(cbn; lia) ltac:(cbn; lia) ltac:(lia)) as J. cbn [set_field] in J. rewrite J. reflexivity.
    + cbn [enc_scalar heap_size] in *. rewrite set_string_typed by (exact T || (unfold inside; lia)). rewrite set_typed; [|unfold inside; lia|lia|lia|cbn [elem_bytes]; lia]. cbn [elem_bytes]. rewrite Z.mul_1_r. 
      rewrite <- elements_mem, elements_byte by exact T. reflexivity.
  - destruct v; try contradiction T. cbn [enc_field need heap_size size_of heap_bytes fixed_bytes] in *. unfold good_slice in G. apply andb_prop in G. destruct G as (G & _). rewrite G. rewrite set_typed by (unfold inside; lia || lia). rewrite <- elements_mem. reflexivity.
  - destruct v; try contradiction T. cbn [enc_field need size_of heap_bytes fixed_bytes] in *. rewrite NIL, Z.add_0_r. replace (array_elem e) with true by (destruct e; reflexivity || discriminate). rewrite copy_at_ok by (pose proof (zlen_nonneg (elements e l)); lia). rewrite <- elements_mem. reflexivity.
Qed.

Lemma overwrite_mid (a z r x : bytes) n : length z = n -> length x = n -> overwrite (a ++ z ++ r) (length a) x = a ++ x ++ r.
Proof.
  intros Z0 X. rewrite overwrite_fits by (rewrite !app_length; lia). rewrite firstn_app, firstn_all, Nat.sub_diag. cbn [firstn]. rewrite app_nil_r. f_equal. f_equal.
  rewrite skipn_app, skipn_all2 by lia. cbn [app]. replace (length a + length x - length a)%nat with (length z) by lia. rewrite skipn_app, skipn_all, Nat.sub_diag. reflexivity.
Qed.
Lemma zlen_rep n : zlen (repeat 0 n) = Z.of_nat n.
Proof. unfold zlen. rewrite repeat_length. reflexivity. Qed.
Lemma repeat_split (n : nat) (a b : Z) : 0 <= a -> 0 <= b -> Z.of_nat n = a + b -> repeat 0 n = repeat 0 (Z.to_nat a) ++ repeat 0 (Z.to_nat b).
Proof. intros A B E. rewrite <- repeat_app. f_equal. lia. Qed.
Lemma enc_all fs : forall vs A H ns nh ha, forallb good fs = true -> Forall2 typed fs vs ->
  ns = stack_len fs -> nh = needs fs vs -> ha = zlen A + ns + zlen H -> ha + nh < 2 ^ 32 ->
  enc_fields fs (zlen A) (A ++ repeat 0 (Z.to_nat ns) ++ H ++ repeat 0 (Z.to_nat nh)) ha vs = Ok (A ++ fixed_part fs vs ha ++ H ++ heap_part fs vs, ha + nh).
Proof.
  induction fs as [|t fs IH]; intros vs A H ns nh ha F T Es Eh Ea B; inversion T as [|? v ? vs' Tv Ts]; subst.
  - cbn [stack_len needs enc_fields fixed_part heap_part Z.to_nat repeat app]. rewrite !app_nil_r, !Z.add_0_r. reflexivity.
  - cbn [forallb] in F. apply andb_prop in F. destruct F as (G & F). cbn [stack_len needs] in *.
    pose proof (step_good t G) as SG. pose proof (size_nonneg t G) as SN. pose proof (stack_nonneg fs F) as RN. pose proof (need_nonneg t v G Tv) as NN.
    assert (0 <= needs fs vs') as RNN.
    { clear - F Ts. revert vs' Ts. induction fs as [|x r IH]; intros vs Ts; inversion Ts; subst; [cbn; lia|]. cbn [forallb] in F. apply andb_prop in F. cbn [needs]. pose proof (need_nonneg x y ltac:(tauto) ltac:(assumption)). specialize (IH ltac:(tauto) l' ltac:(assumption)). lia. }
    set (ha := zlen A + (step t + stack_len fs) + zlen H) in *. pose proof (zlen_nonneg A). pose proof (zlen_nonneg H).
    rewrite (repeat_split (Z.to_nat (step t + stack_len fs)) (step t) (stack_len fs)) by lia. rewrite (repeat_split (Z.to_nat (need t v + needs fs vs')) (need t v) (needs fs vs')) by lia. rewrite <- !app_assoc.
    pose proof (fixed_size t v ha G Tv) as FS. pose proof (need_heap t v G Tv) as HS.
    cbn [enc_fields]. rewrite (enc_good t v _ (zlen A) ha G Tv); try lia.
    + cbn [bind fst snd]. replace (Z.to_nat (zlen A)) with (length A) by (unfold zlen; lia). rewrite (overwrite_mid A _ _ _ (Z.to_nat (step t))) by (rewrite ?repeat_length; unfold zlen in *; lia).
      replace (Z.to_nat ha) with (length (A ++ fixed_bytes t v ha ++ repeat 0 (Z.to_nat (stack_len fs)) ++ H)) by (rewrite !app_length, repeat_length; unfold zlen in *; lia).
      replace (A ++ fixed_bytes t v ha ++ repeat 0 (Z.to_nat (stack_len fs)) ++ H ++ repeat 0 (Z.to_nat (need t v)) ++ repeat 0 (Z.to_nat (needs fs vs')))
        with ((A ++ fixed_bytes t v ha ++ repeat 0 (Z.to_nat (stack_len fs)) ++ H) ++ repeat 0 (Z.to_nat (need t v)) ++ repeat 0 (Z.to_nat (needs fs vs'))) by (rewrite <- !app_assoc; reflexivity).
      rewrite (overwrite_mid _ _ _ _ (Z.to_nat (need t v))) by (rewrite ?repeat_length; unfold zlen in *; lia).
      specialize (IH vs' (A ++ fixed_bytes t v ha) (H ++ heap_bytes t v) _ _ (ha + need t v) F Ts eq_refl eq_refl ltac:(rewrite !zlen_app; lia) ltac:(lia)).
      replace (zlen A + step t) with (zlen (A ++ fixed_bytes t v ha)) by (rewrite zlen_app; lia). rewrite <- !app_assoc in *. rewrite IH. cbn [fixed_part heap_part]. rewrite <- !app_assoc, Z.add_assoc. reflexivity.
    + rewrite !zlen_app, !zlen_rep. lia.
    + rewrite !zlen_app, !zlen_rep. lia.
    + unfold region, zlen. rewrite Nat2Z.id, skipn_app, skipn_all, Nat.sub_diag. cbn [skipn app]. rewrite <- SG. rewrite firstn_app, repeat_length, Nat.sub_diag. cbn [firstn]. rewrite app_nil_r. apply firstn_all2. rewrite repeat_length. lia.
Qed.
Lemma heap_len_needs fs : forall vs, forallb good fs = true -> Forall2 typed fs vs -> needs fs vs < 2 ^ 32 -> heap_len fs vs = needs fs vs /\ 0 <= needs fs vs.
Proof.
  induction fs as [|t fs IH]; intros vs F T B; inversion T as [|? v ? vs' Tv Ts]; subst; [cbn; lia|].
  cbn [forallb] in F. apply andb_prop in F. destruct F as (G & F). cbn [heap_len needs] in *. pose proof (need_nonneg t v G Tv) as NN.
  assert (0 <= needs fs vs') as RNN.
  { clear - F Ts. revert vs' Ts. induction fs as [|x r IH]; intros vs Ts; inversion Ts; subst; [cbn; lia|]. cbn [forallb] in F. apply andb_prop in F. cbn [needs]. pose proof (need_nonneg x y ltac:(tauto) ltac:(assumption)). specialize (IH ltac:(tauto) l' ltac:(assumption)). lia. }
  destruct (IH vs' F Ts ltac:(lia)) as (E & _). rewrite E. split; [|lia]. f_equal.
  destruct t as [b|[e| |]|n [e| |]|fs'|]; cbn [good] in G; try discriminate.
  - destruct b, v; try contradiction Tv; try reflexivity. cbn [heap_of need heap_size] in *. apply u32_small. lia.
  - destruct v; try contradiction Tv. cbn [heap_of need heap_size] in *. unfold slice_heap. unfold good_slice in G. apply andb_prop in G. destruct G as (G & G2). rewrite G, esize_bytes. rewrite u32_small by lia. destruct e; try discriminate G2; reflexivity.
  - destruct v; try contradiction Tv. reflexivity.
Qed.
(** The generated length is exact, the encoder never panics, and the record is the fixed parts
    followed by the contents. *)
Theorem C93_wire_partial : forall fs vs, forallb good fs = true -> Forall2 typed fs vs -> stack_len fs + needs fs vs < 2 ^ 32 ->
  encode fs vs = Ok (fixed_part fs vs (stack_len fs) ++ heap_part fs vs) /\ syllab_len fs vs = stack_len fs + needs fs vs /\
  zlen (fixed_part fs vs (stack_len fs)) = stack_len fs /\ zlen (heap_part fs vs) = needs fs vs.
Proof.
  intros fs vs F T B. pose proof (stack_nonneg fs F) as SN. destruct (heap_len_needs fs vs F T ltac:(lia)) as (HL & NN).
  assert (syllab_len fs vs = stack_len fs + needs fs vs) as SL by (unfold syllab_len; rewrite HL, !u32_small; rewrite ?u32_small; lia).
  split; [|split; [exact SL|]].
  - unfold encode. rewrite SL. rewrite (repeat_split _ (stack_len fs) (needs fs vs)) by lia.
    pose proof (enc_all fs vs [] [] _ _ (stack_len fs) F T eq_refl eq_refl) as E. change (zlen []) with 0 in E. cbn [app] in E. rewrite E by lia. cbn [bind fst]. reflexivity.
  - assert (forall fs, forallb good fs = true -> forall vs ha, Forall2 typed fs vs -> zlen (fixed_part fs vs ha) = stack_len fs /\ zlen (heap_part fs vs) = needs fs vs) as L; [|apply L; assumption].
    clear. induction fs as [|t fs IH]; intros F vs ha T; inversion T as [|? v ? vs' Tv Ts]; subst; [split; reflexivity|]. cbn [forallb] in F. apply andb_prop in F. destruct F as (G & F).
    cbn [fixed_part heap_part stack_len needs]. rewrite !zlen_app. destruct (IH F vs' (ha + need t v) Ts) as (-> & ->). rewrite fixed_size, need_heap, step_good by assumption. auto.
Qed.
Print Assumptions C93_wire_partial.
(** []uint64: the generated length leaves no room, so the record ends after address and length, *)
Lemma copy_end (p : bytes) ha x : zlen p = ha -> copy_at p ha x = Ok p.
Proof.
  intros E. pose proof (zlen_nonneg p). rewrite copy_at_ok by lia. f_equal. unfold overwrite, zlen in *. replace (Z.to_nat ha) with (length p) by lia. rewrite Nat.sub_diag. cbn [firstn app]. rewrite firstn_all. rewrite skipn_all2 by lia. rewrite app_nil_r. reflexivity.
Qed.
Lemma uint64_alone l : zlen l < 2 ^ 29 -> encode [Slice (Fixed EUInt64)] [VList l] = Ok (slot 8 (zlen l)).
Proof.
  intro B. pose proof (zlen_nonneg l). unfold encode. change (syllab_len [Slice (Fixed EUInt64)] [VList l]) with 8. change (stack_len [Slice (Fixed EUInt64)]) with 8. cbn [enc_fields enc_field slice_elem step]. unfold SetTypedArray.
  rewrite (u32_small (zlen l)) by lia. rewrite <- bind_assoc, set_slot by (unfold inside; rewrite ?zlen_rep; lia). cbn [bind].
  assert (overwrite (repeat 0 (Z.to_nat 8)) (Z.to_nat 0) (slot 8 (zlen l)) = slot 8 (zlen l)) as -> by reflexivity.
  rewrite copy_end by (rewrite slot_len; reflexivity). reflexivity.
Qed.
Theorem C93_uint64_slice_refuted : forall l, l <> [] -> zlen l < 2 ^ 29 ->
  syllab_len [Slice (Fixed EUInt64)] [VList l] = 8 /\ 8 < stack_len [Slice (Fixed EUInt64)] + needs [Slice (Fixed EUInt64)] [VList l] /\
  exists p, encode [Slice (Fixed EUInt64)] [VList l] = Ok p /\ zlen p = 8.
Proof.
  intros l N B. split; [reflexivity|]. split.
  - cbn [stack_len step needs need heap_size elem_bytes]. destruct l; [contradiction|]. rewrite zlen_cons. pose proof (zlen_nonneg l). lia.
  - eexists. split; [apply uint64_alone; exact B|]. apply slot_len.
Qed.
Print Assumptions C93_uint64_slice_refuted.
(** []string: the entries of the texts are not counted; short texts do not even fit their first entry. *)
Lemma texts_heap_concat l : zlen (concat l) < 2 ^ 32 -> texts_heap l = zlen (concat l).
Proof. induction l as [|s l IH]; [reflexivity|]. cbn [concat texts_heap]. rewrite zlen_app. intro B. pose proof (zlen_nonneg s). pose proof (zlen_nonneg (concat l)). rewrite IH, u32_small by lia. reflexivity. Qed.
Theorem C93_string_slice_refuted : forall l, l <> [] -> 8 * zlen l + zlen (concat l) < 2 ^ 32 - 8 ->
  syllab_len [Slice Text] [VTexts l] < stack_len [Slice Text] + needs [Slice Text] [VTexts l] /\
  (zlen (concat l) < 4 -> encode [Slice Text] [VTexts l] = Panic).
Proof.
  intros l N B. pose proof (zlen_nonneg (concat l)). assert (0 < zlen l) as NL by (destruct l; [contradiction|]; rewrite zlen_cons; pose proof (zlen_nonneg l0); lia).
  assert (syllab_len [Slice Text] [VTexts l] = 8 + zlen (concat l)) as SL by (unfold syllab_len; cbn [stack_len step heap_len heap_of]; rewrite texts_heap_concat, !u32_small by (rewrite ?texts_heap_concat, ?u32_small; lia); lia).
  split; [rewrite SL; cbn [stack_len step needs need heap_size]; lia|]. intro S4. unfold encode. rewrite SL. change (stack_len [Slice Text]) with 8. cbn [enc_fields enc_field step]. unfold SetStringArray.
  rewrite (u32_small (zlen l)) by lia. rewrite <- bind_assoc, set_slot by (unfold inside; rewrite ?zlen_rep; lia). cbn [bind].
  destruct l as [|s l]; [contradiction|]. replace (firstn (Z.to_nat (zlen (s :: l))) (s :: l)) with (s :: l) by (unfold zlen; rewrite Nat2Z.id, firstn_all; reflexivity). cbn [set_strings].
  pose proof (set_field_panic KUInt32) as P. cbn [set_field width fits] in P.
  rewrite P; [reflexivity|lia| |lia|unfold u32; apply Z.mod_pos_bound; lia]. 
  rewrite zlen_overwrite by (rewrite ?slot_len, ?zlen_rep; lia). rewrite zlen_rep. lia.
Qed.
Print Assumptions C93_string_slice_refuted.
Example C93_nonvacuous :
  let fs := [Scalar TUInt16; Scalar TString; Array 2 (Fixed EInt16); Slice (Fixed EInt32); Scalar TBool] in
  let vs := [VInt 513; VText [104; 105]; VList [-1; 2]; VList [7; -7]; VBool true] in
  forallb good fs = true /\ Forall2 typed fs vs /\
  encode fs vs = Ok [1; 2; 23; 0; 0; 0; 2; 0; 0; 0; 255; 255; 2; 0; 25; 0; 0; 0; 2; 0; 0; 0; 1; 104; 105; 7; 0; 0; 0; 249; 255; 255; 255].
Proof. split; [reflexivity|]. split; [|reflexivity]. repeat constructor; cbn; unfold is_byte; try lia. Qed.

(** * C94 *)
Lemma region_app (a x r : bytes) n : n = zlen x -> region (a ++ x ++ r) (zlen a) n = x.
Proof. intros ->. unfold region, zlen. rewrite !Nat2Z.id, skipn_app, skipn_all, Nat.sub_diag. cbn [skipn app]. rewrite firstn_app, firstn_all, Nat.sub_diag. cbn [firstn]. apply app_nil_r. Qed.
Lemma dec_good t v old u q si ha : good t = true -> typed t v -> typed t old -> 0 <= si -> 0 <= ha -> si + size_of t <= zlen q -> ha + need t v <= zlen q -> zlen q < 2 ^ 32 ->
  region q si (size_of t) = fixed_bytes t v ha -> region q ha (need t v) = heap_bytes t v -> dec_field t u q si old = Ok v.
Proof.
  intros G T O H0 H1 H2 H3 H4 R1 R2. pose proof (need_nonneg t v G T) as NN.
  destruct t as [b|[e| |]|n [e| |]|fs|]; cbn [good] in G; try discriminate.
  - cbn [dec_field]. assert (forall k x, fits k x -> width k = size_of (Scalar b) -> region q si (width k) = le_digits (Z.to_nat (width k)) x -> get_field k q si = Ok x) as I.
    { intros k x F W R. apply get_field_word; [unfold inside; lia|exact F|exact R]. }
    destruct b, v; try contradiction T; try discriminate G; cbn [typed] in T; cbn [size_of basic_size kind_of width] in *; cbn [need heap_bytes fixed_bytes kind_of] in *; cbn [dec_scalar].
    + unfold GetBool. assert (sidx q si 0 = Ok (if b then 1 else 0)) as ->; [|cbn [bind]; destruct b; reflexivity].
      pose proof (I KByte (if b then 1 else 0) ltac:(destruct b; cbn; lia) eq_refl) as J. cbn [get_field width] in J. unfold GetByte in J. apply J. rewrite R1. destruct b; reflexivity.
    + pose proof (I KByte n T eq_refl R1) as J. cbn [get_field] in J. rewrite J. reflexivity.
    + pose proof (I KInt8 n T eq_refl R1) as J. cbn [get_field] in J. rewrite J. reflexivity.
    + pose proof (I KUInt8 n T eq_refl R1) as J. cbn [get_field] in J. rewrite J. reflexivity.
    + pose proof (I KInt16 n T eq_refl R1) as J. cbn [get_field] in J. rewrite J. reflexivity.
    + pose proof (I KUInt16 n T eq_refl R1) as J. cbn [get_field] in J. rewrite J. reflexivity.
    + pose proof (I KInt32 n T eq_refl R1) as J. cbn [get_field] in J. rewrite J. reflexivity.
    + pose proof (I KUInt32 n T eq_refl R1) as J. cbn [get_field] in J. rewrite J. reflexivity.
    + pose proof (I KInt64 n T eq_refl R1) as J. cbn [get_field] in J. rewrite J. reflexivity.
    + pose proof (I KUInt64 n T eq_refl R1) as J. cbn [get_field] in J. rewrite J. reflexivity.
    + destruct T as (z & -> & B). rewrite Qfloor_Z in R1. pose proof (I KUInt32 z ltac:(cbn; lia) eq_refl R1) as J. cbn [get_field] in J. unfold GetFloat32. rewrite J. reflexivity.
    + destruct T as (z & -> & B). rewrite Qfloor_Z in R1. pose proof (I KUInt64 z ltac:(cbn; lia) eq_refl R1) as J. cbn [get_field] in J. unfold GetFloat64. rewrite J. reflexivity.
    + cbn [heap_size] in *. pose proof (get_typed EByte q si ha s) as J. cbn [elem_bytes] in J. rewrite Z.mul_1_r in J.
      destruct J as (J1 & J2); [unfold inside; lia|exact T|unfold inside; lia|lia|exact R1|rewrite <- elements_mem, elements_byte by exact T; exact R2|].
      unfold UnsafeGetString, GetString. rewrite J1, J2. destruct u; reflexivity.
  - destruct v; try contradiction T. cbn [dec_field need heap_size size_of heap_bytes fixed_bytes typed] in *. unfold good_slice in G. apply andb_prop in G. destruct G as (G & _). rewrite G.
    destruct (get_typed e q si ha l) as (J1 & J2); [unfold inside; lia|exact T|unfold inside; lia|lia|exact R1|rewrite <- elements_mem; exact R2|]. rewrite J1, J2. destruct u; reflexivity.
  - destruct v; try contradiction T. destruct old; try contradiction O. cbn [dec_field need size_of heap_bytes fixed_bytes typed] in *. destruct T as (T & L), O as (_ & LO). replace (array_elem e) with true by (destruct e; reflexivity || discriminate).
    pose proof (esize_pos e) as EP. pose proof (esize_bytes e) as EB. rewrite slice_from_ok by nia. cbn [bind]. f_equal. f_equal.
    assert (skipn (Z.to_nat si) q = to_byte_slice e l ++ skipn (Z.to_nat (si + Z.of_nat n * elem_bytes e)) q) as E by (rewrite <- elements_mem, <- R1; apply region_split; [unfold inside|]; nia).
    rewrite E. unfold of_byte_slice. set (rest := skipn _ q) at 1 2. assert (length l <= length (to_byte_slice e l ++ rest) / esize e)%nat as LE.
    { apply Nat.div_le_lower_bound; [lia|]. rewrite app_length, to_byte_slice_length. nia. }
    rewrite overwrite_zero by (rewrite cast_length; lia). rewrite LO, <- L. rewrite firstn_cast by exact LE. apply cast_mem. exact T.
Qed.
Lemma dec_all fs u : forall vs os q at_ ha, forallb good fs = true -> Forall2 typed fs vs -> Forall2 typed fs os -> zlen q < 2 ^ 32 ->
  (exists A B, q = A ++ fixed_part fs vs ha ++ B /\ zlen A = at_) -> (exists C D, q = C ++ heap_part fs vs ++ D /\ zlen C = ha) ->
  dec_fields fs u at_ q os = Ok vs.
Proof.
  induction fs as [|t fs IH]; intros vs os q at_ ha F T O L (A & B & E1 & EA) (C & D & E2 & EC); inversion T as [|? v ? vs' Tv Ts]; inversion O as [|? o ? os' To Tos]; subst vs os; [reflexivity|].
  cbn [forallb] in F. apply andb_prop in F. destruct F as (G & F). cbn [dec_fields]. cbn [fixed_part heap_part] in E1, E2. rewrite <- app_assoc in E1, E2.
  pose proof (fixed_size t v ha G Tv) as FS. pose proof (need_heap t v G Tv) as HS.
  rewrite (dec_good t v o u q at_ ha G Tv To); [cbn [bind]|subst at_; apply zlen_nonneg|subst ha; apply zlen_nonneg| | |exact L| | ].
  - rewrite (IH vs' os' q (at_ + step t) (ha + need t v) F Ts Tos L); [reflexivity| |].
    + exists (A ++ fixed_bytes t v ha), B. split; [rewrite <- app_assoc; exact E1|]. rewrite zlen_app, step_good by exact G. lia.
    + exists (C ++ heap_bytes t v), D. split; [rewrite <- app_assoc; exact E2|]. rewrite zlen_app. lia.
  - rewrite E1, !zlen_app. pose proof (zlen_nonneg (fixed_part fs vs' (ha + need t v))). pose proof (zlen_nonneg B). lia.
  - rewrite E2, !zlen_app. pose proof (zlen_nonneg (heap_part fs vs')). pose proof (zlen_nonneg D). lia.
  - rewrite E1, <- EA. apply region_app. symmetry. exact FS.
  - rewrite E2, <- EC. apply region_app. symmetry. exact HS.
Qed.
(** Decoding the encoded record, with copies or in place, gives back every field, whatever the
    destination held. *)
Theorem C94_round_trip_partial : forall fs vs os unsafe, forallb good fs = true -> Forall2 typed fs vs -> Forall2 typed fs os -> stack_len fs + needs fs vs < 2 ^ 32 ->
  exists p, encode fs vs = Ok p /\ decode fs unsafe p os = Ok (Some vs).
Proof.
  intros fs vs os u F T O B. destruct (C93_wire_partial fs vs F T B) as (E & _ & L1 & L2). eexists. split; [exact E|]. pose proof (zlen_nonneg (heap_part fs vs)). pose proof (stack_nonneg fs F).
  unfold decode. rewrite u32_small by (rewrite zlen_app; lia). replace (zlen _ <? stack_len fs) with false by (rewrite zlen_app; lia).
  rewrite (dec_all fs u vs os _ 0 (stack_len fs) F T O); [reflexivity|rewrite zlen_app; lia| |].
  - exists [], (heap_part fs vs). split; reflexivity.
  - exists (fixed_part fs vs (stack_len fs)), []. split; [rewrite app_nil_r; reflexivity|exact L1].
Qed.
Print Assumptions C94_round_trip_partial.
(** A buffer shorter than the fixed part is refused. *)
Theorem C94_small_slice : forall fs unsafe p os, zlen p < stack_len fs -> zlen p < 2 ^ 32 -> decode fs unsafe p os = Ok None.
Proof. intros fs u p os H B. unfold decode. pose proof (zlen_nonneg p). rewrite u32_small by lia. replace (zlen p <? stack_len fs) with true by lia. reflexivity. Qed.
Print Assumptions C94_small_slice.
(** []uint64 does not survive: in place it panics, with a copy only zeros come back, *)
Theorem C94_uint64_slice_refuted : forall l os, l <> [] -> zlen l < 2 ^ 28 -> length os = 1%nat ->
  exists p, encode [Slice (Fixed EUInt64)] [VList l] = Ok p /\ decode [Slice (Fixed EUInt64)] true p os = Panic /\
    decode [Slice (Fixed EUInt64)] false p os = Ok (Some [VList (repeat 0 (length l))]).
Proof.
  intros l os N B LO. eexists. split; [apply uint64_alone; lia|]. destruct os as [|o [|]]; try discriminate LO.
  assert (0 < zlen l) as NL by (destruct l; [contradiction|]; rewrite zlen_cons; pose proof (zlen_nonneg l); lia).
  destruct (get_slot (slot 8 (zlen l)) 0 8 (zlen l)) as (G1 & G2); [unfold inside; rewrite slot_len; lia|lia|lia|apply region_all; rewrite slot_len; reflexivity|].
  unfold decode. rewrite slot_len. change (u32 8 <? stack_len [Slice (Fixed EUInt64)]) with false. cbn [dec_fields dec_field slice_elem]. unfold UnsafeGetTypedArray, GetTypedArray. rewrite G1, G2. cbn [bind]. split.
  - change (Z.of_nat (esize EUInt64)) with 8. rewrite (u32_small (zlen l * 8)) by lia. rewrite (u32_small (8 + zlen l * 8)) by lia. rewrite slice_panic by (rewrite slot_len; lia). reflexivity.
  - rewrite slice_from_ok by (rewrite slot_len; lia). change (Z.to_nat 8) with 8%nat. cbn [bind]. assert (skipn 8 (slot 8 (zlen l)) = []) as -> by (apply skipn_all2; pose proof (slot_len 8 (zlen l)); unfold zlen in *; lia).
    unfold zlen. rewrite Nat2Z.id. unfold overwrite. change (of_byte_slice EUInt64 []) with (@nil Z). rewrite firstn_nil. cbn [firstn app length Nat.add skipn]. reflexivity.
Qed.
Print Assumptions C94_uint64_slice_refuted.
(** slices of floats, int and uint fields are dropped without an error, *)
Theorem C94_dropped_refuted : forall n t, In t [Scalar TIntUint; Slice (Fixed EFloat32); Slice (Fixed EFloat64); Slice (Fixed EComplex64); Slice (Fixed EComplex128);
    Array n (Fixed EComplex64); Array n (Fixed EComplex128); Slice Other; Array n Other; Ignored] ->
  (forall u p si old, dec_field t u p si old = Ok old) /\ (forall p si hsi v p', enc_field t p si hsi v = Ok p' -> p' = (p, hsi)).
Proof.
  intros n t I. cbn [In] in I. repeat destruct I as [<- | I]; try contradiction; (split; [reflexivity|intros p si hsi v p' E; destruct v; cbn in E; try discriminate; congruence]).
Qed.
Print Assumptions C94_dropped_refuted.
(** A record whose only field is a record is encoded as that record; *)
Theorem C94_nested_alone : forall fs vs, encode [Nested fs] [VStruct vs] = encode fs vs.
Proof.
  intros fs vs. unfold encode.
  assert (L1 : (fix sum l := match l with [] => 0 | x :: r => step x + sum r end) fs = stack_len fs) by (induction fs as [|x r IH]; [reflexivity|]; cbn [stack_len]; now rewrite <- IH).
  assert (L2 : stack_len [Nested fs] = stack_len fs) by (cbn [stack_len step]; rewrite L1; apply Z.add_0_r).
  assert (L3 : heap_len [Nested fs] [VStruct vs] = heap_len fs vs).
  { cbn [heap_len heap_of]. rewrite Z.add_0_r. clear. revert vs. induction fs as [|x r IH]; intros [|v w]; reflexivity || (cbn [heap_len]; now rewrite <- IH). }
  unfold syllab_len. rewrite L2, L3. set (p := repeat 0 _). cbn [enc_fields enc_field]. rewrite L1. generalize (stack_len fs) as h. generalize 0 as a. generalize p.
  assert (G : forall fs vs a p h, (fix go (l : list ftype) (at_ : Z) (p : bytes) (hsi : Z) (vs : list fval) : res (bytes * Z) :=
        match l, vs with
        | t :: r, v :: w => let! x := enc_field t p at_ hsi v in go r (at_ + step t) (fst x) (snd x) w
        | _, _ => Ok (p, hsi)
        end) fs a p h vs = enc_fields fs a p h vs).
  { clear. induction fs as [|t r IH]; intros [|v w] a p h; reflexivity || (cbn [enc_fields]; destruct (enc_field t p a h v); [|reflexivity]; cbn [bind]; apply IH). }
  intros q a h. rewrite G. destruct (enc_fields fs a q h vs) as [[x y]|]; reflexivity.
Qed.
Print Assumptions C94_nested_alone.
(** and decoded as that record; *)
Theorem C94_nested_alone_decode : forall fs u p os, decode [Nested fs] u p [VStruct os] =
  match decode fs u p os with Ok (Some l) => Ok (Some [VStruct l]) | Ok None => Ok None | Panic => Panic end.
Proof.
  intros fs u p os. unfold decode.
  assert (L1 : (fix sum l := match l with [] => 0 | x :: r => step x + sum r end) fs = stack_len fs) by (induction fs as [|x r IH]; [reflexivity|]; cbn [stack_len]; now rewrite <- IH).
  assert (L2 : stack_len [Nested fs] = stack_len fs) by (cbn [stack_len step]; rewrite L1; apply Z.add_0_r).
  rewrite L2. destruct (u32 (zlen p) <? stack_len fs); [reflexivity|]. cbn [dec_fields dec_field]. generalize 0 as a.
  assert (G : forall fs os a, (fix go (l : list ftype) (at_ : Z) (os : list fval) : res (list fval) :=
        match l, os with
        | t :: r, o :: w => let! v := dec_field t u p at_ o in let! vs := go r (at_ + step t) w in Ok (v :: vs)
        | _, _ => Ok []
        end) fs a os = dec_fields fs u a p os).
  { clear. induction fs as [|t r IH]; intros [|o w] a; reflexivity || (cbn [dec_fields]; destruct (dec_field t u p a o); [|reflexivity]; cbn [bind]; rewrite IH; reflexivity). }
  intros a. rewrite G. destruct (dec_fields fs u a p os) as [l|]; reflexivity.
Qed.
Print Assumptions C94_nested_alone_decode.
Example C94_nested_alone_case : encode [Nested [Scalar TByte; Scalar TString]] [VStruct [VInt 7; VText [104; 105]]] = Ok [7; 9; 0; 0; 0; 2; 0; 0; 0; 104; 105] /\
  decode [Nested [Scalar TByte; Scalar TString]] false [7; 9; 0; 0; 0; 2; 0; 0; 0; 104; 105] [VStruct [VInt 0; VText []]] = Ok (Some [VStruct [VInt 7; VText [104; 105]]]).
Proof. vm_compute. split; reflexivity. Qed.
(** and a nested record is written over the start of the outer one. *)
Theorem C94_nested_refuted : forall a c, is_byte a -> is_byte c -> encode [Scalar TByte; Nested [Scalar TByte]] [VInt a; VStruct [VInt c]] = Ok [c; 0] /\
  decode [Scalar TByte; Nested [Scalar TByte]] false [c; 0] [VInt 0; VStruct [VInt 0]] = Ok (Some [VInt c; VStruct [VInt c]]).
Proof. intros a c A C. split; reflexivity. Qed.
Print Assumptions C94_nested_refuted.
(** Wherever a nested record stands among the fields, it is read from the first byte of the whole record. *)
Theorem C94_nested_read_refuted : forall pre gs post u p os ws os' vs, forallb good pre = true -> forallb good post = true -> length os = length pre ->
  decode (pre ++ Nested gs :: post) u p (os ++ VStruct ws :: os') = Ok (Some vs) ->
  exists l, nth_error vs (length pre) = Some (VStruct l) /\ decode gs u p ws = Ok (Some l).
Proof.
  intros pre gs post u p os ws os' vs Gp Gq L E. unfold decode in *.
  assert (L1 : (fix sum l := match l with [] => 0 | x :: r => step x + sum r end) gs = stack_len gs) by (clear; induction gs as [|x r IH]; [reflexivity|]; cbn [stack_len]; now rewrite <- IH).
  assert (SL : stack_len (pre ++ Nested gs :: post) = stack_len pre + (stack_len gs + stack_len post)).
  { clear - L1. induction pre as [|t r IH]; cbn [app stack_len]; [cbn [step]; rewrite L1; lia|]. rewrite IH. lia. }
  rewrite SL in E. destruct (u32 (zlen p) <? _) eqn:B; [discriminate|]. pose proof (stack_nonneg pre Gp). pose proof (stack_nonneg post Gq).
  replace (u32 (zlen p) <? stack_len gs) with false by lia.
  destruct (dec_fields (pre ++ Nested gs :: post) u 0 p (os ++ VStruct ws :: os')) as [x|] eqn:D; [|discriminate]. cbn [bind] in E. injection E as ->.
  clear - D L. revert D L. generalize 0 at 1 as a. revert os vs.
  induction pre as [|t pre IH]; intros [|o os] vs a D L; cbn [length] in L; try discriminate; cbn [app dec_fields] in D.
  - cbn [dec_field] in D.
    assert (G : forall fs os a, (fix go (l : list ftype) (at_ : Z) (os : list fval) : res (list fval) :=
        match l, os with
        | t :: r, o :: w => let! v := dec_field t u p at_ o in let! vs := go r (at_ + step t) w in Ok (v :: vs)
        | _, _ => Ok []
        end) fs a os = dec_fields fs u a p os).
    { clear. induction fs as [|t r IH]; intros [|o w] a; reflexivity || (cbn [dec_fields]; destruct (dec_field t u p a o); [|reflexivity]; cbn [bind]; rewrite IH; reflexivity). }
    rewrite G in D. destruct (dec_fields gs u 0 p ws) as [l|]; [|discriminate]. cbn [bind] in D.
    destruct (dec_fields post u _ p os') as [y|]; [|discriminate]. cbn [bind] in D. injection D as <-. exists l. split; reflexivity.
  - destruct (dec_field t u p a o) as [v|]; [|discriminate]. cbn [bind] in D.
    destruct (dec_fields (pre ++ Nested gs :: post) u (a + step t) p (os ++ VStruct ws :: os')) as [y|] eqn:D2; [|discriminate]. cbn [bind] in D. injection D as <-.
    destruct (IH os y (a + step t) D2 ltac:(lia)) as (l & N & R). exists l. split; [exact N|exact R].
Qed.
Print Assumptions C94_nested_read_refuted.
Example C94_nested_read_case : decode [Scalar TUInt16; Nested [Scalar TByte]; Scalar TBool] false [7; 8; 9; 1] [VInt 0; VStruct [VInt 0]; VBool false] =
  Ok (Some [VInt 2055; VStruct [VInt 7]; VBool true]).
Proof. vm_compute. reflexivity. Qed.
(** After a nested record the next content goes to address 0. *)
Theorem C94_after_nested_refuted : forall c s, is_byte c -> wf_bytes s -> zlen s < 2 ^ 31 ->
  exists p, encode [Nested [Scalar TByte]; Scalar TString] [VStruct [VInt c]; VText s] = Ok p /\ firstn (length s) p = s.
Proof.
  intros c s C W B. pose proof (zlen_nonneg s). set (fs := [Nested [Scalar TByte]; Scalar TString]). unfold encode. assert (syllab_len fs [VStruct [VInt c]; VText s] = 9 + zlen s) as SL.
  { unfold syllab_len. change (stack_len fs) with 9. change (heap_len fs [VStruct [VInt c]; VText s]) with (u32 (zlen s) + 0). rewrite Z.add_0_r, (u32_small (zlen s)) by lia. rewrite (u32_small (zlen s)) by lia. apply u32_small. lia. }
  rewrite SL. unfold fs. cbn [enc_fields enc_field enc_scalar step basic_step stack_len]. pose proof (set_field_ok KByte (repeat 0 (Z.to_nat (9 + zlen s))) 0 c) as P. cbn [set_field width fits] in P. rewrite P by (unfold inside; rewrite ?zlen_rep; unfold is_byte in C; lia). cbn [bind fst snd].
  set (p := overwrite _ _ _). assert (zlen p = 9 + zlen s) as LP by (unfold p; rewrite zlen_overwrite by (rewrite ?zlen_rep, ?word_len; cbn [width]; lia); rewrite zlen_rep; lia).
  change (0 + (1 + 0)) with 1. rewrite set_string_typed by (exact W || (unfold inside; lia)). rewrite set_typed; [|unfold inside; lia|lia|lia|cbn [elem_bytes]; lia]. cbn [bind fst snd].
  eexists. split; [reflexivity|]. rewrite <- elements_mem, elements_byte by exact W. rewrite overwrite_fits.
  - change (firstn (Z.to_nat 0) ?x) with (@nil Z). cbn [app]. rewrite firstn_app, firstn_all, Nat.sub_diag. cbn [firstn]. apply app_nil_r.
  - change (Z.to_nat 0) with 0%nat. assert (zlen (overwrite p (Z.to_nat 1) (slot 0 (zlen s))) = 9 + zlen s) as LL by (rewrite zlen_overwrite by (rewrite ?slot_len; lia); exact LP). unfold zlen in *. lia.
Qed.
Print Assumptions C94_after_nested_refuted.
Example C94_nonvacuous :
  let fs := [Scalar TUInt16; Scalar TString; Array 2 (Fixed EInt16); Slice (Fixed EInt32); Scalar TBool] in
  let vs := [VInt 513; VText [104; 105]; VList [-1; 2]; VList [7; -7]; VBool true] in
  let os := [VInt 9; VText []; VList [5; 5]; VList []; VBool false] in
  Forall2 typed fs vs /\ Forall2 typed fs os /\ exists p, encode fs vs = Ok p /\ decode fs true p os = Ok (Some vs) /\ decode fs false p os = Ok (Some vs).
Proof. split; [|split; [|eexists; repeat split; reflexivity]]; repeat constructor; cbn; unfold is_byte; try lia. Qed.
