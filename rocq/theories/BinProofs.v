From Coq Require Import ZifyBool ZifyNat.
From Verif Require Import Go GoFacts BinModel BinSpec.
Ltac Zify.zify_post_hook ::= Z.div_mod_to_equations.

Lemma le_digits_length n v : length (le_digits n v) = n.
Proof. revert v; induction n as [|n IH]; intros v; cbn; auto. Qed.

Lemma be_digits_length n v : length (be_digits n v) = n.
Proof. unfold be_digits. now rewrite rev_length, le_digits_length. Qed.

Lemma le_digits_wf n v : wf_bytes (le_digits n v).
Proof.
  revert v; induction n as [|n IH]; intros v; cbn [le_digits]; constructor; [|apply IH].
  unfold is_byte. apply Z.mod_pos_bound; lia.
Qed.

Lemma be_digits_wf n v : wf_bytes (be_digits n v).
Proof. unfold be_digits, wf_bytes. apply Forall_rev, le_digits_wf. Qed.

Lemma le_value_digits n v : 0 <= v < 256 ^ Z.of_nat n -> le_value (le_digits n v) = v.
Proof.
  revert v; induction n as [|n IH]; intros v Hv.
  - cbn in *. lia.
  - cbn [le_digits le_value].
    rewrite Nat2Z.inj_succ, Z.pow_succ_r in Hv by lia.
    rewrite IH.
    + pose proof (Z.div_mod v 256). lia.
    + split; [apply Z.div_pos; lia|]. apply Z.div_lt_upper_bound; lia.
Qed.

Lemma be_value_digits n v : 0 <= v < 256 ^ Z.of_nat n -> be_value (be_digits n v) = v.
Proof. intros H. unfold be_value, be_digits. rewrite rev_involutive. now apply le_value_digits. Qed.

Lemma le_value_range l : wf_bytes l -> 0 <= le_value l < 256 ^ zlen l.
Proof.
  induction 1 as [|b l Hb Hl IH]; cbn [le_value].
  - cbn; lia.
  - rewrite zlen_cons, Z.pow_add_r by (pose proof (zlen_nonneg l); lia).
    unfold is_byte in Hb. change (256 ^ 1) with 256. nia.
Qed.

Lemma be_value_range l : wf_bytes l -> 0 <= be_value l < 256 ^ zlen l.
Proof.
  intros H. unfold be_value.
  replace (zlen l) with (zlen (rev l)) by (unfold zlen; now rewrite rev_length).
  apply le_value_range. unfold wf_bytes. now apply Forall_rev.
Qed.

Lemma le_digits_value l : wf_bytes l -> le_digits (length l) (le_value l) = l.
Proof.
  induction 1 as [|b l Hb Hl IH]; cbn [le_value le_digits length]; auto.
  unfold is_byte in Hb. f_equal.
  - lia.
  - replace ((b + 256 * le_value l) / 256) with (le_value l) by lia. exact IH.
Qed.

Lemma be_digits_value l : wf_bytes l -> be_digits (length l) (be_value l) = l.
Proof.
  intros H. unfold be_digits, be_value. rewrite <- (rev_length l).
  rewrite le_digits_value by (now apply Forall_rev). apply rev_involutive.
Qed.

(** Splitting a buffer into its first cells. *)
Ltac buf_split buf n :=
  lazymatch n with
  | O => idtac
  | S ?k => destruct buf as [|? buf]; cbn [length] in *; [lia|]; buf_split buf k
  end.

Lemma shr_u8 v k : 0 <= k -> u8 (Z.shiftr v k) = v / 2 ^ k mod 256.
Proof. intros; unfold u8. now rewrite shiftr_div. Qed.

Lemma Ok_eq {A} (a b : A) : a = b -> Ok a = Ok b.
Proof. now intros ->. Qed.

Lemma bind_ok {A B} (a : A) (f : A -> res B) : bind (Ok a) f = f a.
Proof. reflexivity. Qed.

Ltac step_idx :=
  match goal with
  | |- context [idx ?l ?i] =>
      erewrite (idx_ok l i); [|lia|cbv [Z.to_nat Pos.to_nat Pos.iter_op Nat.add nth_error]; reflexivity]
  end; rewrite ?bind_ok.
Ltac step_set buf :=
  match goal with
  | |- context [set_idx ?l ?i ?v] =>
      rewrite (set_idx_ok l i v) by (rewrite ?zlen_cons; pose proof (zlen_nonneg buf); lia)
  end; rewrite bind_ok; cbv [Z.to_nat Pos.to_nat Pos.iter_op Nat.add upd].

Ltac put_tac buf n :=
  buf_split buf n; step_idx; repeat step_set buf;
  rewrite ?shr_u8 by lia; unfold u8;
  cbv [be_digits]; cbn [le_digits rev app skipn];
  rewrite ?Z.div_div by lia; reflexivity.

Ltac bytes_of H :=
  repeat match type of H with
  | wf_bytes (_ :: _) =>
      let Hb := fresh "Hb" in let H' := fresh "Hw" in
      inversion H as [|? ? Hb H']; subst; clear H; unfold is_byte in Hb; rename H' into H
  | Forall _ (_ :: _) =>
      let Hb := fresh "Hb" in let H' := fresh "Hw" in
      inversion H as [|? ? Hb H']; subst; clear H; unfold is_byte in Hb; rename H' into H
  end.

Lemma wide_small m x k : 0 <= k -> 0 <= x < 256 -> 256 * 2 ^ k <= m ->
  Z.shiftl x k mod m = Z.shiftl x k.
Proof.
  intros Hk Hx Hm. apply Z.mod_small. rewrite Z.shiftl_mul_pow2 by lia. nia.
Qed.

(** Rewrites nested disjoint [lor]s into sums, innermost first. *)
Ltac lor_add :=
  repeat match goal with
  | |- context [Z.lor ?a (Z.shiftl ?b ?n)] =>
      lazymatch a with
      | context [Z.lor] => fail
      | _ => rewrite (lor_shiftl_add a b n) by lia
      end
  end.

Ltac panic_tac buf :=
  split; rewrite idx_panic by (unfold zlen; lia); reflexivity.

Lemma codec_intro n digits value get put :
  (forall v, 0 <= v < 256 ^ Z.of_nat n -> value (digits v) = v) ->
  (forall v, length (digits v) = n) -> (forall v, wf_bytes (digits v)) ->
  (forall buf v, (n <= length buf)%nat -> put buf v = Ok (digits v ++ skipn n buf)) ->
  (forall buf, wf_bytes (firstn n buf) -> (n <= length buf)%nat ->
     get buf = Ok (value (firstn n buf))) ->
  (forall buf v, (length buf < n)%nat -> put buf v = Panic /\ get buf = Panic) ->
  codec_ok n digits value get put.
Proof.
  intros Hval Hlen Hwf Hput Hget Hpan. constructor; auto.
  - intros buf v Hl Hv. eexists; split; [now apply Hput|].
    assert (E : firstn n (digits v ++ skipn n buf) = digits v).
    { rewrite firstn_app, Hlen, Nat.sub_diag. cbn [firstn]. rewrite app_nil_r.
      apply firstn_all2. now rewrite Hlen. }
    rewrite Hget.
    + now rewrite E, Hval.
    + rewrite E. apply Hwf.
    + rewrite app_length, Hlen. lia.
Qed.

Lemma bele16_ok : codec_ok 2 (be_digits 2) be_value bele_Uint16 bele_PutUint16.
Proof.
  apply codec_intro.
  - intros v Hv. now apply be_value_digits.
  - intros v. apply be_digits_length.
  - intros v. apply be_digits_wf.
  - intros buf v Hl. unfold bele_PutUint16. put_tac buf 2%nat.
  - intros buf Hw Hl. unfold bele_Uint16.
    buf_split buf 2%nat. cbn [firstn] in Hw. bytes_of Hw. repeat step_idx.
    unfold u16, u32, u64. rewrite !wide_small by lia.
    lor_add.
    cbv [be_value]. cbn [firstn rev app le_value]. apply Ok_eq.
    lia.
  - intros buf v Hl. unfold bele_Uint16, bele_PutUint16. panic_tac buf.
Qed.

Lemma bele32_ok : codec_ok 4 (be_digits 4) be_value bele_Uint32 bele_PutUint32.
Proof.
  apply codec_intro.
  - intros v Hv. now apply be_value_digits.
  - intros v. apply be_digits_length.
  - intros v. apply be_digits_wf.
  - intros buf v Hl. unfold bele_PutUint32. put_tac buf 4%nat.
  - intros buf Hw Hl. unfold bele_Uint32.
    buf_split buf 4%nat. cbn [firstn] in Hw. bytes_of Hw. repeat step_idx.
    unfold u16, u32, u64. rewrite !wide_small by lia.
    lor_add.
    cbv [be_value]. cbn [firstn rev app le_value]. apply Ok_eq.
    lia.
  - intros buf v Hl. unfold bele_Uint32, bele_PutUint32. panic_tac buf.
Qed.

Lemma bele64_ok : codec_ok 8 (be_digits 8) be_value bele_Uint64 bele_PutUint64.
Proof.
  apply codec_intro.
  - intros v Hv. now apply be_value_digits.
  - intros v. apply be_digits_length.
  - intros v. apply be_digits_wf.
  - intros buf v Hl. unfold bele_PutUint64. put_tac buf 8%nat.
  - intros buf Hw Hl. unfold bele_Uint64.
    buf_split buf 8%nat. cbn [firstn] in Hw. bytes_of Hw. repeat step_idx.
    unfold u16, u32, u64. rewrite !wide_small by lia.
    lor_add.
    cbv [be_value]. cbn [firstn rev app le_value]. apply Ok_eq.
    lia.
  - intros buf v Hl. unfold bele_Uint64, bele_PutUint64. panic_tac buf.
Qed.

Lemma lele16_ok : codec_ok 2 (le_digits 2) le_value lele_Uint16 lele_PutUint16.
Proof.
  apply codec_intro.
  - intros v Hv. now apply le_value_digits.
  - intros v. apply le_digits_length.
  - intros v. apply le_digits_wf.
  - intros buf v Hl. unfold lele_PutUint16. put_tac buf 2%nat.
  - intros buf Hw Hl. unfold lele_Uint16.
    buf_split buf 2%nat. cbn [firstn] in Hw. bytes_of Hw. repeat step_idx.
    unfold u16, u32, u64. rewrite !wide_small by lia.
    lor_add.
    cbv [be_value]. cbn [firstn rev app le_value]. apply Ok_eq.
    lia.
  - intros buf v Hl. unfold lele_Uint16, lele_PutUint16. panic_tac buf.
Qed.

Lemma lele32_ok : codec_ok 4 (le_digits 4) le_value lele_Uint32 lele_PutUint32.
Proof.
  apply codec_intro.
  - intros v Hv. now apply le_value_digits.
  - intros v. apply le_digits_length.
  - intros v. apply le_digits_wf.
  - intros buf v Hl. unfold lele_PutUint32. put_tac buf 4%nat.
  - intros buf Hw Hl. unfold lele_Uint32.
    buf_split buf 4%nat. cbn [firstn] in Hw. bytes_of Hw. repeat step_idx.
    unfold u16, u32, u64. rewrite !wide_small by lia.
    lor_add.
    cbv [be_value]. cbn [firstn rev app le_value]. apply Ok_eq.
    lia.
  - intros buf v Hl. unfold lele_Uint32, lele_PutUint32. panic_tac buf.
Qed.

Lemma lele64_ok : codec_ok 8 (le_digits 8) le_value lele_Uint64 lele_PutUint64.
Proof.
  apply codec_intro.
  - intros v Hv. now apply le_value_digits.
  - intros v. apply le_digits_length.
  - intros v. apply le_digits_wf.
  - intros buf v Hl. unfold lele_PutUint64. put_tac buf 8%nat.
  - intros buf Hw Hl. unfold lele_Uint64.
    buf_split buf 8%nat. cbn [firstn] in Hw. bytes_of Hw. repeat step_idx.
    unfold u16, u32, u64. rewrite !wide_small by lia.
    lor_add.
    cbv [be_value]. cbn [firstn rev app le_value]. apply Ok_eq.
    lia.
  - intros buf v Hl. unfold lele_Uint64, lele_PutUint64. panic_tac buf.
Qed.

Lemma bebe16_ok : codec_ok 2 (le_digits 2) le_value bebe_Uint16 bebe_PutUint16.
Proof.
  apply codec_intro.
  - intros v Hv. now apply le_value_digits.
  - intros v. apply le_digits_length.
  - intros v. apply le_digits_wf.
  - intros buf v Hl. unfold bebe_PutUint16. put_tac buf 2%nat.
  - intros buf Hw Hl. unfold bebe_Uint16.
    buf_split buf 2%nat. cbn [firstn] in Hw. bytes_of Hw. repeat step_idx.
    unfold u16, u32, u64. rewrite !wide_small by lia.
    lor_add.
    cbv [be_value]. cbn [firstn rev app le_value]. apply Ok_eq.
    lia.
  - intros buf v Hl. unfold bebe_Uint16, bebe_PutUint16. panic_tac buf.
Qed.

Lemma bebe32_ok : codec_ok 4 (le_digits 4) le_value bebe_Uint32 bebe_PutUint32.
Proof.
  apply codec_intro.
  - intros v Hv. now apply le_value_digits.
  - intros v. apply le_digits_length.
  - intros v. apply le_digits_wf.
  - intros buf v Hl. unfold bebe_PutUint32. put_tac buf 4%nat.
  - intros buf Hw Hl. unfold bebe_Uint32.
    buf_split buf 4%nat. cbn [firstn] in Hw. bytes_of Hw. repeat step_idx.
    unfold u16, u32, u64. rewrite !wide_small by lia.
    lor_add.
    cbv [be_value]. cbn [firstn rev app le_value]. apply Ok_eq.
    lia.
  - intros buf v Hl. unfold bebe_Uint32, bebe_PutUint32. panic_tac buf.
Qed.

Lemma bebe64_ok : codec_ok 8 (le_digits 8) le_value bebe_Uint64 bebe_PutUint64.
Proof.
  apply codec_intro.
  - intros v Hv. now apply le_value_digits.
  - intros v. apply le_digits_length.
  - intros v. apply le_digits_wf.
  - intros buf v Hl. unfold bebe_PutUint64. put_tac buf 8%nat.
  - intros buf Hw Hl. unfold bebe_Uint64.
    buf_split buf 8%nat. cbn [firstn] in Hw. bytes_of Hw. repeat step_idx.
    unfold u16, u32, u64. rewrite !wide_small by lia.
    lor_add.
    cbv [be_value]. cbn [firstn rev app le_value]. apply Ok_eq.
    lia.
  - intros buf v Hl. unfold bebe_Uint64, bebe_PutUint64. panic_tac buf.
Qed.

Lemma lebe16_ok : codec_ok 2 (be_digits 2) be_value lebe_Uint16 lebe_PutUint16.
Proof.
  apply codec_intro.
  - intros v Hv. now apply be_value_digits.
  - intros v. apply be_digits_length.
  - intros v. apply be_digits_wf.
  - intros buf v Hl. unfold lebe_PutUint16. put_tac buf 2%nat.
  - intros buf Hw Hl. unfold lebe_Uint16.
    buf_split buf 2%nat. cbn [firstn] in Hw. bytes_of Hw. repeat step_idx.
    unfold u16, u32, u64. rewrite !wide_small by lia.
    lor_add.
    cbv [be_value]. cbn [firstn rev app le_value]. apply Ok_eq.
    lia.
  - intros buf v Hl. unfold lebe_Uint16, lebe_PutUint16. panic_tac buf.
Qed.

Lemma lebe32_ok : codec_ok 4 (be_digits 4) be_value lebe_Uint32 lebe_PutUint32.
Proof.
  apply codec_intro.
  - intros v Hv. now apply be_value_digits.
  - intros v. apply be_digits_length.
  - intros v. apply be_digits_wf.
  - intros buf v Hl. unfold lebe_PutUint32. put_tac buf 4%nat.
  - intros buf Hw Hl. unfold lebe_Uint32.
    buf_split buf 4%nat. cbn [firstn] in Hw. bytes_of Hw. repeat step_idx.
    unfold u16, u32, u64. rewrite !wide_small by lia.
    lor_add.
    cbv [be_value]. cbn [firstn rev app le_value]. apply Ok_eq.
    lia.
  - intros buf v Hl. unfold lebe_Uint32, lebe_PutUint32. panic_tac buf.
Qed.

Lemma lebe64_ok : codec_ok 8 (be_digits 8) be_value lebe_Uint64 lebe_PutUint64.
Proof.
  apply codec_intro.
  - intros v Hv. now apply be_value_digits.
  - intros v. apply be_digits_length.
  - intros v. apply be_digits_wf.
  - intros buf v Hl. unfold lebe_PutUint64. put_tac buf 8%nat.
  - intros buf Hw Hl. unfold lebe_Uint64.
    buf_split buf 8%nat. cbn [firstn] in Hw. bytes_of Hw. repeat step_idx.
    unfold u16, u32, u64. rewrite !wide_small by lia.
    lor_add.
    cbv [be_value]. cbn [firstn rev app le_value]. apply Ok_eq.
    lia.
  - intros buf v Hl. unfold lebe_Uint64, lebe_PutUint64. panic_tac buf.
Qed.

Lemma bool_byte_ok : forall buf, (1 <= length buf)%nat ->
  (forall v, exists buf', bin_PutBool buf v = Ok buf' /\ bin_Bool buf' = Ok v /\ tl buf' = tl buf) /\
  (forall v, exists buf', bin_PutUint8 buf v = Ok buf' /\ bin_Uint8 buf' = Ok v /\ tl buf' = tl buf).
Proof.
  intros [|b buf] H; cbn [length] in H; [lia|].
  assert (Hz : 0 <= 0 < zlen (b :: buf)) by (rewrite zlen_cons; pose proof (zlen_nonneg buf); lia).
  split; intros v.
  - destruct v; (eexists; split; [apply set_idx_ok; exact Hz|split; reflexivity]).
  - eexists; split; [apply set_idx_ok; exact Hz|split; reflexivity].
Qed.

Lemma host_refuted :
  exists v buf, bele_PutUint16 [0; 0] v = Ok buf /\ bebe_Uint16 buf <> Ok v.
Proof. exists 258, [1; 2]. split; [reflexivity|]. vm_compute. discriminate. Qed.

Lemma cross_exact n d1 v1 g1 p1 d2 v2 g2 p2 :
  codec_ok n d1 v1 g1 p1 -> codec_ok n d2 v2 g2 p2 ->
  (forall v, length (d1 v) = n) -> (forall v, wf_bytes (d1 v)) ->
  (forall l, wf_bytes l -> length l = n -> d2 (v2 l) = l) ->
  (forall v, 0 <= v < 256 ^ Z.of_nat n -> v2 (d2 v) = v) ->
  forall buf v, (n <= length buf)%nat -> 0 <= v < 256 ^ Z.of_nat n ->
  exists buf', p1 buf v = Ok buf' /\ (g2 buf' = Ok v <-> d1 v = d2 v).
Proof.
  intros C1 C2 Hl Hw Hd Hv buf v Hb Hr. eexists. split; [now apply (co_put _ _ _ _ _ C1)|].
  assert (E : firstn n (d1 v ++ skipn n buf) = d1 v).
  { rewrite firstn_app, Hl, Nat.sub_diag. cbn [firstn]. rewrite app_nil_r.
    apply firstn_all2. now rewrite Hl. }
  rewrite (co_get _ _ _ _ _ C2), E.
  2:{ rewrite E. apply Hw. }
  2:{ rewrite app_length, Hl; lia. }
  split; intros H.
  - inversion H as [H1]. rewrite H1. rewrite <- (Hd (d1 v)) by auto. now rewrite H1.
  - rewrite H. now rewrite Hv.
Qed.

Lemma le_digits_value' n l : wf_bytes l -> length l = n -> le_digits n (le_value l) = l.
Proof. intros H <-. now apply le_digits_value. Qed.
Lemma be_digits_value' n l : wf_bytes l -> length l = n -> be_digits n (be_value l) = l.
Proof. intros H <-. now apply be_digits_value. Qed.

Lemma interop_exact : forall buf v,
  ((2 <= length buf)%nat -> 0 <= v < 256 ^ 2 -> exists buf', bele_PutUint16 buf v = Ok buf' /\
     (bebe_Uint16 buf' = Ok v <-> be_digits 2 v = le_digits 2 v)) /\
  ((4 <= length buf)%nat -> 0 <= v < 256 ^ 4 -> exists buf', bele_PutUint32 buf v = Ok buf' /\
     (bebe_Uint32 buf' = Ok v <-> be_digits 4 v = le_digits 4 v)) /\
  ((8 <= length buf)%nat -> 0 <= v < 256 ^ 8 -> exists buf', bele_PutUint64 buf v = Ok buf' /\
     (bebe_Uint64 buf' = Ok v <-> be_digits 8 v = le_digits 8 v)) /\
  ((2 <= length buf)%nat -> 0 <= v < 256 ^ 2 -> exists buf', lele_PutUint16 buf v = Ok buf' /\
     (lebe_Uint16 buf' = Ok v <-> be_digits 2 v = le_digits 2 v)) /\
  ((4 <= length buf)%nat -> 0 <= v < 256 ^ 4 -> exists buf', lele_PutUint32 buf v = Ok buf' /\
     (lebe_Uint32 buf' = Ok v <-> be_digits 4 v = le_digits 4 v)) /\
  ((8 <= length buf)%nat -> 0 <= v < 256 ^ 8 -> exists buf', lele_PutUint64 buf v = Ok buf' /\
     (lebe_Uint64 buf' = Ok v <-> be_digits 8 v = le_digits 8 v)).
Proof.
  intros buf v. repeat apply conj.
  - intros Hl Hv.
    destruct (cross_exact _ _ _ _ _ _ _ _ _ bele16_ok bebe16_ok (be_digits_length 2) (be_digits_wf 2) (le_digits_value' 2) (le_value_digits 2) buf v Hl Hv) as (b' & H1 & H2).
    exists b'. split; [exact H1|]. rewrite H2. split; intros E; now rewrite E.
  - intros Hl Hv.
    destruct (cross_exact _ _ _ _ _ _ _ _ _ bele32_ok bebe32_ok (be_digits_length 4) (be_digits_wf 4) (le_digits_value' 4) (le_value_digits 4) buf v Hl Hv) as (b' & H1 & H2).
    exists b'. split; [exact H1|]. rewrite H2. split; intros E; now rewrite E.
  - intros Hl Hv.
    destruct (cross_exact _ _ _ _ _ _ _ _ _ bele64_ok bebe64_ok (be_digits_length 8) (be_digits_wf 8) (le_digits_value' 8) (le_value_digits 8) buf v Hl Hv) as (b' & H1 & H2).
    exists b'. split; [exact H1|]. rewrite H2. split; intros E; now rewrite E.
  - intros Hl Hv.
    destruct (cross_exact _ _ _ _ _ _ _ _ _ lele16_ok lebe16_ok (le_digits_length 2) (le_digits_wf 2) (be_digits_value' 2) (be_value_digits 2) buf v Hl Hv) as (b' & H1 & H2).
    exists b'. split; [exact H1|]. rewrite H2. split; intros E; now rewrite E.
  - intros Hl Hv.
    destruct (cross_exact _ _ _ _ _ _ _ _ _ lele32_ok lebe32_ok (le_digits_length 4) (le_digits_wf 4) (be_digits_value' 4) (be_value_digits 4) buf v Hl Hv) as (b' & H1 & H2).
    exists b'. split; [exact H1|]. rewrite H2. split; intros E; now rewrite E.
  - intros Hl Hv.
    destruct (cross_exact _ _ _ _ _ _ _ _ _ lele64_ok lebe64_ok (le_digits_length 8) (le_digits_wf 8) (be_digits_value' 8) (be_value_digits 8) buf v Hl Hv) as (b' & H1 & H2).
    exists b'. split; [exact H1|]. rewrite H2. split; intros E; now rewrite E.
Qed.
