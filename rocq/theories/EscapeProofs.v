From Coq Require Import ZifyBool ZifyNat.
From Verif Require Import Go GoFacts EscapeModel EscapeSpec.
Ltac Zify.zify_post_hook ::= Z.div_mod_to_equations.

(** * Byte tables *)
Definition literalb (m : mode) (c : Z) : bool :=
  let alnum := ((48 <=? c) && (c <=? 57)) || ((65 <=? c) && (c <=? 90)) || ((97 <=? c) && (c <=? 122)) in
  let unres := alnum || oneof c "-._~" in
  let sub := oneof c "!$&'()*+,;=" in
  let pch := unres || sub || oneof c ":@" in
  match m with
  | Path => pch || (c =? 47)
  | PathSegment => pch && negb (oneof c ";,")
  | UserPassword => unres || sub
  | QueryComponent => unres
  | Fragment => pch || oneof c "/?"
  | Host | Zone => unres || sub || oneof c ":[]<>"""
  end.

Lemma oneof_in c s : oneof c s = true <-> In c (str s).
Proof.
  unfold oneof. rewrite existsb_exists. split.
  - intros (x & H & E). apply Z.eqb_eq in E. now subst.
  - intros H. exists c. split; [assumption|apply Z.eqb_refl].
Qed.
Lemma oneof_not c s : oneof c s = false <-> ~ In c (str s).
Proof. rewrite <- oneof_in. destruct (oneof c s); intuition congruence. Qed.

Lemma literalb_spec m c : literalb m c = true <-> literal m c.
Proof.
  unfold literalb, literal, pchar, unreserved, sub_delim, alnum.
  destruct m; repeat rewrite ?orb_true_iff, ?andb_true_iff, ?negb_true_iff, ?oneof_in, ?oneof_not, ?Z.leb_le, ?Z.eqb_eq; tauto.
Qed.

(** A byte left alone by Escape is literal in its component. *)
Lemma unescaped_literal m c : is_byte c -> shouldEscape c m = false -> literal m c.
Proof.
  intros Hc H. apply literalb_spec.
  pose proof (byte_sweep (fun c => shouldEscape c m || literalb m c)) as S.
  cbv beta in S. specialize (S ltac:(destruct m; vm_compute; reflexivity) c Hc).
  rewrite H in S. exact S.
Qed.
Lemma host_exact m c : is_byte c -> m = Host \/ m = Zone -> shouldEscape c m = negb (literalb m c).
Proof.
  intros Hc Hm. 
  pose proof (byte_sweep (fun c => Bool.eqb (shouldEscape c m) (negb (literalb m c)))) as S.
  apply eqb_prop. apply S; [|exact Hc]. destruct Hm as [-> | ->]; vm_compute; reflexivity.
Qed.
Lemma plain_not_percent m c : shouldEscape c m = false -> c <> 37 /\ c <> 32 /\ (c = 43 -> m <> QueryComponent).
Proof.
  intros H. split; [|split].
  - intros ->. destruct m; vm_compute in H; discriminate.
  - intros ->. destruct m; vm_compute in H; discriminate.
  - intros -> ->. vm_compute in H. discriminate.
Qed.

Lemma hex_spec c : is_byte c -> (ishex c = true -> hexval c (unhex c)) /\ (forall v, hexval c v -> ishex c = true /\ v = unhex c).
Proof.
  intros Hc. unfold is_byte in Hc. unfold hexval, ishex, unhex, u8. split.
  - intros H. destruct ((48 <=? c) && (c <=? 57)) eqn:A; [left; split; lia|].
    destruct ((97 <=? c) && (c <=? 102)) eqn:B; [right; right; split; lia|].
    destruct ((65 <=? c) && (c <=? 70)) eqn:D; [right; left; split; lia|]. lia.
  - intros v H.
    destruct ((48 <=? c) && (c <=? 57)) eqn:A; [split; lia|].
    destruct ((97 <=? c) && (c <=? 102)) eqn:B; [split; lia|].
    destruct ((65 <=? c) && (c <=? 70)) eqn:D; [split; lia|]. lia.
Qed.
Lemma hexval_range c v : hexval c v -> 0 <= v < 16.
Proof. unfold hexval. lia. Qed.
Lemma hexval_byte c v : hexval c v -> is_byte c.
Proof. unfold hexval, is_byte. lia. Qed.

Lemma hex_join x y : 0 <= x < 16 -> 0 <= y < 16 -> Z.lor (u8 (Z.shiftl x 4)) y = 16 * x + y.
Proof.
  intros Hx Hy. unfold u8. rewrite Z.shiftl_mul_pow2 by lia. change (2 ^ 4) with 16. change (2 ^ 8) with 256.
  rewrite Z.mod_small by lia. 
  replace (x * 16) with (Z.shiftl x 4) by (rewrite Z.shiftl_mul_pow2 by lia; lia).
  rewrite Z.lor_comm, lor_shiftl_add by (change (2 ^ 4) with 16; lia). change (2 ^ 4) with 16. lia.
Qed.

(** The upper-case digit of a value. *)
Definition hexdigit (v : Z) : Z := if v <? 10 then 48 + v else 55 + v.
Lemma upperhex_idx v : 0 <= v < 16 -> idx upperhex v = Ok (hexdigit v).
Proof.
  intros H. assert (E : forallb (fun v => match idx upperhex v with Ok h => h =? hexdigit v | Panic => false end)
    (map Z.of_nat (seq 0 16)) = true) by (vm_compute; reflexivity).
  rewrite forallb_forall in E. specialize (E v).
  assert (K : In v (map Z.of_nat (seq 0 16))) by (apply in_map_iff; exists (Z.to_nat v); split; [lia|apply in_seq; lia]).
  specialize (E K). destruct (idx upperhex v); [|discriminate]. f_equal. lia.
Qed.
Lemma hexdigit_val v : 0 <= v < 16 -> hexval (hexdigit v) v.
Proof. intros H. unfold hexval, hexdigit. destruct (Z.ltb_spec v 10); lia. Qed.

(** * Escape computes a byte-wise map *)
Definition esc1 (m : mode) (c : Z) : bytes :=
  if (c =? 32) && is_query m then [43]
  else if shouldEscape c m then [37; hexdigit (c / 16); hexdigit (c mod 16)]
  else [c].

Lemma set_idx_mid (a : bytes) x z v i : i = zlen a -> set_idx (a ++ x :: z) i v = Ok (a ++ v :: z).
Proof.
  intros ->. unfold set_idx. pose proof (zlen_nonneg a). pose proof (zlen_nonneg z).
  rewrite zlen_app, zlen_cons. replace ((zlen a <? 0) || (zlen a + (1 + zlen z) <=? zlen a)) with false by lia.
  f_equal. unfold zlen. rewrite Nat2Z.id. clear. induction a as [|h t IH]; cbn; [reflexivity|now rewrite IH].
Qed.

Lemma write_loop_spec m s : wf_bytes s -> forall a z j, j = zlen a ->
  zlen (concat (map (esc1 m) s)) = zlen z ->
  write_loop s m j (a ++ z) = Ok (a ++ concat (map (esc1 m) s)).
Proof.
  induction 1 as [|c t Hc Ht IH]; intros a z j Hj Hz; cbn [write_loop map concat].
  - cbn in Hz. unfold zlen in Hz. destruct z; [reflexivity|cbn in Hz; lia].
  - cbn [map concat] in Hz. rewrite zlen_app in Hz. unfold esc1 at 1. unfold esc1 at 1 in Hz.
    pose proof (zlen_nonneg (concat (map (esc1 m) t))) as P.
    destruct ((c =? 32) && is_query m).
    + change (zlen [43]) with 1 in Hz. destruct z as [|z0 z]; [change (zlen (@nil Z)) with 0 in Hz; lia|]. rewrite zlen_cons in Hz.
      rewrite set_idx_mid by assumption. cbn [bind].
      change (a ++ 43 :: z) with (a ++ [43] ++ z). rewrite app_assoc, IH; [now rewrite <- app_assoc| |lia].
      rewrite zlen_app. change (zlen [43]) with 1. lia.
    + destruct (shouldEscape c m).
      * change (zlen [37; hexdigit (c / 16); hexdigit (c mod 16)]) with 3 in Hz.
        destruct z as [|z0 [|z1 [|z2 z]]]; rewrite ?zlen_cons in Hz; change (zlen (@nil Z)) with 0 in Hz; try lia.
        unfold is_byte in Hc. rewrite shiftr_div by lia. change (2 ^ 4) with 16.
        change 15 with (Z.ones 4). rewrite Z.land_ones by lia. change (2 ^ 4) with 16.
        rewrite set_idx_mid by assumption. cbn [bind]. rewrite upperhex_idx by lia. cbn [bind].
        change (a ++ 37 :: z1 :: z2 :: z) with (a ++ [37] ++ z1 :: z2 :: z). rewrite (app_assoc a).
        rewrite set_idx_mid by (rewrite zlen_app; change (zlen [37]) with 1; lia). cbn [bind].
        rewrite upperhex_idx by lia. cbn [bind].
        change (?u ++ hexdigit (c / 16) :: z2 :: z) with (u ++ [hexdigit (c / 16)] ++ z2 :: z).
        rewrite (app_assoc (a ++ [37])).
        rewrite set_idx_mid by (rewrite !zlen_app; change (zlen [37]) with 1; change (zlen [hexdigit (c / 16)]) with 1; lia).
        cbn [bind].
        change (?u ++ hexdigit (c mod 16) :: z) with (u ++ [hexdigit (c mod 16)] ++ z).
        rewrite (app_assoc ((a ++ [37]) ++ [hexdigit (c / 16)])).
        rewrite IH; [rewrite <- !app_assoc; reflexivity| |lia].
        rewrite !zlen_app. change (zlen [37]) with 1. change (zlen [hexdigit (c / 16)]) with 1.
        change (zlen [hexdigit (c mod 16)]) with 1. lia.
      * change (zlen [c]) with 1 in Hz. destruct z as [|z0 z]; [change (zlen (@nil Z)) with 0 in Hz; lia|]. rewrite zlen_cons in Hz.
        rewrite set_idx_mid by assumption. cbn [bind].
        change (a ++ c :: z) with (a ++ [c] ++ z). rewrite app_assoc, IH; [now rewrite <- app_assoc| |lia].
        rewrite zlen_app. change (zlen [c]) with 1. lia.
Qed.

Lemma count_acc m s : forall sp hx,
  count s m sp hx = (sp + fst (count s m 0 0), hx + snd (count s m 0 0)).
Proof.
  induction s as [|c t IH]; intros sp hx; cbn [count]; [cbn [fst snd]; now rewrite !Z.add_0_r|].
  destruct (shouldEscape c m); [|apply IH].
  destruct ((c =? 32) && is_query m).
  - rewrite (IH (sp + 1) hx), (IH (0 + 1) 0). cbn [fst snd]. f_equal; lia.
  - rewrite (IH sp (hx + 1)), (IH 0 (0 + 1)). cbn [fst snd]. f_equal; lia.
Qed.

Lemma count_nonneg m s : 0 <= fst (count s m 0 0) /\ 0 <= snd (count s m 0 0).
Proof.
  induction s as [|c t IH]; cbn [count]; [cbn; lia|].
  destruct (shouldEscape c m); [|exact IH].
  destruct ((c =? 32) && is_query m); rewrite count_acc; cbn [fst snd]; lia.
Qed.

Lemma space_escapes m : shouldEscape 32 m = true.
Proof. destruct m; reflexivity. Qed.

Lemma escape_length m s : zlen (concat (map (esc1 m) s)) = zlen s + 2 * snd (count s m 0 0).
Proof.
  induction s as [|c t IH]; cbn [map concat count]; [reflexivity|].
  rewrite zlen_app, IH, zlen_cons. unfold esc1.
  destruct ((c =? 32) && is_query m) eqn:E.
  - assert (c = 32) by lia. subst c. rewrite space_escapes, (count_acc m t (0 + 1) 0). cbn [snd]. change (zlen [43]) with 1. lia.
  - destruct (shouldEscape c m).
    + rewrite (count_acc m t 0 (0 + 1)). cbn [snd]. change (zlen [37; hexdigit (c / 16); hexdigit (c mod 16)]) with 3. lia.
    + change (zlen [c]) with 1. lia.
Qed.

Lemma no_escape m s : count s m 0 0 = (0, 0) -> concat (map (esc1 m) s) = s.
Proof.
  induction s as [|c t IH]; cbn [map concat count]; [reflexivity|]. pose proof (count_nonneg m t) as N.
  unfold esc1 at 1. destruct (shouldEscape c m) eqn:S.
  - destruct ((c =? 32) && is_query m); rewrite count_acc; intros E; apply pair_equal_spec in E; lia.
  - intros E. destruct ((c =? 32) && is_query m) eqn:Q.
    + assert (c = 32) by lia. subst c. rewrite space_escapes in S. discriminate.
    + cbn [app]. now rewrite IH.
Qed.

Lemma plus_loop_spec m s : snd (count s m 0 0) = 0 -> (is_query m = true \/ ~ In 32 s) -> forall a i, i = zlen a ->
  plus_loop s i (a ++ s) = Ok (a ++ concat (map (esc1 m) s)).
Proof.
  induction s as [|c t IH]; intros Hh Hq a i Hi; cbn [plus_loop map concat]; [reflexivity|].
  cbn [count] in Hh. unfold esc1 at 1. pose proof (count_nonneg m t) as N.
  destruct (Z.eqb_spec c 32) as [->|Nc].
  - rewrite space_escapes in Hh. cbn [andb] in *. destruct Hq as [Hq|Hq]; [|exfalso; apply Hq; now left].
    rewrite Hq in *. rewrite count_acc in Hh. cbn [snd] in Hh.
    rewrite set_idx_mid by assumption. cbn [bind].
    change (a ++ 43 :: t) with (a ++ [43] ++ t). rewrite app_assoc, IH; [now rewrite <- app_assoc|lia|tauto|].
    rewrite zlen_app. change (zlen [43]) with 1. lia.
  - cbn [andb bind] in *. destruct (shouldEscape c m).
    + rewrite count_acc in Hh. cbn [snd] in Hh. lia.
    + change (a ++ c :: t) with (a ++ [c] ++ t). rewrite app_assoc, IH; [now rewrite <- app_assoc|lia| |].
      * destruct Hq as [Hq|Hq]; [now left|]. right. intros K. apply Hq. now right.
      * rewrite zlen_app. change (zlen [c]) with 1. lia.
Qed.

Lemma Escape_spec m s : wf_bytes s -> Escape s m = Ok (concat (map (esc1 m) s)).
Proof.
  intros W. unfold Escape. destruct (count s m 0 0) as [sp hx] eqn:E.
  pose proof (count_nonneg m s) as N. rewrite E in N. cbn [fst snd] in N.
  destruct ((sp =? 0) && (hx =? 0)) eqn:Z0.
  - f_equal. symmetry. apply no_escape. rewrite E. f_equal; lia.
  - destruct (Z.eqb_spec hx 0) as [->|Nh].
    + assert (L : length (repeat 0 (Z.to_nat (zlen s + 2 * 0))) = length s)
        by (rewrite repeat_length; unfold zlen; lia).
      unfold copy_at. replace ((0 <=? 0) && (0 <=? zlen (repeat 0 (Z.to_nat (zlen s + 2 * 0))))) with true
        by (unfold zlen; lia).
      cbn [bind]. unfold overwrite. rewrite L. change (Z.to_nat 0) with 0%nat. rewrite Nat.sub_0_r, firstn_all.
      cbn [firstn app Nat.add]. rewrite skipn_all2 by lia. rewrite app_nil_r.
      apply (plus_loop_spec m s) with (a := []); [rewrite E; reflexivity| |reflexivity].
      destruct (is_query m) eqn:Q; [now left|]. exfalso.
      assert (fst (count s m 0 0) = 0).
      { clear -Q. induction s as [|c t IH]; cbn [count]; [reflexivity|]. rewrite Q, andb_false_r.
        destruct (shouldEscape c m); [rewrite count_acc; cbn [fst]; lia|assumption]. }
      rewrite E in H. cbn [fst] in H. lia.
    + apply (write_loop_spec m s W [] _ 0); [reflexivity|].
      rewrite escape_length, E. cbn [snd]. unfold zlen at 2. rewrite repeat_length. pose proof (zlen_nonneg s). lia.
Qed.

(** * Unescape *)
Lemma allowed_hex_inv m a b r : allowed m (37 :: a :: b :: r) ->
  exists x y, hexval a x /\ hexval b y /\ ok_hex m (16 * x + y) /\ allowed m r.
Proof.
  intros H. remember (37 :: a :: b :: r) as s eqn:E. destruct H as [|a' b' x y s' Ha Hb Ho A|c s' Nc Ho A]; inversion E; subst; [|congruence].
  exists x, y. auto.
Qed.
Lemma allowed_byte_inv m c r : c <> 37 -> allowed m (c :: r) -> ok_byte m c /\ allowed m r.
Proof.
  intros N H. remember (c :: r) as s eqn:E. destruct H as [|a' b' x y s' Ha Hb Ho A|c' s' Nc Ho A]; inversion E; subst; [congruence|auto].
Qed.
Lemma check_loop_ok m s : wf_bytes s -> forall n p,
  (exists n' p', check_loop s m n p = inr (n', p')) <-> allowed m s.
Proof.
  intros W. 
  assert (G : forall k s, (length s <= k)%nat -> wf_bytes s -> forall n p,
    (exists n' p', check_loop s m n p = inr (n', p')) <-> allowed m s).
  2:{ intros n p. apply (G (length s)); auto. }
  clear s W. induction k as [|k IH]; intros s Hl W n p.
  { destruct s; [|cbn in Hl; lia]. cbn. split; [constructor|eauto]. }
  destruct s as [|c s]; [cbn; split; [constructor|eauto]|]. cbn in Hl. inversion W as [|? ? Hc Ws]; subst.
  destruct (Z.eq_dec c 37) as [->|N37].
  - cbn [check_loop]. destruct s as [|a [|b r]].
    + split; [intros (? & ? & ?); discriminate|]. intros H; inversion H; subst; congruence.
    + split; [intros (? & ? & ?); discriminate|]. intros H; inversion H; subst; congruence.
    + inversion Ws as [|? ? Ha Wb]; subst. inversion Wb as [|? ? Hb Wr]; subst.
      destruct (hex_spec a Ha) as [A1 A2]. destruct (hex_spec b Hb) as [B1 B2].
      destruct (ishex a) eqn:Ea; [|cbn [negb orb]; split; [intros (? & ? & ?); discriminate|
        intros H; destruct (allowed_hex_inv _ _ _ _ H) as (x & y & Hx & Hy & _); destruct (A2 _ Hx); discriminate]].
      destruct (ishex b) eqn:Eb; [|cbn [negb orb]; split; [intros (? & ? & ?); discriminate|
        intros H; destruct (allowed_hex_inv _ _ _ _ H) as (x & y & Hx & Hy & _); destruct (B2 _ Hy); discriminate]].
      cbn [negb orb]. specialize (A1 eq_refl). specialize (B1 eq_refl).
      pose proof (hexval_range _ _ A1) as Ra. pose proof (hexval_range _ _ B1) as Rb.
      assert (P25 : beq [37; a; b] (str "%25") = (16 * unhex a + unhex b =? 37)).
      { unfold is_byte in *. unfold hexval in A1, B1. change (str "%25") with [37; 50; 53]. cbn [beq].
        rewrite andb_true_r. change (37 =? 37) with true. cbn [andb]. lia. }
      rewrite P25, hex_join by assumption.
      set (v := 16 * unhex a + unhex b) in *.
      assert (Hv : is_byte v) by (unfold is_byte; lia).
      assert (Q : allowed m (37 :: a :: b :: r) <-> ok_hex m v /\ allowed m r).
      { split.
        - intros H. destruct (allowed_hex_inv _ _ _ _ H) as (x & y & Hx & Hy & Ho & Ha').
          destruct (A2 _ Hx) as [_ ->]. destruct (B2 _ Hy) as [_ ->]. auto.
        - intros [H1 H2]. econstructor; eauto. }
      rewrite Q.
      destruct m; cbn [is_host is_zone andb ok_hex].
      1,2,5,6,7: rewrite IH by (auto; cbn in Hl; lia); tauto.
      * destruct ((unhex a <? 8) && negb (v =? 37)) eqn:E.
        -- split; [intros (? & ? & ?); discriminate|]. intros [[H|H] _]; exfalso; lia.
        -- rewrite IH by (auto; cbn in Hl; lia). split; [|tauto]. intros H; split; [lia|assumption].
      * rewrite (host_exact Host v Hv) by tauto.
        destruct (literalb Host v) eqn:E.
        -- rewrite andb_false_r. rewrite IH by (auto; cbn in Hl; lia). apply literalb_spec in E. tauto.
        -- assert (E' : ~ literal Host v) by (rewrite <- literalb_spec, E; discriminate).
           cbn [negb]. rewrite andb_true_r. destruct (negb (v =? 37) && negb (v =? 32)) eqn:F.
           ++ split; [intros (? & ? & ?); discriminate|]. intros [[H|[H|H]] _]; try tauto; exfalso; lia.
           ++ rewrite IH by (auto; cbn in Hl; lia). split; [|tauto]. intros H; split; [lia|assumption].
  - destruct (Z.eq_dec c 43) as [->|N43].
    + cbn [check_loop]. rewrite IH by (auto; lia). split.
      * intros H. constructor; auto. unfold ok_byte. destruct m; auto.
      * intros H. apply allowed_byte_inv in H; [tauto|lia].
    + assert (S : check_loop (c :: s) m n p =
        if (is_host m || is_zone m) && (c <? 128) && shouldEscape c m then inl ErrInvalidHostEscape
        else check_loop s m n p).
      { cbn [check_loop]. destruct c as [|c|c]; try reflexivity.
        do 6 (destruct c as [c|c|]; try reflexivity; try congruence). }
      rewrite S.
      assert (Q : allowed m (c :: s) <-> ok_byte m c /\ allowed m s).
      { split; [apply allowed_byte_inv; assumption|intros [H1 H2]; constructor; auto]. }
      rewrite Q.
      destruct m; cbn [is_host is_zone orb andb ok_byte].
      1,2,5,6,7: rewrite IH by (auto; lia); tauto.
      all: rewrite host_exact by tauto.
      all: match goal with |- context [literalb ?m ?x] => destruct (literalb m x) eqn:E;
             [apply literalb_spec in E; rewrite andb_false_r|
              assert (~ literal m x) by (rewrite <- literalb_spec, E; discriminate); rewrite andb_true_r] end.
      1,3: rewrite IH by (auto; lia); tauto.
      all: match goal with |- context [?x <? 128] => destruct (Z.ltb_spec x 128) end.
      1,3: split; [intros (? & ? & ?); discriminate|intros [[?|[?|?]] _]; try tauto; exfalso; lia].
      all: rewrite IH by (auto; lia); split; [intros; split; [left; lia|assumption]|tauto].
Qed.

(** The decoding loop returns the bytes denoted. *)
Lemma decode_loop_spec m s : wf_bytes s -> allowed m s -> exists t, decode_loop s m = Ok t /\ denotes m s t.
Proof.
  intros W A. induction A as [|a b x y s Ha Hb Ho A IH|c s Nc Ho A IH].
  - exists []. split; [reflexivity|constructor].
  - inversion W as [|? ? _ W1]; subst. inversion W1 as [|? ? Wa W2]; subst. inversion W2 as [|? ? Wb W3]; subst.
    destruct (IH W3) as (t & E & D). cbn [decode_loop]. rewrite E. cbn [bind].
    destruct (proj2 (hex_spec a Wa) _ Ha) as [_ Ea]. destruct (proj2 (hex_spec b Wb) _ Hb) as [_ Eb].
    rewrite hex_join by (rewrite <- ?Ea, <- ?Eb; eauto using hexval_range). rewrite <- Ea, <- Eb.
    eexists. split; [reflexivity|]. now constructor.
  - inversion W as [|? ? Hc W1]; subst. destruct (IH W1) as (t & E & D).
    destruct (Z.eq_dec c 43) as [->|N43].
    + cbn [decode_loop]. rewrite E. cbn [bind]. eexists. split; [reflexivity|].
      destruct m; cbn [is_query]; try (apply de_byte; [lia|intros [? ?]; discriminate|assumption]).
      now apply de_plus.
    + assert (S : decode_loop (c :: s) m = (let! t := decode_loop s m in Ok (c :: t))).
      { cbn [decode_loop]. destruct c as [|c|c]; try reflexivity.
        do 6 (destruct c as [c|c|]; try reflexivity; try congruence). }
      rewrite S, E. cbn [bind]. eexists. split; [reflexivity|]. apply de_byte; auto. intros [_ ?]; congruence.
Qed.

Lemma denotes_fun m s t : denotes m s t -> forall t', denotes m s t' -> t = t'.
Proof.
  assert (HV : forall c v w, hexval c v -> hexval c w -> v = w) by (unfold hexval; lia).
  induction 1 as [|a b x y s t Ha Hb D IH|s t Hm D IH|c s t N1 N2 D IH]; intros t' D'; inversion D'; subst; auto;
    try congruence; try tauto.
  - f_equal; [|auto]. rewrite (HV a x x0), (HV b y y0); auto.
  - f_equal; auto.
  - f_equal; auto.
Qed.

Lemma check_loop_counts m s : forall n p n' p', check_loop s m n p = inr (n', p') ->
  n <= n' /\ 2 * (n' - n) <= zlen s.
Proof.
  assert (G : forall k s, (length s <= k)%nat -> forall n p n' p', check_loop s m n p = inr (n', p') ->
    n <= n' /\ 2 * (n' - n) <= zlen s).
  { clear s. induction k as [|k IH]; intros s Hl n p n' p' E.
    { destruct s; [|cbn in Hl; lia]. inversion E; subst. unfold zlen. cbn [length]. lia. }
    destruct s as [|c s]; [inversion E; subst; unfold zlen; cbn [length]; lia|]. cbn in Hl.
    destruct (Z.eq_dec c 37) as [->|N37].
    - cbn [check_loop] in E. destruct s as [|a [|b r]]; try discriminate.
      repeat match type of E with (if ?x then _ else _) = _ => destruct x; [discriminate|] end.
      apply IH in E; [|cbn in Hl; lia]. rewrite !zlen_cons. lia.
    - destruct (Z.eq_dec c 43) as [->|N43].
      + cbn [check_loop] in E. apply IH in E; [|lia]. rewrite !zlen_cons. lia.
      + assert (S : check_loop (c :: s) m n p =
          if (is_host m || is_zone m) && (c <? 128) && shouldEscape c m then inl ErrInvalidHostEscape
          else check_loop s m n p).
        { cbn [check_loop]. destruct c as [|c|c]; try reflexivity.
          do 6 (destruct c as [c|c|]; try reflexivity; try congruence). }
        rewrite S in E. destruct (_ && _ && _); [discriminate|]. apply IH in E; [|lia]. rewrite !zlen_cons. lia. }
  intros. eapply (G (length s)); eauto.
Qed.

(** No escapes and no plus: the text denotes itself. *)
Lemma check_loop_mono m s : forall n p n' p', check_loop s m n p = inr (n', p') ->
  p = true -> is_query m = true -> p' = true.
Proof.
  assert (G : forall k s, (length s <= k)%nat -> forall n p n' p', check_loop s m n p = inr (n', p') ->
    p = true -> is_query m = true -> p' = true).
  { clear s. induction k as [|k IH]; intros s Hl n p n' p' E Hp Hq.
    { destruct s; [|cbn in Hl; lia]. inversion E; subst. reflexivity. }
    destruct s as [|c s]; [inversion E; subst; reflexivity|]. cbn in Hl.
    destruct (Z.eq_dec c 37) as [->|N37].
    - cbn [check_loop] in E. destruct s as [|a [|b r]]; try discriminate.
      repeat match type of E with (if ?x then _ else _) = _ => destruct x; [discriminate|] end.
      apply IH in E; auto. cbn in Hl; lia.
    - destruct (Z.eq_dec c 43) as [->|N43].
      + cbn [check_loop] in E. apply IH in E; auto. lia.
      + assert (S : check_loop (c :: s) m n p =
          if (is_host m || is_zone m) && (c <? 128) && shouldEscape c m then inl ErrInvalidHostEscape
          else check_loop s m n p).
        { cbn [check_loop]. destruct c as [|c|c]; try reflexivity.
          do 6 (destruct c as [c|c|]; try reflexivity; try congruence). }
        rewrite S in E. destruct (_ && _ && _); [discriminate|]. apply IH in E; auto. lia. }
  intros. eapply (G (length s)); eauto.
Qed.

Lemma denotes_self m s : forall p n', check_loop s m 0 p = inr (n', false) -> n' = 0 -> denotes m s s.
Proof.
  induction s as [|c s IH]; intros p n' E Hn; [constructor|].
  destruct (Z.eq_dec c 37) as [->|N37].
  - cbn [check_loop] in E. destruct s as [|a [|b r]]; try discriminate.
    repeat match type of E with (if ?x then _ else _) = _ => destruct x; [discriminate|] end.
    apply check_loop_counts in E. lia.
  - destruct (Z.eq_dec c 43) as [->|N43].
    + cbn [check_loop] in E. destruct (is_query m) eqn:Q.
      * apply check_loop_mono in E; auto. discriminate.
      * apply de_byte; [lia|intros [-> _]; discriminate|]. eapply IH; eauto.
    + assert (S : check_loop (c :: s) m 0 p =
        if (is_host m || is_zone m) && (c <? 128) && shouldEscape c m then inl ErrInvalidHostEscape
        else check_loop s m 0 p).
      { cbn [check_loop]. destruct c as [|c|c]; try reflexivity.
        do 6 (destruct c as [c|c|]; try reflexivity; try congruence). }
      rewrite S in E. destruct (_ && _ && _); [discriminate|].
      apply de_byte; [assumption|intros [_ ?]; congruence|]. eapply IH; eauto.
Qed.

Lemma Unescape_total m s : wf_bytes s -> exists r, Unescape s m = Ok r.
Proof.
  intros W. unfold Unescape. destruct (check_loop s m 0 false) as [e|[n p]] eqn:E; [eauto|].
  destruct ((n =? 0) && negb p); [eauto|].
  pose proof (check_loop_counts _ _ _ _ _ _ E). replace (zlen s - 2 * n <? 0) with false by lia.
  assert (A : allowed m s) by (apply (check_loop_ok m s W 0 false); eauto).
  destruct (decode_loop_spec m s W A) as (t & -> & _). cbn [bind]. eauto.
Qed.

Lemma Unescape_spec m s t : wf_bytes s ->
  Unescape s m = Ok (inr t) <-> allowed m s /\ denotes m s t.
Proof.
  intros W. unfold Unescape. destruct (check_loop s m 0 false) as [e|[n p]] eqn:E.
  - split; [discriminate|]. intros [A _]. apply (check_loop_ok m s W 0 false) in A as (? & ? & A). congruence.
  - assert (A : allowed m s) by (apply (check_loop_ok m s W 0 false); eauto).
    destruct ((n =? 0) && negb p) eqn:Z0.
    + assert (D : denotes m s s) by (eapply denotes_self; [|]; [destruct p; [lia|exact E]|lia]).
      split; [intros H; inversion H; subst; auto|]. intros [_ D']. now rewrite (denotes_fun _ _ _ D' _ D).
    + pose proof (check_loop_counts _ _ _ _ _ _ E). replace (zlen s - 2 * n <? 0) with false by lia.
      destruct (decode_loop_spec m s W A) as (t0 & E0 & D0). rewrite E0. cbn [bind].
      split; [intros H1; inversion H1; subst; auto|]. intros [_ D']. now rewrite (denotes_fun _ _ _ D' _ D0).
Qed.

(** * Escaping *)
Lemma escape_escaped m s : wf_bytes s -> escaped m (concat (map (esc1 m) s)).
Proof.
  induction 1 as [|c t Hc Ht IH]; cbn [map concat]; [constructor|]. unfold esc1.
  destruct ((c =? 32) && is_query m) eqn:Q.
  - apply es_plus; [destruct m; cbn in Q; try lia; reflexivity|assumption].
  - destruct (shouldEscape c m) eqn:S; unfold is_byte in Hc.
    + cbn [app]. eapply es_hex; [apply hexdigit_val; lia|apply hexdigit_val; lia|assumption].
    + apply es_lit; [apply unescaped_literal; auto|assumption].
Qed.

Lemma escape_denotes m s : wf_bytes s -> denotes m (concat (map (esc1 m) s)) s.
Proof.
  induction 1 as [|c t Hc Ht IH]; cbn [map concat]; [constructor|]. unfold esc1.
  destruct ((c =? 32) && is_query m) eqn:Q.
  - assert (c = 32) by lia. subst. apply de_plus; [destruct m; cbn in Q; try lia; reflexivity|assumption].
  - destruct (shouldEscape c m) eqn:S; unfold is_byte in Hc.
    + cbn [app]. replace c with (16 * (c / 16) + c mod 16) at 3 by lia.
      apply de_hex; [apply hexdigit_val; lia|apply hexdigit_val; lia|assumption].
    + destruct (plain_not_percent m c S) as (A & B & C). apply de_byte; auto. intros [-> ->]. now apply C.
Qed.

Lemma escape_allowed m s : wf_bytes s ->
  allowed m (concat (map (esc1 m) s)) <-> Forall (fun c => shouldEscape c m = true -> ok_hex m c) s.
Proof.
  induction 1 as [|c t Hc Ht IH]; cbn [map concat]; [split; constructor|]. unfold esc1 at 1.
  rewrite Forall_cons_iff, <- IH. unfold is_byte in Hc.
  destruct ((c =? 32) && is_query m) eqn:Q.
  - assert (m = QueryComponent) by (destruct m; cbn in Q; try lia; reflexivity). subst m. cbn [app ok_hex].
    split; [|].
    + intros H. apply allowed_byte_inv in H; [tauto|lia].
    + intros [_ H]. apply al_byte; [lia|exact I|assumption].
  - destruct (shouldEscape c m) eqn:S; cbn [app].
    + pose proof (hexdigit_val (c / 16) ltac:(lia)) as H1. pose proof (hexdigit_val (c mod 16) ltac:(lia)) as H2.
      assert (HV : forall c v w, hexval c v -> hexval c w -> v = w) by (unfold hexval; lia).
      split.
      * intros H. destruct (allowed_hex_inv _ _ _ _ H) as (x & y & Hx & Hy & Ho & Ha').
        rewrite (HV _ _ _ Hx H1), (HV _ _ _ Hy H2) in Ho.
        replace (16 * (c / 16) + c mod 16) with c in Ho by lia. auto.
      * intros [H3 H4]. eapply al_hex; eauto. replace (16 * (c / 16) + c mod 16) with c by lia. auto.
    + destruct (plain_not_percent m c S) as (A & B & C). split.
      * intros H. apply allowed_byte_inv in H; [|assumption]. split; [discriminate|tauto].
      * intros [_ H]. apply al_byte; auto. unfold ok_byte. pose proof (unescaped_literal m c Hc S).
        destruct m; auto.
Qed.

Lemma escaped_wf m s : wf_bytes s -> wf_bytes (concat (map (esc1 m) s)).
Proof.
  induction 1 as [|c t Hc Ht IH]; cbn [map concat]; [constructor|]. apply Forall_app. split; [|assumption].
  unfold esc1. destruct (_ && _); [repeat constructor; unfold is_byte; lia|].
  unfold is_byte in Hc.
  destruct (shouldEscape c m); [|now repeat constructor].
  constructor; [unfold is_byte; lia|]. constructor; [eapply hexval_byte, hexdigit_val; lia|].
  constructor; [eapply hexval_byte, hexdigit_val; lia|constructor].
Qed.
