From Coq Require Import ZifyBool ZifyNat.
From Verif Require Import Go GoFacts IntSpec IntProofs AddrModel AddrSpec.

Lemma set_at (pre : bytes) x rest v i : i = zlen pre -> set_idx (pre ++ x :: rest) i v = Ok (pre ++ v :: rest).
Proof.
  intros ->. rewrite set_idx_ok by (rewrite zlen_app, zlen_cons; pose proof (zlen_nonneg pre); pose proof (zlen_nonneg rest); lia).
  f_equal. rewrite upd_firstn_skipn by (rewrite app_length; cbn; unfold zlen; lia).
  unfold zlen. rewrite Nat2Z.id. rewrite firstn_app, Nat.sub_diag. cbn [firstn]. rewrite app_nil_r, firstn_all.
  f_equal. f_equal. replace (S (length pre)) with (length (pre ++ [x])) by (rewrite app_length; cbn; lia).
  change (pre ++ x :: rest) with (pre ++ [x] ++ rest). rewrite app_assoc, skipn_app, Nat.sub_diag, skipn_all. reflexivity.
Qed.
Lemma set_at1 (pre : bytes) x y rest v i : i = zlen pre -> set_idx (pre ++ x :: y :: rest) (i + 1) v = Ok (pre ++ x :: v :: rest).
Proof.
  intros ->. change (pre ++ x :: y :: rest) with (pre ++ [x] ++ y :: rest). rewrite app_assoc.
  rewrite set_at by (rewrite zlen_app; change (zlen [x]) with 1; lia). now rewrite <- app_assoc.
Qed.
Lemma set_at2 (pre : bytes) x y z rest v i : i = zlen pre -> set_idx (pre ++ x :: y :: z :: rest) (i + 2) v = Ok (pre ++ x :: y :: v :: rest).
Proof.
  intros ->. change (pre ++ x :: y :: z :: rest) with (pre ++ [x; y] ++ z :: rest). rewrite app_assoc.
  rewrite set_at by (rewrite zlen_app; change (zlen [x; y]) with 2; lia). now rewrite <- app_assoc.
Qed.
Lemma idx_at (pre : bytes) x rest i : i = zlen pre -> idx (pre ++ x :: rest) i = Ok x.
Proof.
  intros ->. unfold zlen. apply idx_nat. rewrite nth_error_app2 by lia. now rewrite Nat.sub_diag.
Qed.

(** * IPv4 *)
Definition otext (v : Z) : bytes :=
  if v <? 10 then [v + 48] else if v <? 100 then [v / 10 + 48; v mod 10 + 48]
  else [v / 100 + 48; (v / 10) mod 10 + 48; v mod 10 + 48].
Lemma otext_len v : (1 <= length (otext v) <= 3)%nat.
Proof. unfold otext. destruct (v <? 10), (v <? 100); cbn; lia. Qed.

Lemma ubtoa_ok pre rest v i : is_byte v -> (3 <= length rest)%nat -> i = zlen pre ->
  ubtoa (pre ++ rest) i v = Ok ((pre ++ otext v) ++ skipn (length (otext v)) rest, zlen (otext v)).
Proof.
  intros B L E. unfold is_byte in B. unfold ubtoa, otext. destruct rest as [|x [|y [|z r]]]; cbn [length] in L; try lia.
  destruct (Z.ltb_spec v 10).
  - rewrite set_at by auto. cbn [bind length skipn]. rewrite u8_small by lia. now rewrite <- app_assoc.
  - assert (0 <= v / 10 < 26) by (Z.div_mod_to_equations; lia). assert (0 <= v mod 10 < 10) by (Z.div_mod_to_equations; lia).
    destruct (Z.ltb_spec v 100).
    + rewrite set_at1 by auto. cbn [bind]. rewrite set_at by auto. cbn [bind length skipn]. rewrite !u8_small by lia. now rewrite <- app_assoc.
    + assert (0 <= v / 100 < 3) by (Z.div_mod_to_equations; lia). assert (0 <= (v / 10) mod 10 < 10) by (apply Z.mod_pos_bound; lia).
      rewrite set_at2 by auto. cbn [bind]. rewrite set_at1 by auto. cbn [bind]. rewrite set_at by auto. cbn [bind length skipn].
      rewrite !u8_small by lia. now rewrite <- app_assoc.
Qed.
Lemma dot_ok pre rest i : (1 <= length rest)%nat -> i = zlen pre -> set_idx (pre ++ rest) i 46 = Ok ((pre ++ [46]) ++ skipn 1 rest).
Proof. intros L E. destruct rest as [|x r]; cbn [length] in L; [lia|]. rewrite set_at by auto. cbn [skipn]. now rewrite <- app_assoc. Qed.

Definition octetb (v : Z) : bool :=
  let s := otext v in forallb (fun c => (48 <=? c) && (c <=? 57)) s && (dec_value s =? v) &&
  ((zlen s <=? 1) || negb (hd 0 s =? 48)).
Lemma octet_otext v : is_byte v -> octet (otext v) v.
Proof.
  intros B. pose proof (byte_sweep octetb ltac:(vm_compute; reflexivity) v B) as H. unfold octetb in H.
  pose proof (otext_len v) as L. repeat split.
  - intros C. rewrite C in L. cbn in L. lia.
  - unfold zlen. lia.
  - rewrite Forall_forall. intros c Hc. destruct (forallb _ (otext v)) eqn:F; [|discriminate].
    rewrite forallb_forall in F. specialize (F c Hc). unfold is_digit. lia.
  - lia.
  - unfold is_byte in B. lia.
  - intros HL. destruct (otext v); cbn [hd hd_error] in *; [discriminate|]. intros C. injection C as ->.
    rewrite Z.eqb_refl in H. unfold zlen in *. lia.
Qed.

Lemma ip4_tostring a b c d : is_byte a -> is_byte b -> is_byte c -> is_byte d ->
  ip4_ToString [a; b; c; d] = Ok (otext a ++ [46] ++ otext b ++ [46] ++ otext c ++ [46] ++ otext d).
Proof.
  intros A B C D. unfold ip4_ToString.
  change (idx [a; b; c; d] 0) with (Ok a). change (idx [a; b; c; d] 1) with (Ok b).
  change (idx [a; b; c; d] 2) with (Ok c). change (idx [a; b; c; d] 3) with (Ok d). cbn [bind].
  pose proof (otext_len a) as LA. pose proof (otext_len b) as LB. pose proof (otext_len c) as LC. pose proof (otext_len d) as LD.
  set (z := repeat 0 15). assert (LZ : length z = 15%nat) by reflexivity. clearbody z.
  change z with ([] ++ z) at 1. rewrite ubtoa_ok by (auto; cbn; lia). cbn [bind app].
  rewrite dot_ok by (rewrite ?skipn_length; auto; lia). cbn [bind].
  rewrite ubtoa_ok by (auto; rewrite ?skipn_length, ?zlen_app; change (zlen [46]) with 1; lia). cbn [bind].
  rewrite dot_ok by (rewrite ?skipn_length, ?zlen_app; change (zlen [46]) with 1; lia). cbn [bind].
  rewrite ubtoa_ok by (auto; rewrite ?skipn_length, ?zlen_app; change (zlen [46]) with 1; lia). cbn [bind].
  rewrite dot_ok by (rewrite ?skipn_length, ?zlen_app; change (zlen [46]) with 1; lia). cbn [bind].
  rewrite ubtoa_ok by (auto; rewrite ?skipn_length, ?zlen_app; change (zlen [46]) with 1; lia). cbn [bind].
  match goal with |- slice_to (?p ++ ?r) ?n = _ => assert (E : n = zlen p) by (rewrite ?zlen_app; change (zlen [46]) with 1; lia); rewrite E end.
  rewrite slice_to_ok by (rewrite !zlen_app; repeat match goal with |- context [zlen ?l] => pose proof (zlen_nonneg l); generalize dependent (zlen l); intros end; lia).
  f_equal. unfold zlen. rewrite Nat2Z.id, firstn_app, Nat.sub_diag, firstn_all. cbn [firstn]. rewrite app_nil_r. now rewrite <- !app_assoc.
Qed.

Definition no_digit (r : bytes) : Prop := match r with [] => True | c :: _ => ~ is_digit c end.
Lemma dtoi_run s : forall r n i, Forall is_digit s -> no_digit r -> 0 <= n -> dec_acc n s < 16777215 -> 0 <= i -> 0 < i + zlen s ->
  dtoi_loop (s ++ r) n i = (dec_acc n s, i + zlen s, true).
Proof.
  induction s as [|c s IH]; intros r n i F N Hn Hb Hi Hl.
  - cbn [app]. change (zlen (@nil Z)) with 0 in *. rewrite Z.add_0_r in *. unfold dec_acc. cbn [fold_left].
    destruct r as [|c r]; cbn [dtoi_loop]; [|unfold no_digit, is_digit in N; replace ((48 <=? c) && (c <=? 57)) with false by lia];
    replace (i =? 0) with false by lia; reflexivity.
  - inversion F as [|? ? Fc Fs]; subst. unfold is_digit in Fc. cbn [app dtoi_loop]. replace ((48 <=? c) && (c <=? 57)) with true by lia.
    change (dec_acc n (c :: s)) with (dec_acc (10 * n + (c - 48)) s) in *.
    pose proof (dec_acc_nonneg s (10 * n + (c - 48)) Fs ltac:(lia)).
    replace (n * 10 + (c - 48)) with (10 * n + (c - 48)) by lia.
    replace (16777215 <=? 10 * n + (c - 48)) with false by lia.
    rewrite IH; auto; try lia; [|pose proof (zlen_nonneg s); lia]. rewrite zlen_cons. f_equal. f_equal. lia.
Qed.

Lemma octet_pos s v : octet s v -> s <> [] /\ Forall is_digit s /\ 0 <= v <= 255 /\ dec_value s = v /\ 1 <= zlen s.
Proof.
  intros ((NE & L & F) & D & V & _). split; [auto|]. split; [auto|]. pose proof (dec_value_bound s F) as B.
  split; [lia|]. split; [auto|]. destruct s; [congruence|]. rewrite zlen_cons. pose proof (zlen_nonneg s). lia.
Qed.

Lemma parse_step k i addr s v r : octet s v -> no_digit r -> 0 <= i < zlen addr ->
  ip4_parse (S k) i addr ((if 0 <? i then [46] else []) ++ s ++ r) = ip4_parse k (i + 1) (upd addr (Z.to_nat i) v) r.
Proof.
  intros O N Hi. destruct (octet_pos s v O) as (NE & F & V & D & L). destruct O as (_ & _ & _ & LZ).
  assert (DT : dtoi (s ++ r) = (v, zlen s, true)).
  { unfold dtoi. rewrite dtoi_run; auto; try lia; change (dec_acc 0 s) with (dec_value s); [|lia].
    rewrite D. reflexivity. }
  assert (G : (let '(n, c, ok) := dtoi (s ++ r) in
     if negb ok || (255 <? n) then Ok (addr, NilErr)
     else let! lead := (if 1 <? c then let! f := idx (s ++ r) 0 in Ok (f =? 48) else Ok false) in
          if lead then Ok (addr, NilErr)
          else let! s := slice_from (s ++ r) c in let! addr := set_idx addr i (u8 n) in ip4_parse k (i + 1) addr s)
    = ip4_parse k (i + 1) (upd addr (Z.to_nat i) v) r).
  { rewrite DT. replace (negb true || (255 <? v)) with false by lia.
    assert (LE : (if 1 <? zlen s then let! f := idx (s ++ r) 0 in Ok (f =? 48) else Ok false) = Ok false).
    { destruct (Z.ltb_spec 1 (zlen s)); auto. specialize (LZ H). destruct s as [|c s]; [congruence|]. cbn [hd_error] in LZ.
      change ((c :: s) ++ r) with ([] ++ c :: s ++ r). rewrite idx_at by reflexivity. cbn [bind]. f_equal. apply Z.eqb_neq. congruence. }
    rewrite LE. cbn [bind]. rewrite slice_from_ok by (rewrite zlen_app; pose proof (zlen_nonneg r); lia). cbn [bind].
    rewrite set_idx_ok by lia. cbn [bind]. rewrite u8_small by lia. f_equal. unfold zlen. rewrite Nat2Z.id.
    rewrite skipn_app, Nat.sub_diag, skipn_all. reflexivity. }
  cbn [ip4_parse]. destruct (Z.ltb_spec 0 i) as [I|I].
  - replace (zlen _ =? 0) with false by (rewrite !zlen_app; change (zlen [46]) with 1; pose proof (zlen_nonneg s); pose proof (zlen_nonneg r); lia).
    change ([46] ++ s ++ r) with ([] ++ 46 :: s ++ r). rewrite idx_at by reflexivity. cbn [bind]. rewrite Z.eqb_refl. cbn [negb].
    cbn [app]. rewrite slice_from_ok by (rewrite zlen_cons; pose proof (zlen_nonneg (s ++ r)); lia). cbn [bind].
    change (skipn (Z.to_nat 1) (46 :: s ++ r)) with (s ++ r). exact G.
  - replace (zlen _ =? 0) with false by (cbn [app]; rewrite !zlen_app; pose proof (zlen_nonneg r); lia).
    cbn [bind negb app]. exact G.
Qed.

Lemma parse_dotted s a old r : dotted s a -> zlen old = 4 -> no_digit r -> ip4_FromString old (s ++ r) = Ok (a, NilErr).
Proof.
  intros (s0 & s1 & s2 & s3 & a0 & a1 & a2 & a3 & -> & O0 & O1 & O2 & O3 & ->) L N.
  destruct old as [|x0 [|x1 [|x2 [|x3 [|? ?]]]]]; unfold zlen in L; cbn [length] in L; try lia.
  unfold ip4_FromString. rewrite <- !app_assoc.
  assert (D : no_digit (46 :: s1)) by (unfold no_digit, is_digit; lia).
  pose proof (parse_step 3 0 [x0; x1; x2; x3] s0 a0 ([46] ++ s1 ++ [46] ++ s2 ++ [46] ++ s3 ++ r) O0 D ltac:(unfold zlen; cbn; lia)) as P0.
  cbn [Z.ltb Z.compare app] in P0. cbn [app]. rewrite P0. change (0 + 1) with 1. cbn [upd Z.to_nat].
  pose proof (parse_step 2 1 [a0; x1; x2; x3] s1 a1 ([46] ++ s2 ++ [46] ++ s3 ++ r) O1 D ltac:(unfold zlen; cbn; lia)) as P1.
  cbn [Z.ltb Z.compare app] in P1. rewrite P1. change (1 + 1) with 2. change (Z.to_nat 1) with 1%nat. cbn [upd].
  pose proof (parse_step 1 2 [a0; a1; x2; x3] s2 a2 ([46] ++ s3 ++ r) O2 D ltac:(unfold zlen; cbn; lia)) as P2.
  cbn [Z.ltb Z.compare app] in P2. rewrite P2. change (2 + 1) with 3. change (Z.to_nat 2) with 2%nat. cbn [upd].
  pose proof (parse_step 0 3 [a0; a1; a2; x3] s3 a3 r O3 N ltac:(unfold zlen; cbn; lia)) as P3.
  cbn [Z.ltb Z.compare app] in P3. rewrite P3. change (Z.to_nat 3) with 3%nat. cbn [upd]. reflexivity.
Qed.

Lemma dtoi_range s n i : forall n0 i0, dtoi_loop s n0 i0 = (n, i, true) -> i0 <= i <= i0 + zlen s /\ 0 < i \/ i0 < 0.
Proof.
  induction s as [|c s IH]; intros n0 i0 E; cbn [dtoi_loop] in E.
  - change (zlen (@nil Z)) with 0. destruct (Z.eqb_spec i0 0); [discriminate|]. injection E as _ <-. lia.
  - rewrite zlen_cons. pose proof (zlen_nonneg s). destruct (_ && _).
    + destruct (16777215 <=? _); [discriminate|]. apply IH in E. lia.
    + destruct (Z.eqb_spec i0 0); [discriminate|]. injection E as _ <-. lia.
Qed.

Lemma parse_total k : forall i addr s, 0 <= i -> i + Z.of_nat k <= zlen addr -> exists r, ip4_parse k i addr s = Ok (r, NilErr) /\ zlen r = zlen addr.
Proof.
  induction k as [|k IH]; intros i addr s Hi Hk; cbn [ip4_parse]; [eauto|].
  destruct (Z.eqb_spec (zlen s) 0) as [|NZ]; [eauto|].
  destruct s as [|c0 s]; [now change (zlen (@nil Z)) with 0 in NZ|]. clear NZ.
  assert (G : forall s, exists r, (let '(n, c, ok) := dtoi s in
     if negb ok || (255 <? n) then Ok (addr, NilErr)
     else let! lead := (if 1 <? c then let! f := idx s 0 in Ok (f =? 48) else Ok false) in
          if lead then Ok (addr, NilErr)
          else let! s := slice_from s c in let! addr := set_idx addr i (u8 n) in ip4_parse k (i + 1) addr s) = Ok (r, NilErr) /\ zlen r = zlen addr).
  { clear c0 s. intros s. unfold dtoi. destruct (dtoi_loop s 0 0) as ((n, c), ok) eqn:E. destruct ok; cbn [negb orb]; [|eauto].
    destruct (255 <? n); [eauto|]. destruct (dtoi_range _ _ _ _ _ E) as [R|R]; [|lia].
    assert (LE : exists b, (if 1 <? c then let! f := idx s 0 in Ok (f =? 48) else Ok false) = Ok b).
    { destruct (1 <? c) eqn:?; [|eauto]. destruct s as [|d s]; [change (zlen (@nil Z)) with 0 in R; lia|]. eexists. reflexivity. }
    destruct LE as (b & ->). cbn [bind]. destruct b; [eauto|]. rewrite slice_from_ok by lia. cbn [bind]. rewrite set_idx_ok by lia. cbn [bind].
    destruct (IH (i + 1) (upd addr (Z.to_nat i) (u8 n)) (skipn (Z.to_nat c) s)) as (r & Er & Lr); [lia|unfold zlen in *; rewrite upd_length; lia|].
    exists r. split; auto. rewrite Lr. unfold zlen. now rewrite upd_length. }
  destruct (0 <? i).
  - change (idx (c0 :: s) 0) with (Ok c0). cbn [bind]. destruct (c0 =? 46); cbn [negb]; [|eauto].
    rewrite slice_from_ok by (rewrite zlen_cons; pose proof (zlen_nonneg s); lia). cbn [bind]. apply G.
  - cbn [bind negb]. apply G.
Qed.

(** * IPv6 *)
Lemma hexval_ok c v : hex_digit c v -> hexval c = Some v /\ 0 <= v < 16.
Proof.
  unfold hex_digit, hexval. intros [(H & ->)|[(H & ->)|(H & ->)]].
  - replace ((48 <=? c) && (c <=? 57)) with true by lia. split; [reflexivity|lia].
  - replace ((48 <=? c) && (c <=? 57)) with false by lia. replace ((97 <=? c) && (c <=? 102)) with true by lia. split; [f_equal; lia|lia].
  - replace ((48 <=? c) && (c <=? 57)) with false by lia. replace ((97 <=? c) && (c <=? 102)) with false by lia.
    replace ((65 <=? c) && (c <=? 70)) with true by lia. split; [f_equal; lia|lia].
Qed.
Lemma hex_nonneg s n : hex_value s n -> 0 <= n.
Proof. induction 1 as [|s n c v H IH D]; [lia|]. apply hexval_ok in D. lia. Qed.
Lemma xtoi_run s n : hex_value s n -> n < 16777215 -> forall r, xtoi_loop (s ++ r) 0 0 = xtoi_loop r n (zlen s).
Proof.
  induction 1 as [|s n c v H IH D]; intros Hn r; [reflexivity|]. apply hexval_ok in D. destruct D as (D & V).
  pose proof (hex_nonneg s n H). rewrite <- app_assoc, IH by lia. cbn [app xtoi_loop]. rewrite D. cbv zeta.
  replace (n * 16 + v) with (16 * n + v) by lia. replace (16777215 <=? 16 * n + v) with false by lia.
  rewrite zlen_app. reflexivity.
Qed.
Lemma group_xtoi s a b r : group s a b -> (match r with [] => True | c :: _ => c = 58 end) -> xtoi (s ++ r) = (256 * a + b, zlen s, true).
Proof.
  intros (L & A & B & H) R. unfold is_byte in *. unfold xtoi. rewrite (xtoi_run s _ H) by lia.
  destruct r as [|c r]; cbn [xtoi_loop]; [|subst c; change (hexval 58) with (@None Z)]; cbv iota; replace (zlen s =? 0) with false by lia; reflexivity.
Qed.
Lemma group_bytes a b : is_byte a -> is_byte b -> u8 (Z.shiftr (256 * a + b) 8) = a /\ u8 (256 * a + b) = b.
Proof.
  unfold is_byte, u8. intros A B. rewrite Z.shiftr_div_pow2 by lia. change (2 ^ 8) with 256. split; Z.div_mod_to_equations; lia.
Qed.

(** One group read, with what follows *)
Lemma group_step k pre x y post s a b r ell : group s a b -> (match r with [] => True | c :: _ => c = 58 end) ->
  groups6 (S k) (zlen pre) (pre ++ x :: y :: post) (s ++ r) ell =
    let addr := pre ++ a :: b :: post in let i := zlen pre + 2 in
    if zlen r =? 0 then Ok (addr, Some (i, r, ell))
    else
      let! c0 := idx r 0 in
      if negb (c0 =? 58) || (zlen r =? 1) then Ok (addr, None)
      else
        let! s := slice_from r 1 in
        let! c1 := idx s 0 in
        if c1 =? 58 then
          if 0 <=? ell then Ok (addr, None)
          else
            let! s := slice_from s 1 in
            if zlen s =? 0 then Ok (addr, Some (i, s, i)) else groups6 k i addr s i
        else groups6 k i addr s ell.
Proof.
  intros G R. cbn [groups6]. rewrite (group_xtoi s a b r G R). destruct G as (L & A & B & _). unfold is_byte in A, B.
  replace (negb true || (65535 <? 256 * a + b)) with false by lia. destruct (group_bytes a b A B) as (-> & ->).
  rewrite set_at by auto. cbn [bind]. rewrite set_at1 by auto. cbn [bind].
  rewrite slice_from_ok by (rewrite zlen_app; pose proof (zlen_nonneg r); lia). cbn [bind].
  assert (K : skipn (Z.to_nat (zlen s)) (s ++ r) = r) by (unfold zlen; rewrite Nat2Z.id, skipn_app, Nat.sub_diag, skipn_all; reflexivity).
  rewrite K. reflexivity.
Qed.

Lemma group_hd s a b : group s a b -> exists c t, s = c :: t /\ c <> 58.
Proof.
  intros (L & _ & _ & H). assert (F : Forall (fun c => c <> 58) s).
  { clear L. revert H. generalize (256 * a + b). intros n H. induction H as [|s n c v H IH D]; [constructor|].
    apply Forall_app. split; auto. constructor; [|constructor]. unfold hex_digit in D. lia. }
  destruct s as [|c t]; [change (zlen (@nil Z)) with 0 in L; lia|]. inversion F; subst. eauto.
Qed.
Lemma groups_hd s l : groups s l -> exists c t, s = c :: t /\ c <> 58.
Proof. intros H. inversion H; subst; destruct (group_hd _ _ _ H0) as (c & u & -> & C); exists c; eexists; (split; [reflexivity|auto]). Qed.

Lemma two_more (l : bytes) (a b n : Z) (old : bytes) : length old = length ([a; b] ++ l) -> exists x y o, old = x :: y :: o /\ length o = length l.
Proof. destruct old as [|x [|y o]]; cbn; intros H; try lia. exists x, y, o. split; auto; lia. Qed.

Lemma groups6_end t l : groups t l -> forall k pre old post ell, length old = length l -> (length l <= 2 * k)%nat ->
  groups6 k (zlen pre) (pre ++ old ++ post) t ell = Ok (pre ++ l ++ post, Some (zlen pre + zlen l, [], ell)).
Proof.
  induction 1 as [s a b G|s a b t l G H IH]; intros k pre old post ell Lo Lk.
  - destruct old as [|x [|y [|? ?]]]; cbn [length] in Lo; try lia. destruct k as [|k]; [cbn in Lk; lia|].
    pose proof (group_step k pre x y post s a b [] ell G I) as E. rewrite app_nil_r in E. cbn [app]. rewrite E. reflexivity.
  - destruct (two_more l a b 0 old Lo) as (x & y & o & -> & Lo'). destruct k as [|k]; [cbn in Lk; lia|].
    pose proof (group_step k pre x y (o ++ post) s a b ([58] ++ t) ell G eq_refl) as E. cbn [app] in *. rewrite E. cbv zeta.
    destruct (groups_hd t l H) as (c & u & -> & C).
    replace (zlen (58 :: c :: u) =? 0) with false by (rewrite !zlen_cons; pose proof (zlen_nonneg u); lia).
    change (idx (58 :: c :: u) 0) with (Ok 58). cbn [bind].
    replace (negb (58 =? 58) || (zlen (58 :: c :: u) =? 1)) with false by (rewrite !zlen_cons; pose proof (zlen_nonneg u); lia).
    rewrite slice_from_ok by (rewrite !zlen_cons; pose proof (zlen_nonneg u); lia). change (skipn (Z.to_nat 1) (58 :: c :: u)) with (c :: u). cbn [bind].
    change (idx (c :: u) 0) with (Ok c). cbn [bind]. replace (c =? 58) with false by lia.
    replace (zlen pre + 2) with (zlen (pre ++ [a; b])) by (rewrite zlen_app; reflexivity).
    change (a :: b :: o ++ post) with ([a; b] ++ o ++ post). rewrite app_assoc. rewrite IH by (auto; cbn [length] in Lk; lia).
    rewrite <- app_assoc. cbn [app].
    assert (Q : zlen (pre ++ [a; b]) + zlen l = zlen pre + zlen (a :: b :: l)) by (rewrite zlen_app, !zlen_cons; change (zlen (@nil Z)) with 0; lia).
    rewrite Q. reflexivity.
Qed.

Lemma groups6_ell t l : groups t l -> forall k pre old post ell rest, length old = length l -> ell < 0 ->
  exists m, length l = (2 * m)%nat /\ 
  groups6 (m + k) (zlen pre) (pre ++ old ++ post) (t ++ [58; 58] ++ rest) ell =
    if zlen rest =? 0 then Ok (pre ++ l ++ post, Some (zlen pre + zlen l, rest, zlen pre + zlen l))
    else groups6 k (zlen pre + zlen l) (pre ++ l ++ post) rest (zlen pre + zlen l).
Proof.
  induction 1 as [s a b G|s a b t l G H IH]; intros k pre old post ell rest Lo Hell.
  - exists 1%nat. split; [reflexivity|]. destruct old as [|x [|y [|? ?]]]; cbn [length] in Lo; try lia.
    pose proof (group_step k pre x y post s a b ([58; 58] ++ rest) ell G eq_refl) as E. cbn [app Nat.add] in *. rewrite E. cbv zeta.
    replace (zlen (58 :: 58 :: rest) =? 0) with false by (rewrite !zlen_cons; pose proof (zlen_nonneg rest); lia).
    change (idx (58 :: 58 :: rest) 0) with (Ok 58). cbn [bind].
    replace (negb (58 =? 58) || (zlen (58 :: 58 :: rest) =? 1)) with false by (rewrite !zlen_cons; pose proof (zlen_nonneg rest); lia).
    rewrite slice_from_ok by (rewrite !zlen_cons; pose proof (zlen_nonneg rest); lia). change (skipn (Z.to_nat 1) (58 :: 58 :: rest)) with (58 :: rest). cbn [bind].
    change (idx (58 :: rest) 0) with (Ok 58). cbn [bind]. change (58 =? 58) with true. replace (0 <=? ell) with false by lia.
    rewrite slice_from_ok by (rewrite !zlen_cons; pose proof (zlen_nonneg rest); lia). change (skipn (Z.to_nat 1) (58 :: rest)) with rest. cbn [bind].
    reflexivity.
  - destruct (two_more l a b 0 old Lo) as (x & y & o & -> & Lo').
    destruct (IH k (pre ++ [a; b]) o post ell rest Lo' Hell) as (m & Lm & E2). exists (S m). split; [cbn [app length]; lia|].
    pose proof (group_step (m + k) pre x y (o ++ post) s a b ([58] ++ t ++ [58; 58] ++ rest) ell G eq_refl) as E. rewrite <- !app_assoc.
    cbn [app Nat.add] in *. rewrite E. cbv zeta.
    destruct (groups_hd t l H) as (c & u & -> & C). cbn [app].
    replace (zlen (58 :: c :: u ++ 58 :: 58 :: rest) =? 0) with false by (rewrite !zlen_cons; pose proof (zlen_nonneg (u ++ 58 :: 58 :: rest)); lia).
    change (idx (58 :: c :: u ++ 58 :: 58 :: rest) 0) with (Ok 58). cbn [bind].
    replace (negb (58 =? 58) || (zlen (58 :: c :: u ++ 58 :: 58 :: rest) =? 1)) with false by (rewrite !zlen_cons; pose proof (zlen_nonneg (u ++ 58 :: 58 :: rest)); lia).
    rewrite slice_from_ok by (rewrite !zlen_cons; pose proof (zlen_nonneg (u ++ 58 :: 58 :: rest)); lia).
    change (skipn (Z.to_nat 1) (58 :: c :: u ++ 58 :: 58 :: rest)) with (c :: u ++ 58 :: 58 :: rest). cbn [bind].
    change (idx (c :: u ++ 58 :: 58 :: rest) 0) with (Ok c). cbn [bind]. replace (c =? 58) with false by lia.
    replace (zlen pre + 2) with (zlen (pre ++ [a; b])) by (rewrite zlen_app; reflexivity).
    change (a :: b :: o ++ post) with ([a; b] ++ o ++ post). rewrite app_assoc. cbn [app] in E2. rewrite E2.
    replace (zlen (pre ++ [a; b]) + zlen l) with (zlen pre + zlen (a :: b :: l)) by (rewrite zlen_app, !zlen_cons; change (zlen (@nil Z)) with 0; lia).
    rewrite <- app_assoc. reflexivity.
Qed.

Lemma snoc_case (l : bytes) n : length l = S n -> exists l' x, l = l' ++ [x] /\ length l' = n.
Proof.
  intros H. destruct (@exists_last _ l) as (l' & x & ->); [intros ->; discriminate|]. exists l', x. split; auto. rewrite app_length in H. cbn in H. lia.
Qed.

Lemma move_ok m : forall l1 l2 rest done n, length l2 = m -> length rest = Z.to_nat n -> 1 <= n ->
  exists junk, length junk = Z.to_nat n /\ move6 m (l1 ++ l2 ++ rest ++ done) (zlen l1) n = Ok (l1 ++ junk ++ l2 ++ done).
Proof.
  induction m as [|m IH]; intros l1 l2 rest done n L2 LR Hn; cbn [move6].
  - destruct l2; [|discriminate]. exists rest. auto.
  - destruct (snoc_case l2 m L2) as (l2' & x & -> & L2').
    destruct (snoc_case rest (Z.to_nat n - 1)%nat ltac:(lia)) as (r & y & -> & Lr).
    replace (l1 ++ (l2' ++ [x]) ++ (r ++ [y]) ++ done) with ((l1 ++ l2') ++ x :: r ++ y :: done) by (rewrite <- !app_assoc; reflexivity).
    rewrite idx_at by (rewrite zlen_app; unfold zlen; lia). cbn [bind].
    replace ((l1 ++ l2') ++ x :: r ++ y :: done) with ((l1 ++ l2' ++ x :: r) ++ y :: done) by (rewrite <- !app_assoc; reflexivity).
    rewrite set_at by (rewrite !zlen_app, zlen_cons; unfold zlen; lia). cbn [bind].
    destruct (IH l1 l2' (x :: r) (x :: done) n L2' ltac:(cbn [length]; lia) Hn) as (junk & LJ & E). exists junk. split; auto.
    replace ((l1 ++ l2' ++ x :: r) ++ x :: done) with (l1 ++ l2' ++ (x :: r) ++ x :: done) by (rewrite <- !app_assoc; reflexivity).
    rewrite E. rewrite <- !app_assoc. reflexivity.
Qed.
Lemma zero_ok m : forall l1 z tail, length z = m -> zero6 m (l1 ++ z ++ tail) (zlen l1) = Ok (l1 ++ repeat 0 m ++ tail).
Proof.
  induction m as [|m IH]; intros l1 z tail L; cbn [zero6].
  - destruct z; [|discriminate]. reflexivity.
  - destruct (snoc_case z m L) as (z' & x & -> & L').
    replace (l1 ++ (z' ++ [x]) ++ tail) with ((l1 ++ z') ++ x :: tail) by (rewrite <- !app_assoc; reflexivity).
    rewrite set_at by (rewrite zlen_app; unfold zlen; lia). cbn [bind].
    replace ((l1 ++ z') ++ 0 :: tail) with (l1 ++ z' ++ 0 :: tail) by (rewrite <- !app_assoc; reflexivity).
    rewrite IH by auto. f_equal. f_equal. replace (repeat 0 (S m)) with (repeat 0 m ++ [0]); [now rewrite <- app_assoc|].
    clear. induction m; cbn in *; congruence.
Qed.

Lemma groups_even t l : groups t l -> exists m, length l = (2 * m)%nat /\ (1 <= m)%nat.
Proof. induction 1 as [|s a b t l G H (m & IH & M)]; [exists 1%nat; cbn; lia|]. exists (S m). cbn [app length]. lia. Qed.

Lemma spread (l1 l2 rest : bytes) n : length rest = Z.to_nat n -> 1 <= n ->
  (let! addr := move6 (length l2) (l1 ++ l2 ++ rest) (zlen l1) n in
   let! addr := zero6 (Z.to_nat n) addr (zlen l1) in Ok (addr, NilErr)) = Ok (l1 ++ repeat 0 (Z.to_nat n) ++ l2, NilErr).
Proof.
  intros L H. destruct (move_ok (length l2) l1 l2 rest [] n eq_refl L H) as (junk & LJ & E). rewrite !app_nil_r in E.
  rewrite E. cbn [bind]. rewrite zero_ok by auto. reflexivity.
Qed.

Lemma cut3 (l : bytes) a b : (a + b <= length l)%nat -> exists x y z, l = x ++ y ++ z /\ length x = a /\ length y = b /\ length z = (length l - a - b)%nat.
Proof.
  intros H. exists (firstn a l), (firstn b (skipn a l)), (skipn b (skipn a l)). rewrite !firstn_skipn. split; auto.
  rewrite !firstn_length, !skipn_length. lia.
Qed.

Lemma lead_false s l r : groups s l -> (match s ++ r with 58 :: 58 :: _ => true | _ => false end) = false.
Proof. intros H. destruct (groups_hd s l H) as (c & t & -> & C). cbn [app]. destruct c as [|[[[]|[]|]|[[]|[]|]|]|]; auto; repeat (destruct p; auto); lia. Qed.

Ltac same_n := match goal with |- ?L = ?R => match L with context [repeat 0 ?A] => match R with context [repeat 0 ?B] =>
  replace A with B by (rewrite ?zlen_app; unfold zlen; cbn [length]; lia); rewrite ?app_nil_r; reflexivity end end end.
Lemma ip6_parse_ok s a old : ip6_text s a -> zlen old = 16 -> s <> [58; 58] -> ip6_FromString old s = Ok (a, NilErr).
Proof.
  intros T L NE. unfold zlen in L. destruct T as [(G & L16)|(s1 & l1 & s2 & l2 & G1 & G2 & LL & -> & ->)].
  - unfold ip6_FromString. pose proof (lead_false s a [] G) as LF. rewrite app_nil_r in LF. rewrite LF. cbn [andb].
    pose proof (groups6_end s a G 8 [] old [] (-1) ltac:(unfold zlen in *; lia) ltac:(unfold zlen in *; lia)) as E.
    cbn [app] in E. rewrite app_nil_r in E. change (zlen (@nil Z)) with 0 in E. rewrite E. cbn [bind]. rewrite app_nil_r.
    change (zlen (@nil Z) =? 0) with true. cbn [negb]. rewrite L16. reflexivity.
  - unfold zlen in LL. destruct G1 as [(-> & ->)|G1].
    + cbn [app length] in *. destruct G2 as [(-> & ->)|G2]; [congruence|].
      unfold ip6_FromString. cbn [skipn]. destruct (groups_hd s2 l2 G2) as (c & u & E & _).
      replace (true && (zlen s2 =? 0)) with false by (subst s2; rewrite zlen_cons; pose proof (zlen_nonneg u); lia). clear c u E.
      destruct (cut3 old (length l2) 0 ltac:(lia)) as (o & e & r & -> & Lo & Le & Lr). destruct e; [|discriminate]. cbn [app] in *.
      pose proof (groups6_end s2 l2 G2 8 [] o r 0 Lo ltac:(lia)) as E. cbn [app] in E. change (zlen (@nil Z)) with 0 in E. rewrite E. cbn [bind].
      change (zlen (@nil Z) =? 0) with true. cbn [negb]. replace (0 + zlen l2 <? 16) with true by (unfold zlen; lia). change (0 <? 0) with false. cbv iota.
      replace (Z.to_nat (0 + zlen l2 - 0)) with (length l2) by (unfold zlen; lia).
      pose proof (spread [] l2 r (16 - (0 + zlen l2)) ltac:(unfold zlen; rewrite app_length in *; lia) ltac:(unfold zlen; lia)) as S.
      change (zlen (@nil Z)) with 0 in S. cbn [app] in S. rewrite S. same_n.
    + unfold ip6_FromString. rewrite (lead_false s1 l1 _ G1). cbn [andb]. destruct (groups_even _ _ G1) as (m & Lm & M).
      destruct (cut3 old (length l1) (length l2) ltac:(lia)) as (o1 & o2 & r & -> & Lo1 & Lo2 & Lr).
      destruct (groups6_ell s1 l1 G1 (8 - m) [] o1 (o2 ++ r) (-1) s2 Lo1 ltac:(lia)) as (m' & Lm' & E).
      replace (m' + (8 - m))%nat with 8%nat in E by lia. cbn [app] in E. change (zlen (@nil Z)) with 0 in E. cbn [app]. rewrite E. rewrite !Z.add_0_l.
      assert (Lold : length r = Z.to_nat (16 - zlen (l1 ++ l2))) by (rewrite zlen_app; unfold zlen; rewrite !app_length in *; lia).
      destruct G2 as [(-> & ->)|G2].
      * change (zlen (@nil Z) =? 0) with true. cbv iota. cbn [bind negb]. replace (zlen l1 <? 16) with true by (unfold zlen; lia).
        replace (zlen l1 <? 0) with false by (unfold zlen; lia). rewrite Z.sub_diag. change (Z.to_nat 0) with (length (@nil Z)).
        destruct o2; [|discriminate]. cbn [app] in *. rewrite app_nil_r in Lold.
        pose proof (spread l1 [] r (16 - zlen l1) Lold ltac:(unfold zlen; lia)) as S. cbn [app] in S. rewrite S. rewrite app_nil_r. same_n.
      * destruct (groups_hd s2 l2 G2) as (c & u & Es & _).
        replace (zlen s2 =? 0) with false by (subst s2; rewrite zlen_cons; pose proof (zlen_nonneg u); lia). clear c u Es.
        rewrite (groups6_end s2 l2 G2 (8 - m) l1 o2 r (zlen l1) Lo2 ltac:(lia)). cbn [bind]. change (zlen (@nil Z) =? 0) with true. cbn [negb].
        replace (zlen l1 + zlen l2 <? 16) with true by (unfold zlen; lia). replace (zlen l1 <? 0) with false by (unfold zlen; lia).
        replace (Z.to_nat (zlen l1 + zlen l2 - zlen l1)) with (length l2) by (unfold zlen; lia). rewrite <- zlen_app.
        rewrite spread; [|exact Lold|rewrite zlen_app; unfold zlen; lia]. same_n.
Qed.

Lemma xtoi_range s : forall n0 i0 n i, xtoi_loop s n0 i0 = (n, i, true) -> 0 <= i0 -> 0 < i /\ i0 <= i <= i0 + zlen s.
Proof.
  induction s as [|c s IH]; intros n0 i0 n i E H; cbn [xtoi_loop] in E.
  - change (zlen (@nil Z)) with 0. destruct (Z.eqb_spec i0 0); [discriminate|]. injection E as _ <-. lia.
  - rewrite zlen_cons. pose proof (zlen_nonneg s). destruct (hexval c).
    + destruct (16777215 <=? _); [discriminate|]. apply IH in E; lia.
    + destruct (Z.eqb_spec i0 0); [discriminate|]. injection E as _ <-. lia.
Qed.
Lemma zlen_upd (l : bytes) n v : zlen (upd l n v) = zlen l.
Proof. unfold zlen. now rewrite upd_length. Qed.

Lemma groups6_total k : forall i addr s ell, 0 <= i -> i + 2 * Z.of_nat k <= zlen addr -> ell <= i ->
  exists addr' r, groups6 k i addr s ell = Ok (addr', r) /\ zlen addr' = zlen addr /\
    match r with Some (j, _, e) => i <= j <= zlen addr /\ e <= j | None => True end.
Proof.
  induction k as [|k IH]; intros i addr s ell Hi Hk He; cbn [groups6].
  - do 2 eexists. split; [reflexivity|]. split; [reflexivity|]. lia.
  - unfold xtoi. destruct (xtoi_loop s 0 0) as ((n, c), ok) eqn:E. destruct ok; cbn [negb orb].
    2: { do 2 eexists. split; [reflexivity|]. auto. }
    destruct (65535 <? n). { do 2 eexists. split; [reflexivity|]. auto. }
    apply xtoi_range in E; [|lia]. rewrite set_idx_ok by lia. cbn [bind].
    rewrite set_idx_ok by (rewrite zlen_upd; lia). cbn [bind]. rewrite slice_from_ok by lia. cbn [bind].
    set (addr' := upd (upd addr _ _) _ _). assert (LA : zlen addr' = zlen addr) by (unfold addr'; now rewrite !zlen_upd). clearbody addr'.
    destruct (skipn (Z.to_nat c) s) as [|c0 t]; [change (zlen (@nil Z) =? 0) with true; do 2 eexists; split; [reflexivity|]; split; [auto|lia]|].
    pose proof (zlen_nonneg t). replace (zlen (c0 :: t) =? 0) with false by (rewrite zlen_cons; lia).
    change (idx (c0 :: t) 0) with (Ok c0). cbn [bind].
    destruct (Z.eqb_spec c0 58); cbn [negb orb]; [|do 2 eexists; split; [reflexivity|auto]].
    destruct (Z.eqb_spec (zlen (c0 :: t)) 1) as [|N1]; [do 2 eexists; split; [reflexivity|auto]|].
    rewrite slice_from_ok by (rewrite zlen_cons; lia). change (skipn (Z.to_nat 1) (c0 :: t)) with t. cbn [bind].
    destruct t as [|c1 t]; [rewrite zlen_cons in N1; change (zlen (@nil Z)) with 0 in N1; lia|].
    change (idx (c1 :: t) 0) with (Ok c1). cbn [bind]. destruct (c1 =? 58).
    + destruct (0 <=? ell); [do 2 eexists; split; [reflexivity|auto]|].
      rewrite slice_from_ok by (rewrite zlen_cons; pose proof (zlen_nonneg t); lia). change (skipn (Z.to_nat 1) (c1 :: t)) with t. cbn [bind].
      destruct (zlen t =? 0); [do 2 eexists; split; [reflexivity|]; split; [auto|lia]|].
      destruct (IH (i + 2) addr' t (i + 2)) as (a & r & E1 & E2 & E3); try lia. exists a, r. split; auto. split; [lia|].
      destruct r as [((j, ?), ee)|]; auto. lia.
    + destruct (IH (i + 2) addr' (c1 :: t) ell) as (a & r & E1 & E2 & E3); try lia. exists a, r. split; auto. split; [lia|].
      destruct r as [((j, ?), ee)|]; auto. lia.
Qed.
Lemma move_total m : forall addr ell n, 0 <= ell -> 0 <= n -> ell + Z.of_nat m + n <= zlen addr ->
  exists a, move6 m addr ell n = Ok a /\ zlen a = zlen addr.
Proof.
  induction m as [|m IH]; intros addr ell n He Hn H; cbn [move6]; [eauto|].
  destruct (idx_in_range addr (ell + Z.of_nat m)) as (x & ->); [lia|]. cbn [bind]. rewrite set_idx_ok by lia. cbn [bind].
  destruct (IH (upd addr (Z.to_nat (ell + Z.of_nat m + n)) x) ell n) as (a & E & L); try lia; [rewrite zlen_upd; lia|].
  exists a. split; auto. now rewrite L, zlen_upd.
Qed.
Lemma zero_total m : forall addr ell, 0 <= ell -> ell + Z.of_nat m <= zlen addr ->
  exists a, zero6 m addr ell = Ok a /\ zlen a = zlen addr.
Proof.
  induction m as [|m IH]; intros addr ell He H; cbn [zero6]; [eauto|]. rewrite set_idx_ok by lia. cbn [bind].
  destruct (IH (upd addr (Z.to_nat (ell + Z.of_nat m)) 0) ell) as (a & E & L); try lia; [rewrite zlen_upd; lia|].
  exists a. split; auto. now rewrite L, zlen_upd.
Qed.
Lemma ip6_parse_total old s : zlen old = 16 -> exists a, ip6_FromString old s = Ok (a, NilErr) /\ zlen a = 16.
Proof.
  intros L. unfold ip6_FromString. set (lead := match s with 58 :: 58 :: _ => true | _ => false end). clearbody lead.
  set (ip := if lead then skipn 2 s else s). clearbody ip. set (ell := if lead then 0 else -1). assert (ell <= 0) by (subst ell; destruct lead; lia). clearbody ell.
  destruct (lead && _); [eauto|]. destruct (groups6_total 8 0 old ip ell) as (a & r & -> & La & Hr); try lia. cbn [bind].
  destruct r as [((i, t), e)|]; [|exists a; split; [reflexivity|lia]]. destruct (negb _); [exists a; split; [reflexivity|lia]|].
  destruct (Z.ltb_spec i 16); [|exists a; split; [reflexivity|lia]]. destruct (Z.ltb_spec e 0); [exists a; split; [reflexivity|lia]|].
  destruct (move_total (Z.to_nat (i - e)) a e (16 - i)) as (b & -> & Lb); try lia. cbn [bind].
  destruct (zero_total (Z.to_nat (16 - i)) b e) as (c & -> & Lc); try lia. cbn [bind]. exists c. split; [reflexivity|lia].
Qed.

(** ** Printing *)
Lemma Ok_inj {A} (a b : A) : Ok a = Ok b -> a = b.
Proof. congruence. Qed.
Definition zeros (addr : bytes) (i j : Z) : Prop := forall m, i <= m < j -> idx addr m = Ok 0.
Lemma run_ok k : forall addr i, zlen addr = 16 -> 0 <= i <= 16 -> Z.even i = true ->
  exists j, zero_run k addr i = Ok j /\ i <= j <= 16 /\ Z.even j = true /\ zeros addr i j.
Proof.
  induction k as [|k IH]; intros addr i L Hi Ev; cbn [zero_run].
  - exists i. repeat split; auto; try lia. intros m H; lia.
  - assert (Z0 : zeros addr i i) by (intros m H; lia).
    destruct (Z.ltb_spec i 16); [|exists i; repeat split; auto; lia].
    assert (i + 1 < 16) by (apply Zeven_bool_iff, Zeven_ex_iff in Ev; destruct Ev; lia).
    destruct (idx_in_range addr i) as (x & E); [lia|]. rewrite E. cbn [bind].
    destruct (Z.eqb_spec x 0); [|exists i; repeat split; auto; lia].
    destruct (idx_in_range addr (i + 1)) as (y & E1); [lia|]. rewrite E1. cbn [bind].
    destruct (Z.eqb_spec y 0); [|exists i; repeat split; auto; lia].
    destruct (IH addr (i + 2)) as (j & Ej & Hj & Evj & Zj); try lia; [rewrite Z.even_add, Ev; reflexivity|].
    exists j. repeat split; auto; try lia. intros m Hm. subst x y.
    destruct (Z.eq_dec m i) as [->|]; auto. destruct (Z.eq_dec m (i + 1)) as [->|]; auto. apply Zj. lia.
Qed.
Lemma longest_ok k : forall addr i e0 e1, zlen addr = 16 -> 0 <= i -> Z.even i = true ->
  (e0 = -1 /\ e1 = -1 \/ 0 <= e0 < e1 /\ e1 <= 16 /\ zeros addr e0 e1) ->
  exists f0 f1, longest k addr i e0 e1 = Ok (f0, f1) /\ (f0 = -1 /\ f1 = -1 \/ 0 <= f0 < f1 /\ f1 <= 16 /\ zeros addr f0 f1).
Proof.
  induction k as [|k IH]; intros addr i e0 e1 L Hi Ev I; cbn [longest]; [eauto|].
  destruct (Z.ltb_spec i 16); [|eauto]. destruct (run_ok 8 addr i L ltac:(lia) Ev) as (j & -> & Hj & Evj & Zj). cbn [bind].
  destruct (_ && _) eqn:C; apply IH; auto; try lia; try (now rewrite Z.even_add, ?Ev, ?Evj). right. repeat split; auto; lia.
Qed.

Lemma all_zero (addr : bytes) : zlen addr = 16 -> zeros addr 0 16 -> addr = repeat 0 16.
Proof.
  intros L Z. do 16 (destruct addr as [|? addr]; [discriminate L|]). destruct addr; [|unfold zlen in L; cbn [length] in L; lia].
  pose proof (Z 0 ltac:(lia)) as H0. pose proof (Z 1 ltac:(lia)) as H1. pose proof (Z 2 ltac:(lia)) as H2. pose proof (Z 3 ltac:(lia)) as H3.
  pose proof (Z 4 ltac:(lia)) as H4. pose proof (Z 5 ltac:(lia)) as H5. pose proof (Z 6 ltac:(lia)) as H6. pose proof (Z 7 ltac:(lia)) as H7.
  pose proof (Z 8 ltac:(lia)) as H8. pose proof (Z 9 ltac:(lia)) as H9. pose proof (Z 10 ltac:(lia)) as H10. pose proof (Z 11 ltac:(lia)) as H11.
  pose proof (Z 12 ltac:(lia)) as H12. pose proof (Z 13 ltac:(lia)) as H13. pose proof (Z 14 ltac:(lia)) as H14. pose proof (Z 15 ltac:(lia)) as H15.
  clear Z L. vm_compute in H0, H1, H2, H3, H4, H5, H6, H7, H8, H9, H10, H11, H12, H13, H14, H15.
  repeat match goal with H : Ok _ = Ok _ |- _ => apply Ok_inj in H end. subst. reflexivity.
Qed.

Lemma ip6_print addr : zlen addr = 16 ->
  (addr = repeat 0 16 -> ip6_ToString addr = Ok [58; 58]) /\ (addr <> repeat 0 16 -> ip6_ToString addr = Panic).
Proof.
  intros L. split; [intros ->; reflexivity|]. intros NZ. unfold ip6_ToString.
  destruct (longest_ok 8 addr 0 (-1) (-1) L ltac:(lia) eq_refl ltac:(auto)) as (f0 & f1 & -> & I). cbn [bind].
  assert (X : exists e0 e1, (if f1 - f0 <=? 2 then (-1, -1) else (f0, f1)) = (e0, e1) /\ (e0 = -1 \/ 0 <= e0 /\ 2 < e1 - e0 /\ e1 <= 16 /\ zeros addr e0 e1)).
  { destruct (Z.leb_spec (f1 - f0) 2); do 2 eexists; (split; [reflexivity|]); [auto|]. destruct I as [I|I]; [lia|]. right. repeat split; try lia. apply I. }
  destruct X as (e0 & e1 & -> & J). cbn [print6]. change (0 <? 16) with true. cbv iota.
  destruct (idx_in_range addr 0) as (x & Ex); [lia|].
  destruct (Z.eqb_spec 0 e0) as [<-|N]; cbn [andb].
  - destruct J as [J|J]; [lia|]. destruct (Z.leb_spec 16 e1).
    + exfalso. apply NZ, all_zero; auto. intros m Hm. apply J. lia.
    + destruct (idx_in_range addr e1) as (y & ->); [lia|]. cbn [bind app].
      rewrite set_idx_panic by (change (zlen [58; 58]) with 2; lia). reflexivity.
  - rewrite Ex. reflexivity.
Qed.
