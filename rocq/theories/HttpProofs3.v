From Coq Require Import ZifyBool ZifyNat.
From Verif Require Import Go GoFacts UriModel UriProofs UriProofs2 StrconvModel StringsModel StringsProofs HttpModel HttpSpec HttpProofs HttpProofs2.
Local Open Scope Z_scope.

(** * Content type *)
Definition plain (s : bytes) : Prop := ~ In 47 s /\ ~ In 59 s.
Lemma ct_skip q : forall fuel p r f se ix, plain q ->
  ct_loop (length q + fuel) (p ++ q ++ r) (zlen p) f se ix = ct_loop fuel (p ++ q ++ r) (zlen p + zlen q) f se ix.
Proof.
  induction q as [|c q IH]; intros fuel p r f se ix (P1 & P2).
  - cbn [length Nat.add]. f_equal. change (zlen (@nil Z)) with 0. lia.
  - cbn [length Nat.add ct_loop]. rewrite !zlen_app, !zlen_cons. pose proof (zlen_nonneg q). pose proof (zlen_nonneg r). pose proof (zlen_nonneg p).
    match goal with |- context [?a <? ?b] => replace (a <? b) with true by lia end.
    rewrite (idx_ok _ _ c). 2:{ lia. } 2:{ rewrite nth_error_app2 by (unfold zlen; lia). replace (Z.to_nat (zlen p) - length p)%nat with O by (unfold zlen; lia). reflexivity. }
    cbn [bind]. replace (c =? 47) with false by (destruct (c =? 47) eqn:E; [exfalso; apply P1; left; lia|reflexivity]).
    replace (c =? 59) with false by (destruct (c =? 59) eqn:E; [exfalso; apply P2; left; lia|reflexivity]).
    specialize (IH fuel (p ++ [c]) r f se ix). rewrite zlen_app in IH. change (zlen [c]) with 1 in IH.
    replace ((p ++ [c]) ++ q ++ r) with (p ++ (c :: q) ++ r) in IH by (rewrite <- app_assoc; reflexivity).
    rewrite IH. { f_equal. lia. } split; intros K; [apply P1|apply P2]; now right.
Qed.
Lemma ct_over fuel s i f se ix : zlen s <= i -> ct_loop fuel s i f se ix = Ok (s, f, se).
Proof. intros H. destruct fuel; cbn [ct_loop]; [reflexivity|]. replace (i <? zlen s) with false by lia. reflexivity. Qed.
Lemma ct_quiet fuel : forall s i f se ix, plain s -> 0 <= i -> ct_loop fuel s i f se ix = Ok (s, f, se).
Proof.
  induction fuel as [|fuel IH]; intros s i f se ix P Hi; [reflexivity|]. cbn [ct_loop].
  destruct (i <? zlen s) eqn:E; [|reflexivity]. destruct (idx_in_range s i ltac:(lia)) as (c & Ec). rewrite Ec. cbn [bind].
  assert (In c s). { apply idx_inv in Ec. destruct Ec as (_ & Ec). now apply nth_error_In in Ec. }
  destruct P as (P1 & P2).
  replace (c =? 47) with false by (destruct (c =? 47) eqn:E'; [exfalso; apply P1; replace 47 with c by lia; assumption|reflexivity]).
  replace (c =? 59) with false by (destruct (c =? 59) eqn:E'; [exfalso; apply P2; replace 59 with c by lia; assumption|reflexivity]).
  apply IH; [split; assumption|lia].
Qed.
Lemma ct_parse t s rest : plain t -> plain s -> plain rest ->
  ct_loop (length (t ++ 47 :: s ++ 59 :: 32 :: rest)) (t ++ 47 :: s ++ 59 :: 32 :: rest) 0 [] [] 0 = Ok (rest, t, s).
Proof.
  intros Pt Ps Pr. set (X := t ++ 47 :: s ++ 59 :: 32 :: rest).
  replace (length X) with (length t + S (length s + S (S (length rest))))%nat by (unfold X; rewrite app_length; cbn [length]; rewrite app_length; reflexivity).
  pose proof (ct_skip t (S (length s + S (S (length rest)))) [] (47 :: s ++ 59 :: 32 :: rest) [] [] 0 Pt) as E.
  cbn [app] in E. change (zlen (@nil Z)) with 0 in E. unfold X. rewrite E. clear E. fold X.
  assert (LX : zlen X = zlen t + 1 + zlen s + 2 + zlen rest) by (unfold X; rewrite zlen_app, zlen_cons, zlen_app, !zlen_cons; lia).
  pose proof (zlen_nonneg t). pose proof (zlen_nonneg s). pose proof (zlen_nonneg rest).
  cbn [ct_loop]. replace (0 + zlen t <? zlen X) with true by lia.
  rewrite (idx_ok _ _ 47). 2:lia. 2:{ unfold X. rewrite nth_error_app2 by (unfold zlen; lia). replace (Z.to_nat (0 + zlen t) - length t)%nat with O by (unfold zlen; lia). reflexivity. }
  cbn [bind]. change (47 =? 47) with true. cbn iota. unfold X at 1. rewrite slice_to_mid by lia. cbn [bind].
  pose proof (ct_skip s (S (S (length rest))) (t ++ [47]) (59 :: 32 :: rest) t [] (0 + zlen t + 1) Ps) as E.
  rewrite <- app_assoc in E. cbn [app] in E. fold X in E. rewrite zlen_app in E. change (zlen [47]) with 1 in E.
  replace (0 + zlen t + 1) with (zlen t + 1) in * by lia. rewrite E. clear E.
  cbn [ct_loop]. replace (zlen t + 1 + zlen s <? zlen X) with true by lia.
  rewrite (idx_ok _ _ 59). 2:lia.
  2:{ unfold X. change (t ++ 47 :: s ++ 59 :: 32 :: rest) with (t ++ [47] ++ s ++ 59 :: 32 :: rest). rewrite !app_assoc.
      rewrite nth_error_app2 by (rewrite !app_length; cbn [length]; unfold zlen; lia).
      match goal with |- nth_error _ ?n = _ => replace n with O by (rewrite !app_length; cbn [length]; unfold zlen; lia) end. reflexivity. }
  cbn [bind]. change (59 =? 47) with false. change (59 =? 59) with true. cbn iota.
  replace (slice X (zlen t + 1) (zlen t + 1 + zlen s)) with (Ok s).
  2:{ symmetry. unfold X. change (t ++ 47 :: s ++ 59 :: 32 :: rest) with (t ++ [47] ++ s ++ 59 :: 32 :: rest). rewrite app_assoc.
      apply slice_mid; rewrite zlen_app; change (zlen [47]) with 1; lia. }
  cbn [bind]. replace (slice_from X (zlen t + 1 + zlen s + 2)) with (Ok rest).
  2:{ symmetry. unfold X. change (t ++ 47 :: s ++ 59 :: 32 :: rest) with (t ++ [47] ++ s ++ [59; 32] ++ rest). rewrite !app_assoc.
      apply slice_from_mid. rewrite !zlen_app. change (zlen [47]) with 1. change (zlen [59; 32]) with 2. lia. }
  cbn [bind]. apply (ct_quiet (S (length rest))); [assumption|lia].
Qed.

(** * Encodings *)
Lemma encoding_single e : ~ In 44 e -> e <> [] -> EncodingLast e = Ok (tl e, true, []).
Proof.
  intros N H. unfold EncodingLast. destruct e as [|c e]; [congruence|]. rewrite zlen_cons. pose proof (zlen_nonneg e).
  replace (1 + zlen e =? 0) with false by lia. rewrite last_index_none by assumption. change (-1 =? -1) with true. cbn iota. cbn [bind].
  change (c :: e) with ([c] ++ e). rewrite slice_from_mid by reflexivity. reflexivity.
Qed.
Lemma encoding_list pre b e : ~ In 44 e -> EncodingLast (pre ++ [b] ++ 44 :: e) = Ok (e, true, pre).
Proof.
  intros N. unfold EncodingLast. replace (zlen (pre ++ [b] ++ 44 :: e) =? 0) with false.
  2:{ rewrite !zlen_app, !zlen_cons. change (zlen (@nil Z)) with 0. pose proof (zlen_nonneg pre). pose proof (zlen_nonneg e). lia. }
  rewrite app_assoc, last_index_at by assumption. rewrite zlen_app. change (zlen [b]) with 1. pose proof (zlen_nonneg pre).
  replace (zlen pre + 1 =? -1) with false by lia.
  rewrite <- app_assoc, slice_to_mid by lia. cbn [bind].
  change (pre ++ [b] ++ 44 :: e) with (pre ++ [b] ++ [44] ++ e). rewrite !app_assoc, slice_from_mid; [reflexivity|].
  rewrite !zlen_app. change (zlen [b]) with 1. change (zlen [44]) with 1. lia.
Qed.
Lemma encoding_comma e : ~ In 44 e -> EncodingLast (44 :: e) = Panic.
Proof.
  intros N. unfold EncodingLast. rewrite zlen_cons. pose proof (zlen_nonneg e). replace (1 + zlen e =? 0) with false by lia.
  rewrite (last_index_at [] 44 e N : last_index_byte (44 :: e) 44 = _). change (zlen (@nil Z)) with 0. change (0 =? -1) with false. cbn iota.
  unfold slice_to. rewrite slice_panic by lia. reflexivity.
Qed.

(** * Where the Cookie reader crashes *)
Lemma from_crash c s : Cookie_UnmarshalFrom c s = Panic <->
  exists n r, s = n ++ 61 :: r /\ ~ In 61 n /\ n <> [] /\ r <> [] /\
    (In 59 n \/ exists v, r = v ++ [59] /\ ~ In 59 v).
Proof.
  unfold Cookie_UnmarshalFrom. destruct (index_cases s 61) as [(N & E)|(n & r & Es & N & E)]; rewrite E.
  - cbn. split; [discriminate|]. intros (n & r & -> & _). exfalso. apply N. apply in_or_app. right. now left.
  - assert (U : forall n' r', s = n' ++ 61 :: r' -> ~ In 61 n' -> n' = n /\ r' = r).
    { intros n' r' E' N'. rewrite Es in E'. clear Es E. revert n' E' N'. induction n as [|a n IH]; intros [|b n'] E' N'; cbn in E'.
      - split; congruence.
      - injection E' as <- _. exfalso. apply N'. now left.
      - injection E' as -> _. exfalso. apply N. now left.
      - injection E' as -> E'. destruct (IH ltac:(intros K; apply N; now right) n' E' ltac:(intros K; apply N'; now right)). now subst. }
    pose proof (zlen_nonneg n). pose proof (zlen_nonneg r).
    rewrite Es at 1. rewrite zlen_app, zlen_cons.
    destruct ((zlen n <? 1) || (zlen n =? zlen n + (1 + zlen r) - 1)) eqn:G.
    + split; [discriminate|]. intros (n' & r' & E' & N' & Hn & Hr & _). destruct (U _ _ E' N') as [-> ->]. exfalso.
      destruct n as [|x n]; [congruence|]. destruct r as [|y r]; [congruence|]. rewrite !zlen_cons in G.
      pose proof (zlen_nonneg n). pose proof (zlen_nonneg r). lia.
    + assert (Hn : n <> []) by (intros ->; cbn in G; lia). assert (Hr : r <> []) by (intros ->; change (zlen (@nil Z)) with 0 in G; lia).
      rewrite Es at 1. rewrite slice_to_mid by reflexivity. cbn [bind].
      destruct (index_cases s 59) as [(M & F)|(p & q & Ep & M & F)]; rewrite F.
      * change (-1 =? -1) with true. cbn iota. rewrite Es. change (n ++ 61 :: r) with (n ++ [61] ++ r). rewrite app_assoc, slice_from_mid by (rewrite zlen_app; reflexivity).
        split; [discriminate|]. intros (n' & r' & E' & N' & _ & _ & D). exfalso. rewrite <- app_assoc in E'. cbn [app] in E'. rewrite <- Es in E'.
        destruct (U _ _ E' N') as [-> ->]. apply M. rewrite Es. destruct D as [D|(v & -> & _)].
        -- apply in_or_app. now left.
        -- apply in_or_app. right. right. apply in_or_app. right. now left.
      * pose proof (zlen_nonneg p). pose proof (zlen_nonneg q). replace (zlen p =? -1) with false by lia.
        assert (LS : zlen s = zlen p + 1 + zlen q) by (rewrite Ep, zlen_app, zlen_cons; lia).
        assert (LS' : zlen s = zlen n + 1 + zlen r) by (rewrite Es, zlen_app, zlen_cons; lia).
        destruct (Z_lt_le_dec (zlen p) (zlen n + 1)) as [Lt|Ge].
        -- rewrite slice_panic by lia. cbn [bind]. split; [|reflexivity]. intros _. exists n, r. repeat split; auto. left.
           (* the semicolon is inside n *)
           assert (X : nth_error s (length p) = Some 59) by (rewrite Ep, nth_error_app2, Nat.sub_diag by lia; reflexivity).
           rewrite Es in X. destruct (Z_lt_le_dec (zlen p) (zlen n)) as [L|L].
           ++ rewrite nth_error_app1 in X by (unfold zlen in *; lia). now apply nth_error_In in X.
           ++ exfalso. rewrite nth_error_app2 in X by (unfold zlen in *; lia).
              replace (length p - length n)%nat with O in X by (unfold zlen in *; lia). cbn in X. discriminate X.
        -- rewrite slice_ok by lia. cbn [bind].
           assert (PN : exists v, p = n ++ 61 :: v /\ r = v ++ 59 :: q).
           { clear - Es Ep Ge. rewrite Es in Ep. clear Es. revert p Ep Ge. induction n as [|a n IH]; intros p Ep Ge.
             - destruct p as [|b p]; [change (zlen (@nil Z)) with 0 in Ge; lia|]. cbn in Ep. injection Ep as <- ->. exists p. auto.
             - destruct p as [|b p]; [rewrite zlen_cons in Ge; change (zlen (@nil Z)) with 0 in Ge; pose proof (zlen_nonneg n); lia|]. cbn in Ep. injection Ep as <- Ep.
               rewrite !zlen_cons in Ge. destruct (IH p Ep ltac:(lia)) as (v & -> & ->). exists v. auto. }
           destruct PN as (v & -> & Er).
           assert (Nv : ~ In 59 v) by (intros K; apply M; apply in_or_app; right; now right).
           assert (Nn : ~ In 59 n) by (intros K; apply M; apply in_or_app; now left).
           destruct q as [|y q].
           ++ change (zlen (@nil Z)) with 0 in LS. rewrite slice_from_panic by lia. cbn [bind]. split; [|reflexivity]. intros _. exists n, r. repeat split; auto.
              right. exists v. auto.
           ++ rewrite zlen_cons in LS. pose proof (zlen_nonneg q). rewrite slice_from_ok by lia. cbn [bind]. split; [discriminate|].
              intros (n' & r' & E' & N' & _ & _ & D). exfalso. destruct (U _ _ E' N') as [-> ->].
              destruct D as [D|(w & W & Nw)]; [contradiction|]. rewrite Er in W.
              assert (C : forall (v w : bytes), v ++ 59 :: y :: q = w ++ [59] -> ~ In 59 v -> ~ In 59 w -> False).
              { clear. induction v as [|a v IH]; intros [|b w] W Nv Nw; cbn in W.
                - discriminate.
                - injection W as <- _. apply Nw. now left.
                - injection W as -> W. apply Nv. now left.
                - injection W as <- W. apply (IH w W); intros K; [apply Nv|apply Nw]; now right. }
              exact (C v w W Nv Nw).
Qed.
