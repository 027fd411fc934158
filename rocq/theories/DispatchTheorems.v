(** Property C178: what handing one codec to another does, and when it comes back. *)
From Verif Require Import Go GoFacts CodecModel SockIoModel UriModel DispatchModel DispatchSpec.
From Coq Require Import String ZifyBool ZifyNat.
Import ListNotations.
Local Open Scope Z_scope.
Local Open Scope list_scope.

Lemma codec_ind' {T} (P : codec T -> Prop) :
  (forall c, P (JSON c)) -> (forall p c, P (Packs p c)) -> (forall p d, P (Unpacks p d)) -> (forall sk, P (Sock sk)) ->
  P (Body None) -> (forall i, P i -> P (Body (Some i))) -> forall x, P x.
Proof.
  intros H1 H2 H3 H4 H5 H6. fix IH 1. intros [c | p c | p d | sk | [i |]]; [apply H1 | apply H2 | apply H3 | apply H4 | apply H6, IH | apply H5].
Qed.
Fixpoint depth {T} (x : codec T) : nat := match x with Body (Some i) => S (depth i) | _ => O end.
Definition plain {T} (x : codec T) : Prop := match x with Body _ => False | _ => True end.
Lemma inside_plain {T} (x i : codec T) : inside x = Some i -> plain i.
Proof. revert i. induction x using codec_ind'; cbn [inside]; intros j E; try (injection E as <-; exact I); [discriminate | now apply IHx]. Qed.

(** ** The bodies around a codec *)
Lemma call_body {T} (A : japp T) L k m (i y : codec T) :
  call A L (S k) m (Body (Some i)) y = bind (call A L k m i y) (fun r => Returned (Ret (Body (Some (r_self r))) (r_other r) (r_n r) (r_err r))).
Proof. reflexivity. Qed.
Lemma through {T} (A : japp T) L m (x i y : codec T) : inside x = Some i -> forall k,
  call A L (depth x + k) m x y = bind (call A L k m i y) (fun r => Returned (Ret (refill x (r_self r)) (r_other r) (r_n r) (r_err r))).
Proof.
  revert i. induction x using codec_ind'; cbn [inside]; intros j E k;
    try (injection E as <-; cbn [depth plus refill]; destruct (call A L k m _ y) as [[? ? ? ?] | | |]; reflexivity).
  - discriminate.
  - cbn [depth plus refill]. cbn [call]. rewrite (IHx _ E k). destruct (call A L k m j y); reflexivity.
Qed.
Lemma through_none {T} (A : japp T) L m (x y : codec T) : inside x = None -> forall k,
  call A L (S (depth x + k)) m x y = Returned (Ret x y 0 None).
Proof.
  induction x using codec_ind'; cbn [inside]; intros E k; try discriminate; [reflexivity |].
  cbn [depth plus]. rewrite call_body, (IHx E k). reflexivity.
Qed.
Lemma short {T} (A : japp T) L m (x y : codec T) : forall k, (k <= depth x)%nat -> call A L k m x y = Running.
Proof.
  induction x using codec_ind'; intros k H; cbn [depth] in H; try (replace k with O by lia; reflexivity).
  destruct k as [| k]; [reflexivity |]. cbn [call]. rewrite IHx by lia. reflexivity.
Qed.

(** ** More calls change nothing *)
Definition turn {T} (A : japp T) (L : lib) (rec : method -> codec T -> codec T -> result (ret T)) (m : method) (x y : codec T) : result (ret T) :=
  match x, m with
  | Body None, _ => Returned (Ret x y 0 None)
  | Body (Some i), _ => bind (rec m i y) (fun r => Returned (Ret (Body (Some (r_self r))) (r_other r) (r_n r) (r_err r)))
  | JSON c, Decode => call A L 1 Decode x y
  | Packs _ _, Decode | Unpacks _ _, Decode => Returned (Ret x y 0 (Some Refused))
  | Sock _, Decode => bind (rec Encode y x) (fun r => Returned (swap r))
  | _, Encode => bind (rec Decode y x) (fun r => Returned (swap r))
  end.
Lemma call_S {T} (A : japp T) L k m (x y : codec T) : call A L (S k) m x y = turn A L (call A L k) m x y.
Proof. destruct x as [c | p c | p d | sk | [i |]]; destruct m; reflexivity. Qed.
Lemma mono_S {T} (A : japp T) L : forall k m (x y : codec T), call A L k m x y <> Running -> call A L (S k) m x y = call A L k m x y.
Proof.
  induction k as [| k IH]; intros m x y H; [now destruct H |].
  rewrite (call_S A L (S k)), (call_S A L k). rewrite call_S in H. revert H. generalize (call_S A L k). intros _ H.
  assert (Q : forall m x y, call A L k m x y <> Running -> call A L (S k) m x y = call A L k m x y) by exact IH. clear IH.
  revert Q H. generalize (call A L (S k)) as f. generalize (call A L k) as g. intros g f Q H.
  destruct x as [c | p c | p d | sk | [i |]]; destruct m; try reflexivity;
    cbn [turn] in H |- *; rewrite Q; try reflexivity; intros E; apply H; rewrite E; reflexivity.
Qed.
Lemma mono {T} (A : japp T) L k k' m (x y : codec T) : (k <= k')%nat -> call A L k m x y <> Running -> call A L k' m x y = call A L k m x y.
Proof.
  intros Hk H. induction Hk as [| k' Hk IH]; [reflexivity |].
  rewrite mono_S; [exact IH |]. rewrite IH. exact H.
Qed.
Lemma same {T} (A : japp T) L k k' m (x y : codec T) r r' : call A L k m x y = Returned r -> call A L k' m x y = Returned r' -> r = r'.
Proof.
  intros E E'. destruct (Nat.le_ge_cases k k') as [H | H].
  - rewrite (mono A L k k' m x y H) in E' by congruence. congruence.
  - rewrite (mono A L k' k m x y H) in E by congruence. congruence.
Qed.

(** ** Marshal *)
Lemma select_in l : (exists l', select l = Some l') <-> In ReceivedCompletely l.
Proof.
  induction l as [| s l IH]; cbn [select In]; [split; [intros [? E]; discriminate | tauto] |].
  destruct s; [split; [now left | eauto] | | |]; rewrite IH; (split; [tauto | intros [E | E]; [discriminate | exact E]]).
Qed.
Lemma marshal_gives {T} (A : japp T) L (x : codec T) : (exists r, marshal A L x = Returned r) <-> can_give x.
Proof.
  unfold can_give. induction x as [c | p c | p d | sk | | x IH] using codec_ind'; cbn [marshal inside].
  - split; [exact (fun _ => I) | eauto].
  - unfold comp_step, comp_force, EncodeAll, level_ok.
    destruct (c_data c) as [dt |] eqn:E1; [split; [left; discriminate | eauto] |].
    destruct (c_src c) as [raw |] eqn:E2; [| split; [tauto | eauto]].
    destruct ((-2 <=? c_lvl c) && (c_lvl c <=? 9)) eqn:E3; (split; [intros [r E]; try discriminate; try (right; right; lia) | intros [H | [H | H]]]); try congruence; try lia; eauto.
  - unfold decomp_step. destruct (decomp_force p L d) as [e d']. split; [exact (fun _ => I) | eauto].
  - unfold sk_Marshal, Full, blockInSelect. destruct (sk_chan sk) as [l |].
    + destruct (select l) as [l' |] eqn:E.
      * split; [intros _; exists l; split; [reflexivity | apply select_in; eauto] | eauto].
      * split; [intros [r F]; discriminate |]. intros (l2 & F & Hin). injection F as <-. apply select_in in Hin. destruct Hin; congruence.
    + split; [intros [r F]; discriminate | intros (l & F & _); discriminate].
  - split; [exact (fun _ => I) | eauto].
  - rewrite <- IH. split.
    + intros [r E]. destruct (marshal A L x) as [a | | |]; try discriminate. eauto.
    + intros [[[i d] e] E]. rewrite E. cbn [bind]. eauto.
Qed.
Lemma marshal_runs {T} (A : japp T) L (x : codec T) : marshal A L x <> Running.
Proof.
  induction x as [c | p c | p d | sk | | x IH] using codec_ind'; cbn [marshal]; try discriminate.
  - destruct (comp_step p L c CodecModel.Marshal) as [c' []]; discriminate.
  - destruct (decomp_step p L d CodecModel.Marshal) as [c' []]; discriminate.
  - destruct (sk_Marshal sk) as [[? ?] |]; discriminate.
  - destruct (marshal A L x) as [[[? ?] ?] | | |]; cbn [bind]; try discriminate. now destruct IH.
Qed.

(** ** A socket as destination *)
Lemma ping_pong {T} (A : japp T) L (dst src : codec T) sk i : inside dst = Some (Sock sk) -> inside src = Some i ->
  forall k, call A L k Decode dst src = Running /\ call A L k Encode src dst = Running.
Proof.
  intros Hd Hs k. revert dst src Hd Hs. induction k as [| k IH]; intros dst src Hd Hs; [split; reflexivity |].
  split; rewrite call_S.
  - destruct dst as [c | p c | p d | sk' | [j |]]; cbn [inside] in Hd; try discriminate.
    + cbn [turn]. now rewrite (proj2 (IH (Sock sk') src Hd Hs)).
    + cbn [turn]. now rewrite (proj1 (IH j src Hd Hs)).
  - destruct src as [c | p c | p d | sk' | [j |]]; cbn [inside] in Hs; try discriminate; cbn [turn];
      [now rewrite (proj1 (IH dst (JSON c) Hd Hs)) | now rewrite (proj1 (IH dst (Packs p c) Hd Hs)) | now rewrite (proj1 (IH dst (Unpacks p d) Hd Hs)) | now rewrite (proj1 (IH dst (Sock sk') Hd Hs)) | now rewrite (proj2 (IH dst j Hd Hs))].
Qed.

(** ** When it comes back *)
Lemma dec_json {T} (A : japp T) L k c (y : codec T) : call A L (S k) Decode (JSON c) y =
  bind (marshal A L y) (fun r => let '(y, d, e) := r in
    if e : bool then Returned (Ret (JSON (JC (j_obj c) d (j_len c))) y 0 (Some OfSource))
    else let '(o, bad) := from_json A (j_obj c) (go_append [] d) in Returned (Ret (JSON (JC o d (j_len c))) y 0 (if bad then Some OfJSON else None))).
Proof. reflexivity. Qed.
Lemma dec_sock {T} (A : japp T) L k sk (y : codec T) : call A L (S k) Decode (Sock sk) y = bind (call A L k Encode y (Sock sk)) (fun r => Returned (swap r)).
Proof. reflexivity. Qed.
Lemma at_depth {T} (A : japp T) L k m (x i y : codec T) r : inside x = Some i -> call A L k m x y = Returned r ->
  exists k' r', k = (depth x + S k')%nat /\ call A L (S k') m i y = Returned r' /\ r = Ret (refill x (r_self r')) (r_other r') (r_n r') (r_err r').
Proof.
  intros Hx E. destruct (Nat.le_gt_cases k (depth x)) as [H | H]; [rewrite short in E by exact H; discriminate |].
  exists (k - depth x - 1)%nat. replace k with (depth x + S (k - depth x - 1))%nat in E by lia.
  rewrite (through A L m x i y Hx) in E. destruct (call A L (S _) m i y) as [r' | | |] eqn:F; try discriminate.
  exists r'. split; [lia |]. split; [reflexivity |]. cbn [bind] in E. now injection E as <-.
Qed.
Lemma none_returns {T} (A : japp T) L k m (x y : codec T) r : inside x = None -> call A L k m x y = Returned r -> r = Ret x y 0 None.
Proof. intros H E. eapply same; [exact E | exact (through_none A L m x y H O)]. Qed.

Theorem C178_decode_returns_exact : forall T (A : japp T) L (dst src : codec T),
  comes_back (fun k => call A L k Decode dst src) <-> decode_returns dst src.
Proof.
  intros T A L dst src. unfold decode_returns. destruct (inside dst) as [i |] eqn:Hi.
  - pose proof (inside_plain _ _ Hi) as Pl. destruct i as [c | p c | p d | sk | b]; [| | | | destruct Pl].
    + rewrite <- (marshal_gives A L). split.
      * intros (k & r & E). destruct (at_depth _ _ _ _ _ _ _ _ Hi E) as (k' & r' & _ & F & _).
        rewrite dec_json in F. destruct (marshal A L src) as [a | | |]; try discriminate. eauto.
      * intros [[[y d] e] E]. exists (depth dst + 1)%nat. rewrite (through A L Decode dst _ src Hi). rewrite dec_json, E. cbn [bind].
        destruct e; [eexists; reflexivity |]. destruct (from_json A (j_obj c) (go_append [] d)) as [o bad]. cbn [bind]. eexists; reflexivity.
    + split; [exact (fun _ => I) | intros _]. exists (depth dst + 1)%nat. rewrite (through A L Decode dst _ src Hi). eexists; reflexivity.
    + split; [exact (fun _ => I) | intros _]. exists (depth dst + 1)%nat. rewrite (through A L Decode dst _ src Hi). eexists; reflexivity.
    + split.
      * intros (k & r & E). destruct (inside src) as [j |] eqn:Hj; [| reflexivity].
        rewrite (proj1 (ping_pong A L dst src sk j Hi Hj k)) in E. discriminate.
      * intros Hs. exists (depth dst + S (S (depth src + 0)))%nat. rewrite (through A L Decode dst _ src Hi).
        rewrite dec_sock, (through_none A L Encode src (Sock sk) Hs 0). eexists; reflexivity.
  - split; [exact (fun _ => I) | intros _]. exists (S (depth dst + 0))%nat. rewrite (through_none A L Decode dst src Hi 0). eauto.
Qed.
Lemma enc_plain {T} (A : japp T) L k (i y : codec T) : plain i -> call A L (S k) Encode i y = bind (call A L k Decode y i) (fun r => Returned (swap r)).
Proof. destruct i as [c | p c | p d | sk | b]; intros H; [reflexivity .. | destruct H]. Qed.
Lemma can_give_inside {T} (x i : codec T) : inside x = Some i -> can_give x <-> can_give i.
Proof.
  intros H. unfold can_give. rewrite H. pose proof (inside_plain _ _ H) as Pl. destruct i; cbn [inside]; try reflexivity. destruct Pl.
Qed.
Lemma inside_inside {T} (x i : codec T) : inside x = Some i -> inside i = Some i.
Proof. intros H. pose proof (inside_plain _ _ H) as Pl. destruct i; try reflexivity. destruct Pl. Qed.
Theorem C178_encode_returns_exact : forall T (A : japp T) L (src dst : codec T),
  comes_back (fun k => call A L k Encode src dst) <-> encode_returns src dst.
Proof.
  intros T A L src dst. unfold encode_returns. destruct (inside src) as [i |] eqn:Hi.
  - assert (Q : decode_returns dst src <-> decode_returns dst i).
    { unfold decode_returns. destruct (inside dst) as [[c | p c | p d | sk | b] |]; try reflexivity.
      - exact (can_give_inside _ _ Hi).
      - rewrite Hi, (inside_inside _ _ Hi). split; discriminate. }
    rewrite Q, <- (C178_decode_returns_exact T A L dst i). split.
    + intros (k & r & E). right. destruct (at_depth _ _ _ _ _ _ _ _ Hi E) as (k' & r' & _ & F & _).
      rewrite (enc_plain _ _ _ _ _ (inside_plain _ _ Hi)) in F. exists k'. destruct (call A L k' Decode dst i) as [a | | |]; try discriminate. eauto.
    + intros [? | (k & r & E)]; [discriminate |]. exists (depth src + S k)%nat. rewrite (through A L Encode src i dst Hi).
      rewrite (enc_plain _ _ _ _ _ (inside_plain _ _ Hi)), E. eexists; reflexivity.
  - split; [now left | intros _]. exists (S (depth src + 0))%nat. rewrite (through_none A L Encode src dst Hi 0). eauto.
Qed.
(** It never ends exactly when something is given to a socket *)
Theorem C178_never_ends_exact : forall T (A : japp T) L (dst src : codec T),
  never_ends (fun k => call A L k Decode dst src) <-> (exists sk, inside dst = Some (Sock sk)) /\ inside src <> None.
Proof.
  intros T A L dst src. split.
  - intros H. destruct (inside dst) as [i |] eqn:Hi.
    + pose proof (inside_plain _ _ Hi) as Pl. destruct i as [c | p c | p d | sk | b]; [| | | | destruct Pl].
      * specialize (H (depth dst + 1)%nat). cbv beta in H. rewrite (through A L Decode dst _ src Hi), dec_json in H.
        pose proof (marshal_runs A L src) as R. destruct (marshal A L src) as [[[y d] e] | | |]; try discriminate; [| now destruct R].
        cbn [bind] in H. destruct e; [discriminate |]. destruct (from_json A (j_obj c) (go_append [] d)); discriminate.
      * specialize (H (depth dst + 1)%nat). cbv beta in H. rewrite (through A L Decode dst _ src Hi) in H. discriminate.
      * specialize (H (depth dst + 1)%nat). cbv beta in H. rewrite (through A L Decode dst _ src Hi) in H. discriminate.
      * split; [eauto |]. intros Hs.
        destruct (proj2 (C178_decode_returns_exact T A L dst src)) as (k & r & E); [unfold decode_returns; now rewrite Hi |].
        rewrite (H k) in E. discriminate.
    + specialize (H (S (depth dst + 0))). cbv beta in H. rewrite (through_none A L Decode dst src Hi 0) in H. discriminate.
  - intros [[sk Hd] Hs] k. destruct (inside src) as [i |] eqn:E; [| now destruct Hs]. exact (proj1 (ping_pong A L dst src sk i Hd E k)).
Qed.
Print Assumptions C178_decode_returns_exact.
Print Assumptions C178_encode_returns_exact.
Print Assumptions C178_never_ends_exact.

(** ** What it does *)
(** A JSON codec takes what the source gives *)
Theorem C178_json_takes : forall T (A : japp T) L k (dst src : codec T) c r, inside dst = Some (JSON c) -> call A L k Decode dst src = Returned r ->
  exists src' d e, marshal A L src = Returned (src', d, e) /\ r_other r = src' /\ r_n r = 0 /\
    (if e : bool then r_self r = refill dst (JSON (JC (j_obj c) d (j_len c))) /\ r_err r = Some OfSource
     else r_self r = refill dst (JSON (JC (fst (from_json A (j_obj c) (go_append [] d))) d (j_len c))) /\
          (r_err r = None <-> snd (from_json A (j_obj c) (go_append [] d)) = false) /\ (r_err r <> None -> r_err r = Some OfJSON)).
Proof.
  intros T A L k dst src c r Hi E. destruct (at_depth _ _ _ _ _ _ _ _ Hi E) as (k' & r' & _ & F & ->). rewrite dec_json in F.
  destruct (marshal A L src) as [[[y d] e] | | |]; try discriminate. cbn [bind] in F. exists y, d, e. split; [reflexivity |].
  destruct e.
  - injection F as <-. repeat split.
  - destruct (from_json A (j_obj c) (go_append [] d)) as [o bad]. injection F as <-. cbn [r_self r_other r_n r_err fst snd].
    destruct bad; (repeat split; try discriminate; try (intros G; now destruct G)).
Qed.
Lemma refill_inside {T} (x i j : codec T) : inside x = Some i -> plain j -> inside (refill x j) = Some j.
Proof.
  revert i. induction x using codec_ind'; cbn [inside refill]; intros i0 E Pl; try (destruct j; [reflexivity .. | destruct Pl]); [discriminate | now apply (IHx i0)].
Qed.
Lemma marshal_inside {T} (A : japp T) L (x i : codec T) : inside x = Some i ->
  marshal A L x = bind (marshal A L i) (fun r => let '(j, d, e) := r in Returned (refill x j, d, e)).
Proof.
  revert i. induction x using codec_ind'; cbn [inside]; intros i0 E; try (injection E as <-; cbn [refill]; destruct (marshal A L _) as [[[? ?] ?] | | |]; reflexivity); [discriminate |].
  cbn [marshal refill]. rewrite (IHx _ E). destruct (marshal A L i0) as [[[? ?] ?] | | |]; reflexivity.
Qed.
(** and gives the same bytes afterwards; a nil slice is not kept, so what is missing is a source of no bytes at all *)
Theorem C178_gives_same_bytes_partial : forall T (A : japp T) L k (dst src : codec T) c r src' d,
  inside dst = Some (JSON c) -> call A L k Decode dst src = Returned r -> marshal A L src = Returned (src', Some d, false) ->
  exists dst', marshal A L (r_self r) = Returned (dst', Some d, false).
Proof.
  intros T A L k dst src c r src' d Hi E M. destruct (C178_json_takes _ _ _ _ _ _ _ _ Hi E) as (s2 & d2 & e & M' & _ & _ & Q).
  rewrite M in M'. injection M' as <- <- <-. destruct Q as [Q _]. rewrite Q.
  rewrite (marshal_inside A L _ _ (refill_inside _ _ (JSON _) Hi I)). cbn [marshal jforce j_payload bind]. eexists; reflexivity.
Qed.
Theorem C178_gives_same_bytes_refuted : forall T (A : japp T) L (c : jcodec T) b sk l, sk_chan sk = Some (ReceivedCompletely :: l) ->
  to_json A (fst (from_json A (j_obj c) [])) = Some b ->
  exists k r, call A L k Decode (JSON c) (Sock sk) = Returned r /\ marshal A L (Sock sk) = Returned (Sock (Socket (sk_status sk) (Some l) (sk_buf sk)), None, false) /\
    exists x, marshal A L (r_self r) = Returned (x, Some b, false).
Proof.
  intros T A L c b sk l Hc Hb. exists 1%nat.
  assert (M : marshal A L (Sock sk) = Returned (Sock (Socket (sk_status sk) (Some l) (sk_buf sk)), None, false)).
  { cbn [marshal]. unfold sk_Marshal, Full. rewrite Hc. reflexivity. }
  rewrite dec_json, M. cbn [bind]. change (go_append [] None) with (@nil Z). destruct (from_json A (j_obj c) []) as [o bad]. cbn [fst] in Hb.
  eexists. split; [reflexivity |]. split; [reflexivity |]. cbn [r_self marshal jforce j_payload j_obj j_len]. rewrite Hb. eexists; reflexivity.
Qed.
(** A compressor or decompressor refuses, and nothing else does *)
Theorem C178_refused_exact : forall T (A : japp T) L k (dst src : codec T) r, call A L k Decode dst src = Returned r ->
  (r_err r = Some Refused <-> exists p x, inside dst = Some (Packs p x) \/ exists y, inside dst = Some (Unpacks p y)) /\
  (r_err r = Some Refused -> inside (r_self r) = inside dst /\ r_other r = src).
Proof.
  intros T A L k dst src r E. destruct (inside dst) as [i |] eqn:Hi.
  - pose proof (inside_plain _ _ Hi) as Pl. destruct i as [c | p c | p d | sk | b]; [| | | | destruct Pl].
    + destruct (C178_json_takes _ _ _ _ _ _ _ _ Hi E) as (s2 & d2 & e & _ & _ & _ & Q).
      assert (N : r_err r <> Some Refused).
      { destruct e; [destruct Q as [_ Q]; congruence |]. destruct Q as (_ & _ & Q). intros F. rewrite F in Q. specialize (Q ltac:(discriminate)). discriminate. }
      split; [| intros F; now destruct N]. split; [intros F; now destruct N | intros (p & x & [F | [y F]]); discriminate].
    + destruct (at_depth _ _ _ _ _ _ _ _ Hi E) as (k' & r' & _ & F & ->). cbn [call] in F. injection F as <-. cbn [r_self r_other r_err].
      split; [split; [intros _; exists p, c; now left | reflexivity] |]. intros _. split; [refine (refill_inside _ _ _ Hi _); exact Logic.I | reflexivity].
    + destruct (at_depth _ _ _ _ _ _ _ _ Hi E) as (k' & r' & _ & F & ->). cbn [call] in F. injection F as <-. cbn [r_self r_other r_err].
      split; [split; [intros _; exists p, (Comp None 0 None); right; eauto | reflexivity] |]. intros _. split; [refine (refill_inside _ _ _ Hi _); exact Logic.I | reflexivity].
    + destruct (inside src) as [j |] eqn:Hj; [rewrite (proj1 (ping_pong A L dst src sk j Hi Hj k)) in E; discriminate |].
      destruct (at_depth _ _ _ _ _ _ _ _ Hi E) as (k' & r' & _ & F & ->). cbn [call] in F.
      destruct (call A L k' Encode src (Sock sk)) as [a | | |] eqn:G; try discriminate. apply none_returns in G; [| exact Hj]. subst a.
      cbn [bind] in F. injection F as <-. cbn [swap r_self r_other r_err]. split; [split; [discriminate | intros (p & x & [F | [y F]]); discriminate] | discriminate].
  - apply none_returns in E; [| exact Hi]. subst r. cbn [r_err r_self r_other].
    split; [split; [discriminate | intros (p & x & [F | [y F]]); discriminate] | discriminate].
Qed.
(** "No error" means that the data has been taken only when neither side is an empty body *)
Theorem C178_no_error_means_taken_partial : forall T (A : japp T) L k (dst src : codec T) r, call A L k Decode dst src = Returned r -> r_err r = None ->
  inside dst <> None -> inside src <> None ->
  exists c d, inside dst = Some (JSON c) /\ (exists s, marshal A L src = Returned (s, d, false)) /\
    inside (r_self r) = Some (JSON (JC (fst (from_json A (j_obj c) (go_append [] d))) d (j_len c))).
Proof.
  intros T A L k dst src r E N Hd Hs. destruct (inside dst) as [i |] eqn:Hi; [| now destruct Hd].
  pose proof (inside_plain _ _ Hi) as Pl. destruct i as [c | p c | p d | sk | b]; [| | | | destruct Pl].
  - destruct (C178_json_takes _ _ _ _ _ _ _ _ Hi E) as (s2 & d2 & e & M & _ & _ & Q). destruct e; [destruct Q as [_ Q]; congruence |].
    destruct Q as (Q & _). exists c, d2. split; [reflexivity |]. split; [eauto |]. rewrite Q. refine (refill_inside _ _ _ Hi _); exact Logic.I.
  - destruct (C178_refused_exact _ _ _ _ _ _ _ E) as [[_ Q] _]. rewrite Q in N by (exists p, c; now left). discriminate.
  - destruct (C178_refused_exact _ _ _ _ _ _ _ E) as [[_ Q] _]. rewrite Q in N by (exists p, (Comp None 0 None); right; eauto). discriminate.
  - destruct (inside src) as [j |] eqn:Hj; [| now destruct Hs]. rewrite (proj1 (ping_pong A L dst src sk j Hi Hj k)) in E. discriminate.
Qed.
Theorem C178_no_error_means_taken_refuted : forall T (A : japp T) L (dst src : codec T), inside dst = None ->
  exists k, call A L k Decode dst src = Returned (Ret dst src 0 None).
Proof. intros T A L dst src H. exists (S (depth dst + 0)). exact (through_none A L Decode dst src H 0). Qed.
Theorem C178_from_nothing_refuted : forall T (A : japp T) L (dst src : codec T), inside src = None ->
  exists k, call A L k Encode src dst = Returned (Ret src dst 0 None).
Proof. intros T A L dst src H. exists (S (depth src + 0)). exact (through_none A L Encode src dst H 0). Qed.
(** Encode is Decode the other way round, with the bodies taken off the source *)
Theorem C178_encode_is_decode : forall T (A : japp T) L (src dst i : codec T) r, inside src = Some i ->
  (exists k, call A L k Encode src dst = Returned r) <->
  exists k r', call A L k Decode dst i = Returned r' /\ r = Ret (refill src (r_other r')) (r_self r') (r_n r') (r_err r').
Proof.
  intros T A L src dst i r Hi. split.
  - intros [k E]. destruct (at_depth _ _ _ _ _ _ _ _ Hi E) as (k' & r' & _ & F & ->). rewrite (enc_plain _ _ _ _ _ (inside_plain _ _ Hi)) in F.
    destruct (call A L k' Decode dst i) as [a | | |] eqn:G; try discriminate. cbn [bind] in F. injection F as <-. exists k', a. split; [exact G | reflexivity].
  - intros (k & r' & E & ->). exists (depth src + S k)%nat. rewrite (through A L Encode src i dst Hi).
    rewrite (enc_plain _ _ _ _ _ (inside_plain _ _ Hi)), E. reflexivity.
Qed.
(** The count says nothing: it is always zero *)
Theorem C178_count : forall T (A : japp T) L k m (x y : codec T) r, call A L k m x y = Returned r -> r_n r = 0.
Proof.
  intros T A L k. induction k as [| k IH]; intros m x y r E; [discriminate |]. cbn [call] in E.
  destruct x as [c | p c | p d | sk | [i |]]; destruct m; try (injection E as <-; reflexivity);
    try (match type of E with bind ?a _ = _ => destruct a as [q | | |] eqn:F; try discriminate; cbn [bind] in E; injection E as <-; cbn [swap r_n]; exact (IH _ _ _ _ F) end).
  destruct (marshal A L y) as [[[y' d] e] | | |]; try discriminate. cbn [bind] in E. destruct e; [injection E as <-; reflexivity |].
  destruct (from_json A (j_obj c) (go_append [] d)). injection E as <-. reflexivity.
Qed.
Print Assumptions C178_json_takes.
Print Assumptions C178_gives_same_bytes_partial.
Print Assumptions C178_gives_same_bytes_refuted.
Print Assumptions C178_refused_exact.
Print Assumptions C178_no_error_means_taken_partial.
Print Assumptions C178_no_error_means_taken_refuted.
Print Assumptions C178_from_nothing_refuted.
Print Assumptions C178_encode_is_decode.
Print Assumptions C178_count.

(** What each kind of source gives, in terms of the application's object and the compression library; [taken] is the JSON codec after it *)
Definition taken {T} (A : japp T) (c : jcodec T) (d : bytes) : codec T := JSON (JC (fst (from_json A (j_obj c) d)) (Some d) (j_len c)).
Definition verdict {T} (A : japp T) (c : jcodec T) (d : bytes) : option err := if snd (from_json A (j_obj c) d) then Some OfJSON else None.
Lemma dec_some {T} (A : japp T) L k c (y y' : codec T) d : marshal A L y = Returned (y', Some d, false) ->
  call A L (S k) Decode (JSON c) y = Returned (Ret (taken A c d) y' 0 (verdict A c d)).
Proof. intros M. rewrite dec_json, M. cbn [bind go_append app]. unfold taken, verdict. destruct (from_json A (j_obj c) d). reflexivity. Qed.
Theorem C178_from_json : forall T (A : japp T) L k c b t, j_payload b = None -> to_json A (j_obj b) = Some t ->
  call A L (S k) Decode (JSON c) (JSON b) = Returned (Ret (taken A c t) (JSON (JC (j_obj b) (Some t) (j_len b))) 0 (verdict A c t)).
Proof. intros T A L k c b t P E. apply dec_some. cbn [marshal]. unfold jforce. rewrite P, E. reflexivity. Qed.
Theorem C178_from_compressor : forall T (A : japp T) L k c p x raw, c_data x = None -> c_src x = Some raw -> -2 <= c_lvl x <= 9 ->
  call A L (S k) Decode (JSON c) (Packs p x) =
  Returned (Ret (taken A c (lib_pack L (c_lvl x) raw)) (Packs p (Comp (Some raw) (c_lvl x) (Some (lib_pack L (c_lvl x) raw)))) 0 (verdict A c (lib_pack L (c_lvl x) raw))).
Proof.
  intros T A L k c p x raw D E R. apply dec_some. cbn [marshal]. unfold comp_step, comp_force, EncodeAll. rewrite D, E.
  replace (level_ok (c_lvl x)) with true by (unfold level_ok; lia). cbn [c_data]. now rewrite Bool.andb_false_r.
Qed.
Theorem C178_from_decompressor : forall T (A : japp T) L k c p x z d ok, d_data x = None -> d_src x = Some z -> lib_unpack L z = Some (d, ok) ->
  exists x', call A L (S k) Decode (JSON c) (Unpacks p x) = Returned (Ret (taken A c d) (Unpacks p x') 0 (verdict A c d)) /\ d_data x' = Some d.
Proof.
  intros T A L k c p x z d ok D E U. exists (snd (decomp_force p L x)). unfold decomp_force, decompressAll. rewrite D, E, U. cbn [snd]. split; [|reflexivity].
  apply dec_some. cbn [marshal]. unfold decomp_step, decomp_force, decompressAll. rewrite D, E, U. cbn [d_data]. now rewrite Bool.andb_false_r.
Qed.
(** A source that fails: flate reports it and the object is left alone, gzip does not and FromJSON gets nothing *)
Theorem C178_failing_source : forall T (A : japp T) L k c x y, c_data x = None -> c_src x = None -> d_data y = None -> d_src y = None ->
  let fails := JSON (JC (j_obj c) None (j_len c)) in
  let empty := JSON (JC (fst (from_json A (j_obj c) [])) None (j_len c)) in
  call A L (S k) Decode (JSON c) (Packs Flate x) = Returned (Ret fails (Packs Flate x) 0 (Some OfSource)) /\
  call A L (S k) Decode (JSON c) (Unpacks Flate y) = Returned (Ret fails (Unpacks Flate y) 0 (Some OfSource)) /\
  call A L (S k) Decode (JSON c) (Packs Gzip x) = Returned (Ret empty (Packs Gzip x) 0 (verdict A c [])) /\
  call A L (S k) Decode (JSON c) (Unpacks Gzip y) = Returned (Ret empty (Unpacks Gzip y) 0 (verdict A c [])).
Proof.
  intros T A L k c x y D E F G. cbv zeta. rewrite !dec_json. cbn [marshal].
  unfold comp_step, comp_force, EncodeAll, decomp_step, decomp_force, decompressAll. rewrite D, E, F, G. cbn [drops negb andb bind]. rewrite D, F.
  split; [reflexivity|]. split; [reflexivity|]. unfold verdict. change (go_append [] None) with (@nil Z).
  destruct (from_json A (j_obj c) []). split; reflexivity.
Qed.
(** Bodies change none of this: what is inside them counts *)
Theorem C178_through_bodies : forall T (A : japp T) L (dst src c s : codec T) r, inside dst = Some c -> inside src = Some s -> (forall sk, c <> Sock sk) ->
  (exists k, call A L k Decode c s = Returned r) -> exists k, call A L k Decode dst src = Returned (Ret (refill dst (r_self r)) (refill src (r_other r)) (r_n r) (r_err r)).
Proof.
  intros T A L dst src c s r Hd Hs NS [k E]. exists (depth dst + 1)%nat. rewrite (through A L Decode dst c src Hd).
  pose proof (inside_plain _ _ Hd) as Pl. destruct c as [c | p c | p d | sk | b]; [| | | now destruct (NS sk) | destruct Pl].
  - destruct k as [|k]; [discriminate|]. rewrite dec_json in E |- *. rewrite (marshal_inside A L src s Hs).
    destruct (marshal A L s) as [[[j d] e] | | |]; try discriminate. cbn [bind] in E |- *. destruct e.
    + injection E as <-. reflexivity.
    + destruct (from_json A (j_obj c) (go_append [] d)) as [o bad]. injection E as <-. reflexivity.
  - destruct k as [|k]; [discriminate|]. injection E as <-. cbn [call bind r_self r_other r_n r_err]. f_equal. f_equal.
    clear - Hs. revert s Hs. induction src using codec_ind'; cbn [inside refill]; intros s E; try (now injection E as <-); [discriminate | f_equal; f_equal; now apply IHsrc].
  - destruct k as [|k]; [discriminate|]. injection E as <-. cbn [call bind r_self r_other r_n r_err]. f_equal. f_equal.
    clear - Hs. revert s Hs. induction src using codec_ind'; cbn [inside refill]; intros s E; try (now injection E as <-); [discriminate | f_equal; f_equal; now apply IHsrc].
Qed.
Print Assumptions C178_from_json.
Print Assumptions C178_from_compressor.
Print Assumptions C178_from_decompressor.
Print Assumptions C178_failing_source.
Print Assumptions C178_through_bodies.

(** ** Through the handlers *)
(** A request or response of an sRPC service is never sent: the call does not end *)
Theorem C178_srpc_sends_refuted : forall T (A : japp T) L sk (x : codec T), inside x <> None ->
  never_ends (fun k => srpc_request A L k sk x) /\ never_ends (fun k => srpc_response A L k sk x).
Proof. intros T A L sk x H. split; (apply C178_never_ends_exact; split; [exists sk; reflexivity | exact H]). Qed.
(** An HTTP request or response that has just been made takes nothing from the stream, whatever has arrived *)
Theorem C178_http_receives_refuted : forall T (A : japp T) L st, exists k, http_receive (T := T) A L k None st = Returned (Ret (Body None) (Sock st) 0 None).
Proof. intros T A L st. exists 1%nat. reflexivity. Qed.
(** one that was given a JSON body waits until all has been received, and then takes nothing into it *)
Theorem C178_http_receives_body : forall T (A : japp T) L st (c : jcodec T),
  (comes_back (fun k => http_receive A L k (Some (JSON c)) st) <-> exists l, sk_chan st = Some l /\ In ReceivedCompletely l) /\
  (forall k r, http_receive A L k (Some (JSON c)) st = Returned r -> r_self r = Body (Some (JSON (JC (fst (from_json A (j_obj c) [])) None (j_len c))))).
Proof.
  intros T A L st c. split.
  - unfold http_receive. rewrite C178_decode_returns_exact. reflexivity.
  - intros k r E. unfold http_receive in E. destruct (C178_json_takes T A L k (Body (Some (JSON c))) (Sock st) c r eq_refl E) as (s2 & d & e & M & _ & _ & Q).
    cbn [marshal] in M. destruct (sk_Marshal st) as [[? ?] |]; [| discriminate]. injection M as _ <- <-. destruct Q as [Q _]. rewrite Q. reflexivity.
Qed.
(** Sending one reads: a JSON body is overwritten with what the stream gives, which is nothing, once the stream has
    been told that all has been received, and waits before that; a compressed body is refused *)
Theorem C178_http_sends_refuted : forall T (A : japp T) L st (c : jcodec T),
  (comes_back (fun k => http_send A L k st (Some (JSON c))) <-> exists l, sk_chan st = Some l /\ In ReceivedCompletely l) /\
  (forall k r, http_send A L k st (Some (JSON c)) = Returned r -> r_other r = Body (Some (JSON (JC (fst (from_json A (j_obj c) [])) None (j_len c))))).
Proof.
  intros T A L st c. split.
  - unfold http_send. rewrite C178_encode_returns_exact. unfold encode_returns, decode_returns, can_give. cbn [inside]. split; [intros [F | H]; [discriminate | exact H] | now right].
  - intros k r E. unfold http_send in E.
    destruct (proj1 (C178_encode_is_decode T A L (Sock st) (Body (Some (JSON c))) (Sock st) r eq_refl) (ex_intro _ k E)) as (k' & r' & F & ->). cbn [r_other].
    destruct (C178_json_takes T A L k' (Body (Some (JSON c))) (Sock st) c r' eq_refl F) as (s2 & d & e & M & _ & _ & Q). cbn [marshal] in M.
    destruct (sk_Marshal st) as [[? ?] |]; [| discriminate]. injection M as _ <- <-. destruct Q as [Q _]. rewrite Q. reflexivity.
Qed.
Theorem C178_http_sends_packed_refuted : forall T (A : japp T) L st p (x : comp), exists k, http_send (T := T) A L k st (Some (Packs p x)) = Returned (Ret (Sock st) (Body (Some (Packs p x))) 0 (Some Refused)).
Proof. intros T A L st p x. exists 3%nat. reflexivity. Qed.
(** A URI given to a codec: a socket never takes one that has text; a JSON codec takes its text; URI.Decode takes nothing *)
Theorem C178_uri_into_socket : forall T (A : japp T) L u sk, snd (UriModel.Marshal u) <> [] <-> never_ends (fun k => uri_encode A L k u (Sock (T := T) sk)).
Proof.
  intros T A L u sk. unfold uri_encode. destruct (UriModel.Marshal u) as [u' d]. cbn [snd unmarshal]. split.
  - intros Hd k. enough (E : sk_Unmarshal k sk d 0 = None) by now rewrite E. generalize 0 as n. intros n. destruct d as [| z d]; [now destruct Hd |].
    revert n. induction k as [| k IH]; intros n; [reflexivity |]. cbn [sk_Unmarshal]. unfold sendPayload. cbv zeta. change (skipn (Z.to_nat 0) (z :: d)) with (z :: d). apply IH.
  - intros H E. subst d. specialize (H 0%nat). discriminate.
Qed.
Theorem C178_uri_into_json : forall T (A : japp T) L k u (c : jcodec T),
  uri_encode A L k u (JSON c) = Returned (fst (UriModel.Marshal u), JSON (JC (fst (from_json A (j_obj c) (snd (UriModel.Marshal u)))) (Some (snd (UriModel.Marshal u))) (j_len c)), 0,
    if snd (from_json A (j_obj c) (snd (UriModel.Marshal u))) then Some OfJSON else None).
Proof. intros T A L k u c. unfold uri_encode. destruct (UriModel.Marshal u) as [u' d]. cbn [unmarshal fst snd]. destruct (from_json A (j_obj c) d). reflexivity. Qed.
Theorem C178_uri_takes_refuted : forall T u (x : codec T), uri_decode u x = (u, x, 0, None).
Proof. reflexivity. Qed.
Print Assumptions C178_srpc_sends_refuted.
Print Assumptions C178_http_receives_refuted.
Print Assumptions C178_http_receives_body.
Print Assumptions C178_http_sends_refuted.
Print Assumptions C178_http_sends_packed_refuted.
Print Assumptions C178_uri_into_socket.
Print Assumptions C178_uri_into_json.
Print Assumptions C178_uri_takes_refuted.

(** ** A case *)
Definition lenA : japp bytes := {| to_json := fun x => Some x; from_json := fun x d => if beq d [] then (x, true) else (d, false); len_json := fun x => zlen x |}.
Definition lib0 : lib := {| lib_pack := fun _ x => 31 :: x; lib_unpack := fun d => match d with 31 :: x => Some (x, true) | _ => None end |}.
Definition json0 : codec bytes := JSON (jinit lenA (str "{}")).
Definition gz0 : codec bytes := Packs Gzip (comp_init (Some (str "[1]")) 6).
Definition un0 : codec bytes := Unpacks Gzip (decomp_init (Some (31 :: str "[1]"))).
Definition got : socket := Socket None (Some [Timeout; ReceivedCompletely]) (SockIoModel.Init zero_queue 10).
Example C178_nonvacuous :
  call lenA lib0 1 Decode json0 un0 = Returned (Ret (JSON (JC (str "[1]") (Some (str "[1]")) 2)) (Unpacks Gzip (Decomp (Some (31 :: str "[1]")) (RAt [] true) (Some (str "[1]")))) 0 None) /\
  call lenA lib0 2 Encode un0 json0 = Returned (Ret (Unpacks Gzip (Decomp (Some (31 :: str "[1]")) (RAt [] true) (Some (str "[1]")))) (JSON (JC (str "[1]") (Some (str "[1]")) 2)) 0 None) /\
  call lenA lib0 1 Decode gz0 json0 = Returned (Ret gz0 json0 0 (Some Refused)) /\
  call lenA lib0 900 Decode (Sock got) (Body (Some json0)) = Running /\
  call lenA lib0 3 Decode (Sock got) (Body None) = Returned (Ret (Sock got) (Body None) 0 None) /\
  call lenA lib0 2 Decode json0 (Sock (new_socket 10)) = Waits /\
  http_send lenA lib0 3 got (Some json0) = Returned (Ret (Sock (Socket None (Some []) (SockIoModel.Init zero_queue 10))) (Body (Some (JSON (JC (str "{}") None 2)))) 0 (Some OfJSON)).
Proof. vm_compute. tauto. Qed.
