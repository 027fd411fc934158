(** C177: the errors of the HTTP package told apart, and the status they give. *)
From Coq Require Import String ZifyBool ZifyNat.
From Verif Require Import Go GoFacts UriModel StrconvModel StringsModel HttpModel IdModel RegModel RegTheorems HttpMsgModel HttpErrModel HttpErrSpec.
Import ListNotations. Local Open Scope Z_scope. Local Open Scope list_scope.

Lemma text_eq a b : beq (err_text a) (err_text b) = true <-> a = b \/ (shared a /\ shared b).
Proof.
  unfold shared. split.
  - destruct a, b; vm_compute; intro H; try discriminate H; auto 8.
  - intros [->|(A & B)]; [apply beq_refl|]. destruct A as [->|[->| ->]], B as [->|[->| ->]]; reflexivity.
Qed.
Lemma carries_ask w e : carries w e -> is_nil w = false /\ err_MediaType w = err_MediaType e /\ err_DataTypeID w = err_DataTypeID e.
Proof. induction 1 as [|w e c H (A & B & C)]; cbn; auto. Qed.
Lemma equal_carries w m i s m2 i2 s2 : carries w (Err m i s) -> IsEqual w (Err m2 i2 s2) = Ok (beq m m2 && (i =? i2)).
Proof.
  intro H. destruct (carries_ask _ _ H) as (A & B & C). unfold IsEqual. rewrite A, B, C. cbn [is_nil andb orb err_MediaType err_DataTypeID bind].
  destruct (beq m m2); reflexivity.
Qed.
Lemma equal_http idof detail w a b : carries w (http_error idof detail a) -> IsEqual w (http_error idof detail b) = Ok (beq (err_text a) (err_text b)).
Proof.
  intro H. unfold http_error in *. rewrite (equal_carries _ _ _ _ _ _ _ H). destruct (beq (err_text a) (err_text b)) eqn:E; [|reflexivity].
  apply beq_eq in E. rewrite E, Z.eqb_refl. reflexivity.
Qed.

(** * C177 *)
(** Two errors of the package compare equal exactly if they are one error or both among the three
    with one text, whatever the identifiers and however deep either is in a chain. *)
Theorem C177_told_apart_exact : forall idof detail w a b, carries w (http_error idof detail a) ->
  exists r, IsEqual w (http_error idof detail b) = Ok r /\ (r = true <-> a = b \/ (shared a /\ shared b)).
Proof. intros. rewrite (equal_http _ _ _ _ _ H). eexists. split; [reflexivity|]. apply text_eq. Qed.
Print Assumptions C177_told_apart_exact.
(** So an unsupported media type, a bad host and an unsupported transfer encoding cannot be told apart. *)
Theorem C177_told_apart_refuted : forall idof detail a b, shared a -> shared b -> IsEqual (http_error idof detail a) (http_error idof detail b) = Ok true.
Proof.
  intros idof detail a b A B. rewrite (equal_http idof detail _ a b); [|constructor]. f_equal. apply text_eq. auto.
Qed.
Print Assumptions C177_told_apart_refuted.
(** The status of an error of the package, chained or not, is the one it stands for, and no other
    part of the response changes: for all but two of them.  Missing: those two. *)
Theorem C177_status_partial : forall idof detail r w e, carries w (http_error idof detail e) -> e <> UnsupportedMediaType -> e <> BadHost ->
  exists r', StatusByError idof detail r w = Ok r' /\ (r_code r', r_phrase r') = status_of e /\
  r_version r' = r_version r /\ r_head r' = r_head r /\ r_body r' = r_body r.
Proof.
  intros idof detail r w e H N1 N2. destruct (carries_ask _ _ H) as (A & _). unfold StatusByError. rewrite A, !(equal_http _ _ _ _ _ H). cbn [bind].
  destruct e; try contradiction; vm_compute beq; cbv iota; eexists; (split; [reflexivity|]); cbn; auto.
Qed.
Print Assumptions C177_status_partial.
(** The two: the client that asked for a wrong host, or sent a media type nobody takes, is told the
    server does not implement what it asked. *)
Theorem C177_status_refuted : forall idof detail r w e, carries w (http_error idof detail e) -> e = UnsupportedMediaType \/ e = BadHost ->
  exists r', StatusByError idof detail r w = Ok r' /\ r_code r' = str "501" /\ r_phrase r' = str "Not Implemented" /\ (r_code r', r_phrase r') <> status_of e.
Proof.
  intros idof detail r w e H E. destruct (carries_ask _ _ H) as (A & _). unfold StatusByError. rewrite A, !(equal_http _ _ _ _ _ H). cbn [bind].
  destruct E as [->| ->]; vm_compute beq; cbv iota; eexists; (split; [reflexivity|]); repeat split; discriminate.
Qed.
Print Assumptions C177_status_refuted.
(** Any other error, of whatever package, gives 400 as soon as its media type or its identifier is
    not that of one of the two; no error leaves the response as it is. *)
Theorem C177_other : forall idof detail r w m i s, carries w (Err m i s) ->
  (m <> err_text ParseHeaderTooLarge \/ i <> idof m) -> (m <> err_text UnsupportedTransferEncoding \/ i <> idof m) ->
  StatusByError idof detail r w = Ok (SetStatus r (str "400") (str "Bad Request")).
Proof.
  intros idof detail r w m i s H N1 N2. destruct (carries_ask _ _ H) as (A & _). unfold StatusByError, http_error. rewrite A, !(equal_carries _ _ _ _ _ _ _ H). cbn [bind].
  assert (K : forall e, m <> err_text e \/ i <> idof m -> beq m (err_text e) && (i =? idof (err_text e)) = false).
  { intros e N. destruct (beq m (err_text e)) eqn:B; [|reflexivity]. apply beq_eq in B. cbn [andb]. rewrite <- B. destruct N; [contradiction|]. lia. }
  rewrite (K _ N1), (K _ N2). reflexivity.
Qed.
Print Assumptions C177_other.
Theorem C177_no_error : forall idof detail r, StatusByError idof detail r Nil = Ok r.
Proof. reflexivity. Qed.
Print Assumptions C177_no_error.
(** It comes back for every error that is one, and panics exactly for a nil pointer in the chain's
    place, such as what NewChain gives when either part is nil. *)
Theorem C177_panics_exact : forall idof detail r e, StatusByError idof detail r e = Panic <-> e <> Nil /\ forall m i s, ~ carries e (Err m i s).
Proof.
  intros idof detail r e. split.
  - intro P. split; [intros ->; discriminate P|]. intros m i s H. destruct (carries_ask _ _ H) as (A & _). unfold StatusByError, http_error in P.
    rewrite A, !(equal_carries _ _ _ _ _ _ _ H) in P. cbn [bind] in P. destruct (_ && _) in P; [discriminate P|]. destruct (_ && _) in P; discriminate P.
  - intros (N & K). assert (Q : err_MediaType e = Panic).
    { clear N. induction e as [|m i s|e IH c _|]; [reflexivity|exfalso; apply (K m i s); constructor| |reflexivity].
      cbn. apply IH. intros m i s C. apply (K m i s). constructor. exact C. }
    unfold StatusByError, IsEqual. destruct (is_nil e) eqn:NN; [apply is_nil_eq in NN; contradiction|]. cbn [http_error is_nil andb orb]. rewrite Q. reflexivity.
Qed.
Print Assumptions C177_panics_exact.

(** In the register of errors: every error but the three is found under its media type and under its
    identifier as itself, if the identifiers of different texts differ and are not zero. *)
Definition good_ids (idof : bytes -> Z) : Prop :=
  (forall e, idof (err_text e) <> 0) /\ forall a b, idof (err_text a) = idof (err_text b) -> err_text a = err_text b.
Definition last_of (e : http_err) : nat * http_err := (* only to state what is there *)
  (match e with NoConnection => 0 | PacketTooShort => 1 | PacketTooLong => 2 | ParseMethod => 3 | ParseVersion => 4 | ParseStatusCode => 5
   | ParseReasonPhrase => 6 | ParseHeaderTooLarge => 7 | CookieBadName => 8 | CookieBadValue => 9 | CookieBadPath => 10 | CookieBadDomain => 11
   | NotFoundErr => 12 | ServiceNotAcceptHTTP => 13 | UnsupportedMediaType => 14 | UnsupportedTransferEncoding => 15 | BadHost => 16 | BodySizeMismatch => 17 end%nat, e).
Lemma place_last e i : place_of e i <-> i = fst (last_of e).
Proof.
  unfold place_of. split.
  - intro H. do 18 (destruct i as [|i]; [cbn in H; destruct e; try discriminate H; reflexivity|]). destruct i; discriminate H.
  - intros ->. destruct e; reflexivity.
Qed.
Lemma reg_all_eq dev idof : register_all dev idof = fold_left (fun pool p => fst (ERegister dev pool (reg_error idof p))) (map last_of init_order) errors0.
Proof. reflexivity. Qed.

(** What a run of registrations holds under a text, and under an identifier. *)
Definition holds (dev : bool) (l : list (nat * http_err)) (t : bytes) : option (nat * http_err) :=
  (if dev then find (fun p => beq (err_text (snd p)) t) l else find (fun p => beq (err_text (snd p)) t) (rev l)).
Lemma find_app' {A} (f : A -> bool) a b : find f (a ++ b) = match find f a with Some x => Some x | None => find f b end.
Proof. induction a as [|x a IH]; [reflexivity|]. cbn. destruct (f x); auto. Qed.
Lemma beq_sym' a b : beq a b = beq b a.
Proof. destruct (beq a b) eqn:E; symmetry. - apply beq_eq in E. subst. apply beq_refl. - apply beq_neq. intros ->. rewrite beq_refl in E. discriminate. Qed.
Lemma run_holds dev idof l : good_ids idof ->
  let pool := fold_left (fun pool p => fst (ERegister dev pool (reg_error idof p))) l errors0 in
  forall e, pool_mt pool (err_text e) = option_map (reg_error idof) (holds dev l (err_text e)) /\
            pool_id pool (idof (err_text e)) = option_map (reg_error idof) (holds dev l (err_text e)).
Proof.
  intros (NZ & INJ). cbn zeta. induction l as [|p l IH] using rev_ind; intro e; [destruct dev; split; reflexivity|].
  rewrite fold_left_app. cbn [fold_left]. set (pool := fold_left _ l errors0) in *.
  assert (IDB : forall a b, (idof (err_text a) =? idof (err_text b)) = beq (err_text a) (err_text b)).
  { intros a b. destruct (beq (err_text a) (err_text b)) eqn:B; [apply beq_eq in B; rewrite B; apply Z.eqb_refl|].
    apply Z.eqb_neq. intro K. apply INJ in K. rewrite K, beq_refl in B. discriminate. }
  unfold ERegister. cbn [reg_error e_id e_mt]. replace (idof (err_text (snd p)) =? 0) with false by (specialize (NZ (snd p)); lia). rewrite andb_false_r.
  destruct (IH (snd p)) as (IM & II). destruct (IH e) as (IM' & II'). destruct dev; cbn [andb holds] in *.
  - rewrite II, find_app'. cbn [find]. destruct (find (fun q => beq (err_text (snd q)) (err_text (snd p))) l) as [q|] eqn:F; cbn [option_map fst pool_mt pool_id].
    + rewrite IM', II'. destruct (beq (err_text (snd p)) (err_text e)) eqn:B; [apply beq_eq in B; rewrite <- B, F; split; reflexivity|]. destruct (find (fun q => beq (err_text (snd q)) (err_text e)) l); split; reflexivity.
    + unfold map_set. rewrite IDB, IM', II'. destruct (beq (err_text (snd p)) (err_text e)) eqn:B; [apply beq_eq in B; rewrite <- B, F; split; reflexivity|]. destruct (find (fun q => beq (err_text (snd q)) (err_text e)) l); split; reflexivity.
  - cbn [fst pool_mt pool_id]. unfold map_set. rewrite IDB, IM', II', rev_app_distr. cbn [rev app find]. destruct (beq (err_text (snd p)) (err_text e)); split; reflexivity.
Qed.
Lemma holds_all dev e : holds dev (map last_of init_order) (err_text e) =
  Some (last_of (match e with UnsupportedMediaType | UnsupportedTransferEncoding | BadHost => if dev then UnsupportedMediaType else BadHost | x => x end)).
Proof. destruct dev, e; vm_compute; reflexivity. Qed.
Theorem C177_registered_partial : forall dev idof e i, good_ids idof -> place_of e i -> ~ shared e ->
  EGetByMediaType (register_all dev idof) (err_text e) = Found (reg_error idof (i, e)) /\
  EGetByID (register_all dev idof) (idof (err_text e)) = Found (reg_error idof (i, e)).
Proof.
  intros dev idof e i G P N. apply place_last in P. rewrite reg_all_eq. destruct (run_holds dev idof (map last_of init_order) G e) as (A & B).
  unfold EGetByMediaType, EGetByID. rewrite A, B, holds_all. destruct G as (NZ & _). replace (idof (err_text e) =? 0) with false by (specialize (NZ e); lia).
  unfold shared in N. assert (K : (i, e) = last_of e) by (rewrite P; destruct e; reflexivity). rewrite K. destruct e; try tauto; split; reflexivity.
Qed.
Print Assumptions C177_registered_partial.
(** Missing: the three.  A developer's build refuses the later two and gives the unsupported media type
    for all; any other build lets the last one win, and every response carrying one of them is read
    as a bad host. *)
Theorem C177_registered_refuted : forall (dev : bool) idof e i, good_ids idof -> shared e -> place_of (if dev then UnsupportedMediaType else BadHost) i ->
  EGetByMediaType (register_all dev idof) (err_text e) = Found (reg_error idof (i, if dev then UnsupportedMediaType else BadHost)) /\
  EGetByID (register_all dev idof) (idof (err_text e)) = Found (reg_error idof (i, if dev then UnsupportedMediaType else BadHost)).
Proof.
  intros dev idof e i G N P. apply place_last in P. rewrite reg_all_eq. destruct (run_holds dev idof (map last_of init_order) G e) as (A & B).
  unfold EGetByMediaType, EGetByID. rewrite A, B, holds_all. destruct G as (NZ & _). replace (idof (err_text e) =? 0) with false by (specialize (NZ e); lia).
  rewrite P. destruct N as [->|[->| ->]]; destruct dev; split; reflexivity.
Qed.
Print Assumptions C177_registered_refuted.
(** A sample of identifiers: the number the text is in base 256. *)
Definition no_detail : http_err -> bytes := fun _ => [].
Definition sample_id (t : bytes) : Z := fold_left (fun n b => n * 256 + b) t 1.
Lemma sample_good : good_ids sample_id.
Proof.
  split; [intros []; vm_compute; discriminate|]. intros a b H. apply beq_eq. destruct a, b; vm_compute in H; try discriminate H; vm_compute; reflexivity.
Qed.
Example C177_nonvacuous : good_ids sample_id /\ place_of BadHost 16 /\ ~ shared NotFoundErr /\ place_of NotFoundErr 12 /\
  carries (Chain (Chain (http_error sample_id no_detail ParseHeaderTooLarge) Nil) NilChain) (http_error sample_id no_detail ParseHeaderTooLarge) /\
  (exists r, StatusByError sample_id no_detail empty_response (http_error sample_id no_detail BadHost) = Ok r /\ r_code r = str "501") /\
  (forall m i s, ~ carries NilChain (Err m i s)) /\ NewChain Nil Nil = NilChain.
Proof.
  split; [exact sample_good|]. split; [reflexivity|]. split; [intros [H|[H|H]]; discriminate H|]. split; [reflexivity|].
  split; [repeat constructor|]. split; [|split; [intros m i s H; inversion H|reflexivity]].
  destruct (C177_status_refuted sample_id no_detail empty_response (http_error sample_id no_detail BadHost) BadHost ltac:(constructor) (or_intror eq_refl)) as (r' & A & B & _).
  exists r'. auto.
Qed.
