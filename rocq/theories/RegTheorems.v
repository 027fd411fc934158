(** C49, C50, C60, C83, C85: registries and errors. *)
From Coq Require Import ZifyBool ZifyNat.
From Verif Require Import Go GoFacts RegModel RegSpec.

(** * C49 *)
Lemma same_eq a b : same_service a b = true <-> a = b.
Proof.
  unfold same_service. rewrite !andb_true_iff, Z.eqb_eq, Nat.eqb_eq. split.
  - intros ((H1 & H2) & H3). apply beq_eq in H2. destruct a, b; cbn in *; subst; reflexivity.
  - intros ->. repeat split. apply beq_refl.
Qed.
Lemma live_snoc h o : live (h ++ [o]) = live_step (live h) o.
Proof. unfold live. rewrite fold_left_app. reflexivity. Qed.
Lemma srun_snoc h o : srun (h ++ [o]) = sstep (srun h) o.
Proof. unfold srun. rewrite fold_left_app. reflexivity. Qed.
Definition agrees (ss : services) (l : list service) : Prop :=
  (forall id s, by_id ss id = Some s <-> In s l /\ s_id s = id) /\ (forall mt s, by_mt ss mt = Some s <-> In s l /\ s_mt s = mt) /\
  (forall a b, In a l -> In b l -> s_id a = s_id b \/ s_mt a = s_mt b -> a = b).
Lemma proper_agrees h : proper h -> agrees (srun h) (live h).
Proof.
  induction 1 as [|h s P (A1 & A2 & A3) N F|h s P (A1 & A2 & A3) I].
  - split; [|split]; [split; [discriminate|intros ([] & _)]..|intros a b []].
  - rewrite srun_snoc, live_snoc. cbn [sstep live_step]. unfold Register. replace (s_id s =? 0) with false by lia. cbn [fst].
    assert (E1 : by_id (srun h) (s_id s) = None).
    { destruct (by_id (srun h) (s_id s)) as [x|] eqn:E; [|reflexivity]. apply A1 in E. destruct E as (Ix & Ex). destruct (F x Ix). congruence. }
    assert (E2 : by_mt (srun h) (s_mt s) = None).
    { destruct (by_mt (srun h) (s_mt s)) as [x|] eqn:E; [|reflexivity]. apply A2 in E. destruct E as (Ix & Ex). destruct (F x Ix). congruence. }
    unfold registerServiceByMediaType, GetByID, GetByMediaType. rewrite E1, E2. split; [|split]; cbn [by_id by_mt].
    + intros id x. unfold map_set. rewrite in_app_iff. cbn [In]. destruct (Z.eqb_spec (s_id s) id) as [<-|Ne].
      * split; [intros [= <-]; auto|]. intros ([Ix|[<-|[]]] & Ex); [|reflexivity]. destruct (F x Ix). congruence.
      * rewrite A1. split; [tauto|]. intros ([Ix|[<-|[]]] & Ex); [auto|congruence].
    + intros mt x. unfold map_set. rewrite in_app_iff. cbn [In]. destruct (beq (s_mt s) mt) eqn:B.
      * apply beq_eq in B. subst mt. split; [intros [= <-]; auto|]. intros ([Ix|[<-|[]]] & Ex); [|reflexivity]. destruct (F x Ix). congruence.
      * rewrite A2. split; [tauto|]. intros ([Ix|[<-|[]]] & Ex); [auto|subst; rewrite beq_refl in B; discriminate].
    + intros a b Ia Ib. rewrite in_app_iff in Ia, Ib. cbn [In] in Ia, Ib. destruct Ia as [Ia|[<-|[]]], Ib as [Ib|[<-|[]]]; auto.
      * destruct (F a Ia). intuition congruence.
      * destruct (F b Ib). intuition congruence.
  - rewrite srun_snoc, live_snoc. cbn [sstep live_step]. unfold Delete. split; [|split]; cbn [by_id by_mt].
    + intros id x. unfold map_set. rewrite filter_In. destruct (Z.eqb_spec (s_id s) id) as [<-|Ne].
      * split; [discriminate|]. intros ((Ix & Sx) & Ex). assert (x = s) by (apply A3; auto). subst. rewrite (proj2 (same_eq s s) eq_refl) in Sx. discriminate.
      * rewrite A1. split; [intros (Ix & Ex)|tauto]. split; [split; [exact Ix|]|exact Ex]. destruct (same_service s x) eqn:S; [apply same_eq in S; congruence|reflexivity].
    + intros mt x. unfold map_set. rewrite filter_In. destruct (beq (s_mt s) mt) eqn:B.
      * apply beq_eq in B. subst mt. split; [discriminate|]. intros ((Ix & Sx) & Ex). assert (x = s) by (apply A3; auto). subst. rewrite (proj2 (same_eq s s) eq_refl) in Sx. discriminate.
      * rewrite A2. split; [intros (Ix & Ex)|tauto]. split; [split; [exact Ix|]|exact Ex]. destruct (same_service s x) eqn:S; [apply same_eq in S; subst; rewrite beq_refl in B; discriminate|reflexivity].
    + intros a b Ia Ib. rewrite filter_In in Ia, Ib. apply A3; tauto.
Qed.
(** After a history without duplicates the lookups find exactly the registered services, *)
Theorem C49_lookup_partial : forall h, proper h -> forall s,
  (forall id, GetByID (srun h) id = Some s <-> In s (live h) /\ s_id s = id) /\
  (forall mt, GetByMediaType (srun h) mt = Some s <-> In s (live h) /\ s_mt s = mt).
Proof. intros h P s. destruct (proper_agrees h P) as (A1 & A2 & _). split; intros; [apply A1|apply A2]. Qed.
Print Assumptions C49_lookup_partial.
(** and whatever the history, a lookup returns a service that has been registered with the id or
    media type it is looked up by; *)
Theorem C49_sound : forall h s, (forall id, GetByID (srun h) id = Some s -> In (SReg s) h /\ s_id s = id) /\
  (forall mt, GetByMediaType (srun h) mt = Some s -> In (SReg s) h /\ s_mt s = mt).
Proof.
  intros h s. induction h as [|o h (I1 & I2)] using rev_ind; [split; discriminate|]. rewrite srun_snoc. unfold GetByID, GetByMediaType in *.
  destruct o as [x|x]; cbn [sstep]; [unfold Register; destruct (s_id x =? 0); cbn [fst]|].
  - split; intros k E; rewrite in_app_iff; [destruct (I1 k E)|destruct (I2 k E)]; auto.
  - cbn [by_id by_mt]. unfold registerServiceByMediaType, GetByID, GetByMediaType. cbn [by_id by_mt]. split; intros k E; rewrite in_app_iff; cbn [In].
    + destruct (by_id (srun h) (s_id x)) eqn:D; [destruct (I1 k E); auto|]. unfold map_set in E. destruct (Z.eqb_spec (s_id x) k) as [<-|]; [injection E as ->; auto|destruct (I1 k E); auto].
    + destruct (by_mt (srun h) (s_mt x)) eqn:D; [destruct (I2 k E); auto|]. unfold map_set in E. destruct (beq (s_mt x) k) eqn:B; [apply beq_eq in B; injection E as ->; subst; auto|destruct (I2 k E); auto].
  - cbn [Delete by_id by_mt]. unfold map_set. split; intros k E; rewrite in_app_iff.
    + destruct (s_id x =? k); [discriminate|]. destruct (I1 k E); auto.
    + destruct (beq (s_mt x) k); [discriminate|]. destruct (I2 k E); auto.
Qed.
Print Assumptions C49_sound.
(** a service that is already there is not replaced, but no duplicate is ever refused: *)
Theorem C49_duplicate_refuted : forall ss s t, s_id s <> 0 -> GetByID ss (s_id s) = Some t ->
  snd (Register ss s) = SNone /\ GetByID (fst (Register ss s)) (s_id s) = Some t /\ by_time (fst (Register ss s)) = by_time ss ++ [Some s] /\
  (GetByMediaType ss (s_mt s) = None -> GetByMediaType (fst (Register ss s)) (s_mt s) = Some s).
Proof.
  intros ss s t N E. unfold Register. replace (s_id s =? 0) with false by lia. cbn [fst snd]. unfold registerServiceByMediaType. rewrite E. cbn [by_id by_mt by_time].
  repeat split; auto. intros M. rewrite M. unfold GetByMediaType, map_set. cbn [by_mt]. rewrite beq_refl. reflexivity.
Qed.
Print Assumptions C49_duplicate_refuted.
(** deleting that duplicate also removes the id of the first; *)
Theorem C49_delete_refuted : forall ss s t, s_id s = s_id t -> GetByID (Delete ss s) (s_id t) = None.
Proof. intros ss s t E. unfold GetByID, Delete, map_set. cbn [by_id]. rewrite E, Z.eqb_refl. reflexivity. Qed.
Print Assumptions C49_delete_refuted.
(** and the listing is 512 nils and then everything ever registered, deleted or not. *)
Theorem C49_listing_refuted : forall h, by_time (srun h) = repeat None 512 ++ map Some (registrations h).
Proof.
  intros h. induction h as [|o h IH] using rev_ind; [reflexivity|]. rewrite srun_snoc. unfold registrations. rewrite flat_map_app, map_app. fold (registrations h).
  cbn [flat_map]. rewrite app_nil_r. destruct o as [x|x]; cbn [sstep].
  - unfold Register. destruct (s_id x =? 0); cbn [fst by_time registerServiceByMediaType map]; rewrite IH, ?app_nil_r, <- ?app_assoc; reflexivity.
  - cbn [Delete by_time map]. rewrite app_nil_r. exact IH.
Qed.
Print Assumptions C49_listing_refuted.
Example C49_nonvacuous : proper ([] ++ [SReg {| s_id := 7; s_mt := [1]; s_obj := 0 |}]) /\
  proper (([] ++ [SReg {| s_id := 7; s_mt := [1]; s_obj := 0 |}]) ++ [SDel {| s_id := 7; s_mt := [1]; s_obj := 0 |}]).
Proof.
  assert (P : proper ([] ++ [SReg {| s_id := 7; s_mt := [1]; s_obj := 0 |}])) by (apply pr_reg; [constructor|discriminate|intros x []]).
  split; [exact P|]. apply pr_del; [exact P|left; reflexivity].
Qed.

(** * C50 *)
Lemma since_snoc o h : forall acc, since_removal acc (h ++ [o]) = match o with EReg x => since_removal acc h ++ [x] | EUn _ => [] end.
Proof. induction h as [|p h IH]; intros acc; [destruct o; reflexivity|]. cbn [app since_removal]. destruct p; apply IH. Qed.
Lemma cand_snoc id o h : candidates id (h ++ [o]) = if about id o then match o with EReg x => candidates id h ++ [x] | EUn _ => [] end else candidates id h.
Proof. unfold candidates. rewrite filter_app. cbn [filter]. destruct (about id o); [apply since_snoc|rewrite app_nil_r; reflexivity]. Qed.
Lemma erun_snoc dev h o : erun dev (h ++ [o]) = estep dev (erun dev h) o.
Proof. unfold erun. rewrite fold_left_app. reflexivity. Qed.
Lemma pool_answer dev id h : id <> 0 -> pool_id (erun dev h) id = answer dev (candidates id h).
Proof.
  intros N. induction h as [|o h IH] using rev_ind; [destruct dev; reflexivity|]. rewrite erun_snoc, cand_snoc. destruct o as [x|x]; cbn [estep about].
  - unfold ERegister. destruct (Z.eqb_spec (e_id x) id) as [E|E].
    + subst id. replace (e_id x =? 0) with false by lia. rewrite andb_false_r. destruct dev; cbn [andb].
      * rewrite IH. cbn [answer]. destruct (candidates (e_id x) h) as [|y l] eqn:C; cbn [hd_error app fst pool_id]; [unfold map_set; rewrite Z.eqb_refl; reflexivity|exact IH].
      * cbn [fst pool_id answer]. unfold map_set. rewrite Z.eqb_refl, rev_app_distr. reflexivity.
    + destruct (dev && (e_id x =? 0)); [exact IH|]. destruct (dev && match pool_id (erun dev h) (e_id x) with Some _ => true | None => false end); [exact IH|].
      cbn [fst pool_id]. unfold map_set. replace (e_id x =? id) with false by lia. exact IH.
  - cbn [EUnRegister pool_id]. unfold map_set. destruct (e_id x =? id); [destruct dev; reflexivity|exact IH].
Qed.
Theorem C50_lookup : forall dev h id, EGetByID (erun dev h) id =
  if id =? 0 then Nothing else match answer dev (candidates id h) with Some x => Found x | None => NotFound end.
Proof. intros dev h id. unfold EGetByID. destruct (Z.eqb_spec id 0); [reflexivity|]. rewrite pool_answer by auto. reflexivity. Qed.
Print Assumptions C50_lookup.
(** In development mode registering under 0 or under an id that is found is refused and changes
    nothing; otherwise the error is found under its id and its media type. *)
Theorem C50_register : forall dev e x,
  (dev = true -> e_id x = 0 \/ pool_id e (e_id x) <> None -> exists r, ERegister dev e x = (e, r) /\ r <> EOk) /\
  (dev = false \/ e_id x <> 0 /\ pool_id e (e_id x) = None -> exists e', ERegister dev e x = (e', EOk) /\
     (e_id x <> 0 -> EGetByID e' (e_id x) = Found x) /\ EGetByMediaType e' (e_mt x) = Found x /\
     (forall id, id <> e_id x -> EGetByID e' id = EGetByID e id) /\ (forall mt, mt <> e_mt x -> EGetByMediaType e' mt = EGetByMediaType e mt)).
Proof.
  intros dev e x. unfold ERegister. split.
  - intros -> H. cbn [andb]. destruct (Z.eqb_spec (e_id x) 0) as [E|E]; [eexists; split; [reflexivity|discriminate]|].
    destruct (pool_id e (e_id x)); [eexists; split; [reflexivity|discriminate]|]. destruct H; contradiction.
  - intros H. assert (G : dev && (e_id x =? 0) = false /\ dev && match pool_id e (e_id x) with Some _ => true | None => false end = false).
    { destruct H as [->|(N & E)]; [split; reflexivity|]. rewrite E, andb_false_r. replace (e_id x =? 0) with false by lia. rewrite andb_false_r. auto. }
    destruct G as (-> & ->). eexists. split; [reflexivity|]. unfold EGetByID, EGetByMediaType, map_set. cbn [pool_id pool_mt]. split.
    { intros N. replace (e_id x =? 0) with false by lia. rewrite Z.eqb_refl. reflexivity. }
    rewrite beq_refl. split; [reflexivity|]. split.
    + intros id N. replace (e_id x =? id) with false by lia. reflexivity.
    + intros mt N. replace (beq (e_mt x) mt) with false; [reflexivity|]. symmetry. apply beq_neq. congruence.
Qed.
Print Assumptions C50_register.
Example C50_nonvacuous : let a := {| e_id := 5; e_mt := [1]; e_obj := 0 |} in let b := {| e_id := 5; e_mt := [2]; e_obj := 1 |} in
  EGetByID (erun true [EReg a; EReg b]) 5 = Found a /\ EGetByID (erun false [EReg a; EReg b]) 5 = Found b /\ EGetByID (erun false [EReg a; EUn b; EReg b]) 6 = NotFound.
Proof. repeat split. Qed.

(** * C85: unregistering *)
(** An error that is unregistered is not found any more, and errors that share neither id nor media
    type with it are not touched. *)
Theorem C85_unregister : forall e x, pool_id (EUnRegister e x) (e_id x) = None /\ EGetByMediaType (EUnRegister e x) (e_mt x) = NotFound /\
  (forall id, id <> e_id x -> EGetByID (EUnRegister e x) id = EGetByID e id) /\ (forall mt, mt <> e_mt x -> EGetByMediaType (EUnRegister e x) mt = EGetByMediaType e mt).
Proof.
  intros e x. unfold EGetByMediaType, EGetByID, EUnRegister, map_set. cbn [pool_id pool_mt]. rewrite Z.eqb_refl, beq_refl. repeat split; auto.
  - intros id N. replace (e_id x =? id) with false by lia. reflexivity.
  - intros mt N. replace (beq (e_mt x) mt) with false; [reflexivity|]. symmetry. apply beq_neq. congruence.
Qed.
Print Assumptions C85_unregister.
(** But it takes whatever error is registered under its id with it, even when it is not
    registered itself, and leaves that error under its media type. *)
Theorem C85_other_refuted : forall e x y, e_id x = e_id y -> e_mt x <> e_mt y ->
  pool_id (EUnRegister (fst (ERegister false e y)) x) (e_id y) = None /\ EGetByMediaType (EUnRegister (fst (ERegister false e y)) x) (e_mt y) = Found y.
Proof.
  intros e x y E N. cbn [ERegister andb fst]. unfold EGetByMediaType, EUnRegister, map_set. cbn [pool_id pool_mt]. rewrite E, Z.eqb_refl, beq_refl.
  split; [reflexivity|]. replace (beq (e_mt x) (e_mt y)) with false; [reflexivity|]. symmetry. apply beq_neq. exact N.
Qed.
Print Assumptions C85_other_refuted.
Example C85_nonvacuous : e_id {| e_id := 5; e_mt := [1]; e_obj := 0 |} = e_id {| e_id := 5; e_mt := [2]; e_obj := 1 |}.
Proof. reflexivity. Qed.

(** * C60 *)
(** An error that can be asked for its identity: no nil pointer inside. *)
Fixpoint sound (e : err) : Prop := match e with Nil => True | Err _ _ _ => True | Chain e _ => sound e /\ e <> Nil | NilChain => False end.
Lemma sound_ask e : sound e -> e <> Nil -> exists m i s, err_MediaType e = Ok m /\ err_DataTypeID e = Ok i /\ err_Summary e = Ok s.
Proof.
  induction e as [|m i s|e IH c _|]; intros S N; [contradiction|cbn; eauto 6| |destruct S]. destruct S as (S & N'). cbn. apply IH; auto.
Qed.
(** What equality means: the same identity, or both nil. *)
Inductive same_error : err -> err -> Prop :=
| se_nil : same_error Nil Nil
| se_id a b m i : a <> Nil -> b <> Nil -> err_MediaType a = Ok m -> err_MediaType b = Ok m -> err_DataTypeID a = Ok i -> err_DataTypeID b = Ok i -> same_error a b.
Lemma is_nil_eq e : is_nil e = true <-> e = Nil.
Proof. destruct e; cbn; split; congruence. Qed.
Theorem C60_meaning : forall a b, sound a -> sound b -> exists r, IsEqual a b = Ok r /\ (r = true <-> same_error a b).
Proof.
  intros a b Sa Sb. unfold IsEqual. destruct (is_nil a) eqn:Na, (is_nil b) eqn:Nb; cbn [andb orb].
  - apply is_nil_eq in Na. apply is_nil_eq in Nb. subst. exists true. split; [reflexivity|]. split; [constructor|reflexivity].
  - apply is_nil_eq in Na. subst. exists false. split; [reflexivity|]. split; [discriminate|]. inversion 1; subst; [discriminate|contradiction].
  - apply is_nil_eq in Nb. subst. exists false. split; [reflexivity|]. split; [discriminate|]. inversion 1; subst; [discriminate|contradiction].
  - assert (Ha : a <> Nil) by (intros ->; discriminate). assert (Hb : b <> Nil) by (intros ->; discriminate).
    destruct (sound_ask a Sa Ha) as (m & i & s & A1 & A2 & _). destruct (sound_ask b Sb Hb) as (m' & i' & s' & B1 & B2 & _).
    rewrite A1, B1. cbn [bind]. destruct (beq m m') eqn:M.
    + apply beq_eq in M. subst m'. rewrite A2, B2. cbn [bind]. eexists. split; [reflexivity|]. split.
      * intros E. apply Z.eqb_eq in E. subst. econstructor; eauto.
      * inversion 1; subst; [contradiction|]. apply Z.eqb_eq. congruence.
    + exists false. split; [reflexivity|]. split; [discriminate|]. inversion 1; subst; [contradiction|]. assert (m = m') by congruence. subst. rewrite beq_refl in M. discriminate.
Qed.
Print Assumptions C60_meaning.
Theorem C60_equivalence : forall a b c, sound a -> sound b -> sound c ->
  IsEqual a a = Ok true /\ IsEqual a b = IsEqual b a /\ (IsEqual a b = Ok true -> IsEqual b c = Ok true -> IsEqual a c = Ok true).
Proof.
  intros a b c Sa Sb Sc. destruct (C60_meaning a a Sa Sa) as (r1 & E1 & M1). destruct (C60_meaning a b Sa Sb) as (r2 & E2 & M2).
  destruct (C60_meaning b a Sb Sa) as (r3 & E3 & M3). destruct (C60_meaning b c Sb Sc) as (r4 & E4 & M4). destruct (C60_meaning a c Sa Sc) as (r5 & E5 & M5).
  assert (Sym : forall x y, same_error x y -> same_error y x) by (intros x y H; destruct H; [constructor|econstructor; eauto]).
  repeat split.
  - rewrite E1. f_equal. apply M1. destruct (is_nil a) eqn:N; [apply is_nil_eq in N; subst; constructor|]. assert (Ha : a <> Nil) by (intros ->; discriminate).
    destruct (sound_ask a Sa Ha) as (m & i & s & A1 & A2 & _). econstructor; eauto.
  - rewrite E2, E3. f_equal. apply eq_true_iff_eq. rewrite M2, M3. split; apply Sym.
  - rewrite E2, E4, E5. intros [= ->] [= ->]. f_equal. apply M5. pose proof (proj1 M2 eq_refl) as H1. pose proof (proj1 M4 eq_refl) as H2.
    destruct H1; [exact H2|]. inversion H2; subst; [contradiction|]. econstructor; eauto; congruence.
Qed.
Print Assumptions C60_equivalence.
(** Wrapping: the chained error is equal to what it wraps, at any depth, and gives its chain back. *)
Theorem C60_chain : forall e c, sound e -> e <> Nil -> c <> Nil ->
  sound (NewChain e c) /\ IsEqual (NewChain e c) e = Ok true /\ PastChain (NewChain e c) = Ok c /\
  (forall x, sound x -> IsEqual (NewChain e c) x = IsEqual e x).
Proof.
  intros e c S N M. assert (E : NewChain e c = Chain e c) by (unfold NewChain; destruct e, c; try contradiction; reflexivity). rewrite E.
  assert (Sc : sound (Chain e c)) by (cbn; auto). split; [exact Sc|].
  assert (G : forall x, IsEqual (Chain e c) x = IsEqual e x) by (intros x; unfold IsEqual; destruct e; try contradiction; reflexivity).
  split; [|split; [reflexivity|intros; apply G]]. rewrite G. exact (proj1 (C60_equivalence e e e S S S)).
Qed.
Print Assumptions C60_chain.
(** Chaining nil gives an error that is not nil but panics when it is compared with any error. *)
Theorem C60_nil_chain_refuted : forall c e, sound e -> e <> Nil -> NewChain Nil c <> Nil /\ IsEqual (NewChain Nil c) Nil = Ok false /\ IsEqual (NewChain Nil c) e = Panic.
Proof. intros c e S N. split; [discriminate|]. split; [reflexivity|]. destruct e; try contradiction; reflexivity. Qed.
Print Assumptions C60_nil_chain_refuted.
Example C60_nonvacuous : sound (Chain (Chain (Err [1] 5 []) (Err [2] 6 [])) Nil) /\ IsEqual (Chain (Chain (Err [1] 5 []) (Err [2] 6 [])) Nil) (Err [1] 5 [9]) = Ok true.
Proof. split; [cbn; repeat split; discriminate|reflexivity]. Qed.

(** * C83 *)
(** Converting to a Go error keeps the summary, nil stays nil, *)
Theorem C83_to_go_partial : forall e, sound e -> (e = Nil -> ToGoError e = Ok GNil) /\ (e <> Nil -> exists s, err_Summary e = Ok s /\ ToGoError e = Ok (GString s)) /\
  ToError GNil = Ok Nil /\ ToError (GErr e) = Ok e.
Proof.
  intros e S. repeat split; [intros ->; reflexivity|]. intros N. destruct (sound_ask e S N) as (m & i & s & _ & _ & E). exists s. split; [exact E|].
  unfold ToGoError. replace (is_nil e) with false by (destruct e; try contradiction; reflexivity). rewrite E. reflexivity.
Qed.
Print Assumptions C83_to_go_partial.
(** but converting it back, like any plain Go error, panics. *)
Theorem C83_back_refuted : forall e g, sound e -> e <> Nil -> ToGoError e = Ok g -> ToError g = Panic.
Proof. intros e g S N E. destruct (proj1 (proj2 (C83_to_go_partial e S)) N) as (s & _ & E'). rewrite E in E'. assert (g = GString s) by congruence. subst. reflexivity. Qed.
Print Assumptions C83_back_refuted.
Example C83_nonvacuous : ToGoError (Err [1] 5 [104; 105]) = Ok (GString [104; 105]).
Proof. reflexivity. Qed.
