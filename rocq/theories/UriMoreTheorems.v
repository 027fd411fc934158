(** C19, C63, C64, C66 in general: where parsing of targets, queries and authorities goes wrong. *)
From Coq Require Import String ZifyBool ZifyNat.
From Verif Require Import Go GoFacts EscapeModel EscapeSpec EscapeProofs UriModel UriSpec UriProofs UriProofs2 UriProofs3 UriTheorems.
Import ListNotations.
Local Open Scope Z_scope.
Local Open Scope list_scope.
Ltac Zify.zify_post_hook ::= Z.div_mod_to_equations.

(** * C19 *)
Lemma loop_scheme_kept s o : forall n rest i st e st', (length rest <= n)%nat -> 0 < i -> auI st <> 0 ->
  uri_loop s o rest i st = Ok (e, st') -> scheme (pu st') = scheme (pu st).
Proof.
  induction n as [|n IH]; intros rest i st e st' L Hi A E; (destruct rest as [|c r]; [cbn in E; injection E as <- <-; reflexivity|]); cbn [length] in L; [lia|].
  cbn [uri_loop] in E. destruct (auI st =? 0) eqn:A0; [lia|]. cbn [negb andb] in E.
  assert (G : forall st1 e1, uri_loop s o r (i + 1) st1 = Ok (e1, st') -> auI st1 = auI st -> scheme (pu st1) = scheme (pu st) -> scheme (pu st') = scheme (pu st)).
  { intros st1 e1 E1 A1 S1. rewrite <- S1. apply (IH r (i + 1) st1 e1 st'); [lia|lia|lia|exact E1]. }
  destruct (c =? 58); [eapply G; eauto|]. destruct (c =? 47).
  { destruct (paI st =? 0); [|rewrite andb_false_r in E; cbn [andb] in E; eapply G; [exact E|reflexivity|reflexivity]].
    destruct (slice s (auI st) i); [|discriminate]. cbn [bind] in E. eapply G; [exact E|reflexivity|reflexivity]. }
  destruct (c =? 63).
  { destruct (quI st =? 0); [|eapply G; eauto]. destruct (slice s (paI st) i); [|discriminate]. cbn [bind] in E. eapply G; [exact E|reflexivity|reflexivity]. }
  destruct (c =? 35).
  { destruct (nuI st =? 0); [|eapply G; eauto]. destruct (quI st =? 0).
    - destruct (slice s (paI st) i); [|discriminate]. cbn [bind] in E. eapply G; [exact E|reflexivity|reflexivity].
    - destruct (slice s (quI st + 1) i); [|discriminate]. cbn [bind] in E. eapply G; [exact E|reflexivity|reflexivity]. }
  destruct (c =? 32); [injection E as <- <-; reflexivity|]. eapply G; eauto.
Qed.
Lemma loop_scheme s o : forall p r pre st e st', s = pre ++ p ++ 58 :: r -> auI st = 0 -> free ": " p ->
  uri_loop s o (p ++ 58 :: r) (zlen pre) st = Ok (e, st') -> scheme (pu st') = pre ++ p.
Proof.
  induction p as [|c p IH]; intros r pre st e st' Hs A F E.
  - cbn [app uri_loop] in E. rewrite Z.eqb_refl, A in E. change (0 =? 0) with true in E. cbv iota in E. cbn [app] in Hs. pose proof (zlen_nonneg pre).
    assert (ST : slice_to s (zlen pre) = Ok pre) by (rewrite Hs; apply slice_to_mid; reflexivity). rewrite ST in E. cbn [bind] in E. rewrite app_nil_r.
    destruct r as [|r0 [|r1 r]]; [injection E as _ <-; reflexivity|injection E as _ <-; reflexivity|].
    apply (loop_scheme_kept s o (length r)) in E; [exact E|lia|lia|cbn [auI]; lia].
  - assert (N58 : c <> 58) by (intros ->; apply (F 58); cbn; auto). assert (N32 : c <> 32) by (intros ->; apply (F 32); cbn; auto).
    assert (F' : free ": " p) by (intros d Hd K; apply (F d Hd); now right). pose proof (zlen_nonneg pre).
    cbn [app uri_loop] in E. replace (c =? 58) with false in E by lia. rewrite A in E. change (0 =? 0) with true in E. cbn [negb andb] in E.
    assert (G : forall st1, uri_loop s o (p ++ 58 :: r) (zlen pre + 1) st1 = Ok (e, st') -> auI st1 = 0 -> scheme (pu st') = pre ++ c :: p).
    { intros st1 E1 A1. change (pre ++ c :: p) with (pre ++ [c] ++ p). rewrite app_assoc. apply (IH r (pre ++ [c]) st1 e st'); [|exact A1|exact F'|]; [rewrite Hs, <- app_assoc; reflexivity|].
      rewrite zlen_app. exact E1. }
    destruct (c =? 47).
    { destruct (negb o && (paI st =? 0) && negb (zlen pre =? 0)); [|eapply G; eauto]. destruct (slice_to s (zlen pre)); [|discriminate]. cbn [bind] in E. rewrite ?A in E. eapply G; [exact E|reflexivity]. }
    destruct (c =? 63).
    { destruct (quI st =? 0); [|eapply G; eauto]. destruct (slice s (paI st) (zlen pre)); [|discriminate]. cbn [bind] in E. rewrite ?A in E. eapply G; [exact E|reflexivity]. }
    destruct (c =? 35).
    { destruct (nuI st =? 0); [|eapply G; eauto]. destruct (quI st =? 0).
      - destruct (slice s (paI st) (zlen pre)); [|discriminate]. cbn [bind] in E. rewrite ?A in E. eapply G; [exact E|reflexivity].
      - destruct (slice s (quI st + 1) (zlen pre)); [|discriminate]. cbn [bind] in E. rewrite ?A in E. eapply G; [exact E|reflexivity]. }
    replace (c =? 32) with false in E by lia. eapply G; eauto.
Qed.
Lemma parsed_scheme u p r n u' : hd 0 (p ++ 58 :: r) <> 42 -> free ": " p -> UnmarshalFromString u (p ++ 58 :: r) = Ok (n, u') -> scheme u' = p.
Proof.
  intros H F E. set (s := p ++ 58 :: r) in *. assert (X : exists c t, s = c :: t) by (unfold s; destruct p; cbn; eauto). destruct X as (c & t & X).
  unfold UnmarshalFromString in E. assert (I : idx s 0 = Ok c) by (rewrite X; reflexivity). rewrite I in E. cbn [bind] in E.
  assert (N : c <> 42) by (rewrite X in H; exact H). replace (c =? 42) with false in E by lia. cbv iota in E.
  destruct (uri_loop s (c =? 47) s 0 (Pst 0 0 0 0 u)) as [(e, st)|] eqn:L; [|discriminate]. cbn [bind] in E.
  assert (S : scheme (pu st) = p) by (apply (loop_scheme s (c =? 47) p r [] (Pst 0 0 0 0 u) e st eq_refl eq_refl F L)).
  revert E. destruct ((quI st =? 0) && (nuI st =? 0)) eqn:B1; [destruct (slice s (paI st) e); [|discriminate]|]; cbn [bind];
  (destruct (negb (nuI st =? 0)) eqn:B2; [destruct (slice s (nuI st + 1) e); [|discriminate]|]); cbn [bind];
  (destruct (negb (quI st =? 0) && (nuI st =? 0)) eqn:B3; [destruct (slice s (quI st + 1) e); [|discriminate]|]); cbn [bind];
  (destruct (slice_to s e); [|discriminate]); cbn [bind]; intros [= _ <-]; exact S.
Qed.
Lemma split_colon l : In 58 l -> exists p r, l = p ++ 58 :: r /\ ~ In 58 p.
Proof.
  induction l as [|c l IH]; [contradiction|]. destruct (Z.eq_dec c 58) as [->|N]; [intros _; exists [], l; split; [reflexivity|intros []]|].
  intros [->|I]; [congruence|]. destruct (IH I) as (p & r & -> & Np). exists (c :: p), r. split; [reflexivity|]. intros [->|K]; auto.
Qed.
(** A target of origin form is never read back when a colon is in its path or query: if reading it does not
    panic, all that stands before the first colon is taken for the scheme. *)
Theorem C19_colon_refuted : forall pa qu n u', origin pa qu -> In 58 (pa ++ qu) ->
  UnmarshalFromString new_uri (snd (Marshal (Uri None [] [] pa qu []))) = Ok (n, u') ->
  exists before after, snd (Marshal (Uri None [] [] pa qu [])) = before ++ 58 :: after /\ ~ In 58 before /\ before <> [] /\ scheme u' = before.
Proof.
  intros pa qu n u' (H1 & H2 & H3) I E. set (t := snd (Marshal (Uri None [] [] pa qu []))) in *.
  assert (T : t = pa ++ (if beq qu [] then [] else 63 :: qu)).
  { unfold t, Marshal. cbn [raw marshalTo snd app]. unfold uri_text. cbn [scheme authority path query beq app]. destruct pa as [|c pa]; [cbn in H1; lia|]. reflexivity. }
  assert (It : In 58 t). { rewrite T. apply in_app_iff in I. apply in_app_iff. destruct I as [I|I]; [now left|right]. destruct (beq qu []) eqn:Q; [apply beq_eq in Q; subst qu; contradiction|now right]. }
  destruct (split_colon t It) as (p & r & Et & Np). exists p, r. split; [exact Et|]. split; [exact Np|].
  assert (Hh : hd 0 t = 47) by (rewrite T; destruct pa; [cbn in H1; lia|exact H1]).
  assert (Sp : ~ In 32 t). { rewrite T. intros K. apply in_app_iff in K. destruct K as [K|K]; [apply (H2 32) in K; [exact K|cbn; auto]|]. destruct (beq qu []); [contradiction|]. destruct K as [K|K]; [lia|]. apply (H3 32) in K; [exact K|cbn; auto]. }
  split; [intros ->; rewrite Et in Hh; cbn in Hh; lia|].
  rewrite Et in E. refine (parsed_scheme new_uri p r n u' _ _ E); [rewrite <- Et, Hh; lia|].
  intros d Hd K. cbn in Hd. destruct Hd as [<-|[<-|[]]]; [exact (Np K)|]. apply Sp. rewrite Et. apply in_app_iff. now left.
Qed.
Print Assumptions C19_colon_refuted.
(** So reading back gives the components exactly when there is no colon. *)
Theorem C19_origin_exact_partial : forall pa qu, origin pa qu ->
  (exists n u', UnmarshalFromString new_uri (snd (Marshal (Uri None [] [] pa qu []))) = Ok (n, u') /\
     scheme u' = [] /\ authority u' = [] /\ path u' = pa /\ query u' = qu /\ fragment u' = []) <-> ~ In 58 (pa ++ qu).
Proof.
  intros pa qu O. split.
  - intros (n & u' & E & S & _) I. destruct (C19_colon_refuted pa qu n u' O I E) as (b & a & _ & _ & N & Sb). congruence.
  - intros N. destruct (C19_origin_partial pa qu [] O) as (u' & E & R); [| |now left|].
    + intros d Hd K. cbn in Hd. destruct Hd as [<-|[]]. apply N, in_app_iff. now left.
    + intros d Hd K. cbn in Hd. destruct Hd as [<-|[]]. apply N, in_app_iff. now right.
    + rewrite app_nil_r in E. eauto.
Qed.
Print Assumptions C19_origin_exact_partial.
Example C19_colon_nonvacuous : origin (str "/x"%string) (str "at=10:30"%string) /\ In 58 (str "/xat=10:30"%string) /\
  exists n u', UnmarshalFromString new_uri (snd (Marshal (Uri None [] [] (str "/x"%string) (str "at=10:30"%string) []))) = Ok (n, u') /\ scheme u' = str "/x?at=10"%string.
Proof.
  split; [unfold origin, free; repeat split; intros c Hc K; cbn in Hc, K; lia|]. split; [vm_compute; tauto|]. eexists. eexists. split; [vm_compute; reflexivity|reflexivity].
Qed.

(** * C63 *)
(** A setting of a query, name=value or a name alone, and what it stands for *)
Definition setting (s k v : bytes) : Prop := exists a b, (s = a ++ [61] ++ b \/ s = a /\ b = []) /\ ~ In 61 a /\
  allowed QueryComponent a /\ denotes QueryComponent a k /\ allowed QueryComponent b /\ denotes QueryComponent b v.
Definition accepted (s k v : bytes) : Prop := ~ In 58 s /\ setting s k v.
(** a query text, its settings with ampersands between them *)
Fixpoint query_text (l : list bytes) : bytes := match l with [] => [] | [s] => s | s :: l => s ++ [38] ++ query_text l end.
(** the pairs of the accepted settings, in order; those that are empty or not accepted give none *)
Inductive pairs_of : list bytes -> list (bytes * bytes) -> Prop :=
| pn : pairs_of [] []
| pa s k v l ps : s <> [] -> accepted s k v -> pairs_of l ps -> pairs_of (s :: l) ((k, v) :: ps)
| pk s l ps : s = [] \/ (forall k v, ~ accepted s k v) -> pairs_of l ps -> pairs_of (s :: l) ps.
Lemma cut_at s c : exists a b, CutByte s c = (a, b) /\ ~ In c a /\ (s = a ++ [c] ++ b \/ s = a /\ b = []).
Proof.
  induction s as [|x s IH]; [exists [], []; cbn; auto|]. cbn [CutByte]. destruct (Z.eqb_spec x c) as [->|N]; [exists [], s; cbn; auto|].
  destruct IH as (a & b & -> & Na & E). exists (x :: a), b. split; [reflexivity|]. split; [intros [->|K]; auto|]. destruct E as [->|(-> & ->)]; auto.
Qed.
Lemma cut_unique s c a b : ~ In c a -> s = a ++ [c] ++ b \/ s = a /\ b = [] -> CutByte s c = (a, b).
Proof. intros N [->|(-> & ->)]; [now apply cut_app|now apply cut_none]. Qed.
Lemma has_byte_in s c : has_byte s c = true <-> In c s.
Proof.
  assert (P : forall l, -1 <= index_byte l c) by (induction l as [|x l IH]; cbn [index_byte]; [lia|]; destruct (x =? c); [lia|]; destruct (index_byte l c =? -1) eqn:E; lia).
  unfold has_byte. induction s as [|x s IH]; [cbn; split; [discriminate|contradiction]|]. cbn [index_byte In]. specialize (P s). destruct (Z.eqb_spec x c) as [->|N]; [split; [auto|reflexivity]|].
  destruct (Z.eqb_spec (index_byte s c) (-1)) as [M|M].
  - rewrite M in IH. split; [discriminate|]. intros [K|K]; [congruence|]. now apply IH in K.
  - split; intros _; [right; apply IH; lia|lia].
Qed.
Lemma unescape_iff s t : wf_bytes s -> Unescape s QueryComponent = Ok (inr t) <-> allowed QueryComponent s /\ denotes QueryComponent s t.
Proof. intros W. apply C18_unescape_exact. exact W. Qed.
Definition err_after (err : option qerr) (s : bytes) (bad : option uerr) : option qerr :=
  if has_byte s 58 then Some ErrQueryBadKey else match bad, err with Some e, None => Some (ErrEscape e) | _, _ => err end.
Lemma step_setting f s rest q err : wf_bytes s -> ~ In 38 s -> s <> [] -> forall text, text = s ++ [38] ++ rest \/ text = s /\ rest = [] ->
  (exists k v, accepted s k v /\ qparse (S f) text q err = qparse f rest (QAdd q k v) err) \/
  ((forall k v, ~ accepted s k v) /\ exists bad, (has_byte s 58 = false -> bad <> None) /\ qparse (S f) text q err = qparse f rest q (err_after err s bad)).
Proof.
  intros W N NE text T. cbn [qparse]. assert (NT : beq text [] = false).
  { destruct (beq text []) eqn:B; [|reflexivity]. apply beq_eq in B. subst text. destruct T as [T|(T & _)]; [destruct s; discriminate|subst s; contradiction]. }
  rewrite NT, (cut_unique text 38 s rest N T). assert (NS : beq s [] = false) by (destruct (beq s []) eqn:B; [apply beq_eq in B; contradiction|reflexivity]). rewrite NS.
  destruct (has_byte s 58) eqn:HB.
  { right. apply has_byte_in in HB as I. split; [intros k v (K & _); contradiction|]. exists None. split; [discriminate|]. unfold err_after. now rewrite HB. }
  assert (NC : ~ In 58 s) by (intros K; apply has_byte_in in K; congruence).
  destruct (cut_at s 61) as (a & b & C & Na & E). rewrite C. destruct (cut_wf _ _ _ _ W C) as (Wa & Wb).
  assert (U : forall k v, accepted s k v -> Unescape a QueryComponent = Ok (inr k) /\ Unescape b QueryComponent = Ok (inr v)).
  { intros k v (_ & a' & b' & E' & Na' & A1 & D1 & A2 & D2). pose proof (cut_unique s 61 a' b' Na' E') as C'. rewrite C in C'. injection C' as <- <-. split; apply unescape_iff; auto. }
  destruct (Unescape_total QueryComponent a Wa) as ([e|k] & Ua); rewrite Ua.
  { right. split; [intros k v Ac; destruct (U k v Ac); congruence|]. exists (Some e). split; [discriminate|]. unfold err_after. rewrite HB. destruct err; reflexivity. }
  destruct (Unescape_total QueryComponent b Wb) as ([e|v] & Ub); rewrite Ub.
  { right. split; [intros k' v Ac; destruct (U k' v Ac); congruence|]. exists (Some e). split; [discriminate|]. unfold err_after. rewrite HB. destruct err; reflexivity. }
  left. exists k, v. split; [|reflexivity]. split; [exact NC|]. exists a, b. apply unescape_iff in Ua; [|exact Wa]. apply unescape_iff in Ub; [|exact Wb]. tauto.
Qed.
Lemma qadd_vals q k v n : qvals (QAdd q k v) n = qvals q n ++ (if list_eq_dec Z.eq_dec k n then [v] else []).
Proof. unfold QAdd, qvals. rewrite qfind_put. destruct (list_eq_dec Z.eq_dec k n) as [->|N]; [reflexivity|now rewrite app_nil_r]. Qed.
Definition named (n : bytes) (ps : list (bytes * bytes)) : list bytes := flat_map (fun p => if list_eq_dec Z.eq_dec (fst p) n then [snd p] else []) ps.
Lemma parse_settings : forall l fuel q err, Forall (fun s => wf_bytes s /\ ~ In 38 s) l -> (length (query_text l) < fuel)%nat ->
  exists e q' ps, qparse fuel (query_text l) q err = Some (Ok (e, q')) /\ pairs_of l ps /\ (forall n, qvals q' n = qvals q n ++ named n ps) /\
    (e = None <-> err = None /\ Forall (fun s => s = [] \/ exists k v, accepted s k v) l) /\
    (e = Some ErrQueryBadKey <-> err = Some ErrQueryBadKey \/ exists s, In s l /\ In 58 s).
Proof.
  induction l as [|s l IH]; intros fuel q err F L.
  - destruct fuel; [cbn in L; lia|]. cbn. exists err, q, []. repeat split; auto; try constructor; try tauto; [intros n; now rewrite app_nil_r|].
    intros [H|(s & [] & _)]. exact H.
  - inversion F as [|? ? (W & N) F']; subst. destruct fuel as [|f]; [cbn in L; lia|].
    destruct s as [|s0 s].
    { destruct l as [|s1 l].
      - cbn. exists err, q, []. split; [reflexivity|]. split; [apply pk; [now left|constructor]|]. split; [intros n; now rewrite app_nil_r|]. split; [split; [intros ->; auto|tauto]|].
        split; [auto|]. intros [H|(x & [<-|[]] & [])]. exact H.
      - assert (J : query_text ([] :: s1 :: l) = 38 :: query_text (s1 :: l)) by reflexivity. rewrite J in *. cbn [length] in L.
        destruct (IH f q err F' ltac:(lia)) as (e & q' & ps & E & P & V & X & Y). exists e, q', ps.
        split; [exact E|]. split; [apply pk; auto|]. split; [exact V|]. split.
        + rewrite X. split; [intros (? & ?); split; [assumption|constructor; auto]|]. intros (? & H). inversion H; auto.
        + rewrite Y. split; (intros [H|(x & Ix & Cx)]; [now left|right]); [exists x; split; [now right|exact Cx]|]. destruct Ix as [<-|Ix]; [contradiction|eauto]. }
    set (rest := match l with [] => [] | _ => query_text l end).
    assert (T : query_text ((s0 :: s) :: l) = (s0 :: s) ++ [38] ++ rest \/ query_text ((s0 :: s) :: l) = s0 :: s /\ rest = []) by (unfold rest; destruct l; [right; split; reflexivity|left; reflexivity]).
    assert (R : rest = query_text l) by (unfold rest; destruct l; reflexivity).
    assert (Lf : (length (query_text l) < f)%nat). { rewrite <- R. destruct T as [T|(T & T2)]; [rewrite T in L; cbn [app length] in L; rewrite app_length in L; cbn [length] in L; lia|rewrite T2; rewrite T in L; cbn [length] in *; lia]. }
    destruct (step_setting f (s0 :: s) rest q err W N ltac:(discriminate) _ T) as [(k & v & Ac & E)|(Na & bad & Nb & E)]; rewrite E, R.
    + destruct (IH f (QAdd q k v) err F' Lf) as (e & q' & ps & E1 & P & V & X & Y). exists e, q', ((k, v) :: ps).
      split; [exact E1|]. split; [apply pa; [discriminate|exact Ac|exact P]|]. split; [intros n; rewrite V, qadd_vals, <- app_assoc; reflexivity|]. split.
      * rewrite X. split; [intros (? & ?); split; [assumption|constructor; [right; eauto|assumption]]|]. intros (? & H). inversion H; auto.
      * rewrite Y. split; (intros [H|(x & Ix & Cx)]; [now left|right]); [exists x; split; [now right|exact Cx]|]. destruct Ix as [<-|Ix]; [destruct Ac as (Nc & _); contradiction|eauto].
    + destruct (IH f q (err_after err (s0 :: s) bad) F' Lf) as (e & q' & ps & E1 & P & V & X & Y). exists e, q', ps.
      split; [exact E1|]. split; [apply pk; [now right|exact P]|]. split; [exact V|]. unfold err_after in X, Y. destruct (has_byte (s0 :: s) 58) eqn:HB.
      * split.
        { rewrite X. split; [intros (? & _); discriminate|]. intros (_ & H). inversion H as [|? ? [?|(k & v & Ac)] _]; [discriminate|]. now apply Na in Ac. }
        { apply has_byte_in in HB. rewrite Y. split; [intros _; right; exists (s0 :: s); split; [now left|exact HB]|]. intros _. now left. }
      * assert (NC : ~ In 58 (s0 :: s)) by (intros K; apply has_byte_in in K; congruence). specialize (Nb eq_refl). destruct bad as [b|]; [|contradiction]. split.
        { rewrite X. split; [intros (? & _); destruct err; discriminate|]. intros (_ & H). inversion H as [|? ? [?|(k & v & Ac)] _]; [discriminate|]. now apply Na in Ac. }
        { rewrite Y. split.
          - intros [H|(x & Ix & Cx)]; [left; destruct err; [exact H|discriminate]|right; exists x; split; [now right|exact Cx]].
          - intros [H|(x & Ix & Cx)]; [left; rewrite H; reflexivity|right]. destruct Ix as [<-|Ix]; [contradiction|eauto]. }
Qed.
(** For every query text, as the settings between its ampersands: the pairs of the accepted settings are
    added in order and nothing else is, there is an error exactly when a setting is neither empty nor
    accepted, and it is the error of a bad key exactly when a setting has a colon in it. *)
Theorem C63_exact_partial : forall l q, Forall (fun s => wf_bytes s /\ ~ In 38 s) l ->
  exists e q' ps, QFromString (query_text l) q = Some (Ok (e, q')) /\ pairs_of l ps /\ (forall n, qvals q' n = qvals q n ++ named n ps) /\
    (e = None <-> Forall (fun s => s = [] \/ exists k v, accepted s k v) l) /\ (e = Some ErrQueryBadKey <-> exists s, In s l /\ In 58 s).
Proof.
  intros l q F. destruct (parse_settings l (S (length (query_text l))) q None F ltac:(lia)) as (e & q' & ps & E & P & V & X & Y).
  exists e, q', ps. split; [exact E|]. split; [exact P|]. split; [exact V|]. split; [rewrite X; tauto|]. rewrite Y. split; [intros [?|?]; [discriminate|assumption]|auto].
Qed.
Print Assumptions C63_exact_partial.
(** Every query text is made of such settings. *)
Theorem C63_every_text : forall text, exists l, query_text l = text /\ Forall (fun s => ~ In 38 s) l.
Proof.
  induction text as [|c t (l & E & F)]; [exists []; split; [reflexivity|constructor]|]. destruct (Z.eq_dec c 38) as [->|N].
  - destruct l as [|s l]; [exists [[]; []]; split; [cbn in E; subst t; reflexivity|repeat constructor; auto]|]. exists ([] :: s :: l). split; [cbn [query_text app]; f_equal; exact E|constructor; [intros []|exact F]].
  - destruct l as [|s l]; [exists [[c]]; split; [cbn in E; subst t; reflexivity|repeat constructor; intros [K|[]]; congruence]|].
    inversion F; subst. exists ((c :: s) :: l). split; [destruct l; reflexivity|]. constructor; [|assumption]. intros [K|K]; [congruence|contradiction].
Qed.
Print Assumptions C63_every_text.
(** So a setting with a semicolon is taken like any other, *)
Theorem C63_semicolons_refuted : forall s k v, wf_bytes s -> ~ In 38 s -> accepted s k v -> In 59 s ->
  exists q, QFromString s [] = Some (Ok (None, q)) /\ qvals q k = [v].
Proof.
  intros s k v W N A I. destruct (C63_exact_partial [s] []) as (e & q & ps & E & P & V & X & _); [repeat constructor; auto|].
  assert (e = None) as -> by (apply X; constructor; [right; eauto|constructor]). exists q. split; [exact E|].
  inversion P as [|? k' v' ? ps' NE A' P'|? ? ? H P']; subst; inversion P'; subst.
  - rewrite V. destruct A as (_ & a & b & E1 & N1 & A1 & D1 & A2 & D2). destruct A' as (_ & a' & b' & E2 & N2 & A3 & D3 & A4 & D4).
    pose proof (cut_unique s 61 a b N1 E1) as C1. pose proof (cut_unique s 61 a' b' N2 E2) as C2. rewrite C1 in C2. injection C2 as <- <-.
    destruct (cut_wf _ _ _ _ W C1) as (Wa & Wb).
    assert (Ok (@inr uerr bytes k) = Ok (inr k')) as [= <-] by (rewrite <- (proj2 (unescape_iff a k Wa) (conj A1 D1)); apply unescape_iff; auto).
    assert (Ok (@inr uerr bytes v) = Ok (inr v')) as [= <-] by (rewrite <- (proj2 (unescape_iff b v Wb) (conj A2 D2)); apply unescape_iff; auto).
    cbn [named flat_map fst snd app]. destruct (list_eq_dec Z.eq_dec k k); [reflexivity|congruence].
  - destruct H as [->|H]; [contradiction|]. now apply H in A.
Qed.
Print Assumptions C63_semicolons_refuted.
(** and one with a colon, which queries may have, is left out. *)
Theorem C63_colons_refuted : forall s q, wf_bytes s -> ~ In 38 s -> In 58 s ->
  exists q', QFromString s q = Some (Ok (Some ErrQueryBadKey, q')) /\ forall n, qvals q' n = qvals q n.
Proof.
  intros s q W N I. destruct (C63_exact_partial [s] q) as (e & q' & ps & E & P & V & _ & Y); [repeat constructor; auto|].
  assert (e = Some ErrQueryBadKey) as -> by (apply Y; exists s; split; [now left|exact I]). exists q'. split; [exact E|]. intros n. rewrite V.
  inversion P as [|? k' v' ? ps' NE (A' & _) P'|? ? ? H P']; subst; inversion P'; subst; [contradiction|]. apply app_nil_r.
Qed.
Print Assumptions C63_colons_refuted.
Lemma plain_text t : Forall (fun c => c <> 37 /\ c <> 43) t -> allowed QueryComponent t /\ denotes QueryComponent t t.
Proof. induction 1 as [|c t (A & B) _ (IH1 & IH2)]; [split; constructor|]. split; [apply al_byte; cbn; auto|]. apply de_byte; auto. intros (_ & ?). auto. Qed.
Example C63_exact_nonvacuous : Forall (fun s => wf_bytes s /\ ~ In 38 s) [str "a=1;b"%string; []; str "t=1:2"%string; str "c"%string] /\
  accepted (str "a=1;b"%string) (str "a"%string) (str "1;b"%string) /\ accepted (str "c"%string) (str "c"%string) [] /\
  exists q, QFromString (str "a=1;b&&t=1:2&c"%string) [] = Some (Ok (Some ErrQueryBadKey, q)) /\ q = [(str "a"%string, [str "1;b"%string]); (str "c"%string, [[]])].
Proof.
  split; [repeat constructor; cbn; unfold is_byte; lia|]. split; [|split].
  - split; [cbn; lia|]. exists (str "a"%string), (str "1;b"%string). split; [left; reflexivity|]. split; [cbn; lia|].
    destruct (plain_text (str "a"%string)) as (? & ?); [repeat constructor; cbn; lia|]. destruct (plain_text (str "1;b"%string)) as (? & ?); [repeat constructor; cbn; lia|]. auto.
  - split; [cbn; lia|]. exists (str "c"%string), []. split; [right; auto|]. split; [cbn; lia|]. destruct (plain_text (str "c"%string)) as (? & ?); [repeat constructor; cbn; lia|]. repeat split; auto; constructor.
  - eexists. split; vm_compute; reflexivity.
Qed.

(** * C64 *)
(** After a target was read, written or reset, its text no longer follows its components. *)
Theorem C64_stale_refuted : forall u t s a p q f packet, raw u = Some t ->
  snd (Marshal (Set_ u s a p q f)) = t /\ snd (Marshal (SetPath u p)) = t /\ snd (MarshalTo (Set_ u s a p q f) packet) = packet ++ t.
Proof. intros u t s a p q f packet H. unfold Marshal, MarshalTo. cbn [Set_ SetPath raw]. rewrite H. auto. Qed.
Print Assumptions C64_stale_refuted.
Theorem C64_when_stale_refuted : forall u, raw (fst (Marshal u)) <> None /\ raw (Reinit u) = Some [] /\
  forall s n u', UnmarshalFromString u s = Ok (n, u') -> raw u' = Some (firstn (Z.to_nat n) s).
Proof.
  intros u. split; [unfold Marshal; destruct (raw u) eqn:R; cbn; congruence|]. split; [reflexivity|].
  intros s n u' E. unfold UnmarshalFromString in E. destruct (idx s 0); [|discriminate]. cbn [bind] in E.
  match type of E with (let! r := ?X in _) = _ => destruct X as [(e, u1)|]; [|discriminate] end. cbn [bind] in E.
  destruct (slice_to s e) as [t|] eqn:S; [|discriminate]. cbn [bind] in E. injection E as <- <-. cbn [raw].
  unfold slice_to, slice in S. destruct ((0 <=? 0) && (0 <=? e) && (e <=? zlen s)) eqn:B; [|discriminate]. injection S as <-. rewrite Z.sub_0_r. reflexivity.
Qed.
Print Assumptions C64_when_stale_refuted.
Example C64_stale_nonvacuous : exists n u, UnmarshalFromString new_uri (str "/a?b"%string) = Ok (n, u) /\ raw u = Some (str "/a?b"%string) /\ snd (Marshal (SetPath u (str "/c"%string))) = str "/a?b"%string.
Proof. eexists. eexists. split; [vm_compute; reflexivity|]. split; vm_compute; reflexivity. Qed.

(** * C66 *)
Lemma index_at_byte a c b : ~ In c a -> index_byte (a ++ c :: b) c = zlen a.
Proof.
  induction a as [|x a IH]; intros N; cbn [app index_byte]; [now rewrite Z.eqb_refl|]. destruct (Z.eqb_spec x c) as [->|Nx]; [exfalso; apply N; now left|].
  rewrite IH by (intros K; apply N; now right). rewrite zlen_cons. pose proof (zlen_nonneg a). replace (zlen a =? -1) with false by lia. lia.
Qed.
(** With a user part the host and port never are those of the text: with a password they are the user and
    the password with the at sign, without one the user with the at sign and nothing. *)
Theorem C66_user_refuted : forall user pass rest, user <> [] -> ~ In 64 user -> ~ In 58 user -> ~ In 64 pass ->
  AuthorityInit (user ++ [58] ++ pass ++ [64] ++ rest) = Ok (user, pass ++ [64], user, pass) /\
  AuthorityInit (user ++ [64] ++ rest) = Ok (user ++ [64], [], user, []).
Proof.
  intros user pass rest NE N1 N2 N3. unfold AuthorityInit.
  assert (G : forall ui, ui <> [] -> ~ In 64 ui -> beq (ui ++ 64 :: rest) [] = false /\ index_byte (ui ++ 64 :: rest) 64 = zlen ui /\ 0 < zlen ui /\
    slice_to (ui ++ 64 :: rest) (zlen ui) = Ok ui /\ slice_to (ui ++ 64 :: rest) (zlen ui + 1) = Ok (ui ++ [64])).
  { intros ui Nu Ni. split; [destruct ui; [contradiction|reflexivity]|]. split; [now apply index_at_byte|]. split; [destruct ui; [contradiction|rewrite zlen_cons; pose proof (zlen_nonneg ui); lia]|].
    split; [now apply slice_to_mid|]. change (ui ++ 64 :: rest) with (ui ++ [64] ++ rest). rewrite app_assoc. apply slice_to_mid. rewrite zlen_app. reflexivity. }
  split.
  - destruct (G (user ++ 58 :: pass)) as (B & I & P & S1 & S2); [destruct user; discriminate|intros K; apply in_app_iff in K; destruct K as [K|[K|K]]; [auto|lia|auto]|].
    replace (user ++ [58] ++ pass ++ [64] ++ rest) with ((user ++ 58 :: pass) ++ 64 :: rest) by (rewrite <- app_assoc; reflexivity).
    rewrite B, I. replace (0 <? zlen (user ++ 58 :: pass)) with true by lia. cbv zeta. rewrite S1. cbn [bind]. rewrite S2. cbn [bind]. rewrite (cut_app user 58 pass N2).
    rewrite <- app_assoc. cbn [app]. rewrite (cut_app user 58 (pass ++ [64]) N2). reflexivity.
  - destruct (G user NE N1) as (B & I & P & S1 & S2). change (user ++ [64] ++ rest) with (user ++ 64 :: rest). rewrite B, I. replace (0 <? zlen user) with true by lia. cbv zeta. rewrite S1. cbn [bind]. rewrite S2. cbn [bind]. rewrite (cut_none user 58 N2).
    rewrite (cut_none (user ++ [64]) 58); [reflexivity|]. intros K. apply in_app_iff in K. destruct K as [K|[K|[]]]; [auto|lia].
Qed.
Print Assumptions C66_user_refuted.
Example C66_user_nonvacuous : AuthorityInit (str "me:pw@host:80"%string) = Ok (str "me"%string, str "pw@"%string, str "me"%string, str "pw"%string) /\ AuthorityInit (str "me@host"%string) = Ok (str "me@"%string, [], str "me"%string, []).
Proof. split; vm_compute; reflexivity. Qed.
