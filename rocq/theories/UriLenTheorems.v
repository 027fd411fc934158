(** C168 the length a target announces, C169 reading a target into an object already used. *)
From Coq Require Import String ZifyBool ZifyNat.
From Verif Require Import Go GoFacts EscapeModel EscapeSpec EscapeProofs UriModel UriSpec UriProofs UriProofs2 UriProofs3 UriTheorems.
Import ListNotations.
Local Open Scope Z_scope.
Local Open Scope list_scope.

(** * C168 *)
Lemma beq_nil s : beq s [] = match s with [] => true | _ => false end.
Proof. destruct s; reflexivity. Qed.
Definition nonempty (s : bytes) : Z := match s with [] => 0 | _ => 1 end.
Lemma text_length u : zlen (uri_text u) =
  zlen (scheme u) + 3 * nonempty (scheme u) + zlen (authority u) + zlen (path u) + (1 - nonempty (path u)) + zlen (query u) + nonempty (query u).
Proof.
  unfold uri_text. rewrite !beq_nil, !zlen_app. destruct (scheme u), (path u), (query u); cbn [nonempty];
    rewrite ?zlen_app, ?zlen_cons; change (zlen (str "://"%string)) with 3; change (zlen (str "/"%string)) with 1; change (zlen (str "?"%string)) with 1; change (zlen (@nil Z)) with 0; lia.
Qed.

(** Once the text is there and is not empty, Len is its length, before and after writing it. *)
Theorem C168_kept_partial : forall u t, raw u = Some t -> t <> [] -> Len u = zlen (snd (Marshal u)) /\ Len (fst (Marshal u)) = Len u.
Proof.
  intros u t R N. unfold Marshal, Len. rewrite R. cbn [fst snd]. rewrite R. destruct t; [easy|]. rewrite zlen_cons. pose proof (zlen_nonneg t).
  replace (zlen t + 1 =? 0) with false by lia. replace (1 + zlen t =? 0) with false by lia. auto.
Qed.
Print Assumptions C168_kept_partial.
(** Once a target was written, Len is the length of what was written. *)
Theorem C168_written_partial : forall u packet, raw u = None ->
  exists t, snd (MarshalTo u packet) = packet ++ t /\ Len (fst (MarshalTo u packet)) = zlen t /\ snd (Marshal u) = t /\ Len (fst (Marshal u)) = zlen t.
Proof.
  intros u packet R. exists (uri_text u). unfold MarshalTo, Marshal. rewrite R. cbn [marshalTo fst snd app].
  assert (P : 0 < zlen (uri_text u)).
  { rewrite text_length. pose proof (zlen_nonneg (scheme u)). pose proof (zlen_nonneg (authority u)). pose proof (zlen_nonneg (path u)). pose proof (zlen_nonneg (query u)).
    destruct (path u) eqn:E; destruct (scheme u), (query u); cbn [nonempty]; rewrite ?zlen_cons in *; try lia; pose proof (zlen_nonneg l); lia. }
  unfold Len. cbn [raw]. replace (zlen (uri_text u) =? 0) with false by lia. auto.
Qed.
Print Assumptions C168_written_partial.
(** Before that, Len is exact in just these cases, and too small by one byte for every target with a scheme
    and a query but no path and no fragment. *)
Theorem C168_fresh_exact_partial : forall u, raw u = None ->
  Len u - zlen (snd (Marshal u)) = 3 * (1 - nonempty (scheme u)) + nonempty (path u) - nonempty (query u) + zlen (fragment u) /\
  (Len u = zlen (snd (Marshal u)) <->
     (scheme u <> [] /\ path u = [] /\ query u = [] /\ fragment u = []) \/
     (scheme u <> [] /\ path u <> [] /\ query u <> [] /\ fragment u = []) \/
     (scheme u <> [] /\ path u = [] /\ query u <> [] /\ zlen (fragment u) = 1)).
Proof.
  intros u R. unfold Marshal, Len. rewrite R. change (0 =? 0) with true. cbn [marshalTo snd app]. rewrite text_length. unfold ulen.
  pose proof (zlen_nonneg (fragment u)). split; [lia|].
  assert (F : zlen (fragment u) = 0 <-> fragment u = []).
  { destruct (fragment u) as [|c l]; [split; auto|]. rewrite zlen_cons. pose proof (zlen_nonneg l). split; [lia|discriminate]. }
  destruct (scheme u) as [|sc scs], (path u) as [|pc pcs], (query u) as [|qc qcs]; cbn [nonempty];
    (split; [intros X|intros X; decompose [or and] X; clear X; try congruence]); 
    try (exfalso; lia); try (left; repeat split; try discriminate; apply F; lia); try (right; left; repeat split; try discriminate; apply F; lia);
    try (right; right; repeat split; try discriminate; lia);
    repeat match goal with H : fragment u = [] |- _ => apply F in H end; lia.
Qed.
Print Assumptions C168_fresh_exact_partial.
Theorem C168_short_refuted : forall sc au qu, sc <> [] -> qu <> [] ->
  Len (Uri None sc au [] qu []) = zlen (snd (Marshal (Uri None sc au [] qu []))) - 1.
Proof.
  intros sc au qu S Q. destruct (C168_fresh_exact_partial (Uri None sc au [] qu []) eq_refl) as (E & _). cbn [scheme path query fragment] in E.
  destruct sc; [easy|]. destruct qu; [easy|]. cbn [nonempty] in E. change (zlen (@nil Z)) with 0 in E. lia.
Qed.
Print Assumptions C168_short_refuted.
(** After a reset every target announces at least four bytes and is written as none. *)
Theorem C168_reset_refuted : forall u s a p q f packet,
  let v := Set_ (Reinit u) s a p q f in
  4 <= Len v /\ snd (Marshal v) = [] /\ snd (MarshalTo v packet) = packet.
Proof.
  intros u s a p q f packet v. unfold v, Len, ulen, Marshal, MarshalTo. cbn [Reinit Set_ raw scheme authority path query fragment snd]. change (zlen (@nil Z) =? 0) with true. cbv iota.
  pose proof (zlen_nonneg s). pose proof (zlen_nonneg a). pose proof (zlen_nonneg p). pose proof (zlen_nonneg q). pose proof (zlen_nonneg f).
  rewrite app_nil_r. repeat split; lia.
Qed.
Print Assumptions C168_reset_refuted.
Example C168_nonvacuous : Len (Uri None (str "https"%string) (str "a.b"%string) [] (str "q"%string) []) = 13 /\
  snd (Marshal (Uri None (str "https"%string) (str "a.b"%string) [] (str "q"%string) [])) = str "https://a.b/?q"%string /\
  Len (Uri None [] [] (str "/x"%string) [] []) = 6 /\
  Len (Uri (Some (str "/x"%string)) [] [] (str "/x"%string) [] []) = 2.
Proof. repeat split; vm_compute; reflexivity. Qed.

(** * C169 *)
(** Whatever is read, in whatever object: what was read and what is given back are the data, and what was
    read is what Marshal writes. *)
Theorem C169_split : forall u s u' rest, UnmarshalFrom u s = Ok (u', rest) ->
  exists t, s = t ++ rest /\ snd (Marshal u') = t /\ UnmarshalFromString u s = Ok (zlen t, u').
Proof.
  intros u s u' rest E. unfold UnmarshalFrom in E. destruct (UnmarshalFromString u s) as [(n, v)|] eqn:P; [|discriminate]. cbn [bind fst snd] in E.
  destruct (slice s n (zlen s)) as [r|] eqn:SL; [|discriminate]. cbn [bind] in E. injection E as <- <-.
  unfold UnmarshalFromString in P. destruct (idx s 0); [|discriminate]. cbn [bind] in P.
  match type of P with (let! r := ?X in _) = _ => destruct X as [(e, u1)|]; [|discriminate] end. cbn [bind] in P.
  destruct (slice_to s e) as [t|] eqn:ST; [|discriminate]. cbn [bind] in P. injection P as -> P.
  unfold slice_to, slice in ST. destruct ((0 <=? 0) && (0 <=? n) && (n <=? zlen s)) eqn:B; [|discriminate]. injection ST as ST. rewrite Z.sub_0_r in ST.
  unfold slice in SL. destruct ((0 <=? n) && (n <=? zlen s) && (zlen s <=? zlen s)) eqn:B2; [|discriminate]. injection SL as SL.
  assert (R : r = skipn (Z.to_nat n) s).
  { rewrite <- SL. apply firstn_all2. rewrite skipn_length. unfold zlen in *. lia. }
  cbn [Z.to_nat skipn] in ST.
  exists t. split; [rewrite <- ST, R; symmetry; apply firstn_skipn|]. split; [rewrite <- P; reflexivity|].
  replace (zlen t) with n; [reflexivity|]. rewrite <- ST. unfold zlen in *. rewrite firstn_length. lia.
Qed.
Print Assumptions C169_split.
(** The request target of a request line: a path and a query without colons, read into any object:
    both are there and the rest of the line is given back. *)
Theorem C169_line_partial : forall u pa qu rest, origin pa qu -> free ":" pa -> free ":" qu -> qu <> [] ->
  exists u', UnmarshalFrom u (pa ++ 63 :: qu ++ 32 :: rest) = Ok (u', 32 :: rest) /\ path u' = pa /\ query u' = qu /\
    scheme u' = scheme u /\ authority u' = authority u /\ fragment u' = fragment u.
Proof.
  intros u pa qu rest (H4 & H5 & H6) C1 C2 Q. destruct pa as [|c pa']; [cbn in H4; lia|]. cbn [hd] in H4. subst c.
  assert (Fp : free "?# " pa') by (intros d Hd K; apply (H5 d Hd); now right).
  assert (Fc : free ":" pa') by (intros d Hd K; apply (C1 d Hd); now right).
  assert (TO : tail_ok pa' (Some qu) None) by (split; [assumption|split; [exact H6|split; [intros d _ []|intros _ d _ []]]]).
  assert (EN : ends (32 :: rest)) by (right; eauto).
  pose proof (parse_origin u pa' (Some qu) None (32 :: rest) TO Fc C2 ltac:(intros d _ []) EN) as P.
  assert (T : text_after pa' (Some qu) None (32 :: rest) = (47 :: pa') ++ 63 :: qu ++ 32 :: rest).
  { unfold text_after. cbn [opt_text app]. reflexivity. }
  assert (K : consumed [] pa' (Some qu) None = (47 :: pa') ++ 63 :: qu).
  { unfold consumed. cbn [opt_text app]. rewrite ?app_nil_r. reflexivity. }
  rewrite T, K in P. eexists. split.
  { unfold UnmarshalFrom. rewrite P. cbn [bind fst snd].
    replace ((47 :: pa') ++ 63 :: qu ++ 32 :: rest) with (((47 :: pa') ++ 63 :: qu) ++ (32 :: rest) ++ []) by (rewrite app_nil_r, <- app_assoc; reflexivity).
    rewrite slice_mid; [cbn [bind]; reflexivity|reflexivity|]. rewrite !zlen_app. change (zlen (@nil Z)) with 0. lia. }
  cbn [path query scheme authority fragment opt_or]. auto.
Qed.
Print Assumptions C169_line_partial.
(** A target without a query read into an object that was used keeps the old query, scheme, authority and
    fragment, and its text no longer is that of its components; the asterisk keeps all components. *)
Theorem C169_leftover_refuted : forall u pa, hd 0 pa = 47 -> free "?# :" pa ->
  exists u', UnmarshalFrom u pa = Ok (u', []) /\ path u' = pa /\ query u' = query u /\ scheme u' = scheme u /\ authority u' = authority u /\ fragment u' = fragment u /\
    snd (Marshal u') = pa /\ (query u <> [] -> uri_text u' <> pa).
Proof.
  intros u pa H4 H5. destruct pa as [|c pa']; [cbn in H4; lia|]. cbn [hd] in H4. subst c.
  assert (Fp : free "?# " pa') by (intros d Hd K; apply (H5 d); [cbn in Hd |- *; tauto|now right]).
  assert (Fc : free ":" pa') by (intros d Hd K; apply (H5 d); [cbn in Hd |- *; tauto|now right]).
  assert (TO : tail_ok pa' None None) by (split; [assumption|split; [intros d _ []|split; [intros d _ []|intros _ d _ []]]]).
  assert (EN : ends []) by now left.
  pose proof (parse_origin u pa' None None [] TO Fc ltac:(intros d _ []) ltac:(intros d _ []) EN) as P.
  assert (T : text_after pa' None None [] = 47 :: pa') by (unfold text_after; cbn [opt_text app]; rewrite app_nil_r; reflexivity).
  assert (K : consumed [] pa' None None = 47 :: pa') by (unfold consumed; cbn [opt_text app]; rewrite ?app_nil_r; reflexivity).
  rewrite T, K in P. eexists. split.
  { unfold UnmarshalFrom. rewrite P. cbn [bind fst snd].
    replace (slice (47 :: pa') (zlen (47 :: pa')) (zlen (47 :: pa'))) with (Ok (@nil Z)); [cbn [bind]; reflexivity|].
    symmetry. rewrite <- (app_nil_r (47 :: pa')) at 1. change (@nil Z) with (@nil Z ++ []) at 1. apply slice_mid; [reflexivity|]. change (zlen (@nil Z)) with 0. lia. }
  cbn [path query scheme authority fragment opt_or]. unfold Marshal. cbn [raw snd]. repeat split.
  intros Q X. assert (L : zlen (uri_text (Uri (Some (47 :: pa')) (scheme u) (authority u) (47 :: pa') (query u) (fragment u))) = zlen (47 :: pa')) by now rewrite X.
  rewrite text_length in L. cbn [scheme authority path query nonempty] in L. pose proof (zlen_nonneg (scheme u)). pose proof (zlen_nonneg (authority u)).
  destruct (query u); [easy|]. cbn [nonempty] in L. rewrite !zlen_cons in L. pose proof (zlen_nonneg l). destruct (scheme u); cbn [nonempty] in L; lia.
Qed.
Print Assumptions C169_leftover_refuted.
Theorem C169_asterisk_refuted : forall u rest, UnmarshalFrom u (42 :: rest) =
  Ok (Uri (Some [42]) (scheme u) (authority u) (path u) (query u) (fragment u), rest).
Proof.
  intros u rest. unfold UnmarshalFrom, UnmarshalFromString. change (idx (42 :: rest) 0) with (Ok 42). cbn [bind]. change (42 =? 42) with true. cbv iota. cbn [bind].
  assert (ST : slice_to (42 :: rest) 1 = Ok [42]).
  { unfold slice_to, slice. rewrite zlen_cons. pose proof (zlen_nonneg rest). replace ((0 <=? 0) && (0 <=? 1) && (1 <=? 1 + zlen rest)) with true by lia. reflexivity. }
  assert (SL : slice (42 :: rest) 1 (zlen (42 :: rest)) = Ok rest).
  { unfold slice. rewrite zlen_cons. pose proof (zlen_nonneg rest). replace ((0 <=? 1) && (1 <=? 1 + zlen rest) && (1 + zlen rest <=? 1 + zlen rest)) with true by lia.
    change (Z.to_nat 1) with 1%nat. cbn [skipn]. f_equal. apply firstn_all2. unfold zlen. lia. }
  rewrite ?ST. cbn [bind fst snd]. rewrite SL. reflexivity.
Qed.
Print Assumptions C169_asterisk_refuted.
(** Reading does not depend on the text held before: Unmarshal reads as UnmarshalFrom does, but does not tell
    what it left, and an object that was reset reads as a new one. *)
Definition re (w : option bytes) (u : uri) : uri := Uri w (scheme u) (authority u) (path u) (query u) (fragment u).
Definition rest_ (w : option bytes) (st : pst) : pst := Pst (auI st) (paI st) (quI st) (nuI st) (re w (pu st)).
Lemma loop_re w s o : forall n rest i st, (length rest <= n)%nat ->
  uri_loop s o rest i (rest_ w st) = match uri_loop s o rest i st with Ok (e, st') => Ok (e, rest_ w st') | Panic => Panic end.
Proof.
  induction n as [|n IH]; intros rest i st L; (destruct rest as [|c r]; [reflexivity|]); cbn [length] in L; [lia|].
  cbn [uri_loop]. cbn [rest_ auI paI quI nuI pu].
  assert (N : forall st1, uri_loop s o r (i + 1) (rest_ w st1) = match uri_loop s o r (i + 1) st1 with Ok (e, st') => Ok (e, rest_ w st') | Panic => Panic end) by (intros; apply IH; lia).
  destruct (c =? 58).
  { destruct (auI st =? 0); [|apply N]. destruct (slice_to s i); [|reflexivity]. cbn [bind]. destruct r as [|r0 [|r1 r]]; [reflexivity|reflexivity|].
    cbn [length] in L. apply (IH r (i + 3) (Pst (i + 3) (paI st) (quI st) (nuI st) (set_scheme (pu st) _))). lia. }
  destruct (c =? 47).
  { destruct (negb (auI st =? 0) && (paI st =? 0)).
    { destruct (slice s (auI st) i); [|reflexivity]. cbn [bind]. apply (N (Pst (auI st) i (quI st) (nuI st) (set_authority (pu st) _))). }
    destruct (negb o && (paI st =? 0) && negb (i =? 0)); [|apply N].
    destruct (slice_to s i); [|reflexivity]. cbn [bind]. apply (N (Pst (auI st) i (quI st) (nuI st) (set_authority (pu st) _))). }
  destruct (c =? 63).
  { destruct (quI st =? 0); [|apply N]. destruct (slice s (paI st) i); [|reflexivity]. cbn [bind]. apply (N (Pst (auI st) (paI st) i (nuI st) (SetPath (pu st) _))). }
  destruct (c =? 35).
  { destruct (nuI st =? 0); [|apply N]. destruct (quI st =? 0).
    - destruct (slice s (paI st) i); [|reflexivity]. cbn [bind]. apply (N (Pst (auI st) (paI st) (quI st) i (SetPath (pu st) _))).
    - destruct (slice s (quI st + 1) i); [|reflexivity]. cbn [bind]. apply (N (Pst (auI st) (paI st) (quI st) i (set_query (pu st) _))). }
  destruct (c =? 32); [reflexivity|apply N].
Qed.
Lemma read_re w u s : UnmarshalFromString (re w u) s = UnmarshalFromString u s.
Proof.
  unfold UnmarshalFromString. destruct (idx s 0) as [c|]; [|reflexivity]. cbn [bind]. destruct (c =? 42); [reflexivity|].
  change (Pst 0 0 0 0 (re w u)) with (rest_ w (Pst 0 0 0 0 u)). rewrite (loop_re w s _ (length s)) by lia.
  destruct (uri_loop s (c =? 47) s 0 (Pst 0 0 0 0 u)) as [(e, st)|]; [|reflexivity]. cbn [bind rest_ auI paI quI nuI pu].
  destruct ((quI st =? 0) && (nuI st =? 0)); [destruct (slice s (paI st) e); [|reflexivity]|]; cbn [bind];
  (destruct (negb (nuI st =? 0)); [destruct (slice s (nuI st + 1) e); [|reflexivity]|]; cbn [bind]);
  (destruct (negb (quI st =? 0) && (nuI st =? 0)); [destruct (slice s (quI st + 1) e); [|reflexivity]|]; cbn [bind]); reflexivity.
Qed.
Theorem C169_reset_partial : forall u s, UnmarshalFrom (Reinit u) s = UnmarshalFrom new_uri s /\ Unmarshal (Reinit u) s = Unmarshal new_uri s /\
  Unmarshal u s = match UnmarshalFrom u s with Ok (v, _) => Ok v | Panic => Panic end.
Proof.
  intros u s. change (Reinit u) with (re (Some []) new_uri). unfold UnmarshalFrom. rewrite read_re. split; [reflexivity|]. split; [reflexivity|].
  unfold Unmarshal. change (Uri (Some s) (scheme u) (authority u) (path u) (query u) (fragment u)) with (re (Some s) u). rewrite read_re.
  destruct (UnmarshalFromString u s) as [(n, v)|] eqn:P; [|reflexivity]. cbn [bind fst snd].
  assert (B : 0 <= n <= zlen s).
  { unfold UnmarshalFromString in P. destruct (idx s 0); [|discriminate]. cbn [bind] in P.
    match type of P with (let! r := ?X in _) = _ => destruct X as [(e, u1)|]; [|discriminate] end. cbn [bind] in P.
    destruct (slice_to s e) as [t|] eqn:ST; [|discriminate]. cbn [bind] in P. injection P as -> P.
    unfold slice_to, slice in ST. destruct ((0 <=? 0) && (0 <=? n) && (n <=? zlen s)) eqn:B; [|discriminate]. lia. }
  unfold slice. replace ((0 <=? n) && (n <=? zlen s) && (zlen s <=? zlen s)) with true by lia. reflexivity.
Qed.
Print Assumptions C169_reset_partial.
Example C169_nonvacuous : exists u1 u2, UnmarshalFrom new_uri (str "/pay?to=me HTTP/1.1"%string) = Ok (u1, str " HTTP/1.1"%string) /\
  UnmarshalFrom u1 (str "/home HTTP/1.1"%string) = Ok (u2, str " HTTP/1.1"%string) /\ path u2 = str "/home"%string /\ query u2 = str "to=me"%string /\
  origin (str "/pay"%string) (str "to=me"%string) /\ free "?# :" (str "/home"%string).
Proof.
  eexists. eexists. split; [vm_compute; reflexivity|]. split; [vm_compute; reflexivity|]. split; [reflexivity|]. split; [reflexivity|].
  unfold origin, free. repeat split; intros c Hc K; cbn in Hc, K; lia.
Qed.
