(** Property theorems C17-C20, C63-C66 (net/uri). *)
From Coq Require Import Permutation.
From Verif Require Import Go GoFacts EscapeModel EscapeSpec EscapeProofs UriModel UriSpec UriProofs UriProofs2 UriProofs3.
Local Open Scope Z_scope.

(** C17: the five components of the claim. *)
Theorem C17_escape_round_trip : forall m s,
  m <> Host -> m <> Zone -> wf_bytes s ->
  exists t, Escape s m = Ok t /\ escaped m t /\ denotes m t s /\ Unescape t m = Ok (inr s).
Proof.
  intros m s N1 N2 W. exists (concat (map (esc1 m) s)).
  split; [now apply Escape_spec|]. split; [now apply escape_escaped|]. split; [now apply escape_denotes|].
  apply Unescape_spec; [now apply escaped_wf|]. split; [|now apply escape_denotes].
  apply escape_allowed; [assumption|]. apply Forall_forall. intros c _ _. destruct m; cbn; auto; congruence.
Qed.
Print Assumptions C17_escape_round_trip.

Example C17_case : Escape (str "a b&c/%d") QueryComponent = Ok (str "a+b%26c%2F%25d") /\
  Unescape (str "a+b%26c%2F%25d") QueryComponent = Ok (inr (str "a b&c/%d")) /\
  Escape (str "a b/c?d") Path = Ok (str "a%20b/c%3Fd").
Proof. repeat split; vm_compute; reflexivity. Qed.

(** Exactly the bytes that are written as they are in each component: *)
Definition kept (m : mode) (c : Z) : Prop := unreserved c \/ In c (str
  match m with
  | Path => "$&+,/:;=@"
  | PathSegment => "$&+:=@"
  | UserPassword => "$&+,;="
  | QueryComponent => ""
  | Fragment => "$&+,/:;=?@!()*"
  | Host | Zone => "!$&'()*+,;=:[]<>"""
  end).
Theorem C17_kept_exact : forall m s, wf_bytes s -> (Escape s m = Ok s <-> Forall (kept m) s).
Proof.
  assert (K : forall m c, is_byte c -> (kept m c <-> shouldEscape c m = false)).
  { intros m c B. pose (keptb := ((48 <=? c) && (c <=? 57)) || ((65 <=? c) && (c <=? 90)) || ((97 <=? c) && (c <=? 122)) || oneof c "-._~" || oneof c
      match m with Path => "$&+,/:;=@" | PathSegment => "$&+:=@" | UserPassword => "$&+,;=" | QueryComponent => "" | Fragment => "$&+,/:;=?@!()*" | Host | Zone => "!$&'()*+,;=:[]<>""" end).
    assert (O : forall t, oneof c t = true <-> In c (str t)).
    { intros t. unfold oneof. rewrite existsb_exists. split; [intros (x & I & E); apply Z.eqb_eq in E; now subst|intros I; exists c; split; [exact I|apply Z.eqb_refl]]. }
    assert (E : kept m c <-> keptb = true).
    { unfold kept, unreserved, alnum, keptb. rewrite !orb_true_iff, !andb_true_iff, !Z.leb_le, !O. tauto. }
    rewrite E. clear E O. unfold keptb. clear keptb.
    pose proof (byte_sweep (fun c => Bool.eqb (((48 <=? c) && (c <=? 57)) || ((65 <=? c) && (c <=? 90)) || ((97 <=? c) && (c <=? 122)) || oneof c "-._~" || oneof c
      match m with Path => "$&+,/:;=@" | PathSegment => "$&+:=@" | UserPassword => "$&+,;=" | QueryComponent => "" | Fragment => "$&+,/:;=?@!()*" | Host | Zone => "!$&'()*+,;=:[]<>""" end)
      (negb (shouldEscape c m))) ltac:(destruct m; vm_compute; reflexivity) c B) as Q. cbv beta in Q. apply eqb_prop in Q. rewrite Q. apply negb_true_iff. }
  intros m s W. rewrite Escape_spec by exact W.
  assert (L : forall s, (length s <= length (concat (map (esc1 m) s)))%nat).
  { induction s0 as [|c t IH]; cbn [map concat length]; [lia|]. rewrite app_length. unfold esc1 at 1. destruct (_ && _); [|destruct (shouldEscape c m)]; cbn [length]; lia. }
  split.
  - intros E. assert (E' : concat (map (esc1 m) s) = s) by congruence. clear E. induction s as [|c t IH]; [constructor|].
    inversion W as [|? ? B W']; subst. cbn [map concat] in E'. specialize (L t). unfold esc1 at 1 in E'. destruct ((c =? 32) && is_query m) eqn:Q.
    { exfalso. apply andb_true_iff in Q as [Q _]. apply Z.eqb_eq in Q. cbn [app] in E'. congruence. }
    destruct (shouldEscape c m) eqn:Es.
    + exfalso. apply (f_equal (@length Z)) in E'. rewrite app_length in E'. cbn [length] in E'. lia.
    + constructor; [now apply K|]. apply IH; [exact W'|]. cbn [app] in E'. congruence.
  - intros F. f_equal. induction F as [|c t Hc F IH]; [reflexivity|]. inversion W as [|? ? B W']; subst. cbn [map concat]. rewrite IH by exact W'.
    apply K in Hc; [|exact B]. unfold esc1. destruct (plain_not_percent _ _ Hc) as (_ & N32 & _). replace (c =? 32) with false by (symmetry; now apply Z.eqb_neq). cbn [andb]. now rewrite Hc.
Qed.
Print Assumptions C17_kept_exact.
Example C17_kept_case : Escape (str "a!(b)*") Fragment = Ok (str "a!(b)*") /\ Escape (str "a!(b)*") Path = Ok (str "a%21%28b%29%2A").
Proof. split; vm_compute; reflexivity. Qed.

(** C17: in a host or zone not every byte string can be written; exactly which. *)
Theorem C17_host_zone_exact : forall m s, m = Host \/ m = Zone -> wf_bytes s ->
  exists t, Escape s m = Ok t /\
    (Unescape t m = Ok (inr s) <-> Forall (fun c => ~ literal m c -> ok_hex m c) s).
Proof.
  intros m s Hm W. exists (concat (map (esc1 m) s)). split; [now apply Escape_spec|].
  rewrite Unescape_spec by now apply escaped_wf. rewrite escape_allowed by assumption.
  assert (E : Forall (fun c => shouldEscape c m = true -> ok_hex m c) s <-> Forall (fun c => ~ literal m c -> ok_hex m c) s).
  { rewrite !Forall_forall. unfold wf_bytes in W. rewrite Forall_forall in W.
    split; intros H c Hc L; apply H; auto; rewrite (host_exact m c (W c Hc) Hm) in *.
    - apply negb_true_iff. destruct (literalb m c) eqn:B; [|reflexivity]. apply literalb_spec in B. contradiction.
    - rewrite <- literalb_spec. destruct (literalb m c); discriminate. }
  rewrite E. pose proof (escape_denotes m s W). tauto.
Qed.
Print Assumptions C17_host_zone_exact.

Example C17_host_case : Escape (str "a b") Host = Ok (str "a%20b") /\
  Unescape (str "a%20b") Host = Ok (inl ErrInvalidURLEscape) /\ Unescape (str "a%20b") Zone = Ok (inr (str "a b")).
Proof. repeat split; vm_compute; reflexivity. Qed.

(** C18: never panics, fails exactly on forbidden text, and otherwise returns the
    bytes denoted. *)
Theorem C18_unescape_exact : forall m s, wf_bytes s ->
  (exists r, Unescape s m = Ok r) /\
  (forall t, Unescape s m = Ok (inr t) <-> allowed m s /\ denotes m s t) /\
  (allowed m s -> exists t, Unescape s m = Ok (inr t)).
Proof.
  intros m s W. split; [now apply Unescape_total|]. split; [intros t; now apply Unescape_spec|].
  intros A. destruct (decode_loop_spec m s W A) as (t & _ & D). exists t. apply Unescape_spec; auto.
Qed.
Print Assumptions C18_unescape_exact.

(** ... where outside host and zone only malformed percent signs are forbidden. *)
Theorem C18_malformed_exact : forall m s, m <> Host -> m <> Zone ->
  allowed m s <->
  (forall before after, s = before ++ str "%" ++ after ->
     exists a b x y rest, after = a :: b :: rest /\ hexval a x /\ hexval b y).
Proof.
  intros m s N1 N2. split.
  - intros A. induction A as [|a b x y s Ha Hb Ho A IH|c s Nc Ho A IH]; intros p r E.
    + destruct p; discriminate.
    + destruct p as [|p0 [|p1 [|p2 p]]]; cbn [app str] in E; inversion E; subst.
      * exists a, b, x, y, s. auto.
      * exfalso. unfold hexval in Ha. cbn in Ha. lia.
      * exfalso. unfold hexval in Hb. cbn in Hb. lia.
      * now apply (IH p).
    + destruct p as [|p0 p]; cbn [app str] in E; inversion E; subst; [cbn in Nc; lia|]. now apply (IH p).
  - assert (Hx : forall v, ok_hex m v) by (intros v; destruct m; cbn; auto; congruence).
    assert (Hb : forall v, ok_byte m v) by (intros v; destruct m; cbn; auto; congruence).
    assert (G : forall n s, (length s <= n)%nat ->
      (forall before after, s = before ++ str "%" ++ after ->
         exists a b x y rest, after = a :: b :: rest /\ hexval a x /\ hexval b y) -> allowed m s).
    { clear s. induction n as [|n IH]; intros s L H; [destruct s; [constructor|cbn in L; lia]|].
      destruct s as [|c s]; [constructor|]. cbn [length] in L.
      destruct (Z.eq_dec c 37) as [->|N].
      - destruct (H [] s eq_refl) as (a & b & x & y & r & -> & Ha & Hb'). eapply al_hex; eauto.
        apply IH; [cbn in L; lia|]. intros p q E. apply (H (37 :: a :: b :: p) q). rewrite E. reflexivity.
      - apply al_byte; auto. apply IH; [lia|]. intros p q E. apply (H (c :: p) q). rewrite E. reflexivity. }
    apply (G (length s)); auto.
Qed.
Print Assumptions C18_malformed_exact.

Example C18_case : Unescape (str "%4") Path = Ok (inl ErrInvalidURLEscape) /\
  Unescape (str "x%4g") Fragment = Ok (inl ErrInvalidURLEscape) /\ Unescape (str "%41%zz") Path = Ok (inl ErrInvalidURLEscape) /\
  Unescape (str "%41+") PathSegment = Ok (inr (str "A+")) /\ Unescape (str "%C3%a9") Host = Ok (inr [195; 169]).
Proof. repeat split; vm_compute; reflexivity. Qed.

(** C19: serialise then parse, absolute form; the parser stops at a space. *)
Theorem C19_absolute_round_trip : forall sc au pa qu rest,
  absolute sc au pa qu -> rest = [] \/ hd 0 rest = 32 ->
  let u := Uri None sc au pa qu [] in
  exists u', UnmarshalFromString new_uri (snd (Marshal u) ++ rest) = Ok (zlen (snd (Marshal u)), u') /\
    scheme u' = sc /\ authority u' = au /\ path u' = pa /\ query u' = qu /\ fragment u' = [] /\
    snd (Marshal u') = snd (Marshal u).
Proof.
  intros sc au pa qu rest (H1 & H2 & H3 & H4 & H5 & H6) Hr u.
  destruct pa as [|c pa']; [cbn in H4; lia|]. cbn [hd] in H4. subst c.
  set (oq := if beq qu [] then None else Some qu).
  assert (T : snd (Marshal u) = consumed (sc ++ str "://" ++ au) pa' oq None).
  { unfold Marshal, u. cbn [raw marshalTo snd app]. unfold uri_text, consumed. cbn [scheme authority path query].
    destruct (beq sc []) eqn:E; [apply beq_eq in E; congruence|].
    change (beq (47 :: pa') []) with false. cbn iota. rewrite <- !app_assoc. do 3 f_equal.
    unfold oq. destruct (beq qu []); cbn [opt_text]; rewrite ?app_nil_r; reflexivity. }
  assert (Fp : free "?# " pa') by (intros d Hd K; apply (H5 d Hd); now right).
  assert (TO : tail_ok pa' oq None).
  { split; [assumption|]. split; [|split; [intros d _ []|intros _ d _ []]].
    unfold oq. destruct (beq qu []); cbn [opt_or]; [intros d _ []|assumption]. }
  assert (EN : ends rest).
  { destruct Hr as [->|Hr]; [now left|]. destruct rest as [|d r]; [now left|]. cbn [hd] in Hr. subst. right. eauto. }
  pose proof (parse_absolute new_uri sc au pa' oq None rest H1 H2 H3 TO EN) as P.
  rewrite consumed_text in P. rewrite <- T in P.
  eexists. split; [exact P|]. cbn [scheme authority path query fragment opt_or new_uri].
  repeat split.
  unfold oq. destruct (beq qu []) eqn:E; cbn [opt_or]; [now apply beq_eq in E|reflexivity].
Qed.
Print Assumptions C19_absolute_round_trip.

Example C19_absolute_case :
  absolute (str "https") (str "u@h.example:8080") (str "/a:b/c") (str "x=1?y:z") /\
  snd (Marshal (Uri None (str "https") (str "u@h.example:8080") (str "/a:b/c") (str "x=1?y:z") [])) =
    str "https://u@h.example:8080/a:b/c?x=1?y:z".
Proof.
  split; [|vm_compute; reflexivity]. unfold absolute, free. repeat split; try discriminate;
  intros c Hc K; cbn in Hc, K; lia.
Qed.

(** C19: origin form: false as soon as a colon appears in the path or query. *)
Theorem C19_origin_refuted : exists pa qu u',
  origin pa qu /\
  UnmarshalFromString new_uri (snd (Marshal (Uri None [] [] pa qu []))) = Ok (14, u') /\
  scheme u' = str "/time?at=10" /\ scheme u' <> [].
Proof.
  exists (str "/time"), (str "at=10:30"). 
  eexists. split; [unfold origin, free; repeat split; try discriminate; intros c Hc K; cbn in Hc, K; lia|].
  split; [vm_compute; reflexivity|]. split; [reflexivity|discriminate].
Qed.
Print Assumptions C19_origin_refuted.

(** Origin form without colons, and authority/path without scheme and colons. *)
Theorem C19_origin_partial : forall pa qu rest,
  origin pa qu -> free ":" pa -> free ":" qu -> rest = [] \/ hd 0 rest = 32 ->
  let u := Uri None [] [] pa qu [] in
  exists u', UnmarshalFromString new_uri (snd (Marshal u) ++ rest) = Ok (zlen (snd (Marshal u)), u') /\
    scheme u' = [] /\ authority u' = [] /\ path u' = pa /\ query u' = qu /\ fragment u' = [].
Proof.
  intros pa qu rest (H4 & H5 & H6) C1 C2 Hr u.
  destruct pa as [|c pa']; [cbn in H4; lia|]. cbn [hd] in H4. subst c.
  set (oq := if beq qu [] then None else Some qu).
  assert (T : snd (Marshal u) = consumed [] pa' oq None).
  { unfold Marshal, u. cbn [raw marshalTo snd app]. unfold uri_text, consumed. cbn [scheme authority path query beq app].
    do 2 f_equal. unfold oq. destruct (beq qu []); cbn [opt_text]; rewrite ?app_nil_r; reflexivity. }
  assert (Fp : free "?# " pa') by (intros d Hd K; apply (H5 d Hd); now right).
  assert (Fc : free ":" pa') by (intros d Hd K; apply (C1 d Hd); now right).
  assert (Fq : free ":" (opt_or oq [])).
  { unfold oq. destruct (beq qu []); cbn [opt_or]; [intros d _ []|assumption]. }
  assert (TO : tail_ok pa' oq None).
  { split; [assumption|]. split; [|split; [intros d _ []|intros _ d _ []]].
    unfold oq. destruct (beq qu []); cbn [opt_or]; [intros d _ []|assumption]. }
  assert (EN : ends rest).
  { destruct Hr as [->|Hr]; [now left|]. destruct rest as [|d r]; [now left|]. cbn [hd] in Hr. subst. right. eauto. }
  pose proof (parse_origin new_uri pa' oq None rest TO Fc Fq ltac:(intros d _ []) EN) as P.
  change (text_after pa' oq None rest) with ([] ++ text_after pa' oq None rest) in P. rewrite consumed_text in P. rewrite <- T in P.
  eexists. split; [exact P|]. cbn [scheme authority path query fragment opt_or new_uri].
  repeat split.
  unfold oq. destruct (beq qu []) eqn:E; cbn [opt_or]; [now apply beq_eq in E|reflexivity].
Qed.
Print Assumptions C19_origin_partial.

Example C19_origin_case : origin (str "/a/b") (str "x=1&y=?") /\
  snd (Marshal (Uri None [] [] (str "/a/b") (str "x=1&y=?") [])) = str "/a/b?x=1&y=?".
Proof.
  split; [|vm_compute; reflexivity]. unfold origin, free. repeat split; try discriminate;
  intros c Hc K; cbn in Hc, K; lia.
Qed.

(** C20: get, has and values after any history (latest first). *)
Theorem C20_multimap : forall h k,
  qvals (run h) k = values h k /\
  QGet (run h) k = hd [] (values h k) /\
  (QHas (run h) k = true <-> values h k <> []).
Proof.
  intros h k. rewrite <- run_values. split; [reflexivity|]. split.
  - unfold QGet. now destruct (qvals (run h) k).
  - rewrite qwf_has by apply run_wf. destruct (qvals (run h) k); split; congruence.
Qed.
Print Assumptions C20_multimap.

(** C20: the text of the multimap, whatever order the map is listed in, parses back
    to the same multimap without error. *)
Theorem C20_text_round_trip : forall h listing,
  Forall op_wf h -> Permutation (run h) listing ->
  exists text q, QToString listing = Ok text /\ QFromString text [] = Some (Ok (None, q)) /\
    (forall k, qvals q k = values h k) /\ (forall k, QGet q k = hd [] (values h k)) /\
    (forall k, QHas q k = true <-> values h k <> []).
Proof.
  intros h es Hw P.
  destruct (query_round_trip (run h) es (run_wf h) (run_entries h Hw) P) as (t & q & E1 & E2 & V & Ha & G).
  exists t, q. split; [exact E1|]. split; [exact E2|]. split; [intros k; now rewrite V, run_values|].
  split; [intros k; rewrite G; apply C20_multimap|]. intros k. rewrite Ha. apply C20_multimap.
Qed.
Print Assumptions C20_text_round_trip.

Example C20_case :
  let h := [OpDel (str "z"); OpAdd (str "a") (str "3&4"); OpAdd (str "b c") []; OpSet (str "a") (str "1"); OpAdd (str "a") (str "0"); OpAdd (str "z") (str "9")] in
  values h (str "a") = [str "1"; str "3&4"] /\ QToString (run h) = Ok (str "a=1&a=3%264&b+c=") /\
  QToString (rev (run h)) = Ok (str "b+c=&a=1&a=3%264").
Proof. repeat split; vm_compute; reflexivity. Qed.

(** C63: any query text is parsed without panic and in finitely many steps; the
    documented rejection of ';' does not happen, ':' is rejected instead. *)
Theorem C63_query_parse_total : forall text q, wf_bytes text ->
  exists e q', QFromString text q = Some (Ok (e, q')).
Proof. intros text q W. apply qparse_total; [assumption|lia]. Qed.
Print Assumptions C63_query_parse_total.

Theorem C63_semicolon_refuted :
  (exists q, QFromString (str "a=1;b=2") [] = Some (Ok (None, q)) /\ QGet q (str "a") = str "1;b=2") /\
  (exists q, QFromString (str "at=10:30") [] = Some (Ok (Some ErrQueryBadKey, q)) /\ QHas q (str "at") = false).
Proof. split; eexists; split; vm_compute; reflexivity. Qed.
Print Assumptions C63_semicolon_refuted.

(** C64: the serialised text reflects the current components: false after a parse
    or a reset; true while nothing has been cached. *)
Theorem C64_marshal_current_refuted :
  (exists n u, UnmarshalFromString new_uri (str "/a") = Ok (n, u) /\ path (SetPath u (str "/b")) = str "/b" /\
    snd (Marshal (SetPath u (str "/b"))) = str "/a") /\
  snd (Marshal (Set_ (Reinit new_uri) (str "http") (str "h") (str "/p") [] [])) = [].
Proof. split; [eexists; eexists; split; [vm_compute; reflexivity|split; vm_compute; reflexivity]|vm_compute; reflexivity]. Qed.
Print Assumptions C64_marshal_current_refuted.

Theorem C64_marshal_current_partial : forall u packet, raw u = None ->
  let text := (if beq (scheme u) [] then [] else scheme u ++ str "://") ++ authority u ++
              (if beq (path u) [] then str "/" else path u) ++ (if beq (query u) [] then [] else str "?" ++ query u) in
  snd (Marshal u) = text /\ snd (MarshalTo u packet) = packet ++ text /\
  snd (Marshal (fst (Marshal u))) = text.
Proof.
  intros u packet H text. unfold Marshal, MarshalTo. rewrite H. cbn [marshalTo fst snd raw app]. repeat split.
Qed.
Print Assumptions C64_marshal_current_partial.

(** C65: parsing a request target panics exactly on the empty text and when the first
    colon is followed by fewer than two characters. *)
Theorem C65_uri_parse_panics_refuted : UnmarshalFromString new_uri [] = Panic /\ UnmarshalFromString new_uri (str "/a:b") = Panic.
Proof. split; vm_compute; reflexivity. Qed.
Print Assumptions C65_uri_parse_panics_refuted.

Theorem C65_uri_parse_panics_partial : forall u s,
  UnmarshalFromString u s = Panic <->
  s = [] \/ (hd 0 s <> 42 /\ exists p r, s = p ++ 58 :: r /\ free ": " p /\ zlen r < 2).
Proof. exact unmarshal_panic. Qed.
Print Assumptions C65_uri_parse_panics_partial.
Example C65_case : UnmarshalFromString new_uri (str "/a:") = Panic /\ (exists u, UnmarshalFromString new_uri (str "/a:bc") = Ok u) /\ exists u, UnmarshalFromString new_uri (str "*:") = Ok u.
Proof. split; [vm_compute; reflexivity|]. split; eexists; vm_compute; reflexivity. Qed.

(** C66: host, port and user information of an authority: right without '@', wrong
    with a user part. *)
Theorem C66_authority_refuted :
  AuthorityInit (str "me:pw@host:80") = Ok (str "me", str "pw@", str "me", str "pw").
Proof. vm_compute. reflexivity. Qed.
Print Assumptions C66_authority_refuted.

Theorem C66_authority_partial : forall host port,
  free "@:" host -> free "@" port -> host <> [] ->
  AuthorityInit (host ++ str ":" ++ port) = Ok (host, port, [], []) /\
  AuthorityInit host = Ok (host, [], [], []).
Proof.
  intros host port H1 H2 N.
  assert (A : forall s, ~ In 64 s -> index_byte s 64 = -1) by (intros; now apply index_none).
  assert (Hh : ~ In 64 host) by (apply H1; cbn; tauto). assert (Hc : ~ In 58 host) by (apply H1; cbn; tauto).
  assert (Hp : ~ In 64 port) by (apply H2; cbn; tauto).
  unfold AuthorityInit. split.
  - change (str ":" ++ port) with (58 :: port).
    destruct (beq (host ++ 58 :: port) []) eqn:E; [apply beq_eq in E; destruct host; discriminate|].
    rewrite A.
    + cbn [bind Z.ltb]. change (0 <? -1) with false. cbn [bind]. rewrite cut_app by assumption. reflexivity.
    + intros K. apply in_app_or in K as [K|[K|K]]; auto. lia.
  - destruct (beq host []) eqn:E; [apply beq_eq in E; congruence|].
    rewrite A by assumption. change (0 <? -1) with false. cbn [bind]. rewrite cut_none by assumption. reflexivity.
Qed.
Print Assumptions C66_authority_partial.
