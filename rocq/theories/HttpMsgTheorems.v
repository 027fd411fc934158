(** C88-C91: hosts, errors, routing and framing of HTTP messages. *)
From Coq Require Import ZifyBool ZifyNat.
From Verif Require Import Go GoFacts BinSpec BinProofs UriModel StrconvModel StringsModel HttpModel HttpSpec HttpProofs HttpTheorems IdModel IdTheorems RegModel Base64Model HttpMsgModel HttpMsgSpec.
Open Scope string_scope. Import ListNotations. Open Scope Z_scope. Open Scope list_scope.

(** * C88 *)
(** After the check, the request is for the host in its target, or, when the target has none, for
    the first Host line; nothing else in the request changes. *)
Theorem C88_check_host : forall q, let q' := CheckHost q in
  authority (q_uri q') = (if beq (authority (q_uri q)) [] then Header_Get (q_head q) (str "Host") else authority (q_uri q)) /\
  path (q_uri q') = path (q_uri q) /\ query (q_uri q') = query (q_uri q) /\ scheme (q_uri q') = scheme (q_uri q) /\ fragment (q_uri q') = fragment (q_uri q) /\
  q_method q' = q_method q /\ q_version q' = q_version q /\ q_head q' = q_head q.
Proof. change (str "Host") with HeaderKey_Host. intro q. cbv zeta. unfold CheckHost. destruct (beq _ _); cbn; tauto. Qed.
Print Assumptions C88_check_host.
Theorem C88_check_host_once : forall q, CheckHost (CheckHost q) = CheckHost q.
Proof.
  intro q. unfold CheckHost. destruct (beq (authority (q_uri q)) []) eqn:E; [|rewrite E; reflexivity]. cbn [q_uri authority set_authority q_head q_method q_version q_host].
  destruct (beq (Header_Get (q_head q) HeaderKey_Host) []); reflexivity.
Qed.
Print Assumptions C88_check_host_once.
Lemma beq_true a b : beq a b = true <-> a = b.
Proof. rewrite beq_same. split; [apply same_eq|intros ->; apply same_refl]. Qed.
Lemma beq_false a b : beq a b = false <-> a <> b.
Proof. rewrite <- not_true_iff_false, beq_true. tauto. Qed.
Lemma digit_first_iff h : is_digit_at0 h = true <-> digit_first h.
Proof. unfold digit_first. destruct h as [|c t]; cbn; split; intro H; try discriminate; [destruct H as (? & ? & E & _); discriminate|exists c, t; split; [reflexivity|lia]|destruct H as (? & ? & E & B); injection E as <- <-; lia]. Qed.
Lemma www_iff h : (4 <? zlen h) && beq (firstn 4 h) (str "www.") = true <-> exists x, x <> [] /\ h = www x.
Proof.
  rewrite andb_true_iff, beq_true. split.
  - intros (L & E). exists (skipn 4 h). split; [intro N; apply (f_equal zlen) in N; revert N; unfold zlen; rewrite skipn_length; cbn; unfold zlen in L; lia|]. unfold www. rewrite <- E. symmetry. apply firstn_skipn.
  - intros (x & N & ->). unfold www. split; [|reflexivity]. rewrite zlen_app. change (zlen (str "www.")) with 4. destruct x; [contradiction|]. rewrite zlen_cons. pose proof (zlen_nonneg x). lia.
Qed.
Lemma target_eq d u : redirect_target d (path u) (query u) = same_page d u.
Proof.
  unfold redirect_target, same_page. destruct (query u) as [|c t]; [cbn; rewrite app_nil_r; reflexivity|].
  replace (0 <? zlen (c :: t)) with true by (rewrite zlen_cons; pose proof (zlen_nonneg t); lia). rewrite <- !app_assoc. reflexivity.
Qed.
(** Which requests are served, for any domain of the application: *)
Theorem C88_served_exact : forall d q r, fst (HostSupported d q r) = true <->
  q_host q = [] \/ (q_host q = d /\ ~ digit_first (q_host q) /\ forall x, x <> [] -> q_host q <> www x).
Proof.
  intros d q r. unfold HostSupported. destruct (beq (q_host q) []) eqn:E0; [apply beq_true in E0; cbn; tauto|]. apply beq_false in E0.
  destruct (is_digit_at0 (q_host q)) eqn:E1; [apply digit_first_iff in E1; cbn; intuition discriminate|].
  assert (~ digit_first (q_host q)) as ND by (rewrite <- digit_first_iff; congruence).
  destruct ((4 <? zlen (q_host q)) && beq (firstn 4 (q_host q)) (str "www.")) eqn:E2.
  - apply www_iff in E2. destruct E2 as (x & Nx & E2). destruct (negb _); cbn [fst]; (split; [discriminate|intros [H | (_ & _ & H)]; [contradiction|destruct (H x Nx E2)]]).
  - assert (forall x, x <> [] -> q_host q <> www x) as NW by (intros x Nx Ex; enough ((4 <? zlen (q_host q)) && beq (firstn 4 (q_host q)) (str "www.") = true) by congruence; apply www_iff; eauto).
    destruct (beq (q_host q) d) eqn:E3; cbn [negb fst].
    + apply beq_true in E3. intuition.
    + apply beq_false in E3. intuition discriminate.
Qed.
Print Assumptions C88_served_exact.
(** A request for an address, or for www.domain, is answered with a permanent redirect to the same
    page of the domain, on a response that has no Location line yet; any other with nothing. *)
Theorem C88_redirected_exact : forall d q r, d <> [] -> has (r_head r) (str "Location") = false -> fst (HostSupported d q r) = false ->
  let r' := snd (HostSupported d q r) in
  if is_digit_at0 (q_host q) || beq (q_host q) (www d)
  then r_code r' = str "301" /\ r_phrase r' = str "Moved Permanently" /\ Header_Get (r_head r') (str "Location") = same_page d (q_uri q) /\ r_body r' = r_body r
  else r' = r.
Proof. change (str "Location") with HeaderKey_Location.
  intros d q r ND HL NS. cbv zeta.
  assert (r_code (moved d q r) = str "301" /\ r_phrase (moved d q r) = str "Moved Permanently" /\ Header_Get (r_head (moved d q r)) HeaderKey_Location = same_page d (q_uri q) /\ r_body (moved d q r) = r_body r) as M.
  { unfold moved, res_Set, with_head, SetStatus. cbn [r_code r_phrase r_head r_body]. repeat split. rewrite Get_spec, !Set_spec, HL.
    set (h1 := r_head r ++ _). assert (lookup h1 HeaderKey_Location = same_page d (q_uri q)) as G.
    { unfold h1. rewrite lookup_app, HL. cbn [lookup fst snd]. rewrite same_refl. apply target_eq. }
    destruct (has h1 HeaderKey_CacheControl); [exact G|]. rewrite lookup_app.
    replace (has h1 HeaderKey_Location) with true; [exact G|]. unfold h1. rewrite has_app. cbn [has existsb fst]. rewrite same_refl, orb_true_r. reflexivity. }
  unfold HostSupported in *. destruct (beq (q_host q) []) eqn:E0; [discriminate|].
  destruct (is_digit_at0 (q_host q)) eqn:E1; [exact M|]. cbn [orb].
  destruct ((4 <? zlen (q_host q)) && beq (firstn 4 (q_host q)) (str "www.")) eqn:E2.
  - apply www_iff in E2. destruct E2 as (x & Nx & Ex). rewrite Ex. change (skipn 4 (www x)) with x in *.
    destruct (beq x d) eqn:E3; cbn [negb snd].
    + apply beq_true in E3. subst x. replace (beq (www d) (www d)) with true by (symmetry; apply beq_true; reflexivity). exact M.
    + apply beq_false in E3. replace (beq (www x) (www d)) with false; [reflexivity|]. symmetry. apply beq_false. intro K. apply app_inv_head in K. contradiction.
  - destruct (beq (q_host q) (www d)) eqn:E4.
    + apply beq_true in E4. destruct d as [|c0 d0].
      * contradiction.
      * exfalso. rewrite E4 in E2. enough ((4 <? zlen (www (c0 :: d0))) && beq (firstn 4 (www (c0 :: d0))) (str "www.") = true) by congruence. apply www_iff. exists (c0 :: d0). split; [discriminate|reflexivity].
    + destruct (negb _); [reflexivity|discriminate].
Qed.
Print Assumptions C88_redirected_exact.

(** A domain that begins with a digit, or with www., is never served under its own name: *)
Theorem C88_digit_domain_refuted : forall d q r, digit_first d -> q_host q = d -> has (r_head r) (str "Location") = false ->
  fst (HostSupported d q r) = false /\ Header_Get (r_head (snd (HostSupported d q r))) (str "Location") = same_page d (q_uri q).
Proof. change (str "Location") with HeaderKey_Location.
  intros d q r D E HL. assert (fst (HostSupported d q r) = false) as F.
  { destruct (fst (HostSupported d q r)) eqn:F; [|reflexivity]. apply C88_served_exact in F. rewrite E in F. destruct F as [-> | (_ & N & _)]; [destruct D as (? & ? & ? & _); discriminate|contradiction]. }
  split; [exact F|]. pose proof (C88_redirected_exact d q r ltac:(intros ->; destruct D as (? & ? & ? & _); discriminate) HL F) as R. cbv zeta in R.
  replace (is_digit_at0 (q_host q)) with true in R by (rewrite E; symmetry; apply digit_first_iff; exact D). cbn [orb] in R. tauto.
Qed.
Print Assumptions C88_digit_domain_refuted.
Theorem C88_www_domain_refuted : forall x q r, x <> [] -> q_host q = www x -> ~ digit_first (www x) -> HostSupported (www x) q r = (false, r).
Proof.
  intros x q r N E _. unfold HostSupported. rewrite E. change (beq (www x) []) with false. change (is_digit_at0 (www x)) with false. cbv iota.
  replace ((4 <? zlen (www x)) && beq (firstn 4 (www x)) (str "www.")) with true by (symmetry; apply www_iff; exists x; auto).
  change (skipn 4 (www x)) with x. replace (beq x (www x)) with false; [reflexivity|]. symmetry. apply beq_false. intro K. apply (f_equal (@length Z)) in K. unfold www in K. rewrite app_length in K. cbn in K. lia.
Qed.
Print Assumptions C88_www_domain_refuted.
(** For every other domain the page is served under the domain itself, and following the redirect
    of any other name ends there. *)
Theorem C88_plain_domain_partial : forall d q r, plain_domain d -> q_host q = d -> HostSupported d q r = (true, r).
Proof.
  intros d q r (N & D & W) E. assert (fst (HostSupported d q r) = true) as F by (apply C88_served_exact; right; rewrite E; auto).
  assert (forall b r', HostSupported d q r = (b, r') -> b = true -> r' = r) as Q; [|destruct (HostSupported d q r) as (b, r') eqn:H; cbn in F; subst b; rewrite (Q true r' eq_refl eq_refl); reflexivity].
  unfold HostSupported. intros b r'. repeat match goal with |- context [if ?c then _ else _] => destruct c end; congruence.
Qed.
Print Assumptions C88_plain_domain_partial.
Definition sample_uri : uri := Uri None (str "http") [] (str "/shop") (str "id=7") [].
Definition sample_request (host : bytes) : request := {| q_method := str "GET"; q_uri := sample_uri; q_host := host; q_version := str "HTTP/1.1"; q_head := HInit ++ [(HeaderKey_Host, host)] |}.
Example C88_nonvacuous :
  plain_domain (str "example.com") /\
  HostSupported (str "example.com") (sample_request (str "example.com")) empty_response = (true, empty_response) /\
  fst (HostSupported (str "example.com") (sample_request (str "www.example.com")) empty_response) = false /\
  Header_Get (r_head (snd (HostSupported (str "example.com") (sample_request (str "www.example.com")) empty_response))) HeaderKey_Location = str "https://example.com/shop?id=7" /\
  authority (q_uri (CheckHost (sample_request (str "example.com")))) = str "example.com".
Proof.
  split; [|repeat split; reflexivity]. split; [discriminate|]. split; [intros (c & t & E & B); injection E as <- _; lia|]. intros x _ E. discriminate E.
Qed.

(** * C89 *)
Theorem C89_error_line : forall r uuid t, has (r_head r) (str "Error-ID") = false -> IDasString uuid = Ok t ->
  exists r', SetError r uuid = Ok r' /\ Header_Get (r_head r') (str "Error-ID") = t /\ r_code r' = r_code r /\ r_phrase r' = r_phrase r /\ r_body r' = r_body r.
Proof. change (str "Error-ID") with HeaderKey_ErrorID.
  intros r uuid t H E. unfold SetError. rewrite E. cbn [bind]. eexists. split; [reflexivity|]. unfold res_Set, with_head. cbn [r_head r_code r_phrase r_body]. repeat split.
  rewrite Get_spec, Set_spec, H, lookup_app, H. cbn [lookup fst snd]. rewrite same_refl. reflexivity.
Qed.
Print Assumptions C89_error_line.
(** A second error does not replace the first. *)
Theorem C89_first_error_stays : forall r uuid r', has (r_head r) (str "Error-ID") = true -> SetError r uuid = Ok r' -> r' = r.
Proof. change (str "Error-ID") with HeaderKey_ErrorID.
  intros r uuid r' H. unfold SetError. destruct (IDasString uuid); cbn [bind]; [|discriminate]. intro E. assert (r' = res_Set r HeaderKey_ErrorID a) as -> by congruence. unfold res_Set. rewrite Set_spec, H. destruct r; reflexivity.
Qed.
Print Assumptions C89_first_error_stays.
(** A response whose Error-ID line is the decimal number of the id gives the registered error, *)
Theorem C89_decimal_partial : forall pool r id, 0 < id < 2 ^ 64 -> Header_Get (r_head r) (str "Error-ID") = FormatUint10 id -> GetError pool r = EGetByID pool id.
Proof. change (str "Error-ID") with HeaderKey_ErrorID.
  intros pool r id B E. unfold GetError. rewrite E. rewrite (ParseUint10_format 64 id) by lia. cbn [fst]. replace (id =? 0) with false by lia. reflexivity.
Qed.
Print Assumptions C89_decimal_partial.
(** but SetError writes base64: *)
Lemma digits_below s : forallb digit s = true -> forall a, 0 <= a -> 0 <= fold_left (fun a c => 10 * a + (c - 48)) s a < (a + 1) * 10 ^ zlen s.
Proof.
  induction s as [|c s IH]; intros F a A.
  - cbn. lia.
  - cbn [forallb] in F. apply andb_prop in F. destruct F as (D & F). unfold digit in D. cbn [fold_left]. specialize (IH F (10 * a + (c - 48)) ltac:(lia)). split; [lia|].
    eapply Z.lt_le_trans; [apply IH|]. rewrite zlen_cons, Z.pow_add_r by (pose proof (zlen_nonneg s); lia).
    pose proof (Z.pow_pos_nonneg 10 (zlen s) ltac:(lia) (zlen_nonneg s)). nia.
Qed.
Lemma nondigit_zero s : forallb digit s = false -> fst (ParseUint10 64 s) = 0.
Proof. intro F. unfold ParseUint10, parse_digits. rewrite F. destruct (beq s []); reflexivity. Qed.
Theorem C89_nondigit_refuted : forall pool r uuid t r', has (r_head r) (str "Error-ID") = false -> IDasString uuid = Ok t ->
  forallb digit t = false -> SetError r uuid = Ok r' -> GetError pool r' = Nothing.
Proof. change (str "Error-ID") with HeaderKey_ErrorID.
  intros pool r uuid t r' H E F S1. destruct (C89_error_line r uuid t H E) as (r2 & E2 & G & _). assert (r2 = r') by congruence. subst r2.
  change (str "Error-ID") with HeaderKey_ErrorID in G. unfold GetError. rewrite G, nondigit_zero by exact F. reflexivity.
Qed.
Print Assumptions C89_nondigit_refuted.
Lemma digit_char : forall b, is_byte b -> b < 64 -> digit (url_char b) = true -> 52 <= b <= 61.
Proof.
  intros b B L. assert (forallb (fun b => negb (digit (url_char b)) || ((52 <=? b) && (b <=? 61))) (map Z.of_nat (seq 0 64)) = true) as A by reflexivity.
  rewrite forallb_forall in A. specialize (A b). intro D. rewrite D in A. cbn [negb orb] in A. unfold is_byte in B. assert (In b (map Z.of_nat (seq 0 64))) as I by (apply in_map_iff; exists (Z.to_nat b); split; [lia|apply in_seq; lia]). specialize (A I). lia.
Qed.

Lemma id_text id : length id = 32%nat -> IDasString id = Ok (b64_encode url_char (firstn 8 id)).
Proof. intro L. unfold IDasString. rewrite slice_to_ok by (unfold zlen; lia). reflexivity. Qed.
Lemma id_number id : length id = 32%nat -> wf_bytes id -> id32 id = Ok (le_value (firstn 8 id)).
Proof.
  intros L W. assert (W8 : wf_bytes (firstn 8 id)) by (rewrite <- (firstn_skipn 8 id) in W; apply Forall_app in W; tauto).
  unfold id32, get64_at. rewrite from0. cbn [bind]. apply (co_get _ _ _ _ _ lele64_ok); [exact W8|lia].
Qed.
Lemma all_digits_apart u : wf_bytes u -> length u = 8%nat -> forallb digit (b64_encode url_char u) = true -> 2 ^ 62 <= le_value u.
Proof.
  intros W L. destruct u as [|a0 [|a1 [|a2 [|a3 [|a4 [|a5 [|a6 [|a7 [|]]]]]]]]]; try discriminate L. clear L.
  unfold wf_bytes in W. repeat match goal with H : Forall _ (_ :: _) |- _ => inversion H; clear H; subst end.
  cbn [b64_encode forallb]. rewrite !andb_true_iff. intros (_ & _ & _ & _ & _ & _ & _ & _ & _ & D & _).
  unfold is_byte in *. apply digit_char in D; [|unfold is_byte; Z.div_mod_to_equations; lia|Z.div_mod_to_equations; lia].
  cbn [le_value]. Z.div_mod_to_equations; lia.
Qed.
(** no error comes back: the error id a response carries is never read as that id. *)
Theorem C89_round_trip_refuted : forall pool r uuid r' id x, length uuid = 32%nat -> wf_bytes uuid -> id32 uuid = Ok id ->
  has (r_head r) (str "Error-ID") = false -> (forall i, pool_id pool i = Some x -> i = id) -> SetError r uuid = Ok r' -> GetError pool r' <> Found x.
Proof. change (str "Error-ID") with HeaderKey_ErrorID.
  intros pool r uuid r' id x L W I H U S1. pose proof (id_text uuid L) as T. rewrite (id_number uuid L W) in I. assert (id = le_value (firstn 8 uuid)) as -> by congruence. clear I.
  destruct (forallb digit (b64_encode url_char (firstn 8 uuid))) eqn:D; [|rewrite (C89_nondigit_refuted pool r uuid _ r' H T D S1); discriminate].
  destruct (C89_error_line r uuid _ H T) as (r2 & E2 & G & _). assert (r2 = r') by congruence. subst r2. unfold GetError. change (str "Error-ID") with HeaderKey_ErrorID in G. rewrite G.
  assert (W8 : wf_bytes (firstn 8 uuid)) by (rewrite <- (firstn_skipn 8 uuid) in W; apply Forall_app in W; tauto).
  assert (L8 : length (firstn 8 uuid) = 8%nat) by (rewrite firstn_length; lia).
  pose proof (all_digits_apart _ W8 L8 D) as BIG. pose proof (digits_below _ D 0 ltac:(lia)) as SMALL.
  assert (zlen (b64_encode url_char (firstn 8 uuid)) = 11) as LT by (clear - L8; generalize dependent (firstn 8 uuid); intros u L8; destruct u as [|a0 [|a1 [|a2 [|a3 [|a4 [|a5 [|a6 [|a7 [|]]]]]]]]]; try discriminate L8; reflexivity).
  rewrite LT in SMALL. unfold ParseUint10, parse_digits. rewrite D. destruct (beq _ []); [discriminate|].
  set (n := fold_left _ _ 0) in *. replace (n <? 2 ^ 64) with true by lia. cbn [fst]. destruct (n =? 0); [discriminate|]. unfold EGetByID. destruct (n =? 0); [discriminate|].
  destruct (pool_id pool n) as [y|] eqn:E; [|discriminate]. intro K. assert (y = x) by congruence. subst y. apply U in E. lia.
Qed.
Print Assumptions C89_round_trip_refuted.
(** A status for an error: every error gives one, and it replaces what was there. *)
Theorem C89_status_by_error : forall r e, let r' := SetStatusByError r e in
  r_head r' = r_head r /\ r_body r' = r_body r /\ (e = HNil -> r' = r) /\
  (e <> HNil -> (r_code r', r_phrase r') = match e with HHeaderTooLarge => (str "431", str "Header Fields Too Large") | HTransferEncoding => (str "501", str "Not Implemented") | _ => (str "400", str "Bad Request") end).
Proof. intros r []; cbn; repeat split; congruence. Qed.
Print Assumptions C89_status_by_error.
Theorem C89_redirect : forall r code phrase target, has (r_head r) (str "Location") = false ->
  let r' := Redirect r code phrase target in r_code r' = code /\ r_phrase r' = phrase /\ Header_Get (r_head r') (str "Location") = target /\
  forall k, k <> (str "Location") -> Header_Get (r_head r') k = Header_Get (r_head r) k.
Proof. change (str "Location") with HeaderKey_Location.
  intros r code phrase target H r'. unfold r', Redirect, res_Set, with_head, SetStatus. cbn [r_code r_phrase r_head]. repeat split.
  - rewrite Get_spec, Set_spec, H, lookup_app, H. cbn [lookup fst snd]. rewrite same_refl. reflexivity.
  - intros k N. rewrite !Get_spec, Set_spec, H, lookup_app. destruct (has (r_head r) k) eqn:E; [reflexivity|]. rewrite (lookup_absent _ _ E). cbn [lookup fst snd].
    destruct (same HeaderKey_Location k) eqn:S1; [apply same_eq in S1; congruence|reflexivity].
Qed.
Print Assumptions C89_redirect.
Definition sample_error : error_ := {| e_id := 506381209866536711; e_mt := str "domain/x; name=bad"; e_obj := 1 |}.
Definition sample_pool : errors := fst (ERegister false errors0 sample_error).
Example C89_nonvacuous : exists r', SetError empty_response (repeat 7 32) = Ok r' /\ id32 (repeat 7 32) = Ok (e_id sample_error) /\
  EGetByID sample_pool (e_id sample_error) = Found sample_error /\ GetError sample_pool r' = Nothing /\
  GetError sample_pool (res_Set empty_response HeaderKey_ErrorID (str "506381209866536711")) = Found sample_error.
Proof. eexists. repeat split. Qed.

(** * C90 *)
(** Every request is answered exactly once, whatever the services do, unless the server panics. *)
Theorem C90_one_response : forall dev a q l, HandleIncomeRequest dev a q = Ok l -> length l = 1%nat.
Proof.
  intros dev a [q|] l; cbn [HandleIncomeRequest]; [|intro E; assert (l = [HandleOutcomeResponse empty_request (SetStatus empty_response (str "400") (str "Bad Request"))]) as -> by congruence; reflexivity].
  unfold ServeHTTP. destruct (if dev then _ else _) as (ok, r1). destruct ok; cbn [negb].
  - match goal with |- (let! r2 := ?x in _) = _ -> _ => destruct x as [r2|] end; cbn [bind]; [|discriminate]. intro E. assert (l = [HandleOutcomeResponse q r2]) as -> by congruence. reflexivity.
  - intro E. assert (l = [HandleOutcomeResponse q r1]) as -> by congruence. reflexivity.
Qed.
Print Assumptions C90_one_response.
(** The answer keeps the status the routed service chose and the version of the request. *)
Lemma outcome_status q r : r_code (HandleOutcomeResponse q r) = r_code r /\ r_phrase (HandleOutcomeResponse q r) = r_phrase r /\ r_body (HandleOutcomeResponse q r) = r_body r /\ r_version (HandleOutcomeResponse q r) = q_version q.
Proof. unfold HandleOutcomeResponse. destruct (body_MediaType _), (body_CompressType _), (0 <? _); cbn; auto. Qed.
Theorem C90_method_not_allowed : forall a q, path (q_uri q) = str "/s" -> q_method q <> str "POST" ->
  exists r, ServeHTTP true a q empty_response = Ok [r] /\ r_code r = str "405" /\ r_version r = q_version q.
Proof. change (str "/s") with MuxService_Path.
  intros a q P M. unfold ServeHTTP. cbn [negb]. rewrite P. change (beq MuxService_Path MuxService_Path) with true. cbv iota. unfold Mux.
  replace (beq (q_method q) (str "POST")) with false by (symmetry; apply beq_false; exact M). cbn [negb bind]. eexists. split; [reflexivity|].
  pose proof (outcome_status q (SetStatus empty_response (str "405") (str "Method Not Allowed"))) as (-> & _ & _ & ->). auto.
Qed.
Print Assumptions C90_method_not_allowed.
(** A POST to /s with the text of an id runs exactly the service of that id; without one, 404. *)
Theorem C90_service_by_id : forall a q uuid t id, path (q_uri q) = str "/s" -> q_method q = str "POST" ->
  length uuid = 32%nat -> wf_bytes uuid -> IDasString uuid = Ok t -> id32 uuid = Ok id -> query (q_uri q) = t -> length (not_found_uuid a) = 32%nat ->
  match service_by_id a id with
  | None => exists r, ServeHTTP true a q empty_response = Ok [r] /\ r_code r = str "404" /\ r_phrase r = str "Not Found"
  | Some serve => forall r, serve q (res_Set empty_response (str "X-Robots-Tag") (str "noindex")) = (r, None) ->
      ServeHTTP true a q empty_response = Ok [HandleOutcomeResponse q r]
  end.
Proof. change (str "/s") with MuxService_Path. change (str "X-Robots-Tag") with HeaderKey_Robots.
  intros a q uuid t id P M L W T I Q N. destruct (C61_round_trip uuid L W) as (t' & v & T' & I' & R). assert (t' = t) by congruence. assert (v = id) by congruence. subst t' v.
  unfold ServeHTTP. cbn [negb]. rewrite P. change (beq MuxService_Path MuxService_Path) with true. cbv iota. unfold Mux. rewrite M. change (beq (str "POST") (str "POST")) with true. cbn [negb]. rewrite Q, R. cbn [bind].
  destruct (service_by_id a id) as [serve|].
  - intros r E. rewrite E. reflexivity.
  - unfold SetError. rewrite (id_text _ N). cbn [bind]. eexists. split; [reflexivity|].
    match goal with |- context [HandleOutcomeResponse q ?x] => pose proof (outcome_status q x) as (-> & -> & _) end. cbn. auto.
Qed.
Print Assumptions C90_service_by_id.
(** One request can stop the server: a POST to /s whose query is the text of more than eight bytes. *)
Theorem C90_panic_refuted : forall a q l, path (q_uri q) = str "/s" -> q_method q = str "POST" -> wf_bytes l -> 8 < zlen l ->
  query (q_uri q) = b64_encode url_char l -> ServeHTTP true a q empty_response = Panic.
Proof. change (str "/s") with MuxService_Path.
  intros a q l P M W L Q. unfold ServeHTTP. cbn [negb]. rewrite P. change (beq MuxService_Path MuxService_Path) with true. cbv iota. unfold Mux. rewrite M. change (beq (str "POST") (str "POST")) with true. cbn [negb]. rewrite Q, C61_long_refuted by assumption. reflexivity.
Qed.
Print Assumptions C90_panic_refuted.
(** Any other path: the service registered for it, else the file, else the main page, else a panic. *)
Theorem C90_by_path : forall a q, path (q_uri q) <> str "/s" -> path (q_uri q) <> str "/l" ->
  match service_by_uri a (path (q_uri q)), file_by_path a (path (q_uri q)), main_html a with
  | Some serve, _, _ => ServeHTTP true a q empty_response = Ok [HandleOutcomeResponse q (fst (serve q empty_response))]
  | None, Some f, _ | None, None, Some f => exists r, ServeHTTP true a q empty_response = Ok [r] /\ r_code r = str "200" /\ r_body r = Some f
  | None, None, None => ServeHTTP true a q empty_response = Panic
  end.
Proof. change (str "/s") with MuxService_Path. change (str "/l") with LandingService_Path.
  intros a q N1 N2. unfold ServeHTTP. cbn [negb]. replace (beq (path (q_uri q)) MuxService_Path) with false by (symmetry; apply beq_false; exact N1). replace (beq (path (q_uri q)) LandingService_Path) with false by (symmetry; apply beq_false; exact N2).
  destruct (service_by_uri a (path (q_uri q))) as [serve|]; [reflexivity|]. unfold ServeWWW.
  destruct (file_by_path a (path (q_uri q))) as [f|]; [|destruct (main_html a) as [f|]; [|reflexivity]];
  (cbn [bind]; eexists; split; [reflexivity|]; match goal with |- context [HandleOutcomeResponse q ?x] => pose proof (outcome_status q x) as (-> & _ & -> & _) end; cbn; auto).
Qed.
Print Assumptions C90_by_path.
(** The landing path, and in production every refused host, are answered without any status. *)
Theorem C90_no_status_refuted : forall a q, path (q_uri q) = str "/l" ->
  exists r, ServeHTTP true a q empty_response = Ok [r] /\ r_code r = [] /\ ~ status_line r.
Proof. change (str "/l") with LandingService_Path.
  intros a q P. unfold ServeHTTP. cbn [negb]. rewrite P. change (beq LandingService_Path MuxService_Path) with false. change (beq LandingService_Path LandingService_Path) with true. cbn [bind]. eexists. split; [reflexivity|]. unfold status_line.
  pose proof (outcome_status q empty_response) as (-> & _). split; [reflexivity|discriminate].
Qed.
Print Assumptions C90_no_status_refuted.
Theorem C90_refused_host_refuted : forall a q, domain a <> [] -> q_host q <> [] -> ~ digit_first (q_host q) -> q_host q <> domain a -> q_host q <> www (domain a) ->
  exists r, ServeHTTP false a q empty_response = Ok [r] /\ r_code r = [] /\ ~ status_line r.
Proof.
  intros a q ND N0 D N1 N2. assert (fst (HostSupported (domain a) q empty_response) = false) as F.
  { destruct (fst _) eqn:F; [|reflexivity]. apply C88_served_exact in F. tauto. }
  pose proof (C88_redirected_exact (domain a) q empty_response ND eq_refl F) as R. cbv zeta in R.
  replace (is_digit_at0 (q_host q)) with false in R by (symmetry; apply not_true_iff_false; rewrite digit_first_iff; exact D).
  replace (beq (q_host q) (www (domain a))) with false in R by (symmetry; apply beq_false; exact N2). cbn [orb] in R.
  unfold ServeHTTP. destruct (HostSupported (domain a) q empty_response) as (ok, r1). cbn [fst snd] in *. subst ok r1. cbn [negb]. eexists. split; [reflexivity|].
  unfold status_line. pose proof (outcome_status q empty_response) as (-> & _). split; [reflexivity|discriminate].
Qed.
Print Assumptions C90_refused_host_refuted.
Definition sample_app : application := {| domain := str "example.com"; service_by_id := fun id => if id =? 506381209866536711 then Some (fun _ r => (SetStatus r (str "200") (str "OK"), None)) else None;
  service_by_uri := fun _ => None; file_by_path := fun p => if beq p (str "/shop") then Some {| c_len := 5; c_media := Some (str "text/html"); c_coding := None |} else None; main_html := None; not_found_uuid := repeat 9 32 |}.
Definition post (query : bytes) : request := {| q_method := str "POST"; q_uri := Uri None [] [] MuxService_Path query []; q_host := str "example.com"; q_version := str "HTTP/1.1"; q_head := HInit |}.
Example C90_nonvacuous :
  (exists r, HandleIncomeRequest false sample_app (Some (post (str "BwcHBwcHBwc"))) = Ok [r] /\ r_code r = str "200") /\
  (exists r, HandleIncomeRequest false sample_app (Some (post (str "CAgICAgICAg"))) = Ok [r] /\ r_code r = str "404") /\
  HandleIncomeRequest false sample_app (Some (post (b64_encode url_char (repeat 1 9)))) = Panic /\
  (exists r, HandleIncomeRequest false sample_app (Some (sample_request (str "example.com"))) = Ok [r] /\ r_code r = str "200" /\ body_Len (r_body r) = 5).
Proof. repeat split; try reflexivity; eexists; repeat split. Qed.

(** * C91 *)
Lemma lines_app a b k : lines_of (a ++ b) k = lines_of a k ++ lines_of b k.
Proof. unfold lines_of. rewrite filter_app, map_app. reflexivity. Qed.
Lemma lines_none h k : has h k = false -> lines_of h k = [].
Proof. unfold has, lines_of. induction h as [|l h IH]; [reflexivity|]. cbn [existsb filter]. destruct (same (fst l) k); [discriminate|]. exact IH. Qed.
Lemma lines_set h k k' v : k <> k' -> lines_of (Header_Set h k v) k' = lines_of h k'.
Proof.
  intro N. rewrite Set_spec. destruct (has h k); [reflexivity|]. rewrite lines_app. unfold lines_of at 2. cbn [filter fst].
  destruct (same k k') eqn:E; [apply same_eq in E; contradiction|]. apply app_nil_r.
Qed.
Definition framed (q : request) (r : response) : response :=
  let r := SetVersion r (q_version q) in
  let r := match body_MediaType (r_body r) with Some m => res_Set r HeaderKey_ContentType m | None => r end in
  match body_CompressType (r_body r) with Some c => res_Set r HeaderKey_ContentEncoding c | None => r end.
Lemma framed_lines q r k : k <> HeaderKey_ContentType -> k <> HeaderKey_ContentEncoding -> lines_of (r_head (framed q r)) k = lines_of (r_head r) k.
Proof.
  intros N1 N2. unfold framed. destruct (body_MediaType _); destruct (body_CompressType _); cbn [res_Set with_head SetVersion r_head]; rewrite ?lines_set by (intro K; congruence); reflexivity.
Qed.
Lemma outcome_eq q r : HandleOutcomeResponse q r = if 0 <? body_Len (r_body r) then with_head (framed q r) (Header_Add (r_head (framed q r)) HeaderKey_ContentLength (FormatUint10 (u64 (body_Len (r_body r)))))
  else with_head (framed q r) (Header_Add (r_head (framed q r)) HeaderKey_TransferEncoding Chunked).
Proof. unfold HandleOutcomeResponse, framed. destruct (body_MediaType _); destruct (body_CompressType _); cbn [res_Set with_head SetVersion r_head r_body]; reflexivity. Qed.
(** A response with a body says how long it is, exactly once, if the service did not say so itself, *)
Theorem C91_length_partial : forall q r n, body_Len (r_body r) = n -> 0 < n < 2 ^ 63 -> has (r_head r) (str "Content-Length") = false -> has (r_head r) (str "Transfer-Encoding") = false ->
  let r' := HandleOutcomeResponse q r in
  lines_of (r_head r') (str "Content-Length") = [FormatUint10 n] /\ ContentLength (r_head r') = n /\ lines_of (r_head r') (str "Transfer-Encoding") = [] /\ r_body r' = r_body r.
Proof. change (str "Transfer-Encoding") with HeaderKey_TransferEncoding. change (str "Content-Length") with HeaderKey_ContentLength.
  intros q r n E B H1 H2. cbv zeta. rewrite outcome_eq, E. replace (0 <? n) with true by lia. rewrite (u64_small n) by lia. unfold with_head, Header_Add. cbn [r_head r_body].
  assert (lines_of (r_head (framed q r) ++ [(HeaderKey_ContentLength, FormatUint10 n)]) HeaderKey_ContentLength = [FormatUint10 n]) as G1.
  { rewrite lines_app, framed_lines by discriminate. rewrite (lines_none _ _ H1). reflexivity. }
  split; [exact G1|]. split; [|split].
  - unfold ContentLength. rewrite Get_spec, lookup_app. 
    destruct (has (r_head (framed q r)) HeaderKey_ContentLength) eqn:K; [|cbn [lookup fst snd]; rewrite same_refl, ParseUint10_format by lia; reflexivity].
    exfalso. assert (lines_of (r_head (framed q r)) HeaderKey_ContentLength = []) as Z0 by (rewrite framed_lines by discriminate; apply lines_none; exact H1).
    revert K Z0. generalize (r_head (framed q r)). intros h. unfold has, lines_of. induction h as [|l h IH]; [discriminate|]. cbn [existsb filter]. destruct (same (fst l) HeaderKey_ContentLength); [discriminate|exact IH].
  - rewrite lines_app, framed_lines by discriminate. rewrite (lines_none _ _ H2). reflexivity.
  - unfold framed. destruct (body_MediaType _); destruct (body_CompressType _); reflexivity.
Qed.
Print Assumptions C91_length_partial.
(** and the lines for its type and its coding are there unless the service wrote its own. *)
Theorem C91_type_lines : forall q r c, r_body r = Some c -> has (r_head r) (str "Content-Type") = false -> has (r_head r) (str "Content-Encoding") = false ->
  let r' := HandleOutcomeResponse q r in
  lines_of (r_head r') (str "Content-Type") = match c_media c with Some m => [m] | None => [] end /\
  lines_of (r_head r') (str "Content-Encoding") = match c_coding c with Some m => [m] | None => [] end.
Proof. change (str "Content-Encoding") with HeaderKey_ContentEncoding. change (str "Content-Type") with HeaderKey_ContentType.
  intros q r c E H1 H2. cbv zeta. rewrite outcome_eq, E. 
  assert (lines_of (r_head (framed q r)) HeaderKey_ContentType = match c_media c with Some m => [m] | None => [] end /\
    lines_of (r_head (framed q r)) HeaderKey_ContentEncoding = match c_coding c with Some m => [m] | None => [] end) as (G1 & G2).
  { unfold framed. cbn [SetVersion r_body]. rewrite E. cbn [body_MediaType body_CompressType].
    destruct (c_media c) as [m|]; cbn [res_Set with_head SetVersion r_head r_body]; rewrite ?E; cbn [body_CompressType]; destruct (c_coding c) as [z|]; cbn [res_Set with_head SetVersion r_head r_body];
    rewrite ?Set_spec, ?H1, ?has_app, ?H2; cbn [has existsb fst]; change (same HeaderKey_ContentType HeaderKey_ContentEncoding) with false; cbn [orb]; rewrite ?H2, ?lines_app; 
    rewrite ?(lines_none _ _ H1), ?(lines_none _ _ H2); split; reflexivity. }
  destruct (0 <? _); unfold with_head, Header_Add; cbn [r_head]; rewrite !lines_app, G1, G2; split; destruct (c_media c), (c_coding c); reflexivity.
Qed.
Print Assumptions C91_type_lines.
(** A service that sets the length itself makes it appear twice, *)
Theorem C91_twice_refuted : forall q r n, body_Len (r_body r) = n -> 0 < n < 2 ^ 63 -> lines_of (r_head r) (str "Content-Length") = [FormatUint10 n] ->
  lines_of (r_head (HandleOutcomeResponse q r)) (str "Content-Length") = [FormatUint10 n; FormatUint10 n].
Proof. change (str "Content-Length") with HeaderKey_ContentLength.
  intros q r n E B H. rewrite outcome_eq, E. replace (0 <? n) with true by lia. rewrite (u64_small n) by lia. unfold with_head, Header_Add. cbn [r_head].
  rewrite lines_app, framed_lines by discriminate. rewrite H. reflexivity.
Qed.
Print Assumptions C91_twice_refuted.
(** and a response without a body, such as every redirect, 400, 404 and 405, is announced as
    chunked, with no length, though not one chunk follows. *)
Theorem C91_no_body_refuted : forall q r, body_Len (r_body r) <= 0 -> has (r_head r) (str "Content-Length") = false ->
  let r' := HandleOutcomeResponse q r in In (str "chunked") (lines_of (r_head r') (str "Transfer-Encoding")) /\ lines_of (r_head r') (str "Content-Length") = [] /\ body_Len (r_body r') <= 0.
Proof. change (str "Transfer-Encoding") with HeaderKey_TransferEncoding. change (str "Content-Length") with HeaderKey_ContentLength. change (str "chunked") with Chunked.
  intros q r B H. cbv zeta. pose proof (outcome_status q r) as (_ & _ & -> & _). rewrite outcome_eq. replace (0 <? _) with false by lia. unfold with_head, Header_Add. cbn [r_head].
  rewrite !lines_app, !framed_lines by discriminate. rewrite (lines_none _ _ H). repeat split; [|exact B]. apply in_or_app. right. left. reflexivity.
Qed.
Print Assumptions C91_no_body_refuted.
(** in particular one whose body was never set *)
Theorem C91_body_never_set_refuted : forall q r, r_body r = None -> has (r_head r) (str "Content-Length") = false ->
  let r' := HandleOutcomeResponse q r in In (str "chunked") (lines_of (r_head r') (str "Transfer-Encoding")) /\ lines_of (r_head r') (str "Content-Length") = [] /\ r_body r' = None.
Proof. change (str "Transfer-Encoding") with HeaderKey_TransferEncoding. change (str "Content-Length") with HeaderKey_ContentLength. change (str "chunked") with Chunked.
  intros q r B H. pose proof (C91_no_body_refuted q r) as C. rewrite B in C. cbn [body_Len] in C. specialize (C (Z.le_refl 0) H). cbv zeta in *.
  destruct C as (C1 & C2 & _). repeat split; [exact C1|exact C2|]. pose proof (outcome_status q r) as (_ & _ & -> & _). exact B.
Qed.
Print Assumptions C91_body_never_set_refuted.
Example C91_nonvacuous :
  (exists r, HandleIncomeRequest false sample_app (Some (sample_request (str "example.com"))) = Ok [r] /\ lines_of (r_head r) HeaderKey_ContentLength = [str "5"] /\ lines_of (r_head r) HeaderKey_ContentType = [str "text/html"]) /\
  (exists r, HandleIncomeRequest false sample_app None = Ok [r] /\ r_code r = str "400" /\ lines_of (r_head r) HeaderKey_TransferEncoding = [Chunked] /\ r_body r = None).
Proof. split; eexists; repeat split. Qed.
