(** Property theorems C21-C25, C67-C69 (net/http). *)
From Coq Require Import Permutation Sorted ZifyBool.
From Verif Require Import Go GoFacts UriModel UriProofs UriProofs2 StrconvModel IntSpec IntProofs JsonProofs StringsModel StringsProofs HttpModel HttpSpec HttpProofs HttpProofs2 HttpProofs3.
Local Open Scope Z_scope.

(** * C21 *)

(** What get returns after any history, on any header: the line already there, or
    else the value of the first add or set of that name. *)
Theorem C21_first_write_wins : forall ops h k,
  Header_Get (run_ops h ops) k = if has h k then lookup h k else first_write ops k.
Proof. intros. rewrite Get_spec. apply first_write_wins. Qed.
Print Assumptions C21_first_write_wins.

(** So the multimap law fails, for every name: set does not replace ... *)
Theorem C21_set_refuted : forall k v w, k <> [] -> v <> w ->
  Header_Get (run_ops HInit [HAdd k v; HSet k w]) k <> lookup (fold_left ideal [HAdd k v; HSet k w] HInit) k.
Proof.
  intros k v w K N. rewrite C21_first_write_wins.
  assert (H0 : has HInit k = false).
  { unfold HInit. generalize 16%nat. induction n as [|n IH]; [reflexivity|]. cbn [repeat has existsb fst].
    unfold same at 1. destruct (list_eq_dec Z.eq_dec [] k); [congruence|]. exact IH. }
  rewrite H0. cbn [first_write fold_left ideal]. rewrite same_refl.
  assert (R : forall h, has h k = false -> replace (h ++ [(k, v)]) k w = h ++ [(k, w)]).
  { induction h as [|l h IH]; cbn [app replace has existsb fst]; [now rewrite same_refl|].
    destruct (same (fst l) k); [discriminate|]. intros H. now rewrite IH. }
  rewrite R, lookup_app, H0 by assumption. cbn [lookup fst snd]. rewrite same_refl. assumption.
Qed.
Print Assumptions C21_set_refuted.

(** ... and delete removes nothing. *)
Theorem C21_del_refuted : forall k v, k <> [] -> v <> [] ->
  Header_Get (run_ops HInit [HAdd k v; HDel k]) k = v /\ lookup (fold_left ideal [HAdd k v; HDel k] HInit) k = [].
Proof.
  intros k v K N. rewrite C21_first_write_wins.
  assert (H0 : has HInit k = false).
  { unfold HInit. generalize 16%nat. induction n as [|n IH]; [reflexivity|]. cbn [repeat has existsb fst].
    unfold same at 1. destruct (list_eq_dec Z.eq_dec [] k); [congruence|]. exact IH. }
  rewrite H0. cbn [first_write fold_left ideal]. rewrite same_refl. split; [reflexivity|].
  apply lookup_absent. unfold has, without. apply not_true_is_false. rewrite existsb_exists.
  intros (l & I & S). apply filter_In in I as (_ & F). rewrite S in F. discriminate.
Qed.
Print Assumptions C21_del_refuted.

Example C21_set_case : Header_Get (run_ops HInit [HAdd (str "Host") (str "a"); HSet (str "Host") (str "b")]) (str "Host") = str "a".
Proof. vm_compute. reflexivity. Qed.

(** Where the law holds: histories in which set and delete name nothing present. *)
Theorem C21_fresh_histories_partial : forall ops h, fresh_history h ops ->
  run_ops h ops = fold_left ideal ops h /\ forall k, Header_Get (run_ops h ops) k = lookup (fold_left ideal ops h) k.
Proof. intros ops h F. split; [now apply fresh_ideal|]. intros k. rewrite Get_spec. now rewrite fresh_ideal. Qed.
Print Assumptions C21_fresh_histories_partial.

Example C21_fresh_case : fresh_history HInit [HSet (str "A") (str "1"); HAdd (str "A") (str "2"); HDel (str "B")].
Proof. repeat (constructor; [vm_compute; auto|]). constructor. Qed.

(** Find returns the first line of the name at or after the start index. *)
Theorem C21_find_exact : forall h i k v j,
  nth_error h j = Some (k, v) -> (i <= j)%nat ->
  (forall m w, (i <= m < j)%nat -> nth_error h m <> Some (k, w)) ->
  Header_Find h i k = (v, j).
Proof.
  intros h i k v j A B C. unfold Header_Find. assert (find_from h i k = Some (v, j)) as -> by (apply find_from_spec; auto).
  reflexivity.
Qed.
Print Assumptions C21_find_exact.
Theorem C21_find_absent : forall h i k, (forall m w, (i <= m)%nat -> nth_error h m <> Some (k, w)) ->
  Header_Find h i k = ([], O).
Proof.
  intros h i k A. unfold Header_Find. destruct (find_from h i k) as [[v j]|] eqn:E; [|reflexivity].
  apply find_from_spec in E as (E & L & _). exfalso. exact (A j v L E).
Qed.
Print Assumptions C21_find_absent.

(** * C22: codings read from the last *)

(** A single coding loses its first byte; of two or more, the one before the last
    loses its last byte; an empty coding before the comma crashes. *)
Theorem C22_last_exact : forall e, ~ In 44 e ->
  (e <> [] -> EncodingLast e = Ok (tl e, true, [])) /\
  (forall pre b, EncodingLast (pre ++ [b] ++ str "," ++ e) = Ok (e, true, pre)) /\
  EncodingLast (str "," ++ e) = Panic /\
  EncodingLast [] = Ok ([], false, []).
Proof.
  intros e N. split; [intros H; now apply encoding_single|]. split; [intros; now apply encoding_list|].
  split; [now apply encoding_comma|reflexivity].
Qed.
Print Assumptions C22_last_exact.

(** For every single coding and every list of two the reading is wrong. *)
Theorem C22_last_refuted : forall a b, ~ In 44 a -> ~ In 44 b -> a <> [] -> b <> [] ->
  EncodingLast a <> Ok (a, true, []) /\ EncodingLast (a ++ str "," ++ b) <> Ok (b, true, a).
Proof.
  intros a b A B Na Nb. split.
  - rewrite encoding_single by assumption. destruct a as [|x a]; [congruence|]. cbn. intros E. injection E as E.
    apply (f_equal (@length Z)) in E. cbn in E. lia.
  - destruct (@exists_last _ a Na) as (p & c & ->). rewrite <- app_assoc.
    pose proof (encoding_list p c b B) as L. cbn [app] in L. change ([c] ++ str "," ++ b) with (c :: 44 :: b). rewrite L. intros E. injection E as E.
    apply (f_equal (@length Z)) in E. rewrite app_length in E. cbn in E. lia.
Qed.
Print Assumptions C22_last_refuted.

(** What holds: of two or more codings the last one is returned whole. *)
Theorem C22_last_coding_partial : forall a b, ~ In 44 b -> a <> [] ->
  exists rest, EncodingLast (a ++ str "," ++ b) = Ok (b, true, rest) /\ (length rest < length a)%nat.
Proof.
  intros a b B Na. destruct (@exists_last _ a Na) as (p & c & ->). exists p. split.
  - rewrite <- app_assoc. now apply encoding_list.
  - rewrite app_length. cbn. lia.
Qed.
Print Assumptions C22_last_coding_partial.

Example C22_case : EncodingLast (str "gzip") = Ok (str "zip", true, []) /\
  EncodingLast (str "gzip,br") = Ok (str "br", true, str "gzi") /\ EncodingLast (str ",br") = Panic.
Proof. repeat split; vm_compute; reflexivity. Qed.

(** * C23 *)

(** Serialise then parse, for every legal cookie: the cookie again, unless a flag
    attribute comes with SameSite, and then the parser crashes. *)
Theorem C23_set_cookie_exact : forall sc, sc_legal sc ->
  SC_Unmarshal no_sc (SC_Marshal sc) =
  Some (if (sc_httponly sc || sc_secure sc) && (0 <? zlen (sc_samesite sc)) then Panic else Ok sc).
Proof. exact set_cookie_exact. Qed.
Print Assumptions C23_set_cookie_exact.

Theorem C23_set_cookie_round_trip_partial : forall sc, sc_legal sc ->
  sc_samesite sc = [] \/ (sc_httponly sc = false /\ sc_secure sc = false) ->
  SC_Unmarshal no_sc (SC_Marshal sc) = Some (Ok sc).
Proof.
  intros sc L [E|(E1 & E2)]; rewrite C23_set_cookie_exact by assumption; [rewrite E|rewrite E1, E2]; [|reflexivity].
  now rewrite andb_false_r.
Qed.
Print Assumptions C23_set_cookie_round_trip_partial.

Theorem C23_set_cookie_refuted : forall sc, sc_legal sc ->
  sc_samesite sc <> [] -> sc_httponly sc = true \/ sc_secure sc = true ->
  SC_Unmarshal no_sc (SC_Marshal sc) = Some Panic.
Proof.
  intros sc L N B. rewrite C23_set_cookie_exact by assumption.
  replace (0 <? zlen (sc_samesite sc)) with true.
  2:{ destruct (sc_samesite sc) as [|x l]; [congruence|]. rewrite zlen_cons. pose proof (zlen_nonneg l). lia. }
  destruct B as [->| ->]; [|rewrite orb_true_r]; reflexivity.
Qed.
Print Assumptions C23_set_cookie_refuted.

Definition session_cookie : setCookie :=
  SC (str "id") (str "a=b") (str "/") (str "x.org") [] (str "60") true true [].
Example C23_set_cookie_case : sc_legal session_cookie /\
  SC_Marshal session_cookie = str "id=a=b; Path=/; Domain=x.org; Max-Age=60; HttpOnly; Secure" /\
  sc_legal (SC (str "id") (str "v") [] [] [] [] true false (str "Lax")).
Proof.
  repeat split; try (vm_compute; reflexivity); try discriminate; try (vm_compute; intuition discriminate);
  repeat constructor; vm_compute; intuition discriminate.
Qed.

(** A cookie with a value. *)
Theorem C23_cookie_round_trip : forall c c0, cookie_legal c -> c_value c <> [] ->
  Cookie_Unmarshal c0 (Cookie_Marshal c) = Ok c.
Proof. exact cookie_round_trip. Qed.
Print Assumptions C23_cookie_round_trip.

(** An empty value is lost. *)
Theorem C23_empty_value_refuted : forall n c0, cookie_name n ->
  Cookie_Unmarshal c0 (Cookie_Marshal (Cookie n [])) = Ok c0.
Proof.
  intros n c0 (N & E & _). unfold Cookie_Unmarshal, Cookie_Marshal. cbn [c_name c_value app].
  change (str "=" ++ []) with [61]. rewrite index_at by assumption. rewrite zlen_app. change (zlen [61]) with 1.
  replace (zlen n =? zlen n + 1 - 1) with true by lia. now rewrite orb_true_r.
Qed.
Print Assumptions C23_empty_value_refuted.

(** Reading a Cookie line while the reader says there is more. *)
Fixpoint drain (fuel : nat) (cs : bytes) : list cookie :=
  match fuel with
  | O => []
  | S f => match Cookies_Next cs with
           | Ok (c, true, rest) => c :: drain f rest
           | _ => []
           end
  end.
(** The last cookie is always lost. *)
Theorem C23_cookies_lose_last_refuted : forall l fuel,
  Forall cookie_legal l -> Forall (fun c => c_value c <> []) l -> (length l <= fuel)%nat ->
  drain fuel (Join (map Cookie_Marshal l) (str "; ")) = removelast l.
Proof.
  intros l fuel F V. revert fuel. induction F as [|c l Hc F IH]; intros fuel L.
  - destruct fuel; reflexivity.
  - inversion V as [|? ? Vc Vl]; subst. destruct fuel as [|fuel]; [cbn in L; lia|].
    destruct l as [|d l].
    + cbn [map Join removelast drain]. unfold Cookies_Next. destruct (zlen (Cookie_Marshal c) =? 0); [reflexivity|].
      rewrite cookie_last by assumption. reflexivity.
    + change (Join (map Cookie_Marshal (c :: d :: l)) (str "; ")) with
        (Cookie_Marshal c ++ 59 :: 32 :: Join (map Cookie_Marshal (d :: l)) (str "; ")).
      set (t := Join (map Cookie_Marshal (d :: l)) (str "; ")) in *.
      assert (T : 0 < zlen t).
      { unfold t. inversion F as [|? ? Hd _]; subst. pose proof (name_len d Hd). cbn [map Join].
        destruct (map Cookie_Marshal l); unfold Cookie_Marshal; rewrite ?zlen_app; pose proof (zlen_nonneg (c_value d));
        change (zlen (str "=")) with 1; [lia|]. pose proof (zlen_nonneg (Join (l0 :: l1) (str "; "))). change (zlen (str "; ")) with 2. lia. }
      cbn [drain]. unfold Cookies_Next.
      replace (zlen (Cookie_Marshal c ++ 59 :: 32 :: t) =? 0) with false.
      2:{ rewrite zlen_app, !zlen_cons. pose proof (zlen_nonneg (Cookie_Marshal c)). lia. }
      rewrite cookie_first by assumption. cbn [bind]. replace (0 <? zlen t) with true by lia.
      change (removelast (c :: d :: l)) with (c :: removelast (d :: l)). f_equal. apply IH; [assumption|cbn in *; lia].
Qed.
Print Assumptions C23_cookies_lose_last_refuted.

(** Read one at a time, every cookie of a line comes out with what follows it. *)
Theorem C23_cookie_line_partial : forall c t, cookie_legal c ->
  Cookie_UnmarshalFrom no_cookie (Cookie_Marshal c ++ str "; " ++ t) = Ok (c, t) /\
  (c_value c <> [] -> Cookie_UnmarshalFrom no_cookie (Cookie_Marshal c) = Ok (c, [])).
Proof. intros c t L. split; [now apply cookie_first|now apply cookie_last]. Qed.
Print Assumptions C23_cookie_line_partial.

(** Adding cookies to a header crashes, whatever the list. *)
Theorem C23_add_cookie_refuted : forall h l, AddCookie h l = Some Panic.
Proof.
  intros h l. unfold AddCookie.
  assert (G : forall n i b, (Z.to_nat (zlen l - i) < n)%nat -> 0 <= i <= zlen l -> add_cookie_loop n l i b = Some Panic).
  { induction n as [|n IH]; intros i b Hn Hi; [lia|]. cbn [add_cookie_loop].
    destruct (Z.eq_dec i (zlen l)) as [->|N]; [rewrite idx_panic by lia; reflexivity|].
    destruct (idx_in_range l i ltac:(lia)) as (c & ->). replace (i <? zlen l) with true by lia. apply IH; lia. }
  rewrite G; [reflexivity| |]; unfold zlen; lia.
Qed.
Print Assumptions C23_add_cookie_refuted.

Definition two_cookies := [Cookie (str "a") (str "1"); Cookie (str "b") (str "2")].
Example C23_cookies_case : Forall cookie_legal two_cookies /\
  Join (map Cookie_Marshal two_cookies) (str "; ") = str "a=1; b=2" /\ drain 5 (str "a=1; b=2") = [Cookie (str "a") (str "1")].
Proof.
  split; [|split; vm_compute; reflexivity]. repeat constructor; try discriminate; vm_compute; intuition discriminate.
Qed.

(** * C24 *)

(** Each sanitiser as a map on octets, its error flag, and idempotence. *)
Theorem C24_value_exact : forall v,
  let '(out, err) := sanitizeCookieValue v in
  Forall (fun b => cookie_octet b \/ b = 59) out /\
  (err = false <-> Forall (fun b => cookie_octet b \/ b = 59) v) /\
  (err = false -> out = v) /\
  sanitizeCookieValue out = (out, false) /\
  (forall keep, (forall b, keep b = true <-> cookie_octet b \/ b = 59) -> out = filter keep v).
Proof.
  intros v. rewrite value_spec.
  assert (B : forall b, value_byte b = true <-> cookie_octet b \/ b = 59) by (intros b; unfold value_byte, cookie_octet; lia).
  assert (FB : forall l, forallb value_byte l = true <-> Forall (fun b => cookie_octet b \/ b = 59) l).
  { intros l. rewrite forallb_forall, Forall_forall. split; intros H x I; apply B; auto. }
  split; [|split; [|split; [|split]]].
  - apply Forall_forall. intros x I. apply filter_In in I as (_ & I). now apply B.
  - rewrite <- FB. destruct (forallb value_byte v); cbn; intuition discriminate.
  - intros H. apply filter_id. destruct (forallb value_byte v); [reflexivity|discriminate].
  - rewrite value_spec, filter_idem. f_equal. apply negb_false_iff. apply forallb_forall. intros x I. now apply filter_In in I.
  - intros keep K. apply filter_ext. intros b. apply eq_true_iff_eq. rewrite K. apply B.
Qed.
Print Assumptions C24_value_exact.

Theorem C24_path_exact : forall v,
  let '(out, err) := sanitizeCookiePath v in
  Forall (fun b => path_octet b \/ b = 59) out /\
  (err = false <-> Forall (fun b => path_octet b \/ b = 59) v) /\
  (err = false -> out = v) /\
  sanitizeCookiePath out = (out, false) /\
  (forall keep, (forall b, keep b = true <-> path_octet b \/ b = 59) -> out = filter keep v).
Proof.
  intros v. rewrite path_spec.
  assert (B : forall b, path_byte b = true <-> path_octet b \/ b = 59) by (intros b; unfold path_byte, path_octet; lia).
  assert (FB : forall l, forallb path_byte l = true <-> Forall (fun b => path_octet b \/ b = 59) l).
  { intros l. rewrite forallb_forall, Forall_forall. split; intros H x I; apply B; auto. }
  split; [|split; [|split; [|split]]].
  - apply Forall_forall. intros x I. apply filter_In in I as (_ & I). now apply B.
  - rewrite <- FB. destruct (forallb path_byte v); cbn; intuition discriminate.
  - intros H. apply filter_id. destruct (forallb path_byte v); [reflexivity|discriminate].
  - rewrite path_spec, filter_idem. f_equal. apply negb_false_iff. apply forallb_forall. intros x I. now apply filter_In in I.
  - intros keep K. apply filter_ext. intros b. apply eq_true_iff_eq. rewrite K. apply B.
Qed.
Print Assumptions C24_path_exact.

Theorem C24_name_exact : forall n,
  let '(out, err) := sanitizeCookieName n in
  ~ In 10 out /\ ~ In 13 out /\ length out = length n /\
  (err = false <-> ~ In 10 n /\ ~ In 13 n) /\ (err = false -> out = n) /\
  sanitizeCookieName out = (out, false) /\
  (forall i b, nth_error n i = Some b -> nth_error out i = Some (if (b =? 10) || (b =? 13) then 45 else b)).
Proof.
  intros n. rewrite name_spec.
  assert (E : existsb (fun b => (b =? 10) || (b =? 13)) n = false <-> ~ In 10 n /\ ~ In 13 n).
  { rewrite <- not_true_iff_false, existsb_exists. split.
    - intros H. split; intros I; apply H; eexists; split; try exact I; lia.
    - intros (H1 & H2) (x & I & X). assert (x = 10 \/ x = 13) as [->| ->] by lia; tauto. }
  assert (D : forall x, dash x <> 10 /\ dash x <> 13) by (intros x; unfold dash; destruct ((x =? 10) || (x =? 13)) eqn:X; lia).
  assert (I1 : ~ In 10 (map dash n)) by (rewrite in_map_iff; intros (x & X & _); destruct (D x); contradiction).
  assert (I2 : ~ In 13 (map dash n)) by (rewrite in_map_iff; intros (x & X & _); destruct (D x); contradiction).
  assert (ID : forall m, ~ In 10 m -> ~ In 13 m -> map dash m = m).
  { induction m as [|x m IH]; intros A B; [reflexivity|]. cbn [map]. unfold dash at 1. cbn in A, B.
    destruct ((x =? 10) || (x =? 13)) eqn:X; [exfalso; assert (x = 10 \/ x = 13) by lia; tauto|]. f_equal. apply IH; tauto. }
  split; [assumption|]. split; [assumption|]. split; [apply map_length|]. split; [exact E|]. split; [|split].
  - intros H. apply E in H as (A & B). now apply ID.
  - rewrite name_spec. rewrite ID by assumption. f_equal. apply not_true_is_false. rewrite existsb_exists.
    intros (x & I & X). assert (x = 10 \/ x = 13) as [->| ->] by lia; tauto.
  - intros i b H. rewrite nth_error_map, H. reflexivity.
Qed.
Print Assumptions C24_name_exact.

(** Illegal octets go through: every name octet but CR and LF, and ';' in values
    and paths. *)
Theorem C24_illegal_octets_refuted :
  (forall b, b <> 10 -> b <> 13 -> sanitizeCookieName [b] = ([b], false)) /\
  sanitizeCookieValue (str "a;b") = (str "a;b", false) /\ ~ cookie_octet 59 /\
  sanitizeCookiePath (str "/a;b") = (str "/a;b", false) /\ ~ path_octet 59 /\
  sanitizeCookieName (str "a; b=c") = (str "a; b=c", false) /\ ~ token_octet 59.
Proof.
  split.
  { intros b A B. rewrite name_spec. cbn [map existsb]. unfold dash. destruct ((b =? 10) || (b =? 13)) eqn:E; [lia|]. reflexivity. }
  split; [vm_compute; reflexivity|]. split; [unfold cookie_octet; lia|]. split; [vm_compute; reflexivity|].
  split; [unfold path_octet; lia|]. split; [vm_compute; reflexivity|]. intros (_ & H & _). apply H. vm_compute. tauto.
Qed.
Print Assumptions C24_illegal_octets_refuted.

(** The domain sanitiser accepts exactly the host names, with at most one leading
    dot, of at most 255 octets, and returns them without that dot. *)
Theorem C24_domain_exact : forall d out err, sanitizeCookieDomain d = (out, err) ->
  (err = false <-> zlen d <= 255 /\ host_name out /\ (d = out \/ d = str "." ++ out)) /\
  (err = true -> out = []).
Proof.
  intros d out err H. rewrite domain_spec in H.
  assert (HN : forall x, host_name x -> x <> [] /\ hd 0 x <> 46).
  { exact host_head. }
  destruct ((zlen d =? 0) || (255 <? zlen d)) eqn:E.
  - injection H as <- <-. split; [|auto]. split; [discriminate|]. intros (L & Hn & _). exfalso. destruct (HN _ Hn). congruence.
  - set (e := match d with 46 :: t => t | _ => d end) in *. cbn zeta in H.
    assert (DE : d = e \/ d = 46 :: e).
    { unfold e. destruct d as [|c t]; [auto|]. destruct (Z.eq_dec c 46) as [->|N]; [auto|]. left.
      repeat match goal with |- context [match ?p with _ => _ end] => destruct p; try reflexivity end. congruence. }
    destruct (good_end (domain_loop e 46 0)) eqn:G; injection H as <- <-.
    + split; [|discriminate]. split; [|reflexivity]. intros _. split; [lia|]. split; [|exact DE].
      apply (domain_sound e []); [split; auto|exact G].
    + split; [|auto]. split; [discriminate|]. intros (_ & Hn & _). exfalso. destruct (HN _ Hn). congruence.
Qed.
Print Assumptions C24_domain_exact.

Theorem C24_domain_complete : forall d, host_name d -> zlen d <= 254 ->
  sanitizeCookieDomain d = (d, false) /\ sanitizeCookieDomain (str "." ++ d) = (d, false).
Proof.
  intros d H L. pose proof (domain_complete d H) as G.
  assert (N : d <> [] /\ hd 0 d <> 46).
  { now apply host_head. }
  destruct N as (N1 & N2). assert (1 <= zlen d) by (destruct d as [|c t]; [congruence|]; rewrite zlen_cons; pose proof (zlen_nonneg t); lia).
  split; rewrite domain_spec.
  - replace ((zlen d =? 0) || (255 <? zlen d)) with false by lia. cbn zeta.
    replace (match d with 46 :: t => t | _ => d end) with d; [now rewrite G|].
    destruct d as [|c t]; [congruence|]. cbn in N2.
    repeat match goal with |- context [match ?p with _ => _ end] => destruct p; try reflexivity end. congruence.
  - change (str "." ++ d) with (46 :: d). rewrite zlen_cons. replace ((1 + zlen d =? 0) || (255 <? 1 + zlen d)) with false by lia.
    cbn zeta. now rewrite G.
Qed.
Print Assumptions C24_domain_complete.

Example C24_case : sanitizeCookieValue (str "a b,c") = (str "abc", true) /\
  sanitizeCookieName ([97; 13; 10]) = (str "a--", true) /\
  sanitizeCookieDomain (str ".geniuses.group") = (str "geniuses.group", false) /\
  sanitizeCookieDomain (str "a-.b") = ([], true) /\ sanitizeCookieDomain (str "a..b") = ([], true).
Proof. repeat split; vm_compute; reflexivity. Qed.
Example C24_host_case : host_name (str "x-1.org").
Proof.
  apply (hn_dot (str "x-1") (str "org")); [|apply hn_one]; repeat split; try (vm_compute; congruence);
  try (vm_compute; repeat constructor; fail); try (repeat constructor; unfold alnum; vm_compute; intuition (try congruence); fail).
  - eexists; eexists; split; [reflexivity|vm_compute; congruence].
  - exists 49, (str "x-"). split; [reflexivity|lia].
  - eexists; eexists; split; [reflexivity|vm_compute; congruence].
  - exists 103, (str "or"). split; [reflexivity|lia].
Qed.

(** * C25 *)

(** Insertion by descending quality, for every list of entries: a permutation; the
    entries that have a rank (are not NaN) come out in descending order, equal ones
    in input order. *)
Definition numeric (m : mime) : bool := match snd m with Some _ => true | None => false end.
Theorem C25_sorted_stable : forall l,
  let out := fold_left insertMime l [] in
  Permutation out l /\ descending rank (filter numeric out) /\ stable rank (filter numeric l) (filter numeric out).
Proof.
  intros l out. unfold out. split; [apply inserts_perm|].
  assert (I : forall a e, filter numeric (insertMime a e) = if numeric e then insertMime (filter numeric a) e else filter numeric a).
  { induction a as [|x a IH]; intros e; cbn [insertMime filter].
    - destruct (numeric e); reflexivity.
    - destruct (qgt (snd e) (snd x)) eqn:Q.
      + assert (numeric e = true /\ numeric x = true) as (Ne & Nx) by (unfold numeric, qgt in *; destruct (snd e), (snd x); try discriminate; auto).
        cbn [filter]. rewrite Ne, Nx. cbn [insertMime]. rewrite Q. reflexivity.
      + cbn [filter]. rewrite IH. destruct (numeric x), (numeric e); cbn [insertMime]; rewrite ?Q; reflexivity. }
  assert (E : filter numeric (fold_left insertMime l []) = fold_left insertMime (filter numeric l) []).
  { change (@nil mime) with (filter numeric []) at 2. generalize (@nil mime). induction l as [|e l IH]; intros acc; [reflexivity|].
    cbn [fold_left filter]. rewrite IH, I. destruct (numeric e); reflexivity. }
  rewrite E. destruct (inserts_spec (filter numeric l)) as (A & B & _).
  { apply Forall_forall. intros x H. apply filter_In in H as (_ & H). unfold numeric in H. unfold ranked. destruct (snd x); congruence. }
  split; assumption.
Qed.
Print Assumptions C25_sorted_stable.

(** A header line: media ranges with "q=" weights, each padded with spaces. *)
Record range := Range { r_pad1 : nat; r_media : bytes; r_weight : option (bytes * bytes); r_pad2 : nat }.
Definition range_ok (r : range) : Prop :=
  (forall c, c = 44 \/ c = 59 \/ c = 32 -> ~ In c (r_media r)) /\
  match r_weight r with
  | None => True
  | Some (p, w) => forall c, c = 44 \/ c = 59 \/ c = 32 \/ c = 61 -> ~ In c p /\ ~ In c w
  end.
Definition range_core (r : range) : bytes :=
  r_media r ++ match r_weight r with None => [] | Some (p, w) => 59 :: p ++ 61 :: w end.
Definition range_text (r : range) : bytes := repeat 32 (r_pad1 r) ++ range_core r ++ repeat 32 (r_pad2 r).
Definition range_mime (PF : bytes -> option quality) (one : quality) (r : range) : option mime :=
  match r_weight r with None => Some (r_media r, one) | Some (_, w) => option_map (fun q => (r_media r, q)) (PF w) end.

Theorem C25_line_partial : forall PF one rs ms,
  rs <> [] -> Forall range_ok rs ->
  Forall2 (fun r m => range_mime PF one r = Some m) rs ms -> Forall ranked ms ->
  let out := sortMimes PF one (Join (map range_text rs) (str ",")) in
  descending rank out /\ stable rank ms out /\ Permutation out ms.
Proof.
  intros PF one rs ms N F M R out. unfold out. rewrite sortMimes_inserts. change (str ",") with [44].
  assert (NC : forall r c, range_ok r -> c = 44 \/ c = 32 -> ~ In c (range_core r)).
  { intros r c (A & B) Hc. unfold range_core. intros K. apply in_app_or in K as [K|K].
    - apply (A c); [tauto|assumption].
    - destruct (r_weight r) as [[p w]|]; [|destruct K]. destruct K as [K|K]; [lia|]. apply in_app_or in K as [K|[K|K]]; [|lia|];
      destruct (B c) as (B1 & B2); try tauto. }
  rewrite split_join.
  2:{ destruct rs; [congruence|discriminate]. }
  2:{ apply Forall_forall. intros x I. apply in_map_iff in I as (r & <- & I). rewrite Forall_forall in F. specialize (F r I).
      unfold range_text. intros K. apply in_app_or in K as [K|K]; [apply repeat_spec in K; lia|].
      apply in_app_or in K as [K|K]; [|apply repeat_spec in K; lia]. apply (NC r 44); auto. }
  assert (E : entries PF one (map range_text rs) = ms).
  { clear N R out. induction M as [|r m rs ms Hm M IH]; [reflexivity|]. inversion F as [|? ? Fr F']; subst.
    unfold entries in *. cbn [map flat_map]. rewrite IH by assumption.
    replace (accept_entry PF one (range_text r)) with (Some m); [reflexivity|]. symmetry.
    unfold accept_entry, range_text. rewrite trim_pad by (apply NC; auto). unfold range_core. destruct Fr as (A & B).
    unfold range_mime in Hm. destruct (r_weight r) as [[p w]|].
    - rewrite split_app by (apply A; tauto).
      rewrite split_none. 2:{ intros K. apply in_app_or in K as [K|[K|K]]; [|lia|]; destruct (B 59) as (B1 & B2); tauto. }
      rewrite split_app by (apply B; tauto). rewrite split_none by (apply B; tauto). exact Hm.
    - rewrite app_nil_r, split_none by (apply A; tauto). exact Hm. }
  rewrite E. now apply inserts_spec.
Qed.
Print Assumptions C25_line_partial.

Definition digits_only (w : bytes) : option quality := option_map Some (parse_digits w).
Example C25_line_case :
  Forall range_ok [Range 0 (str "text/html") None 0; Range 1 (str "a/b") (Some (str "q", str "3")) 1; Range 1 (str "c/d") (Some (str "q", str "7")) 0] /\
  sortMimes digits_only (Some 5) (str "text/html, a/b;q=3 , c/d;q=7") =
    [(str "c/d", Some 7); (str "text/html", Some 5); (str "a/b", Some 3)].
Proof.
  split; [|vm_compute; reflexivity].
  repeat constructor; cbn [r_media r_weight]; intros; repeat match goal with H : _ \/ _ |- _ => destruct H end; subst;
  vm_compute; intuition discriminate.
Qed.

(** Where the line's meaning is lost: the first parameter is taken for the weight,
    whatever its name, and an entry whose first parameter has no value is dropped. *)
Theorem C25_first_parameter_refuted : forall PF one q, PF (str "1") = Some q ->
  sortMimes PF one (str "a/b;level=1;q=0.2") = [(str "a/b", q)] /\
  sortMimes PF one (str "a/b;flag;q=0.2") = [].
Proof.
  intros PF one q H. split; unfold sortMimes; cbn [Split1 str]; [|reflexivity].
  change (fold_left _ _ []) with (match option_map (fun f => (str "a/b", f)) (PF (str "1")) with Some m => [m] | None => @nil mime end).
  rewrite H. reflexivity.
Qed.
Print Assumptions C25_first_parameter_refuted.

(** * C67: content type *)

(** "type/subtype; charset=..." and "type/subtype; boundary=..." are read exactly. *)
Theorem C67_content_type_partial : forall t s rest, plain t -> plain s -> plain rest ->
  (CT_FromString (t ++ str "/" ++ s ++ str "; charset=" ++ rest) =
   Ok (CT (if beq t (str "text") then TypeText else if beq t (str "application") then TypeApplication else TypeUnset)
          (if beq s (str "html") then SubHTML else if beq s (str "json") then SubJSON else SubUnset) rest [])) /\
  (CT_FromString (t ++ str "/" ++ s ++ str "; boundary=" ++ rest) =
   Ok (CT (if beq t (str "text") then TypeText else if beq t (str "application") then TypeApplication else TypeUnset)
          (if beq s (str "html") then SubHTML else if beq s (str "json") then SubJSON else SubUnset) [] rest)).
Proof.
  intros t s rest Pt Ps Pr. split; unfold CT_FromString.
  - change (t ++ str "/" ++ s ++ str "; charset=" ++ rest) with (t ++ 47 :: s ++ 59 :: 32 :: str "charset=" ++ rest).
    rewrite ct_parse; auto.
    2:{ destruct Pr. split; intros K; apply in_app_or in K as [K|K]; try contradiction; vm_compute in K; intuition discriminate. }
    cbn [bind]. rewrite (idx_ok _ 0 99); [|lia|reflexivity]. cbn [bind]. change (99 =? 99) with true. change (99 =? 98) with false. cbn iota.
    rewrite slice_from_mid by reflexivity. reflexivity.
  - change (t ++ str "/" ++ s ++ str "; boundary=" ++ rest) with (t ++ 47 :: s ++ 59 :: 32 :: str "boundary=" ++ rest).
    rewrite ct_parse; auto.
    2:{ destruct Pr. split; intros K; apply in_app_or in K as [K|K]; try contradiction; vm_compute in K; intuition discriminate. }
    cbn [bind]. rewrite (idx_ok _ 0 98); [|lia|reflexivity]. cbn [bind]. change (98 =? 99) with false. change (98 =? 98) with true. cbn iota.
    rewrite slice_from_mid by reflexivity. reflexivity.
Qed.
Print Assumptions C67_content_type_partial.

(** Without a parameter the subtype is never seen, and a header without the line,
    or one ending in ';', crashes the reader. *)
Theorem C67_no_parameter_refuted : forall t s, plain t -> plain s -> s <> [] -> hd 0 t <> 99 -> hd 0 t <> 98 -> t <> [] ->
  exists ty, CT_FromString (t ++ str "/" ++ s) = Ok (CT ty SubUnset [] []).
Proof.
  intros t s Pt Ps Ns H1 H2 Nt. unfold CT_FromString. change (t ++ str "/" ++ s) with (t ++ 47 :: s).
  assert (E : ct_loop (length (t ++ 47 :: s)) (t ++ 47 :: s) 0 [] [] 0 = Ok (t ++ 47 :: s, t, [])).
  { replace (length (t ++ 47 :: s)) with (length t + S (length s))%nat by (rewrite app_length; reflexivity).
    pose proof (ct_skip t (S (length s)) [] (47 :: s) [] [] 0 Pt) as E. cbn [app] in E. change (zlen (@nil Z)) with 0 in E.
    rewrite E. cbn [ct_loop]. pose proof (zlen_nonneg t). pose proof (zlen_nonneg s).
    rewrite zlen_app, zlen_cons. replace (0 + zlen t <? zlen t + (1 + zlen s)) with true by lia.
    rewrite (idx_ok _ _ 47). 2:lia. 2:{ rewrite nth_error_app2 by (unfold zlen; lia). replace (Z.to_nat (0 + zlen t) - length t)%nat with O by (unfold zlen; lia). reflexivity. }
    cbn [bind]. change (47 =? 47) with true. cbn iota. rewrite slice_to_mid by lia. cbn [bind].
    pose proof (ct_skip s 0 (t ++ [47]) [] t [] (0 + zlen t + 1) Ps) as E2.
    rewrite <- app_assoc, app_nil_r, Nat.add_0_r in E2. cbn [app] in E2. rewrite zlen_app in E2. change (zlen [47]) with 1 in E2.
    replace (0 + zlen t + 1) with (zlen t + 1) in * by lia. rewrite E2. apply ct_over. rewrite zlen_app, zlen_cons. lia. }
  rewrite E. cbn [bind]. destruct t as [|c t]; [congruence|]. cbn [hd] in *. rewrite (idx_ok _ 0 c); [|lia|reflexivity]. cbn [bind].
  replace (c =? 99) with false by lia. replace (c =? 98) with false by lia. cbn [bind]. eexists. reflexivity.
Qed.
Print Assumptions C67_no_parameter_refuted.

Theorem C67_absent_crash_refuted : forall h, has h HeaderKey_ContentType = false -> ContentType h = Panic.
Proof. intros h H. unfold ContentType. rewrite Get_spec, lookup_absent by assumption. reflexivity. Qed.
Print Assumptions C67_absent_crash_refuted.

Example C67_case : CT_FromString (str "text/html; charset=utf-8") = Ok (CT TypeText SubHTML (str "utf-8") []) /\
  CT_FromString (str "text/html") = Ok (CT TypeText SubUnset [] []) /\ CT_FromString (str "text/html;") = Panic /\
  ContentType HInit = Panic.
Proof. repeat split; vm_compute; reflexivity. Qed.

(** * C68: numbers in headers *)
Lemma ParseUint10_format bits n : 0 <= n < 2 ^ bits -> ParseUint10 bits (FormatUint10 n) = (n, false).
Proof. intros H. unfold ParseUint10. rewrite parse_digits_format by lia. replace (n <? 2 ^ bits) with true by lia. reflexivity. Qed.

Theorem C68_content_length : forall h n, has h HeaderKey_ContentLength = false -> 0 <= n < 2 ^ 64 ->
  ContentLength (AddContentLength h n) = n.
Proof.
  intros h n H R. unfold ContentLength, AddContentLength, Header_Add. rewrite Get_spec, lookup_app, H.
  cbn [lookup fst snd]. rewrite same_refl. now rewrite ParseUint10_format.
Qed.
Print Assumptions C68_content_length.

(** What is read from any header: the first value, if it is a numeral; numerals too large read as the largest
    number there is, and everything else as no content at all. *)
Theorem C68_content_length_exact : forall h, ContentLength h =
  (if negb (beq (lookup h (str "Content-Length")) []) && forallb (fun c => (48 <=? c) && (c <=? 57)) (lookup h (str "Content-Length"))
   then Z.min (dec_value (lookup h (str "Content-Length"))) (2 ^ 64 - 1) else 0).
Proof.
  intros h. change (str "Content-Length") with HeaderKey_ContentLength. unfold ContentLength. rewrite Get_spec. set (v := lookup h _).
  unfold ParseUint10, parse_digits. destruct (beq v []); [reflexivity|]. cbn [negb andb].
  change (forallb (fun c => (48 <=? c) && (c <=? 57)) v) with (forallb digit v). destruct (forallb digit v); [|reflexivity].
  fold (dec_value v). destruct (dec_value v <? 2 ^ 64) eqn:L; cbn [fst]; lia.
Qed.
Print Assumptions C68_content_length_exact.
Example C68_content_length_case : ContentLength [(str "Content-Length", str "99999999999999999999")] = 2 ^ 64 - 1 /\
  ContentLength [(str "Content-Length", str "+5")] = 0 /\ ContentLength [(str "Content-Length", str "5"); (str "Content-Length", str "6")] = 5.
Proof. repeat split; vm_compute; reflexivity. Qed.

(** The status code: a value exactly on numerals below 65536, an error otherwise. *)
Theorem C68_status_code : forall s n,
  GetStatusCode s = Some n <-> s <> [] /\ Forall is_digit s /\ dec_value s < 65536 /\ n = dec_value s.
Proof.
  intros s n. unfold GetStatusCode, ParseUint10, parse_digits.
  destruct (beq s []) eqn:E; [apply beq_eq in E; subst; split; [discriminate|intros (K & _); congruence]|]. apply beq_neq in E.
  destruct (forallb digit s) eqn:F.
  - fold (dec_value s). rewrite forallb_forall in F.
    assert (D : Forall is_digit s) by (apply Forall_forall; intros x I; specialize (F x I); unfold digit in F; unfold is_digit; lia).
    assert (0 <= dec_value s).
    { unfold dec_value. assert (G : forall l a, Forall is_digit l -> 0 <= a -> 0 <= fold_left (fun a c => 10 * a + (c - 48)) l a).
      { induction l as [|x l IH]; intros a Fl Ha; [assumption|]. inversion Fl as [|? ? Hx Fl']; subst. cbn [fold_left]. apply IH; [assumption|]. unfold is_digit in Hx. lia. }
      apply G; [assumption|lia]. }
    change (2 ^ 16) with 65536. destruct (dec_value s <? 65536) eqn:L.
    + rewrite u16_small by (change (2 ^ 16) with 65536; lia). split; [intros H0; injection H0 as <-; repeat split; auto; lia|intros (_ & _ & _ & ->); reflexivity].
    + split; [discriminate|]. intros (_ & _ & L' & _). lia.
  - split; [discriminate|]. intros (_ & D & _). exfalso. apply not_true_iff_false in F. apply F. apply forallb_forall.
    intros x I. rewrite Forall_forall in D. specialize (D x I). unfold is_digit in D. unfold digit. lia.
Qed.
Print Assumptions C68_status_code.

(** Max-Age: read back, except that zero and negative ages all become "0". *)
Theorem C68_max_age : forall n, - 2 ^ 63 <= n < 2 ^ 63 -> GetMaxAge (SetMaxAge n) = Z.max 0 n.
Proof.
  intros n H. unfold GetMaxAge, SetMaxAge. destruct (0 <? n) eqn:E.
  - rewrite u64_small by lia. rewrite parse_int_pos by lia. replace (n <? 2 ^ 63) with true by lia. lia.
  - change (ParseInt10 64 (str "0")) with (Some 0). cbn iota. lia.
Qed.
Print Assumptions C68_max_age.
(** What is read from any text: a numeral with a sign or none, if its value is one of 64 bits; else zero. *)
Inductive max_age_text : bytes -> Z -> Prop :=
| ma_plain ds : ds <> [] -> Forall is_digit ds -> max_age_text ds (dec_value ds)
| ma_plus ds : ds <> [] -> Forall is_digit ds -> max_age_text (str "+" ++ ds) (dec_value ds)
| ma_minus ds : ds <> [] -> Forall is_digit ds -> max_age_text (str "-" ++ ds) (- dec_value ds).
Lemma digits_iff ds : Forall is_digit ds <-> forallb digit ds = true.
Proof.
  rewrite forallb_forall, Forall_forall. split; intros H x I; specialize (H x I); unfold is_digit, digit in *; lia.
Qed.
Lemma parse_digits_iff ds n : parse_digits ds = Some n <-> ds <> [] /\ Forall is_digit ds /\ n = dec_value ds.
Proof.
  unfold parse_digits. rewrite digits_iff. destruct (beq ds []) eqn:E; [apply beq_eq in E; subst; split; [discriminate|intros (K & _); congruence]|]. apply beq_neq in E.
  destruct (forallb digit ds); [|split; [discriminate|intros (_ & K & _); discriminate]]. fold (dec_value ds). split; [intros [= <-]; auto|intros (_ & _ & ->); reflexivity].
Qed.
Theorem C68_max_age_exact : forall s,
  (forall n, max_age_text s n -> - 2 ^ 63 <= n < 2 ^ 63 -> GetMaxAge s = n) /\
  ((forall n, max_age_text s n -> ~ - 2 ^ 63 <= n < 2 ^ 63) -> GetMaxAge s = 0).
Proof.
  assert (N : forall c ds, Forall is_digit (c :: ds) -> c <> 43 /\ c <> 45).
  { intros c ds F. apply Forall_cons_iff in F as [F _]. unfold is_digit in F. lia. }
  assert (P : forall s, (exists ds, s = 43 :: ds /\ GetMaxAge s = match parse_digits ds with Some n => if n <? 2 ^ 63 then n else 0 | None => 0 end) \/
     (exists ds, s = 45 :: ds /\ GetMaxAge s = match parse_digits ds with Some n => if n <=? 2 ^ 63 then - n else 0 | None => 0 end) \/
     ((forall t, s <> 43 :: t /\ s <> 45 :: t) /\ GetMaxAge s = match parse_digits s with Some n => if n <? 2 ^ 63 then n else 0 | None => 0 end)).
  { intros s. unfold GetMaxAge, ParseInt10. change (2 ^ (64 - 1)) with (2 ^ 63). destruct s as [|c t]; [right; right; split; [split; discriminate|reflexivity]|].
    destruct (Z.eq_dec c 43) as [->|A]; [left; exists t; split; [reflexivity|destruct (parse_digits t); [destruct (_ <? _)|]; reflexivity]|].
    destruct (Z.eq_dec c 45) as [->|B]; [right; left; exists t; split; [reflexivity|destruct (parse_digits t); [destruct (_ <=? _)|]; reflexivity]|].
    right; right. split; [split; congruence|].
    match goal with |- context [let '(neg, ds) := ?m in _] => replace m with (false, c :: t) end.
    - destruct (parse_digits (c :: t)); [destruct (_ <? _)|]; reflexivity.
    - assert (c <= 42 \/ c = 44 \/ 46 <= c) as K by lia. clear -A B.
      destruct c as [|p|p]; try reflexivity. do 6 (destruct p as [p|p|]; try reflexivity); congruence. }
  assert (G0 : forall ds, Forall is_digit ds -> 0 <= dec_value ds).
  { intros ds F. unfold dec_value. assert (G : forall l a, Forall is_digit l -> 0 <= a -> 0 <= fold_left (fun a c => 10 * a + (c - 48)) l a).
    { induction l as [|x l IH]; intros a Fl Ha; [assumption|]. inversion Fl as [|? ? Hx Fl']; subst. cbn [fold_left]. apply IH; [assumption|]. unfold is_digit in Hx. lia. }
    apply G; [exact F|lia]. }
  change (str "+") with [43] in *. change (str "-") with [45] in *.
  intros s. destruct (P s) as [(ds & -> & E)|[(ds & -> & E)|(M & E)]]; rewrite E; clear E P; split.
  - intros n T R. inversion T as [ds' Hn F|ds' Hn F|ds' Hn F]; subst.
    + exfalso. now destruct (N _ _ F).
    + replace (parse_digits ds) with (Some (dec_value ds)) by (symmetry; now apply parse_digits_iff). now replace (dec_value ds <? 2 ^ 63) with true by lia.
  - intros H. destruct (parse_digits ds) as [n|] eqn:Q; [|reflexivity]. apply parse_digits_iff in Q as (Hn & F & ->).
    specialize (H _ (ma_plus ds Hn F)). specialize (G0 _ F). destruct (Z.ltb_spec (dec_value ds) (2 ^ 63)); [lia|reflexivity].
  - intros n T R. inversion T as [ds' Hn F|ds' Hn F|ds' Hn F]; subst.
    + exfalso. now destruct (N _ _ F).
    + replace (parse_digits ds) with (Some (dec_value ds)) by (symmetry; now apply parse_digits_iff). now replace (dec_value ds <=? 2 ^ 63) with true by lia.
  - intros H. destruct (parse_digits ds) as [n|] eqn:Q; [|reflexivity]. apply parse_digits_iff in Q as (Hn & F & ->).
    specialize (H _ (ma_minus ds Hn F)). specialize (G0 _ F). destruct (Z.leb_spec (dec_value ds) (2 ^ 63)); [lia|reflexivity].
  - intros n T R. inversion T as [ds' Hn F|ds' Hn F|ds' Hn F]; subst.
    + replace (parse_digits s) with (Some (dec_value s)) by (symmetry; now apply parse_digits_iff). now replace (dec_value s <? 2 ^ 63) with true by lia.
    + exfalso. now destruct (M ds').
    + exfalso. now destruct (M ds').
  - intros H. destruct (parse_digits s) as [n|] eqn:Q; [|reflexivity]. apply parse_digits_iff in Q as (Hn & F & ->).
    specialize (H _ (ma_plain s Hn F)). specialize (G0 _ F). destruct (Z.ltb_spec (dec_value s) (2 ^ 63)); [lia|reflexivity].
Qed.
Print Assumptions C68_max_age_exact.
Example C68_max_age_case : GetMaxAge (str "-9223372036854775808") = - 2 ^ 63 /\ GetMaxAge (str "+60") = 60 /\
  GetMaxAge (str "9223372036854775808") = 0 /\ GetMaxAge (str "6 0") = 0 /\ GetMaxAge [] = 0.
Proof. repeat split; vm_compute; reflexivity. Qed.

Theorem C68_same_site : forall m, GetSameSite (SetSameSite m) = m.
Proof. intros []; vm_compute; reflexivity. Qed.
Print Assumptions C68_same_site.
(** the default is written as a blank, the others by their names *)
Theorem C68_same_site_text : Forall (fun b => b = 32) (SetSameSite SameSiteDefault) /\
  map (fun m => ToLower (SetSameSite m)) [SameSiteLax; SameSiteStrict; SameSiteNone] = [str "lax"; str "strict"; str "none"].
Proof. split; [repeat constructor|reflexivity]. Qed.
Print Assumptions C68_same_site_text.

Example C68_case : ContentLength (AddContentLength HInit 1234) = 1234 /\ GetStatusCode (str "404") = Some 404 /\
  GetStatusCode (str "99999") = None /\ GetMaxAge (SetMaxAge 3600) = 3600 /\ GetMaxAge (SetMaxAge (-5)) = 0.
Proof. repeat split; vm_compute; reflexivity. Qed.

(** * C69: the Cookie line reader crashes on exactly these texts *)
Theorem C69_cookie_crash_exact : forall c s, Cookie_UnmarshalFrom c s = Panic <->
  exists n r, s = n ++ str "=" ++ r /\ ~ In 61 n /\ n <> [] /\ r <> [] /\
    (In 59 n \/ exists v, r = v ++ str ";" /\ ~ In 59 v).
Proof. exact from_crash. Qed.
Print Assumptions C69_cookie_crash_exact.

Theorem C69_never_crash_refuted : exists s, wf_bytes s /\ Cookies_Next s = Panic.
Proof. exists (str "a=b;"). split; [repeat constructor; vm_compute; intuition discriminate|vm_compute; reflexivity]. Qed.
Print Assumptions C69_never_crash_refuted.
