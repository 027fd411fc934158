(** More of C21, C23 and C24 (net/http): excluding header lines, walking the
    Set-Cookie lines of a header, and checking a whole Set-Cookie. *)
From Coq Require Import ZifyBool.
From Verif Require Import Go GoFacts HttpModel HttpSpec HttpProofs HttpProofs2 HttpProofs3 HttpTheorems.
Local Open Scope Z_scope.

(** * C21: excluding removes nothing *)
Theorem C21_exclude_refuted : forall h keys k, In k keys -> has h k = true -> lookup h k <> [] ->
  Header_Get (Exclude h keys) k = lookup h k /\ lookup (fold_left without keys h) k = [].
Proof.
  intros h keys k I H N. split.
  - rewrite Get_spec. f_equal. unfold Exclude. clear. revert h. induction keys as [|a l IH]; intros h; [reflexivity|].
    cbn [fold_left]. rewrite Del_spec. apply IH.
  - apply lookup_absent.
    assert (W : forall ks l, has l k = false -> has (fold_left without ks l) k = false).
    { induction ks as [|a ks IH]; intros l L; [exact L|]. cbn [fold_left]. apply IH.
      apply not_true_is_false. intros T. apply not_true_iff_false in L. apply L.
      unfold has in *. rewrite existsb_exists in *. destruct T as (x & X & Y). exists x. split; [|exact Y].
      unfold without in X. now apply filter_In in X. }
    clear H N. revert h. induction keys as [|a l IH]; intros h; [contradiction|]. cbn [fold_left].
    destruct I as [-> | I]; [|now apply IH]. apply W. apply not_true_is_false. unfold has, without.
    rewrite existsb_exists. intros (x & X & Y). apply filter_In in X as (_ & F). rewrite Y in F. discriminate.
Qed.
Print Assumptions C21_exclude_refuted.
Example C21_exclude_case : Header_Get (Exclude [(str "Host", str "a"); (str "Cookie", str "b")] [str "Cookie"]) (str "Cookie") = str "b".
Proof. vm_compute. reflexivity. Qed.

(** * C23: walking the Set-Cookie lines *)

(** Calling Next from a start index until it reports that there is nothing more gives [l]. *)
Inductive walk (h : header) : nat -> list setCookie -> Prop :=
| walk_end s : SetCookies_Next h s = Some (Ok (no_sc, false, s)) -> walk h s []
| walk_more s c s' l : SetCookies_Next h s = Some (Ok (c, true, s')) -> walk h s' l -> walk h s (c :: l).

Definition no_flag_with_samesite (sc : setCookie) : Prop :=
  sc_samesite sc = [] \/ (sc_httponly sc = false /\ sc_secure sc = false).

Lemma walk_from : forall l h i, (i <= length h)%nat ->
  (forall m w, (i <= m)%nat -> nth_error h m <> Some (HeaderKey_SetCookie, w)) ->
  Forall sc_legal l -> Forall no_flag_with_samesite l ->
  walk (h ++ map (fun sc => (HeaderKey_SetCookie, SC_Marshal sc)) l) i l.
Proof.
  induction l as [|c l IH]; intros h i L A F G.
  - cbn [map]. rewrite app_nil_r. apply walk_end. unfold SetCookies_Next. rewrite C21_find_absent by exact A. reflexivity.
  - pose proof (Forall_inv F) as Fc. pose proof (Forall_inv G) as Gc.
    apply Forall_inv_tail in F. apply Forall_inv_tail in G.
    apply walk_more with (s' := S (length h)).
    + unfold SetCookies_Next. rewrite (C21_find_exact _ i _ (SC_Marshal c) (length h)).
      * assert (beq (SC_Marshal c) [] = false) as ->.
        { apply beq_neq. unfold SC_Marshal. destruct Fc as ((N & _) & _). destruct (sc_name c); [congruence|discriminate]. }
        rewrite C23_set_cookie_round_trip_partial by assumption. reflexivity.
      * rewrite nth_error_app2, Nat.sub_diag by lia. reflexivity.
      * exact L.
      * intros m w M. rewrite nth_error_app1 by lia. apply A. lia.
    + replace (h ++ map (fun sc => (HeaderKey_SetCookie, SC_Marshal sc)) (c :: l))
        with ((h ++ [(HeaderKey_SetCookie, SC_Marshal c)]) ++ map (fun sc => (HeaderKey_SetCookie, SC_Marshal sc)) l)
        by (rewrite <- app_assoc; reflexivity).
      apply IH; try assumption.
      * rewrite app_length. cbn [length]. lia.
      * intros m w M H. assert (m < length (h ++ [(HeaderKey_SetCookie, SC_Marshal c)]))%nat by (apply nth_error_Some; congruence).
        rewrite app_length in *. cbn [length] in *. lia.
Qed.
Lemma add_all : forall l h, AddSetCookie h l = h ++ map (fun sc => (HeaderKey_SetCookie, SC_Marshal sc)) l.
Proof.
  unfold AddSetCookie. induction l as [|c l IH]; intros h; cbn [fold_left map]; [now rewrite app_nil_r|].
  rewrite IH. unfold Header_Add. now rewrite <- app_assoc.
Qed.

(** Every list of legal cookies written to a header that has none is read back, in order, and nothing
    else; cookies with both SameSite and a flag are left out (C23_set_cookie_refuted). *)
Theorem C23_set_cookies_all_partial : forall h l,
  has h (str "Set-Cookie") = false -> Forall sc_legal l -> Forall no_flag_with_samesite l ->
  walk (AddSetCookie h l) 0 l.
Proof.
  intros h l H F G. rewrite add_all. apply walk_from; try assumption; [lia|].
  intros m w _ E. apply nth_error_In in E. apply not_true_iff_false in H. apply H. unfold has. apply existsb_exists.
  eexists. split; [exact E|]. cbn [fst]. apply same_refl.
Qed.
Print Assumptions C23_set_cookies_all_partial.
(** The walk is a function: no other list can be read. *)
Theorem C23_walk_unique : forall h s l l', walk h s l -> walk h s l' -> l = l'.
Proof.
  intros h s l l' W. revert l'. induction W as [s E|s c s' l E W IH]; intros l' W'; inversion W' as [s0 E'|s0 c' s1 l1 E' W1]; subst; try congruence.
  assert (s1 = s' /\ c' = c) as (-> & ->) by (split; congruence). f_equal. now apply IH.
Qed.
Print Assumptions C23_walk_unique.
Example C23_walk_case : has HInit (str "Set-Cookie") = false /\ Forall sc_legal [session_cookie] /\ Forall no_flag_with_samesite [session_cookie].
Proof.
  split; [reflexivity|]. split; (constructor; [|constructor]); [apply C23_set_cookie_case|left; reflexivity].
Qed.

(** An empty Set-Cookie line ends the walk whatever follows. *)
Theorem C23_empty_line_refuted : forall h l, has h (str "Set-Cookie") = false ->
  walk (h ++ (str "Set-Cookie", []) :: l) 0 [].
Proof.
  intros h l H. apply walk_end. unfold SetCookies_Next. rewrite (C21_find_exact _ 0 _ [] (length h)); [reflexivity| | lia |].
  - rewrite nth_error_app2, Nat.sub_diag by lia. reflexivity.
  - intros m w M E. rewrite nth_error_app1 in E by lia. apply nth_error_In in E.
    apply not_true_iff_false in H. apply H. unfold has. apply existsb_exists. eexists. split; [exact E|apply same_refl].
Qed.
Print Assumptions C23_empty_line_refuted.

(** * C24: checking a whole Set-Cookie *)

Lemma domain_accept d d' : zlen d <= 255 -> host_name d' -> d = d' \/ d = str "." ++ d' -> sanitizeCookieDomain d = (d', false).
Proof.
  intros L Hn [-> | ->].
  - rewrite domain_spec. pose proof (host_head _ Hn) as (Q1 & Q2).
    assert (1 <= zlen d') by (destruct d' as [|c t]; [congruence|]; rewrite zlen_cons; pose proof (zlen_nonneg t); lia).
    replace ((zlen d' =? 0) || (255 <? zlen d')) with false by lia. cbn zeta.
    pose proof (domain_complete d' Hn) as G.
    replace (match d' with 46 :: t => t | _ => d' end) with d'; [now rewrite G|].
    destruct d' as [|c t]; [congruence|]. cbn in Q2.
    repeat match goal with |- context [match ?p with _ => _ end] => destruct p; try reflexivity end. congruence.
  - apply C24_domain_complete; [assumption|]. rewrite zlen_app in L. change (zlen (str ".")) with 1 in L. lia.
Qed.

(** It is accepted exactly when each of the four parts is, and then only a leading dot of the
    domain is changed. *)
Theorem C24_check_exact : forall sc sc', SC_CheckAndSanitize sc = (sc', false) <->
  (~ In 10 (sc_name sc) /\ ~ In 13 (sc_name sc)) /\
  Forall (fun b => cookie_octet b \/ b = 59) (sc_value sc) /\
  Forall (fun b => path_octet b \/ b = 59) (sc_path sc) /\
  (exists d, zlen (sc_domain sc) <= 255 /\ host_name d /\ (sc_domain sc = d \/ sc_domain sc = str "." ++ d) /\
     sc' = SC (sc_name sc) (sc_value sc) (sc_path sc) d (sc_expires sc) (sc_maxage sc) (sc_secure sc) (sc_httponly sc) (sc_samesite sc)).
Proof.
  intros [nm v p d e ma se ho ss] sc'. cbn [sc_name sc_value sc_path sc_domain sc_expires sc_maxage sc_secure sc_httponly sc_samesite].
  unfold SC_CheckAndSanitize. cbn [sc_name sc_value sc_path sc_domain sc_expires sc_maxage sc_secure sc_httponly sc_samesite].
  pose proof (C24_name_exact nm) as N. pose proof (C24_value_exact v) as V. pose proof (C24_path_exact p) as P.
  destruct (sanitizeCookieName nm) as [n1 e1]. destruct (sanitizeCookieValue v) as [v1 e2].
  destruct (sanitizeCookiePath p) as [p1 e3].
  destruct N as (_ & _ & _ & N1 & N2 & _). destruct V as (_ & V1 & V2 & _). destruct P as (_ & P1 & P2 & _).
  destruct e1.
  { split; [congruence|]. intros (A & _). apply N1 in A. discriminate. }
  destruct e2.
  { split; [congruence|]. intros (_ & A & _). apply V1 in A. discriminate. }
  destruct e3.
  { split; [congruence|]. intros (_ & _ & A & _). apply P1 in A. discriminate. }
  rewrite (N2 eq_refl), (V2 eq_refl), (P2 eq_refl). split.
  - destruct (sanitizeCookieDomain d) as [d1 e4] eqn:E. destruct (C24_domain_exact _ _ _ E) as (D1 & _).
    intros H. assert (e4 = false) by congruence. subst e4. split; [now apply N1|]. split; [now apply V1|]. split; [now apply P1|].
    destruct (proj1 D1 eq_refl) as (L & Hn & O). exists d1. repeat split; try assumption. congruence.
  - intros (_ & _ & _ & d' & L & Hn & O & ->). now rewrite (domain_accept d d') by assumption.
Qed.
Print Assumptions C24_check_exact.
Example C24_check_case : exists d, SC_CheckAndSanitize (SC (str "id") (str "a=b") (str "/x y") (str ".x.org") [] (str "60") true true []) =
  (SC (str "id") (str "a=b") (str "/x y") d [] (str "60") true true [], false) /\ d = str "x.org".
Proof. eexists. split; vm_compute; reflexivity. Qed.

(** A cookie of a request is accepted exactly when its name and its value are, and then it is
    unchanged; one refused for its name keeps its value, whatever it is. *)
Theorem C24_cookie_check : forall c, let '(c', err) := Cookie_CheckAndSanitize c in
  (err = false <-> (~ In 10 (c_name c) /\ ~ In 13 (c_name c)) /\ Forall (fun b => cookie_octet b \/ b = 59) (c_value c)) /\
  (err = false -> c' = c) /\ ~ In 10 (c_name c') /\ ~ In 13 (c_name c') /\
  (In 10 (c_name c) \/ In 13 (c_name c) -> c_value c' = c_value c) /\
  (~ In 10 (c_name c) /\ ~ In 13 (c_name c) -> Forall (fun b => cookie_octet b \/ b = 59) (c_value c')).
Proof.
  intros [n v]. unfold Cookie_CheckAndSanitize. cbn [c_name c_value].
  pose proof (C24_name_exact n) as N. pose proof (C24_value_exact v) as V.
  destruct (sanitizeCookieName n) as [n1 e1]. destruct (sanitizeCookieValue v) as [v1 e2].
  destruct N as (Na & Nb & _ & N1 & N2 & _). destruct V as (V0 & V1 & V2 & _).
  destruct e1; cbn [c_name c_value].
  - split; [split; [discriminate|intros [A _]; apply N1 in A; discriminate]|]. split; [discriminate|]. split; [exact Na|]. split; [exact Nb|]. split; [auto|]. intros A. apply N1 in A. discriminate.
  - split; [split; [intros ->; split; [now apply N1|now apply V1]|intros [_ A]; now apply V1]|]. split; [intros ->; now rewrite (N2 eq_refl), (V2 eq_refl)|].
    split; [exact Na|]. split; [exact Nb|]. split; [|auto]. intros A. pose proof (proj1 N1 eq_refl). tauto.
Qed.
Print Assumptions C24_cookie_check.

(** Path and Domain are optional, but a cookie without a domain is always refused. *)
Theorem C24_no_domain_refuted : forall sc, sc_domain sc = [] -> exists sc', SC_CheckAndSanitize sc = (sc', true).
Proof.
  intros sc E. destruct (SC_CheckAndSanitize sc) as [sc' [|]] eqn:R; [now exists sc'|].
  apply C24_check_exact in R as (_ & _ & _ & d & _ & Hn & O & _). rewrite E in O.
  destruct (host_head _ Hn) as (N & _). destruct O as [O|O]; [congruence|discriminate].
Qed.
Print Assumptions C24_no_domain_refuted.

(** What is refused for its name, value or path comes back with the parts after the refused one
    as they were. *)
Theorem C24_check_stops : forall sc, In 10 (sc_name sc) \/ In 13 (sc_name sc) ->
  SC_CheckAndSanitize sc = (SC (map (fun b => if (b =? 10) || (b =? 13) then 45 else b) (sc_name sc)) (sc_value sc) (sc_path sc) (sc_domain sc)
    (sc_expires sc) (sc_maxage sc) (sc_secure sc) (sc_httponly sc) (sc_samesite sc), true).
Proof.
  intros sc I. unfold SC_CheckAndSanitize. pose proof (C24_name_exact (sc_name sc)) as N. rewrite name_spec in *.
  destruct N as (_ & _ & _ & N1 & _). destruct (existsb _ _); [reflexivity|]. exfalso. destruct (proj1 N1 eq_refl). tauto.
Qed.
Print Assumptions C24_check_stops.

(** * C163.  A request that says "Pragma: no-cache" and nothing about Cache-Control comes to say
    "Cache-Control: no-cache"; any other is left as it is. *)
Theorem C163_pragma_exact : forall h, FixPragmaCacheControl h =
  if same (lookup h (str "Pragma")) (str "no-cache") && same (lookup h (str "Cache-Control")) [] then h ++ [(str "Cache-Control", str "no-cache")] else h.
Proof.
  intros h. change (str "Pragma") with HeaderKey_Pragma. change (str "Cache-Control") with HeaderKey_CacheControl.
  assert (B : forall a b, beq a b = same a b).
  { intros a b. unfold same. destruct (list_eq_dec Z.eq_dec a b) as [->|N]; [apply beq_refl|]. destruct (beq a b) eqn:E; [apply beq_eq in E; contradiction|reflexivity]. }
  unfold FixPragmaCacheControl. rewrite !Get_spec, !B. destruct (same (lookup h HeaderKey_Pragma) _); [|reflexivity]. destruct (same (lookup h HeaderKey_CacheControl) []); reflexivity.
Qed.
Print Assumptions C163_pragma_exact.
(** So what the request says about every other line is the same, and once is enough; *)
Theorem C163_others : forall h k, k <> str "Cache-Control" -> Header_Get (FixPragmaCacheControl h) k = Header_Get h k.
Proof.
  intros h k N. rewrite C163_pragma_exact. destruct (_ && _); [|reflexivity]. rewrite !Get_spec, lookup_app.
  destruct (has h k) eqn:H; [reflexivity|]. rewrite (lookup_absent h k H). cbn [lookup fst snd]. unfold same. destruct (list_eq_dec Z.eq_dec (str "Cache-Control") k); [congruence|reflexivity].
Qed.
Print Assumptions C163_others.
Theorem C163_once_partial : forall h, (has h (str "Cache-Control") = true -> lookup h (str "Cache-Control") <> []) ->
  FixPragmaCacheControl (FixPragmaCacheControl h) = FixPragmaCacheControl h /\
  (Header_Get h (str "Pragma") = str "no-cache" -> Header_Get (FixPragmaCacheControl h) (str "Cache-Control") <> []).
Proof.
  intros h H. pose proof (C163_pragma_exact h) as E. rewrite !Get_spec.
  destruct (same (lookup h (str "Pragma")) (str "no-cache")) eqn:E1; cbn [andb] in E.
  - destruct (same (lookup h (str "Cache-Control")) []) eqn:E2.
    + apply same_eq in E2. assert (A : has h (str "Cache-Control") = false) by (destruct (has h (str "Cache-Control")) eqn:X; [exfalso; now apply H|reflexivity]).
      assert (L : lookup (h ++ [(str "Cache-Control", str "no-cache")]) (str "Cache-Control") = str "no-cache") by (rewrite lookup_app, A; reflexivity).
      rewrite E. split; [|intros _; rewrite L; discriminate]. rewrite C163_pragma_exact, L. change (same (str "no-cache") []) with false. now rewrite andb_false_r.
    + rewrite E. split; [exact E|]. intros _ C. rewrite C in E2. discriminate.
  - rewrite E. split; [exact E|]. intros C. rewrite C in E1. discriminate.
Qed.
Print Assumptions C163_once_partial.
(** but a Cache-Control line without a value hides the one that is added, and every call adds another. *)
Theorem C163_empty_refuted : forall h n, lookup h (str "Pragma") = str "no-cache" -> has h (str "Cache-Control") = true -> lookup h (str "Cache-Control") = [] ->
  Nat.iter n FixPragmaCacheControl h = h ++ repeat (str "Cache-Control", str "no-cache") n /\ Header_Get (Nat.iter n FixPragmaCacheControl h) (str "Cache-Control") = [].
Proof.
  intros h n P H E. assert (G : Nat.iter n FixPragmaCacheControl h = h ++ repeat (str "Cache-Control", str "no-cache") n).
  { induction n as [|n IH]; [cbn; now rewrite app_nil_r|]. change (Nat.iter (S n) FixPragmaCacheControl h) with (FixPragmaCacheControl (Nat.iter n FixPragmaCacheControl h)). rewrite IH, C163_pragma_exact.
    rewrite !lookup_app, H, E. assert (HP : has h (str "Pragma") = true). { destruct (has h (str "Pragma")) eqn:X; [reflexivity|]. rewrite lookup_absent in P by exact X. discriminate. }
    rewrite HP, P. change (same (str "no-cache") (str "no-cache") && same [] []) with true. cbv iota. rewrite <- app_assoc, <- repeat_cons. reflexivity. }
  split; [exact G|]. rewrite G, Get_spec, lookup_app, H. exact E.
Qed.
Print Assumptions C163_empty_refuted.
Example C163_nonvacuous : FixPragmaCacheControl (HInit ++ [(str "Pragma", str "no-cache")]) = HInit ++ [(str "Pragma", str "no-cache"); (str "Cache-Control", str "no-cache")] /\
  FixPragmaCacheControl [(str "Pragma", str "no-cache"); (str "Cache-Control", str "max-age=1")] = [(str "Pragma", str "no-cache"); (str "Cache-Control", str "max-age=1")] /\
  FixPragmaCacheControl [(str "Pragma", str "x-cache")] = [(str "Pragma", str "x-cache")].
Proof. repeat split; vm_compute; reflexivity. Qed.
