(** Exact conditions for C04 (parsing 64 bits), C30 (adding to a time), C66 (authority of a target), C67 (content types), C104 (handshake retries), C110 (pages made small) and C161 (names of days). *)
From Coq Require Import String ZifyBool ZifyNat.
From Verif Require Import Go GoFacts IntModel IntSpec IntProofs IntTheorems UriModel UriSpec UriTheorems UriMoreTheorems HttpModel HttpProofs3 WwwModel WwwSpec WwwProofs WwwTheorems TcpExtraModel TcpExtraSpec TcpExtraTheorems
  ClockModel ClockSpec ClockProofs ClockTheorems ClockMoreModel ClockMoreTheorems.
Import ListNotations.
Local Open Scope Z_scope.
Local Open Scope list_scope.

(** C04.  Which numerals the 64 bit parser takes, and as what: those of at most twenty digits, but for those whose
    value without its last digit, p, lies between a multiple k of 2^64 over ten and the same over nine. *)
Theorem C04_uint64_exact : forall s old v,
  U64_FromString_Base10 s old = (None, v) <->
  numeral 20 s /\ v = dec_value s mod 2 ^ 64 /\
  ~ exists k, 1 <= k /\ k * 2 ^ 64 <= 10 * (dec_value s / 10) /\ 9 * (dec_value s / 10) < k * 2 ^ 64.
Proof.
  intros s old v.
  assert (Big : numeral 20 s -> 2 ^ 64 <= dec_value s -> exists p c, s = p ++ [c] /\ zlen p = 19 /\ Forall is_digit p /\ is_digit c).
  { intros (NE & L & F) B. destruct (exists_last NE) as (p & c & ->). exists p, c. apply Forall_app in F. destruct F as [Fp Fc].
    rewrite zlen_app, zlen_cons, zlen_nil in L.
    split; [reflexivity|]. split; [|split; [exact Fp|inversion Fc; assumption]].
    destruct (Z.eq_dec (zlen p) 19); [assumption|exfalso].
    assert (dec_value (p ++ [c]) < 10 ^ 19); [|lia].
    pose proof (dec_value_bound (p ++ [c]) ltac:(apply Forall_app; split; assumption)) as U.
    assert (10 ^ zlen (p ++ [c]) <= 10 ^ 19) by (apply Z.pow_le_mono_r; [lia|]; rewrite zlen_app, zlen_cons, zlen_nil; lia). lia. }
  split.
  - intros E. destruct (C04_uint64_success_partial s old v E) as [N V]. split; [exact N|]. split; [exact V|].
    intros (k & K1 & K2 & K3).
    assert (B : 2 ^ 64 <= dec_value s) by (pose proof (Z.mul_div_le (dec_value s) 10 ltac:(lia)); lia).
    destruct (Big N B) as (p & c & -> & L & Fp & Fc).
    rewrite (C04_uint64_twenty_digits_partial p c old L Fp Fc) in E.
    assert (D : dec_value (p ++ [c]) / 10 = dec_value p).
    { unfold dec_value. rewrite fold_left_app. cbn [fold_left]. unfold is_digit in Fc. symmetry. apply Z.div_unique with (r := c - 48); [lia|reflexivity]. }
    rewrite D in *. pose proof (dec_value_bound p Fp) as U. rewrite L in U.
    assert (M : (10 * dec_value p) mod 2 ^ 64 = 10 * dec_value p - k * 2 ^ 64).
    { symmetry. apply Z.mod_unique with (q := k); [left; lia|lia]. }
    rewrite M in E. replace (10 * dec_value p - k * 2 ^ 64 <? dec_value p) with true in E by lia. discriminate.
  - intros (N & -> & NK). destruct (Z.lt_ge_cases (dec_value s) (2 ^ 64)) as [B|B].
    { rewrite Z.mod_small by (split; [apply dec_value_bound, N|exact B]). now apply C04_uint64_parser_partial. }
    destruct (Big N B) as (p & c & -> & L & Fp & Fc).
    rewrite (C04_uint64_twenty_digits_partial p c old L Fp Fc).
    assert (D : dec_value (p ++ [c]) = 10 * dec_value p + (c - 48)) by (unfold dec_value; rewrite fold_left_app; reflexivity).
    assert (D' : dec_value (p ++ [c]) / 10 = dec_value p).
    { rewrite D. unfold is_digit in Fc. symmetry. apply Z.div_unique with (r := c - 48); [lia|reflexivity]. }
    rewrite D' in NK. rewrite <- D.
    destruct ((10 * dec_value p) mod 2 ^ 64 <? dec_value p) eqn:E; [|reflexivity]. exfalso. apply NK.
    exists ((10 * dec_value p) / 2 ^ 64). pose proof (Z.div_mod (10 * dec_value p) (2 ^ 64) ltac:(lia)) as DM.
    pose proof (Z.mod_pos_bound (10 * dec_value p) (2 ^ 64) ltac:(lia)). unfold is_digit in Fc. lia.
Qed.
Print Assumptions C04_uint64_exact.
(** So a success is right exactly when the value fits. *)
Theorem C04_uint64_right_exact : forall s old v, U64_FromString_Base10 s old = (None, v) -> (v = dec_value s <-> dec_value s < 2 ^ 64).
Proof.
  intros s old v E. destruct (C04_uint64_success_partial s old v E) as [N ->]. pose proof (Z.mod_pos_bound (dec_value s) (2 ^ 64) ltac:(lia)).
  split; [lia|]. intros B. apply Z.mod_small. split; [apply dec_value_bound, N|exact B].
Qed.
Print Assumptions C04_uint64_right_exact.
Example C04_exact_case :
  U64_FromString_Base10 (str "20496382304121724010") 0 = (Some ErrValueOutOfRange, 0) /\
  U64_FromString_Base10 (str "20496382304121724020") 0 = (None, 20496382304121724020 - 2 ^ 64) /\
  U64_FromString_Base10 (str "99999999999999999999") 0 = (Some ErrValueOutOfRange, 0).
Proof. vm_compute. repeat split. Qed.

(** C66.  An authority with its parts, as RFC 3986 writes it. *)
Definition authority_text (info : option (bytes * option bytes)) (host : bytes) (port : option bytes) : bytes :=
  match info with
  | None => []
  | Some (user, None) => user ++ str "@"
  | Some (user, Some pass) => user ++ str ":" ++ pass ++ str "@"
  end ++ host ++ match port with None => [] | Some p => str ":" ++ p end.
Definition or_empty (o : option bytes) : bytes := match o with Some x => x | None => [] end.
Definition user_of (info : option (bytes * option bytes)) : bytes := match info with Some (u, _) => u | None => [] end.
Definition pass_of (info : option (bytes * option bytes)) : bytes := match info with Some (_, p) => or_empty p | None => [] end.
(** It is taken apart rightly exactly when it has no user part. *)
Theorem C66_authority_exact : forall info host port, host <> [] -> free "@:" host -> free "@:" (or_empty port) ->
  free "@:" (user_of info) -> free "@" (pass_of info) -> (info <> None -> user_of info <> []) ->
  (AuthorityInit (authority_text info host port) = Ok (host, or_empty port, user_of info, pass_of info) <-> info = None).
Proof.
  intros info host port NE Fh Fp Fu Fw NU. split.
  - intros E. destruct info as [[user pw]|]; [exfalso|reflexivity]. cbn [user_of pass_of] in *.
    assert (N1 : ~ In 64 user) by (apply Fu; left; reflexivity). assert (N2 : ~ In 58 user) by (apply Fu; right; left; reflexivity).
    specialize (NU ltac:(discriminate)).
    assert (H1 : ~ In 64 host) by (apply Fh; left; reflexivity).
    destruct pw as [pass|]; cbn [or_empty] in *.
    + assert (N3 : ~ In 64 pass) by (apply Fw; left; reflexivity).
      destruct (C66_user_refuted user pass (host ++ match port with None => [] | Some p => str ":" ++ p end) NU N1 N2 N3) as [A _].
      unfold authority_text in E. change (str "@") with [64] in E. change (str ":") with [58] in E. rewrite <- !app_assoc in E.
      change (str ":") with [58] in A. rewrite A in E. injection E as _ E2. assert (K : In 64 (or_empty port)) by (rewrite <- E2; apply in_app_iff; right; left; reflexivity).
      revert K. apply Fp. left; reflexivity.
    + destruct (C66_user_refuted user [] (host ++ match port with None => [] | Some p => str ":" ++ p end) NU N1 N2 (fun x => x)) as [_ A].
      unfold authority_text in E. change (str "@") with [64] in E. rewrite <- !app_assoc in E. rewrite A in E. injection E as E1.
      apply H1. rewrite <- E1. apply in_app_iff. right; left; reflexivity.
  - intros ->. cbn [user_of pass_of]. unfold authority_text. cbn [app].
    destruct port as [p|]; cbn [or_empty] in *.
    + apply (C66_authority_partial host p Fh); [|exact NE]. intros c [<-|[]]. apply Fp. left; reflexivity.
    + rewrite app_nil_r. apply (C66_authority_partial host [] Fh); [|exact NE]. intros c _ [].
Qed.
Print Assumptions C66_authority_exact.
Example C66_exact_case : AuthorityInit (authority_text None (str "host") (Some (str "80"))) = Ok (str "host", str "80", [], []) /\
  authority_text (Some (str "me", Some (str "pw"))) (str "host") None = str "me:pw@host".
Proof. split; vm_compute; reflexivity. Qed.

(** C161.  In both languages a time is named rightly exactly from 1970 on and at those midnights before that C29 gives. *)
Theorem C161_named_exact : forall lang names s n, (lang = English /\ names = english) \/ (lang = Persian /\ names = persian) ->
  ((exists d, Weekdays (Instant s n) = Ok d /\ nth_error names (Z.to_nat (weekday s)) = Some (Weekdays_String lang d)) <->
   0 <= s \/ (s mod 86400 = 0 /\ (- s / 86400) mod 7 <= 3)).
Proof.
  intros lang names s n LN. rewrite <- (C29_weekday_exact s n). pose proof (weekday_range s) as R.
  assert (C : nth_error names (Z.to_nat (weekday s)) = Some (Weekdays_String lang (Weekdays_const (weekday s)))).
  { assert (C : weekday s = 0 \/ weekday s = 1 \/ weekday s = 2 \/ weekday s = 3 \/ weekday s = 4 \/ weekday s = 5 \/ weekday s = 6) by lia.
    destruct LN as [[-> ->]|[-> ->]]; (repeat (destruct C as [C|C]; [rewrite C; vm_compute; reflexivity|])); rewrite C; vm_compute; reflexivity. }
  assert (L : lang <> OtherLanguage) by (destruct LN as [[-> _]|[-> _]]; discriminate).
  split; [|intros E; exists (Weekdays_const (weekday s)); split; assumption].
  intros (d & E & Nm). rewrite C in Nm. injection Nm as Nm. rewrite E. f_equal.
  destruct (C161_distinct lang (weekday s) (weekday s) L ltac:(lia) ltac:(lia)) as [NE _]. rewrite Nm in NE.
  assert (X : exists e, 0 <= e <= 6 /\ d = Weekdays_const e).
  { assert (Dec : forall k, (exists e, 0 <= e < Z.of_nat k /\ d = Weekdays_const e) \/ (forall e, 0 <= e < Z.of_nat k -> d <> Weekdays_const e)).
    { induction k as [|k IH]; [right; intros; lia|]. destruct IH as [(e & A & B)|IH]; [left; exists e; split; [lia|exact B]|].
      destruct (Z.eq_dec d (Weekdays_const (Z.of_nat k))) as [H|H]; [left; exists (Z.of_nat k); split; [lia|exact H]|].
      right. intros e A. destruct (Z.eq_dec e (Z.of_nat k)) as [->|]; [exact H|apply IH; lia]. }
    destruct (Dec 7%nat) as [(e & A & B)|H]; [exists e; split; [lia|exact B]|exfalso].
    apply NE, C161_sets_refuted. right. intros e A. apply H. lia. }
  destruct X as (e & A & ->). f_equal. symmetry. now apply (C161_distinct lang (weekday s) e L ltac:(lia) A).
Qed.
Print Assumptions C161_named_exact.
Example C161_exact_case : (- (-86400) / 86400) mod 7 = 1 /\ (-86400) mod 86400 = 0 /\
  (exists d, Weekdays (Instant (-86400) 0) = Ok d /\ Weekdays_String English d = str "Wednesday") /\
  (exists d, Weekdays (Instant (-1) 0) = Ok d /\ Weekdays_String English d = str "Thursday").
Proof. split; [reflexivity|]. split; [reflexivity|]. split; eexists; split; vm_compute; reflexivity. Qed.

(** C67.  A type with one parameter of whatever text: taken for the character set if it begins with c and for the boundary if it
    begins with b, less eight or nine bytes; a parameter shorter than that crashes the reader, as an empty one does. *)
Theorem C67_parameter_exact : forall t s p, plain t -> plain s -> plain p ->
  CT_FromString (t ++ str "/" ++ s ++ str "; " ++ p) =
  let ty := if beq t (str "text") then TypeText else if beq t (str "application") then TypeApplication else TypeUnset in
  let sub := if beq s (str "html") then SubHTML else if beq s (str "json") then SubJSON else SubUnset in
  match p with
  | [] => Panic
  | c :: _ => if c =? chr "c" then (if zlen p <? 8 then Panic else Ok (CT ty sub (skipn 8 p) []))
              else if c =? chr "b" then (if zlen p <? 9 then Panic else Ok (CT ty sub [] (skipn 9 p)))
              else Ok (CT ty sub [] [])
  end.
Proof.
  intros t s p Pt Ps Pp. unfold CT_FromString.
  change (t ++ str "/" ++ s ++ str "; " ++ p) with (t ++ 47 :: s ++ 59 :: 32 :: p). rewrite ct_parse by assumption. cbn [bind].
  destruct p as [|c q]; [reflexivity|]. rewrite (idx_ok _ 0 c); [|lia|reflexivity]. cbn [bind]. cbv zeta. change (chr "c") with 99. change (chr "b") with 98.
  destruct (c =? 99) eqn:C.
  - replace (c =? 98) with false by lia. destruct (zlen (c :: q) <? 8) eqn:L.
    + rewrite slice_from_panic by lia. reflexivity.
    + rewrite slice_from_ok by lia. reflexivity.
  - cbn [bind]. destruct (c =? 98) eqn:B; [|reflexivity]. destruct (zlen (c :: q) <? 9) eqn:L.
    + rewrite slice_from_panic by lia. reflexivity.
    + rewrite slice_from_ok by lia. reflexivity.
Qed.
Print Assumptions C67_parameter_exact.
Example C67_exact_case : CT_FromString (str "text/html; q=1") = Ok (CT TypeText SubHTML [] []) /\
  CT_FromString (str "text/html; codecs=x") = Ok (CT TypeText SubHTML [] []) /\
  CT_FromString (str "text/html; cs=x") = Panic /\ CT_FromString (str "text/html; ") = Panic.
Proof. repeat split; vm_compute; reflexivity. Qed.

(** C110.  A page of any number of texts with line ends and comments between them: exactly the texts are left, joined. *)
Inductive gap := LineFeed | ReturnFeed | Comment (c : bytes).
Definition gap_text (g : gap) : bytes :=
  match g with LineFeed => [10] | ReturnFeed => [13; 10] | Comment c => str "<!--" ++ c ++ str "-->" end.
Definition page_text (first : bytes) (l : list (gap * bytes)) : bytes := first ++ flat_map (fun e => gap_text (fst e) ++ snd e) l.
Definition plain_text (u : bytes) : Prop := ~ In 10 u /\ ~ In 13 u /\ ~ occurs (str "<!--") u.
Definition one_comment (g : gap) : Prop := match g with Comment c => ~ occurs (str "-->") (c ++ str "--") | _ => True end.
Theorem C110_page_exact : forall l first, plain_text first -> Forall (fun e => one_comment (fst e) /\ plain_text (snd e)) l ->
  HTML_MinifyBytes (page_text first l) = first ++ flat_map snd l.
Proof.
  induction l as [|[g u] l IH]; intros first (L & R & O) F; unfold page_text; cbn [flat_map fst snd].
  - rewrite app_nil_r. now apply C110_plain.
  - inversion F as [|? ? [G U] F']; subst. cbn [fst snd] in *. specialize (IH u U F'). unfold page_text in IH.
    set (tl := u ++ flat_map (fun e => gap_text (fst e) ++ snd e) l) in *. rewrite <- app_assoc. fold tl.
    assert (LAST : last first 0 <> 13).
    { clear - R. induction first as [|x f IH]; [cbn; lia|]. destruct f as [|y f]; [cbn [last]; intros ->; apply R; now left|].
      change (last (x :: y :: f) 0) with (last (y :: f) 0). apply IH. intros K. apply R. now right. }
    unfold HTML_MinifyBytes in *.
    replace (S (length (first ++ gap_text g ++ tl))) with (length first + S (length (gap_text g ++ tl)))%nat by (rewrite (app_length first); lia).
    rewrite copy_plain; [|exact L|exact O|].
    + f_equal. rewrite <- IH. assert (M : html_match (gap_text g ++ tl) = Some tl).
      { destruct g as [| |c]; cbn [gap_text app]; [destruct tl; reflexivity|destruct tl; reflexivity|].
        replace ((str "<!--" ++ c ++ str "-->") ++ tl) with (opening ++ c ++ closing ++ tl) by (rewrite <- !app_assoc; reflexivity).
        now apply comment_match. }
      rewrite (html_step _ _ tl M). apply more_fuel. rewrite app_length. destruct g; cbn [gap_text length]; lia || (rewrite app_length; cbn; lia).
    + right. destruct g as [| |c]; cbn [gap_text app].
      * exists 10, tl. split; [reflexivity|]. split; [tauto|right; cbn; lia].
      * exists 13, (10 :: tl). split; [reflexivity|]. split; [intros (? & _); discriminate|right; cbn; lia].
      * exists 60, (33 :: 45 :: 45 :: (c ++ str "-->") ++ tl). split; [reflexivity|]. split; [intros (? & _); discriminate|now left].
Qed.
Print Assumptions C110_page_exact.
Example C110_page_case : page_text (str "<p>") [(LineFeed, str "one"); (Comment (str " a "), str "two"); (ReturnFeed, str "</p>"); (Comment [10], [])] =
  str "<p>" ++ [10] ++ str "one<!-- a -->two" ++ [13; 10] ++ str "</p><!--" ++ [10] ++ str "-->" /\
  HTML_MinifyBytes (page_text (str "<p>") [(LineFeed, str "one"); (Comment (str " a "), str "two"); (ReturnFeed, str "</p>"); (Comment [10], [])]) = str "<p>onetwo</p>".
Proof. split; vm_compute; reflexivity. Qed.

(** C104.  After any number of retries the report is that of the number modulo 256. *)
Theorem C104_count_exact : forall n,
  ReachMaxSyn (times n SendNewSyn (syn_Init (Retries 0 0))) = (7 <=? Z.of_nat n mod 256) /\
  ReachMaxSynACK (times n ReceiveNewSynAck (synack_Init (Retries 0 0))) = (6 <=? Z.of_nat n mod 256).
Proof.
  intros n. rewrite !(times_mod _ ltac:(reflexivity)) by (cbn [r_count syn_Init synack_Init]; lia).
  unfold ReachMaxSyn, ReachMaxSynACK, syn_Init, synack_Init, u8. cbn [r_max r_count]. rewrite Z.add_0_l. change (2 ^ 8) with 256.
  set (m := Z.of_nat n mod 256). split; [destruct (Z.ltb_spec 6 m)|destruct (Z.ltb_spec 5 m)]; lia.
Qed.
Print Assumptions C104_count_exact.
Example C104_count_case : ReachMaxSyn (times 262 SendNewSyn (syn_Init (Retries 0 0))) = false /\ ReachMaxSyn (times 263 SendNewSyn (syn_Init (Retries 0 0))) = true.
Proof. split; vm_compute; reflexivity. Qed.

(** C30.  Adding any duration, of either sign: the time named is the right one; it is written as the clock writes it exactly when
    nothing is to be carried or borrowed, and otherwise compares as earlier (carry) or later (borrow) than the same time so written. *)
Theorem C30_add_exact : forall t d, normal (nsec t) -> int64 d -> int64 (sec t + Z.quot d 1000000000) ->
  let r := nsec t + Z.rem d 1000000000 in
  nanos (sec (Add t d)) (nsec (Add t d)) = nanos (sec t) (nsec t) + d /\
  (normal (nsec (Add t d)) <-> 0 <= r < 1000000000) /\
  forall u, normal (nsec u) -> nanos (sec u) (nsec u) = nanos (sec t) (nsec t) + d ->
  (u = Add t d <-> 0 <= r < 1000000000) /\ (Pass u (Add t d) = true <-> 1000000000 <= r) /\ (Pass (Add t d) u = true <-> r < 0).
Proof.
  intros t d Hn Hi Hs r. unfold Add. destruct (split_spec d Hi) as (s & n & -> & E & Es & En & Hp & Hm & Is).
  assert (B : -1000000000 < n < 1000000000) by (destruct (Z.le_ge_cases 0 d); [specialize (Hp ltac:(assumption))|specialize (Hm ltac:(assumption))]; lia).
  unfold r. clear r. rewrite <- Es, <- En in *. unfold normal in *.
  rewrite i64_id by exact Hs. rewrite i32_id by (nums; lia). cbn [sec nsec]. unfold nanos in *.
  split; [lia|]. split; [tauto|]. intros [us un] Nu U. unfold Pass. cbn [sec nsec] in *.
  split; [|lia]. split; [intros K; injection K; lia|intros K]. assert (us = sec t + s) by lia. f_equal; lia.
Qed.
Print Assumptions C30_add_exact.
Example C30_add_case : Add (Instant 7 100) (-1) = Instant 7 99 /\ Add (Instant 7 0) (-1) = Instant 7 (-1) /\
  Pass (Add (Instant 7 0) (-1)) (Instant 6 999999999) = true /\ Pass (Instant 8 0) (Add (Instant 7 999999999) 1) = true.
Proof. repeat split; vm_compute; reflexivity. Qed.
