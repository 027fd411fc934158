(** C183: the expiry of a cookie through the Set-Cookie line. *)
From Coq Require Import String ZifyBool ZifyNat.
From Verif Require Import Go GoFacts HttpModel HttpSpec HttpProofs HttpProofs2 HttpTheorems CookieDateModel CookieDateSpec CookieDateTheorems.
Import ListNotations.
Local Open Scope Z_scope.
Local Open Scope list_scope.

Lemma date_no_semi z y m d r : 1 <= y <= 9999 -> is_date z y m d -> 0 <= r < 86400 -> ~ In 59 (date_text 32 z y m d r).
Proof.
  intros Y D R. destruct D as (f & F & M & D & _).
  assert (D31 : 1 <= d <= 31) by (split; [lia|]; destruct F as [(_ & ->)|(_ & ->)]; months m; match type of D with _ <= _ <= ?n => let v := eval vm_compute in n in change n with v in D end; lia).
  assert (T : forall n, 0 <= n < 100 -> ~ In 59 (two n)) by (intros n N [E|[E|[]]]; pose proof (Z.mod_pos_bound n 10); pose proof (Z.div_lt_upper_bound n 10 10); lia).
  assert (A : ~ In 59 (day_abbr z)).
  { unfold day_abbr. assert (H : z mod 7 = 0 \/ z mod 7 = 1 \/ z mod 7 = 2 \/ z mod 7 = 3 \/ z mod 7 = 4 \/ z mod 7 = 5 \/ z mod 7 = 6) by (pose proof (Z.mod_pos_bound z 7); lia).
    destruct H as [H|[H|[H|[H|[H|[H|H]]]]]]; rewrite H; vm_compute; intuition discriminate. }
  assert (B : ~ In 59 (month_abbr m)) by (months m; vm_compute; intuition discriminate).
  assert (C1 : ~ In 59 (str ", "%string)) by (vm_compute; intuition discriminate). assert (C2 : ~ In 59 (str " GMT"%string)) by (vm_compute; intuition discriminate).
  pose proof (T d ltac:(lia)). pose proof (T (y / 100) ltac:(lia)). pose proof (T (y mod 100) ltac:(lia)).
  pose proof (T (r / 3600) ltac:(lia)). pose proof (T (r / 60 mod 60) ltac:(lia)). pose proof (T (r mod 60) ltac:(lia)).
  unfold date_text. intros I.
  repeat (apply in_app_or in I as [I|I]; [contradiction|] || (destruct I as [I|I]; [discriminate I|])); contradiction.
Qed.
Lemma year_of s y m d : -62135596800 <= s <= 253402300799 -> is_date (s / 86400) y m d -> 1 <= y <= 9999.
Proof.
  intros H D. assert (Y1 : 1 <= y).
  { destruct D as (f & F & M & D & E). destruct (Z_le_gt_dec 1 y); [assumption|]. exfalso.
    assert (S1 : sum (firstn (Z.to_nat (m - 1)) (lengths f)) + d - 1 <= 365).
    { destruct F as [(_ & ->)|(_ & ->)]; months m; repeat match goal with |- context [sum ?x] => let v := eval vm_compute in (sum x) in change (sum x) with v end;
      match type of D with _ <= _ <= ?n => let v := eval vm_compute in n in change n with v in D end; lia. }
    unfold multiples in E. lia. }
  split; [exact Y1|]. apply (last_year _ _ _ _ Y1 D). lia.
Qed.
(** A server sets an expiry of the years 1 to 9999 on a cookie and sends the line; who parses the line gets the instant. *)
Theorem C183_line_partial : forall name value path domain maxage secure httponly s n,
  cookie_name name -> Forall (fun v => ~ In 59 v) [value; path; domain; maxage] -> -62135596800 <= s <= 253402300799 ->
  exists sc, SC_Unmarshal no_sc (SC_Marshal (SC name value path domain (SetExpire s n) maxage secure httponly [])) = Some (Ok sc) /\
    sc_name sc = name /\ sc_value sc = value /\ GetExpire (sc_expires sc) = s.
Proof.
  intros name value path domain maxage secure httponly s n N F H.
  assert (X : ~ In 59 (SetExpire s n)).
  { destruct (C183_text s n H) as (y & m & d & D & ->). apply date_no_semi; [now apply (year_of s y m d)|exact D|]. apply Z.mod_pos_bound. lia. }
  exists (SC name value path domain (SetExpire s n) maxage secure httponly []).
  rewrite C23_set_cookie_round_trip_partial; [|split; [exact N|]|left; reflexivity].
  - repeat split. cbn [sc_expires]. now apply C183_round_trip_partial.
  - cbn [sc_value sc_path sc_domain sc_expires sc_maxage sc_samesite]. unfold no_semi.
    rewrite !Forall_cons_iff in F. destruct F as (F1 & F2 & F3 & F4 & _). repeat (apply Forall_cons; [assumption || (intros [])|]). apply Forall_nil.
Qed.
Print Assumptions C183_line_partial.
Example C183_line_case :
  SC_Marshal (SC (str "id") (str "7") [] [] (SetExpire 1709164800 0) [] true false [])%string = str "id=7; Expires=Thu, 29 Feb 2024 00:00:00 GMT; Secure"%string /\
  cookie_name (str "id"%string) /\
  (match SC_Unmarshal no_sc (str "id=7; Expires=Thu, 29 Feb 2024 00:00:00 GMT; Secure"%string) with Some (Ok sc) => GetExpire (sc_expires sc) | _ => 0 end) = 1709164800.
Proof. split; [vm_compute; reflexivity|]. split; [|vm_compute; reflexivity]. split; try discriminate; vm_compute; intuition discriminate. Qed.
