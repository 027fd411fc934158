From Coq Require Import ZifyBool ZifyNat.
From Verif Require Import Go GoFacts UriModel UriSpec UriProofs UriProofs2.
Ltac Zify.zify_post_hook ::= Z.div_mod_to_equations.

Definition valid (st : pst) (i : Z) : Prop :=
  0 <= auI st <= i /\ 0 <= paI st <= i /\ 0 <= quI st /\ 0 <= nuI st /\
  (quI st <> 0 -> quI st < i) /\ (nuI st <> 0 -> nuI st < i).
(** A first colon with fewer than two characters after it, before any space. *)
Definition short_colon (s : bytes) : Prop := exists p r, s = p ++ 58 :: r /\ free ": " p /\ zlen r < 2.

Lemma valid_next st i : valid st i -> valid st (i + 1).
Proof. unfold valid. lia. Qed.

Lemma short_cons c r : c <> 58 -> c <> 32 -> short_colon (c :: r) <-> short_colon r.
Proof.
  intros N1 N2. split.
  - intros (p & q & E & F & L). destruct p as [|x p]; cbn [app] in E; inversion E; subst; [congruence|].
    exists p, q. split; [reflexivity|]. split; [|assumption]. intros d Hd K. apply (F d Hd). now right.
  - intros (p & q & -> & F & L). exists (c :: p), q. split; [reflexivity|]. split; [|assumption].
    intros d Hd [K|K]; [cbn in Hd; lia|exact (F d Hd K)].
Qed.
Lemma short_colon_here r : short_colon (58 :: r) <-> zlen r < 2.
Proof.
  split.
  - intros (p & q & E & F & L). destruct p as [|x p]; cbn [app] in E; inversion E; subst; [assumption|].
    exfalso. apply (F 58); cbn; tauto.
  - intros H. exists [], r. split; [reflexivity|]. split; [intros d _ []|assumption].
Qed.
Lemma short_space r : ~ short_colon (32 :: r).
Proof.
  intros (p & q & E & F & L). destruct p as [|x p]; cbn [app] in E; inversion E; subst.
  apply (F 32); cbn; tauto.
Qed.
Lemma short_nil : ~ short_colon [].
Proof. intros (p & q & E & _). destruct p; discriminate. Qed.

Lemma loop_valid s o : forall n rest i st, (length rest <= n)%nat -> 0 <= i -> i + zlen rest = zlen s -> valid st i ->
  exists e st', uri_loop s o rest i st = Ok (e, st') /\ valid st' e /\ i <= e /\
    (zlen s < e <-> auI st = 0 /\ short_colon rest).
Proof.
  induction n as [|n IH]; intros rest i st Hl Hi Hz V.
  { destruct rest; [|cbn in Hl; lia]. exists i, st. cbn [uri_loop]. unfold zlen in Hz at 1. cbn in Hz.
    repeat split; try apply V; auto; try lia. intros [_ K]. now apply short_nil in K. }
  destruct rest as [|c r].
  { exists i, st. cbn [uri_loop]. unfold zlen in Hz at 1. cbn in Hz.
    split; [reflexivity|]. split; [assumption|]. split; [lia|]. split; [lia|]. intros [_ K]. now apply short_nil in K. }
  rewrite zlen_cons in Hz. cbn [length] in Hl. pose proof (zlen_nonneg r) as Nr.
  assert (Step : forall st', valid st' (i + 1) -> auI st' = auI st -> (c = 58 -> auI st <> 0) -> c <> 32 ->
    exists e st'', uri_loop s o r (i + 1) st' = Ok (e, st'') /\ valid st'' e /\ i <= e /\
      (zlen s < e <-> auI st = 0 /\ short_colon (c :: r))).
  { intros st' V' E' Hc N32. destruct (IH r (i + 1) st' ltac:(lia) ltac:(lia) ltac:(lia) V') as (e & st'' & L & V'' & He & Q).
    exists e, st''. split; [exact L|]. split; [exact V''|]. split; [lia|]. rewrite Q, E'.
    destruct (Z.eq_dec c 58) as [->|N58]; [tauto|]. rewrite short_cons by assumption. reflexivity. }
  cbn [uri_loop].
  destruct (Z.eqb_spec c 58) as [->|N58].
  { destruct (Z.eqb_spec (auI st) 0) as [Z0|NZ].
    - rewrite slice_to_ok by lia. cbn [bind]. pose proof (short_colon_here r) as SH.
      set (st1 := Pst (i + 3) (paI st) (quI st) (nuI st) _).
      assert (V1 : valid st1 (i + 3)) by (unfold valid, st1 in *; cbn [auI paI quI nuI]; lia).
      assert (Short : zlen r < 2 -> exists e st', Ok (i + 3, st1) = Ok (e, st') /\ valid st' e /\ i <= e /\ (zlen s < e <-> auI st = 0 /\ short_colon (58 :: r))).
      { intros H. exists (i + 3), st1. split; [reflexivity|]. split; [assumption|]. split; [lia|]. rewrite SH. lia. }
      destruct r as [|c1 [|c2 r']].
      + apply Short. unfold zlen. cbn. lia.
      + apply Short. unfold zlen. cbn. lia.
      + clear Short. rewrite !zlen_cons in *. pose proof (zlen_nonneg r').
        destruct (IH r' (i + 3) st1) as (e & st'' & L & V'' & He & Q); [cbn [length] in Hl; lia|lia|lia|assumption|].
        exists e, st''. split; [exact L|]. split; [exact V''|]. split; [lia|]. rewrite Q, SH. unfold st1. cbn [auI]. lia.
    - apply Step; [now apply valid_next|reflexivity|lia|lia]. }
  destruct (Z.eqb_spec c 47) as [->|N47].
  { destruct (negb (auI st =? 0) && (paI st =? 0)).
    - rewrite slice_ok by (unfold valid in V; lia). cbn [bind]. apply Step; [|reflexivity|lia|lia].
      unfold valid in *. cbn [auI paI quI nuI]. lia.
    - destruct (negb o && (paI st =? 0) && negb (i =? 0)).
      + rewrite slice_to_ok by lia. cbn [bind]. apply Step; [|reflexivity|lia|lia].
        unfold valid in *. cbn [auI paI quI nuI]. lia.
      + apply Step; [now apply valid_next|reflexivity|lia|lia]. }
  destruct (Z.eqb_spec c 63) as [->|N63].
  { destruct (Z.eqb_spec (quI st) 0).
    - rewrite slice_ok by (unfold valid in V; lia). cbn [bind]. apply Step; [|reflexivity|lia|lia].
      unfold valid in *. cbn [auI paI quI nuI]. lia.
    - apply Step; [now apply valid_next|reflexivity|lia|lia]. }
  destruct (Z.eqb_spec c 35) as [->|N35].
  { destruct (Z.eqb_spec (nuI st) 0); [|apply Step; [now apply valid_next|reflexivity|lia|lia]].
    destruct (Z.eqb_spec (quI st) 0).
    - rewrite slice_ok by (unfold valid in V; lia). cbn [bind]. apply Step; [|reflexivity|lia|lia].
      unfold valid in *. cbn [auI paI quI nuI]. lia.
    - rewrite slice_ok by (unfold valid in V; lia). cbn [bind]. apply Step; [|reflexivity|lia|lia].
      unfold valid in *. cbn [auI paI quI nuI]. lia. }
  destruct (Z.eqb_spec c 32) as [->|N32].
  { exists i, st. split; [reflexivity|]. split; [assumption|]. split; [lia|]. split; [lia|].
    intros [_ K]. now apply short_space in K. }
  apply Step; [now apply valid_next|reflexivity|lia|lia].
Qed.

Lemma unmarshal_panic u s : UnmarshalFromString u s = Panic <->
  s = [] \/ (hd 0 s <> 42 /\ short_colon s).
Proof.
  destruct s as [|c t]; [split; [now left|reflexivity]|].
  destruct (Z.eq_dec c 42) as [->|N].
  { split; [|intros [H|[H _]]; [discriminate|cbn in H; lia]].
    unfold UnmarshalFromString. change (idx (42 :: t) 0) with (Ok 42). cbn [bind].
    change (42 =? 42) with true. cbn [bind].
    pose proof (zlen_nonneg t). rewrite slice_to_ok by (rewrite zlen_cons; lia). discriminate. }
  rewrite (unmarshal_unfold u (c :: t) c t eq_refl N). set (s := c :: t).
  destruct (loop_valid s (c =? 47) (length s) s 0 (Pst 0 0 0 0 u)) as (e & st & L & V & He & Q); [lia|lia|lia|unfold valid; cbn [auI paI quI nuI]; lia|].
  rewrite L. cbn [bind]. cbn [auI] in Q.
  transitivity (zlen s < e).
  - destruct (Z.ltb_spec (zlen s) e) as [H|H].
    + split; [auto|]. intros _. unfold full.
      destruct (finish s (e, st)) as [[e' u']|] eqn:F; [|reflexivity]. cbn [bind].
      assert (e' = e).
      { unfold finish in F. 
        repeat match type of F with
        | context [if ?b then _ else _] => destruct b
        | context [slice ?a ?b ?c] => destruct (slice a b c)
        end; cbn [bind] in F; try discriminate; inversion F; reflexivity. }
      subst e'. unfold slice_to, slice. replace ((0 <=? 0) && (0 <=? e) && (e <=? zlen s)) with false by lia. reflexivity.
    + split; [|lia]. intros F. exfalso.
      assert (G : exists u', finish s (e, st) = Ok (e, u')).
      { unfold finish, valid in *.
        destruct ((quI st =? 0) && (nuI st =? 0)) eqn:A.
        - rewrite slice_ok by lia. cbn [bind]. replace (nuI st =? 0) with true by lia. replace (quI st =? 0) with true by lia.
          cbn [negb andb bind]. eauto.
        - cbn [bind]. destruct (Z.eqb_spec (nuI st) 0).
          + cbn [negb bind]. replace (quI st =? 0) with false by lia. cbn [negb andb]. rewrite slice_ok by lia. cbn [bind]. eauto.
          + cbn [negb]. rewrite slice_ok by lia. cbn [bind]. rewrite andb_false_r. cbn [bind]. eauto. }
      destruct G as (u' & G). rewrite G in F. rewrite full_ok in F by lia. discriminate.
  - rewrite Q. cbn [hd]. unfold s. split; [intros [_ K]; right; auto|intros [K|[_ K]]; [discriminate|auto]].
Qed.
