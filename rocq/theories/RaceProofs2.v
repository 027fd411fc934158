(** More proofs about RaceModel: the lock, the holder, whole runs. *)
From Coq Require Import ZifyBool ZifyNat.
From Verif Require Import Go GoFacts TimingModel TimingSpec RaceModel RaceSpec RaceProofs.

(** ** The lock and the thread of the core *)
Definition LKI (s : cs) : Prop :=
  match c_sch s with SCall _ now | SCallback _ now => now <= c_clk s | _ => True end /\
  match c_lock s with
  | Free => c_sch s <> SLocked
  | Held who now mv dr m =>
      match who with None => c_sch s = SLocked /\ now <= c_clk s | Some _ => c_sch s <> SLocked /\ dr = None end /\
      match m with
      | MClear1 _ | MClear2 _ | MClear3 _ => dr <> None
      | MSaw _ | MDue _ | MRun _ | MAgain _ | MOnce _ | MOut _ => who = None /\ dr = None /\ mv = false
      | _ => True
      end
  end.

(** The steps of the thread of the core, one by one. *)
Lemma core_cases s x s' (P : Prop) : LKI s -> core_step s x = Some s' ->
  (c_sch s = SIdle -> c_lock s = Free -> s' = x_sch (x_lock s (Held None (c_clk s) false None MReady)) SLocked -> P) ->
  (forall id now, c_sch s = SCall id now -> s' = x_log (x_sch s (SCallback id now)) (CFire id (c_clk s)) -> P) ->
  (forall id now, c_sch s = SCallback id now -> c_lock s = Free -> s' = x_sch (x_lock s (Held None now false None MReady)) SLocked -> P) ->
  (forall now, c_sch s = SLocked -> c_lock s = Held None now false None MReady -> s' = x_lock s (Held None now false (Some []) MReady) -> P) ->
  (forall now, c_sch s = SLocked -> c_lock s = Held None now false None MReady -> s' = x_sch (x_lock s Free) SIdle -> P) ->
  (forall now l, c_sch s = SLocked -> c_lock s = Held None now false (Some l) MReady ->
     s' = x_sch (x_lock (x_del (x_q s (filter (fun k => negb (existsb (Z.eqb k) l)) (c_q s))) (c_del s - zlen l)) Free) SIdle -> P) -> P.
Proof.
  intros K H P1 P2 P3 P4 P5 P6. unfold core_step in H. destruct K as [_ K]. destruct (c_lock s) as [|who now mv dr m] eqn:E.
  - clear P4 P5 P6. destruct x, (c_sch s) eqn:S1; try discriminate.
    + injection H as <-; now apply P1. + injection H as <-; now apply (P2 id now).
    + destruct (c_usr s 0); try discriminate; injection H as <-; now apply (P3 id now).
  - clear P1 P3. destruct who.
    + destruct K as [[K _] _]. clear P4 P5 P6. destruct x, (c_sch s) eqn:S1; try discriminate; try congruence. injection H as <-; now apply (P2 id now0).
    + destruct K as [[K _] _]. rewrite K in *. destruct x; try discriminate; destruct mv, m; try discriminate; destruct dr; try discriminate; injection H as <-.
      * now apply (P4 now). * now apply (P6 now l). * now apply (P5 now).
Qed.

Lemma lki_step s l s' : LKI s -> cstep s l = Some s' -> LKI s'.
Proof.
  intros K H. unfold cstep in H. destruct (c_crash s); [discriminate|]. destruct l.
  - destruct (Z.ltb_spec d 0); [discriminate|]. injection H as <-. unfold LKI in *. shape. destruct (c_sch s), (c_lock s) as [|[] ? ? ? []]; cbn in *; brk; repeat split; auto; try lia; try congruence.
  - destruct (c_usr s a); try discriminate. destruct (_ && _); [discriminate|]. cbv zeta in H. injection H as <-. destruct (refused o); exact K.
  - unfold user_step in H. destruct (c_usr s a); try discriminate; unfold LKI in *;
    repeat match type of H with
    | Some (if ?c then _ else _) = _ => destruct c eqn:?
    | (if ?c then _ else _) = _ => destruct c eqn:?
    | match ?c with _ => _ end = _ => destruct c eqn:?; try discriminate
    end; try discriminate; injection H as <-; shape; try exact K.
    all: try (destruct removed; shape; exact K).
    all: repeat match goal with H : c_lock ?x = _ |- _ => rewrite H in * end; brk; try congruence; repeat split; auto.
  - unfold pick in H. unfold LKI in *. destruct (c_lock s) as [|who now mv dr []] eqn:KL; try discriminate. match type of H with (if ?c then _ else _) = _ => destruct c; [discriminate|] end.
    destruct (stat s id); destruct dr; try destruct who; try destruct mv; injection H as <-; shape; rewrite ?KL; brk; repeat split; auto; try congruence.
  - unfold hold_step in H. unfold LKI in *. destruct (c_lock s) as [|who now mv dr []] eqn:KL; try discriminate; cbv zeta in H; injection H as <-; shape.
    all: try (destruct (st_eqb _ _)); try (destruct (_ <? _)); shape; brk; subst; try destruct who; brk; subst; shape; repeat split; auto; try congruence; try lia.
    all: destruct dr; congruence.
  - pose proof K as K'. apply (core_cases _ _ _ _ K H); clear H; intros; subst s'; unfold LKI in *; shape;
    repeat match goal with E : c_lock _ = _ |- _ => rewrite E in * | E : c_sch _ = _ |- _ => rewrite E in * end; brk; repeat split; auto; try congruence; try lia.
    destruct (c_lock s) as [|[]]; brk; try congruence; repeat split; auto; congruence.
Qed.
Lemma lki_init clk : LKI (cinit clk). Proof. split; cbn; [exact I|discriminate]. Qed.

(** A thread that adds a timer to the queue has the lock. *)
Definition LK2 (s : cs) : Prop := forall a, match c_usr s a with UAdd3 _ _ | UAdd4 _ _ => match c_lock s with Held (Some b) _ _ _ _ => b = a | _ => False end | _ => True end.
Lemma lk2_same s s' : LK2 s -> c_usr s' = c_usr s -> c_lock s' = c_lock s -> LK2 s'.
Proof. intros L Hu Hk a. rewrite Hu, Hk. apply L. Qed.
Lemma lk2_none s s' : LK2 s -> c_usr s' = c_usr s -> match c_lock s with Held (Some _) _ _ _ _ => False | _ => True end -> LK2 s'.
Proof. intros L Hu Hn a. rewrite Hu. specialize (L a). destruct (c_usr s a), (c_lock s) as [|[]]; auto; destruct L; destruct Hn. Qed.
Lemma lk2_who s s' a now mv d m now' mv' d' m' : LK2 s -> c_usr s' = c_usr s -> c_lock s = Held (Some a) now mv d m -> c_lock s' = Held (Some a) now' mv' d' m' -> LK2 s'.
Proof. intros L Hu K K' b. rewrite Hu, K'. specialize (L b). rewrite K in L. exact L. Qed.
Lemma lk2_user s a p s' : LK2 s -> (forall b, c_usr s' b = if b =? a then p else c_usr s b) -> c_lock s' = c_lock s -> match p with UAdd3 _ _ | UAdd4 _ _ => match c_lock s with Held (Some b) _ _ _ _ => b = a | _ => False end | _ => True end -> LK2 s'.
Proof. intros L Hu Hk Hp b. rewrite Hu, Hk. destruct (Z.eqb_spec b a) as [->|N]; [exact Hp|apply L]. Qed.
Lemma lk2_step s l s' : LKI s -> LK2 s -> cstep s l = Some s' -> LK2 s'.
Proof.
  intros K L H. unfold cstep in H. destruct (c_crash s); [discriminate|]. destruct l.
  - destruct (d <? 0); [discriminate|]. injection H as <-. exact L.
  - destruct (c_usr s a); try discriminate. destruct (_ && _); [discriminate|]. cbv zeta in H. injection H as <-. destruct (refused o).
    + apply (lk2_user s a UIdle); auto. + apply (lk2_user s a (entry o)); auto. destruct o; exact I.
  - unfold user_step in H. pose proof (L a) as La. destruct (c_usr s a) eqn:U; try discriminate;
    repeat match type of H with
    | Some (if ?c then _ else _) = _ => destruct c eqn:?
    | (if ?c then _ else _) = _ => destruct c eqn:?
    | match ?c with _ => _ end = _ => destruct c eqn:?; try discriminate
    end; try discriminate; injection H as <-; try exact L.
    all: unfold ret; try (match goal with |- context [x_usr _ ?b ?p] => eapply (lk2_user _ b p); [exact L|reflexivity|reflexivity|]; cbn; try exact I; try exact La end; fail).
    all: intros b; pose proof (L b) as Lb; shape; match goal with H : c_lock _ = _ |- _ => rewrite H in * end;
      destruct (b =? a) eqn:E; [try exact I; try reflexivity; try lia|]; match goal with |- match ?u with _ => _ end => destruct u end; auto; try destruct Lb; try lia.
  - unfold pick in H. destruct (c_lock s) as [|who now mv dr []] eqn:KL; try discriminate. match type of H with (if ?c then _ else _) = _ => destruct c; [discriminate|] end.
    destruct (stat s id); destruct dr; try destruct who; try destruct mv; injection H as <-; try exact L; try (eapply lk2_who; [exact L|reflexivity|exact KL|reflexivity]); try (apply (lk2_none s); [exact L|reflexivity|rewrite KL; exact I]).
  - unfold hold_step in H. unfold LKI in K. destruct (c_lock s) as [|[w|] now mv dr []] eqn:KL; try discriminate; cbv zeta in H; injection H as <-.
    all: try (exfalso; destruct K as (_ & _ & (K & _)); discriminate).
    all: try (destruct (st_eqb _ _)); try (destruct (_ <? _)); try (eapply lk2_who; [exact L|reflexivity|exact KL|reflexivity]); try (apply (lk2_none s); [exact L|reflexivity|rewrite KL; exact I]).
  - apply (core_cases _ _ _ _ K H); clear H; intros; subst s'; try (apply (lk2_none s); [exact L|reflexivity|match goal with E : c_lock _ = _ |- _ => rewrite E; exact I end]). apply (lk2_same s); auto.
Qed.
Lemma lk2_init clk : LK2 (cinit clk). Proof. intros a. exact I. Qed.

Lemma view_inv owner s s' : INV owner s -> c_t s' = c_t s -> c_usr s' = c_usr s -> (forall k, in_q s' k = in_q s k) -> (forall k, v_dr s' k = v_dr s k) ->
  (forall k, v_l s' k = v_l s k) -> (forall k, v_h s' k = v_h s k) -> INV owner s'.
Proof.
  intros [O T] Ht Hu Hq Hd Hl Hh. split; [unfold own; rewrite Hu; exact O|]. intros k. apply (frame owner s); auto; [now rewrite Ht|]. unfold v_u. now rewrite Hu.
Qed.
Lemma hold_inv owner s s' : LKI s -> LK2 s -> INV owner s -> hold_step s = Some s' -> INV owner s'.
Proof.
  intros LK L2 Iv H. unfold hold_step in H. unfold LKI in LK. destruct (c_lock s) as [|who now mv dr m] eqn:KL; [discriminate|]. cbv zeta in H. destruct LK as (_ & _ & LK).
  assert (Dr : forall k, v_dr s k = match dr with Some l => existsb (Z.eqb k) l | None => false end) by (intros k; unfold v_dr; now rewrite KL).
  assert (Vh : forall k, v_h s k = if is (mtimer m) k then Some (m, now) else None) by (intros k; unfold v_h; now rewrite KL).
  assert (Ua : forall k, who = None -> match v_u owner s k with UAdd4 _ _ => False | _ => True end).
  { intros k ->. unfold v_u. specialize (L2 (owner k)). rewrite KL in L2. destruct (c_usr s (owner k)); cbn [utimer is]; try destruct (_ =? _); auto. }
  destruct m; [discriminate|..].
  all: try (pose proof (proj2 Iv id) as Tk; unfold TIs in Tk; rewrite Vh in Tk; cbn [is mtimer] in Tk; rewrite ?Z.eqb_refl in Tk).
  all: repeat match type of H with
    | Some (if ?c then _ else _) = _ => destruct c eqn:?
    | Some (x_lock (if ?c then _ else _) _) = _ => destruct c eqn:?
    | Some (x_lock _ (Held _ _ _ _ (if ?c then _ else _))) = _ => destruct c eqn:?
    end; injection H as <-.
  all: try (destruct LK as (-> & -> & ->)).
  all: try (apply (view_inv owner s); [exact Iv|reflexivity|reflexivity|..]; intros k; unfold to, off, unq; autorewrite with pic; rewrite ?Dr, ?Vh; cbn [is mtimer]; try reflexivity; fail).
  all: apply (hold_frame owner s _ id Iv); try reflexivity.
  all: intros; unfold to, off, unq, stat in *; autorewrite with pic; cbn [ev_timer]; shape; rewrite ?tsetq, ?Dr, ?Vh in *; cbn [is mtimer existsb]; eqs;
    cbn [t_status t_on t_when t_period t_cb w_status w_on w_when w_period mtimer is]; rewrite ?orb_false_r, ?andb_true_r, ?andb_false_r; try reflexivity.
  all: try (destruct dr; cbn [existsb]; eqs; cbn [orb]; reflexivity).
  all: specialize (Ua id); generalize dependent (v_u owner s id); intros u Ua Tk; try specialize (Ua eq_refl).
  all: clear Iv L2 KL Dr Vh.
  all: match goal with |- TI Running _ _ _ _ _ _ _ => idtac | _ => clear Ua end.
  all: match goal with Tk : TI (t_status (c_t ?s ?k)) _ _ _ _ _ _ _ |- _ =>
    generalize dependent (t_status (c_t s k)); generalize dependent (t_on (c_t s k)); generalize dependent (in_q s k);
    generalize dependent (t_when (c_t s k)); generalize dependent (v_l s k) end; intros;
    repeat match goal with H : st_eqb _ _ = true |- _ => apply st_eqb_spec in H; subst end.
  all: try destruct dr; try congruence; cbn [existsb] in *; eqs; cbn [orb] in *; try generalize dependent (existsb (Z.eqb id) l); intros.
  all: match goal with Tk : TI ?st _ _ _ _ _ _ _ |- _ => try (is_var st; destruct st) end; norm; try tauto; try lia; auto 10.
  all: try (destruct u; repeat match goal with r : bool |- _ => destruct r end; norm; try tauto; repeat split; auto; try tauto; try lia; fail).
Qed.

Lemma drop_q (l q : list Z) k : existsb (Z.eqb k) (filter (fun i => negb (existsb (Z.eqb i) l)) q) = (existsb (Z.eqb k) q && negb (existsb (Z.eqb k) l))%bool.
Proof.
  induction q as [|y q IH]; [reflexivity|]. cbn [filter existsb]. destruct (existsb (Z.eqb y) l) eqn:E1; cbn [negb existsb]; rewrite IH;
  destruct (Z.eqb_spec k y) as [->|N]; cbn [orb]; try rewrite E1; rewrite ?andb_false_r; reflexivity.
Qed.
Lemma core_inv owner s x s' : LKI s -> LK2 s -> INV owner s -> core_step s x = Some s' -> INV owner s'.
Proof.
  intros K L2 Iv H. apply (core_cases _ _ _ _ K H); clear H; intros; subst s'.
  1-5: apply (view_inv owner s); [exact Iv|reflexivity|reflexivity|..]; intros k; try reflexivity; autorewrite with pic; unfold v_dr, v_h; rewrite ?H0; cbn [is mtimer existsb]; reflexivity.
  destruct Iv as [O T]. split; [exact O|]. intros k. specialize (T k). unfold TIs in *. autorewrite with pic.
  assert (Ua : match v_u owner s k with UAdd3 _ _ | UAdd4 _ _ => False | _ => True end).
  { unfold v_u. specialize (L2 (owner k)). rewrite H0 in L2. destruct (c_usr s (owner k)); cbn [utimer is]; try destruct (_ =? _); auto. }
  change (v_u owner (x_sch _ _) k) with (v_u owner s k). unfold v_dr, v_h in T. rewrite H0 in T. cbn [is mtimer] in T. shape.
  unfold in_q in *. shape. rewrite drop_q. clear K L2 O H H0. destruct (existsb (Z.eqb k) l), (existsb (Z.eqb k) (c_q s)); cbn [negb andb].
  all: generalize dependent (v_u owner s k); intros u T Ua; destruct (t_status (c_t s k)); cbn [TI] in *; try tauto; try (intuition congruence).
  all: destruct u; repeat match goal with r : bool |- _ => destruct r end; cbn [fresh stopping stopping'] in *; try tauto; try (intuition congruence).
Qed.

(** ** Every run *)
Definition GOOD (owner : Z -> Z) (s : cs) : Prop := LKI s /\ LK2 s /\ INV owner s.

Lemma good_step owner s l s' : match l with LCall a o => owner (op_timer o) = a | _ => True end -> GOOD owner s -> cstep s l = Some s' -> GOOD owner s'.
Proof.
  intros Lg (K & L & Iv) H. split; [exact (lki_step _ _ _ K H)|split; [exact (lk2_step _ _ _ K L H)|]]. destruct l.
  2: exact (call_inv _ _ _ _ _ Iv Lg H).
  all: unfold cstep in H; destruct (c_crash s); [discriminate|].
  - destruct (d <? 0); [discriminate|]. injection H as <-. apply (same_inv owner s); auto.
  - exact (user_inv _ _ _ _ Iv H). - exact (pick_inv _ _ _ _ Iv H). - exact (hold_inv _ _ _ K L Iv H). - exact (core_inv _ _ _ _ K L Iv H).
Qed.
Lemma good_init owner clk : GOOD owner (cinit clk).
Proof. split; [apply lki_init|split; [apply lk2_init|]]. split; [intros a; exact I|]. intros id. cbn. tauto. Qed.
(** What holds at first and after every step from a good state holds after every run. *)
Lemma run_ind owner clk (P : cs -> Prop) : P (cinit clk) ->
  (forall s l s', match l with LCall a o => owner (op_timer o) = a | _ => True end -> GOOD owner s -> P s -> cstep s l = Some s' -> P s') ->
  forall ls s, legal owner ls -> crun (cinit clk) ls = Some s -> P s.
Proof.
  intros P0 Ps ls s. assert (X : forall ls s0, GOOD owner s0 -> P s0 -> legal owner ls -> crun s0 ls = Some s -> P s).
  { clear ls. induction ls as [|l ls IH]; intros s0 G P1 Lg H; [injection H as <-; exact P1|]. cbn [crun] in H. destruct (cstep s0 l) as [s1|] eqn:E; [|discriminate].
    inversion Lg; subst. apply (IH s1); auto; [exact (good_step _ _ _ _ H2 G E)|exact (Ps _ _ _ H2 G P1 E)]. }
  intros Lg H. exact (X ls _ (good_init owner clk) P0 Lg H).
Qed.
Lemma good_run owner clk ls s : legal owner ls -> crun (cinit clk) ls = Some s -> GOOD owner s.
Proof. apply (run_ind owner clk (GOOD owner)); [apply good_init|]. intros s0 l s' Lg G _. exact (good_step _ _ _ _ Lg G). Qed.
