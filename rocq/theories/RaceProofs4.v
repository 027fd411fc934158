(** The number of stopped timers, kept while threads run at once (RaceModel). *)
From Coq Require Import ZifyBool ZifyNat.
From Verif Require Import Go GoFacts TimingModel TimingSpec RaceModel RaceSpec RaceProofs RaceProofs2.

(** What one timer adds to the counter: it is marked, or waits to be dropped, or is being taken back;
    less one while its Stop has yet to count it. *)
Definition Wp (st : status) (dr : bool) (u : upc) : Z :=
  (match st with Deleted | Removing => 1 | _ => 0 end) + (if dr then 1 else 0) + (match u with UReset2 _ _ => 1 | UStop4 _ _ => -1 | _ => 0 end).
Definition W (owner : Z -> Z) (s : cs) (id : Z) : Z := Wp (t_status (c_t s id)) (v_dr s id) (v_u owner s id).
Definition mc (s : cs) : Z := match c_lock s with Held _ _ _ _ MCount => 1 | _ => 0 end.
Definition moves (owner : Z -> Z) (s s' : cs) : Prop :=
  exists id, (forall k, k <> id -> W owner s' k = W owner s k) /\ c_del s' - mc s' - W owner s' id = c_del s - mc s - W owner s id.

Lemma user_moves owner s a s' : LKI s -> INV owner s -> user_step s a = Some s' -> moves owner s s'.
Proof.
  intros LK Iv H. pose proof (proj1 Iv) as O. pose proof (proj2 Iv) as T. unfold user_step in H. destruct (c_usr s a) eqn:U; [discriminate|..].
  all: match type of U with c_usr _ _ = ?p => match eval cbn in (utimer p) with Some ?k => pose proof (O a) as Oa; rewrite U in Oa; cbn [utimer] in Oa; pose proof (T k) as Tk; unfold TIs in Tk; rewrite (u_at owner s a k Oa) in Tk by (rewrite U; reflexivity); rewrite U in Tk;
     assert (Ut : utimer (c_usr s a) = Some k) by (rewrite U; reflexivity) end end.
  all: repeat match type of H with
    | Some (if ?c then _ else _) = _ => destruct c eqn:?
    | (if ?c then _ else _) = _ => destruct c eqn:?
    | match ?c with _ => _ end = _ => destruct c eqn:?; try discriminate
    end; try discriminate; injection H as <-.
  all: exists id.
  all: assert (Vu : v_u owner s id = c_usr s a) by (apply u_at; assumption).
  all: split; [intros k Nk; unfold W; side; f_equal; try reflexivity; unfold v_u; shape; destruct (Z.eqb_spec (owner k) a) as [E|E]; try reflexivity; rewrite E, U; cbn [utimer is]; eqs; reflexivity|].
  all: try match goal with K : c_lock ?x = _ |- _ => assert (Mc : mc x = 0) by (unfold mc; rewrite K; reflexivity); unfold mc in Mc end.
  all: unfold W; rewrite Vu, U; unfold v_u, ret, to, off, mc; rewrite ?Oa; side; rewrite ?tsetq, ?Z.eqb_refl; cbn [utimer is]; rewrite ?Z.eqb_refl.
  all: unfold stat in *; repeat match goal with H : st_eqb _ _ = true |- _ => apply st_eqb_spec in H end.
  all: repeat match goal with H : t_status _ = _ |- _ => rewrite H in * end; cbn [t_status w_status w_when w_period w_on Wp].
  all: unfold Wp; rewrite ?U; cbn [utimer is]; rewrite ?Z.eqb_refl; cbn [is utimer]; try rewrite Mc; try lia.
  all: try (match goal with |- context [if ?b then w_period _ _ else _] => destruct b end; cbn [t_status w_period w_when]; lia).
  all: try (destruct earlier; lia).
  all: try (match goal with w : status |- _ => destruct w end; norm; try tauto; lia).
Qed.

Lemma pick_moves owner s id s' : INV owner s -> pick s id = Some s' -> moves owner s s'.
Proof.
  intros Iv H. pose proof (proj2 Iv id) as Tk. unfold TIs in Tk. unfold pick in H. destruct (c_lock s) eqn:K; [discriminate|]. destruct m; try discriminate.
  match type of H with (if ?c then _ else _) = _ => destruct c; [discriminate|] end. assert (Mc : mc s = 0) by (unfold mc; now rewrite K).
  exists id. unfold stat in H. destruct (t_status (c_t s id)) eqn:St; destruct drop; try destruct who; try destruct moved; injection H as <-; try (split; [reflexivity|reflexivity]).
  all: split; [intros k Nk; unfold W; side; reflexivity|].
  all: rewrite Mc; unfold W, to, mc; side; rewrite ?tsetq, ?Z.eqb_refl, ?St; cbn [t_status w_status]; unfold Wp; change (v_u owner (x_lock _ _) id) with (v_u owner s id); lia.
Qed.

Lemma vu_same owner s s' k : c_usr s' = c_usr s -> v_u owner s' k = v_u owner s k.
Proof. unfold v_u. now intros ->. Qed.
Lemma hold_moves owner s s' : LKI s -> INV owner s -> hold_step s = Some s' -> moves owner s s'.
Proof.
  intros LK Iv H. unfold hold_step in H. unfold LKI in LK. destruct (c_lock s) as [|who now mv dr m] eqn:KL; [discriminate|]. cbv zeta in H. destruct LK as (_ & _ & LK).
  assert (Dr : forall k, v_dr s k = match dr with Some l => existsb (Z.eqb k) l | None => false end) by (intros k; unfold v_dr; now rewrite KL).
  assert (Vh : forall k, v_h s k = if is (mtimer m) k then Some (m, now) else None) by (intros k; unfold v_h; now rewrite KL).
  assert (Mc : mc s = match m with MCount => 1 | _ => 0 end) by (unfold mc; now rewrite KL).
  destruct m; [discriminate|..].
  all: try (pose proof (proj2 Iv id) as Tk; unfold TIs in Tk; rewrite Vh in Tk; cbn [is mtimer] in Tk; rewrite ?Z.eqb_refl in Tk).
  all: repeat match type of H with
    | Some (if ?c then _ else _) = _ => destruct c eqn:?
    | Some (x_lock (if ?c then _ else _) _) = _ => destruct c eqn:?
    | Some (x_lock _ (Held _ _ _ _ (if ?c then _ else _))) = _ => destruct c eqn:?
    end; injection H as <-.
  all: try (destruct LK as (-> & -> & ->)).
  all: match goal with Tk : TI (t_status (c_t _ ?k)) _ _ _ _ _ _ _ |- _ => exists k | _ => exists 0 end.
  all: split; [intros k Nk; unfold W, to, off, unq; autorewrite with pic; shape; rewrite ?tsetq, ?Dr; eqs; try reflexivity; destruct dr; cbn [existsb]; eqs; reflexivity|].
  all: rewrite Mc; unfold W; match goal with Mc : mc ?s0 = _ |- context [v_u ?o (?f ?y) ?k] => rewrite (vu_same o s0 (f y) k eq_refl) end.
  all: unfold to, off, unq, mc, stat in *; autorewrite with pic; shape; rewrite ?tsetq, ?Z.eqb_refl, ?Dr; cbn [t_status w_status w_on w_when existsb]; rewrite ?Z.eqb_refl.
  all: repeat match goal with H : st_eqb _ _ = true |- _ => apply st_eqb_spec in H; rewrite H in * end.
  all: unfold Wp; try lia.
  2: { cbn [TI] in Tk. rewrite Dr in Tk. destruct dr as [l|]; [|destruct (LK eq_refl)]. cbn [existsb]. rewrite Z.eqb_refl. destruct Tk as (E & _). rewrite E. cbn [orb]. lia. }
  all: exfalso; destruct (t_status (c_t s id)); norm; try tauto.
  all: destruct (v_u owner s id); norm; repeat match goal with r : bool |- _ => destruct r end; norm; tauto.
Qed.

Lemma same_moves owner s s' : c_t s' = c_t s -> c_usr s' = c_usr s -> (forall k, v_dr s' k = v_dr s k) -> mc s' = mc s -> c_del s' = c_del s -> moves owner s s'.
Proof.
  intros Ht Hu Hd Hm Hc. assert (E : forall k, W owner s' k = W owner s k) by (intros k; unfold W; now rewrite Ht, Hd, (vu_same owner s s' k Hu)). exists 0. split; [auto|]. now rewrite E, Hm, Hc.
Qed.
Definition drops (s : cs) (l : lab) : option (list Z) := match l, c_lock s with LCore AUnlock, Held _ _ _ (Some d) _ => Some d | _, _ => None end.
Lemma step_moves owner s l s' : match l with LCall a o => owner (op_timer o) = a | _ => True end -> GOOD owner s -> cstep s l = Some s' -> drops s l = None -> moves owner s s'.
Proof.
  intros Lg (K & L & Iv) H Dn. unfold cstep in H. destruct (c_crash s); [discriminate|]. destruct l.
  - destruct (d <? 0); [discriminate|]. injection H as <-. apply same_moves; reflexivity.
  - destruct (c_usr s a) eqn:U; try discriminate. destruct (_ && _); [discriminate|]. cbv zeta in H. injection H as <-.
    assert (E : forall k, W owner (if refused o then ret (x_log (x_op s a o) (CCall a o (c_clk s))) a NegativeDuration else x_usr (x_log (x_op s a o) (CCall a o (c_clk s))) a (entry o)) k = W owner s k).
    { intros k. unfold W, Wp, v_u. destruct (refused o); unfold ret; shape; destruct (Z.eqb_spec (owner k) a) as [->|N]; try reflexivity; rewrite U; cbn [utimer is].
      - f_equal. - destruct (is _ k); [|reflexivity]. destruct o; reflexivity. }
    exists 0. split; [auto|]. rewrite E. destruct (refused o); reflexivity.
  - exact (user_moves _ _ _ _ K Iv H). - exact (pick_moves _ _ _ _ Iv H). - exact (hold_moves _ _ _ K Iv H).
  - assert (Dl : x = AUnlock -> match c_lock s with Held _ _ _ (Some d) _ => False | _ => True end). { intros ->. unfold drops in Dn. destruct (c_lock s) as [|? ? ? [] ?]; auto. discriminate. }
    assert (X6 : forall now l, c_lock s = Held None now false (Some l) MReady -> x = AUnlock). { intros now l E. unfold core_step in H. destruct K as [_ K]. rewrite E in H, K. destruct K as [[K _] _]. rewrite K in H. destruct x; try discriminate; reflexivity. }
    apply (core_cases _ _ _ _ K H); intros; subst s'.
    1-5: apply same_moves; try reflexivity; try (intros k; unfold v_dr); unfold mc; shape; try (match goal with E : c_lock _ = _ |- _ => rewrite E end); reflexivity.
    exfalso. specialize (X6 _ _ H1). specialize (Dl X6). rewrite H1 in Dl. exact Dl.
Qed.

(** ** The counter is the sum of what the timers add *)
Fixpoint sum (f : Z -> Z) (D : list Z) : Z := match D with [] => 0 | k :: D => f k + sum f D end.
Lemma sum_ext f g D : (forall k, In k D -> f k = g k) -> sum f D = sum g D.
Proof. induction D as [|k D IH]; intros E; [reflexivity|]. cbn [sum]. rewrite (E k (or_introl eq_refl)), IH; [reflexivity|]. intros j J. apply E. now right. Qed.
Lemma sum_one f g id D : NoDup D -> In id D -> (forall k, k <> id -> g k = f k) -> sum g D = sum f D + g id - f id.
Proof.
  intros N I E. induction N as [|k D Nk N IH]; [destruct I|]. cbn [sum]. destruct (Z.eq_dec k id) as [->|Ne].
  - rewrite (sum_ext g f D); [lia|]. intros j J. apply E. intros ->. now apply Nk.
  - destruct I as [I|I]; [congruence|]. rewrite (IH I), (E k Ne). lia.
Qed.
Definition DEL (owner : Z -> Z) (s : cs) : Prop :=
  exists D, NoDup D /\ (forall k, W owner s k <> 0 -> In k D) /\ c_del s = mc s + sum (W owner s) D.
Lemma del_more owner s l : DEL owner s -> exists D, NoDup D /\ (forall k, In k l -> In k D) /\ (forall k, W owner s k <> 0 -> In k D) /\ c_del s = mc s + sum (W owner s) D.
Proof.
  intros (D & N & C & E). induction l as [|x l (D' & N' & I' & C' & E')]; [exists D; repeat split; auto; intros k []|].
  destruct (in_dec Z.eq_dec x D') as [Ix|Nx].
  - exists D'. repeat split; auto. intros k [<-|Ik]; auto.
  - exists (x :: D'). repeat split.
    + now constructor. + intros k [<-|Ik]; [now left|right; auto]. + intros k Hk. right. auto.
    + cbn [sum]. assert (Z0 : W owner s x = 0) by (destruct (Z.eq_dec (W owner s x) 0); auto; exfalso; auto). lia.
Qed.
(** The timers to be dropped are different ones, and so are those of the queue. *)
Definition ND (s : cs) : Prop := NoDup (c_q s) /\ match c_lock s with Held _ _ _ (Some l) _ => NoDup l | _ => True end.
Lemma sum_mem l D : NoDup l -> NoDup D -> (forall k, In k l -> In k D) -> sum (fun k => if existsb (Z.eqb k) l then 1 else 0) D = zlen l.
Proof.
  revert D. induction l as [|x l IH]; intros D Nl Nd I.
  - cbn [existsb]. change (zlen (@nil Z)) with 0. clear. induction D; cbn [sum]; lia.
  - inversion Nl; subst. rewrite (sum_one (fun k => if existsb (Z.eqb k) l then 1 else 0) _ x D Nd).
    + rewrite IH; auto; [|intros k Ik; apply I; now right]. cbn [existsb]. rewrite Z.eqb_refl. cbn [orb].
      replace (existsb (Z.eqb x) l) with false. { unfold zlen. cbn [length]. lia. }
      symmetry. apply not_true_is_false. intros E. apply existsb_exists in E. destruct E as (y & Iy & Ey). apply Z.eqb_eq in Ey. subst. auto.
    + apply I. now left.
    + intros k Nk. cbn [existsb]. eqs. reflexivity.
Qed.
Lemma sum_add f g D : sum (fun k => f k + g k) D = sum f D + sum g D.
Proof. induction D; cbn [sum]; lia. Qed.

Lemma NoDup_app_snoc (l : list Z) x : NoDup l -> ~ In x l -> NoDup (l ++ [x]).
Proof. intros N Nx. apply NoDup_rev in N. rewrite <- (rev_involutive (l ++ [x])). apply NoDup_rev. rewrite rev_app_distr. cbn [rev app]. constructor; [|exact N]. now rewrite <- in_rev. Qed.
Lemma nd_step owner s l s' : GOOD owner s -> ND s -> cstep s l = Some s' -> ND s'.
Proof.
  intros (K & L & Iv) (Nq & Nl) H. unfold cstep in H. destruct (c_crash s); [discriminate|]. destruct l.
  - destruct (d <? 0); [discriminate|]. injection H as <-. now split.
  - destruct (c_usr s a) eqn:U; try discriminate. destruct (_ && _); [discriminate|]. cbv zeta in H. injection H as <-. destruct (refused o); now split.
  - unfold user_step in H. destruct (c_usr s a) eqn:U; [discriminate|..];
    repeat match type of H with
    | Some (if ?c then _ else _) = _ => destruct c eqn:?
    | (if ?c then _ else _) = _ => destruct c eqn:?
    | match ?c with _ => _ end = _ => destruct c eqn:?; try discriminate
    end; try discriminate; injection H as <-; try (split; shape; auto; fail).
    split; shape; [|match goal with E : c_lock _ = _ |- _ => rewrite E end; exact I].
    assert (Nin : ~ In id (c_q s)).
    { intros Ii. assert (Q : in_q s id = true) by (apply existsb_exists; exists id; split; [exact Ii|apply Z.eqb_refl]).
      pose proof (proj1 Iv a) as Oa. rewrite U in Oa. cbn [utimer] in Oa. pose proof (proj2 Iv id) as Tk. unfold TIs in Tk. rewrite (u_at owner s a id Oa) in Tk by (rewrite U; reflexivity). rewrite U, Q in Tk.
      assert (Dr : v_dr s id = false) by (unfold v_dr; match goal with E : c_lock _ = _ |- _ => rewrite E end; reflexivity). rewrite Dr in Tk.
      destruct (t_status (c_t s id)), reset; norm; try tauto. all: destruct (v_h s id) as [[[] ?]|]; norm; tauto. }
    apply NoDup_app_snoc; auto.
  - unfold pick in H. destruct (c_lock s) as [|who now mv dr []] eqn:KL; try discriminate. match type of H with (if ?c then _ else _) = _ => destruct c; [discriminate|] end.
    destruct (stat s id); destruct dr; try destruct who; try destruct mv; injection H as <-; split; shape; rewrite ?KL; auto.
  - unfold hold_step in H. pose proof K as K'. unfold LKI in K. destruct (c_lock s) as [|who now mv dr m] eqn:KL; [discriminate|]. cbv zeta in H.
    destruct m; try discriminate; injection H as <-; try destruct (st_eqb _ _) eqn:Es; try destruct (_ <? _); split; shape; rewrite ?KL; auto; try (apply NoDup_filter; auto; fail).
    all: destruct dr as [l|]; auto.
    all: constructor; auto; intros Ii; pose proof (proj2 Iv id) as Tk; unfold TIs, v_dr, v_h in Tk; rewrite KL in Tk; cbn [mtimer is] in Tk; rewrite Z.eqb_refl in Tk;
      assert (Ex : existsb (Z.eqb id) l = true) by (apply existsb_exists; exists id; split; [exact Ii|apply Z.eqb_refl]); rewrite Ex in Tk;
      destruct (t_status (c_t s id)); norm; try tauto; destruct (v_u owner s id); norm; repeat match goal with r : bool |- _ => destruct r end; norm; tauto.
  - apply (core_cases _ _ _ _ K H); intros; subst s'; split; shape; auto; try (apply NoDup_filter; auto; fail). constructor.
Qed.

Lemma del_step owner s l s' : match l with LCall a o => owner (op_timer o) = a | _ => True end -> GOOD owner s -> ND s -> DEL owner s -> cstep s l = Some s' -> DEL owner s'.
Proof.
  intros Lg G N Dl H. destruct (drops s l) as [d|] eqn:Dr.
  - unfold drops in Dr. destruct l; try discriminate. destruct x; try discriminate. destruct (c_lock s) as [|who now mv [l|] m] eqn:KL; try discriminate. injection Dr as ->.
    unfold cstep in H. destruct (c_crash s); [discriminate|]. destruct G as (K & _ & _). destruct (del_more owner s d Dl) as (D & Nd & Id & C & E). destruct N as [_ Nl]. rewrite KL in Nl.
    apply (core_cases _ _ _ _ K H); intros; subst s'; try congruence.
    { exfalso. destruct K as [_ K]. rewrite KL in K. unfold core_step in H. rewrite KL in H. destruct who; [destruct (c_sch s); discriminate|]. destruct K as [[K _] _]. congruence. }
    assert (l = d) by congruence. subst l.
    match goal with |- DEL _ ?x => assert (Ew : forall k, W owner s k = W owner x k + (if existsb (Z.eqb k) d then 1 else 0)) end.
    { intros k. unfold W. match goal with |- context [v_u owner (x_sch ?a ?b) k] => rewrite (vu_same owner s (x_sch a b) k eq_refl) end. unfold v_dr. shape. rewrite KL. unfold Wp. lia. }
    exists D. repeat split; auto.
    + intros k Hk. destruct (existsb (Z.eqb k) d) eqn:Ex.
      * apply Id. apply existsb_exists in Ex. destruct Ex as (y & Iy & Ey). apply Z.eqb_eq in Ey. now subst.
      * apply C. rewrite Ew, Ex. lia.
    + rewrite (sum_ext _ _ D (fun k _ => Ew k)), sum_add, (sum_mem d D Nl Nd Id) in E. unfold mc in *. rewrite KL in E. rewrite H1 in KL. injection KL as <- <- <- <-. shape. lia.
  - destruct (step_moves owner s l s' Lg G H Dr) as (id & Eo & Ei). destruct (del_more owner s [id] Dl) as (D & Nd & Id & C & E). exists D. repeat split; auto.
    + intros k Hk. destruct (Z.eq_dec k id) as [->|Nk]; [apply Id; now left|]. apply C. now rewrite <- (Eo k Nk).
    + rewrite (sum_one (W owner s) _ id D Nd (Id id (or_introl eq_refl)) Eo). lia.
Qed.
Lemma nd_run owner clk ls s : legal owner ls -> crun (cinit clk) ls = Some s -> ND s.
Proof. apply (run_ind owner clk ND); [split; [constructor|exact I]|]. intros s0 l s' Lg G P H. exact (nd_step _ _ _ _ G P H). Qed.
Lemma del_run owner clk ls s : legal owner ls -> crun (cinit clk) ls = Some s -> DEL owner s.
Proof.
  intros Lg H. enough (X : ND s /\ DEL owner s) by apply X. revert Lg H. apply (run_ind owner clk (fun s => ND s /\ DEL owner s)).
  - split; [split; [constructor|exact I]|]. exists []. repeat split; [constructor|]. intros k Hk. exfalso. apply Hk. reflexivity.
  - intros s0 l s' Lg G [P1 P2] H. split; [exact (nd_step _ _ _ _ G P1 H)|exact (del_step _ _ _ _ Lg G P1 P2 H)].
Qed.

Lemma zlen_filter_same (f : Z -> bool) (D q : list Z) : NoDup D -> NoDup q -> (forall k, f k = true -> (In k D <-> In k q)) -> length (filter f D) = length (filter f q).
Proof.
  intros Nd Nq E. assert (H : forall a b, NoDup a -> (forall k, f k = true -> In k a -> In k b) -> (length (filter f a) <= length (filter f b))%nat).
  { intros a b N I. apply NoDup_incl_length; [apply NoDup_filter, N|]. intros k Ik. apply filter_In in Ik. apply filter_In. destruct Ik. auto. }
  assert (length (filter f D) <= length (filter f q))%nat by (apply H; auto; intros k F; apply (E k F)).
  assert (length (filter f q) <= length (filter f D))%nat by (apply H; auto; intros k F; apply (E k F)). lia.
Qed.
Lemma sum_filter (f : Z -> bool) D : sum (fun k => if f k then 1 else 0) D = zlen (filter f D).
Proof. induction D as [|k D IH]; [reflexivity|]. cbn [sum filter]. rewrite IH. destruct (f k); unfold zlen; cbn [length]; lia. Qed.
(** With the lock free, what a timer adds is whether it is stopped, and what its thread has yet to count. *)
Lemma count_free owner clk ls s (g : Z -> Z) : legal owner ls -> crun (cinit clk) ls = Some s -> c_lock s = Free ->
  (forall k, match v_u owner s k with UReset2 _ _ => 1 | UStop4 _ _ => -1 | _ => 0 end = g k) ->
  exists D, NoDup D /\ (forall k, g k <> 0 -> In k D) /\ c_del s = zlen (held_stopped s) + sum g D.
Proof.
  intros Lg H F Hg. destruct (good_run _ _ _ _ Lg H) as (_ & _ & _ & T). destruct (nd_run _ _ _ _ Lg H) as [Nq _]. pose proof (del_run _ _ _ _ Lg H) as Dl.
  destruct (del_more owner s (c_q s) Dl) as (D & Nd & Iq & C & E).
  assert (Ew : forall k, W owner s k = (if st_eqb (t_status (c_t s k)) Deleted then 1 else 0) + g k).
  { intros k. specialize (T k). unfold TIs in T. unfold W, Wp. rewrite <- Hg. unfold v_dr, v_h in *. rewrite F in *. destruct (t_status (c_t s k)); cbn [st_eqb]; norm; try lia. }
  assert (Dq : forall k, st_eqb (t_status (c_t s k)) Deleted = true -> In k (c_q s)).
  { intros k Hk. apply st_eqb_spec in Hk. specialize (T k). unfold TIs in T. rewrite Hk in T. cbn [TI] in T. destruct T as (Q & _). apply existsb_exists in Q. destruct Q as (y & Iy & Ey). apply Z.eqb_eq in Ey. now subst. }
  assert (Ct : forall k, g k <> 0 -> In k D \/ In k (c_q s)).
  { intros k Hk. destruct (st_eqb (t_status (c_t s k)) Deleted) eqn:Es; [right; auto|]. left. apply C. rewrite Ew, Es. lia. }
  exists D. repeat split; auto.
  - intros k Hk. destruct (Ct k Hk); auto.
  - rewrite (sum_ext _ _ D (fun k _ => Ew k)), sum_add, sum_filter in E. unfold mc in E. rewrite F in E. unfold held_stopped.
    assert (L : length (filter (fun k => st_eqb (t_status (c_t s k)) Deleted) D) = length (filter (fun k => st_eqb (t_status (c_t s k)) Deleted) (c_q s))).
    { apply zlen_filter_same; auto. intros k Hk. split; auto. }
    unfold zlen in *. rewrite L in E. lia.
Qed.

(** A timer is on the move only while the lock is held, and once one was taken off the lock is never given back. *)
Definition MVI (s : cs) : Prop := forall k, t_status (c_t s k) = Moving ->
  match c_lock s with Held _ _ mv _ m => mv = true \/ m = MMoving k \/ m = MClear3 k | Free => False end.
Lemma mvi_step s l s' : LKI s -> MVI s -> cstep s l = Some s' -> MVI s'.
Proof.
  intros K M H. unfold cstep in H. destruct (c_crash s); [discriminate|]. destruct l.
  - destruct (d <? 0); [discriminate|]. injection H as <-. exact M.
  - destruct (c_usr s a) eqn:U; try discriminate. destruct (_ && _); [discriminate|]. cbv zeta in H. injection H as <-. destruct (refused o); exact M.
  - unfold user_step in H. destruct (c_usr s a) eqn:U; [discriminate|..];
    repeat match type of H with
    | Some (if ?c then _ else _) = _ => destruct c eqn:?
    | (if ?c then _ else _) = _ => destruct c eqn:?
    | match ?c with _ => _ end = _ => destruct c eqn:?; try discriminate
    end; try discriminate; injection H as <-; try exact M.
    all: intros k; specialize (M k); unfold ret, to, off; shape; rewrite ?tsetq; destruct (Z.eqb_spec k id) as [->|N]; try exact M; cbn [t_status w_status w_on w_when w_period]; intros Em; try discriminate Em; try exact (M Em).
    all: try (match goal with E : c_lock _ = _ |- _ => rewrite E in M end; specialize (M Em); intuition discriminate).
    all: try (match type of Em with context [if ?b then w_period _ _ else _] => destruct b end; exact (M Em)).
    all: destruct earlier; discriminate Em.
  - unfold pick in H. destruct (c_lock s) as [|who now mv dr []] eqn:KL; try discriminate. match type of H with (if ?c then _ else _) = _ => destruct c; [discriminate|] end.
    destruct (stat s id); destruct dr; try destruct who; try destruct mv; injection H as <-; intros k; specialize (M k); unfold to; shape; rewrite ?KL in *; rewrite ?tsetq; try exact M;
      try (destruct (Z.eqb_spec k id) as [->|N]); cbn [t_status w_status]; intros Em; try discriminate Em; try (specialize (M Em)); intuition congruence.
  - unfold hold_step in H. unfold LKI in K. destruct (c_lock s) as [|who now mv dr m] eqn:KL; [discriminate|]. cbv zeta in H. destruct K as (_ & _ & K).
    destruct m; try discriminate; injection H as <-; try destruct (st_eqb _ _) eqn:Es; try destruct (_ <? _); intros k; specialize (M k); unfold to, off, unq in *; shape; rewrite ?KL in *; rewrite ?tsetq;
      try (destruct (Z.eqb_spec k id) as [->|N]); cbn [t_status w_status w_on w_when]; intros Em; try discriminate Em; try (specialize (M Em)); try (intuition congruence).
    all: exfalso; unfold stat in Es; rewrite Em in Es; discriminate.
  - apply (core_cases _ _ _ _ K H); intros; subst s'; intros k; specialize (M k); shape; try exact M; match goal with E : c_lock _ = _ |- _ => rewrite E in M end; intros Em; specialize (M Em); intuition congruence.
Qed.
Lemma mvi_run owner clk ls s : legal owner ls -> crun (cinit clk) ls = Some s -> MVI s.
Proof. apply (run_ind owner clk MVI); [intros k E; discriminate E|]. intros s0 l s' Lg (K & _) P H. exact (mvi_step _ _ _ K P H). Qed.
