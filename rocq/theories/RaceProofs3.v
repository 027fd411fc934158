(** What the log of a run says. *)
From Coq Require Import ZifyBool ZifyNat.
From Verif Require Import Go GoFacts TimingModel TimingSpec RaceModel RaceSpec RaceProofs RaceProofs2.

Ltac usplit H := repeat match type of H with
    | Some (if ?c then _ else _) = _ => destruct c eqn:?
    | (if ?c then _ else _) = _ => destruct c eqn:?
    | match ?c with _ => _ end = _ => destruct c eqn:?; try discriminate
    end; try discriminate; injection H as <-.

(** ** How the log grows *)
Definition lin_ok (s : cs) (e : event) : Prop :=
  match e with
  | EArm _ _ => True
  | EStop id => pend1 (v_l s id) <> None
  | EFire id now => (exists due, pend1 (v_l s id) = Some due /\ due <= now) /\ now <= c_clk s
  | ERearm id _ => fired1 (v_l s id)
  end.
Definition by_call (a : Z) (owner : Z -> Z) (e : cev) : Prop :=
  match e with CLin (EArm id _) | CLin (EStop id) => owner id = a | CRet b _ _ _ => b = a | _ => False end.
Definition by_core (e : cev) : Prop := match e with CLin (EFire _ _) | CLin (ERearm _ _) | CFire _ _ => True | _ => False end.
Definition lins (s : cs) (es : list cev) : Prop := match es with [CLin e] => lin_ok s e | _ => forall e, ~ In (CLin e) es end.

Definition grows (owner : Z -> Z) (s s' : cs) (a : Z) : Prop :=
  exists es, c_log s' = c_log s ++ es /\ Forall (by_call a owner) es /\ (length es <= 1)%nat /\ lins s es /\ c_clk s' = c_clk s /\ c_op s' = c_op s /\ c_crash s' = c_crash s /\
    (forall b, b <> a -> c_usr s' b = c_usr s b).
Lemma grow0 owner s s' a p : c_log s' = c_log s -> c_clk s' = c_clk s -> c_op s' = c_op s -> c_crash s' = c_crash s -> c_usr s' = (fun k => if k =? a then p else c_usr s k) -> grows owner s s' a.
Proof.
  intros L C Op Cr U. exists []. rewrite app_nil_r. repeat split; auto. - intros e [].
  - intros b N. rewrite U. replace (b =? a) with false by lia. reflexivity.
Qed.
Lemma grow1 owner s s' a p e : c_log s' = c_log s ++ [e] -> by_call a owner e -> lins s [e] -> c_clk s' = c_clk s -> c_op s' = c_op s -> c_crash s' = c_crash s -> c_usr s' = (fun k => if k =? a then p else c_usr s k) -> grows owner s s' a.
Proof.
  intros L B Le C Op Cr U. exists [e]. split; [exact L|]. split; [constructor; [exact B|constructor]|]. split; [auto|]. split; [exact Le|]. repeat split; auto.
  intros b N. rewrite U. replace (b =? a) with false by lia. reflexivity.
Qed.
Lemma user_grow owner s a s' : INV owner s -> user_step s a = Some s' -> grows owner s s' a.
Proof.
  intros Iv H. pose proof (proj1 Iv) as O. pose proof (proj2 Iv) as T. unfold user_step in H. destruct (c_usr s a) eqn:U; [discriminate|..].
  all: match type of U with c_usr _ _ = ?p => match eval cbn in (utimer p) with Some ?k => pose proof (O a) as Oa; rewrite U in Oa; cbn [utimer] in Oa; pose proof (T k) as Tk; unfold TIs in Tk; rewrite (u_at owner s a k Oa) in Tk by (rewrite U; reflexivity); rewrite U in Tk; clear T O end end.
  all: usplit H; subst.
  all: try (eapply grow0; reflexivity).
  all: try (eapply grow1; [reflexivity|cbn; reflexivity|intros ? [?|[]]; discriminate|reflexivity..]).
  all: try (eapply grow1; [reflexivity|cbn; reflexivity|exact I|reflexivity..]).
  all: try (exists []; rewrite app_nil_r; repeat split; auto; intros ? []; fail).
  1: { eapply grow1; [reflexivity|reflexivity| |reflexivity..]. apply st_eqb_spec in Heqb. unfold stat in Heqb. cbn [lins lin_ok]. rewrite Heqb in Tk. clear Heqb.
    destruct s0; cbn in Tk; brk; try congruence; destruct (v_h s id) as [[[] ?]|]; brk. }
  all: exfalso; destruct (t_on (c_t s id)); try discriminate; destruct (t_status (c_t s id)); cbn in Tk; brk; try congruence; rewrite ?andb_false_r in *; try congruence; destruct (v_h s id) as [[[] ?]|]; brk.
Qed.

Definition grows' (s s' : cs) : Prop :=
  exists es, c_log s' = c_log s ++ es /\ Forall by_core es /\ (length es <= 1)%nat /\ lins s es /\ c_clk s <= c_clk s' /\ c_op s' = c_op s /\ c_crash s' = c_crash s /\ c_usr s' = c_usr s.
Lemma grow0' s s' : c_log s' = c_log s -> c_clk s <= c_clk s' -> c_op s' = c_op s -> c_crash s' = c_crash s -> c_usr s' = c_usr s -> grows' s s'.
Proof. intros. exists []. rewrite app_nil_r. repeat split; auto. intros e []. Qed.
Lemma grow1' s s' e : c_log s' = c_log s ++ [e] -> by_core e -> lins s [e] -> c_clk s <= c_clk s' -> c_op s' = c_op s -> c_crash s' = c_crash s -> c_usr s' = c_usr s -> grows' s s'.
Proof. intros. exists [e]. repeat (split; [auto|]); auto. Qed.
Lemma other_grow owner s l s' : GOOD owner s -> cstep s l = Some s' -> match l with LUser _ | LCall _ _ => True | _ => grows' s s' end.
Proof.
  intros (K & L2 & Iv) H. unfold cstep in H. destruct (c_crash s) eqn:C0; [discriminate|]. destruct l; try exact I.
  - destruct (Z.ltb_spec d 0); [discriminate|]. injection H as <-. apply grow0'; try reflexivity. cbn [c_clk x_clk]. lia.
  - unfold pick in H. destruct (c_lock s) as [|who now mv dr []] eqn:KL; try discriminate. match type of H with (if ?c then _ else _) = _ => destruct c; [discriminate|] end.
    destruct (stat s id); destruct dr; try destruct who; try destruct mv; injection H as <-; apply grow0'; try reflexivity; cbn; lia.
  - unfold hold_step in H. destruct K as [_ K]. destruct (c_lock s) as [|who now mv dr m] eqn:KL; [discriminate|]. cbv zeta in H. destruct K as [K1 K2].
    destruct m; [discriminate|..]; injection H as <-; try (apply grow0'; reflexivity || (cbn; lia)).
    + destruct (st_eqb _ _); apply grow0'; reflexivity || (cbn; lia).
    + destruct (st_eqb _ _) eqn:E; [|apply grow0'; reflexivity || (cbn; lia)]. eapply grow1'; try reflexivity; try exact I.
      apply st_eqb_spec in E. unfold stat in E. destruct K2 as (-> & -> & ->). cbn [lins lin_ok]. split; [|tauto]. pose proof (proj2 Iv id) as Tk. unfold TIs in Tk. rewrite E in Tk.
      assert (Vh : v_h s id = Some (MDue id, now)) by (unfold v_h; rewrite KL; cbn [mtimer is]; now rewrite Z.eqb_refl). rewrite Vh in Tk. clear - Tk. destruct (v_u owner s id) as [| | | | |? []|? []|? []|? []| | | | | | | | | |]; cbn in Tk; brk; try congruence; eauto.
    + destruct (_ <? _); apply grow0'; reflexivity || (cbn; lia).
    + destruct (st_eqb _ _) eqn:E; [|apply grow0'; reflexivity || (cbn; lia)]. eapply grow1'; try reflexivity; try exact I.
      apply st_eqb_spec in E. unfold stat in E. pose proof (proj2 Iv id) as Tk. unfold TIs in Tk. rewrite E in Tk. cbn in Tk. cbn. tauto.
    + destruct (st_eqb _ _); apply grow0'; reflexivity || (cbn; lia).
    + destruct (st_eqb _ _); apply grow0'; reflexivity || (cbn; lia).
    + destruct (st_eqb _ _); apply grow0'; reflexivity || (cbn; lia).
  - apply (core_cases _ _ _ _ K H); clear H; intros; subst s'; try (apply grow0'; reflexivity || (cbn; lia)).
    eapply grow1'; try reflexivity; try exact I. intros e [X|[]]; discriminate X.
Qed.
Lemma call_grow s a o s' : cstep s (LCall a o) = Some s' -> c_usr s a = UIdle /\ c_clk s' = c_clk s /\ c_op s' = (fun k => if k =? a then o else c_op s k) /\ c_crash s' = c_crash s /\
  (c_log s' = c_log s ++ [CCall a o (c_clk s)] /\ refused o = false /\ c_usr s' = (fun k => if k =? a then entry o else c_usr s k) \/
   c_log s' = (c_log s ++ [CCall a o (c_clk s)]) ++ [CRet a o NegativeDuration (c_clk s)] /\ refused o = true /\ c_usr s' = (fun k => if k =? a then UIdle else c_usr s k)).
Proof.
  intros H. unfold cstep in H. destruct (c_crash s) eqn:C; [discriminate|]. destruct (c_usr s a) eqn:U; try discriminate. destruct (_ && _); [discriminate|]. cbv zeta in H. injection H as <-.
  destruct (refused o); unfold ret; shape; rewrite ?Z.eqb_refl; repeat split; auto.
Qed.

(** ** No crash *)
Lemma no_crash owner clk ls s : legal owner ls -> crun (cinit clk) ls = Some s -> c_crash s = false.
Proof.
  apply (run_ind owner clk (fun s => c_crash s = false)); [reflexivity|]. intros s0 l s' Lg G Cr H. destruct l.
  2: { apply call_grow in H. destruct H as (_ & _ & _ & -> & _). exact Cr. }
  2: { unfold cstep in H. rewrite Cr in H. destruct G as (_ & _ & Iv). destruct (user_grow owner _ _ _ Iv H) as (es & _ & _ & _ & _ & _ & _ & -> & _). exact Cr. }
  all: pose proof (other_grow owner _ _ _ G H) as (es & _ & _ & _ & _ & _ & _ & -> & _); exact Cr.
Qed.

(** ** The story of a timer *)
Lemma story_timer id log : Forall (fun e => ev_timer e = id) (story id log).
Proof. induction log as [|e log IH]; [constructor|]. rewrite (story_app id [e] log : story id (e :: log) = _). apply Forall_app. split; [|exact IH]. destruct e; cbn; try constructor. destruct (Z.eqb_spec (ev_timer e) id); repeat constructor; auto. Qed.
Definition lastv (t : list event) : option event := fold_left (fun _ e => Some e) t None.
Lemma last_pend id t : Forall (fun e => ev_timer e = id) t -> pending t id = pend1 (lastv t).
Proof.
  induction t as [|e t IH] using rev_ind; [reflexivity|]. intros F. apply Forall_app in F. destruct F as [_ F]. inversion F; subst.
  unfold pending, lastv. rewrite !fold_left_app. cbn [fold_left]. destruct e; cbn [pend_step ev_timer pend1]; rewrite Z.eqb_refl; reflexivity.
Qed.
Lemma last_snoc t e : lastv t = Some e -> exists t', t = t' ++ [e].
Proof. destruct t as [|x t _] using rev_ind; [discriminate|]. unfold lastv. rewrite fold_left_app. cbn. intros [= ->]. eauto. Qed.
Lemma snoc_cut (t a b : list event) e x : t ++ [e] = a ++ x :: b -> (b = [] /\ t = a /\ e = x) \/ exists b', t = a ++ x :: b'.
Proof.
  destruct b as [|y b _] using rev_ind; intros H; [left|right; exists b].
  - apply app_inj_tail in H. destruct H; auto.
  - rewrite app_comm_cons, app_assoc in H. apply app_inj_tail in H. now destruct H.
Qed.
Definition lin_ok' (t : list event) (e : event) : Prop :=
  match e with
  | EArm _ _ => True
  | EStop id => pend1 (lastv t) <> None
  | EFire id now => exists due, pend1 (lastv t) = Some due /\ due <= now
  | ERearm id _ => fired1 (lastv t)
  end.
Lemma wb_snoc id t e : Forall (fun e => ev_timer e = id) (t ++ [e]) -> well_behaved t -> lin_ok' t e -> well_behaved (t ++ [e]).
Proof.
  intros F (W1 & W2 & W3) Ok. pose proof F as F'. apply Forall_app in F'. destruct F' as [Ft Fe]. inversion Fe as [|? ? Ee _]; subst. pose proof (last_pend _ _ Ft) as P.
  split; [|split]; intros.
  - apply snoc_cut in H. destruct H as [(-> & -> & ->)|[b' ->]]; [|now apply (W1 a _ _ b')]. cbn in Ok, P. rewrite P. exact Ok.
  - apply snoc_cut in H. destruct H as [(-> & -> & ->)|[b' ->]]; [|now apply (W2 a _ b')]. cbn in Ok, P. rewrite P. exact Ok.
  - apply snoc_cut in H. destruct H as [(-> & -> & ->)|[b' ->]]; [|now apply (W3 a _ due b')]. cbn in Ok, P, Ft. destruct (lastv a) as [[]|] eqn:E; try destruct Ok. apply last_snoc in E. destruct E as [t' ->].
    apply Forall_app in Ft. destruct Ft as [_ Ft]. inversion Ft; subst. cbn in *. subst. eauto.
Qed.
Lemma wb_nil : well_behaved []. Proof. split; [|split]; intros; destruct a; discriminate. Qed.

Lemma story_wb owner clk ls s : legal owner ls -> crun (cinit clk) ls = Some s -> forall id, well_behaved (story id (c_log s)).
Proof.
  apply (run_ind owner clk (fun s => forall id, well_behaved (story id (c_log s)))); [intros; apply wb_nil|]. intros s0 l s' Lg G W H id.
  assert (X : forall es, c_log s' = c_log s0 ++ es -> lins s0 es -> well_behaved (story id (c_log s'))).
  { intros es E Ls. pose proof (story_timer id (c_log s')) as F. rewrite E in *. rewrite story_app in *.
    assert (N : (forall e, ~ In (CLin e) es) -> well_behaved (story id (c_log s0) ++ story id es)).
    { intros N. replace (story id es) with (@nil event); [rewrite app_nil_r; apply W|]. clear - N. induction es as [|e es IH]; [reflexivity|]. rewrite (story_app id [e] es : story id (e :: es) = _).
      rewrite <- IH by (intros x Hx; apply (N x); now right). destruct e; try reflexivity. destruct (N e). now left. }
    destruct es as [|[] [|]]; cbn [lins] in Ls; auto. cbn [story flat_map app] in *. destruct (Z.eqb_spec (ev_timer e) id) as [<-|Ne]; [|rewrite app_nil_r; apply W].
    apply (wb_snoc (ev_timer e)); auto. destruct e; cbn in Ls |- *; tauto || exact Ls. }
  destruct l.
  2: { pose proof (call_grow _ _ _ _ H) as (_ & _ & _ & _ & [(E & _)|(E & _)]); [apply (X _ E)|rewrite <- app_assoc in E; apply (X _ E)]; intros e Hin; cbn in Hin; intuition discriminate. }
  2: { unfold cstep in H. destruct (c_crash s0); [discriminate|]. destruct G as (_ & _ & Iv). destruct (user_grow owner _ _ _ Iv H) as (es & E & _ & _ & Ls & _). exact (X es E Ls). }
  all: pose proof (other_grow owner _ _ _ G H) as (es & E & _ & _ & Ls & _); exact (X es E Ls).
Qed.

(** ** Callbacks are the runs decided *)
Definition fl_lock (l : lk) : list (Z * Z) := match l with Held _ now _ _ (MRun id) | Held _ now _ _ (MAgain id) | Held _ now _ _ (MOnce id) | Held _ now _ _ (MOut id) => [(id, now)] | _ => [] end.
Definition fl_sch (p : spc) : list (Z * Z) := match p with SCall id now => [(id, now)] | _ => [] end.
Definition in_time (d c : Z * Z) : Prop := fst d = fst c /\ snd d <= snd c.
Definition FLY (s : cs) : Prop := exists past, decided (c_log s) = past ++ fl_lock (c_lock s) ++ fl_sch (c_sch s) /\ Forall2 in_time past (called (c_log s)).
Lemma decided_app a b : decided (a ++ b) = decided a ++ decided b. Proof. apply flat_map_app. Qed.
Lemma called_app a b : called (a ++ b) = called a ++ called b. Proof. apply flat_map_app. Qed.
Lemma fly_same s s' : FLY s -> decided (c_log s') = decided (c_log s) -> called (c_log s') = called (c_log s) -> fl_lock (c_lock s') = fl_lock (c_lock s) -> c_sch s' = c_sch s -> FLY s'.
Proof. intros (past & D & F) Hd Hc Hl Hs. exists past. rewrite Hd, Hc, Hl, Hs. auto. Qed.
Lemma fly_run owner clk ls s : legal owner ls -> crun (cinit clk) ls = Some s -> FLY s.
Proof.
  apply (run_ind owner clk FLY); [exists []; split; [reflexivity|constructor]|]. intros s0 l s' Lg (K & L2 & Iv) Fl H. unfold cstep in H. destruct (c_crash s0); [discriminate|]. destruct l.
  - destruct (d <? 0); [discriminate|]. injection H as <-. exact Fl.
  - destruct (c_usr s0 a); try discriminate. destruct (_ && _); [discriminate|]. cbv zeta in H. injection H as <-. apply (fly_same s0); auto; destruct (refused o); unfold ret; shape; rewrite ?decided_app, ?called_app; cbn; rewrite ?app_nil_r; reflexivity.
  - destruct (user_grow owner _ _ _ Iv H) as (es & E & B & _). apply (fly_same s0); auto.
    + rewrite E, decided_app. replace (decided es) with (@nil (Z * Z)); [apply app_nil_r|]. clear - B. induction B as [|[] es Be B IH]; try reflexivity; cbn in Be |- *; try destruct Be; auto. destruct e; cbn in Be |- *; auto; destruct Be.
    + rewrite E, called_app. replace (called es) with (@nil (Z * Z)); [apply app_nil_r|]. clear - B. induction B as [|[] es Be B IH]; try reflexivity; cbn in Be |- *; try destruct Be; auto.
    + unfold user_step in H. destruct (c_usr s0 a); try discriminate; usplit H; try reflexivity; unfold off; cbn [c_lock x_lock x_usr x_q x_t x_log ret]; repeat match goal with E : c_lock _ = _ |- _ => rewrite E end; reflexivity.
    + unfold user_step in H. destruct (c_usr s0 a); try discriminate; usplit H; reflexivity.
  - unfold pick in H. destruct (c_lock s0) as [|who now mv dr []] eqn:KL; try discriminate. match type of H with (if ?c then _ else _) = _ => destruct c; [discriminate|] end.
    destruct (stat s0 id); destruct dr; try destruct who; try destruct mv; injection H as <-; apply (fly_same s0); auto; rewrite KL; reflexivity.
  - unfold hold_step in H. destruct K as [K0 K]. destruct (c_lock s0) as [|who now mv dr m] eqn:KL; [discriminate|]. cbv zeta in H. destruct K as [K1 K2].
    destruct m; [discriminate|..]; injection H as <-; try (apply (fly_same s0); auto; rewrite ?KL; reflexivity).
    all: try (destruct (st_eqb _ _); apply (fly_same s0); auto; rewrite ?KL; unfold to; shape; rewrite ?decided_app, ?called_app; cbn [decided called flat_map app]; rewrite ?app_nil_r; reflexivity).
    all: try (destruct (_ <? _); apply (fly_same s0); auto; rewrite ?KL; reflexivity).
    + destruct (st_eqb _ _); [|apply (fly_same s0); auto; rewrite ?KL; reflexivity]. destruct Fl as (past & D & F). rewrite KL in D. destruct K2 as (-> & -> & ->). destruct K1 as [Sl _]. rewrite Sl in D. exists past. shape. unfold to. shape.
      rewrite decided_app, called_app, D, Sl. cbn. rewrite !app_nil_r. auto.
    + destruct Fl as (past & D & F). rewrite KL in D. destruct K2 as (-> & -> & ->). destruct K1 as [Sl _]. rewrite Sl in D. exists past. shape. split; [exact D|exact F].
  - apply (core_cases _ _ _ _ K H); clear H; intros; subst s'; destruct Fl as (past & D & F).
    + exists past. rewrite H, H0 in D. auto.
    + exists (past ++ [(id, now)]). rewrite H in D. pose proof (proj1 K) as K0. rewrite H in K0. destruct K as [_ K].
      assert (Fz : fl_lock (c_lock s0) = []) by (destruct (c_lock s0) as [|[] ? ? ? []]; try reflexivity; exfalso; rewrite H in K; brk; congruence).
      rewrite Fz in D. shape. rewrite decided_app, called_app, D, Fz. cbn. rewrite !app_nil_r. split; [reflexivity|]. apply Forall2_app; [exact F|]. constructor; [split; [reflexivity|exact K0]|constructor].
    + exists past. rewrite H, H0 in D. auto.
    + exists past. rewrite H, H0 in D. shape. rewrite H. auto.
    + exists past. rewrite H, H0 in D. auto.
    + exists past. rewrite H, H0 in D. auto.
Qed.

(** ** Calls *)
Definition start_of (o : cop) (id d : Z) : Prop := o = CStart id d \/ exists i, o = CTick id d i /\ 1 <= i.
Definition set_of (id d clk clk' : Z) (ords : list event) : Prop := exists c, clk <= c <= clk' /\ ords = [EArm id (when_ d c)].
Definition at_pc (p : upc) (o : cop) (clk clk' : Z) (ords : list event) : Prop :=
  match p with
  | UIdle => True
  | UTick1 id d i => o = CTick id d i /\ 1 <= i /\ ords = []
  | UStart1 id d => start_of o id d /\ ords = []
  | UStart2 id d | UStart3 id d | UStart4 id d => start_of o id d /\ 1 <= d /\ ords = []
  | UAdd1 id false | UAdd2 id false | UAdd3 id false | UAdd4 id false => exists d, start_of o id d /\ 1 <= d /\ set_of id d clk clk' ords
  | UAdd1 id true | UAdd2 id true | UAdd3 id true | UAdd4 id true | UReset5 id | UReset4 id _ => exists d, o = CReset id d /\ 1 <= d /\ set_of id d clk clk' ords
  | UStop1 id | UStop2 id _ | UStop3 id _ _ => o = CStop id /\ ords = []
  | UStop4 id _ => o = CStop id /\ ords = [EStop id]
  | UReset1 id d => o = CReset id d /\ ords = []
  | UReset2 id d | UReset3 id d _ => o = CReset id d /\ 1 <= d /\ ords = []
  end.
Lemma at_timer p o clk clk' ords : at_pc p o clk clk' ords -> p = UIdle \/ utimer p = Some (op_timer o).
Proof. unfold at_pc, start_of. destruct p; try (destruct reset); intros; brk; subst; auto; right; reflexivity || (destruct H; brk; subst; try reflexivity; destruct H; brk; subst; reflexivity). Qed.
Lemma at_clk p o clk clk' clk'' ords : at_pc p o clk clk' ords -> clk' <= clk'' -> at_pc p o clk clk'' ords.
Proof. intros A Le. unfold at_pc, set_of in *. destruct p; try (destruct reset); auto; destruct A as (d & A1 & A2 & c & A3 & A4); exists d; repeat split; auto; exists c; split; auto; lia. Qed.
Definition BUSY (s : cs) (a : Z) : Prop := c_usr s a = UIdle \/
  exists pre clk mid, c_log s = pre ++ CCall a (c_op s a) clk :: mid /\ silent a mid /\ clk <= c_clk s /\ at_pc (c_usr s a) (c_op s a) clk (c_clk s) (orders (op_timer (c_op s a)) mid).
Lemma orders_app id a b : orders id (a ++ b) = orders id a ++ orders id b.
Proof. unfold orders. now rewrite story_app, filter_app. Qed.
Lemma busy_frame s s' a es : BUSY s a -> c_usr s' a = c_usr s a -> c_op s' a = c_op s a -> c_log s' = c_log s ++ es -> silent a es ->
  (forall id, utimer (c_usr s a) = Some id -> orders id es = []) -> c_clk s <= c_clk s' -> BUSY s' a.
Proof.
  intros [B|(pre & clk & mid & E & Si & Le & A)] Hu Ho Hl Hs Hn Hc; [left; congruence|right]. exists pre, clk, (mid ++ es). rewrite Hu, Ho, Hl, E, <- app_assoc. split; [reflexivity|].
  split; [apply Forall_app; auto|]. split; [lia|]. rewrite orders_app. apply (at_clk _ _ _ (c_clk s)); [|exact Hc]. destruct (at_timer _ _ _ _ _ A) as [Ei|T]; [rewrite Ei; exact I|]. rewrite (Hn _ T), app_nil_r. exact A.
Qed.
Lemma core_orders es id : Forall by_core es -> orders id es = [].
Proof. induction 1 as [|e es B F IH]; [reflexivity|]. rewrite (orders_app id [e] es : orders id (e :: es) = _), IH, app_nil_r. destruct e; try reflexivity. destruct e; cbn in B; try destruct B; unfold orders; cbn; destruct (_ =? _); reflexivity. Qed.
Lemma core_silent es a : Forall by_core es -> silent a es.
Proof. intros F. eapply Forall_impl; [|exact F]. intros [] B; cbn in *; auto; destruct B. Qed.
Lemma call_orders owner es b id : Forall (by_call b owner) es -> owner id <> b -> orders id es = [].
Proof.
  intros F N. induction F as [|e es B F IH]; [reflexivity|]. rewrite (orders_app id [e] es : orders id (e :: es) = _), IH, app_nil_r. destruct e; try reflexivity.
  destruct e; cbn in B; try destruct B; unfold orders; cbn; match goal with |- context [?x =? id] => destruct (Z.eqb_spec x id) end; subst; cbn; try reflexivity; congruence.
Qed.
Lemma call_silent owner es a b : Forall (by_call b owner) es -> a <> b -> silent a es.
Proof. intros F N. eapply Forall_impl; [|exact F]. intros [] B; cbn in *; auto; congruence. Qed.

Lemma orders_lin id e : orders id [CLin e] = if ev_timer e =? id then (match e with EArm _ _ | EStop _ => [e] | _ => [] end) else [].
Proof. unfold orders. cbn. destruct (_ =? id); [|reflexivity]. destruct e; reflexivity. Qed.
Lemma lin_silent a e : silent a [CLin e]. Proof. repeat constructor. Qed.
Lemma busy_to s s' a p : BUSY s a -> c_usr s a <> UIdle -> c_usr s' a = p -> c_op s' = c_op s -> c_log s' = c_log s -> c_clk s' = c_clk s ->
  (forall o clk clk' ords, at_pc (c_usr s a) o clk clk' ords -> clk <= clk' -> at_pc p o clk clk' ords) -> BUSY s' a.
Proof.
  intros [B|(pre & clk & mid & E & Si & Le & A)] N Hu Ho Hl Hc Ha; [congruence|right]. exists pre, clk, mid. rewrite Hu, Ho, Hl, Hc. repeat split; auto.
Qed.
Lemma busy_lin s s' a p e : BUSY s a -> c_usr s a <> UIdle -> c_usr s' a = p -> c_op s' = c_op s -> c_log s' = c_log s ++ [CLin e] -> c_clk s' = c_clk s ->
  (forall o clk ords, at_pc (c_usr s a) o clk (c_clk s) ords -> clk <= c_clk s -> at_pc p o clk (c_clk s) (ords ++ orders (op_timer o) [CLin e])) -> BUSY s' a.
Proof.
  intros [B|(pre & clk & mid & E & Si & Le & A)] N Hu Ho Hl Hc Ha; [congruence|right]. exists pre, clk, (mid ++ [CLin e]). rewrite Hu, Ho, Hl, Hc, E, <- app_assoc. split; [reflexivity|].
  split; [apply Forall_app; split; [exact Si|apply lin_silent]|]. split; [exact Le|]. rewrite orders_app. apply Ha; auto.
Qed.
Lemma busy_self s a s' : BUSY s a -> user_step s a = Some s' -> BUSY s' a.
Proof.
  intros B H. assert (N : c_usr s a <> UIdle) by (intros E; unfold user_step in H; rewrite E in H; discriminate). unfold user_step in H. destruct (c_usr s a) eqn:U; [congruence|..]; usplit H; try exact B.
  all: try (left; unfold ret; shape; rewrite Z.eqb_refl; reflexivity).
  all: match goal with |- BUSY ?s' _ => match s' with context [x_usr _ _ ?p] =>
    first [ apply (busy_to s s' a p B); [rewrite U; exact N|shape; now rewrite Z.eqb_refl|reflexivity|reflexivity|reflexivity|]; rewrite U; intros o k k' ords Ha Lk
          | eapply (busy_lin s s' a p _ B); [rewrite U; exact N|shape; now rewrite Z.eqb_refl|reflexivity|reflexivity|reflexivity|]; rewrite U; intros o k ords Ha Lk; rewrite orders_lin; cbn [ev_timer]] end end.
  all: try (destruct reset); cbn [at_pc] in *; unfold start_of, set_of in *; try tauto; brk; subst; try match goal with H : exists _, _ |- _ => destruct H; brk; subst end; cbn [op_timer]; rewrite ?Z.eqb_refl.
  all: repeat split; try lia; try tauto; eauto.
  all: try (eexists; split; [eauto|]; split; [lia|]; eexists; split; [|reflexivity]; lia).
Qed.

Lemma vl_last s id : v_l s id = lastv (story id (c_log s)). Proof. reflexivity. Qed.
Lemma stopped_snoc s id : stopped1 (v_l s id) -> exists l, story id (c_log s) = l ++ [EStop id].
Proof.
  rewrite vl_last. intros H. destruct (lastv _) as [[]|] eqn:E; try destruct H. apply last_snoc in E. destruct E as [l E]. pose proof (story_timer id (c_log s)) as F. rewrite E in *.
  apply Forall_app in F. destruct F as [_ F]. inversion F; subst. cbn in *. subst. eauto.
Qed.
Lemma fired_snoc s id : fired1 (v_l s id) -> exists l now, story id (c_log s) = l ++ [EFire id now].
Proof.
  rewrite vl_last. intros H. destruct (lastv _) as [[]|] eqn:E; try destruct H. apply last_snoc in E. destruct E as [l E]. pose proof (story_timer id (c_log s)) as F. rewrite E in *.
  apply Forall_app in F. destruct F as [_ F]. inversion F; subst. cbn in *. subst. eauto.
Qed.
Lemma none_nil s id : v_l s id = None -> story id (c_log s) = [].
Proof. rewrite vl_last. destruct (story id (c_log s)) as [|x t _] using rev_ind; [reflexivity|]. unfold lastv. rewrite fold_left_app. discriminate. Qed.
Lemma nil_none s id : story id (c_log s) = [] -> v_l s id = None.
Proof. rewrite vl_last. now intros ->. Qed.
Lemma story_call id pre a o clk mid : story id (pre ++ CCall a o clk :: mid) = story id (pre ++ mid).
Proof. rewrite !story_app. reflexivity. Qed.

Definition told (log : list cev) (a : Z) (o : cop) (r : ans) (clk' : Z) : Prop :=
  exists pre clk mid, log = pre ++ CCall a o clk :: mid /\ silent a mid /\ clk <= clk' /\ answered o r clk clk' pre mid.
Lemma busy_told s a r : BUSY s a -> c_usr s a <> UIdle ->
  (forall pre clk mid, c_log s = pre ++ CCall a (c_op s a) clk :: mid -> at_pc (c_usr s a) (c_op s a) clk (c_clk s) (orders (op_timer (c_op s a)) mid) -> clk <= c_clk s ->
     answered (c_op s a) r clk (c_clk s) pre mid) -> told (c_log s) a (c_op s a) r (c_clk s).
Proof. intros [B|(pre & clk & mid & E & Si & Le & A)] N X; [congruence|]. exists pre, clk, mid. repeat split; auto. Qed.
Lemma user_told owner s a s' : INV owner s -> BUSY s a -> user_step s a = Some s' ->
  forall b o r k, c_log s' = c_log s ++ [CRet b o r k] -> told (c_log s) b o r k.
Proof.
  intros Iv B H b o r k Hl. assert (N : c_usr s a <> UIdle) by (intros E; unfold user_step in H; rewrite E in H; discriminate).
  pose proof (proj1 Iv) as O. pose proof (proj2 Iv) as T. unfold user_step in H. destruct (c_usr s a) eqn:U; [congruence|..].
  all: match type of U with c_usr _ _ = ?p => match eval cbn in (utimer p) with Some ?k => pose proof (O a) as Oa; rewrite U in Oa; cbn [utimer] in Oa; pose proof (T k) as Tk; unfold TIs in Tk; rewrite (u_at owner s a k Oa) in Tk by (rewrite U; reflexivity); rewrite U in Tk; clear T O end end.
  all: usplit H.
  all: unfold ret, to, off in Hl; cbn [c_log x_log x_usr x_t x_q x_lock x_del x_crash c_clk c_op] in Hl; try (exfalso; apply (f_equal (@length cev)) in Hl; rewrite ?app_length in Hl; cbn in Hl; lia).
  all: apply app_inj_tail in Hl; destruct Hl as [_ Hl]; try discriminate Hl.
  all: injection Hl as <- <- <- <-; apply busy_told; [exact B|rewrite U; exact N|]; rewrite U; intros pre clk mid El Ha Lk; cbn [at_pc] in Ha.
  all: assert (St : forall i, story i (c_log s) = story i (pre ++ mid)) by (intros i; rewrite El; apply story_call).
  all: pose proof (stopped_snoc s id) as Sn; pose proof (fired_snoc s id) as Fn; pose proof (none_nil s id) as Nn; pose proof (nil_none s id) as Nl; rewrite St in Sn, Fn, Nn, Nl.
  all: clear Iv B St El U N; unfold stat in *.
  1-4: destruct Ha as [[Eo|(i & Eo & Hi)] Ha]; rewrite Eo in *; cbn [op_timer answered] in *.
  all: repeat match goal with E : (_ <? _) = true |- _ => apply Z.ltb_lt in E | E : (_ <? _) = false |- _ => apply Z.ltb_ge in E end.
  1,2: tauto.
  1,2: repeat split; auto; try tauto; intros Z0; specialize (Nl Z0); rewrite Nl in Tk; destruct (t_status (c_t s id)); cbn in *; brk; try congruence; destruct (v_h s id) as [[[] ?]|]; brk; congruence.
  1-4: exfalso; destruct (t_status (c_t s id)); cbn in *; brk; try congruence; destruct (v_h s id) as [[[] ?]|]; brk; congruence.
  1: { destruct Ha as (d & [Eo|(i & Eo & Hi)] & Ld & Sx); rewrite Eo in *; cbn [op_timer answered] in *; auto. }
  1-5: destruct Ha as [Eo Ha]; rewrite Eo in *; cbn [op_timer answered] in *; try match goal with E : t_status _ = _ |- _ => rewrite E in Tk end; cbn in Tk.
  1: { split; [exact Ha|]. brk; auto. }
  1-3: right; split; [exact Ha|]; tauto.
  1: left; exact Ha.
  1: { destruct Ha as [Eo Ha]; rewrite Eo in *; cbn [op_timer answered] in *. auto. }
  all: destruct Ha as (d & Eo & Ld & Sx); rewrite Eo in *; cbn [op_timer answered] in *; auto.
  all: destruct (t_status (c_t s id)); cbn in *; brk; try congruence; destruct (v_h s id) as [[[] ?]|]; brk; congruence.
Qed.
Lemma busy_run owner clk ls s : legal owner ls -> crun (cinit clk) ls = Some s ->
  (forall a, BUSY s a) /\ forall pre a o r k post, c_log s = pre ++ CRet a o r k :: post -> told pre a o r k.
Proof.
  apply (run_ind owner clk (fun s => (forall a, BUSY s a) /\ forall pre a o r k post, c_log s = pre ++ CRet a o r k :: post -> told pre a o r k)).
  { split; [left; reflexivity|]. intros [|] ? ? ? ? ? ?; discriminate. }
  intros s0 l s' Lg G [B R] H.
  assert (X : forall es, c_log s' = c_log s0 ++ es -> (forall pre a o r k post, es = pre ++ CRet a o r k :: post -> told (c_log s0 ++ pre) a o r k) ->
    forall pre a o r k post, c_log s' = pre ++ CRet a o r k :: post -> told pre a o r k).
  { intros es E Hes pre a o r k post E2. rewrite E in E2. destruct (app_eq_app _ _ _ _ E2) as [z [[Ea Ez]|[Ea Ez]]].
    - destruct z as [|y z]; [rewrite app_nil_r in Ea; cbn in Ez; specialize (Hes [] a o r k post (eq_sym Ez)); rewrite app_nil_r, Ea in Hes; exact Hes|]. injection Ez as <- ->. exact (R _ _ _ _ _ _ Ea).
    - rewrite Ea. exact (Hes z a o r k post Ez). }
  destruct l as [d|a o|a|id| |x].
  2: { pose proof (call_grow _ _ _ _ H) as (Ui & Ck & Op & Cr & Cs). clear Cr. split.
    - intros b. destruct (Z.eq_dec b a) as [->|N].
      + destruct Cs as [(El & Rf & Us)|(El & Rf & Us)]; [right|left; rewrite Us, Z.eqb_refl; reflexivity]. exists (c_log s0), (c_clk s0), []. rewrite Op, Us, Ck, Z.eqb_refl. split; [exact El|]. split; [constructor|]. split; [lia|].
        destruct o; cbn [entry at_pc refused op_timer orders story flat_map filter] in *; unfold start_of; repeat split; auto; lia.
      + assert (Us : c_usr s' b = c_usr s0 b) by (destruct Cs as [(_ & _ & ->)|(_ & _ & ->)]; replace (b =? a) with false by lia; reflexivity).
        assert (Es : exists es, c_log s' = c_log s0 ++ es /\ silent b es /\ forall id, orders id es = []).
        { destruct Cs as [(-> & _)|(-> & _)]; [|rewrite <- app_assoc]; eexists; (split; [reflexivity|split; [repeat constructor; congruence|reflexivity]]). }
        destruct Es as (es & El & Si & Or). apply (busy_frame s0 s' b es); auto; [rewrite Op; replace (b =? a) with false by lia; reflexivity|lia].
    - destruct Cs as [(El & Rf & Us)|(El & Rf & Us)].
      + apply (X _ El). intros [|? [|]] ? ? ? ? ? Q; discriminate.
      + rewrite <- app_assoc in El. apply (X _ El). intros [|y [|y' [|]]] b o' r k post Q; cbn in Q; try discriminate; injection Q as <- <- <- <- <- <-. exists (c_log s0), (c_clk s0), []. repeat split; auto; [constructor|lia|].
        destruct o; cbn [refused answered] in *; try discriminate. split; [lia|reflexivity]. }
  2: { unfold cstep in H. destruct (c_crash s0); [discriminate|]. destruct G as (_ & _ & Iv). pose proof (user_grow owner _ _ _ Iv H) as (es & El & Bc & Ln & _ & Ck & Op & _ & Us). split.
    - intros b. destruct (Z.eq_dec b a) as [->|N]; [exact (busy_self _ _ _ (B a) H)|]. apply (busy_frame s0 s' b es); auto; [now rewrite Op|exact (call_silent _ _ _ _ Bc N)| |lia].
      intros id Ut. apply (call_orders owner es a id Bc). pose proof (proj1 Iv b) as Ob. rewrite Ut in Ob. congruence.
    - apply (X _ El). intros pre b o r k post ->. destruct pre; [|rewrite app_length in Ln; cbn in Ln; lia]. destruct post; [|cbn in Ln; lia]. rewrite app_nil_r. exact (user_told owner s0 a s' Iv (B a) H _ _ _ _ El). }
  all: pose proof (other_grow owner _ _ _ G H) as (es & El & Bc & Ln & _ & Ck & Op & _ & Us); split;
    [intros b; apply (busy_frame s0 s' b es); auto; [now rewrite Us|now rewrite Op|exact (core_silent _ _ Bc)|intros id' _; exact (core_orders _ _ Bc)]
    |apply (X _ El); intros pre b o r k post ->; apply Forall_app in Bc; destruct Bc as [_ Bc]; inversion Bc as [|? ? Bx _]; destruct Bx].
Qed.

(** ** Counting *)
Local Open Scope nat_scope.
Definition cnt (f : event -> bool) (t : list event) : nat := length (filter f t).
Definition isarm (e : event) : bool := match e with EArm _ _ => true | _ => false end.
Definition isrearm (e : event) : bool := match e with ERearm _ _ => true | _ => false end.
Definition isstop (e : event) : bool := match e with EStop _ => true | _ => false end.
Definition isfire (e : event) : bool := match e with EFire _ _ => true | _ => false end.
Lemma cnt_app f a b : cnt f (a ++ b) = cnt f a + cnt f b. Proof. unfold cnt. now rewrite filter_app, app_length. Qed.
Lemma wb_prefix a b : well_behaved (a ++ b) -> well_behaved a.
Proof. intros (W1 & W2 & W3). split; [|split]; intros; subst; [eapply W1|eapply W2|eapply W3]; rewrite <- app_assoc; reflexivity. Qed.
Lemma wb_count id t : Forall (fun e => ev_timer e = id) t -> well_behaved t ->
  cnt isstop t + cnt isfire t + (match pend1 (lastv t) with Some _ => 1 | None => 0 end) <= cnt isarm t + cnt isrearm t.
Proof.
  induction t as [|e t IH] using rev_ind; [intros; cbn; lia|]. intros F W. pose proof F as F'. apply Forall_app in F'. destruct F' as [Ft Fe]. inversion Fe as [|? ? Ee _]; subst.
  specialize (IH Ft (wb_prefix _ _ W)). pose proof (last_pend _ _ Ft) as P. rewrite !cnt_app. unfold lastv. rewrite fold_left_app. cbn [fold_left]. destruct W as (W1 & W2 & W3).
  destruct e; cbn [pend1]; try (cbn; destruct (pend1 (lastv t)); lia).
  - specialize (W2 t id [] eq_refl). cbn in P. rewrite P in W2. cbn. destruct (pend1 (lastv t)); [lia|congruence].
  - destruct (W1 t id now [] eq_refl) as (due & E & _). cbn in P. rewrite E in P. rewrite <- P in IH. cbn. lia.
Qed.
Definition pre_arm (u : upc) : nat := match u with UTick1 _ _ _ | UStart1 _ _ | UStart2 _ _ | UStart3 _ _ | UStart4 _ _ | UReset1 _ _ | UReset2 _ _ | UReset3 _ _ _ => 1 | _ => 0 end.
Definition NA (owner : Z -> Z) (s : cs) : Prop := forall id, cnt isarm (story id (c_log s)) + pre_arm (v_u owner s id) <= length (set_calls id (c_log s)).
Lemma sets_app id a b : set_calls id (a ++ b) = set_calls id a ++ set_calls id b. Proof. apply filter_app. Qed.
Lemma na_core owner s s' : NA owner s -> grows' s s' -> NA owner s'.
Proof.
  intros Na (es & El & B & Ln & _ & _ & _ & _ & Us) id. specialize (Na id). replace (v_u owner s' id) with (v_u owner s id) by (unfold v_u; now rewrite Us).
  rewrite El, story_app, cnt_app, sets_app, app_length. replace (cnt isarm (story id es)) with 0; [lia|].
  clear - B. induction B as [|e es Be B IH]; [reflexivity|]. rewrite (story_app id [e] es : story id (e :: es) = _), cnt_app, <- IH. destruct e; try reflexivity. destruct e; cbn in Be; try destruct Be; cbn; destruct (_ =? id)%Z; reflexivity.
Qed.
Lemma na_user owner s a s' : INV owner s -> NA owner s -> user_step s a = Some s' -> NA owner s'.
Proof.
  intros Iv Na H. assert (Own : own owner s') by exact (proj1 (user_inv _ _ _ _ Iv H)). pose proof (user_grow owner _ _ _ Iv H) as (es & El & Bc & Ln & _ & _ & _ & _ & Us).
  assert (N : c_usr s a <> UIdle) by (intros E; unfold user_step in H; rewrite E in H; discriminate).
  intros id. destruct (Z.eq_dec (owner id) a) as [Oa|Oa].
  2: { specialize (Na id). replace (v_u owner s' id) with (v_u owner s id) by (unfold v_u; now rewrite Us by exact Oa). rewrite El, story_app, cnt_app, sets_app, app_length.
    replace (cnt isarm (story id es)) with 0; [lia|]. clear - Bc Oa. induction Bc as [|e es Be B IH]; [reflexivity|]. rewrite (story_app id [e] es : story id (e :: es) = _), cnt_app, <- IH. destruct e; try reflexivity.
    destruct e; cbn in Be; try destruct Be; cbn; destruct (Z.eqb_spec id0 id) as [->|]; try reflexivity; congruence. }
  specialize (Na id). assert (X : cnt isarm (story id (c_log s')) + pre_arm (v_u owner s' id) <= cnt isarm (story id (c_log s)) + pre_arm (v_u owner s id)).
  { clear Na Own El Bc Ln Us. unfold v_u. rewrite Oa. unfold user_step in H. destruct (c_usr s a) eqn:U; [congruence|..]; usplit H; unfold ret, to, off; shape; rewrite ?U, ?Z.eqb_refl; rewrite ?story_app, ?cnt_app; cbn.
    all: clear - s; repeat match goal with |- context [(?x =? ?y)%Z] => destruct (x =? y)%Z end; cbn; lia. }
  rewrite El at 2. rewrite sets_app, app_length. lia.
Qed.
Lemma na_run owner clk ls s : legal owner ls -> crun (cinit clk) ls = Some s -> NA owner s.
Proof.
  apply (run_ind owner clk (NA owner)); [intros id; reflexivity || (cbn; lia)|]. intros s0 l s' Lg G Na H. destruct l as [d|a o|a|k| |x].
  2: { pose proof (call_grow _ _ _ _ H) as (Ui & Ck & Op & Cr & Cs). intros id. specialize (Na id).
    assert (V : v_u owner s' id = if (owner id =? a)%Z then (let p := if refused o then UIdle else entry o in if is (utimer p) id then p else UIdle) else v_u owner s0 id).
    { unfold v_u. destruct Cs as [(_ & Rf & ->)|(_ & Rf & ->)]; rewrite Rf; destruct (_ =? a)%Z; reflexivity. }
    assert (V0 : owner id = a -> v_u owner s0 id = UIdle) by (intros <-; unfold v_u; rewrite Ui; reflexivity).
    rewrite V. destruct Cs as [(El & Rf & Us)|(El & Rf & Us)]; rewrite Rf, El; rewrite ?story_app, ?cnt_app, ?sets_app, ?app_length; cbn [story flat_map].
    - destruct (Z.eqb_spec (owner id) a) as [E|E]; [|cbn; lia]. rewrite V0 in Na by exact E. cbv zeta. destruct o; cbn [entry utimer is set_calls filter]; try (destruct (Z.eqb_spec id0 id)); cbn in *; lia.
    - destruct (Z.eqb_spec (owner id) a) as [E|E]; cbn [utimer is pre_arm] in *; cbn; [rewrite V0 in Na by exact E; cbn in Na|]; lia. }
  2: { unfold cstep in H. destruct (c_crash s0); [discriminate|]. exact (na_user _ _ _ _ (proj2 (proj2 G)) Na H). }
  all: exact (na_core _ _ _ Na (other_grow owner _ _ _ G H)).
Qed.
Local Open Scope Z_scope.
Definition PER1 (s : cs) (id : Z) : Prop :=
  t_period (c_t s id) = 0 /\ cnt isrearm (story id (c_log s)) = 0%nat /\ (forall a d i, c_usr s a <> UTick1 id d i) /\ match c_lock s with Held _ _ _ _ (MAgain k) => k <> id | _ => True end.
Definition PER (s : cs) : Prop := forall id, ticked id (c_log s) = false -> PER1 s id.
Lemma ticked_app id a b : ticked id (a ++ b) = (ticked id a || ticked id b)%bool. Proof. apply existsb_app. Qed.
Lemma per_run owner clk ls s : legal owner ls -> crun (cinit clk) ls = Some s -> PER s.
Proof.
  apply (run_ind owner clk PER); [intros id _; repeat split; auto; intros; discriminate|]. intros s0 l s' Lg G P H id T.
  assert (T0 : ticked id (c_log s0) = false).
  { assert (X : exists es, c_log s' = c_log s0 ++ es).
    { destruct l as [d|a o|a|k| |x]. 2: { pose proof (call_grow _ _ _ _ H) as (_ & _ & _ & _ & [(E & _)|(E & _)]); [|rewrite <- app_assoc in E]; eauto. }
      2: { unfold cstep in H. destruct (c_crash s0); [discriminate|]. destruct (user_grow owner _ _ _ (proj2 (proj2 G)) H) as (es & E & _). eauto. }
      all: pose proof (other_grow owner _ _ _ G H) as (es & E & _); eauto. }
    destruct X as [es X]. rewrite X, ticked_app in T. now apply orb_false_iff in T. }
  destruct (P id T0) as (P1 & P2 & P3 & P4). destruct l as [d|a o|a|k| |x].
  - unfold cstep in H. destruct (c_crash s0); [discriminate|]. destruct (d <? 0); [discriminate|]. injection H as <-. exact (P id T0).
  - pose proof (call_grow _ _ _ _ H) as (Ui & Ck & Op & Cr & Cs). assert (Ht : c_t s' = c_t s0 /\ c_lock s' = c_lock s0).
    { unfold cstep in H. destruct (c_crash s0); [discriminate|]. destruct (c_usr s0 a); try discriminate. destruct (_ && _); [discriminate|]. cbv zeta in H. injection H as <-. destruct (refused o); split; reflexivity. }
    destruct Ht as [Ht Hk]. unfold PER1. rewrite Ht, Hk. split; [exact P1|]. split; [|split; [|exact P4]].
    + destruct Cs as [(-> & _)|(-> & _)]; rewrite !story_app, !cnt_app, P2; reflexivity.
    + intros b d i E. destruct Cs as [(El & Rf & Us)|(El & Rf & Us)]; rewrite Us in E; destruct (b =? a); try discriminate; try (exact (P3 _ _ _ E)).
      rewrite El, ticked_app, T0 in T. destruct o; cbn in E, T; try discriminate. injection E as -> _ _. rewrite Z.eqb_refl in T. discriminate.
  - unfold cstep in H. destruct (c_crash s0); [discriminate|]. unfold user_step in H. pose proof (P3 a) as Pa. destruct (c_usr s0 a) eqn:U; [discriminate|..].
    1: assert (Nk : id <> id0) by (intros <-; eapply Pa; reflexivity).
    all: usplit H; try exact (P id T0); unfold ret, to, off, PER1; shape; rewrite ?tsetq, ?story_app, ?cnt_app, ?P2; (split; [|split; [|split]]).
    all: try exact P1; try reflexivity; try exact P4; try exact P3.
    all: try (intros b d' i'; destruct (b =? a); [discriminate|apply P3]).
    all: try (destruct (Z.eqb_spec id id0) as [->|]; shape; try exact P1; try congruence; rewrite ?P1; reflexivity).
    all: try match goal with E : c_lock _ = _ |- _ => rewrite E; exact I end.
    all: try (cbn; destruct (_ =? _); reflexivity).
    all: destruct (Z.eqb_spec id id0) as [->|]; [|exact P1]; rewrite P1; cbn; exact P1.
  - unfold cstep in H. destruct (c_crash s0); [discriminate|]. unfold pick in H. destruct (c_lock s0) as [|who now mv dr []] eqn:KL; try discriminate. match type of H with (if ?c then _ else _) = _ => destruct c; [discriminate|] end.
    assert (Pk : forall st, t_period (tset (c_t s0) k (w_status (c_t s0 k) st) id) = 0) by (intros; rewrite tsetq; destruct (Z.eqb_spec id k) as [->|]; exact P1).
    destruct (stat s0 k); destruct dr; try destruct who; try destruct mv; injection H as <-; try exact (P id T0); (split; [first [exact P1|apply Pk]|split; [exact P2|split; [exact P3|exact I]]]).
  - unfold cstep in H. destruct (c_crash s0); [discriminate|]. unfold hold_step in H. destruct (c_lock s0) as [|who now mv dr m] eqn:KL; [discriminate|]. cbv zeta in H.
    destruct m; [discriminate|..]; injection H as <-; unfold PER1, to, off, unq.
    all: try (destruct (st_eqb _ _)); try (destruct (_ <? _) eqn:Lt); shape; rewrite ?tsetq, ?story_app, ?cnt_app, ?P2; (split; [|split; [|split]]).
    all: try exact P1; try reflexivity; try exact P4; try exact P3; try exact P2; try exact I.
    all: try (destruct (Z.eqb_spec id id0) as [->|]; shape; try exact P1; congruence).
    all: try (cbn; destruct (Z.eqb_spec id0 id) as [->|]; try reflexivity; congruence).
    all: try (intros ->; apply Z.ltb_lt in Lt; lia).
  - unfold cstep in H. destruct (c_crash s0); [discriminate|]. apply (core_cases _ _ _ _ (proj1 G) H); clear H; intros; subst s'; unfold PER1; shape; rewrite ?story_app, ?cnt_app, ?P2; repeat split; auto.
Qed.

(** Callbacks and stops are no more than settings and renewals. *)
Lemma runs_called id log : length (runs id log) = length (filter (fun d => fst d =? id) (called log)).
Proof. induction log as [|e log IH]; [reflexivity|]. destruct e; try exact IH. unfold runs, called in *. cbn [filter flat_map app fst]. destruct (_ =? id); cbn [length]; congruence. Qed.
Lemma fires_decided id log : cnt isfire (story id log) = length (filter (fun d => fst d =? id) (decided log)).
Proof.
  induction log as [|e log IH]; [reflexivity|]. rewrite (story_app id [e] log : story id (e :: log) = _), cnt_app, (decided_app [e] log : decided (e :: log) = _), filter_app, app_length, IH. f_equal.
  destruct e; try reflexivity. destruct e; cbn; destruct (_ =? id); reflexivity.
Qed.
Lemma stops_count id log : length (stops id log) = cnt isstop (story id log).
Proof.
  induction log as [|e log IH]; [reflexivity|]. rewrite (story_app id [e] log : story id (e :: log) = _), cnt_app, <- IH. unfold stops. cbn [filter]. destruct e; try reflexivity. destruct e; cbn; destruct (_ =? id); reflexivity.
Qed.
Lemma in_time_count id d c : Forall2 in_time d c -> length (filter (fun d => fst d =? id) d) = length (filter (fun d => fst d =? id) c).
Proof. induction 1 as [|x y d c [E _] F IH]; [reflexivity|]. cbn. rewrite E. destruct (_ =? id); cbn; congruence. Qed.
Lemma runs_decided s id : FLY s -> (length (runs id (c_log s)) <= cnt isfire (story id (c_log s)))%nat.
Proof. intros (past & D & F). rewrite runs_called, fires_decided, D, filter_app, app_length, (in_time_count id _ _ F). lia. Qed.

Lemma crun_snoc s ls l : crun s (ls ++ [l]) = match crun s ls with Some s => cstep s l | None => None end.
Proof. revert s. induction ls as [|x ls IH]; intros s; cbn [crun app]; [destruct (cstep s l); reflexivity|]. destruct (cstep s x); [apply IH|reflexivity]. Qed.
Lemma run_ind2 owner clk (P : cs -> Prop) : P (cinit clk) ->
  (forall ls s l s', legal owner ls -> crun (cinit clk) ls = Some s -> P s -> match l with LCall a o => owner (op_timer o) = a | _ => True end -> cstep s l = Some s' -> P s') ->
  forall ls s, legal owner ls -> crun (cinit clk) ls = Some s -> P s.
Proof.
  intros P0 Ps. induction ls as [|l ls IH] using rev_ind; intros s Lg H; [injection H as <-; exact P0|]. rewrite crun_snoc in H. destruct (crun (cinit clk) ls) as [s1|] eqn:E; [|discriminate].
  apply Forall_app in Lg. destruct Lg as [Lg Ll]. inversion Ll; subst. exact (Ps ls s1 l s Lg E (IH _ Lg eq_refl) H2 H).
Qed.
(** A callback is called only after its run was decided. *)
Definition CA (s : cs) : Prop := forall pre id k post, c_log s = pre ++ CFire id k :: post -> exists now, In (id, now) (decided pre) /\ now <= k.
Lemma call_after owner clk ls s : legal owner ls -> crun (cinit clk) ls = Some s -> CA s.
Proof.
  apply (run_ind2 owner clk CA); [intros [|] ? ? ? ?; discriminate|].
  intros l0 s0 l s' Lg0 Hr P Lg H. pose proof (good_run owner clk l0 s0 Lg0 Hr) as G.
  assert (X : forall es, c_log s' = c_log s0 ++ es -> (forall pre id k post, es <> pre ++ CFire id k :: post) -> CA s').
  { intros es E Hes pre id k post E2. rewrite E in E2. destruct (app_eq_app _ _ _ _ E2) as [z [[Ea Ez]|[Ea Ez]]].
    - destruct z as [|y z]; [cbn in Ez; destruct (Hes [] id k post (eq_sym Ez))|]. injection Ez as <- ->. exact (P _ _ _ _ Ea).
    - destruct (Hes z id k post Ez). }
  assert (Y : forall es (Q : cev -> Prop), Forall Q es -> (forall id k, ~ Q (CFire id k)) -> forall pre id k post, es <> pre ++ CFire id k :: post).
  { intros es Q F Nq pre id k post ->. apply Forall_app in F. destruct F as [_ F]. inversion F as [|? ? Bx _]. exact (Nq _ _ Bx). }
  destruct l as [d|a o|a|k| |x].
  - unfold cstep in H. destruct (c_crash s0); [discriminate|]. destruct (d <? 0); [discriminate|]. injection H as <-. exact P.
  - pose proof (call_grow _ _ _ _ H) as (_ & _ & _ & _ & [(E & _)|(E & _)]); [|rewrite <- app_assoc in E]; (apply (X _ E); apply (Y _ (fun e => match e with CFire _ _ => False | _ => True end)); [repeat constructor|auto]).
  - unfold cstep in H. destruct (c_crash s0); [discriminate|]. destruct (user_grow owner _ _ _ (proj2 (proj2 G)) H) as (es & E & B & _). apply (X _ E). apply (Y _ _ B). intros ? ? [].
  - unfold cstep in H. destruct (c_crash s0); [discriminate|]. unfold pick in H. destruct (c_lock s0) as [|who now mv dr []] eqn:KL; try discriminate. match type of H with (if ?c then _ else _) = _ => destruct c; [discriminate|] end.
    destruct (stat s0 k); destruct dr; try destruct who; try destruct mv; injection H as <-; exact P.
  - unfold cstep in H. destruct (c_crash s0); [discriminate|]. unfold hold_step in H. destruct (c_lock s0) as [|who now mv dr m] eqn:KL; [discriminate|]. cbv zeta in H.
    destruct m; [discriminate|..]; injection H as <-; try exact P; try (destruct (st_eqb _ _)); try (destruct (_ <? _)); try exact P; eapply X; try reflexivity; apply (Y _ (fun e => match e with CFire _ _ => False | _ => True end)); repeat constructor; auto.
  - unfold cstep in H. destruct (c_crash s0); [discriminate|]. apply (core_cases _ _ _ _ (proj1 G) H); clear H; intros; subst s'; try exact P. rename id into i0.
    intros pre id k post E2. shape. assert (E3 : c_log s0 ++ [CFire i0 (c_clk s0)] = pre ++ CFire id k :: post) by exact E2. destruct (app_eq_app _ _ _ _ E3) as [z [[Ea Ez]|[Ea Ez]]].
    + destruct z as [|y z]; [cbn in Ez; injection Ez as -> -> ->|injection Ez as <- ->; exact (P _ _ _ _ Ea)]. rewrite app_nil_r in Ea. subst pre. exists now.
      destruct (fly_run owner clk l0 s0 Lg0 Hr) as (past & D & _). rewrite H in D. split; [rewrite D; apply in_or_app; right; apply in_or_app; right; now left|]. pose proof (proj1 (proj1 G)) as K0. rewrite H in K0. exact K0.
    + destruct z as [|y z]; [|destruct z; discriminate]. cbn in Ez. injection Ez as <- <- <-. rewrite app_nil_r in Ea. subst pre. exists now.
      destruct (fly_run owner clk l0 s0 Lg0 Hr) as (past & D & _). rewrite H in D. split; [rewrite D; apply in_or_app; right; apply in_or_app; right; now left|]. pose proof (proj1 (proj1 G)) as K0. rewrite H in K0. exact K0.
Qed.
Lemma decided_in id now log : In (id, now) (decided log) -> In (EFire id now) (story id log).
Proof.
  induction log as [|e log IH]; [intros []|]. rewrite (decided_app [e] log : decided (e :: log) = _), (story_app id [e] log : story id (e :: log) = _), !in_app_iff. intros [H|H]; [left|right; auto].
  destruct e; try destruct H. destruct e; try destruct H; [|destruct H]. injection H as -> ->. cbn. rewrite Z.eqb_refl. now left.
Qed.

(** ** Once a rescheduled timer has been taken off the queue, the lock stays taken *)
Definition stuck (s : cs) : Prop := match c_lock s with Held _ _ true _ m => match m with MSaw _ | MDue _ | MRun _ | MAgain _ | MOnce _ | MOut _ => False | _ => True end | _ => False end.
Definition no_start (e : cev) : Prop := match e with CRet _ (CStart _ _) Fine _ => False | CLin (EFire _ _) => False | _ => True end.
Lemma stuck_step s l s' : LKI s -> (forall a, BUSY s a) -> stuck s -> cstep s l = Some s' -> stuck s' /\ exists es, c_log s' = c_log s ++ es /\ Forall no_start es.
Proof.
  intros K B St H. unfold cstep in H. destruct (c_crash s); [discriminate|]. unfold stuck in St. destruct (c_lock s) as [|who now [] dr m] eqn:KL; try destruct St. destruct l.
  - destruct (d <? 0); [discriminate|]. injection H as <-. split; [unfold stuck; shape; rewrite KL; exact St|exists []; split; [now rewrite app_nil_r|constructor]].
  - destruct (c_usr s a); try discriminate. destruct (_ && _); [discriminate|]. cbv zeta in H. injection H as <-. destruct (refused o); (split; [unfold stuck, ret; shape; rewrite KL; exact St|]); unfold ret; shape.
    + rewrite <- app_assoc. eexists. split; [reflexivity|]. repeat constructor. cbn. destruct (if a =? a then _ else _); exact I.
    + eexists. split; [reflexivity|]. repeat constructor.
  - specialize (B a). unfold user_step in H. destruct (c_usr s a) eqn:U; try discriminate. 
    all: usplit H; (split; [unfold stuck, ret, to, off; shape; rewrite ?KL; try exact St; try discriminate; exact I|]); unfold ret, to, off; shape.
    all: try (exists []; split; [now rewrite app_nil_r|constructor]).
    all: try (eexists; split; [reflexivity|]; repeat constructor; cbn; destruct (c_op s a); exact I).
    all: eexists; split; [reflexivity|]; repeat constructor; destruct B as [B|(pre & clk & mid & _ & _ & _ & A)]; [congruence|]; rewrite U in A; cbn [at_pc] in A; unfold start_of in A; cbn; brk; try match goal with H : _ = c_op _ _ |- _ => rewrite <- H | H : c_op _ _ = _ |- _ => rewrite H end; try exact I.
    all: match goal with H : exists _, _ |- _ => destruct H; brk end; try match goal with H : c_op _ _ = _ |- _ => rewrite H end; try exact I.
  - unfold pick in H. rewrite KL in H. destruct m; try discriminate. match type of H with (if ?c then _ else _) = _ => destruct c; [discriminate|] end.
    assert (E : c_log s' = c_log s) by (destruct (stat s id); destruct dr; try destruct who; injection H as <-; reflexivity).
    split; [|exists []; split; [now rewrite app_nil_r|constructor]]. destruct (stat s id); destruct dr; try destruct who; injection H as <-; unfold stuck, to; shape; rewrite ?KL; exact I.
  - unfold hold_step in H. rewrite KL in H. cbv zeta in H. destruct m; try discriminate; try destruct St; injection H as <-; (split; [exact I|exists []; split; [|constructor]]); rewrite app_nil_r; try reflexivity; destruct (st_eqb _ _); reflexivity.
  - apply (core_cases _ _ _ _ K H); clear H; intros; subst s'; try congruence. split; [unfold stuck; shape; rewrite KL; exact St|]. eexists. split; [reflexivity|repeat constructor].
Qed.
Lemma stuck_run owner clk ls0 s : legal owner ls0 -> crun (cinit clk) ls0 = Some s -> stuck s -> forall ls s', legal owner ls -> crun s ls = Some s' ->
  stuck s' /\ exists es, c_log s' = c_log s ++ es /\ Forall no_start es.
Proof.
  intros Lg0 H0 St. induction ls as [|l ls IH] using rev_ind; intros s' Lg H; [injection H as <-; split; [exact St|exists []; split; [now rewrite app_nil_r|constructor]]|].
  rewrite crun_snoc in H. destruct (crun s ls) as [s1|] eqn:E; [|discriminate]. apply Forall_app in Lg. destruct Lg as [Lg Ll]. destruct (IH s1 Lg eq_refl) as (St1 & es & El & Fe).
  assert (R : crun (cinit clk) (ls0 ++ ls) = Some s1). { clear - H0 E. revert H0. generalize (cinit clk). induction ls0 as [|x ls0 IH]; intros c H0; [injection H0 as ->; exact E|]. cbn [crun app] in *. destruct (cstep c x); [apply IH, H0|discriminate]. }
  assert (Lg1 : legal owner (ls0 ++ ls)) by (apply Forall_app; auto). destruct (stuck_step s1 l s') as (St2 & es2 & E2 & F2); auto.
  - exact (proj1 (good_run owner clk _ _ Lg1 R)). - exact (proj1 (busy_run owner clk _ _ Lg1 R)).
  - split; [exact St2|]. exists (es ++ es2). rewrite E2, El, app_assoc. split; [reflexivity|apply Forall_app; auto].
Qed.
Lemma no_start_decided es : Forall no_start es -> decided es = [].
Proof. induction 1 as [|e es N F IH]; [reflexivity|]. rewrite (decided_app [e] es : decided (e :: es) = _), IH, app_nil_r. destruct e; try reflexivity. destruct e; try reflexivity. destruct N. Qed.
