(** Proofs about RaceModel. *)
From Coq Require Import ZifyBool ZifyNat.
From Verif Require Import Go GoFacts TimingModel TimingSpec RaceModel RaceSpec.

Definition utimer (p : upc) : option Z :=
  match p with
  | UIdle => None
  | UTick1 id _ _ | UStart1 id _ | UStart2 id _ | UStart3 id _ | UStart4 id _ | UAdd1 id _ | UAdd2 id _ | UAdd3 id _ | UAdd4 id _
  | UStop1 id | UStop2 id _ | UStop3 id _ _ | UStop4 id _ | UReset1 id _ | UReset2 id _ | UReset3 id _ _ | UReset4 id _ | UReset5 id => Some id
  end.
Definition mtimer (m : mpc) : option Z :=
  match m with
  | MReady | MCount | MOut _ => None
  | MRemoving id | MGone id | MMoving id | MSaw id | MDue id | MRun id | MAgain id | MOnce id | MClear1 id | MClear2 id | MClear3 id => Some id
  end.
Definition is (o : option Z) (id : Z) : bool := match o with Some k => k =? id | None => false end.
(** Simpler pictures of where the threads are, for one timer. *)
Definition v_dr (s : cs) (id : Z) : bool := match c_lock s with Held _ _ _ (Some l) _ => existsb (Z.eqb id) l | _ => false end.
Definition v_u (owner : Z -> Z) (s : cs) (id : Z) : upc := let p := c_usr s (owner id) in if is (utimer p) id then p else UIdle.
Definition v_h (s : cs) (id : Z) : option (mpc * Z) :=
  match c_lock s with Held _ now _ _ m => if is (mtimer m) id then Some (m, now) else None | Free => None end.
Definition v_l (s : cs) (id : Z) : option event :=
  fold_left (fun acc e => Some e) (story id (c_log s)) None.

Definition pend1 (L : option event) : option Z := match L with Some (EArm _ w) | Some (ERearm _ w) => Some w | _ => None end.
Definition stopped1 (L : option event) : Prop := match L with Some (EStop _) => True | _ => False end.
Definition fired1 (L : option event) : Prop := match L with Some (EFire _ _) => True | _ => False end.
Definition live (s : status) : Prop := match s with Waiting | ModifiedEarlier | ModifiedLater => True | _ => False end.
(** Between calls, or in one that has done nothing yet. *)
Definition fresh (u : upc) : Prop := match u with UIdle | UTick1 _ _ _ | UStart1 _ _ | UStop1 _ | UReset1 _ _ => True | _ => False end.
Definition stopping (u : upc) : Prop := match u with UStop2 _ s => live s | UStop3 _ s on => live s /\ on = true | _ => False end.
Definition stopping' (u : upc) : Prop := match u with UStop2 _ s => live s | UStop3 _ s _ => live s | _ => False end.

Definition TI (st : status) (on inq dr : bool) (w : Z) (L : option event) (u : upc) (h : option (mpc * Z)) : Prop :=
  match st with
  | Unset => inq = false /\ on = false /\ dr = false /\ h = None /\ (L = None \/ fired1 L) /\
      (fresh u \/ stopping' u \/ match u with UStart2 _ _ | UStart3 _ _ => True | _ => False end)
  | Waiting => dr = false /\
      match u with
      | UStart4 _ _ => inq = false /\ on = false /\ h = None /\ pend1 L = None
      | UAdd1 _ false => inq = false /\ on = false /\ h = None /\ pend1 L = Some w
      | UAdd2 _ false | UAdd3 _ false => inq = false /\ on = true /\ h = None /\ pend1 L = Some w
      | _ => inq = true /\ on = true /\ pend1 L = Some w /\ (fresh u \/ stopping u \/ match u with UAdd4 _ false => True | _ => False end) /\
          match h with None => True | Some (MSaw _, _) => True | Some (MDue _, now) => w <= now | _ => False end
      end
  | Running => dr = false /\ fired1 L /\
      match h with
      | Some (MRun _, _) | Some (MAgain _, _) => inq = true /\ on = true /\ (fresh u \/ stopping u)
      | Some (MOnce _, _) => inq = false /\ on = false /\ (fresh u \/ stopping' u)
      | _ => False
      end
  | Deleted => inq = true /\ on = true /\ dr = false /\ stopped1 L /\ (fresh u \/ match u with UStop4 _ b => b = true | _ => False end) /\
      match h with None | Some (MSaw _, _) | Some (MDue _, _) => True | _ => False end
  | Removing => dr = false /\ stopped1 L /\ (fresh u \/ match u with UStop4 _ b => b = true | _ => False end) /\
      match h with
      | Some (MRemoving _, _) | Some (MClear1 _, _) => inq = true /\ on = true
      | Some (MGone _, _) => inq = false /\ on = false
      | Some (MClear2 _, _) => inq = true /\ on = false
      | _ => False
      end
  | Removed => on = false /\ stopped1 L /\ h = None /\ (inq = false \/ dr = true) /\ (fresh u \/ match u with UStop4 _ b => b = true | _ => False end)
  | Modifying => 
      match h with None => True | Some (MSaw _, _) | Some (MDue _, _) => inq = true /\ match u with UReset2 _ _ | UReset3 _ _ false | UReset4 _ _ => True | _ => False end | _ => False end /\
      match u with
      | UReset2 _ _ => inq = true /\ on = true /\ dr = false /\ stopped1 L
      | UReset3 _ _ false => inq = true /\ on = true /\ dr = false
      | UReset3 _ _ true => on = false /\ (inq = false \/ dr = true) /\ pend1 L = None
      | UReset4 _ _ => inq = true /\ on = true /\ dr = false /\ pend1 L = Some w
      | UAdd1 _ true => on = false /\ (inq = false \/ dr = true) /\ pend1 L = Some w
      | UAdd2 _ true | UAdd3 _ true => on = true /\ (inq = false \/ dr = true) /\ pend1 L = Some w
      | UAdd4 _ true | UReset5 _ => inq = true /\ on = true /\ dr = false /\ pend1 L = Some w
      | _ => False
      end
  | ModifiedEarlier | ModifiedLater => inq = true /\ on = true /\ dr = false /\ pend1 L = Some w /\ (fresh u \/ stopping u) /\
      match h with None | Some (MSaw _, _) | Some (MDue _, _) => True | _ => False end
  | Moving => dr = false /\ pend1 L = Some w /\
      match h with
      | Some (MMoving _, _) | Some (MClear3 _, _) => inq = true /\ on = true /\ (fresh u \/ stopping u)
      | None => inq = false /\ on = false /\ (fresh u \/ stopping' u)
      | _ => False
      end
  end.

Definition TIs (owner : Z -> Z) (s : cs) (id : Z) : Prop :=
  TI (t_status (c_t s id)) (t_on (c_t s id)) (in_q s id) (v_dr s id) (t_when (c_t s id)) (v_l s id) (v_u owner s id) (v_h s id).
Definition own (owner : Z -> Z) (s : cs) : Prop := forall a, match utimer (c_usr s a) with Some id => owner id = a | None => True end.
Definition INV (owner : Z -> Z) (s : cs) : Prop := own owner s /\ forall id, TIs owner s id.

(** ** What a step leaves as it was *)
Lemma story_app id a b : story id (a ++ b) = story id a ++ story id b.
Proof. apply flat_map_app. Qed.
Lemma v_l_log s e id : v_l (x_log s e) id = match e with CLin e => if ev_timer e =? id then Some e else v_l s id | _ => v_l s id end.
Proof.
  unfold v_l. cbn [c_log x_log]. rewrite story_app, fold_left_app. destruct e; cbn [story flat_map app fold_left]; try reflexivity.
  destruct (_ =? _); reflexivity.
Qed.
Lemma tsetq m k t id : tset m k t id = if id =? k then t else m id. Proof. reflexivity. Qed.

Lemma frame owner s s' id : TIs owner s id -> c_t s' id = c_t s id -> in_q s' id = in_q s id -> v_dr s' id = v_dr s id ->
  v_l s' id = v_l s id -> v_u owner s' id = v_u owner s id -> v_h s' id = v_h s id -> TIs owner s' id.
Proof. unfold TIs. intros T -> -> -> -> -> ->. exact T. Qed.

(** A thread that is busy with one timer is not with another. *)
Lemma u_other owner s a p id : own owner s -> (match utimer p with Some k => k <> id | None => True end) ->
  (match utimer (c_usr s a) with Some k => k <> id | None => True end) -> v_u owner (x_usr s a p) id = v_u owner s id.
Proof.
  intros O Hp Hs. unfold v_u. cbn [c_usr x_usr]. destruct (Z.eqb_spec (owner id) a) as [->|N]; [|reflexivity].
  unfold is. destruct (utimer p) as [k|]; destruct (utimer (c_usr s a)) as [k'|]; try (replace (k =? id) with false by lia); try (replace (k' =? id) with false by lia); reflexivity.
Qed.
Lemma u_same owner s a p id : owner id = a -> utimer p = Some id -> v_u owner (x_usr s a p) id = p.
Proof. intros <- E. unfold v_u. cbn [c_usr x_usr]. rewrite Z.eqb_refl, E. cbn [is]. now rewrite Z.eqb_refl. Qed.
Lemma u_back owner s a id : owner id = a -> v_u owner (x_usr s a UIdle) id = UIdle.
Proof. intros <-. unfold v_u. cbn [c_usr x_usr]. now rewrite Z.eqb_refl. Qed.
Lemma u_at owner s a id : owner id = a -> utimer (c_usr s a) = Some id -> v_u owner s id = c_usr s a.
Proof. intros <- E. unfold v_u. rewrite E. cbn [is]. now rewrite Z.eqb_refl. Qed.
Lemma own_usr owner s a p : own owner s -> (match utimer p with Some id => owner id = a | None => True end) -> own owner (x_usr s a p).
Proof. intros O H b. cbn [c_usr x_usr]. destruct (Z.eqb_spec b a) as [->|N]; [exact H|apply O]. Qed.

Ltac eqs := repeat match goal with
  | H : ?a <> ?b |- context [?a =? ?b] => replace (a =? b) with false by lia
  | H : ?b <> ?a |- context [?a =? ?b] => replace (a =? b) with false by lia
  | |- context [?a =? ?a] => rewrite (Z.eqb_refl a)
  end.
Ltac shape := cbn [c_q c_t c_lock c_del c_clk c_sch c_usr c_op c_crash c_log x_q x_t x_lock x_del x_clk x_sch x_usr x_op x_crash x_log to off ret unq
  t_status t_on t_when t_period t_cb w_status w_on w_when w_period] in *.

Lemma idle_none p : utimer p = None -> p = UIdle. Proof. destruct p; cbn; congruence. Qed.
Lemma user_frame owner s a s' id : INV owner s -> owner id = a -> utimer (c_usr s a) = Some id ->
  (forall k, k <> id -> c_t s' k = c_t s k) -> (forall k, k <> id -> in_q s' k = in_q s k) -> (forall k, k <> id -> v_dr s' k = v_dr s k) ->
  (forall k, k <> id -> v_l s' k = v_l s k) -> (forall k, k <> id -> v_h s' k = v_h s k) -> (forall b, b <> a -> c_usr s' b = c_usr s b) ->
  (match utimer (c_usr s' a) with Some k => k = id | None => True end) ->
  TI (t_status (c_t s' id)) (t_on (c_t s' id)) (in_q s' id) (v_dr s' id) (t_when (c_t s' id)) (v_l s' id) (c_usr s' a) (v_h s' id) -> INV owner s'.
Proof.
  intros [O T] Oa U Ht Hq Hd Hl Hh Hu Up X. split.
  - intros b. destruct (Z.eq_dec b a) as [->|N]; [|rewrite Hu by exact N; apply O]. destruct (utimer (c_usr s' a)); [subst; reflexivity|exact I].
  - intros k. destruct (Z.eq_dec k id) as [->|N].
    + unfold TIs. assert (E : v_u owner s' id = c_usr s' a). { unfold v_u. rewrite Oa. destruct (utimer (c_usr s' a)) as [k|] eqn:Eu; cbn [is]; [subst k; now rewrite Z.eqb_refl|]. now rewrite (idle_none _ Eu). }
      rewrite E. exact X.
    + apply (frame owner s); auto. unfold v_u. destruct (Z.eq_dec (owner k) a) as [E|Ne]; [|now rewrite Hu by exact Ne].
      rewrite E, U. cbn [is]. replace (id =? k) with false by lia. destruct (utimer (c_usr s' a)) as [k'|]; cbn [is]; [subst k'; replace (id =? k) with false by lia|]; reflexivity.
Qed.

Lemma st_eqb_spec a b : st_eqb a b = true <-> a = b.
Proof. split; [destruct a, b; cbn; congruence|intros ->; destruct b; reflexivity]. Qed.

Lemma inq_app s id k : existsb (Z.eqb k) (c_q s ++ [id]) = (existsb (Z.eqb k) (c_q s) || (k =? id))%bool.
Proof. rewrite existsb_app. cbn [existsb]. now rewrite orb_false_r. Qed.
Lemma inq_unq s id k : existsb (Z.eqb k) (filter (fun k => negb (k =? id)) (c_q s)) = (existsb (Z.eqb k) (c_q s) && negb (k =? id))%bool.
Proof.
  induction (c_q s) as [|x q IH]; [reflexivity|]. cbn [filter existsb]. destruct (Z.eqb_spec x id) as [->|N]; cbn [negb existsb].
  - rewrite IH. destruct (Z.eqb_spec k id); cbn [negb andb orb]; rewrite ?andb_false_r; reflexivity.
  - rewrite IH. destruct (Z.eqb_spec k x), (Z.eqb_spec k id), (existsb (Z.eqb k) q); cbn [negb andb orb]; try reflexivity; congruence.
Qed.

Ltac brk := repeat match goal with H : _ /\ _ |- _ => destruct H | H : _ \/ _ |- _ => destruct H | H : False |- _ => destruct H end.
(** The pictures of a changed state. *)
Lemma d_t s k t id : v_dr (x_t s k t) id = v_dr s id. Proof. reflexivity. Qed.
Lemma d_q s q id : v_dr (x_q s q) id = v_dr s id. Proof. reflexivity. Qed.
Lemma d_del s n id : v_dr (x_del s n) id = v_dr s id. Proof. reflexivity. Qed.
Lemma d_clk s n id : v_dr (x_clk s n) id = v_dr s id. Proof. reflexivity. Qed.
Lemma d_sch s n id : v_dr (x_sch s n) id = v_dr s id. Proof. reflexivity. Qed.
Lemma d_usr s a n id : v_dr (x_usr s a n) id = v_dr s id. Proof. reflexivity. Qed.
Lemma d_op s a n id : v_dr (x_op s a n) id = v_dr s id. Proof. reflexivity. Qed.
Lemma d_crash s id : v_dr (x_crash s) id = v_dr s id. Proof. reflexivity. Qed.
Lemma d_log s e id : v_dr (x_log s e) id = v_dr s id. Proof. reflexivity. Qed.
Lemma d_lock s who now mv d m id : v_dr (x_lock s (Held who now mv d m)) id = match d with Some l => existsb (Z.eqb id) l | None => false end. Proof. reflexivity. Qed.
Lemma d_free s id : v_dr (x_lock s Free) id = false. Proof. reflexivity. Qed.
Lemma h_t s k t id : v_h (x_t s k t) id = v_h s id. Proof. reflexivity. Qed.
Lemma h_q s q id : v_h (x_q s q) id = v_h s id. Proof. reflexivity. Qed.
Lemma h_del s n id : v_h (x_del s n) id = v_h s id. Proof. reflexivity. Qed.
Lemma h_clk s n id : v_h (x_clk s n) id = v_h s id. Proof. reflexivity. Qed.
Lemma h_sch s n id : v_h (x_sch s n) id = v_h s id. Proof. reflexivity. Qed.
Lemma h_usr s a n id : v_h (x_usr s a n) id = v_h s id. Proof. reflexivity. Qed.
Lemma h_op s a n id : v_h (x_op s a n) id = v_h s id. Proof. reflexivity. Qed.
Lemma h_crash s id : v_h (x_crash s) id = v_h s id. Proof. reflexivity. Qed.
Lemma h_log s e id : v_h (x_log s e) id = v_h s id. Proof. reflexivity. Qed.
Lemma h_lock s who now mv d m id : v_h (x_lock s (Held who now mv d m)) id = if is (mtimer m) id then Some (m, now) else None. Proof. reflexivity. Qed.
Lemma h_free s id : v_h (x_lock s Free) id = None. Proof. reflexivity. Qed.
Lemma l_t s k t id : v_l (x_t s k t) id = v_l s id. Proof. reflexivity. Qed.
Lemma l_q s q id : v_l (x_q s q) id = v_l s id. Proof. reflexivity. Qed.
Lemma l_del s n id : v_l (x_del s n) id = v_l s id. Proof. reflexivity. Qed.
Lemma l_clk s n id : v_l (x_clk s n) id = v_l s id. Proof. reflexivity. Qed.
Lemma l_sch s n id : v_l (x_sch s n) id = v_l s id. Proof. reflexivity. Qed.
Lemma l_usr s a n id : v_l (x_usr s a n) id = v_l s id. Proof. reflexivity. Qed.
Lemma l_op s a n id : v_l (x_op s a n) id = v_l s id. Proof. reflexivity. Qed.
Lemma l_crash s id : v_l (x_crash s) id = v_l s id. Proof. reflexivity. Qed.
Lemma l_lock s l id : v_l (x_lock s l) id = v_l s id. Proof. reflexivity. Qed.
Lemma q_t s k t id : in_q (x_t s k t) id = in_q s id. Proof. reflexivity. Qed.
Lemma q_q s k id : in_q (x_q s (c_q s ++ [k])) id = (in_q s id || (id =? k))%bool. Proof. apply inq_app. Qed.
Lemma q_un s k id : in_q (x_q s (filter (fun i => negb (i =? k)) (c_q s))) id = (in_q s id && negb (id =? k))%bool. Proof. apply inq_unq. Qed.
Lemma q_del s n id : in_q (x_del s n) id = in_q s id. Proof. reflexivity. Qed.
Lemma q_clk s n id : in_q (x_clk s n) id = in_q s id. Proof. reflexivity. Qed.
Lemma q_sch s n id : in_q (x_sch s n) id = in_q s id. Proof. reflexivity. Qed.
Lemma q_usr s a n id : in_q (x_usr s a n) id = in_q s id. Proof. reflexivity. Qed.
Lemma q_op s a n id : in_q (x_op s a n) id = in_q s id. Proof. reflexivity. Qed.
Lemma q_crash s id : in_q (x_crash s) id = in_q s id. Proof. reflexivity. Qed.
Lemma q_log s e id : in_q (x_log s e) id = in_q s id. Proof. reflexivity. Qed.
Lemma q_lock s l id : in_q (x_lock s l) id = in_q s id. Proof. reflexivity. Qed.
Lemma q_qt s k t q id : in_q (x_q (x_t s k t) q) id = in_q (x_q s q) id. Proof. reflexivity. Qed.
Lemma dr_lock s l : c_lock s = l -> forall id, v_dr s id = match l with Held _ _ _ (Some l) _ => existsb (Z.eqb id) l | _ => false end. Proof. intros <-. reflexivity. Qed.
Lemma h_of s l : c_lock s = l -> forall id, v_h s id = match l with Held _ now _ _ m => if is (mtimer m) id then Some (m, now) else None | Free => None end. Proof. intros <-. reflexivity. Qed.
#[export] Hint Rewrite h_t h_q h_del h_clk h_sch h_usr h_op h_crash h_log h_lock h_free l_t l_q l_del l_clk l_sch l_usr l_op l_crash l_lock v_l_log
  q_qt q_t q_q q_un q_del q_clk q_sch q_usr q_op q_crash q_log q_lock d_t d_q d_del d_clk d_sch d_usr d_op d_crash d_log d_lock d_free : pic.
Ltac pic := unfold ret, to, off, unq, stat; autorewrite with pic.
Ltac locks := repeat match goal with H : c_lock ?s = ?l |- _ => rewrite ?(dr_lock s l H), ?(h_of s l H) in *; cbn [mtimer is] in *; clear H end.
Ltac side := intros; pic; cbn [ev_timer]; shape; rewrite ?tsetq; eqs; cbn [t_status t_on t_when t_period t_cb w_status w_on w_when w_period mtimer is];
  locks; eqs; rewrite ?orb_false_r, ?andb_true_r; try reflexivity; try exact I.
(** The one timer of the step: all its cases. *)
Ltac norm := cbn [TI fresh stopping stopping' live st_eqb pend1 stopped1 fired1 andb orb negb] in *; brk; subst; try discriminate; try congruence.
Ltac table := unfold stat in *; repeat match goal with H : st_eqb _ _ = true |- _ => apply st_eqb_spec in H end;
  match goal with Tk : TI (t_status (c_t ?s ?k)) _ _ _ _ _ _ _ |- _ =>
    generalize dependent (t_status (c_t s k)); generalize dependent (t_on (c_t s k)); generalize dependent (in_q s k);
    generalize dependent (t_when (c_t s k)); generalize dependent (v_l s k); try generalize dependent (v_h s k); try generalize dependent (v_dr s k) end; intros;
  match goal with Tk : TI ?st _ _ _ _ _ _ _ |- _ => destruct st end; norm; try tauto;
  repeat match goal with r : bool |- _ => destruct r end; norm; try tauto;
  repeat match goal with h : option (mpc * Z) |- _ => destruct h as [[[] ?]|] end; norm; try tauto; try lia; auto 12;
  try (match goal with L : option event |- _ => destruct L as [[]|] end; norm; tauto).

Lemma user_inv owner s a s' : INV owner s -> user_step s a = Some s' -> INV owner s'.
Proof.
  intros Iv H. pose proof (proj1 Iv) as O. pose proof (proj2 Iv) as T. unfold user_step in H. destruct (c_usr s a) eqn:U; [discriminate|..].
  all: match type of U with c_usr _ _ = ?p => match eval cbn in (utimer p) with Some ?k => pose proof (O a) as Oa; rewrite U in Oa; cbn [utimer] in Oa; pose proof (T k) as Tk; unfold TIs in Tk; rewrite (u_at owner s a k Oa) in Tk by (rewrite U; reflexivity); rewrite U in Tk;
     assert (Ut : utimer (c_usr s a) = Some k) by (rewrite U; reflexivity) end end.
  all: repeat match type of H with
    | Some (if ?c then _ else _) = _ => destruct c eqn:?
    | (if ?c then _ else _) = _ => destruct c eqn:?
    | match ?c with _ => _ end = _ => destruct c eqn:?; try discriminate
    end; try discriminate; injection H as <-; try exact Iv.
  all: apply (user_frame owner s a _ id Iv Oa Ut); try (side; fail).
  all: side. all: try (table; fail).
  all: destruct (negb (t_period (c_t s id) =? 0)); cbn [t_status t_on t_when w_period w_when]; table.
Qed.

(** ** Calls and the clock *)
Lemma same_inv owner s s' : INV owner s -> c_t s' = c_t s -> c_q s' = c_q s -> c_lock s' = c_lock s -> c_usr s' = c_usr s -> (forall id, v_l s' id = v_l s id) -> INV owner s'.
Proof.
  intros [O T] Ht Hq Hk Hu Hl. split; [unfold own; rewrite Hu; exact O|]. intros k. apply (frame owner s); [apply T|now rewrite Ht| | | | |]; auto.
  - unfold in_q. now rewrite Hq. - unfold v_dr. now rewrite Hk. - unfold v_u. now rewrite Hu. - unfold v_h. now rewrite Hk.
Qed.

Lemma call_inv owner s a o s' : INV owner s -> owner (op_timer o) = a -> cstep s (LCall a o) = Some s' -> INV owner s'.
Proof.
  intros Iv Oo H. unfold cstep in H. destruct (c_crash s); [discriminate|]. destruct (c_usr s a) eqn:U; try discriminate.
  destruct (_ && _); [discriminate|]. cbv zeta in H. injection H as <-. pose proof (proj1 Iv) as O. pose proof (proj2 Iv) as T.
  assert (V : forall p, (match utimer p with Some k => k = op_timer o | None => True end) -> fresh p -> INV owner (x_usr (x_log (x_op s a o) (CCall a o (c_clk s))) a p)).
  { intros p Hp Fp. split.
    - apply own_usr; [exact O|]. destruct (utimer p); [subst; reflexivity|exact I].
    - intros k. pose proof (T k) as Tk. unfold TIs in *. autorewrite with pic. shape. destruct (Z.eq_dec (owner k) a) as [E|N].
      + assert (Vs : v_u owner s k = UIdle) by (unfold v_u; rewrite E, U; reflexivity). rewrite Vs in Tk.
        assert (Fv : fresh (v_u owner (x_usr (x_log (x_op s a o) (CCall a o (c_clk s))) a p) k)). { unfold v_u. shape. rewrite E, Z.eqb_refl. destruct (is _ _); [exact Fp|exact I]. }
        revert Fv. generalize (v_u owner (x_usr (x_log (x_op s a o) (CCall a o (c_clk s))) a p) k). intros v Fv. destruct v; try destruct Fv; try exact Tk.
        all: exact Tk.
      + assert (E : v_u owner (x_usr (x_log (x_op s a o) (CCall a o (c_clk s))) a p) k = v_u owner s k). { unfold v_u. shape. replace (owner k =? a) with false by lia. reflexivity. }
        rewrite E. exact Tk. }
  destruct (refused o).
  - unfold ret. shape. apply (same_inv owner _ _ (V UIdle I I)); try reflexivity. intros k. autorewrite with pic. reflexivity.
  - apply V; destruct o; cbn [entry utimer op_timer fresh]; auto.
Qed.
(** ** The holder of the lock *)
Lemma hold_frame owner s s' id : INV owner s -> (forall k, k <> id -> c_t s' k = c_t s k) -> (forall k, k <> id -> in_q s' k = in_q s k) -> (forall k, k <> id -> v_dr s' k = v_dr s k) ->
  (forall k, k <> id -> v_l s' k = v_l s k) -> (forall k, k <> id -> v_h s' k = v_h s k) -> c_usr s' = c_usr s ->
  TI (t_status (c_t s' id)) (t_on (c_t s' id)) (in_q s' id) (v_dr s' id) (t_when (c_t s' id)) (v_l s' id) (v_u owner s id) (v_h s' id) -> INV owner s'.
Proof.
  intros [O T] Ht Hq Hd Hl Hh Hu X. assert (Vu : forall k, v_u owner s' k = v_u owner s k) by (intros k; unfold v_u; now rewrite Hu).
  split; [unfold own; rewrite Hu; exact O|]. intros k. destruct (Z.eq_dec k id) as [->|N]; [unfold TIs; rewrite Vu; exact X|apply (frame owner s); auto].
Qed.
Lemma pick_inv owner s id s' : INV owner s -> pick s id = Some s' -> INV owner s'.
Proof.
  intros Iv H. pose proof (proj2 Iv id) as Tk. unfold TIs in Tk. unfold pick in H. destruct (c_lock s) eqn:K; [discriminate|]. destruct m; try discriminate.
  destruct (negb (in_q s id)) eqn:Q; cbn [orb] in H; [discriminate|]. match type of H with (if ?c then _ else _) = _ => destruct c; [discriminate|] end.
  unfold stat in H. assert (Qt : in_q s id = true) by (destruct (in_q s id); [reflexivity|discriminate]). clear Q.
  destruct (t_status (c_t s id)) eqn:St; destruct drop; try destruct who; try destruct moved; injection H as <-; try exact Iv.
  all: apply (hold_frame owner s _ id Iv); try (side; fail); side; rewrite ?St.
  all: generalize dependent (v_u owner s id); intros u Tk.
  all: try (norm; repeat match goal with H : _ = false |- _ => rewrite H | H : _ = true |- _ => rewrite H end; repeat split; auto; fail).
  all: try (destruct u; norm; repeat match goal with r : bool |- _ => destruct r end; norm; tauto).
Qed.

