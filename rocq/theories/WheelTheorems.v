(** C12: a single timer on a timing wheel, for ever. *)
From Coq Require Import ZifyBool ZifyNat.
From Verif Require Import Go GoFacts WheelModel WheelSpec WheelProofs WheelArith.
Ltac Zify.zify_post_hook ::= idtac.

Lemma nth_repeat_some {A} (x : A) n k : (k < n)%nat -> nth_error (repeat x n) k = Some x.
Proof. revert k. induction n as [|n IH]; intros [|k] H; cbn; auto; try lia. apply IH. lia. Qed.

(** the wheel with one timer, in slot j *)
Definition one (i sz pos j : Z) (t : wtimer) : wheel :=
  {| w_size := sz; w_interval := i; w_pos := pos; w_slots := upd (repeat [] (Z.to_nat sz)) (Z.to_nat j) [t] |}.

Lemma one_len i sz pos j t : 0 <= sz -> zlen (w_slots (one i sz pos j t)) = sz.
Proof. intros H. cbn [one w_slots]. unfold zlen. rewrite upd_length, repeat_length. lia. Qed.
Lemma nth_one i sz pos j t k : 0 <= j < sz -> 0 <= k < sz -> nth_error (w_slots (one i sz pos j t)) (Z.to_nat k) = Some (if k =? j then [t] else []).
Proof.
  intros Hj Hk. cbn [one w_slots]. destruct (Z.eqb_spec k j) as [->|N].
  - apply nth_error_upd_eq. rewrite repeat_length. lia.
  - rewrite nth_error_upd_neq by lia. apply nth_repeat_some. lia.
Qed.
Lemma tick_miss i sz pos j t : 0 <= j < sz -> 0 <= pos < sz -> pos <> j ->
  wheel_tick (one i sz pos j t) = Ok (one i sz (succ_pos sz pos) j t, []).
Proof.
  intros Hj Hp N. unfold wheel_tick, incrementTickPosition. rewrite one_len by lia. cbn [w_pos one]. fold (succ_pos sz pos).
  cbn [w_set w_slots].
  change (upd (repeat [] (Z.to_nat sz)) (Z.to_nat j) [t]) with (w_slots (one i sz pos j t)).
  rewrite (idx_ok _ pos []); [|lia|]. 2:{ rewrite nth_one by lia. now replace (pos =? j) with false by lia. }
  cbn [bind]. rewrite set_idx_ok by (rewrite one_len; lia). cbn [bind run_slot].
  assert (E : upd (w_slots (one i sz pos j t)) (Z.to_nat pos) [] = w_slots (one i sz pos j t)).
  { apply list_ext. intros k. destruct (Nat.eq_dec k (Z.to_nat pos)) as [->|Nk].
    - rewrite nth_error_upd_eq by (pose proof (one_len i sz pos j t); unfold zlen in *; lia).
      rewrite nth_one by lia. replace (pos =? j) with false by lia. reflexivity.
    - now rewrite nth_error_upd_neq by congruence. }
  rewrite E. reflexivity.
Qed.
Lemma tick_hit i sz j id p : 0 < i -> 0 <= j < sz -> sz < 2 ^ 31 -> i <= p < 2 ^ 62 ->
  let j' := p / i + succ_pos sz j in
  wheel_tick (one i sz j j (id, p)) = if j' <? sz then Ok (one i sz (succ_pos sz j) j' (id, p), [id]) else Panic.
Proof.
  intros Hi Hj Hs Hp j'. unfold wheel_tick, incrementTickPosition. rewrite one_len by lia. cbn [w_pos one]. fold (succ_pos sz j).
  cbn [w_set w_slots].
  change (upd (repeat [] (Z.to_nat sz)) (Z.to_nat j) [(id, p)]) with (w_slots (one i sz j j (id, p))).
  rewrite (idx_ok _ j [(id, p)]); [|lia|]. 2:{ rewrite nth_one by lia. now rewrite Z.eqb_refl. }
  cbn [bind]. rewrite set_idx_ok by (rewrite one_len; lia). cbn [bind run_slot].
  assert (E : upd (w_slots (one i sz j j (id, p))) (Z.to_nat j) [] = repeat [] (Z.to_nat sz)).
  { apply list_ext. intros k. cbn [w_slots one]. destruct (Nat.eq_dec k (Z.to_nat j)) as [->|Nk].
    - rewrite nth_error_upd_eq by (rewrite upd_length, repeat_length; lia). symmetry. apply nth_repeat_some. lia.
    - now rewrite !nth_error_upd_neq by congruence. }
  rewrite E. cbn [w_set w_size w_interval w_pos one]. unfold checkAndAddTimerAgain. cbn [snd]. replace (0 <? p) with true by lia.
  set (w := {| w_size := sz; w_interval := i; w_pos := succ_pos sz j; w_slots := repeat [] (Z.to_nat sz) |}).
  assert (S0 : 0 <= succ_pos sz j < sz) by (now apply succ_pos_range).
  change (w_set (w_set (one i sz j j (id, p)) (succ_pos sz j) (w_slots (one i sz j j (id, p)))) (succ_pos sz j) (repeat [] (Z.to_nat sz))) with w.
  rewrite (addedPosition_ok w id p); [|split; [unfold w, zlen; cbn; rewrite repeat_length; lia|cbn; lia]|lia]. cbn [bind].
  cbn [w w_interval w_pos]. fold j'. assert (J0 : 0 <= j') by (unfold j'; pose proof (Z.div_pos p i); lia).
  destruct (Z.ltb_spec j' sz) as [L|L].
  - assert (Lz : zlen (w_slots w) = sz) by (unfold w, zlen; cbn; rewrite repeat_length; lia).
    destruct (slot_append_in w j' (id, p)) as (s & Es & A); [lia|]. rewrite A. cbn [bind fst snd].
    cbn [w w_slots] in Es. rewrite nth_repeat_some in Es by lia. injection Es as <-. reflexivity.
  - rewrite slot_append_out; [reflexivity|]. unfold w, zlen. cbn. rewrite repeat_length. lia.
Qed.

(** the state after n ticks *)
Definition after (i sz q n : Z) (t : wtimer) : wheel := one i sz (n mod sz) ((n / (q + 1) * (q + 1) + q) mod sz) t.
Definition fired (q id n : Z) : list Z := if (n + 1) mod (q + 1) =? 0 then [id] else [].

Lemma step_ok i sz id p n : 0 < i -> 1 <= p / i < sz -> sz < 2 ^ 31 -> i <= p < 2 ^ 62 -> 0 <= n -> region (p / i) sz n ->
  wheel_tick (after i sz (p / i) n (id, p)) =
    if (n mod (p / i + 1) =? p / i) && negb (p / i + (n + 1) mod sz <? sz) then Panic
    else Ok (after i sz (p / i) (n + 1) (id, p), fired (p / i) id n).
Proof.
  intros Hi Hq Hs Hp Hn R. set (q := p / i) in *. destruct (where_ q sz n) as (P & J & E); auto. cbv zeta in *. unfold after.
  assert (Fi : fired q id n = if n mod (q + 1) =? q then [id] else []).
  { unfold fired. destruct (Z.eqb_spec (n mod (q + 1)) q) as [X|X].
    - now rewrite (proj1 (next_hit q n (proj1 Hq) X)).
    - pose proof (proj1 (next_miss q n (proj1 Hq) X)) as Y. apply Z.eqb_neq in Y. now rewrite Y. }
  rewrite Fi. clear Fi. destruct (Z.eqb_spec (n mod (q + 1)) q) as [X|X].
  - rewrite <- (proj2 E X). rewrite tick_hit by (auto; lia). fold q. cbv zeta. rewrite succ_mod by (auto; lia). cbn [andb].
    destruct (Z.ltb_spec (q + (n + 1) mod sz) sz) as [L|L]; cbn [negb]; [|reflexivity]. f_equal. f_equal. f_equal.
    rewrite (proj2 (next_hit q n (proj1 Hq) X)). symmetry. now apply slot_hit.
  - cbn [andb]. rewrite tick_miss; auto; [|intros Y; apply X; apply E; exact Y]. rewrite succ_mod by (auto; lia).
    now rewrite (proj2 (next_miss q n (proj1 Hq) X)).
Qed.
Lemma ticks_from i sz id p k : 0 < i -> 1 <= p / i < sz -> sz < 2 ^ 31 -> i <= p < 2 ^ 62 -> forall n, 0 <= n ->
  ((p / i + 1 | sz) \/ n + Z.of_nat k < sz / (p / i + 1) * (p / i + 1)) ->
  wheel_ticks k (after i sz (p / i) n (id, p)) =
    Ok (after i sz (p / i) (n + Z.of_nat k) (id, p), map (fun x => fired (p / i) id (n + Z.of_nat x)) (seq 0 k)).
Proof.
  intros Hi Hq Hs Hp. induction k as [|k IH]; intros n Hn R; cbn [wheel_ticks seq map].
  - do 3 f_equal. lia.
  - rewrite step_ok; auto. 2:{ destruct R; [left; auto|right; lia]. }
    replace ((n mod (p / i + 1) =? p / i) && negb (p / i + (n + 1) mod sz <? sz)) with false.
    2:{ destruct (Z.eqb_spec (n mod (p / i + 1)) (p / i)) as [X|X]; auto. cbn [andb]. symmetry. apply Bool.negb_false_iff, Z.ltb_lt.
        destruct R; [now apply safe_div|apply safe_small; lia]. }
    cbn [bind fst snd]. rewrite IH; [|lia|destruct R; [left; auto|right; lia]]. cbn [bind fst snd]. f_equal. f_equal; [f_equal; lia|].
    f_equal; [f_equal; lia|]. rewrite <- seq_shift, map_map. apply map_ext. intros x. f_equal. lia.
Qed.
Lemma ticks_app a b : forall w w1 f, wheel_ticks a w = Ok (w1, f) -> wheel_ticks (a + b) w = (let! r := wheel_ticks b w1 in Ok (fst r, f ++ snd r)).
Proof.
  induction a as [|a IH]; intros w w1 f H; cbn [wheel_ticks plus] in *.
  - injection H as <- <-. destruct (wheel_ticks b w) as [[x y]|]; reflexivity.
  - destruct (wheel_tick w) as [[w2 f2]|]; cbn [bind fst snd] in *; [|discriminate].
    destruct (wheel_ticks a w2) as [[w3 f3]|] eqn:E; cbn [bind fst snd] in *; [|discriminate]. injection H as <- <-.
    rewrite (IH _ _ _ E). destruct (wheel_ticks b w3) as [[x y]|]; reflexivity.
Qed.

Lemma stops i sz id p last n : 0 < i -> 1 <= p / i < sz -> sz < 2 ^ 31 -> i <= p < 2 ^ 62 -> last = sz / (p / i + 1) * (p / i + 1) ->
  1 <= last < sz -> (last - 1) mod (p / i + 1) = p / i -> sz <= p / i + last -> last <= Z.of_nat n ->
  wheel_ticks n (after i sz (p / i) 0 (id, p)) = Panic.
Proof.
  intros Hi Hq Hs Hp El La Lm Lq L. rewrite (split_ticks last n (proj1 La) L).
  assert (R : (p / i + 1 | sz) \/ 0 + Z.of_nat (Z.to_nat (last - 1)) < sz / (p / i + 1) * (p / i + 1)).
  { right. rewrite (split_last last (proj1 La)), <- El. clear. lia. }
  pose proof (ticks_from i sz id p (Z.to_nat (last - 1)) Hi Hq Hs Hp 0 (Z.le_refl 0) R) as G1.
  rewrite (ticks_app _ _ _ _ _ G1). cbn [wheel_ticks]. rewrite (split_last last (proj1 La)), Z.add_0_l.
  assert (N0 : 0 <= last - 1) by (clear - La; lia).
  assert (Rg : region (p / i) sz (last - 1)) by (right; rewrite <- El; clear; lia).
  rewrite (step_ok i sz id p (last - 1) Hi Hq Hs Hp N0 Rg). rewrite Lm, Z.eqb_refl. rewrite Z.sub_add.
  rewrite Z.mod_small by (clear - La; lia). rewrite (proj2 (Z.ltb_ge _ _) Lq). reflexivity.
Qed.

(** C12.  A timer alone on a new wheel, its period q intervals: if q + 1 divides the size of the wheel
    it runs at every (q + 1)-th tick for ever; if not, the tick that would carry it over the end of the
    wheel panics, and no tick before. *)
Theorem C12_alone_refuted : forall i sz id p w0 w1, 0 < i -> sz < 2 ^ 31 -> i <= p < 2 ^ 62 -> p / i < sz ->
  wheel_Init i sz = Ok w0 -> wheel_AddTimer w0 (id, p) = Ok (w1, []) -> let q := p / i in
  ((q + 1 | sz) -> forall n, exists w, wheel_ticks n w1 = Ok (w, map (fun k => fired q id (Z.of_nat k)) (seq 0 n))) /\
  (~ (q + 1 | sz) -> forall n, let last := sz / (q + 1) * (q + 1) in
     (Z.of_nat n < last -> exists w, wheel_ticks n w1 = Ok (w, map (fun k => fired q id (Z.of_nat k)) (seq 0 n))) /\
     (last <= Z.of_nat n -> wheel_ticks n w1 = Panic)).
Proof.
  intros i sz id p w0 w1 Hi Hs Hp Hq I A q. assert (Q1 : 1 <= q) by (apply Z.div_le_lower_bound; lia).
  unfold wheel_Init in I. destruct (Z.ltb_spec sz 0); [discriminate|]. injection I as <-.
  assert (E1 : w1 = after i sz q 0 (id, p)).
  { unfold wheel_AddTimer in A. rewrite addedPosition_ok in A; [|split; [unfold zlen; cbn; rewrite repeat_length; lia|cbn; lia]|lia].
    cbn [bind w_interval w_pos w_size] in A. fold q in A. rewrite Z.add_0_r in A. replace (sz <? q) with false in A by lia. replace (q =? 0) with false in A by lia.
    match type of A with context [slot_append ?w q _] => destruct (slot_append_in w q (id, p)) as (s & Es & B) end.
    { unfold zlen. cbn [w_slots]. rewrite repeat_length. lia. }
    rewrite B in A. cbn [bind] in A. cbn [w_slots] in Es. rewrite nth_repeat_some in Es by lia. injection Es as <-. injection A as <-.
    unfold after, one. rewrite Z.mod_0_l, Z.div_0_l by lia. rewrite Z.mod_small by lia. rewrite Z.add_0_l. reflexivity. }
  subst w1. assert (Go : forall n, ((q + 1 | sz) \/ Z.of_nat n < sz / (q + 1) * (q + 1)) ->
     wheel_ticks n (after i sz q 0 (id, p)) = Ok (after i sz q (Z.of_nat n) (id, p), map (fun k => fired q id (Z.of_nat k)) (seq 0 n))).
  { intros n R. apply (ticks_from i sz id p n); auto; lia. }
  split; [intros D n; eexists; apply Go; now left|].
  intros D n last. split; [intros L; eexists; apply Go; now right|]. intros L.
  destruct (last_tick q sz (conj Q1 Hq) D) as (La & Lm & Lq). change (sz / (q + 1) * (q + 1)) with last in La, Lm, Lq.
  exact (stops i sz id p last n Hi (conj Q1 Hq) Hs Hp eq_refl La Lm Lq L).
Qed.
Print Assumptions C12_alone_refuted.
Example C12_alone_case : exists w1 r, wheel_AddTimer {| w_size := 9; w_interval := 10; w_pos := 0; w_slots := repeat [] 9 |} (7, 25) = Ok (w1, []) /\
  wheel_ticks 9 w1 = Ok r /\ snd r = [[]; []; [7]; []; []; [7]; []; []; [7]] /\ 
  exists w2, wheel_AddTimer {| w_size := 8; w_interval := 10; w_pos := 0; w_slots := repeat [] 8 |} (7, 25) = Ok (w2, []) /\ wheel_ticks 6 w2 = Panic.
Proof. do 2 eexists. split; [vm_compute; reflexivity|]. split; [vm_compute; reflexivity|]. split; [reflexivity|]. eexists. split; [vm_compute; reflexivity|]. vm_compute. reflexivity. Qed.
