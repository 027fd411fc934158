(** C51, C52, C84: event listeners. *)
From Verif Require Import Go GoFacts EventModel EventSpec.

Lemma shift_trunc l i x : nth_error l i = Some x -> firstn (length l - 1) (shift_down l i) = firstn i l ++ skipn (S i) l.
Proof.
  intros E. assert (i < length l)%nat by (apply nth_error_Some; congruence). unfold shift_down. rewrite app_assoc, firstn_app.
  assert (L : length (firstn i l ++ skipn (S i) l) = (length l - 1)%nat) by (rewrite app_length, firstn_length, skipn_length; lia).
  rewrite L, Nat.sub_diag. cbn [firstn]. rewrite app_nil_r. apply firstn_all2. lia.
Qed.
Lemma remove_loop_skip w : forall l p k, (forall x, In x p -> who x <> w) -> k = length l ->
  map who (remove_loop w (p ++ l) (length p) k) = map who p ++ remove_first w (map who l).
Proof.
  induction l as [|x l IH]; intros p k P ->; cbn [length remove_loop map remove_first]; [rewrite map_app; reflexivity|].
  rewrite nth_error_app2, Nat.sub_diag by lia. cbn [nth_error]. destruct (Nat.eqb_spec (who x) w) as [E|E].
  - rewrite (shift_trunc _ _ x) by (rewrite nth_error_app2, Nat.sub_diag by lia; reflexivity).
    rewrite firstn_app, firstn_all, Nat.sub_diag. cbn [firstn]. rewrite app_nil_r.
    replace (p ++ x :: l) with ((p ++ [x]) ++ l) by (rewrite <- app_assoc; reflexivity).
    replace (S (length p)) with (length (p ++ [x])) by (rewrite app_length; cbn; lia). rewrite skipn_app, skipn_all, Nat.sub_diag. cbn [skipn app]. apply map_app.
  - replace (p ++ x :: l) with ((p ++ [x]) ++ l) by (rewrite <- app_assoc; reflexivity). replace (S (length p)) with (length (p ++ [x])) by (rewrite app_length; cbn; lia).
    rewrite IH; [rewrite map_app, <- app_assoc; reflexivity| |reflexivity]. intros y I. rewrite in_app_iff in I. destruct I as [I|[<-|[]]]; auto.
Qed.
Lemma remove_spec w l : map who (remove_loop w l 0 (length l)) = remove_first w (map who l).
Proof. apply (remove_loop_skip w l [] (length l)); [intros x []|reflexivity]. Qed.
Lemma quiet_handlers beh run t : forall l, (forall x, In x l -> beh (who x) = []) -> handlers beh run t l = Finished t (map who l).
Proof. induction l as [|x l IH]; intros H; [reflexivity|]. cbn [handlers]. rewrite (H x) by (left; reflexivity). cbn [ops_]. rewrite IH by (intros; apply H; right; auto). reflexivity. Qed.

(** Listeners that do not use the target themselves: every history of calls finishes, and calls
    exactly the listeners registered at each dispatch, once per registration and in order. *)
Theorem C51_delivery : forall n l t, locked t = false -> exists t' calls,
  ops_ (exec (fun _ => []) (S n)) t l = Finished t' calls /\ locked t' = false /\ history (map who (ls t)) l calls (map who (ls t')).
Proof.
  intros n. induction l as [|o l IH]; intros t U; [exists t, []; repeat split; [exact U|constructor]|]. cbn [ops_].
  assert (G : exists t1 c1, exec (fun _ => []) (S n) t o = Finished t1 c1 /\ locked t1 = false /\
     forall calls reg', history (map who (ls t1)) l calls reg' -> history (map who (ls t)) (o :: l) (c1 ++ calls) reg').
  { cbn [exec]. unfold Lock. rewrite U. destruct o as [w o|w o|]; cbn [ls locked].
    - eexists _, _. split; [reflexivity|]. split; [reflexivity|]. intros calls reg' H. cbn [Unlock ls] in H. rewrite map_app in H. constructor. exact H.
    - eexists _, _. split; [reflexivity|]. split; [reflexivity|]. intros calls reg' H. cbn [Unlock ls] in H. rewrite remove_spec in H. apply h_remove. exact H.
    - rewrite quiet_handlers by reflexivity. eexists _, _. split; [reflexivity|]. split; [reflexivity|]. intros calls reg' H. cbn [Unlock ls] in H. constructor. exact H. }
  destruct G as (t1 & c1 & -> & U1 & G). destruct (IH t1 U1) as (t2 & c2 & -> & U2 & H). exists t2, (c1 ++ c2). repeat split; [exact U2|]. apply G, H.
Qed.
Print Assumptions C51_delivery.
Example C51_nonvacuous : let o := {| Capture := false; Once := false; Passive := false |} in
  ops_ (exec (fun _ => []) 1) target0 [Add 4 o; Add 5 o; Add 4 o; Dispatch; Remove 4 o; Dispatch] =
  Finished {| locked := false; ls := [{| who := 5; options := o |}; {| who := 4; options := o |}] |} [4; 5; 4; 5; 4]%nat.
Proof. reflexivity. Qed.

(** * C52 *)
(** Any number of listeners that do not call the target may be registered, *)
Theorem C52_quiet_partial : forall beh n t, locked t = false -> (forall x, In x (ls t) -> beh (who x) = []) ->
  exec beh (S n) t Dispatch = Finished t (map who (ls t)).
Proof.
  intros beh n t U Q. cbn [exec]. unfold Lock. rewrite U. cbn [ls]. rewrite quiet_handlers by exact Q. unfold Unlock. cbn [ls]. destruct t as [lk l]; cbn in *; subst; reflexivity.
Qed.
Print Assumptions C52_quiet_partial.
(** but as soon as one of them adds, removes or dispatches on it, the dispatch never returns: the
    listeners up to that one are called, and the mutex stays locked. *)
Theorem C52_reentry_refuted : forall beh n t p x r o k, locked t = false -> ls t = p ++ x :: r -> (forall y, In y p -> beh (who y) = []) -> beh (who x) = o :: k ->
  exec beh (S (S n)) t Dispatch = Stuck {| locked := true; ls := ls t |} (map who p ++ [who x]).
Proof.
  intros beh n t p x r o k U E Q B. unfold exec at 1; fold (exec beh (S n)). unfold Lock at 1. rewrite U. cbn [ls].
  assert (G : forall l, l = p ++ x :: r -> handlers beh (exec beh (S n)) {| locked := true; ls := ls t |} l = Stuck {| locked := true; ls := ls t |} (map who p ++ [who x])).
  { intros l ->. clear E. revert Q. induction p as [|y p IH]; intros Q; cbn [app handlers map].
    - rewrite B. cbn [ops_ exec]. unfold Lock. cbn [locked]. reflexivity.
    - rewrite (Q y) by (left; reflexivity). cbn [ops_]. rewrite IH by (intros z I; apply Q; right; exact I). reflexivity. }
  rewrite (G (ls t) E). reflexivity.
Qed.
Print Assumptions C52_reentry_refuted.
(** From then on every call on the target, by anyone, blocks too. *)
Theorem C52_forever_refuted : forall beh n t o, locked t = true -> exec beh (S n) t o = Stuck t [].
Proof. intros beh n t o H. cbn [exec]. unfold Lock. rewrite H. reflexivity. Qed.
Print Assumptions C52_forever_refuted.
Example C52_nonvacuous : let o := {| Capture := false; Once := false; Passive := false |} in
  exec (fun w => if Nat.eqb w 5 then [Remove 5 o] else []) 2 {| locked := false; ls := [{| who := 4; options := o |}; {| who := 5; options := o |}; {| who := 6; options := o |}] |} Dispatch =
  Stuck {| locked := true; ls := [{| who := 4; options := o |}; {| who := 5; options := o |}; {| who := 6; options := o |}] |} [4; 5]%nat.
Proof. reflexivity. Qed.

(** * C84: the options of a listener *)
(** A listener added with Once is called by every dispatch all the same. *)
Fixpoint dispatches (n : nat) : list op := match n with O => [] | S n => Dispatch :: dispatches n end.
Theorem C84_once_refuted : forall w o n, Once o = true ->
  ops_ (exec (fun _ => []) 1) target0 (Add w o :: dispatches n) = Finished {| locked := false; ls := [{| who := w; options := o |}] |} (repeat w n).
Proof.
  intros w o n _. cbn [ops_].
  change (exec (fun _ => []) 1 target0 (Add w o)) with (Finished {| locked := false; ls := [{| who := w; options := o |}] |} []).
  assert (G : ops_ (exec (fun _ => []) 1) {| locked := false; ls := [{| who := w; options := o |}] |} (dispatches n) = Finished {| locked := false; ls := [{| who := w; options := o |}] |} (repeat w n)).
  { induction n as [|n IH]; [reflexivity|]. cbn [dispatches ops_]. change (exec (fun _ => []) 1 {| locked := false; ls := [{| who := w; options := o |}] |} Dispatch) with (Finished {| locked := false; ls := [{| who := w; options := o |}] |} [w]).
    cbv beta iota. rewrite IH. reflexivity. }
  cbv beta iota. rewrite G. reflexivity.
Qed.
Print Assumptions C84_once_refuted.
(** The options never matter: histories that differ in them alone behave the same. *)
Definition forget (o : op) : op := let z := {| Capture := false; Once := false; Passive := false |} in match o with Add w _ => Add w z | Remove w _ => Remove w z | Dispatch => Dispatch end.
Lemma forget_history l : forall reg c1 r1, history reg l c1 r1 -> forall c2 r2, history reg (map forget l) c2 r2 -> c1 = c2.
Proof.
  induction l as [|o l IH]; intros reg c1 r1 H1 c2 r2 H2; [inversion H1; inversion H2; subst; reflexivity|].
  destruct o; cbn [map forget] in H2; inversion H1; subst; inversion H2; subst; try f_equal; eauto.
Qed.
Theorem C84_ignored_refuted : forall n l t, locked t = false -> exists t1 t2 calls, ops_ (exec (fun _ => []) (S n)) t l = Finished t1 calls /\
  ops_ (exec (fun _ => []) (S n)) t (map forget l) = Finished t2 calls.
Proof.
  intros n l t U. destruct (C51_delivery n l t U) as (t1 & c1 & E1 & _ & H1). destruct (C51_delivery n (map forget l) t U) as (t2 & c2 & E2 & _ & H2). exists t1, t2, c1. split; [exact E1|]. rewrite E2.
  f_equal. symmetry. exact (forget_history _ _ _ _ H1 _ _ H2).
Qed.
Print Assumptions C84_ignored_refuted.
Example C84_nonvacuous : ops_ (exec (fun _ => []) 1) target0 [Add 3 {| Capture := false; Once := true; Passive := false |}; Dispatch; Dispatch] =
  Finished {| locked := false; ls := [{| who := 3; options := {| Capture := false; Once := true; Passive := false |} |}] |} [3; 3]%nat.
Proof. reflexivity. Qed.
