(** C171: an event target used by many goroutines. *)
From Coq Require Import Permutation.
From Verif Require Import Go GoFacts EventModel EventSpec EventTheorems PoolRaceModel EventRaceModel EventRaceSpec.
Import ListNotations.
Local Open Scope list_scope.

Lemma registered_app : forall l l' reg, registered reg (l ++ l') = registered (registered reg l) l'.
Proof. induction l as [|c l IH]; intros l' reg; [reflexivity|]. destruct c; cbn [app registered]; apply IH. Qed.
Lemma deliveries_app : forall l l' reg, deliveries reg (l ++ l') = deliveries reg l ++ deliveries (registered reg l) l'.
Proof. induction l as [|c l IH]; intros l' reg; [reflexivity|]. destruct c; cbn [app registered deliveries]; rewrite IH; try reflexivity. apply app_assoc. Qed.

Lemma set_same {A} : forall (l : list A) i x y, nth_error l i = Some y -> nth_error (set_nth l i x) i = Some x.
Proof. induction l as [|h t IH]; intros [|i] x y E; cbn [nth_error set_nth] in *; try discriminate; eauto. Qed.
Lemma set_other {A} : forall (l : list A) i j x, i <> j -> nth_error (set_nth l i x) j = nth_error l j.
Proof. induction l as [|h t IH]; intros [|i] [|j] x E; cbn [nth_error set_nth] in *; auto; try congruence. Qed.

Definition inside (p : epc) : Prop := match p with Out | Wait _ => False | _ => True end.
(** Only the owner of the mutex is inside; what is handed over and registered is what the calls so far ask, but
    for the call under way. *)
Definition state_of (s : etarget) (p : epc) : Prop :=
  match p with
  | In c => exists l, order s = l ++ [c] /\ handed s = deliveries [] l /\ map who (els s) = registered [] l
  | Handing e r => exists d, handed s ++ map (fun x => (e, who x)) r = deliveries [] (order s) /\ map who (els s) = registered [] (order s) /\ els s = d ++ r
  | Nested => True
  | _ => False
  end.
Record EINV (s : etarget) : Prop := {
  e_in : forall i p, nth_error (epcs s) i = Some p -> inside p -> owner s = Some i;
  e_own : forall i, owner s = Some i -> exists p, nth_error (epcs s) i = Some p /\ state_of s p;
  e_out : owner s = None -> handed s = deliveries [] (order s) /\ map who (els s) = registered [] (order s) }.
Lemma einit n : EINV (etarget0 n).
Proof.
  split; cbn [etarget0 epcs owner]; [|discriminate|intros _; split; reflexivity].
  intros i p E. apply nth_error_In, repeat_spec in E. subst. intros [].
Qed.
Lemma estep_inv ne s i a s' : EINV s -> estep ne s i a = Some s' -> EINV s'.
Proof.
  intros [I O N] E. unfold estep in E. destruct (nth_error (epcs s) i) as [p|] eqn:P; [|discriminate].
  assert (OTH : forall q own, own = None -> forall j p', nth_error (set_nth (epcs s) i q) j = Some p' -> inside p' -> owner s = Some i -> ~ inside q -> own = Some j).
  { intros q own -> j p' E' J OI NQ. destruct (Nat.eq_dec i j) as [<-|D]; [rewrite (set_same _ _ _ p P) in E'; injection E' as <-; tauto|].
    rewrite set_other in E' by exact D. rewrite (I j p' E' J) in OI. congruence. }
  destruct p as [|c|[w o|w o|e]|e [|x r]|]; destruct a as [c'|]; try discriminate.
  - (* Begin *) injection E as <-. split; cbn [epcs owner els handed order].
    + intros j p' E' J. destruct (Nat.eq_dec i j) as [<-|D]; [rewrite (set_same _ _ _ _ P) in E'; injection E' as <-; destruct J|]. rewrite set_other in E' by exact D. eauto.
    + intros j OJ. destruct (O j OJ) as (q & Q & ST). destruct (Nat.eq_dec i j) as [<-|D]; [rewrite P in Q; injection Q as <-; destruct ST|].
      exists q. rewrite set_other by exact D. split; [exact Q|]. destruct q; exact ST.
    + exact N.
  - (* Lock *) destruct (owner s) as [j|] eqn:OW; [discriminate|]. injection E as <-. destruct (N eq_refl) as (N1 & N2). split; cbn [epcs owner els handed order].
    + intros j p' E' J. destruct (Nat.eq_dec i j) as [<-|D]; [reflexivity|]. rewrite set_other in E' by exact D. discriminate (I j p' E' J).
    + intros j [= <-]. exists (In c). split; [eapply set_same; eauto|]. cbn [state_of order handed els]. eauto.
    + discriminate.
  - (* Add *) assert (OI := I i _ P Logic.I). injection E as <-. destruct (O i OI) as (q & Q & ST). rewrite P in Q. injection Q as <-. destruct ST as (l & L & H & R). split; cbn [epcs owner els handed order].
    + intros j p' E' J. eapply OTH; eauto.
    + discriminate.
    + intros _. rewrite L, deliveries_app, registered_app, map_app, R. cbn [deliveries registered map who]. rewrite app_nil_r. auto.
  - (* Remove *) assert (OI := I i _ P Logic.I). injection E as <-. destruct (O i OI) as (q & Q & ST). rewrite P in Q. injection Q as <-. destruct ST as (l & L & H & R). split; cbn [epcs owner els handed order].
    + intros j p' E' J. eapply OTH; eauto.
    + discriminate.
    + intros _. rewrite L, deliveries_app, registered_app, remove_spec, R. cbn [deliveries registered map who]. rewrite app_nil_r. auto.
  - (* Dispatch *) assert (OI := I i _ P Logic.I). injection E as <-. destruct (O i OI) as (q & Q & ST). rewrite P in Q. injection Q as <-. destruct ST as (l & L & H & R). split; cbn [epcs owner els handed order].
    + intros j p' E' J. destruct (Nat.eq_dec i j) as [<-|D]; [exact OI|]. rewrite set_other in E' by exact D. eauto.
    + rewrite OI. intros j [= <-]. exists (Handing e (els s)). split; [eapply set_same; eauto|]. cbn [state_of order handed els]. exists [].
      rewrite L, deliveries_app, registered_app, H. cbn [deliveries registered]. rewrite app_nil_r, <- R, map_map. auto.
    + rewrite OI. discriminate.
  - (* Unlock *) assert (OI := I i _ P Logic.I). injection E as <-. destruct (O i OI) as (q & Q & ST). rewrite P in Q. injection Q as <-. destruct ST as (d & H & R & _). split; cbn [epcs owner els handed order].
    + intros j p' E' J. eapply OTH; eauto.
    + discriminate.
    + intros _. cbn [map] in H. rewrite app_nil_r in H. auto.
  - (* handler *) assert (OI := I i _ P Logic.I). injection E as <-. destruct (O i OI) as (q & Q & ST). rewrite P in Q. injection Q as <-. destruct ST as (d & H & R & D0). split; cbn [epcs owner els handed order].
    + intros j p' E' J. destruct (Nat.eq_dec i j) as [<-|D]; [exact OI|]. rewrite set_other in E' by exact D. eauto.
    + rewrite OI. intros j [= <-]. eexists. split; [eapply set_same; eauto|]. destruct (ne (who x)); [exact Logic.I|]. cbn [state_of order handed els].
      exists (d ++ [x]). rewrite <- !app_assoc. cbn [map app] in *. auto.
    + rewrite OI. discriminate.
Qed.
Lemma erun_inv ne : forall l s s', EINV s -> erun ne s l = Some s' -> EINV s'.
Proof.
  induction l as [|(i, a) l IH]; intros s s' H E; cbn [erun] in E; [injection E as <-; exact H|].
  destruct (estep ne s i a) as [s1|] eqn:E1; [|discriminate]. eapply IH; [|exact E]. eapply estep_inv; eauto.
Qed.

(** However the goroutines interleave, and whatever they call: when nobody has the mutex, exactly those handlers were
    called, in that order, that the calls would have called one after the other; the listeners are those too. *)
Theorem C171_one_order : forall ne n l s, erun ne (etarget0 n) l = Some s -> owner s = None ->
  handed s = deliveries [] (order s) /\ map who (els s) = registered [] (order s).
Proof. intros ne n l s E O. exact (e_out s (erun_inv ne l _ s (einit n) E) O). Qed.
Print Assumptions C171_one_order.
(** While a dispatch runs, what was handed over is the beginning of that, so every listener gets the events in the order
    in which their dispatches got the mutex, and no two dispatches mix. *)
Theorem C171_during : forall ne n l s, erun ne (etarget0 n) l = Some s -> ~ List.In Nested (epcs s) ->
  exists more, handed s ++ more = deliveries [] (order s).
Proof.
  intros ne n l s E NN. pose proof (erun_inv ne l _ s (einit n) E) as [_ O N]. destruct (owner s) as [i|] eqn:OW.
  - destruct (O i eq_refl) as (p & P & ST). destruct p as [|c|c|e r|]; cbn [state_of] in ST; try contradiction.
    + destruct ST as (k & -> & H & _). rewrite deliveries_app, H. eauto.
    + destruct ST as (d & H & _). eauto.
    + exfalso. apply NN. eapply nth_error_In; eauto.
  - destruct (N eq_refl) as (-> & _). exists []. apply app_nil_r.
Qed.
Print Assumptions C171_during.
(** Every call begun has got the mutex once or still waits for it. *)
Lemma pend_set : forall l i p q, nth_error l i = Some p -> Permutation (flat_map pending (set_nth l i q) ++ pending p) (flat_map pending l ++ pending q).
Proof.
  induction l as [|h t IH]; intros [|i] p q E; cbn [nth_error] in E; try discriminate; cbn [set_nth flat_map].
  - injection E as ->. rewrite Permutation_app_comm. rewrite <- (app_assoc (pending p)). apply Permutation_app_head. apply Permutation_app_comm.
  - rewrite <- !app_assoc. apply Permutation_app_head. apply IH. exact E.
Qed.
Theorem C171_each_once : forall ne n l s, erun ne (etarget0 n) l = Some s ->
  Permutation (begun l) (order s ++ flat_map pending (epcs s)).
Proof.
  intros ne n l s E. assert (G : forall l s s', erun ne s l = Some s' -> Permutation (order s ++ flat_map pending (epcs s) ++ begun l) (order s' ++ flat_map pending (epcs s'))).
  { clear. induction l as [|(i, a) l IH]; intros s s' E; cbn [erun] in E; [injection E as <-; cbn; rewrite app_nil_r; reflexivity|].
    destruct (estep ne s i a) as [s1|] eqn:E1; [|discriminate]. rewrite <- (IH s1 s' E). clear IH E. unfold begun. cbn [flat_map snd]. fold (begun l).
    unfold estep in E1. destruct (nth_error (epcs s) i) as [p|] eqn:P; [|discriminate]. pose proof (pend_set (epcs s) i p) as PS.
    destruct p as [|c|[w o|w o|e]|e [|x r]|]; destruct a as [c'|]; try discriminate; try (injection E1 as <-; cbn [order epcs]; specialize (PS Out P); cbn [pending] in PS; rewrite !app_nil_r in PS; rewrite PS; reflexivity).
    - injection E1 as <-. cbn [order epcs]. specialize (PS (Wait c') P). cbn [pending] in PS. rewrite app_nil_r in PS. rewrite PS, <- app_assoc. reflexivity.
    - destruct (owner s); [discriminate|]. injection E1 as <-. cbn [order epcs]. specialize (PS (In c) P). cbn [pending] in PS. rewrite app_nil_r in PS.
      rewrite <- PS, <- !app_assoc. cbn [app]. apply Permutation_app_head. apply Permutation_sym, Permutation_middle.
    - injection E1 as <-. cbn [order epcs]. specialize (PS (Handing e (els s)) P). cbn [pending] in PS. rewrite !app_nil_r in PS. rewrite PS. reflexivity.
    - injection E1 as <-. cbn [order epcs]. specialize (PS (if ne (who x) then Nested else Handing e r) P).
      replace (pending (if ne (who x) then Nested else Handing e r)) with (@nil call) in PS by (destruct (ne (who x)); reflexivity). cbn [pending] in PS. rewrite !app_nil_r in PS. rewrite PS. reflexivity. }
  specialize (G l _ s E). cbn [etarget0 order epcs app] in G. replace (flat_map pending (repeat Out n)) with (@nil call) in G by (clear; induction n; cbn; auto). exact G.
Qed.
Print Assumptions C171_each_once.

(** With handlers that do not call the target, some call can always go on, and all calls come back after at most
    [work] steps if no new ones begin. *)
Theorem C171_progress_partial : forall n l s, erun (fun _ => false) (etarget0 n) l = Some s -> Exists (fun p => p <> Out) (epcs s) ->
  exists i s', estep (fun _ => false) s i Go = Some s'.
Proof.
  intros n l s E X.
  assert (NN : forall l s s', erun (fun _ => false) s l = Some s' -> ~ List.In Nested (epcs s) -> ~ List.In Nested (epcs s')).
  { clear. induction l as [|(i, a) l IH]; intros s s' E H; cbn [erun] in E; [injection E as <-; exact H|].
    destruct (estep (fun _ => false) s i a) as [s1|] eqn:E1; [|discriminate]. apply (IH s1 s' E). clear IH E. unfold estep in E1. destruct (nth_error (epcs s) i) as [p|] eqn:P; [|discriminate].
    assert (SN : forall q, q <> Nested -> ~ List.In Nested (set_nth (epcs s) i q)).
    { intros q Q IN. apply In_nth_error in IN. destruct IN as (j & J). destruct (Nat.eq_dec i j) as [<-|D]; [rewrite (set_same _ _ _ _ P) in J; congruence|]. rewrite set_other in J by exact D. apply H. eapply nth_error_In; eauto. }
    destruct p as [|c|[w o|w o|e]|e [|x r]|]; destruct a as [c'|]; try discriminate; try (destruct (owner s); [discriminate|]); injection E1 as <-; cbn [epcs]; apply SN; discriminate. }
  assert (N0 : ~ List.In Nested (epcs s)). { apply (NN l _ s E). cbn [etarget0 epcs]. intros IN. apply repeat_spec in IN. discriminate. }
  pose proof (erun_inv _ l _ s (einit n) E) as [I O N]. destruct (owner s) as [i|] eqn:OW.
  - destruct (O i eq_refl) as (p & P & ST). exists i. unfold estep. rewrite P. destruct p as [|c|[w o|w o|e]|e [|x r]|]; cbn [state_of] in ST; try contradiction; try (eexists; reflexivity).
    exfalso. apply N0. eapply nth_error_In; eauto.
  - apply Exists_exists in X. destruct X as (p & IN & NP). apply In_nth_error in IN. destruct IN as (i & P).
    assert (NI : ~ inside p) by (intros J; discriminate (I i p P J)). destruct p as [|c|c|e r|]; cbn [inside] in NI; try tauto.
    exists i. unfold estep. rewrite P, OW. eexists. reflexivity.
Qed.
Print Assumptions C171_progress_partial.

Definition adding (p : epc) : nat := match p with Wait (CAdd _ _) | In (CAdd _ _) => 1 | _ => 0 end.
Fixpoint nsum (f : epc -> nat) (l : list epc) : nat := match l with [] => 0 | p :: t => f p + nsum f t end.
(** No dispatch calls more handlers than there are listeners now and being added. *)
Definition most (s : etarget) : nat := length (els s) + nsum adding (epcs s).
Definition left_ (m : nat) (p : epc) : nat := match p with Out | Nested => 0 | Wait _ => m + 3 | In _ => m + 2 | Handing _ r => length r + 1 end.
Definition work (s : etarget) : nat := nsum (left_ (most s)) (epcs s).
Lemma nsum_set f : forall l i p q, nth_error l i = Some p -> (nsum f (set_nth l i q) + f p = nsum f l + f q)%nat.
Proof.
  induction l as [|h t IH]; intros [|i] p q E; cbn [nth_error] in E; try discriminate; cbn [set_nth nsum]; [injection E as ->; lia|]. specialize (IH i p q E). lia.
Qed.
Lemma nsum_mono m m' : (m <= m')%nat -> forall l, (nsum (left_ m) l <= nsum (left_ m') l)%nat.
Proof. intros H. induction l as [|p l IH]; cbn [nsum]; [lia|]. destruct p; cbn [left_]; lia. Qed.
Lemma remove_shorter w l : (length (remove_loop w l 0 (length l)) <= length l)%nat.
Proof.
  rewrite <- (map_length who (remove_loop _ _ _ _)), remove_spec, <- (map_length who l). generalize (map who l). clear. induction l as [|x l IH]; [reflexivity|]. cbn [remove_first length]. destruct (Nat.eqb x w); cbn [length]; lia.
Qed.
Lemma work_step ne s i s' : estep ne s i Go = Some s' -> (work s' < work s)%nat.
Proof.
  intros E. unfold estep in E. destruct (nth_error (epcs s) i) as [p|] eqn:P; [|discriminate].
  assert (S1 := fun q => nsum_set adding (epcs s) i p q P). assert (S2 := fun q m => nsum_set (left_ m) (epcs s) i p q P).
  destruct p as [|c|[w o|w o|e]|e [|x r]|]; try discriminate; try (destruct (owner s); [discriminate|]); injection E as <-; unfold work, most; cbn [epcs els].
  - specialize (S1 (In c)). replace (adding (In c)) with (adding (Wait c)) in S1 by reflexivity. replace (nsum adding (set_nth (epcs s) i (In c))) with (nsum adding (epcs s)) by lia.
    specialize (S2 (In c) (length (els s) + nsum adding (epcs s))%nat). cbn [left_] in S2. lia.
  - specialize (S1 Out). cbn [adding] in S1. rewrite app_length. cbn [length]. replace (length (els s) + 1 + nsum adding (set_nth (epcs s) i Out))%nat with (length (els s) + nsum adding (epcs s))%nat by lia.
    specialize (S2 Out (length (els s) + nsum adding (epcs s))%nat). cbn [left_] in S2. lia.
  - specialize (S1 Out). cbn [adding] in S1. pose proof (remove_shorter w (els s)).
    pose proof (nsum_mono (length (remove_loop w (els s) 0 (length (els s))) + nsum adding (set_nth (epcs s) i Out)) (length (els s) + nsum adding (epcs s)) ltac:(lia) (set_nth (epcs s) i Out)).
    specialize (S2 Out (length (els s) + nsum adding (epcs s))%nat). cbn [left_] in S2. lia.
  - specialize (S1 (Handing e (els s))). cbn [adding] in S1. replace (nsum adding (set_nth (epcs s) i (Handing e (els s)))) with (nsum adding (epcs s)) by lia.
    specialize (S2 (Handing e (els s)) (length (els s) + nsum adding (epcs s))%nat). cbn [left_] in S2. lia.
  - specialize (S1 Out). cbn [adding] in S1. replace (nsum adding (set_nth (epcs s) i Out)) with (nsum adding (epcs s)) by lia.
    specialize (S2 Out (length (els s) + nsum adding (epcs s))%nat). cbn [left_ length] in S2. lia.
  - specialize (S1 (if ne (who x) then Nested else Handing e r)). replace (adding (if ne (who x) then Nested else Handing e r)) with 0%nat in S1 by (destruct (ne (who x)); reflexivity). cbn [adding] in S1.
    replace (nsum adding (set_nth (epcs s) i (if ne (who x) then Nested else Handing e r))) with (nsum adding (epcs s)) by lia.
    specialize (S2 (if ne (who x) then Nested else Handing e r) (length (els s) + nsum adding (epcs s))%nat). cbn [left_ length] in S2. destruct (ne (who x)); cbn [left_] in S2; lia.
Qed.
Theorem C171_ends_partial : forall ne l s s', Forall (fun x => snd x = Go) l -> erun ne s l = Some s' -> (length l <= work s)%nat.
Proof.
  induction l as [|(i, a) l IH]; intros s s' F E; [cbn; lia|]. inversion F as [|x y F1 F2]; subst. cbn [snd] in F1. subst a. cbn [erun] in E.
  destruct (estep ne s i Go) as [s1|] eqn:E1; [|discriminate]. pose proof (work_step ne s i s1 E1). pose proof (IH s1 s' F2 E). cbn [length]. lia.
Qed.
Print Assumptions C171_ends_partial.
(** A handler that calls the target stops it for everybody: from then on no handler of any event is called, no listener is
    added or removed, and no call begun comes back. *)
Theorem C171_nested_refuted : forall ne n l s i, erun ne (etarget0 n) l = Some s -> nth_error (epcs s) i = Some Nested ->
  forall more s', erun ne s more = Some s' -> handed s' = handed s /\ els s' = els s /\ order s' = order s /\ owner s' = Some i /\ nth_error (epcs s') i = Some Nested /\
    Forall (fun x => snd x <> Go) more.
Proof.
  intros ne n l s i E P. assert (V := erun_inv ne l _ s (einit n) E). assert (OW := e_in s V i Nested P Logic.I). clear E.
  intros more. revert s V P OW. induction more as [|(j, a) more IH]; intros s V P OW s' E; cbn [erun] in E; [injection E as <-; auto 10|].
  destruct (estep ne s j a) as [s1|] eqn:E1; [|discriminate].
  assert (G : handed s1 = handed s /\ els s1 = els s /\ order s1 = order s /\ owner s1 = Some i /\ nth_error (epcs s1) i = Some Nested /\ a <> Go).
  { clear IH E. unfold estep in E1. destruct (nth_error (epcs s) j) as [p|] eqn:Pj; [|discriminate].
    assert (K : forall q, p = q -> inside q -> j = i) by (intros q <- J; pose proof (e_in s V j p Pj J); congruence).
    destruct p as [|c|c|e r|]; destruct a as [c'|]; try discriminate.
    - injection E1 as <-. cbn [handed els order owner epcs]. rewrite set_other by (intros ->; congruence). repeat split; auto. discriminate.
    - rewrite OW in E1. discriminate.
    - destruct c; discriminate.
    - exfalso. assert (j = i) by (apply (K _ eq_refl); exact Logic.I). subst. congruence.
    - destruct r; discriminate.
    - exfalso. assert (j = i) by (apply (K _ eq_refl); exact Logic.I). subst. congruence. }
  destruct G as (G1 & G2 & G3 & G4 & G5 & G6). destruct (IH s1 (estep_inv ne s j a s1 V E1) G5 G4 s' E) as (H1 & H2 & H3 & H4 & H5 & H6).
  repeat split; try congruence. constructor; auto.
Qed.
Print Assumptions C171_nested_refuted.

Definition op0 : Options := {| Capture := false; Once := false; Passive := false |}.
Definition both : list (nat * eact) :=
  [(0%nat, Begin (CAdd 7 op0)); (0%nat, Go); (0%nat, Go); (1%nat, Begin (CAdd 8 op0)); (0%nat, Begin (CDispatch 1)); (1%nat, Go); (1%nat, Go);
   (1%nat, Begin (CDispatch 2)); (1%nat, Go); (2%nat, Begin (CRemove 7 op0)); (1%nat, Go); (1%nat, Go); (1%nat, Go); (1%nat, Go); (0%nat, Go); (0%nat, Go)].
Example C171_nonvacuous : exists s, erun (fun _ => false) (etarget0 3) both = Some s /\ handed s = [(2%Z, 7%nat); (2%Z, 8%nat)] /\ Exists (fun p => p <> Out) (epcs s) /\ work s = 8%nat /\
  exists s', erun (fun _ => false) s [(0%nat, Go); (0%nat, Go); (0%nat, Go); (2%nat, Go); (2%nat, Go)] = Some s' /\ owner s' = None /\
    handed s' = [(2%Z, 7%nat); (2%Z, 8%nat); (1%Z, 7%nat); (1%Z, 8%nat)] /\ map who (els s') = [8%nat].
Proof.
  eexists. split; [vm_compute; reflexivity|]. split; [reflexivity|]. split; [apply Exists_exists; eexists; split; [left; reflexivity|discriminate]|]. split; [vm_compute; reflexivity|].
  eexists. split; [vm_compute; reflexivity|]. split; [reflexivity|]. split; reflexivity.
Qed.
Example C171_nested_case : exists s, erun (fun w => Nat.eqb w 7) (etarget0 3) (firstn 12 both) = Some s /\ nth_error (epcs s) 1 = Some Nested.
Proof. eexists. split; vm_compute; reflexivity. Qed.
