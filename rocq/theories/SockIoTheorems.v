(** C118 the byte queue; C119 reading and writing through a socket. *)
From Coq Require Import ZifyBool ZifyNat.
From Verif Require Import Go GoFacts SockIoModel.

Lemma head_none l : forall q q', head q = None -> qrun q l = Ok q' -> head q' = None.
Proof.
  induction l as [|o l IH]; intros q q' H R.
  - cbn in R. congruence.
  - cbn [qrun] in R. destruct (qexec q o) as [q1|] eqn:E; [|discriminate]. cbn [bind] in R. apply (IH q1 q'); [|exact R].
    destruct o as [n| |b|b|b a|b]; cbn in E; try (assert (q1 = q) by congruence; subst; exact H).
    + assert (q1 = Init q n) by congruence. subst. exact H.
    + unfold Write in E. rewrite H in E. discriminate.
Qed.
(** C118.  No history makes a queue one can write to: every Write panics. *)
Theorem C118_write_refuted : forall l q b, qrun zero_queue l = Ok q -> Write q b = Panic.
Proof. intros l q b R. unfold Write. now rewrite (head_none l zero_queue q eq_refl R). Qed.
Print Assumptions C118_write_refuted.
(** The operations that do not panic keep nothing: whatever was given to WriteIn or Unmarshal, the
    queue is empty, reads give nothing and leave the reader's bytes as they were. *)
Theorem C118_lost_refuted : forall l q b, qrun zero_queue l = Ok q ->
  Read q b = (0, b) /\ Marshal q = [] /\ SerializationLength q = 0 /\ Full q = false /\
  forallb (fun o => match o with QWrite _ => false | _ => true end) l = true.
Proof.
  intros l q b R. split; [reflexivity|]. split; [reflexivity|].
  enough (G : forall l q0, head q0 = None -> qrun q0 l = Ok q -> totalLen q0 = 0 -> totalLen q = 0 /\ forallb (fun o => match o with QWrite _ => false | _ => true end) l = true).
  { destruct (G l zero_queue eq_refl R eq_refl) as (A & B). repeat split; auto. }
  clear. induction l as [|o l IH]; intros q0 H R T.
  - cbn in R. split; [congruence|reflexivity].
  - cbn [qrun] in R. destruct (qexec q0 o) as [q1|] eqn:E; [|discriminate]. cbn [bind] in R.
    destruct o as [n| |b|b|b a|b]; cbn in E; cbn [forallb andb]; try (assert (q1 = q0) by congruence; subst; eapply IH; eauto).
    + assert (q1 = Init q0 n) by congruence. subst. apply (IH (Init q0 n)); auto.
    + unfold Write in E. rewrite H in E. discriminate.
Qed.
Print Assumptions C118_lost_refuted.
(** The lost bytes are at least not reported as taken. *)
Theorem C118_reports : forall l q b a, qrun zero_queue l = Ok q -> snd (WriteIn q b a) = 0 /\ snd (Unmarshal q b) = 0 /\ fst (WriteIn q b a) = q /\ fst (Unmarshal q b) = q.
Proof. intros l q b a R. repeat split. Qed.
Print Assumptions C118_reports.
(** Even with a first element in place the writes after the second are the only ones kept, and none is
    counted: of three writes the middle one is lost. *)
Theorem C118_overwritten_refuted : forall h t tl c a b, ln h <> 0 ->
  exists q1 q2, Write (Queue (Some h) t tl c) a = Ok (q1, 0) /\ Write q1 b = Ok (q2, 0) /\
  head q2 = Some (Ring (data h) (ln h) (Some (b, zlen b))) /\ SerializationLength q2 = tl.
Proof.
  intros h t tl c a b H. do 2 eexists. unfold Write at 1. cbn [head]. replace (ln h =? 0) with false by lia. split; [reflexivity|].
  unfold Write. cbn [head ln]. replace (ln h =? 0) with false by lia. repeat split.
Qed.
Print Assumptions C118_overwritten_refuted.
Example C118_case : qrun zero_queue [QInit 64; QUnmarshal [1; 2]; QRead [0; 0]] = Ok (Init zero_queue 64) /\
  qrun zero_queue [QInit 64; QWrite [1]] = Panic /\ ln (Ring [1] 1 None) <> 0.
Proof. repeat split. discriminate. Qed.

(** C119.  Writing any bytes to a socket never returns; only writing none does. *)
Theorem C119_write_refuted : forall sk d, (d = [] -> forall fuel, sk_Unmarshal fuel sk d 0 = Some 0) /\
  (d <> [] -> forall fuel, sk_Unmarshal fuel sk d 0 = None).
Proof.
  intros sk d. split; [intros -> [|f]; reflexivity|]. intros H fuel. generalize 0 as n. induction fuel as [|f IH]; intros n.
  - destruct d; [congruence|reflexivity].
  - destruct d as [|x d]; [congruence|]. cbn [sk_Unmarshal]. unfold sendPayload. change (Z.to_nat 0) with 0%nat. cbn [skipn]. apply IH.
Qed.
Print Assumptions C119_write_refuted.
(** UnmarshalFrom says that everything was taken, and takes nothing. *)
Theorem C119_from_refuted : forall sk d, sk_UnmarshalFrom sk d = [].
Proof. reflexivity. Qed.
Print Assumptions C119_from_refuted.
(** A read returns exactly when the stream is reported complete among the states that arrive; every
    other state, a timeout and a close included, is swallowed; *)
Theorem C119_read_partial : forall sk l, sk_chan sk = Some l ->
  (sk_Marshal sk <> None <-> In ReceivedCompletely l) /\
  (forall d sk', sk_Marshal sk = Some (d, sk') -> exists pre post, l = pre ++ ReceivedCompletely :: post /\
     ~ In ReceivedCompletely pre /\ sk_chan sk' = Some post /\ d = []).
Proof.
  intros sk l C.
  assert (K : forall l, (select l <> None <-> In ReceivedCompletely l) /\ forall r, select l = Some r -> exists pre, l = pre ++ ReceivedCompletely :: r /\ ~ In ReceivedCompletely pre).
  { clear. induction l as [|s l (IH1 & IH2)].
    - split; [split; [intros N; now destruct N|intros []]|discriminate].
    - destruct s; cbn [select].
      + split; [split; [now left|discriminate]|]. intros r H. assert (r = l) by congruence. subst. exists []. split; [reflexivity|intros []].
      + split; [rewrite IH1; split; [now right|intros [H|H]; [discriminate|exact H]]|]. intros r H. destruct (IH2 r H) as (pre & -> & N). exists (Timeout :: pre). split; [reflexivity|]. intros [Q|Q]; [discriminate|auto].
      + split; [rewrite IH1; split; [now right|intros [H|H]; [discriminate|exact H]]|]. intros r H. destruct (IH2 r H) as (pre & -> & N). exists (Closed :: pre). split; [reflexivity|]. intros [Q|Q]; [discriminate|auto].
      + split; [rewrite IH1; split; [now right|intros [H|H]; [discriminate|exact H]]|]. intros r H. destruct (IH2 r H) as (pre & -> & N). exists (OtherState n :: pre). split; [reflexivity|]. intros [Q|Q]; [discriminate|auto]. }
  destruct (K l) as (K1 & K2). unfold sk_Marshal, Full, blockInSelect. rewrite C. split.
  - rewrite <- K1. destruct (select l); split; intros H; try discriminate; contradiction.
  - intros d sk' H. destruct (select l) as [r|] eqn:E; [|discriminate]. destruct (K2 r eq_refl) as (pre & P & N).
    exists pre, r. pose proof (f_equal (fun o => match o with Some v => v | None => (d, sk') end) H) as Q. cbv beta iota in Q.
    pose proof (f_equal fst Q) as Q1. pose proof (f_equal snd Q) as Q2. cbn [fst snd] in Q1, Q2. subst d sk'. cbn [sk_chan]. auto.
Qed.
Print Assumptions C119_read_partial.
(** so a read of a stream that is closed or times out before it is complete never returns, *)
Theorem C119_closed_refuted : forall sk l, sk_chan sk = Some l -> ~ In ReceivedCompletely l -> sk_Marshal sk = None.
Proof.
  intros sk l C N. destruct (sk_Marshal sk) eqn:E; [|reflexivity]. exfalso. apply N. apply (proj1 (C119_read_partial sk l C)). rewrite E. discriminate.
Qed.
Print Assumptions C119_closed_refuted.
(** and on a socket as Init leaves it neither does any read, nor any change of its status. *)
Theorem C119_new_refuted : forall n s, sk_Marshal (new_socket n) = None /\ snd (SetStatus (new_socket n) s) = None /\
  sk_Marshal (fst (SetStatus (new_socket n) s)) = None.
Proof. repeat split. Qed.
Print Assumptions C119_new_refuted.
Example C119_case : sk_Marshal (Socket None (Some [Timeout; ReceivedCompletely; Closed]) zero_queue) = Some ([], Socket None (Some [Closed]) zero_queue) /\
  sk_Marshal (Socket None (Some [Timeout; Closed]) zero_queue) = None.
Proof. split; reflexivity. Qed.
