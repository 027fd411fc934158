(** C57: deadlines of a socket. *)
From Coq Require Import ZifyBool ZifyNat.
From Verif Require Import Go GoFacts SockModel.

Lemma reset_deadlines sk n d : readDeadline (timer_Reset sk n d) = readDeadline sk /\ writeDeadline (timer_Reset sk n d) = writeDeadline sk.
Proof. unfold timer_Reset. destruct (d <? 1); auto. Qed.
Lemma read_effect sk n n2 d : readDeadline (setReadTimeout sk n n2 d) = (if d <? 0 then 0 else n + d) /\ writeDeadline (setReadTimeout sk n n2 d) = writeDeadline sk.
Proof.
  unfold setReadTimeout. destruct (d <? 0); [cbn; destruct (writeDeadline sk =? 0); auto|].
  cbv zeta. destruct (_ <? _); [destruct (reset_deadlines (store_read sk (n + d)) n2 d) as (-> & ->)|]; auto.
Qed.
Lemma write_effect sk n n2 d : writeDeadline (setWriteTimeout sk n n2 d) = n + d /\ readDeadline (setWriteTimeout sk n n2 d) = readDeadline sk.
Proof.
  unfold setWriteTimeout. cbv zeta.
  set (s0 := if d <? 0 then _ else _). assert (H : readDeadline s0 = readDeadline sk) by (unfold s0; destruct (d <? 0); [cbn; destruct (readDeadline sk =? 0)|]; reflexivity). clearbody s0.
  destruct (_ <? _); [destruct (reset_deadlines (store_write s0 (n + d)) n2 d) as (-> & ->)|]; cbn; auto.
Qed.
(** Setting one timeout leaves one of the deadlines alone and sets the other, from any state: but
    the read timeout sets the write deadline, and the write timeout the read deadline. *)
Theorem C57_swapped_refuted : forall sk n n2 d, 0 <= d ->
  readDeadline (SetReadTimeout sk n n2 d) = readDeadline sk /\ writeDeadline (SetReadTimeout sk n n2 d) = n + d /\
  writeDeadline (SetWriteTimeout sk n n2 d) = writeDeadline sk /\ readDeadline (SetWriteTimeout sk n n2 d) = n + d.
Proof.
  intros sk n n2 d H. unfold SetReadTimeout, SetWriteTimeout. destruct (write_effect sk n n2 d) as (-> & ->). destruct (read_effect sk n n2 d) as (-> & ->). replace (d <? 0) with false by lia. auto.
Qed.
Print Assumptions C57_swapped_refuted.
(** Setting both at once does what it says, *)
Theorem C57_both_partial : forall sk n1 n2 n3 n4 d, 0 <= d ->
  writeDeadline (SetTimeout sk n1 n2 n3 n4 d) = n1 + d /\ readDeadline (SetTimeout sk n1 n2 n3 n4 d) = n3 + d.
Proof.
  intros sk n1 n2 n3 n4 d H. unfold SetTimeout. destruct (C57_swapped_refuted (SetReadTimeout sk n1 n2 d) n3 n4 d H) as (_ & _ & -> & ->).
  destruct (C57_swapped_refuted sk n1 n2 d H) as (_ & -> & _). auto.
Qed.
Print Assumptions C57_both_partial.
(** A negative write timeout removes a deadline (the read one) and stops the timer when there is no
    other; *)
Theorem C57_remove_partial : forall sk n n2 d, d < 0 -> readDeadline (SetWriteTimeout sk n n2 d) = 0 /\ writeDeadline (SetWriteTimeout sk n n2 d) = writeDeadline sk /\
  running (SetWriteTimeout sk n n2 d) = if writeDeadline sk =? 0 then false else running sk.
Proof.
  intros sk n n2 d H. unfold SetWriteTimeout. destruct (read_effect sk n n2 d) as (-> & ->). unfold setReadTimeout. replace (d <? 0) with true by lia. cbn. destruct (writeDeadline sk =? 0); auto.
Qed.
Print Assumptions C57_remove_partial.
(** a negative read timeout does not remove any: it sets a deadline that has passed already. *)
Theorem C57_negative_refuted : forall sk n n2 d, d < 0 -> writeDeadline (SetReadTimeout sk n n2 d) = n + d /\ readDeadline (SetReadTimeout sk n n2 d) = readDeadline sk.
Proof. intros sk n n2 d _. apply write_effect. Qed.
Print Assumptions C57_negative_refuted.
(** The timer is moved only to an earlier time: a deadline after the time of a timer that has fired,
    was stopped or never started is not watched. *)
Theorem C57_unwatched_refuted : forall sk n n2 d, 0 <= d -> timer_when sk <= n + d -> running (SetReadTimeout sk n n2 d) = running sk /\ running (SetWriteTimeout sk n n2 d) = running sk.
Proof.
  intros sk n n2 d H W. unfold SetReadTimeout, SetWriteTimeout, setWriteTimeout, setReadTimeout. replace (d <? 0) with false by lia. cbn [timer_when store_read store_write].
  replace (n + d <? timer_when sk) with false by lia. auto.
Qed.
Print Assumptions C57_unwatched_refuted.
(** With both deadlines set, the report is right: *)
Theorem C57_report_partial : forall sk, 0 < readDeadline sk -> 0 < writeDeadline sk ->
  match TimerHandler sk with
  | Some Timeout_Read => readDeadline sk <= timer_when sk
  | Some Timeout_Write => writeDeadline sk <= timer_when sk < readDeadline sk
  | None => timer_when sk < readDeadline sk /\ timer_when sk < writeDeadline sk
  end.
Proof. intros sk R W. unfold TimerHandler. destruct (Z.leb_spec (readDeadline sk) (timer_when sk)); [lia|]. destruct (Z.leb_spec (writeDeadline sk) (timer_when sk)); lia. Qed.
Print Assumptions C57_report_partial.
(** without a read deadline every timeout is reported as one of reading. *)
Theorem C57_report_refuted : forall sk, readDeadline sk = 0 -> 0 <= timer_when sk -> TimerHandler sk = Some Timeout_Read.
Proof. intros sk R W. unfold TimerHandler. rewrite R. replace (0 <=? timer_when sk) with true by lia. reflexivity. Qed.
Print Assumptions C57_report_refuted.
Example C57_nonvacuous : let sk := SetReadTimeout {| readDeadline := 0; writeDeadline := 0; timer_when := 1000; running := true |} 100 101 50 in
  sk = {| readDeadline := 0; writeDeadline := 150; timer_when := 151; running := true |} /\ TimerHandler sk = Some Timeout_Read.
Proof. split; reflexivity. Qed.
Example C57_cases : let sk := {| readDeadline := 300; writeDeadline := 200; timer_when := 250; running := true |} in
  TimerHandler sk = Some Timeout_Write /\ writeDeadline (SetTimeout sk 100 101 102 103 50) = 150 /\ readDeadline (SetTimeout sk 100 101 102 103 50) = 152 /\
  readDeadline (SetWriteTimeout sk 100 101 (-1)) = 0 /\ writeDeadline (SetReadTimeout sk 100 101 (-1)) = 99 /\ running (SetReadTimeout sk 300 301 50) = true.
Proof. repeat split. Qed.
