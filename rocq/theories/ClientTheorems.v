(** C131 HTTP requests of a client; C132 remote calls; C133 the standard net.Conn. *)
From Coq Require Import ZifyBool ZifyNat.
From Verif Require Import Go GoFacts SockModel ClientModel ClientSpec.

(** * HTTP *)
Lemma wait_end {A} (final : state -> option A) : forall pre post s a k b, Forall (fun x => final x = None) pre -> final s = Some a -> (length pre < k)%nat ->
  http_wait k final (Chan (pre ++ s :: post) b) = Returned a.
Proof.
  induction pre as [|x pre IH]; intros post s a k b F H L; destruct k as [|k]; try (cbn [length] in L; lia); cbn [http_wait recv values closes app].
  - now rewrite H.
  - inversion F as [|? ? Fx Fr]. rewrite Fx. apply IH; auto. cbn [length] in L. lia.
Qed.
Lemma wait_never {A} (final : state -> option A) : final (OtherState 0) = None -> forall k l b, Forall (fun x => final x = None) l ->
  http_wait k final (Chan l b) = if (k <=? length l)%nat then Running else if b then Running else Waits.
Proof.
  intros Z0. induction k as [|k IH]; intros l b F; [reflexivity|]. cbn [http_wait]. destruct l as [|x l]; cbn [recv values closes length].
  - destruct b; cbn [Nat.leb]; [|reflexivity]. rewrite Z0, IH by constructor. cbn [length]. destruct (Nat.leb k 0); reflexivity.
  - inversion F as [|? ? Fx Fr]. rewrite Fx, IH by auto. cbn [Nat.leb]. reflexivity.
Qed.
Lemma not_over_two (R E : Type) (a : reply R E) (f : reply R E) s : ~ over_two s -> match s with Timeout => Some a | ReceivedCompletely => Some f | _ => None end = None.
Proof. unfold over_two. destruct s; auto; intros H; destruct H; auto. Qed.
Lemma not_over_one {A} (a : A) s : ~ over_one s -> match s with Timeout | SentCompletely => Some a | _ => None end = None.
Proof. unfold over_one. destruct s; auto; intros H; destruct H; auto. Qed.
(** C131.  Once the answer has come, before any time-out, the call returns the decoded response, with the
    error of decoding or else the one the response carries, and has closed the stream once. *)
Theorem C131_answer : forall (R E : Type) (st : stream R E), open st = None -> encode st = None ->
  first_end over_two (values (state_ st)) ReceivedCompletely ->
  exists n, forall k, (n <= k)%nat -> http_bidirectional k st = Returned (Reply (Some (fst (decode st))) (match snd (decode st) with Some e => Some e | None => get_error st (fst (decode st)) end) 1).
Proof.
  intros R E st O C (pre & post & L & _ & F). exists (S (length pre)). intros k K. unfold http_bidirectional. rewrite O, C.
  destruct (state_ st) as [l b] eqn:S0. cbn [values] in L. subst l. destruct (decode st) as (r, e) eqn:D. cbn [fst snd]. rewrite (wait_end _ pre post ReceivedCompletely (Reply (Some r) (match e with None => get_error st r | Some e => Some e end) 1) k b); [destruct e; reflexivity| |reflexivity|lia].
  eapply Forall_impl; [|exact F]. intros s N. cbv beta. now apply not_over_two.
Qed.
Print Assumptions C131_answer.
(** C131, refuted: when time is up first, the call returns neither a response nor an error; *)
Theorem C131_timeout_refuted : forall (R E : Type) (st : stream R E), open st = None -> encode st = None -> first_end over_two (values (state_ st)) Timeout ->
  exists n, forall k, (n <= k)%nat -> http_bidirectional k st = Returned (Reply None None 1).
Proof.
  intros R E st O C (pre & post & L & _ & F). exists (S (length pre)). intros k K. unfold http_bidirectional. rewrite O, C.
  destruct (state_ st) as [l b] eqn:S0. cbn [values] in L. subst l. destruct (decode st) as (r, e). apply wait_end; [|reflexivity|lia].
  eapply Forall_impl; [|exact F]. intros s N. cbv beta. now apply not_over_two.
Qed.
Print Assumptions C131_timeout_refuted.
(** and without waiting for an answer, a request that timed out looks like one that was sent. *)
Theorem C131_sent_refuted : forall (R E : Type) (st : stream R E) s, open st = None -> encode st = None -> first_end over_one (values (state_ st)) s ->
  exists n, forall k, (n <= k)%nat -> http_unidirectional k st = Returned (Reply None None 1).
Proof.
  intros R E st s O C (pre & post & L & V & F). exists (S (length pre)). intros k K. unfold http_unidirectional. rewrite O, C.
  destruct (state_ st) as [l b] eqn:S0. cbn [values] in L. subst l. apply (wait_end _ pre post s); [|destruct V as [-> | ->]; reflexivity|lia].
  eapply Forall_impl; [|exact F]. intros x N. cbv beta. now apply not_over_one.
Qed.
Print Assumptions C131_sent_refuted.
(** C131.  If neither ever happens the call never returns: it waits, and on a closed channel it turns for
    ever. *)
Theorem C131_never : forall (R E : Type) (st : stream R E), open st = None -> encode st = None -> Forall (fun s => ~ over_two s) (values (state_ st)) ->
  (forall k r, http_bidirectional k st <> Returned r) /\ (closes (state_ st) = true -> forall k, http_bidirectional k st = Running).
Proof.
  intros R E st O C F. unfold http_bidirectional. rewrite O, C. destruct (state_ st) as [l b]. cbn [values closes] in *. destruct (decode st) as (r, e).
  assert (G : Forall (fun x => match x with Timeout => Some (Reply None None 1) | ReceivedCompletely => Some (Reply (Some r) (match e with None => get_error st r | Some e => Some e end) 1) | _ => @None (reply R E) end = None) l).
  { eapply Forall_impl; [|exact F]. intros s N. cbv beta. now apply not_over_two. }
  split.
  - intros k q. rewrite wait_never by auto. destruct (k <=? length l)%nat; [discriminate|]. destruct b; discriminate.
  - intros -> k. rewrite wait_never by auto. now destruct (k <=? length l)%nat.
Qed.
Print Assumptions C131_never.
(** C131, refuted: a request that could not be sent leaves its stream open. *)
Theorem C131_left_open_refuted : forall (R E : Type) (st : stream R E) e k, open st = None -> encode st = Some e ->
  http_bidirectional k st = Returned (Reply None (Some e) 0) /\ http_unidirectional k st = Returned (Reply None (Some e) 0).
Proof. intros R E st e k O C. unfold http_bidirectional, http_unidirectional. rewrite O, C. split; reflexivity. Qed.
Print Assumptions C131_left_open_refuted.
Theorem C131_no_stream : forall (R E : Type) (st : stream R E) e k, open st = Some e ->
  http_bidirectional k st = Returned (Reply None (Some e) 0) /\ http_unidirectional k st = Returned (Reply None (Some e) 0).
Proof. intros R E st e k O. unfold http_bidirectional, http_unidirectional. rewrite O. split; reflexivity. Qed.
Print Assumptions C131_no_stream.
Definition case_stream (l : list state) : stream Z Z := Stream None None (200, None) (fun r => if r =? 200 then None else Some r) (Chan l true).
Example C131_case : first_end over_two (values (state_ (case_stream [SentCompletely; ReceivedCompletely; Timeout]))) ReceivedCompletely /\
  http_bidirectional 2 (case_stream [SentCompletely; ReceivedCompletely; Timeout]) = Returned (Reply (Some 200) None 1) /\
  first_end over_two (values (state_ (case_stream [Timeout]))) Timeout /\ Forall (fun s => ~ over_two s) (values (state_ (case_stream [SentCompletely]))).
Proof.
  split; [exists [SentCompletely], [Timeout]; split; [reflexivity|]; split; [right; reflexivity|]; constructor; [|constructor]; intros [H | H]; discriminate|].
  split; [reflexivity|]. split; [exists [], []; split; [reflexivity|]; split; [left; reflexivity|constructor]|]. constructor; [intros [H | H]; discriminate|constructor].
Qed.

(** * sRPC *)
Lemma range_end {A} (final : state -> option A) : forall pre post s a b, Forall (fun x => final x = None) pre -> final s = Some a -> srpc_range final (pre ++ s :: post) b = Returned (Some a).
Proof. induction pre as [|x pre IH]; intros post s a b F H; cbn [srpc_range app]; [now rewrite H|]. inversion F as [|? ? Fx Fr]. rewrite Fx. apply IH; auto. Qed.
Lemma range_never {A} (final : state -> option A) : forall l b, Forall (fun x => final x = None) l -> srpc_range final l b = if b then Returned None else Waits.
Proof. induction l as [|x l IH]; intros b F; cbn [srpc_range]; [reflexivity|]. inversion F as [|? ? Fx Fr]. rewrite Fx. apply IH; auto. Qed.
Lemma not_over_rpc {A} (a f : A) s : ~ over_two s -> match s with Timeout => Some a | ReceivedCompletely => Some f | _ => None end = None.
Proof. unfold over_two. destruct s; auto; intros H; destruct H; auto. Qed.
(** C132.  Once the answer has come, the caller gets the socket and the error it carries. *)
Theorem C132_answer : forall (E : Type) (sk : rpc E), send sk = None -> first_end over_two (values (rpc_state sk)) ReceivedCompletely ->
  rpc_bidirectional sk = Returned (true, app_error sk).
Proof.
  intros E sk O (pre & post & L & _ & F). unfold rpc_bidirectional. rewrite O, L.
  rewrite (range_end _ pre post ReceivedCompletely (true, app_error sk)); [reflexivity| |reflexivity]. eapply Forall_impl; [|exact F]. intros x N. cbv beta. now apply not_over_rpc.
Qed.
Print Assumptions C132_answer.
(** C132, refuted: when time is up first, or the connection ends before, there is neither an answer nor an
    error. *)
Theorem C132_timeout_refuted : forall (E : Type) (sk : rpc E), send sk = None ->
  first_end over_two (values (rpc_state sk)) Timeout \/ (Forall (fun s => ~ over_two s) (values (rpc_state sk)) /\ closes (rpc_state sk) = true) ->
  rpc_bidirectional sk = Returned (false, None).
Proof.
  intros E sk O H. unfold rpc_bidirectional. rewrite O. destruct H as [(pre & post & L & _ & F)|(F & B)].
  - rewrite L, (range_end _ pre post Timeout (false, None)); [reflexivity| |reflexivity]. eapply Forall_impl; [|exact F]. intros x N. cbv beta. now apply not_over_rpc.
  - rewrite B, range_never; [reflexivity|]. eapply Forall_impl; [|exact F]. intros x N. cbv beta. now apply not_over_rpc.
Qed.
Print Assumptions C132_timeout_refuted.
(** C132.  It waits for ever only if the channel stays open and the exchange is never over. *)
Theorem C132_waits : forall (E : Type) (sk : rpc E), rpc_bidirectional sk = Waits <->
  send sk = None /\ Forall (fun s => ~ over_two s) (values (rpc_state sk)) /\ closes (rpc_state sk) = false.
Proof.
  intros E sk. unfold rpc_bidirectional. destruct (send sk) as [e|]; [split; [discriminate|intros (H & _); discriminate]|].
  generalize (values (rpc_state sk)) as l. generalize (closes (rpc_state sk)) as b. intros b l. induction l as [|x l IH]; cbn [srpc_range].
  - destruct b; split; intros H; try discriminate; try (destruct H as (_ & _ & H); discriminate); auto.
  - destruct x; cbn [srpc_range] in *; try (split; [discriminate|intros (_ & F & _); inversion F as [|? ? N _]; destruct N; unfold over_two; auto]).
    + rewrite IH. split; intros (A & F & B); repeat split; auto; [constructor; [intros [H | H]; discriminate|auto]|now inversion F].
    + rewrite IH. split; intros (A & F & B); repeat split; auto; [constructor; [intros [H | H]; discriminate|auto]|now inversion F].
Qed.
Print Assumptions C132_waits.
(** C132, refuted: a call that expects no answer gives no error whatever ends it. *)
Theorem C132_sent_refuted : forall (E : Type) (sk : rpc E) r, send sk = None -> rpc_unidirectional sk = Returned r -> r = None.
Proof. intros E sk r O H. unfold rpc_unidirectional in H. rewrite O in H. destruct (srpc_range _ _ _) in H; congruence. Qed.
Print Assumptions C132_sent_refuted.
(** C132.  A request that could not be sent gives the error and no socket; *)
Theorem C132_unsent : forall (E : Type) (sk : rpc E) e, send sk = Some e -> rpc_bidirectional sk = Returned (false, Some e) /\ rpc_unidirectional sk = Returned (Some e).
Proof. intros E sk e H. unfold rpc_bidirectional, rpc_unidirectional. rewrite H. auto. Qed.
Print Assumptions C132_unsent.
(** one that expects no answer waits for ever only if the channel stays open and it is never sent nor time
    up. *)
Theorem C132_one_waits : forall (E : Type) (sk : rpc E), rpc_unidirectional sk = Waits <->
  send sk = None /\ Forall (fun s => ~ over_one s) (values (rpc_state sk)) /\ closes (rpc_state sk) = false.
Proof.
  intros E sk. unfold rpc_unidirectional. destruct (send sk) as [e|]; [split; [discriminate|intros (H & _); discriminate]|].
  generalize (values (rpc_state sk)) as l. generalize (closes (rpc_state sk)) as b. intros b l. induction l as [|x l IH]; cbn [srpc_range].
  - destruct b; split; intros H; try discriminate; try (destruct H as (_ & _ & H); discriminate); auto.
  - destruct x; cbn [srpc_range] in *; try (split; [discriminate|intros (_ & F & _); inversion F as [|? ? N _]; destruct N; unfold over_one; auto]).
    + rewrite IH. split; intros (A & F & B); repeat split; auto; [constructor; [intros [H | H]; discriminate|auto]|now inversion F].
    + rewrite IH. split; intros (A & F & B); repeat split; auto; [constructor; [intros [H | H]; discriminate|auto]|now inversion F].
Qed.
Print Assumptions C132_one_waits.
(** C132.  The server answers with what its service gives; without one, or with one that is not for sRPC,
    the caller is never told (refuted: it gets an error). *)
Theorem C132_serves : forall (R E : Type) (r : R) (e : E), HandleIncomeRequest (Serves (inl r)) = (@None E, ToldResponse r) /\ HandleIncomeRequest (Serves (inr e)) = (Some e, @ToldError R E e).
Proof. intros. split; reflexivity. Qed.
Print Assumptions C132_serves.
Theorem C132_silent_refuted : forall (R E : Type) (s : svc R E), HandleIncomeRequest s = (None, Silence) <-> s = NoService \/ s = NotRPC.
Proof. intros R E s. destruct s as [| |[r|e]]; cbn [HandleIncomeRequest]; split; intros H; auto; try discriminate; destruct H; discriminate. Qed.
Print Assumptions C132_silent_refuted.
Example C132_case : rpc_bidirectional (Rpc (@None Z) (Some 7) (Chan [OtherState 5; ReceivedCompletely] false)) = Returned (true, Some 7) /\
  rpc_bidirectional (Rpc (@None Z) (Some 7) (Chan [OtherState 5] true)) = Returned (false, None) /\ rpc_bidirectional (Rpc (@None Z) None (Chan [SentCompletely] false)) = Waits.
Proof. repeat split. Qed.

(** * net.Conn *)
(** C133, refuted: Close never returns. *)
Theorem C133_close_refuted : forall k, std_Close k = Running.
Proof. induction k; auto. Qed.
Print Assumptions C133_close_refuted.
(** C133.  A deadline in the future, set for both directions while the clock stands still, is the deadline
    of both. *)
Theorem C133_deadline_partial : forall sk t now, now < t -> let sk' := SetDeadline sk (Some t) now now now now now in readDeadline sk' = t /\ writeDeadline sk' = t.
Proof.
  intros sk t now H. cbv zeta. unfold SetDeadline, untilTo. replace (t - now =? 0) with false by lia.
  unfold SetTimeout, SetWriteTimeout, SetReadTimeout, setReadTimeout, setWriteTimeout. replace (t - now <? 0) with false by lia. replace (now + (t - now)) with t by lia.
  unfold timer_Reset, store_read, store_write. replace (t - now <? 1) with false by lia.
  destruct (t <? timer_when _); cbn [readDeadline writeDeadline timer_when]; destruct (t <? _); cbn [readDeadline writeDeadline]; auto.
Qed.
Print Assumptions C133_deadline_partial.
(** C133, refuted: a deadline for reading changes the one for writing only, and the other way round (for
    a deadline in the future); *)
Theorem C133_swapped_refuted : forall sk t now, now < t ->
  (let sk' := SetReadDeadline sk (Some t) now now now in readDeadline sk' = readDeadline sk /\ writeDeadline sk' = t) /\
  (let sk' := SetWriteDeadline sk (Some t) now now now in readDeadline sk' = t /\ writeDeadline sk' = writeDeadline sk).
Proof.
  intros sk t now H. cbv zeta. unfold SetReadDeadline, SetWriteDeadline, untilTo. replace (t - now =? 0) with false by lia.
  unfold SetWriteTimeout, SetReadTimeout, setReadTimeout, setWriteTimeout. replace (t - now <? 0) with false by lia. replace (now + (t - now)) with t by lia.
  unfold timer_Reset, store_read, store_write. replace (t - now <? 1) with false by lia. split; cbn [timer_when]; destruct (t <? _); auto.
Qed.
Print Assumptions C133_swapped_refuted.
(** the zero time, which should remove the deadline, sets it to the present; *)
Theorem C133_zero_refuted : forall sk n0 n1 n2 n3 n4, let sk' := SetDeadline sk None n0 n1 n2 n3 n4 in readDeadline sk' = n3 /\ writeDeadline sk' = n1.
Proof.
  intros sk n0 n1 n2 n3 n4. cbv zeta. unfold SetDeadline, untilTo, SetTimeout, SetWriteTimeout, SetReadTimeout, setReadTimeout, setWriteTimeout. change (0 <? 0) with false. cbv iota.
  unfold timer_Reset, store_read, store_write. change (0 <? 1) with true. cbv iota. rewrite !Z.add_0_r.
  destruct (n1 <? timer_when _); cbn [readDeadline writeDeadline timer_when]; destruct (n3 <? _); cbn [readDeadline writeDeadline]; auto.
Qed.
Print Assumptions C133_zero_refuted.
(** and a deadline that has passed removes the one for reading instead of ending the call. *)
Theorem C133_past_refuted : forall sk t n0 n1 n2 n3 n4, t <= n0 -> readDeadline (SetDeadline sk (Some t) n0 n1 n2 n3 n4) = 0.
Proof.
  intros sk t n0 n1 n2 n3 n4 H. unfold SetDeadline, SetTimeout, SetWriteTimeout. set (s := SetReadTimeout _ _ _ _). unfold setReadTimeout.
  assert (D : untilTo (Some t) n0 < 0) by (unfold untilTo; destruct (Z.eqb_spec (t - n0) 0); lia). replace (untilTo (Some t) n0 <? 0) with true by lia.
  destruct (writeDeadline _ =? 0); reflexivity.
Qed.
Print Assumptions C133_past_refuted.
(** C133, refuted: ReadFrom takes nothing from its reader, whatever it holds, and a failed Marshal writes
    nothing and reports success. *)
Theorem C133_io_refuted : forall input, std_ReadFrom input = ([], 0) /\ std_WriteTo None = ([], 0) /\ forall d, std_WriteTo (Some d) = (d, zlen d).
Proof. intros. repeat split. Qed.
Print Assumptions C133_io_refuted.
Definition case_sock : Socket := {| readDeadline := 5; writeDeadline := 6; timer_when := 6; running := true |}.
Example C133_case : SetDeadline case_sock (Some 300) 100 100 100 100 100 = {| readDeadline := 300; writeDeadline := 300; timer_when := 6; running := true |} /\
  readDeadline (SetDeadline case_sock (Some 50) 100 101 102 103 104) = 0.
Proof. split; reflexivity. Qed.
