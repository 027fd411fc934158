(** C113 log events; C114 the panic handler. *)
From Coq Require Import ZifyBool ZifyNat String.
From Verif Require Import Go GoFacts LogModel LogSpec.
Import ListNotations.
Local Open Scope Z_scope.
Local Open Scope list_scope.

Lemma call_calm e l : forall g i, (forall f, In f l -> forall e, f e = None) ->
  call_all g i l e = (None, Logger (held g) (listeners g) (given g ++ map (fun i => (i, e)) (seq i (length l)))).
Proof.
  induction l as [|f l IH]; intros g i C.
  - cbn. rewrite app_nil_r. now destruct g.
  - cbn [call_all]. rewrite (C f (or_introl eq_refl)). rewrite IH by (intros; apply C; now right). cbn [held listeners given].
    now rewrite <- app_assoc.
Qed.
Lemma dispatch_calm g e : calm g -> DispatchEvent g e = Return (Logger false (listeners g) (given g ++ round (length (listeners g)) e)).
Proof. intros (H & C). unfold DispatchEvent. rewrite H. rewrite call_calm by auto. reflexivity. Qed.

(** C113.  A log call gives every listener, in the order they were added, one event with the domain,
    the level and the text of the call. *)
Theorem C113_log_partial : forall g h dt msg, calm g -> exists e,
  log g h dt msg = Return (Logger false (listeners g) (given g ++ round (length (listeners g)) e)) /\
  e_domain e = dt /\ e_message e = msg /\
  e_level e = match h with
    | HTrace l => l | HInfo => level_value Information | HNotice => level_value Notice | HError => level_value Error
    | HDebug => level_value Debug | HDeepDebug => level_value DeepDebug | HWarn => level_value Warning
    | HFatal => level_value Fatal | HConf => level_value Confidential end /\
  (e_stack e = true <-> match h with HTrace _ | HError | HDeepDebug | HFatal => True | _ => False end).
Proof.
  intros g h dt msg C. exists (helper_event h dt msg). unfold log. rewrite dispatch_calm by auto. split; [reflexivity|].
  destruct h; cbn; repeat split; auto; try discriminate; tauto.
Qed.
Print Assumptions C113_log_partial.
(** A whole run of log calls: the events arrive complete and in order. *)
Theorem C113_run_partial : forall (l : list (helper * Z * bytes)) g, calm g ->
  body g (map (fun '(h, dt, m) => SLog h dt m) l) =
  Return (Logger false (listeners g) (given g ++ flat_map (fun '(h, dt, m) => round (length (listeners g)) (helper_event h dt m)) l)).
Proof.
  induction l as [|[[h dt] m] l IH]; intros g C.
  - cbn. rewrite app_nil_r. destruct g, C as (H & _). cbn in *. now subst.
  - cbn [map body flat_map]. unfold log. rewrite dispatch_calm by auto. rewrite IH.
    + cbn [listeners given]. now rewrite <- app_assoc.
    + destruct C. split; auto.
Qed.
Print Assumptions C113_run_partial.
(** Listeners may be added in between: each is given, complete and in order, what is logged after it
    was added. *)
Definition added (l : list stmt) : list listener := flat_map (fun s => match s with SListen f => [f] | _ => [] end) l.
Fixpoint seen (n : nat) (l : list stmt) : list (nat * event) :=
  match l with
  | [] => []
  | SLog h dt m :: l => round n (helper_event h dt m) ++ seen n l
  | SListen _ :: l => seen (S n) l
  | SPanic _ :: l => seen n l
  end.
Theorem C113_listen_partial : forall l g, calm g -> Forall (fun s => match s with SLog _ _ _ => True | SListen f => forall e, f e = None | SPanic _ => False end) l ->
  body g l = Return (Logger false (listeners g ++ added l) (given g ++ seen (length (listeners g)) l)).
Proof.
  induction l as [|s l IH]; intros g C F.
  - cbn. rewrite !app_nil_r. destruct g, C as (H & _). cbn in *. now subst.
  - inversion F as [|? ? Fs Fl]; subst. cbn [body added flat_map seen]. fold (added l). destruct s as [h dt m|f|p]; [| |destruct Fs].
    + unfold log. rewrite dispatch_calm by auto. rewrite IH; [cbn [listeners given app]; now rewrite <- app_assoc|destruct C; split; auto|exact Fl].
    + unfold AddEventListener. destruct C as [Ch Cl]. rewrite Ch. rewrite IH; [|split; [reflexivity|]|exact Fl].
      * cbn [listeners given app]. rewrite <- app_assoc, app_length. cbn [length app]. now rewrite Nat.add_1_r.
      * cbn [listeners]. intros x Ix. apply in_app_iff in Ix. destruct Ix as [Ix|[<-|[]]]; auto.
Qed.
Print Assumptions C113_listen_partial.
Example C113_listen_case : let g := Logger false [fun _ => None] [] in
  body g [SLog HWarn 7 (str "x"); SListen (fun _ => None); SLog HInfo 7 (str "y")] =
  Return (Logger false [fun _ => None; fun _ => None] (seen 1 [SLog HWarn 7 (str "x"); SListen (fun _ => None); SLog HInfo 7 (str "y")])) /\
  map fst (seen 1 [SLog HWarn 7 (str "x"); SListen (fun _ => None); SLog HInfo 7 (str "y")]) = [0; 0; 1]%nat.
Proof. split; reflexivity. Qed.
(** The levels are distinct single bits of 32, so that a set of them is a mask; AllSet holds
    every mask: *)
Theorem C113_levels : forall a b, 0 < level_value a < 2 ^ 32 /\ Z.land (level_value a) Level_AllSet = level_value a /\
  (Z.land (level_value a) (level_value b) <> 0 <-> a = b) /\ Level_Unset = 0 /\
  forall mask, 0 <= mask < 2 ^ 32 -> Z.land mask Level_AllSet = mask.
Proof.
  intros a b. split; [destruct a; vm_compute; auto|]. split; [destruct a; reflexivity|].
  split; [destruct a, b; vm_compute; split; intros; try discriminate; try congruence; auto|]. split; [reflexivity|].
  intros mask M. change Level_AllSet with (Z.ones 32). rewrite Z.land_ones, Z.mod_small by lia. reflexivity.
Qed.
Print Assumptions C113_levels.
(** A listener that panics keeps the mutex: its followers get nothing, and no later log call or
    listener registration of any goroutine ever returns. *)
Theorem C113_panicking_refuted : forall pre f post gv e p, (forall x, In x pre -> forall e, x e = None) -> f e = Some p ->
  exists g', DispatchEvent (Logger false (pre ++ f :: post) gv) e = Panicking p g' /\
  given g' = gv ++ round (S (length pre)) e /\
  (forall h dt m, log g' h dt m = Hangs g') /\ (forall x, AddEventListener g' x = Hangs g').
Proof.
  intros pre f post gv e p C F. unfold DispatchEvent. cbn [held listeners given].
  assert (K : forall pre i g, (forall x, In x pre -> forall e, x e = None) ->
    call_all g i (pre ++ f :: post) e = (Some p, Logger (held g) (listeners g) (given g ++ map (fun i => (i, e)) (seq i (S (length pre)))))).
  { clear -F. induction pre as [|x pre IH]; intros i g C.
    - cbn [app call_all]. rewrite F. reflexivity.
    - cbn [app call_all]. rewrite (C x (or_introl eq_refl)). rewrite IH by (intros; apply C; now right). cbn [held listeners given length seq map].
      now rewrite <- app_assoc. }
  rewrite K by auto. eexists. split; [reflexivity|]. split; [reflexivity|]. split; reflexivity.
Qed.
Print Assumptions C113_panicking_refuted.
Example C113_case : let g := Logger false [fun _ => None; fun _ => None] [] in calm g /\
  log g HWarn 7 (str "x") = Return (Logger false (listeners g) [(0%nat, Event 7 4096 (str "x") false); (1%nat, Event 7 4096 (str "x") false)]).
Proof. split; [split; [reflexivity|intros f [<- | [<- | []]]; reflexivity]|reflexivity]. Qed.

(** C114.  A goroutine with the handler deferred, any panic, calm listeners: it returns, and the
    listeners are given exactly one event for the panic. *)
Theorem C114_recovers_partial : forall l g p, calm g ->
  protected g (map (fun '(h, dt, m) => SLog h dt m) l ++ [SPanic p]) =
  Return (Logger false (listeners g) (given g ++ flat_map (fun '(h, dt, m) => round (length (listeners g)) (helper_event h dt m)) l ++
    round (length (listeners g)) (panic_event p))).
Proof.
  intros l g p C. unfold protected.
  assert (K : body g (map (fun '(h, dt, m) => SLog h dt m) l ++ [SPanic p]) =
    Panicking p (Logger false (listeners g) (given g ++ flat_map (fun '(h, dt, m) => round (length (listeners g)) (helper_event h dt m)) l))).
  { revert g C. induction l as [|[[h dt] m] l IH]; intros g C.
    - cbn. rewrite app_nil_r. destruct g, C as (H & _). cbn in *. now subst.
    - cbn [map app body flat_map]. unfold log. rewrite dispatch_calm by auto. rewrite IH.
      + cbn [listeners given]. now rewrite <- app_assoc.
      + destruct C. split; auto. }
  rewrite K. unfold PanicHandler. rewrite dispatch_calm by (destruct C; split; auto). cbn [listeners given]. now rewrite <- app_assoc.
Qed.
Print Assumptions C114_recovers_partial.
(** Without a panic nothing is reported. *)
Theorem C114_quiet : forall l g g', body g l = Return g' -> protected g l = Return g'.
Proof. intros l g g' H. unfold protected. now rewrite H. Qed.
Print Assumptions C114_quiet.
(** The event: an event that was thrown is passed on as it is; anything else is an error event with a
    stack and the text of the value; a protocol error keeps its domain. *)
Theorem C114_event : forall p, let e := panic_event p in
  (forall x, p_event p = Some x -> e = x) /\
  (forall x, p_event p = None -> p_foreign p = Some x -> e = x) /\
  (p_event p = None -> p_foreign p = None -> e_level e = level_value Error /\ e_stack e = true /\
     (e_domain e <> 0 -> exists d m, p_perror p = Some (d, m) /\ e_domain e = d) /\
     In (Some (e_message e)) [p_message p; option_map snd (p_perror p); p_error p; p_string p; p_tostring p; p_stringer p; Some (p_sprint p)]).
Proof.
  intros p. unfold panic_event. cbn zeta. split; [now intros x -> |]. split; [now intros x -> -> |]. intros -> ->.
  destruct (p_message p); [cbn; repeat split; tauto|].
  destruct (p_perror p) as [[d m]|]; [cbn; repeat split; eauto; tauto|].
  destruct (p_error p); [cbn; repeat split; tauto|]. destruct (p_string p); [cbn; repeat split; tauto|].
  destruct (p_tostring p); [cbn; repeat split; tauto|]. destruct (p_stringer p); cbn; repeat split; tauto.
Qed.
Print Assumptions C114_event.
Theorem C114_text : forall s d t,
  panic_event (string_panic s) = Event 0 (level_value Error) s true /\
  panic_event (error_panic s) = Event 0 (level_value Error) s true /\
  panic_event (protocol_panic d s t) = Event d (level_value Error) s true.
Proof. intros. repeat split. Qed.
Print Assumptions C114_text.
(** FatalError raises exactly the errors; under the handler it is reported and the goroutine ends. *)
Theorem C114_fatal_error : forall e g, (FatalError e g = Return g <-> e = None) /\
  (forall p, e = Some p -> FatalError e g = Panicking p g).
Proof. intros [p|] g; cbn; split; try split; try discriminate; try reflexivity; intros; congruence. Qed.
Print Assumptions C114_fatal_error.
(** But a panic of a log listener is never reported: the handler waits for the mutex the panicking
    dispatch still holds, and so does every goroutine that logs from then on. *)
Theorem C114_listener_refuted : forall pre f post gv h dt m p rest, (forall x, In x pre -> forall e, x e = None) ->
  f (helper_event h dt m) = Some p ->
  exists g', protected (Logger false (pre ++ f :: post) gv) (SLog h dt m :: rest) = Hangs g' /\
  given g' = gv ++ round (S (length pre)) (helper_event h dt m) /\
  forall l, (exists h dt m r, l = SLog h dt m :: r) \/ (exists q r, l = SPanic q :: r) -> protected g' l = Hangs g'.
Proof.
  intros pre f post gv h dt m p rest C F.
  destruct (C113_panicking_refuted pre f post gv (helper_event h dt m) p C F) as (g' & D & G & Lk & _).
  exists g'. assert (H : held g' = true).
  { specialize (Lk HInfo 0 []). unfold log, DispatchEvent in Lk. destruct (held g') eqn:E; [reflexivity|].
    destruct (call_all _ _ _ _) as [[q|] g2]; discriminate. }
  split.
  { unfold protected. cbn [body]. unfold log. rewrite D. unfold PanicHandler, DispatchEvent. now rewrite H. }
  split; [exact G|]. intros l [(h2 & dt2 & m2 & r & ->)|(q & r & ->)]; unfold protected; cbn [body].
  - now rewrite Lk.
  - unfold PanicHandler, DispatchEvent. now rewrite H.
Qed.
Print Assumptions C114_listener_refuted.
(** And when the listener panics only for the event of the panic, the panic escapes the handler. *)
Theorem C114_escapes_refuted : forall f gv p q, f (panic_event p) = Some q ->
  exists g', protected (Logger false [f] gv) [SPanic p] = Panicking q g'.
Proof. intros f gv p q F. unfold protected. cbn [body]. unfold PanicHandler, DispatchEvent. cbn [held listeners call_all]. rewrite F. eexists. reflexivity. Qed.
Print Assumptions C114_escapes_refuted.
Example C114_case : let f := fun e => if e_stack e then Some (string_panic (str "disk full")) else None in
  let g := Logger false [f] [] in
  protected g [SLog HInfo 1 (str "a"); SPanic (string_panic (str "b"))] =
    Panicking (string_panic (str "disk full")) (Logger true [f] [(0%nat, Event 1 4 (str "a") false); (0%nat, Event 0 64 (str "b") true)]) /\
  protected g [SLog HError 1 (str "a")] = Hangs (Logger true [f] [(0%nat, Event 1 64 (str "a") true)]).
Proof. split; reflexivity. Qed.
