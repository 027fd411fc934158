From Coq Require Import ZifyBool ZifyNat.
From Verif Require Import Go GoFacts NetModel NetSpec NetProofs NetTheorems TcpModel TcpSpec.

Lemma recv_whole s g : whole g ->
  Receive s g = match st s with Listen => on_listen s g | SynSent => on_syn_sent s g
    | Established => on_established s g | _ => Ok (s, ROk) end.
Proof.
  intros (W & L & H). unfold Receive. rewrite C32_check by auto. unfold header_len in H.
  replace (zlen g <? 20) with false by lia. replace (zlen g <? 4 * field g 96 4) with false by lia. reflexivity.
Qed.
Lemma payload_ok g : whole g -> tcp_Payload g = Ok (payload g).
Proof.
  intros (W & L & H). unfold tcp_Payload. rewrite C31_tcp_data_offset by auto. cbn [bind].
  pose proof (field_range g 96 4). unfold header_len in H. rewrite slice_from_ok by lia. reflexivity.
Qed.
Lemma seq_ok g : whole g -> tcp_SequenceNumber g = Ok (seq_no g).
Proof. intros (W & L & H). destruct C31_tcp_get as (_ & _ & G & _). now apply G. Qed.
Lemma flag_ok g f : whole g -> tcp_Flag g f = Ok (bit g (flag_at f)).
Proof. intros (W & L & H). now apply C31_tcp_flags. Qed.

(** Receiving anything never panics, and a refused segment changes nothing. *)
Lemma recv_total s g : wf_bytes g -> exists r, Receive s g = Ok r /\ (~ whole g -> fst r = s).
Proof.
  intros W. destruct (Z_lt_ge_dec (zlen g) 20) as [H|H].
  { unfold Receive. rewrite C32_check by auto. replace (zlen g <? 20) with true by lia. cbn [bind]. eexists. split; [reflexivity|]. auto. }
  destruct (Z_lt_ge_dec (zlen g) (header_len g)) as [H2|H2].
  { unfold Receive. rewrite C32_check by auto. replace (zlen g <? 20) with false by lia. unfold header_len in H2.
    replace (zlen g <? 4 * field g 96 4) with true by lia. cbn [bind]. eexists. split; [reflexivity|]. auto. }
  assert (G : whole g) by (repeat split; auto; lia). rewrite recv_whole by auto.
  destruct (st s); try (eexists; split; [reflexivity|intros C; now destruct C]).
  - unfold on_listen. rewrite flag_ok by auto. cbn [bind]. eexists. split; [reflexivity|intros C; now destruct C].
  - unfold on_syn_sent. rewrite !flag_ok by auto. cbn [bind]. destruct (bit g (flag_at SYN)); cbn [bind];
      (eexists; split; [reflexivity|intros C; now destruct C]).
  - unfold on_established, validateSequence. rewrite payload_ok, seq_ok by auto. cbn [bind]. destruct (seq_no g =? next s).
    + rewrite flag_ok by auto. cbn [bind]. eexists. split; [reflexivity|intros C; now destruct C].
    + cbn [bind]. destruct (insert _ _ _); (eexists; split; [reflexivity|intros C; now destruct C]).
Qed.

Definition server_state (s : status) : Prop := s = Listen \/ s = SynReceived.
Lemma server_step s g r : wf_bytes g -> server_state (st s) -> Receive s g = Ok r ->
  server_state (st (fst r)) /\ rbuf (fst r) = rbuf s /\ next (fst r) = next s.
Proof.
  intros W H E. destruct (recv_total s g W) as (r' & E' & N). rewrite E in E'. injection E' as <-.
  destruct (Z_lt_ge_dec (zlen g) 20) as [L|L]; [rewrite N by (unfold whole; lia); auto|].
  destruct (Z_lt_ge_dec (zlen g) (header_len g)) as [L2|L2]; [rewrite N by (unfold whole; lia); auto|].
  assert (G : whole g) by (repeat split; auto; lia). rewrite recv_whole in E by auto.
  destruct H as [H|H]; rewrite H in E.
  - unfold on_listen in E. rewrite flag_ok in E by auto. cbn [bind] in E. injection E as <-. cbn [fst].
    destruct (bit g _); cbn [st rbuf next]; repeat split; unfold server_state; cbn [st]; auto.
  - injection E as <-. cbn [fst]. unfold server_state. auto.
Qed.

Lemma server_all gs : forall s, Forall wf_bytes gs -> server_state (st s) ->
  exists q, receive_all s gs = Ok q /\ server_state (st q) /\ rbuf q = rbuf s.
Proof.
  induction gs as [|g gs IH]; intros s W H; cbn [receive_all]; [eauto|].
  inversion W; subst. destruct (recv_total s g H2) as (r & E & _). rewrite E. cbn [bind].
  destruct (server_step s g r H2 H E) as (S1 & B1 & _). destruct (IH (fst r) H3 S1) as (q & Eq & Sq & Bq).
  exists q. split; auto. split; auto. congruence.
Qed.

Lemma on_est_ok s g : whole g -> on_established s g =
  if seq_no g =? next s then
    Ok (Stream (st s) (u32 (next s + 1)) (rbuf s ++ payload g) (woken s + if bit g (flag_at PSH) then 1 else 0), ROk)
  else Ok match insert (rbuf s) (u32 (seq_no g - next s)) (payload g) with
     | Some b => (Stream (st s) (next s) b (woken s), ROk)
     | None => (s, RInsert)
     end.
Proof.
  intros G. unfold on_established, validateSequence. rewrite (payload_ok g G), (seq_ok g G), (flag_ok g PSH G).
  generalize (seq_no g) (payload g) (bit g (flag_at PSH)). intros. reflexivity.
Qed.

(** An established stream stays established. *)
Lemma est_step s g r : wf_bytes g -> st s = Established -> Receive s g = Ok r -> st (fst r) = Established.
Proof.
  intros W H E. destruct (recv_total s g W) as (r' & E' & N). assert (r' = r) by congruence. subst r'.
  destruct (Z_lt_ge_dec (zlen g) 20) as [L|L]; [rewrite N by (unfold whole; lia); auto|].
  destruct (Z_lt_ge_dec (zlen g) (header_len g)) as [L2|L2]; [rewrite N by (unfold whole; lia); auto|].
  assert (G : whole g) by (unfold whole; split; [auto|split; lia]). rewrite recv_whole, H in E by auto. rewrite on_est_ok in E by auto.
  revert E. generalize (seq_no g) (payload g) (bit g (flag_at PSH)). intros n p f E.
  destruct (n =? next s).
  - assert (X : r = (Stream (st s) (u32 (next s + 1)) (rbuf s ++ p) (woken s + (if f then 1 else 0)), ROk)) by congruence. rewrite X. exact H.
  - destruct (insert (rbuf s) (u32 (n - next s)) p) as [b|].
    + assert (X : r = (Stream (st s) (next s) b (woken s), ROk)) by congruence. rewrite X. exact H.
    + assert (X : r = (s, RInsert)) by congruence. rewrite X. exact H.
Qed.

Lemma est_in_order s g : whole g -> st s = Established -> seq_no g = next s ->
  Receive s g = Ok (Stream Established (u32 (next s + 1)) (rbuf s ++ payload g) (woken s + if bit g (flag_at PSH) then 1 else 0), ROk).
Proof.
  intros G H E. rewrite recv_whole, H by auto. unfold on_established. rewrite payload_ok, seq_ok, flag_ok by auto. cbn [bind].
  replace (seq_no g =? next s) with true by lia. now rewrite H.
Qed.
Lemma est_other s g : whole g -> st s = Established -> seq_no g <> next s ->
  Receive s g = Ok (match insert (rbuf s) (u32 (seq_no g - next s)) (payload g) with
    | Some b => (Stream Established (next s) b (woken s), ROk) | None => (s, RInsert) end).
Proof.
  intros G H E. rewrite recv_whole, H by auto. unfold on_established, validateSequence. rewrite payload_ok, seq_ok by auto. cbn [bind].
  replace (seq_no g =? next s) with false by lia. now rewrite H.
Qed.

Lemma bytewise gs : forall s, st s = Established -> consecutive (next s) gs -> 
  Forall (fun g => zlen (payload g) = 1) gs ->
  exists q, receive_all s gs = Ok q /\ st q = Established /\ rbuf q = rbuf s ++ concat (map payload gs).
Proof.
  induction gs as [|g gs IH]; intros s H C F; cbn [receive_all map concat].
  - exists s. rewrite app_nil_r. auto.
  - destruct C as (G & E & C). inversion F as [|? ? P Q]; subst. rewrite est_in_order by auto. cbn [bind fst].
    destruct (IH (Stream Established (u32 (next s + 1)) (rbuf s ++ payload g) (woken s + if bit g (flag_at PSH) then 1 else 0)) eq_refl) as (q & Eq & Sq & Bq); auto.
    + cbn [next]. rewrite P in C. exact C.
    + exists q. split; [exact Eq|]. split; auto. rewrite Bq. cbn [rbuf]. now rewrite <- app_assoc.
Qed.

(** * Options *)
Lemma turns_mono n : forall o r, handleOptions n o = Some r -> forall m, (n <= m)%nat -> handleOptions m o = Some r.
Proof.
  induction n as [|n IH]; intros o r E m Hm; [discriminate|]. destruct m as [|m]; [lia|]. cbn [handleOptions] in *.
  destruct (option_turn o); auto. apply IH; auto; lia.
Qed.

Lemma stuck o : option_turn o = TNext o -> forall n, handleOptions n o = None.
Proof. intros H n. induction n as [|n IH]; [reflexivity|]. cbn [handleOptions]. rewrite H. exact IH. Qed.

(** The options before the first one that is not a maximum segment size *)
Inductive mss_run : bytes -> bytes -> Prop :=
| mss_none o : mss_run o o
| mss_more a b c o r : mss_run o r -> mss_run (2 :: a :: b :: c :: o) r.

Lemma mss_steps o r : mss_run o r -> forall n, exists m, handleOptions (m + n) o = handleOptions n r /\ (m <= length o)%nat.
Proof.
  induction 1 as [|a b c o r H IH]; intros n; [exists 0%nat; split; [reflexivity|lia]|].
  destruct (IH n) as (m & E & L). exists (S m). split.
  - cbn [Nat.add handleOptions]. replace (option_turn (2 :: a :: b :: c :: o)) with (TNext o); [exact E|].
    unfold option_turn. change (2 =? 0) with false. change (2 =? 1) with false. change (2 =? 2) with true. cbv iota.
    rewrite slice_from_ok by (rewrite !zlen_cons; pose proof (zlen_nonneg o); lia). reflexivity.
  - cbn [length]. lia.
Qed.

Lemma mss_exists : forall n o, (length o <= n)%nat -> exists r, mss_run o r /\
  (match r with 2 :: _ :: _ :: _ :: _ => False | _ => True end).
Proof.
  induction n as [|n IH]; intros o L.
  - destruct o; cbn in L; [|lia]. exists []. split; [constructor|exact I].
  - destruct o as [|k [|a [|b [|c o]]]]; try (eexists; split; [constructor|]; try exact I; destruct k as [|[|[]|]|]; exact I).
    destruct (Z.eq_dec k 2) as [->|N].
    + destruct (IH o) as (r & R & Q); [cbn in L; lia|]. exists r. split; [now constructor|exact Q].
    + eexists. split; [constructor|]. destruct k as [|[|[]|]|]; try exact I. lia.
Qed.

Lemma options_run_bad l p : options l p -> (forall x, In x l -> hd 0 x = 2 -> length x = 4%nat) ->
  forall x, In x l -> hd 0 x <> 0 -> hd 0 x <> 2 -> exists k t, mss_run p (k :: t) /\ k <> 0 /\ k <> 2.
Proof.
  induction 1 as [|r|l r O IH|l k d r Hk Hd O IH]; intros L x I X0 X2.
  - destruct I.
  - destruct I as [<-|[]]. now cbn in X0.
  - exists 1, r. split; [constructor|lia].
  - destruct (Z.eq_dec k 2) as [->|N].
    + pose proof (L _ (or_introl eq_refl) eq_refl) as LL. destruct d as [|a [|b [|c d]]]; cbn [length] in LL; try lia.
      destruct I as [<-|I]; [now cbn in X2|].
      destruct (IH (fun y Iy => L y (or_intror Iy)) x I X0 X2) as (k & t & R & K). exists k, t. split; [|exact K]. cbn [app]. now constructor.
    + eexists k, _. split; [constructor|lia].
Qed.
Lemma options_run l p : options l p -> (forall x, In x l -> hd 0 x = 2 -> length x = 4%nat) ->
  exists r, mss_run p r /\ ((r = [] \/ exists t, r = 0 :: t) \/
    exists k t, r = k :: t /\ k <> 0 /\ k <> 2 /\ exists x, In x l /\ hd 0 x = k).
Proof.
  induction 1 as [|r|l r O IH|l k d r Hk Hd O IH]; intros L.
  - exists []. split; [constructor|auto].
  - exists (0 :: r). split; [constructor|]. left. eauto.
  - exists (1 :: r). split; [constructor|]. right. exists 1, r. repeat split; try lia. exists [1]. split; [now left|reflexivity].
  - destruct (Z.eq_dec k 2) as [->|N].
    + pose proof (L _ (or_introl eq_refl) eq_refl) as LL. destruct d as [|a [|b [|c d]]]; cbn [length] in LL; try lia.
      destruct (IH (fun y Iy => L y (or_intror Iy))) as (r' & R & C). exists r'. split; [cbn [app]; now constructor|].
      destruct C as [C|(k & t & E & K0 & K2 & x & I & Hx)]; [now left|]. right. exists k, t. repeat split; auto. exists x. split; [now right|auto].
    + eexists. split; [constructor|]. right. eexists k, _. split; [reflexivity|]. split; [lia|]. split; [auto|].
      eexists. split; [now left|reflexivity].
Qed.
