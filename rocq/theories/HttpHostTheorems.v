(** C88: requests as they are made. *)
From Coq Require Import ZifyBool ZifyNat.
From Verif Require Import Go GoFacts UriModel UriSpec UriProofs UriTheorems HttpModel HttpSpec HttpMsgModel HttpMsgSpec HttpMsgTheorems HttpHostModel.
Open Scope string_scope. Import ListNotations. Open Scope Z_scope. Open Scope list_scope.

(** [o] tells the host of a request directly; nothing in the repository does this to a request *)
Definition names_host (o : target_op) : Prop := match o with SetHost _ | InitAuthority _ => True | _ => False end.
Lemma host_kept : forall l q q', Forall (fun o => ~ names_host o) l -> q_host q = [] -> target_ops q l = Ok q' -> q_host q' = [].
Proof.
  induction l as [|o l IH]; intros q q' F H E; cbn [target_ops] in E; [assert (q' = q) by congruence; now subst|].
  inversion F as [|? ? No F']; subst. destruct (target_step q o) as [q1|] eqn:T; [|discriminate]. cbn [bind] in E. apply (IH q1 q'); auto.
  destruct o; cbn [target_step] in T; try (exfalso; apply No; exact I).
  - destruct (UnmarshalFromString (q_uri q) s) as [r|]; [|discriminate]. cbn [bind] in T. assert (q1 = with_uri q (snd r)) by congruence. now subst.
  - assert (q1 = with_uri q (Set_ (q_uri q) s a p q0 f)) by congruence. now subst.
  - assert (q1 = with_uri q (set_authority (q_uri q) a)) by congruence. now subst.
  - assert (q1 = with_host (with_uri q (Reinit (q_uri q))) []) by congruence. now subst.
  - assert (q1 = CheckHost q) by congruence. subst q1. unfold CheckHost. destruct (beq _ _); exact H.
  - injection T as <-. exact H.
  - injection T as <-. exact H.
Qed.
(** Parsing a target, setting its authority and checking the Host line never make the host known: however a
    request was made, it is served as one for this application, for any domain of it. *)
Theorem C88_any_host_refuted : forall l q d r, Forall (fun o => ~ names_host o) l -> target_ops new_request l = Ok q -> HostSupported d q r = (true, r).
Proof. intros l q d r F E. unfold HostSupported. rewrite (host_kept l new_request q F eq_refl E). reflexivity. Qed.
Print Assumptions C88_any_host_refuted.
(** So it is for a target that names another host, and for an origin target with the Host line of another one. *)
Theorem C88_other_host_refuted : forall sc au pa qu d r, absolute sc au pa qu -> au <> [] -> au <> d ->
  exists q, target_ops new_request [Parse (snd (Marshal (Uri None sc au pa qu []))); Check] = Ok q /\ authority (q_uri q) = au /\ HostSupported d q r = (true, r).
Proof.
  intros sc au pa qu d r A NE N. destruct (C19_absolute_round_trip sc au pa qu [] A (or_introl eq_refl)) as (u' & E & _ & Ea & _). rewrite app_nil_r in E.
  eexists. split; [cbn [target_ops target_step new_request q_uri]; rewrite E; cbn [bind]; reflexivity|]. cbn [snd].
  split; [unfold CheckHost, with_uri; cbn [q_uri]; rewrite Ea; destruct (beq au []) eqn:B; [apply beq_true in B; contradiction|exact Ea]|].
  unfold HostSupported. replace (q_host (CheckHost (with_uri new_request u'))) with (@nil Z); [reflexivity|]. unfold CheckHost. destruct (beq _ _); reflexivity.
Qed.
Print Assumptions C88_other_host_refuted.
Theorem C88_host_line_refuted : forall pa qu host d r, origin pa qu -> free ":" pa -> free ":" qu -> host <> [] -> host <> d ->
  exists q, target_ops new_request [Parse (snd (Marshal (Uri None [] [] pa qu []))); AddLine HeaderKey_Host host; Check] = Ok q /\
    authority (q_uri q) = host /\ HostSupported d q r = (true, r).
Proof.
  intros pa qu host d r O F1 F2 NH N. destruct (C19_origin_partial pa qu [] O F1 F2 (or_introl eq_refl)) as (u' & E & _ & Ea & _). rewrite app_nil_r in E.
  eexists. split; [cbn [target_ops target_step new_request q_uri]; rewrite E; cbn [bind]; reflexivity|]. cbn [snd with_uri q_uri q_head q_host q_method q_version].
  unfold CheckHost. cbn [q_uri q_head q_host q_method q_version]. rewrite Ea. cbn [beq]. split; [|reflexivity]. cbn [q_uri authority set_authority]. reflexivity.
Qed.
Print Assumptions C88_host_line_refuted.
(** Were the host known, the redirect would lead home: its target is a URI of the domain with the path and the
    query of the request, and a request for it with that host is served. *)
Theorem C88_follow_partial : forall d q r q', plain_domain d -> absolute (str "https") d (path (q_uri q)) (query (q_uri q)) -> has (r_head r) (str "Location") = false ->
  is_digit_at0 (q_host q) || beq (q_host q) (www d) = true ->
  target_ops new_request [Parse (Header_Get (r_head (snd (HostSupported d q r))) (str "Location"))] = Ok q' ->
  path (q_uri q') = path (q_uri q) /\ query (q_uri q') = query (q_uri q) /\ authority (q_uri q') = d /\
  forall r', HostSupported d (with_host q' (authority (q_uri q'))) r' = (true, r').
Proof.
  intros d q r q' P A HL K E. assert (NF : fst (HostSupported d q r) = false).
  { unfold HostSupported. apply orb_true_iff in K. destruct (beq (q_host q) []) eqn:B; [apply beq_true in B; rewrite B in K; destruct K as [K|K]; [discriminate|]; apply beq_true in K; discriminate K|].
    destruct (is_digit_at0 (q_host q)) eqn:D; [reflexivity|]. destruct K as [K|K]; [discriminate|]. apply beq_true in K. destruct ((4 <? zlen (q_host q)) && beq (firstn 4 (q_host q)) (str "www.")) eqn:W.
    - destruct (negb _); reflexivity.
    - exfalso. assert (X : (4 <? zlen (q_host q)) && beq (firstn 4 (q_host q)) (str "www.") = true) by (apply www_iff; exists d; split; [apply P|exact K]). congruence. }
  pose proof (C88_redirected_exact d q r ltac:(apply P) HL NF) as R. cbv zeta in R. rewrite K in R. destruct R as (_ & _ & R & _). rewrite R in E.
  destruct (C19_absolute_round_trip (str "https") d (path (q_uri q)) (query (q_uri q)) [] A (or_introl eq_refl)) as (u' & Eu & _ & Ea & Ep & Eq & _). rewrite app_nil_r in Eu.
  assert (T : snd (Marshal (Uri None (str "https") d (path (q_uri q)) (query (q_uri q)) [])) = same_page d (q_uri q)).
  { unfold Marshal, marshalTo, uri_text, same_page. cbn [raw snd scheme authority path query app]. destruct (path (q_uri q)) as [|c t] eqn:Pa; [destruct A as (_ & _ & _ & A & _); discriminate A|]. 
    cbn [beq]. destruct (query (q_uri q)); rewrite <- ?app_assoc; reflexivity. }
  rewrite T in Eu. cbn [target_ops target_step] in E. change (q_uri new_request) with new_uri in E. rewrite Eu in E. cbn [bind snd] in E. assert (q' = with_uri new_request u') by congruence. subst q'.
  cbn [q_uri with_uri]. repeat split; auto. intros r'. rewrite Ea. apply C88_plain_domain_partial; auto.
Qed.
Print Assumptions C88_follow_partial.
Example C88_any_host_nonvacuous : exists q, target_ops new_request [Parse (str "https://bank.example/pay?x=1"); AddLine HeaderKey_Host (str "bank.example"); Check] = Ok q /\
  authority (q_uri q) = str "bank.example" /\ HostSupported (str "shop.example") q empty_response = (true, empty_response) /\
  absolute (str "https") (str "bank.example") (str "/pay") (str "x=1").
Proof.
  eexists. split; [vm_compute; reflexivity|]. split; [reflexivity|]. split; [reflexivity|]. unfold absolute, free. cbn. repeat split; try discriminate; try lia; repeat constructor; lia.
Qed.
