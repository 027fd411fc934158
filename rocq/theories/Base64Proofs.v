(** Base64: decoding undoes encoding for every byte string. *)
From Coq Require Import ZifyBool ZifyNat.
From Verif Require Import Go GoFacts Base64Model.
Ltac Zify.zify_post_hook ::= Z.div_mod_to_equations.

Definition alphabet (ch : Z -> Z) (dg : Z -> option Z) : Prop :=
  forall i, 0 <= i < 64 -> dg (ch i) = Some i /\ ch i <> 10 /\ ch i <> 13 /\ ch i <> 34 /\
    ch i <> 44 /\ ch i <> 93 /\ ch i <> 125 /\ 32 <= ch i < 127 /\ ch i <> 92.

Lemma std_alphabet : alphabet std_char std_digit.
Proof.
  intros i Hi.
  assert (H : forallb (fun i => match std_digit (std_char i) with Some j => j =? i | None => false end &&
     negb (existsb (Z.eqb (std_char i)) [10; 13; 34; 44; 93; 125; 92]) && (32 <=? std_char i) && (std_char i <? 127))
     (map Z.of_nat (seq 0 64)) = true) by (vm_compute; reflexivity).
  rewrite forallb_forall in H. specialize (H i).
  destruct (std_digit (std_char i)) as [j|] eqn:E; cbn [existsb] in H;
  (assert (Hin : In i (map Z.of_nat (seq 0 64)))
    by (apply in_map_iff; exists (Z.to_nat i); split; [lia|apply in_seq; lia]));
  specialize (H Hin); [|discriminate]. 
  assert (j = i) by lia. subst j. repeat split; lia.
Qed.

Lemma url_alphabet : alphabet url_char url_digit.
Proof.
  intros i Hi.
  assert (H : forallb (fun i => match url_digit (url_char i) with Some j => j =? i | None => false end &&
     negb (existsb (Z.eqb (url_char i)) [10; 13; 34; 44; 93; 125; 92]) && (32 <=? url_char i) && (url_char i <? 127))
     (map Z.of_nat (seq 0 64)) = true) by (vm_compute; reflexivity).
  rewrite forallb_forall in H. specialize (H i).
  destruct (url_digit (url_char i)) as [j|] eqn:E; cbn [existsb] in H;
  (assert (Hin : In i (map Z.of_nat (seq 0 64)))
    by (apply in_map_iff; exists (Z.to_nat i); split; [lia|apply in_seq; lia]));
  specialize (H Hin); [|discriminate].
  assert (j = i) by lia. subst j. repeat split; lia.
Qed.

Lemma triple_ind (P : list Z -> Prop) :
  P [] -> (forall a, P [a]) -> (forall a b, P [a; b]) ->
  (forall a b c t, P t -> P (a :: b :: c :: t)) -> forall l, P l.
Proof.
  intros H0 H1 H2 H3. 
  assert (H : forall n l, (length l <= n)%nat -> P l).
  { induction n; intros l Hl.
    - destruct l; [auto|cbn in Hl; lia].
    - destruct l as [|a [|b [|c t]]]; auto. apply H3, IHn. cbn in Hl. lia. }
  intros l. apply (H (length l)). lia.
Qed.

Lemma b64_chars ch dg l : alphabet ch dg -> wf_bytes l ->
  Forall (fun c => exists i, 0 <= i < 64 /\ c = ch i) (b64_encode ch l).
Proof.
  intros A. induction l using triple_ind; intros W; cbn [b64_encode]; try constructor.
  all: repeat match goal with
         | H : wf_bytes (_ :: _) |- _ => inversion H; subst; clear H
         | H : Forall is_byte (_ :: _) |- _ => inversion H; subst; clear H
         end.
  all: unfold is_byte in *.
  all: repeat first [apply IHl; assumption | constructor | (eexists; split; [|reflexivity]; lia)].
Qed.

Lemma b64_groups_encode ch dg l : alphabet ch dg -> wf_bytes l ->
  b64_groups dg (b64_encode ch l) = Some l.
Proof.
  intros A. induction l using triple_ind; intros W; cbn [b64_encode b64_groups]; auto.
  all: repeat match goal with
         | H : wf_bytes (_ :: _) |- _ => inversion H; subst; clear H
         | H : Forall is_byte (_ :: _) |- _ => inversion H; subst; clear H
         end.
  all: unfold is_byte in *.
  all: repeat match goal with A : alphabet ?ch ?dg |- context [?dg (?ch ?x)] =>
         let H := fresh in assert (H : 0 <= x < 64) by lia; rewrite (proj1 (A x H)); clear H end.
  - f_equal. f_equal. lia.
  - f_equal. f_equal; [lia|]. f_equal. lia.
  - rewrite IHl by assumption. f_equal. f_equal; [lia|]. f_equal; [lia|]. f_equal. lia.
Qed.

Lemma b64_round_trip ch dg l : alphabet ch dg -> wf_bytes l -> b64_decode dg (b64_encode ch l) = Some l.
Proof.
  intros A W. unfold b64_decode. rewrite <- (b64_groups_encode ch dg l A W). f_equal.
  pose proof (b64_chars ch dg l A W) as H. induction (b64_encode ch l) as [|c t IH]; [reflexivity|].
  inversion H as [|? ? (i & Hi & E) Ht]; subst. cbn [filter].
  destruct (A i Hi) as (_ & H10 & H13 & _).
  replace (negb ((ch i =? 10) || (ch i =? 13))) with true by lia. f_equal. auto.
Qed.

Lemma b64_length ch l : zlen (b64_encode ch l) = encoded_len (zlen l).
Proof.
  unfold encoded_len. induction l using triple_ind; cbn [b64_encode]; try reflexivity.
  rewrite !zlen_cons, IHl. lia.
Qed.
