(** Property theorem C27 and C75 (flat buffer). *)
From Coq Require Import ZifyBool ZifyNat.
From Verif Require Import Go GoFacts FlatModel FlatSpec FlatProofs.

(** C27: in every history of writes, reads and grows on a new buffer: nothing panics, the
    buffer holds exactly what was written, and what was handed out is a prefix of it of the
    length that is no longer unread; *)
Lemma run_total ops b : good b -> exists out b', run b ops = Ok (out, b').
Proof.
  revert b; induction ops as [|o r IH]; intros b G; cbn [run]; [eauto|].
  assert (S : exists o1 b1, run_op b o = Ok (o1, b1)).
  { destruct o; cbn [run_op]; eauto.
    - rewrite read_nothing by (try apply good_le; auto; apply G). cbn [bind]. eauto.
    - unfold ReadByte. destruct (Z.ltb_spec 1 (zlen (buf b) - off b)); cbn [bind]; eauto.
      destruct G as (G1 & G2 & _). destruct (idx_in_range (buf b) (off b) ltac:(lia)) as [c ->]. cbn [bind]. eauto. }
  destruct S as (o1 & b1 & E1). rewrite E1. cbn [bind].
  assert (G1 : good b1).
  { apply (run_spec [o] b o1 b1 G). cbn [run]. rewrite E1. cbn [bind]. now rewrite app_nil_r. }
  destruct (IH b1 G1) as (o2 & b2 & ->). cbn [bind]. eauto.
Qed.
Theorem C27_prefix_partial : forall ops, exists out b,
  run zero_flat ops = Ok (out, b) /\ Bytes b = written ops /\
  exists k, 0 <= k /\ out = firstn (Z.to_nat k) (written ops) /\ LenOfUnread b = zlen (written ops) - k.
Proof.
  intros ops. destruct (run_total ops zero_flat good_zero) as (out & b & E). exists out, b.
  split; auto. destruct (run_spec _ _ _ _ good_zero E) as (G & B & O & F). cbn in B. split; [exact B|].
  exists (off b). change (off zero_flat) with 0 in *. rewrite Z.sub_0_r in F. cbn [skipn Z.to_nat] in F. rewrite B in F.
  repeat split; auto. unfold LenOfUnread. now rewrite B.
Qed.
Print Assumptions C27_prefix_partial.
(** but not everything can be read: whatever is written and however often it is read, the
    last byte never comes out; *)
Theorem C27_last_byte_refuted : forall ops out b, run zero_flat ops = Ok (out, b) ->
  written ops <> [] -> zlen out < zlen (written ops).
Proof.
  intros ops out b E Hw. destruct (run_spec _ _ _ _ good_zero E) as ((G1 & G2 & _) & B & O & F). cbn in B.
  change (off zero_flat) with 0 in *. rewrite Z.sub_0_r in F. cbn [skipn Z.to_nat] in F. rewrite F.
  unfold zlen at 1. rewrite firstn_length. rewrite B in *.
  assert (0 < zlen (written ops)) by (destruct (written ops); [congruence|rewrite zlen_cons; pose proof (zlen_nonneg l); lia]).
  unfold zlen in *. lia.
Qed.
Print Assumptions C27_last_byte_refuted.
(** Read never reads anything; *)
Theorem C27_read_refuted : forall b p, 0 <= off b <= zlen (buf b) -> Read b p = Ok (0, p, b).
Proof. intros; apply read_nothing; lia. Qed.
Print Assumptions C27_read_refuted.
(** and ReadByte alone delivers all but the last byte, in order, then zeros for ever without
    an error. *)
Fixpoint read_bytes (n : nat) (b : flat) : res (bytes * flat) :=
  match n with
  | O => Ok ([], b)
  | S n => let! r := ReadByte b in let '(c, b) := r in
           let! r := read_bytes n b in let '(l, b) := r in Ok (c :: l, b)
  end.
Theorem C27_read_bytes_partial : forall l sp n k, (n <= length l)%nat ->
  exists b, read_bytes (n + k) (Flat false (l ++ [0]) sp 0) = Ok (firstn n l ++ firstn k (skipn n l ++ repeat 0 k), b).
Proof.
  intros l sp n k Hn.
  assert (Z0 : forall j b, LenOfUnread b <= 1 -> read_bytes j b = Ok (repeat 0 j, b)).
  { induction j as [|j IH]; intros b Hb; [reflexivity|]. cbn [read_bytes repeat]. unfold ReadByte. unfold LenOfUnread in Hb.
    replace (1 <? zlen (buf b) - off b) with false by lia. cbn [bind]. rewrite IH by (unfold LenOfUnread; lia). reflexivity. }
  assert (R : forall r pre j, exists b, read_bytes j (Flat false (pre ++ r ++ [0]) sp (zlen pre)) = Ok (firstn j (r ++ repeat 0 j), b)).
  { induction r as [|x r IH]; intros pre j.
    - rewrite Z0 by (unfold LenOfUnread; cbn [buf off]; rewrite !zlen_app; cbn; lia). cbn [app]. eexists.
      rewrite <- (repeat_length 0 j) at 2. rewrite firstn_all. reflexivity.
    - destruct j as [|j]; [cbn; eauto|]. cbn [read_bytes]. unfold ReadByte; cbn [buf off].
      replace (1 <? zlen (pre ++ (x :: r) ++ [0]) - zlen pre) with true
        by (rewrite !zlen_app, zlen_cons; change (zlen [0]) with 1; pose proof (zlen_nonneg r); lia).
      rewrite (idx_ok _ _ x); [|apply zlen_nonneg|].
      2:{ unfold zlen. rewrite Nat2Z.id, nth_error_app2, Nat.sub_diag by lia. reflexivity. }
      cbn [bind isnil spare].
      specialize (IH (pre ++ [x]) j) as [b Hb].
      replace ((pre ++ [x]) ++ r ++ [0]) with (pre ++ (x :: r) ++ [0]) in Hb by (rewrite <- app_assoc; reflexivity).
      replace (zlen (pre ++ [x])) with (zlen pre + 1) in Hb by (rewrite zlen_app; reflexivity).
      rewrite Hb. cbn [bind]. eexists. cbn [app firstn repeat].
      do 3 f_equal. rewrite !firstn_app. f_equal. replace (0 :: repeat 0 j) with (repeat 0 j ++ [0]) by (symmetry; apply repeat_cons).
      rewrite firstn_app, repeat_length. replace (j - length r - j)%nat with 0%nat by lia. cbn [firstn]. now rewrite app_nil_r. }
  destruct (R l [] (n + k)%nat) as [b Hb]. cbn [app] in Hb. change (zlen (@nil Z)) with 0 in Hb. rewrite Hb. eexists.
  do 2 f_equal. rewrite <- (firstn_skipn n l) at 1. rewrite <- app_assoc, firstn_app, firstn_length_le by lia.
  replace (n + k - n)%nat with k by lia. rewrite firstn_all2 by (rewrite firstn_length; lia). f_equal.
  rewrite !firstn_app. f_equal. rewrite Nat.add_comm, repeat_app, firstn_app, repeat_length.
  replace (k - length (skipn n l) - k)%nat with 0%nat by lia. cbn [firstn]. now rewrite app_nil_r.
Qed.
Print Assumptions C27_read_bytes_partial.
Example C27_example : exists b, run zero_flat [OWrite [1;2] []; OReadByte; OWriteByte 3 [0;0]; OGrow 5; ORead [9;9]; OReadByte; OReadByte]
  = Ok ([1; 2], b) /\ Bytes b = [1;2;3] /\ LenOfUnread b = 1.
Proof. eexists. vm_compute. auto. Qed.

(** C75: growing keeps the contents and gives the room asked for; *)
Theorem C75_grow : forall b n, (isnil b = true -> buf b = [] /\ spare b = []) ->
  Bytes (Grow b n) = Bytes b /\ LenOfUnread (Grow b n) = LenOfUnread b /\
  n <= Cap (Grow b n) - Len (Grow b n) /\ Cap b <= Cap (Grow b n).
Proof.
  intros b n H. unfold Grow, Bytes, LenOfUnread, Cap, Len. 
  assert (L : forall k, zlen (zeros k) = Z.max k 0) by (intros k; unfold zeros, zlen; rewrite repeat_length; lia).
  pose proof (zlen_nonneg (buf b)). pose proof (zlen_nonneg (spare b)).
  destruct (isnil b).
  - destruct (H eq_refl) as [-> ->]. cbn [buf spare off]. rewrite L. change (zlen (@nil Z)) with 0.
    destruct (Z.leb_spec n 64); repeat split; auto; lia.
  - destruct (Z.leb_spec n (zlen (spare b))); cbn [buf spare off]; rewrite ?L; repeat split; auto; unfold Cap; lia.
Qed.
Print Assumptions C75_grow.
(** growing the length returns the old length, keeps the contents and adds n bytes — on every
    buffer but a new one, *)
Theorem C75_grow_len_partial : forall b n, isnil b = false -> 0 <= n ->
  exists b' new, GrowLen b n = Ok (Len b, b') /\ Bytes b' = Bytes b ++ new /\ zlen new = n /\
    (zlen (spare b) < n -> Forall (eq 0) new) /\ (n <= zlen (spare b) -> exists r, spare b = new ++ r).
Proof.
  intros b n H Hn. unfold GrowLen, Len, Bytes. rewrite H.
  destruct (Z.leb_spec n (zlen (spare b))) as [Hl|Hl].
  - replace (zlen (buf b) + n <? 0) with false by (pose proof (zlen_nonneg (buf b)); lia).
    eexists _, (firstn (Z.to_nat n) (spare b)). split; [reflexivity|]. cbn [buf]. unfold zlen in *. split.
    + rewrite firstn_app. rewrite firstn_all2 by lia. do 2 f_equal. lia.
    + split; [rewrite firstn_length; lia|]. split; [lia|]. intros _. eexists. symmetry. apply firstn_skipn.
  - eexists _, (zeros n). split; [reflexivity|]. cbn [buf]. split; auto.
    split; [unfold zeros, zlen; rewrite repeat_length; lia|]. split; [|lia]. intros _. unfold zeros. apply Forall_forall. intros x I. symmetry. exact (repeat_spec _ _ _ I).
Qed.
Print Assumptions C75_grow_len_partial.
(** where it leaves the length at zero. *)
Theorem C75_grow_len_new_refuted : forall n, exists b', GrowLen zero_flat n = Ok (0, b') /\ Len b' = 0.
Proof. intros n. eexists. split; reflexivity. Qed.
Print Assumptions C75_grow_len_new_refuted.
(** Replacing the contents keeps the read position: a later Read panics exactly when the new
    contents are shorter than what had been read. *)
Theorem C75_set_refuted : forall b p sp q, 0 <= off b ->
  Bytes (Set_ b p sp) = p /\ (Read (Set_ b p sp) q = Panic <-> zlen p < off b).
Proof.
  intros b p sp q H. split; [reflexivity|]. unfold Set_.
  destruct (Z.lt_ge_cases (zlen p) (off b)).
  - split; auto. intros _. unfold Read; cbn [buf off spare].
    replace ((0 <? 0) || (zlen p - off b <? 0)) with true by lia.
    rewrite slice_panic by lia. reflexivity.
  - rewrite read_nothing by (cbn [buf off]; lia). split; [discriminate|lia].
Qed.
Print Assumptions C75_set_refuted.
(** Otherwise they are there to be written to and to be grown, whatever the buffer held before. *)
Theorem C75_set_keeps : forall b p sp n e x,
  Bytes (Grow (Set_ b p sp) n) = p /\ Bytes (snd (Write (Set_ b p sp) x e)) = p ++ x /\
  (0 <= n -> exists b' new, GrowLen (Set_ b p sp) n = Ok (zlen p, b') /\ Bytes b' = p ++ new /\ zlen new = n).
Proof.
  intros b p sp n e x. split; [|split].
  - apply (C75_grow (Set_ b p sp) n). discriminate.
  - unfold Write, append, Set_. cbn [snd buf spare]. destruct (_ <=? _); reflexivity.
  - intros H. destruct (C75_grow_len_partial (Set_ b p sp) n eq_refl H) as (b' & new & A & B & C & _). exists b', new. repeat split; assumption.
Qed.
Print Assumptions C75_set_keeps.
Theorem C75_reset : forall b, Bytes (Reset b) = [] /\ LenOfUnread (Reset b) = 0 /\ Cap (Reset b) = Cap b.
Proof. intros b. repeat split. unfold Cap, Reset; cbn [buf spare]. rewrite zlen_app. reflexivity. Qed.
Print Assumptions C75_reset.
Example C75_example : GrowLen (Flat false [1] [7;8;9] 0) 2 = Ok (1, Flat false [1;7;8] [9] 0).
Proof. reflexivity. Qed.

(** Writing appends exactly what is given and says how much; what fits the free space leaves the
    capacity and the bytes after the written ones as they were. *)
Theorem C75_write : forall b p extra, let '(n, b') := Write b p extra in
  n = zlen p /\ Bytes b' = Bytes b ++ p /\ LenOfUnread b' = LenOfUnread b + zlen p /\
  (zlen p <= Cap b - Len b -> Cap b' = Cap b /\ spare b' = skipn (length p) (spare b)).
Proof.
  intros b p extra. unfold Write, append, Bytes, Cap, Len, LenOfUnread. destruct (zlen p <=? zlen (spare b)) eqn:E; cbn [buf spare off].
  - split; [reflexivity|]. split; [reflexivity|]. rewrite zlen_app. split; [lia|]. intros _. split; [|reflexivity].
    unfold zlen in *. rewrite skipn_length. lia.
  - split; [reflexivity|]. split; [reflexivity|]. rewrite zlen_app. split; lia.
Qed.
Print Assumptions C75_write.
Theorem C75_write_string : forall b p extra, let '(n, b') := WriteString b p extra in
  n = zlen p /\ Bytes b' = Bytes b ++ p /\ LenOfUnread b' = LenOfUnread b + zlen p.
Proof. intros b p extra. pose proof (C75_write b p extra) as H. unfold WriteString. destruct (Write b p extra). tauto. Qed.
Print Assumptions C75_write_string.
(** Reading at an offset gives nothing, whatever is there, and drops all that was unread. *)
Theorem C75_read_at_refuted : forall b offset limit, let '(out, b') := ReadAt b offset limit in
  out = [] /\ LenOfUnread b' = 0 /\ Bytes b' = Bytes b.
Proof. intros b o l. unfold ReadAt, LenOfUnread, Bytes. cbn [buf off]. split; [reflexivity|]. split; [lia|reflexivity]. Qed.
Print Assumptions C75_read_at_refuted.
(** So after Grow(n), writes of n bytes in all, in any pieces, never move the buffer. *)
Theorem C75_grow_then_write : forall ps b n, (isnil b = true -> buf b = [] /\ spare b = []) -> 0 <= n ->
  zlen (concat ps) <= n ->
  let b' := fold_left (fun b p => snd (Write b p [])) ps (Grow b n) in
  Cap b' = Cap (Grow b n) /\ Bytes b' = Bytes b ++ concat ps.
Proof.
  intros ps b n H N L.
  assert (G : Bytes (Grow b n) = Bytes b /\ n <= Cap (Grow b n) - Len (Grow b n)).
  { unfold Grow. destruct (isnil b) eqn:I.
    - destruct (H eq_refl) as (B & S0). unfold Bytes, Cap, Len, zeros. cbn [buf spare]. split; [now rewrite B|].
      unfold zlen. rewrite repeat_length. destruct (n <=? 64) eqn:Q; cbn [length]; lia.
    - destruct (n <=? zlen (spare b)) eqn:Q; unfold Bytes, Cap, Len in *; cbn [buf spare]; [split; [reflexivity|lia]|].
      split; [reflexivity|]. unfold zlen, zeros in *. rewrite repeat_length. lia. }
  destruct G as (G1 & G2). rewrite <- G1. clear G1 H. revert G2 L. generalize (Grow b n). clear b. revert n N.
  induction ps as [|p ps IH]; intros n N b G L; cbn [concat fold_left] in *; [now rewrite app_nil_r|].
  rewrite zlen_app in L. pose proof (zlen_nonneg p). pose proof (zlen_nonneg (concat ps)). pose proof (C75_write b p []) as W.
  destruct (Write b p []) as [k b1]. destruct W as (_ & W1 & _ & W2). destruct W2 as (W2 & _); [lia|]. cbn [snd].
  destruct (IH (n - zlen p) ltac:(lia) b1) as (A & B); [unfold Len, Bytes in *; rewrite W2, W1, zlen_app; lia|lia|].
  split; [congruence|]. rewrite B, W1. now rewrite <- app_assoc.
Qed.
Print Assumptions C75_grow_then_write.
Example C75_write_case : let b := Grow zero_flat 10 in
  Cap b = 64 /\ zlen (concat [[1; 2]; [3]]) <= 10 /\ Bytes (fold_left (fun b p => snd (Write b p [])) [[1; 2]; [3]] b) = [1; 2; 3].
Proof. vm_compute. repeat split; discriminate. Qed.

(** C27 exactly: the buffer is a queue from which ReadByte takes the first byte when there are two or more, and nothing else takes any. *)
Fixpoint queue_run (q : bytes) (ops : list op) : bytes * bytes :=
  match ops with
  | [] => ([], q)
  | OReadByte :: r =>
      match q with
      | x :: y :: t => let '(out, q') := queue_run (y :: t) r in (x :: out, q')
      | _ => queue_run q r
      end
  | o :: r => queue_run (q ++ op_writes o) r
  end.
Lemma skip_one {A} n : forall l : list A, skipn (S n) l = tl (skipn n l).
Proof. induction n as [|n IH]; intros [|x l]; try reflexivity. change (skipn (S (S n)) (x :: l)) with (skipn (S n) l). rewrite IH. reflexivity. Qed.
Lemma queue_exact ops : forall b, good b ->
  exists b', run b ops = Ok (fst (queue_run (skipn (Z.to_nat (off b)) (buf b)) ops), b') /\
    skipn (Z.to_nat (off b')) (buf b') = snd (queue_run (skipn (Z.to_nat (off b)) (buf b)) ops).
Proof.
  induction ops as [|o r IH]; intros b G; [exists b; split; reflexivity|].
  assert (Step : forall b1, run_op b o = Ok ([], b1) -> off b1 = off b -> good b1 -> buf b1 = buf b ++ op_writes o ->
    exists b', run b (o :: r) = Ok (fst (queue_run (skipn (Z.to_nat (off b)) (buf b) ++ op_writes o) r), b') /\
    skipn (Z.to_nat (off b')) (buf b') = snd (queue_run (skipn (Z.to_nat (off b)) (buf b) ++ op_writes o) r)).
  { intros b1 E O1 G1 B1. destruct (IH b1 G1) as (b' & R & U). rewrite O1, B1, skipn_app in R, U. pose proof (good_le b G) as Le. destruct G as (G0 & _).
    replace (Z.to_nat (off b) - length (buf b))%nat with O in R, U by (unfold zlen in Le; lia). cbn [skipn] in R, U.
    exists b'. cbn [run]. rewrite E. cbn [bind]. rewrite R. split; [reflexivity|exact U]. }
  assert (One : forall o1 b1, run_op b o = Ok (o1, b1) -> good b1 /\ buf b1 = buf b ++ op_writes o).
  { intros o1 b1 E. assert (R : run b [o] = Ok (o1 ++ [], b1)) by (cbn [run]; rewrite E; reflexivity).
    destruct (run_spec _ _ _ _ G R) as (G1 & B1 & _). unfold written in B1. cbn [flat_map] in B1. rewrite app_nil_r in B1. auto. }
  destruct o as [p extra|c extra|p| |n].
  - destruct (One [] (snd (Write b p extra)) eq_refl) as [G1 B1]. apply (Step _ eq_refl); auto. apply append_buf.
  - destruct (One [] (WriteByte b c extra) eq_refl) as [G1 B1]. apply (Step _ eq_refl); auto. apply append_buf.
  - assert (E : run_op b (ORead p) = Ok ([], b)).
    { cbn [run_op]. rewrite C27_read_refuted by (pose proof (good_le b G); destruct G; lia). reflexivity. }
    destruct (One _ _ E) as [G1 B1]. apply (Step _ E); auto.
  - clear Step One. pose proof (good_le b G) as Le. destruct G as (G0 & G1 & G2). set (q := skipn (Z.to_nat (off b)) (buf b)).
    assert (Lq : zlen q = zlen (buf b) - off b) by (unfold q, zlen; rewrite skipn_length; unfold zlen in Le; lia).
    cbn [run run_op]. unfold ReadByte. destruct (1 <? zlen (buf b) - off b) eqn:T.
    + destruct q as [|x [|y t]] eqn:Q; [change (zlen (@nil Z)) with 0 in Lq; lia|rewrite zlen_cons in Lq; change (zlen (@nil Z)) with 0 in Lq; lia|].
      assert (N : nth_error (buf b) (Z.to_nat (off b)) = Some x).
      { rewrite <- (firstn_skipn (Z.to_nat (off b)) (buf b)). fold q. rewrite Q. rewrite nth_error_app2; rewrite firstn_length_le; unfold zlen in Le; try lia. now rewrite Nat.sub_diag. }
      rewrite (idx_ok _ _ x) by (lia || exact N). cbn [bind]. unfold LenOfUnread. cbn [buf off].
      replace (zlen (buf b) - (off b + 1) =? zlen (buf b) - off b) with false by lia.
      set (b1 := Flat (isnil b) (buf b) (spare b) (off b + 1)).
      assert (Gb : good b1) by (unfold good, b1; cbn [off buf isnil spare]; split; [lia|]; split; [lia|exact G2]).
      destruct (IH b1 Gb) as (b' & R & U). unfold b1 in R, U at 1. cbn [off buf] in R, U.
      assert (K : skipn (Z.to_nat (off b + 1)) (buf b) = y :: t).
      { replace (Z.to_nat (off b + 1)) with (S (Z.to_nat (off b))) by lia. rewrite skip_one. fold q. now rewrite Q. }
      unfold b1 in U. cbn [off buf] in U. rewrite K in R, U. exists b'. fold b1 in R. rewrite R. cbn [bind queue_run].
      destruct (queue_run (y :: t) r) as [out q']. cbn [fst snd app] in *. split; [reflexivity|exact U].
    + assert (E : queue_run q (OReadByte :: r) = queue_run q r).
      { cbn [queue_run]. destruct q as [|x [|y t]]; try reflexivity. rewrite !zlen_cons in Lq. pose proof (zlen_nonneg t). lia. }
      rewrite E. cbn [bind]. rewrite Z.eqb_refl. destruct (IH b ltac:(split; auto)) as (b' & R & U). exists b'. rewrite R. cbn [bind app]. split; [reflexivity|exact U].
  - destruct (One [] (Grow b n) eq_refl) as [G1 B1]. apply (Step _ eq_refl); auto.
    destruct (C75_grow b n) as (_ & L & _); [apply G|]. unfold LenOfUnread in L. rewrite B1 in L. cbn [op_writes] in L. rewrite app_nil_r in L. lia.
Qed.
Theorem C27_queue_exact : forall ops, exists b,
  run zero_flat ops = Ok (fst (queue_run [] ops), b) /\ LenOfUnread b = zlen (snd (queue_run [] ops)) /\
  fst (queue_run [] ops) ++ snd (queue_run [] ops) = written ops.
Proof.
  intros ops. destruct (queue_exact ops zero_flat good_zero) as (b & R & U). change (skipn (Z.to_nat (off zero_flat)) (buf zero_flat)) with (@nil Z) in R, U.
  exists b. split; [exact R|]. destruct (run_spec _ _ _ _ good_zero R) as (G & B & O & F). cbn [buf zero_flat app] in B. change (off zero_flat) with 0 in *.
  rewrite Z.sub_0_r in F. cbn [skipn Z.to_nat] in F. rewrite <- U. split.
  - unfold LenOfUnread. pose proof (good_le b G). unfold zlen. rewrite skipn_length. unfold zlen in *. lia.
  - rewrite F, firstn_skipn. exact B.
Qed.
Print Assumptions C27_queue_exact.
Example C27_queue_case : queue_run [] [OWrite [1;2] []; OReadByte; OWriteByte 3 [0;0]; OGrow 5; ORead [9;9]; OReadByte; OReadByte] = ([1; 2], [3]).
Proof. reflexivity. Qed.
