From Coq Require Import ZifyBool ZifyNat Permutation.
From Verif Require Import Go GoFacts HeapModel HeapSpec.
Ltac Zify.zify_post_hook ::= Z.div_mod_to_equations.

(** Due time at a position. *)
Definition wh (l : list bucket) (i : nat) : Z :=
  match nth_error l i with Some b => b_when b | None => 0 end.
Definition par (i : nat) : nat := ((i - 1) / 4)%nat.

Lemma at_ok l i : (i < length l)%nat -> exists b, at_ l i = Ok b /\ nth_error l i = Some b.
Proof.
  intros H. unfold at_. destruct (nth_error l i) eqn:E; eauto.
  apply nth_error_None in E. lia.
Qed.
Lemma at_inv l i b : at_ l i = Ok b -> nth_error l i = Some b.
Proof. unfold at_. destruct (nth_error l i); congruence. Qed.
Lemma nth_some_lt {A} (l : list A) i a : nth_error l i = Some a -> (i < length l)%nat.
Proof. intros H. apply nth_error_Some. congruence. Qed.

Lemma wh_at l i b : nth_error l i = Some b -> wh l i = b_when b.
Proof. unfold wh. now intros ->. Qed.

Lemma wh_upd_eq l i b : (i < length l)%nat -> wh (upd l i b) i = b_when b.
Proof. intros H. unfold wh. now rewrite nth_error_upd_eq. Qed.
Lemma wh_upd_neq l i j b : i <> j -> wh (upd l i b) j = wh l j.
Proof. intros H. unfold wh. now rewrite nth_error_upd_neq. Qed.

Lemma heap_wh l : heap_ordered l <->
  (forall j, (0 < j < length l)%nat -> wh l (par j) <= wh l j).
Proof.
  split.
  - intros H j Hj. destruct (nth_error l j) as [a|] eqn:Ea.
    2:{ apply nth_error_None in Ea. lia. }
    assert (Hp : (par j < length l)%nat) by (unfold par; lia).
    destruct (nth_error l (par j)) as [b|] eqn:Eb.
    2:{ apply nth_error_None in Eb. lia. }
    rewrite (wh_at _ _ _ Ea), (wh_at _ _ _ Eb).
    destruct j as [|j]; [lia|]. apply (H j); auto.
    unfold par in Eb. cbn [Nat.sub] in Eb. now rewrite Nat.sub_0_r in Eb.
  - intros H i a b Ha Hb.
    specialize (H (S i)). unfold par in H. cbn [Nat.sub] in H. rewrite Nat.sub_0_r in H.
    rewrite (wh_at _ _ _ Ha), (wh_at _ _ _ Hb) in H. apply H.
    apply nth_some_lt in Ha. lia.
Qed.

Lemma heap_first l : heap_ordered l -> first_is_earliest l.
Proof.
  intros H. rewrite heap_wh in H. intros a b Ha Hb.
  apply In_nth_error in Hb as [n Hn].
  revert n b Hn. induction n as [n IH] using (well_founded_induction lt_wf). intros b Hn.
  destruct n as [|n].
  - rewrite Ha in Hn. inversion Hn; subst. lia.
  - pose proof (nth_some_lt _ _ _ Hn).
    assert (Hp : (par (S n) < length l)%nat) by (unfold par; lia).
    destruct (at_ok _ _ Hp) as (c & _ & Hc).
    assert (b_when a <= b_when c) by (apply (IH (par (S n))); auto; unfold par; lia).
    specialize (H (S n)). rewrite (wh_at _ _ _ Hn), (wh_at _ _ _ Hc) in H. lia.
Qed.

(** ** Permutation *)

Lemma upd_perm {A} (l : list A) i a b : nth_error l i = Some a ->
  Permutation (b :: l) (a :: upd l i b).
Proof.
  revert i; induction l as [|h t IH]; intros [|i] H; cbn in H; try discriminate.
  - inversion H; subst. cbn [upd]. apply perm_swap.
  - cbn [upd]. rewrite perm_swap, (IH i H). apply perm_swap.
Qed.

(** Replacing the entries at two positions by each other. *)
Lemma swap_perm {A} (l : list A) i j a b : i <> j ->
  nth_error l i = Some a -> nth_error l j = Some b ->
  Permutation l (upd (upd l i b) j a).
Proof.
  intros Hij Hi Hj.
  pose proof (upd_perm l i a b Hi) as P1.
  assert (Hj' : nth_error (upd l i b) j = Some b) by (now rewrite nth_error_upd_neq).
  pose proof (upd_perm (upd l i b) j b a Hj') as P2.
  apply Permutation_cons_inv with (a := b). now rewrite P1, P2.
Qed.

Lemma upd_upd {A} (l : list A) i a b : upd (upd l i a) i b = upd l i b.
Proof. revert i; induction l as [|h t IH]; intros [|i]; cbn; auto. now rewrite IH. Qed.

Lemma upd_comm {A} (l : list A) i j a b : i <> j -> upd (upd l i a) j b = upd (upd l j b) i a.
Proof.
  revert i j; induction l as [|h t IH]; intros [|i] [|j] H; cbn; auto; try lia.
  now rewrite IH by lia.
Qed.

Lemma upd_same {A} (l : list A) i a : nth_error l i = Some a -> upd l i a = l.
Proof.
  revert i; induction l as [|h t IH]; intros [|i] H; cbn in *; try discriminate; auto.
  - congruence.
  - now rewrite IH.
Qed.

(** One move of the hole: the list with the carried entry put back is a swap. *)
Lemma hole_swap {A} (l : list A) i j (x bj : A) : i <> j -> nth_error l j = Some bj ->
  upd (upd l i bj) j x = upd (upd (upd l i x) i bj) j x.
Proof. intros H1 H2. now rewrite upd_upd. Qed.

Lemma bucket_eqb_eq a b : bucket_eqb a b = true <-> a = b.
Proof.
  unfold bucket_eqb. destruct a as [ta wa], b as [tb wb]. cbn. split; intros H.
  - f_equal; lia.
  - inversion H; subst. lia.
Qed.

Lemma final_write l i tmp cur : nth_error l i = Some cur ->
  (if bucket_eqb tmp cur then l else upd l i tmp) = upd l i tmp.
Proof.
  intros H. destruct (bucket_eqb tmp cur) eqn:E; auto.
  apply bucket_eqb_eq in E. subst. symmetry. now apply upd_same.
Qed.

(** ** Orders around a position *)

(** Every parent/child pair not involving [i], and grandparent/grandchildren across [i]. *)
Definition near (v : list bucket) (i : nat) : Prop :=
  (forall j, (0 < j < length v)%nat -> j <> i -> par j <> i -> wh v (par j) <= wh v j) /\
  (forall j, (0 < j < length v)%nat -> par j = i -> (0 < i)%nat -> wh v (par i) <= wh v j).
(** All pairs but (parent of i, i). *)
Definition up_inv (v : list bucket) (i : nat) : Prop :=
  near v i /\ (forall j, (0 < j < length v)%nat -> par j = i -> wh v i <= wh v j).
(** All pairs but (i, child of i). *)
Definition down_inv (v : list bucket) (i : nat) : Prop :=
  near v i /\ ((0 < i < length v)%nat -> wh v (par i) <= wh v i).

Lemma near_up_heap v i : near v i ->
  (forall j, (0 < j < length v)%nat -> par j = i -> wh v i <= wh v j) ->
  ((0 < i < length v)%nat -> wh v (par i) <= wh v i) -> heap_ordered v.
Proof.
  intros [N1 N2] H1 H2. apply heap_wh. intros j Hj.
  destruct (Nat.eq_dec j i) as [->|Hji]; [auto|].
  destruct (Nat.eq_dec (par j) i) as [Hp|Hp]; [|auto]. rewrite Hp. auto.
Qed.

Lemma heap_near v i : heap_ordered v -> near v i.
Proof.
  intros H. rewrite heap_wh in H. split; auto.
  intros j Hj Hp Hi. assert (i < length v)%nat by (unfold par in Hp; lia).
  transitivity (wh v i); [apply H; lia|]. rewrite <- Hp. apply H; lia.
Qed.

(** Swapping [i] with its parent. *)
Lemma swap_up v i x : (0 < i < length v)%nat -> wh v i < wh v (par i) ->
  near v i -> nth_error v i = Some x ->
  forall bp, nth_error v (par i) = Some bp ->
  up_inv (upd (upd v i bp) (par i) x) (par i).
Proof.
  intros Hi Hlt [N1 N2] Hx bp Hbp. set (p := par i) in *.
  assert (Hpi : (p < i)%nat) by (unfold p, par; lia).
  assert (Lp : (p < length v)%nat) by lia.
  set (v' := upd (upd v i bp) p x).
  assert (Hl : length v' = length v) by (unfold v'; now rewrite !upd_length).
  assert (Wp : wh v' p = wh v i).
  { unfold v'. rewrite wh_upd_eq by (rewrite upd_length; lia). now rewrite (wh_at _ _ _ Hx). }
  assert (Wi : wh v' i = wh v p).
  { unfold v'. rewrite wh_upd_neq, wh_upd_eq by lia. now rewrite (wh_at _ _ _ Hbp). }
  assert (Wo : forall j, j <> i -> j <> p -> wh v' j = wh v j).
  { intros j H1 H2. unfold v'. now rewrite !wh_upd_neq by lia. }
  (* children of p in v, other than i, are >= old p *)
  assert (Cp : forall j, (0 < j < length v)%nat -> par j = p -> j <> i -> wh v p <= wh v j).
  { intros j Hj Hp Hji. rewrite <- Hp. apply N1; auto. unfold par in *; lia. }
  assert (Gp : (0 < p)%nat -> wh v (par p) <= wh v p).
  { intros Hp0. apply N1; try lia. unfold p, par in *; lia. }
  unfold up_inv, near. rewrite Hl. repeat split.
  - intros j Hj Hjp Hpj.
    destruct (Nat.eq_dec j i) as [->|Hji]; [now elim Hpj|].
    destruct (Nat.eq_dec (par j) i) as [Hc|Hc].
    + rewrite Hc, Wi, Wo by lia. apply N2; auto. lia.
    + rewrite !Wo by auto. auto.
  - intros j Hj Hpj Hp0. rewrite (Wo (par p)) by (unfold par in *; lia).
    destruct (Nat.eq_dec j i) as [->|Hji].
    + rewrite Wi. auto.
    + rewrite Wo by (auto; unfold par in *; lia).
      transitivity (wh v p); auto.
  - intros j Hj Hpj. rewrite Wp. destruct (Nat.eq_dec j i) as [->|Hji].
    + rewrite Wi. lia.
    + rewrite Wo by (auto; unfold par in *; lia). specialize (Cp j Hj Hpj Hji). lia.
Qed.

(** Swapping [i] with its earliest child [c]. *)
Lemma swap_down v i c x bc : (i < length v)%nat -> (0 < c < length v)%nat -> par c = i ->
  wh v c < wh v i ->
  (forall j, (0 < j < length v)%nat -> par j = i -> wh v c <= wh v j) ->
  down_inv v i -> nth_error v i = Some x -> nth_error v c = Some bc ->
  down_inv (upd (upd v i bc) c x) c.
Proof.
  intros Hi Hc Hpc Hlt Hmin [[N1 N2] Hup] Hx Hbc.
  assert (Hic : (i < c)%nat) by (unfold par in Hpc; lia).
  set (v' := upd (upd v i bc) c x).
  assert (Hl : length v' = length v) by (unfold v'; now rewrite !upd_length).
  assert (Wc : wh v' c = wh v i).
  { unfold v'. rewrite wh_upd_eq by (rewrite upd_length; lia). now rewrite (wh_at _ _ _ Hx). }
  assert (Wi : wh v' i = wh v c).
  { unfold v'. rewrite wh_upd_neq, wh_upd_eq by lia. now rewrite (wh_at _ _ _ Hbc). }
  assert (Wo : forall j, j <> i -> j <> c -> wh v' j = wh v j).
  { intros j H1 H2. unfold v'. now rewrite !wh_upd_neq by lia. }
  unfold down_inv, near. rewrite Hl. repeat split.
  - intros j Hj Hjc Hpj. destruct (Nat.eq_dec j i) as [->|Hji].
    + rewrite Wi. rewrite Wo by (unfold par in *; lia). apply N2; auto; lia.
    + rewrite (Wo j) by auto. destruct (Nat.eq_dec (par j) i) as [Hp|Hp].
      * rewrite Hp, Wi. auto.
      * rewrite Wo by auto. auto.
  - intros j Hj Hpj Hc0. rewrite Hpc, Wi. rewrite Wo by (unfold par in *; lia).
    rewrite <- Hpj. apply N1; auto; unfold par in *; lia.
  - intros _. rewrite Hpc, Wi, Wc. lia.
Qed.

(** ** Sift up *)

(** [fst] of the result, with the carried entry put back, from the virtual list. *)
Lemma siftup_loop_spec fuel : forall l i x,
  (i <= fuel)%nat -> (i < length l)%nat -> near (upd l i x) i ->
  exists l' i', siftup_loop fuel l (b_when x) i = Ok (l', i') /\ length l' = length l /\
    (i' <= i)%nat /\ Permutation (upd l i x) (upd l' i' x) /\
    (forall k, (k < i')%nat -> nth_error l' k = nth_error l k) /\
    ((i' = i /\ l' = l /\ down_inv (upd l i x) i) \/
     ((i' < i)%nat /\ (up_inv (upd l' i' x) i' /\ ((0 < i')%nat -> wh (upd l' i' x) (par i') <= b_when x)))).
Proof.
  induction fuel as [|f IH]; intros l i x Hf Hi Hn.
  - assert (i = O) by lia. subst. cbn [siftup_loop]. exists l, O.
    repeat split; auto. left. repeat split; try apply Hn. lia.
  - destruct i as [|i'].
    + cbn [siftup_loop]. exists l, O. repeat split; auto. left. repeat split; try apply Hn. lia.
    + remember (S i') as i eqn:Ei.
      assert (Epar : Nat.div i' heapAry = par i).
      { subst i. unfold par, heapAry. cbn [Nat.sub]. now rewrite Nat.sub_0_r. }
      assert (Hstep : siftup_loop (S f) l (b_when x) i =
        let! bp := at_ l (par i) in
        if b_when bp <=? b_when x then Ok (l, i)
        else siftup_loop f (upd l i bp) (b_when x) (par i)).
      { rewrite Ei at 1. cbn [siftup_loop]. rewrite <- Epar, <- Ei. reflexivity. }
      rewrite Hstep. assert (Hp : (par i < i)%nat) by (unfold par; lia).
      destruct (at_ok l (par i)) as (bp & Eb & Nb); [lia|]. rewrite Eb. cbn [bind].
      assert (Nbv : nth_error (upd l i x) (par i) = Some bp) by (rewrite nth_error_upd_neq; auto; lia).
      assert (Nxv : nth_error (upd l i x) i = Some x) by (now apply nth_error_upd_eq).
      assert (Wb : wh (upd l i x) (par i) = b_when bp) by (now apply wh_at).
      assert (Wx : wh (upd l i x) i = b_when x) by (now apply wh_at).
      destruct (Z.leb_spec (b_when bp) (b_when x)) as [Hle|Hlt].
      * exists l, i. repeat split; auto. left. repeat split; try apply Hn. intros _. lia.
      * assert (Hup : up_inv (upd (upd (upd l i x) i bp) (par i) x) (par i)).
        { apply swap_up; auto; rewrite ?upd_length; lia. }
        rewrite upd_upd in Hup.
        assert (Hperm : Permutation (upd l i x) (upd (upd l i bp) (par i) x)).
        { rewrite <- (upd_upd l i x bp). apply swap_perm; auto. lia. }
        destruct (IH (upd l i bp) (par i) x) as (l' & i2 & E & Hlen & Hle & HP & Hpre & Hcase).
        { lia. } { rewrite upd_length; lia. } { apply Hup. }
        exists l', i2. rewrite E. rewrite upd_length in Hlen.
        repeat split; auto; try lia.
        -- now rewrite Hperm.
        -- intros k Hk. rewrite Hpre by auto. apply nth_error_upd_neq. lia.
        -- right. split; [lia|]. destruct Hcase as [(-> & -> & Hd)|(Hlt2 & Hu)].
           ++ split; auto. intros H0. destruct Hd as [_ Hd].
              assert (wh (upd (upd l i bp) (par i) x) (par i) = b_when x).
              { apply wh_upd_eq. rewrite upd_length; lia. }
              rewrite <- H. apply Hd. rewrite !upd_length. lia.
           ++ exact Hu.
Qed.

Lemma siftup_spec l i : (i < length l)%nat -> near l i ->
  exists l' i', SiftUpTimer l i = Ok (l', i') /\ Permutation l l' /\ (i' <= i)%nat /\
    (forall k, (k < i')%nat -> nth_error l' k = nth_error l k) /\
    ((i' = i /\ l' = l /\ down_inv l i) \/ ((i' < i)%nat /\ heap_ordered l')).
Proof.
  intros Hi Hn. unfold SiftUpTimer.
  destruct (at_ok l i Hi) as (x & Ex & Nx). rewrite Ex. cbn [bind].
  assert (El : upd l i x = l) by (now apply upd_same).
  destruct (siftup_loop_spec i l i x) as (l' & i' & E & Hlen & Hle & HP & Hpre & Hc); auto.
  { now rewrite El. }
  rewrite E. cbn [bind].
  destruct (at_ok l' i') as (cur & Ec & Nc); [lia|]. rewrite Ec. cbn [bind].
  rewrite (final_write _ _ _ _ Nc).
  exists (upd l' i' x), i'. rewrite El in *. repeat split; auto.
  - intros k Hk. rewrite nth_error_upd_neq by lia. auto.
  - destruct Hc as [(-> & -> & Hd)|(Hlt & Hu & Hp)].
    + left. repeat split; auto; apply Hd.
    + right. split; auto. destruct Hu as [Hnear Hch].
      apply (near_up_heap _ i'); auto. intros [H0 _].
      rewrite (wh_upd_eq l' i' x) by lia. auto.
Qed.

(** ** Sift down *)

Lemma pick_child_spec l i : (i * 4 + 1 < length l)%nat ->
  exists c, pick_child l (i * 4 + 1) = Ok (c, wh l c) /\ (0 < c < length l)%nat /\ par c = i /\
    (forall j, (0 < j < length l)%nat -> par j = i -> wh l c <= wh l j).
Proof.
  intros H. unfold pick_child. change (Nat.div heapAry 2) with 2%nat.
  set (c := (i * 4 + 1)%nat) in *.
  assert (Hat : forall k, (k < length l)%nat -> exists b, at_ l k = Ok b /\ b_when b = wh l k).
  { intros k Hk. destruct (at_ok l k Hk) as (b & E & N). exists b. split; auto. symmetry. now apply wh_at. }
  assert (Ch : forall j, par j = i -> (0 < j)%nat -> j = c \/ j = (c + 1)%nat \/ j = (c + 2)%nat \/ j = (c + 3)%nat).
  { intros j Hj H0. unfold par in Hj. unfold c. lia. }
  assert (P0 : par c = i) by (unfold par, c; lia).
  assert (P1 : par (c + 1) = i) by (unfold par, c; lia).
  assert (P2 : par (c + 2) = i) by (unfold par, c; lia).
  assert (P3 : par (c + 2 + 1) = i) by (unfold par, c; lia).
  assert (Hc0 : (0 < c)%nat) by (unfold c; lia).
  clearbody c.
  destruct (Hat c) as (b0 & E0 & W0); [lia|]. rewrite E0. cbn [bind]. rewrite W0.
  destruct (Nat.ltb_spec (c + 1) (length l)) as [H1|H1].
  - destruct (Hat (c + 1)%nat) as (b1 & E1 & W1); [lia|]. rewrite E1. cbn [bind]. rewrite W1.
    assert (X : exists cc, (if wh l (c + 1) <? wh l c then ((c + 1)%nat, wh l (c + 1)) else (c, wh l c)) = (cc, wh l cc)
      /\ par cc = i /\ (0 < cc < length l)%nat /\ wh l cc <= wh l c /\ wh l cc <= wh l (c + 1)).
    { destruct (Z.ltb_spec (wh l (c + 1)) (wh l c)).
      - exists (c + 1)%nat. repeat split; auto; lia.
      - exists c. repeat split; auto; lia. }
    destruct X as (cc & -> & Pcc & Lcc & M0 & M1).
    destruct (Nat.ltb_spec (c + 2) (length l)) as [H2|H2].
    + destruct (Hat (c + 2)%nat) as (b2 & E2 & W2); [lia|]. rewrite E2. cbn [bind]. rewrite W2.
      destruct (Nat.ltb_spec (c + 2 + 1) (length l)) as [H3|H3].
      * destruct (Hat (c + 2 + 1)%nat) as (b3 & E3 & W3); [lia|]. rewrite E3. cbn [bind]. rewrite W3.
        assert (Y : exists c3, (if wh l (c + 2 + 1) <? wh l (c + 2) then ((c + 2 + 1)%nat, wh l (c + 2 + 1)) else ((c + 2)%nat, wh l (c + 2))) = (c3, wh l c3)
          /\ par c3 = i /\ (0 < c3 < length l)%nat /\ wh l c3 <= wh l (c + 2) /\ wh l c3 <= wh l (c + 2 + 1)).
        { destruct (Z.ltb_spec (wh l (c + 2 + 1)) (wh l (c + 2))).
          - exists (c + 2 + 1)%nat. repeat split; auto; lia.
          - exists (c + 2)%nat. repeat split; auto; lia. }
        destruct Y as (c3 & -> & Pc3 & Lc3 & M2 & M3).
        replace (c + 2 + 1)%nat with (c + 3)%nat in * by lia.
        destruct (Z.ltb_spec (wh l c3) (wh l cc)).
        -- exists c3. repeat split; auto; try lia. intros j Hj Hp.
           destruct (Ch j) as [->|[->|[->| ->]]]; auto; lia.
        -- exists cc. repeat split; auto; try lia. intros j Hj Hp.
           destruct (Ch j) as [->|[->|[->| ->]]]; auto; lia.
      * cbn [bind]. destruct (Z.ltb_spec (wh l (c + 2)) (wh l cc)).
        -- exists (c + 2)%nat. repeat split; auto; try lia. intros j Hj Hp.
           destruct (Ch j) as [->|[->|[->| ->]]]; auto; lia.
        -- exists cc. repeat split; auto; try lia. intros j Hj Hp.
           destruct (Ch j) as [->|[->|[->| ->]]]; auto; lia.
    + exists cc. repeat split; auto; try lia. intros j Hj Hp.
      destruct (Ch j) as [->|[->|[->| ->]]]; auto; lia.
  - cbn [bind]. replace (Nat.ltb (c + 2) (length l)) with false by lia.
    exists c. repeat split; auto; try lia. intros j Hj Hp.
    destruct (Ch j) as [->|[->|[->| ->]]]; auto; lia.
Qed.

Lemma pick_child_upd l i x c w : pick_child (upd l i x) (i * 4 + 1) = Ok (c, w) ->
  pick_child l (i * 4 + 1) = Ok (c, w).
Proof.
  unfold pick_child, at_. rewrite upd_length. change (Nat.div heapAry 2) with 2%nat.
  rewrite !nth_error_upd_neq by lia. auto.
Qed.

Lemma siftdown_loop_spec fuel : forall l i x,
  (length l < fuel + i)%nat -> (i < length l)%nat -> down_inv (upd l i x) i ->
  exists l' i', siftdown_loop fuel l (b_when x) i = Ok (l', i') /\ length l' = length l /\
    (i' < length l)%nat /\ Permutation (upd l i x) (upd l' i' x) /\ heap_ordered (upd l' i' x).
Proof.
  induction fuel as [|f IH]; intros l i x Hf Hi Hd; [lia|].
  cbn [siftdown_loop]. unfold heapAry at 1 2.
  assert (Wx : wh (upd l i x) i = b_when x) by (now apply wh_upd_eq).
  destruct (Nat.leb_spec (length l) (i * 4 + 1)) as [Hleaf|Hch].
  - exists l, i. repeat split; auto. destruct Hd as [Hn Hp].
    apply (near_up_heap _ i); auto. rewrite upd_length. intros j Hj Hpj. unfold par in Hpj. lia.
  - destruct (pick_child_spec (upd l i x) i) as (c & E & Hc & Hpc & Hmin); [rewrite upd_length; lia|].
    change (i * heapAry + 1)%nat with (i * 4 + 1)%nat.
    rewrite (pick_child_upd _ _ _ _ _ E). cbn [bind]. rewrite upd_length in *.
    destruct (Z.leb_spec (b_when x) (wh (upd l i x) c)) as [Hle|Hlt].
    + exists l, i. repeat split; auto. destruct Hd as [Hn Hp].
      apply (near_up_heap _ i); auto. rewrite upd_length. intros j Hj Hpj.
      specialize (Hmin j Hj Hpj). lia.
    + assert (Hic : (i < c)%nat) by (unfold par in Hpc; lia).
      destruct (at_ok l c) as (bc & Eb & Nb); [lia|]. rewrite Eb. cbn [bind].
      assert (Nbv : nth_error (upd l i x) c = Some bc) by (rewrite nth_error_upd_neq; auto; lia).
      assert (Nxv : nth_error (upd l i x) i = Some x) by (now apply nth_error_upd_eq).
      assert (Hd' : down_inv (upd (upd (upd l i x) i bc) c x) c).
      { apply swap_down; rewrite ?upd_length; auto; lia. }
      rewrite upd_upd in Hd'.
      assert (Hperm : Permutation (upd l i x) (upd (upd l i bc) c x)).
      { rewrite <- (upd_upd l i x bc). apply swap_perm; auto. lia. }
      destruct (IH (upd l i bc) c x) as (l' & i' & E' & Hlen & Hlt' & HP & Hh).
      { rewrite upd_length; lia. } { rewrite upd_length; lia. } { exact Hd'. }
      rewrite upd_length in *. exists l', i'. rewrite E'. repeat split; auto. now rewrite Hperm.
Qed.

Lemma siftdown_spec l i : (i < length l)%nat -> down_inv l i ->
  exists l', SiftDownTimer l i = Ok l' /\ Permutation l l' /\ heap_ordered l'.
Proof.
  intros Hi Hd. unfold SiftDownTimer.
  destruct (at_ok l i Hi) as (x & Ex & Nx). rewrite Ex. cbn [bind].
  assert (El : upd l i x = l) by (now apply upd_same).
  destruct (siftdown_loop_spec (S (length l)) l i x) as (l' & i' & E & Hlen & Hlt & HP & Hh); auto.
  { lia. } { now rewrite El. }
  rewrite E. cbn [bind].
  destruct (at_ok l' i') as (cur & Ec & Nc); [lia|]. rewrite Ec. cbn [bind].
  rewrite (final_write _ _ _ _ Nc). exists (upd l' i' x). rewrite El in HP. auto.
Qed.

(** ** Operations *)

Lemma near_app_last l b : heap_ordered l -> near (l ++ [b]) (length l).
Proof.
  intros H. rewrite heap_wh in H. split; rewrite app_length; cbn [length].
  - intros j Hj Hne Hp. unfold wh. rewrite !nth_error_app1 by (unfold par in *; lia).
    apply H. lia.
  - intros j Hj Hp. unfold par in Hp. lia.
Qed.

Lemma add_spec l b : heap_ordered l ->
  exists l', heap_add l b = Ok l' /\ Permutation l' (b :: l) /\ heap_ordered l'.
Proof.
  intros H. unfold heap_add.
  destruct (siftup_spec (l ++ [b]) (length l)) as (l' & i' & E & HP & _ & _ & Hc).
  { rewrite app_length; cbn; lia. } { now apply near_app_last. }
  rewrite E. cbn [bind fst]. exists l'. repeat split; auto.
  - rewrite <- HP. now rewrite Permutation_app_comm.
  - destruct Hc as [(_ & -> & Hn & Hp)|(_ & Hh)]; auto.
    apply (near_up_heap _ (length l)); auto.
    rewrite app_length; cbn [length]. intros j Hj Hpj. unfold par in Hpj. lia.
Qed.

Lemma firstn_last_upd {A} (l : list A) i a : (i < length l - 1)%nat ->
  firstn (length l - 1) (upd l i a) = upd (firstn (length l - 1) l) i a.
Proof.
  revert i; induction l as [|h t IH]; intros i Hi; cbn [length] in *; [lia|].
  destruct t as [|h' t]; cbn [length] in *; [lia|].
  replace (S (S (length t)) - 1)%nat with (S (S (length t) - 1)) in * by lia.
  destruct i as [|i]; cbn [upd firstn]; [reflexivity|]. f_equal.
  specialize (IH i). cbn [length] in IH. rewrite <- IH by lia. reflexivity.
Qed.

Lemma removelast_split {A} (l : list A) b : nth_error l (length l - 1) = Some b ->
  l = firstn (length l - 1) l ++ [b].
Proof.
  intros H. destruct (nth_error_split _ _ H) as (l1 & l2 & El & Hl).
  assert (l2 = []).
  { rewrite El in Hl. rewrite app_length in Hl. cbn [length] in Hl. destruct l2; auto.
    cbn [length] in Hl. lia. }
  subst l2. rewrite <- Hl. rewrite El at 2. rewrite firstn_app, Nat.sub_diag. cbn [firstn].
  rewrite app_nil_r, firstn_all. exact El.
Qed.

Lemma near_moved l i b : heap_ordered l -> (i < length l - 1)%nat ->
  near (upd (firstn (length l - 1) l) i b) i.
Proof.
  intros H Hi. rewrite heap_wh in H.
  assert (W : forall j, (j < length l - 1)%nat -> j <> i ->
    wh (upd (firstn (length l - 1) l) i b) j = wh l j).
  { intros j Hj Hne. rewrite wh_upd_neq by lia. unfold wh.
    now rewrite nth_error_firstn_lt by lia. }
  assert (Hlen : length (upd (firstn (length l - 1) l) i b) = (length l - 1)%nat)
    by (rewrite upd_length, firstn_length; lia).
  split; rewrite Hlen.
  - intros j Hj Hne Hp. rewrite !W by (auto; unfold par in *; lia). apply H. lia.
  - intros j Hj Hp Hi0. rewrite !W by (unfold par in *; lia).
    transitivity (wh l i); [apply H; lia|]. rewrite <- Hp. apply H; lia.
Qed.

Lemma delete_spec l i : heap_ordered l -> (i < length l)%nat ->
  exists l' s b, DeleteTimer l i = Ok (l', s) /\ nth_error l i = Some b /\ Permutation l (b :: l') /\
    heap_ordered l' /\ (s <= i)%nat.
Proof.
  intros H Hi. unfold DeleteTimer.
  destruct (at_ok l i Hi) as (x & Ex & Nx). rewrite Ex. cbn [bind].
  destruct (at_ok l (length l - 1)) as (bl & El & Nl); [lia|]. rewrite El. cbn [bind].
  pose proof (removelast_split l bl Nl) as Hsplit.
  destruct (Nat.eqb_spec i (length l - 1)) as [Heq|Hne].
  - exists (firstn (length l - 1) l), i, x. repeat split; auto.
    + subst i. rewrite Nl in Nx. inversion Nx; subst.
      rewrite Hsplit at 1. now rewrite Permutation_app_comm.
    + rewrite heap_wh in *. intros j Hj. rewrite firstn_length in Hj.
      assert (W : forall k, (k < length l - 1)%nat -> wh (firstn (length l - 1) l) k = wh l k).
      { intros k Hk. unfold wh. now rewrite nth_error_firstn_lt by lia. }
      rewrite !W by (unfold par; lia). apply H. lia.
  - rewrite firstn_last_upd by lia.
    set (m := firstn (length l - 1) l) in *.
    assert (Lm : length m = (length l - 1)%nat) by (unfold m; rewrite firstn_length; lia).
    assert (Hnear : near (upd m i bl) i) by (apply near_moved; auto; lia).
    assert (Nxm : nth_error m i = Some x).
    { rewrite Hsplit in Nx. rewrite nth_error_app1 in Nx by lia. exact Nx. }
    assert (HP0 : Permutation l (x :: upd m i bl)).
    { rewrite Hsplit at 1. rewrite Permutation_app_comm. cbn [app].
      now apply upd_perm. }
    destruct (siftup_spec (upd m i bl) i) as (l1 & s & E1 & HP1 & Hs & _ & Hc); auto.
    { rewrite upd_length. lia. }
    rewrite E1. cbn [bind].
    assert (Hd : down_inv l1 i).
    { destruct Hc as [(_ & -> & Hd)|(_ & Hh)]; auto.
      split; [now apply heap_near|]. rewrite heap_wh in Hh. apply Hh. }
    assert (L1 : length l1 = (length l - 1)%nat)
      by (rewrite <- (Permutation_length HP1), upd_length; auto).
    destruct (siftdown_spec l1 i) as (l2 & E2 & HP2 & Hh2); auto; [lia|].
    rewrite E2. cbn [bind]. exists l2, s, x. repeat split; auto.
    now rewrite HP0, HP1, HP2.
Qed.

Lemma delete0_spec l : heap_ordered l -> l <> [] ->
  exists l' b, DeleteTimer0 l = Ok l' /\ nth_error l 0 = Some b /\ Permutation l (b :: l') /\
    heap_ordered l'.
Proof.
  intros H Hne. unfold DeleteTimer0.
  assert (Hlen : (0 < length l)%nat) by (destruct l; [congruence|cbn; lia]).
  destruct (at_ok l 0 Hlen) as (x & Ex & Nx). rewrite Ex. cbn [bind].
  destruct (at_ok l (length l - 1)) as (bl & El & Nl); [lia|]. rewrite El. cbn [bind].
  pose proof (removelast_split l bl Nl) as Hsplit.
  destruct (Nat.ltb_spec 0 (length l - 1)) as [Hlt|Hge].
  - rewrite firstn_last_upd by lia.
    set (m := firstn (length l - 1) l) in *.
    assert (Lm : length m = (length l - 1)%nat) by (unfold m; rewrite firstn_length; lia).
    assert (Hnear : near (upd m 0 bl) 0) by (apply near_moved; auto; lia).
    assert (Nxm : nth_error m 0 = Some x).
    { rewrite Hsplit in Nx. rewrite nth_error_app1 in Nx by lia. exact Nx. }
    destruct (siftdown_spec (upd m 0 bl) 0) as (l2 & E2 & HP2 & Hh2).
    { rewrite upd_length; lia. } { split; auto. lia. }
    exists l2, x. repeat split; auto. rewrite <- HP2, Hsplit at 1.
    rewrite Permutation_app_comm. cbn [app]. now apply upd_perm.
  - destruct l as [|y [|z t]]; cbn [length] in *; try lia.
    cbn [length Nat.sub firstn]. exists [], y. cbn in *. inversion Nx; subst.
    repeat split; auto. intros i a b Ha. destruct i; discriminate.
Qed.

Lemma heap_nil : heap_ordered [].
Proof. intros i a b Ha. destruct i; discriminate. Qed.

Lemma step_spec l o : heap_ordered l -> ~ op_misuse l o ->
  exists l', heap_step l o = Ok l' /\ op_effect l o l' /\ heap_ordered l'.
Proof.
  intros H Hm. destruct o as [b|i|]; cbn [heap_step op_effect op_misuse] in *.
  - apply add_spec; auto.
  - destruct (delete_spec l i) as (l' & s & b & E & N & P & Hh & _); auto; [lia|].
    rewrite E. cbn [bind fst]. exists l'. repeat split; auto. exists b; auto.
  - destruct (delete0_spec l) as (l' & b & E & N & P & Hh); auto.
    exists l'. split; auto. split; auto. exists b. repeat split; auto.
    intros c Hc. exact (heap_first l H b c N Hc).
Qed.

Lemma step_misuse l o : op_misuse l o -> heap_step l o = Panic.
Proof.
  destruct o as [b|i|]; cbn [heap_step op_misuse]; intros H; [contradiction| |].
  - unfold DeleteTimer, at_. apply nth_error_None in H. now rewrite H.
  - subst. reflexivity.
Qed.

Lemma misuse_dec l o : {op_misuse l o} + {~ op_misuse l o}.
Proof.
  destruct o as [b|i|]; cbn; [right; auto|destruct (le_dec (length l) i); auto|].
  destruct l; [left; auto|right; discriminate].
Qed.

Lemma reachable_heap l : heap_reachable l -> heap_ordered l.
Proof.
  induction 1 as [|l o l' Hr IH Hs]; [apply heap_nil|].
  destruct (misuse_dec l o) as [Hm|Hm].
  - rewrite (step_misuse _ _ Hm) in Hs. discriminate.
  - destruct (step_spec l o IH Hm) as (l2 & E & _ & Hh). rewrite Hs in E; inversion E; now subst.
Qed.

Lemma heap_correct : forall l, heap_reachable l ->
  heap_ordered l /\ first_is_earliest l /\
  forall o, (op_misuse l o -> heap_step l o = Panic) /\
    (~ op_misuse l o -> exists l', heap_step l o = Ok l' /\ op_effect l o l').
Proof.
  intros l Hr. pose proof (reachable_heap l Hr) as H.
  split; auto. split; [now apply heap_first|]. intros o. split.
  - apply step_misuse.
  - intros Hm. destruct (step_spec l o H Hm) as (l' & E & Ho & _). eauto.
Qed.

(** ** Draining *)
Lemma drain_spec : forall n l, length l = n -> heap_ordered l ->
  exists out, drain n l = Ok out /\ Permutation l out /\ due_sorted out.
Proof.
  induction n as [|n IH]; intros l Hl Hh.
  - destruct l; [|discriminate]. exists []. repeat split; auto. apply ds_nil.
  - destruct l as [|b t]; [discriminate|].
    destruct (delete0_spec (b :: t) Hh) as (l' & b' & E & N & P & Hh'); [discriminate|].
    cbn in N. inversion N; subst b'. cbn [drain]. rewrite E. cbn [bind].
    destruct (IH l') as (out & Eo & Po & So); auto.
    { apply Permutation_length in P. cbn [length] in *. lia. }
    rewrite Eo. cbn [bind]. exists (b :: out). repeat split; auto.
    + rewrite P. now constructor.
    + constructor; auto. intros c Hc. apply (heap_first _ Hh b c); [reflexivity|].
      rewrite P, Po. now right.
Qed.
