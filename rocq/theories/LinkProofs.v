From Coq Require Import ZifyBool ZifyNat.
From Verif Require Import Go GoFacts AddrProofs LinkModel.

(** * Chapar frames *)
Lemma hdr_idx (t n k : Z) l : idx (t :: n :: k :: l) 0 = Ok t /\ idx (t :: n :: k :: l) 1 = Ok n /\ idx (t :: n :: k :: l) 2 = Ok k.
Proof. repeat split; reflexivity. Qed.
Lemma set_port t n k a x b p : zlen a = k -> 0 <= k <= 252 ->
  SetPortNum (t :: n :: k :: a ++ x :: b) k p = Ok (t :: n :: k :: a ++ p :: b).
Proof.
  intros L H. unfold SetPortNum. rewrite u8_small by lia. change (t :: n :: k :: a ++ x :: b) with ((t :: n :: k :: a) ++ x :: b).
  rewrite set_at by (rewrite !zlen_cons; lia). reflexivity.
Qed.
Lemma inc_step t n k a x b p : zlen a = k -> 0 <= k < n -> n <= 252 ->
  IncrementNextHop (t :: n :: k :: a ++ x :: b) p =
    Ok (t :: n :: (if k =? n - 1 then k else k + 1) :: a ++ p :: b, k =? n - 1).
Proof.
  intros L H N. unfold IncrementNextHop, NextHop, HopCount, IsBroadcastFrame. destruct (hdr_idx t n k (a ++ x :: b)) as (_ & -> & ->). cbn [bind].
  replace (n =? 0) with false by lia. cbn [bind]. rewrite set_port by (auto; lia). cbn [bind]. rewrite u8_small by lia.
  destruct (Z.eqb_spec k (n - 1)); [reflexivity|]. destruct (hdr_idx t n k (a ++ p :: b)) as (_ & _ & ->). cbn [bind].
  change (t :: n :: k :: a ++ p :: b) with ([t; n] ++ k :: a ++ p :: b). rewrite set_at by reflexivity. cbn [bind]. rewrite u8_small by lia. reflexivity.
Qed.

Lemma forward_part t n : n <= 252 -> forall ports a b k, zlen a = k -> 0 <= k -> k + zlen ports < n -> zlen ports <= zlen b ->
  forward (t :: n :: k :: a ++ b) ports = Ok (t :: n :: (k + zlen ports) :: a ++ ports ++ skipn (length ports) b, repeat false (length ports)).
Proof.
  intros N. induction ports as [|p r IH]; intros a b k L K H B.
  - cbn [forward length skipn repeat app]. change (zlen (@nil Z)) with 0. rewrite Z.add_0_r. reflexivity.
  - rewrite zlen_cons in H, B. pose proof (zlen_nonneg r). destruct b as [|x b]; [change (zlen (@nil Z)) with 0 in B; lia|]. rewrite zlen_cons in B.
    cbn [forward]. rewrite inc_step by lia. cbn [bind]. replace (k =? n - 1) with false by lia. cbv iota.
    replace (a ++ p :: b) with ((a ++ [p]) ++ b) by (rewrite <- app_assoc; reflexivity).
    rewrite IH by (rewrite ?zlen_app; change (zlen [p]) with 1; lia). cbn [bind length skipn repeat]. rewrite <- app_assoc. cbn [app].
    replace (k + 1 + zlen r) with (k + zlen (p :: r)) by (rewrite zlen_cons; lia). reflexivity.
Qed.
Lemma forward_app f p1 p2 : forward f (p1 ++ p2) =
  let! r_ := forward f p1 in let '(f, l1) := r_ in let! s_ := forward f p2 in let '(f, l2) := s_ in Ok (f, l1 ++ l2).
Proof.
  revert f. induction p1 as [|p r IH]; intros f; cbn [app forward].
  - cbn [bind]. destruct (forward f p2) as [(g, l)|]; reflexivity.
  - destruct (IncrementNextHop f p) as [(g, b)|]; [|reflexivity]. cbn [bind]. rewrite IH. destruct (forward g r) as [(h, l)|]; [|reflexivity]. cbn [bind].
    destruct (forward h p2) as [(i, m)|]; reflexivity.
Qed.

(** * Reversing a path *)
Definition rd (l : bytes) (i : Z) : Z := nth (Z.to_nat i) l 0.
Lemma idx_rd (l : bytes) i : 0 <= i < zlen l -> idx l i = Ok (rd l i).
Proof. intros H. unfold rd. rewrite <- (Z2Nat.id i) at 1 by lia. apply idx_nat, nth_error_nth'. unfold zlen in H. lia. Qed.
Lemma rd_upd (l : bytes) i j v : 0 <= i < zlen l -> 0 <= j -> rd (upd l (Z.to_nat i) v) j = if j =? i then v else rd l j.
Proof.
  intros H J. unfold rd, zlen in *. destruct (Z.eqb_spec j i) as [->|N].
  - apply nth_error_nth. apply nth_error_upd_eq. lia.
  - rewrite <- !nth_default_eq. unfold nth_default. rewrite nth_error_upd_neq by lia. reflexivity.
Qed.
Lemma rev_ok : forall k p r n j, zlen p = 255 -> zlen r = 255 -> 2 <= n <= 255 -> 0 <= j -> 2 * j <= n + 1 -> (n - j < Z.of_nat k) ->
  (forall i, 0 <= i < n -> i < j \/ n - j <= i -> rd r i = rd p (n - 1 - i)) ->
  exists q, rev_loop k p r (n - 1 - j) j = Some (Ok (q, n / 2 - 1)) /\ zlen q = 255 /\
    (forall i, 0 <= i < n -> rd q i = rd p (n - 1 - i)) /\ (forall i, n <= i -> rd q i = rd r i).
Proof.
  induction k as [|k IH]; intros p r n j Lp Lr Hn Hj H2 Hk Inv; [lia|]. cbn [rev_loop].
  destruct (Z.leb_spec j (n - 1 - j)) as [C|C].
  - rewrite (idx_rd p j), (idx_rd p (n - 1 - j)) by lia. cbn [bind]. rewrite set_idx_ok by lia. cbn [bind].
    rewrite set_idx_ok by (rewrite zlen_upd; lia). rewrite !u8_small by lia.
    replace (n - 1 - j - 1) with (n - 1 - (j + 1)) by lia.
    destruct (IH p (upd (upd r (Z.to_nat (n - 1 - j)) (rd p j)) (Z.to_nat j) (rd p (n - 1 - j))) n (j + 1)) as (q & E & Lq & Q & R); try lia.
    + rewrite !zlen_upd; lia.
    + intros i Hi D. rewrite !rd_upd by (rewrite ?zlen_upd; lia). destruct (Z.eqb_spec i j) as [->|]; [reflexivity|].
      destruct (Z.eqb_spec i (n - 1 - j)) as [->|]; [f_equal; lia|]. apply Inv; lia.
    + exists q. split; [exact E|]. split; [auto|]. split; [auto|]. intros i Hi. rewrite R by auto.
      rewrite !rd_upd by (rewrite ?zlen_upd; lia). replace (i =? j) with false by lia. replace (i =? n - 1 - j) with false by lia. reflexivity.
  - exists r. split; [|split; [auto|split; [|auto]]].
    + do 3 f_equal. Z.div_mod_to_equations; lia.
    + intros i Hi. apply Inv; lia.
Qed.
Lemma rd_ext (a b : bytes) : zlen a = zlen b -> (forall i, 0 <= i < zlen a -> rd a i = rd b i) -> a = b.
Proof.
  intros L H. apply (nth_ext _ _ 0 0); [unfold zlen in L; lia|]. intros m Hm. specialize (H (Z.of_nat m)). unfold rd in H. rewrite Nat2Z.id in H. apply H. unfold zlen. lia.
Qed.
Lemma rd_firstn (l : bytes) n i : 0 <= i < n -> rd (firstn (Z.to_nat n) l) i = rd l i.
Proof.
  intros H. unfold rd. rewrite <- !nth_default_eq. unfold nth_default. rewrite nth_error_firstn_lt by lia. reflexivity.
Qed.
Lemma rd_rev (l : bytes) i : 0 <= i < zlen l -> rd (rev l) i = rd l (zlen l - 1 - i).
Proof. intros H. unfold rd, zlen in *. rewrite rev_nth by lia. f_equal. lia. Qed.
Lemma copy_reverse p r : zlen (parr p) = 255 -> zlen (parr r) = 255 -> 2 <= plen p <= 255 ->
  exists q, CopyReverseTo p r = Some (Ok (Path q (plen p / 2 - 1))) /\ 
    q = rev (firstn (Z.to_nat (plen p)) (parr p)) ++ skipn (Z.to_nat (plen p)) (parr r).
Proof.
  intros Lp Lr H. unfold CopyReverseTo. rewrite u8_small by lia.
  destruct (rev_ok 256 (parr p) (parr r) (plen p) 0 Lp Lr H ltac:(lia) ltac:(lia) ltac:(lia) ltac:(intros; lia)) as (q & E & Lq & Q & R).
  replace (plen p - 1 - 0) with (plen p - 1) in E by lia. rewrite E. exists q. split; [reflexivity|].
  assert (LF : zlen (rev (firstn (Z.to_nat (plen p)) (parr p))) = plen p).
  { unfold zlen in *. rewrite rev_length, firstn_length. lia. }
  apply rd_ext.
  - rewrite zlen_app, LF. unfold zlen in *. rewrite skipn_length. lia.
  - intros i Hi. destruct (Z_lt_ge_dec i (plen p)) as [C|C].
    + rewrite Q by lia. unfold rd at 2. rewrite app_nth1 by (unfold zlen in LF; lia). fold (rd (rev (firstn (Z.to_nat (plen p)) (parr p))) i).
      assert (LF2 : zlen (firstn (Z.to_nat (plen p)) (parr p)) = plen p) by (unfold zlen in *; rewrite firstn_length; lia).
      rewrite rd_rev by lia. rewrite LF2. rewrite rd_firstn by lia. reflexivity.
    + rewrite R by lia. unfold rd. rewrite app_nth2 by (unfold zlen in LF; lia). unfold zlen in LF.
      rewrite <- !nth_default_eq. unfold nth_default. rewrite nth_error_skipn_add.
      match goal with |- context [nth_error (parr r) (Z.to_nat (plen p) + ?m)%nat] => replace (Z.to_nat (plen p) + m)%nat with (Z.to_nat i) by lia end. reflexivity.
Qed.
Lemma firstn_len_app (a b : bytes) n : length a = n -> firstn n (a ++ b) = a.
Proof. intros <-. rewrite firstn_app, Nat.sub_diag, firstn_all. cbn [firstn]. apply app_nil_r. Qed.
