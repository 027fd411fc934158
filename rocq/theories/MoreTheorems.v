(** C58, C61, C69, C74 and C112 in general: refutations for all inputs of a kind instead of an example. *)
From Coq Require Import ZifyBool ZifyNat.
From Verif Require Import Go GoFacts Base64Model IdModel IdTheorems HttpModel HttpTheorems.
From Verif Require TcpModel TcpTheorems PoolModel SyncModel SyncTheorems.
Open Scope string_scope. Import ListNotations. Open Scope Z_scope. Open Scope list_scope.
Ltac Zify.zify_post_hook ::= Z.div_mod_to_equations.

(** * C58 *)
Section C58.
Import TcpModel.
(** every check comes when it is due *)
Fixpoint all_due (k : keep) (use : Z) (times : list Z) : Prop :=
  match times with
  | [] => True
  | t :: r => 0 <= nextCheck k <= t /\ t < 2 ^ 62 /\ all_due (fst (fst (CheckInterval k Established use t))) use r
  end.
(** Ten probes where nine are configured, whatever the intervals and however late the checks: of any number
    of due checks with no traffic the first ten probe and every later one closes. *)
Theorem C58_ten_refuted : forall times k use, enable k = true -> lastUse k = use -> 0 <= interval k < 2 ^ 40 -> 0 <= retry k <= 10 -> all_due k use times ->
  snd (checks k use times) = let n := Z.to_nat (10 - retry k) in repeat Probe (Nat.min n (length times)) ++ repeat CloseStream (length times - n).
Proof.
  induction times as [|t r IH]; intros k use E U I R D; cbv zeta; [cbn [checks snd length]; rewrite Nat.min_0_r; reflexivity|].
  destruct D as (N & T & D). assert (P40 : 10 < 2 ^ 40) by reflexivity. cbn [checks]. pose proof (TcpTheorems.C58_due k use t E ltac:(lia) U I ltac:(lia) T ltac:(lia)) as C. cbv zeta in C. rewrite C in D |- *. cbn [length].
  destruct (Z.ltb_spec (retry k) 10) as [L|L]; cbn [fst] in D.
  - match goal with |- snd (let '(_, _) := checks ?k1 _ _ in _) = _ => specialize (IH k1 use eq_refl eq_refl I); set (k1' := k1) in * end.
    specialize (IH ltac:(cbn [k1' retry]; lia) D). cbv zeta in IH. destruct (checks k1' use r) as (k2, l). cbn [snd] in *. rewrite IH. cbn [k1' retry].
    replace (Z.to_nat (10 - retry k)) with (S (Z.to_nat (10 - (retry k + 1)))) by lia. reflexivity.
  - match goal with |- snd (let '(_, _) := checks ?k1 _ _ in _) = _ => specialize (IH k1 use eq_refl eq_refl I); set (k1' := k1) in * end.
    specialize (IH ltac:(cbn [k1' retry]; lia) D). cbv zeta in IH. destruct (checks k1' use r) as (k2, l). cbn [snd] in *. rewrite IH. cbn [k1' retry].
    replace (Z.to_nat (10 - retry k)) with 0%nat by lia. cbn [Nat.min repeat app]. rewrite !Nat.sub_0_r. reflexivity.
Qed.
Example C58_ten_nonvacuous : let k := Keep true 7200 75 5 0 0 in let times := map (fun i => Z.of_nat i * 74 + 1) (seq 0 12) in
  all_due k 5 times /\ snd (checks k 5 times) = repeat Probe 10 ++ repeat CloseStream 2.
Proof. cbv zeta. split; [|vm_compute; reflexivity]. cbn [map seq all_due]. repeat (split; [vm_compute; split; discriminate|split; [vm_compute; reflexivity|]]). exact I. Qed.
End C58.
Print Assumptions C58_ten_refuted.

(** * C61 *)
(** Every malformed text of at most eleven characters is read as the id 0 without an error, as the text
    of that id is. *)
Theorem C61_any_malformed_refuted : forall s, zlen s <= 11 -> b64_decode url_digit s = None -> IDfromString s = Ok 0 /\ IDfromString (b64_encode url_char (repeat 0 8)) = Ok 0.
Proof.
  intros s L N. split; [|reflexivity]. pose proof (C61_decode s) as D. rewrite N in D. destruct D as [D|D]; [exact D|]. now apply C61_short_partial in D.
Qed.
Print Assumptions C61_any_malformed_refuted.
Example C61_malformed_nonvacuous : b64_decode url_digit (str "AB*D") = None /\ b64_decode url_digit (str "A") = None.
Proof. split; reflexivity. Qed.

(** * C69 *)
(** Taking the next cookie of a Cookie line crashes exactly on the texts where reading one does. *)
Theorem C69_next_refuted : forall s, Cookies_Next s = Panic <->
  exists n r, s = n ++ str "=" ++ r /\ ~ In 61 n /\ n <> [] /\ r <> [] /\ (In 59 n \/ exists v, r = v ++ str ";" /\ ~ In 59 v).
Proof.
  intros s. rewrite <- (C69_cookie_crash_exact no_cookie s). unfold Cookies_Next. destruct (Z.eqb_spec (zlen s) 0) as [E|E].
  - assert (s = []) by (destruct s; [reflexivity|rewrite zlen_cons in E; pose proof (zlen_nonneg s); lia]). subst s. split; discriminate.
  - destruct (Cookie_UnmarshalFrom no_cookie s) as [(c, remain)|]; cbn [bind]; [|split; reflexivity]. destruct (0 <? zlen remain); split; discriminate.
Qed.
Print Assumptions C69_next_refuted.
Example C69_next_nonvacuous : Cookies_Next (str "id=7;") = Panic /\ Cookies_Next (str "i;d=7") = Panic /\ Cookies_Next (str "id=7; x=1") <> Panic.
Proof. repeat split; try (vm_compute; reflexivity). vm_compute. discriminate. Qed.

(** * C74 *)
Section C74.
Import PoolModel.
(** Whatever the pool: a Get that checked before Close and runs after it hands out the last object put
    among the idle ones, which Close has closed. *)
Theorem C74_late_get_refuted : forall p q x r, hot p = None -> idle p = Some x :: r -> Close p = Ok q ->
  exists q', Get q false = (Some x, q') /\ In x (closed q') /\ In x (held q').
Proof.
  intros p q x r H I C. unfold Close in C. destruct (stopped p); [discriminate|].
  assert (q = Pool (max p) (count p) (hot p) (idle p) (victim p) true (fresh p) (held p) (closed p ++ objects (rev (idle p))) (swept p)) by congruence. subst q. clear C.
  unfold Get, popHead. cbn [hot idle]. rewrite H, I. eexists. split; [reflexivity|]. cbn [closed held]. split; [|now left].
  apply in_app_iff. right. cbn [rev]. unfold objects. rewrite flat_map_app. apply in_app_iff. right. now left.
Qed.
Example C74_late_get_nonvacuous : exists p, fold_left (fun p e => match p with Ok p => step p e | Panic => Panic end) [EGet false; EGet false; EPut false 0; EPut false 1; EGet false] (Ok (Init 2)) = Ok p /\ hot p = None /\ idle p = [Some 1].
Proof. eexists. split; [vm_compute; reflexivity|]. split; reflexivity. Qed.
End C74.
Print Assumptions C74_late_get_refuted.

(** * C112 *)
Section C112.
Import SyncModel.
(** Whatever happened before: a timer that is started again while the handler of its last run is about to
    be called, and then closed, makes that call panic. *)
Theorem C112_any_restart_refuted : forall l s, run Init l = Some s -> s_crash s = false -> s_closed s = false -> s_stat s = Unset -> s_run s = RCalling -> s_cli s = CIdle ->
  exists s', run s [AStart; ADeinit; ALoad; ASwap; AClose; RCall] = Some s' /\ s_crash s' = true.
Proof.
  intros l s R C N U Ca Ci. pose proof (SyncTheorems.C112_unset_off l s R U) as On. destruct s as [st pe on ru cl si cd cr re]. cbn [s_crash s_closed s_stat s_run s_cli s_on] in *. subst.
  eexists. split; reflexivity.
Qed.
Example C112_any_restart_nonvacuous : exists s, run Init [AStart; RClaim; RSettle; RCall; ARecv; AStart; RClaim; RSettle] = Some s /\ s_crash s = false /\ s_closed s = false /\ s_stat s = Unset /\ s_run s = RCalling /\ s_cli s = CIdle.
Proof. eexists. split; [vm_compute; reflexivity|]. repeat split. Qed.
End C112.
Print Assumptions C112_any_restart_refuted.
