(** C159: requests and responses used again. *)
From Coq Require Import String ZifyBool ZifyNat.
From Verif Require Import Go GoFacts UriModel HttpModel HttpSpec HttpProofs HttpMsgModel HttpMsgSpec HttpHostModel HttpReuseModel.
Open Scope string_scope. Import ListNotations. Open Scope Z_scope. Open Scope list_scope.

(** Two requests a reader cannot tell apart, but for the text of the target and how many lines
    without a name there are. *)
Definition same_lines (a b : header) : Prop :=
  forall k, Header_Get a k = Header_Get b k /\ (k <> [] -> lines_of a k = lines_of b k).
Definition same_request (a b : full) : Prop :=
  q_method (f_req a) = q_method (f_req b) /\ q_version (f_req a) = q_version (f_req b) /\ q_host (f_req a) = q_host (f_req b) /\
  f_body a = f_body b /\ scheme (q_uri (f_req a)) = scheme (q_uri (f_req b)) /\ authority (q_uri (f_req a)) = authority (q_uri (f_req b)) /\
  path (q_uri (f_req a)) = path (q_uri (f_req b)) /\ query (q_uri (f_req a)) = query (q_uri (f_req b)) /\
  fragment (q_uri (f_req a)) = fragment (q_uri (f_req b)) /\ same_lines (q_head (f_req a)) (q_head (f_req b)).
Definition same_response (a b : response) : Prop :=
  r_version a = r_version b /\ r_code a = r_code b /\ r_phrase a = r_phrase b /\ r_body a = r_body b /\ same_lines (r_head a) (r_head b).

(** ** Headers *)
Definition H (a b : header) : Prop := exists n m t, a = repeat ([], []) (S n) ++ t /\ b = repeat ([], []) (S m) ++ t.
Lemma has_pad n t k : has (repeat ([], []) (S n) ++ t) k = if list_eq_dec Z.eq_dec [] k then true else has t k.
Proof.
  unfold has. rewrite existsb_app. destruct (list_eq_dec Z.eq_dec [] k) as [<-|N].
  - cbn [repeat existsb fst]. unfold same. destruct (list_eq_dec Z.eq_dec [] []); [reflexivity|congruence].
  - induction (S n) as [|m IH]; [reflexivity|]. cbn [repeat existsb fst]. unfold same at 1. destruct (list_eq_dec Z.eq_dec [] k); [congruence|]. exact IH.
Qed.
Lemma find_pad n t k : k <> [] -> forall i, option_map fst (find_from (repeat ([], []) n ++ t) i k) = option_map fst (find_from t (i - n) k).
Proof.
  intros N. assert (B : beq [] k = false) by (destruct k; [congruence|reflexivity]).
  assert (F : forall o : option (bytes * nat), option_map fst (option_map (fun r => (fst r, S (snd r))) o) = option_map fst o) by (intros [[]|]; reflexivity).
  induction n as [|n IH]; intros i; cbn [repeat app].
  - now rewrite Nat.sub_0_r.
  - cbn [find_from]. destruct i as [|i]; [rewrite B|]; rewrite F, IH; f_equal; f_equal; lia.
Qed.
Lemma get_pad n t k : Header_Get (repeat ([], []) (S n) ++ t) k = if list_eq_dec Z.eq_dec [] k then [] else Header_Get t k.
Proof.
  assert (G : forall h, Header_Get h k = match option_map fst (find_from h 0 k) with Some v => v | None => [] end).
  { intros h. unfold Header_Get, Header_Find. destruct (find_from h 0 k) as [[]|]; reflexivity. }
  destruct (list_eq_dec Z.eq_dec [] k) as [<-|N]; [reflexivity|]. rewrite !G, find_pad by congruence. reflexivity.
Qed.
Lemma lines_pad n t k : k <> [] -> lines_of (repeat ([], []) n ++ t) k = lines_of t k.
Proof.
  intros N. unfold lines_of. induction n as [|n IH]; [reflexivity|]. cbn [repeat app filter fst]. unfold same at 1.
  destruct (list_eq_dec Z.eq_dec [] k); [congruence|]. exact IH.
Qed.
Lemma H_same a b : H a b -> same_lines a b.
Proof.
  intros (n & m & t & -> & ->) k. split; [now rewrite !get_pad|]. intros N. now rewrite !lines_pad.
Qed.
Lemma H_add a b k v : H a b -> H (Header_Add a k v) (Header_Add b k v).
Proof. intros (n & m & t & -> & ->). exists n, m, (t ++ [(k, v)]). unfold Header_Add. now rewrite <- !app_assoc. Qed.
Lemma H_set a b k v : H a b -> H (Header_Set a k v) (Header_Set b k v).
Proof.
  intros X. rewrite !Set_spec. assert (E : has a k = has b k) by (destruct X as (n & m & t & -> & ->); now rewrite !has_pad).
  rewrite E. destruct (has b k); [exact X|]. now apply (H_add a b k v).
Qed.
Lemma H_new n m : H (repeat ([], []) (S n)) (repeat ([], []) (S m)).
Proof. exists n, m, []. now rewrite !app_nil_r. Qed.
Lemma H_reinit a b : H a b -> H (HReinit a) (HReinit b).
Proof.
  intros (n & m & t & -> & ->). unfold HReinit. rewrite !app_length, !repeat_length. apply H_new.
Qed.

(** ** Requests *)
Definition U (u v : uri) : Prop := scheme u = scheme v /\ authority u = authority v /\ path u = path v /\ query u = query v /\ fragment u = fragment v.
Definition R (a b : full) : Prop :=
  q_method (f_req a) = q_method (f_req b) /\ q_version (f_req a) = q_version (f_req b) /\ q_host (f_req a) = q_host (f_req b) /\
  f_body a = f_body b /\ U (q_uri (f_req a)) (q_uri (f_req b)) /\ H (q_head (f_req a)) (q_head (f_req b)).
Lemma R_same a b : R a b -> same_request a b.
Proof. intros (A & B & C & D & (E1 & E2 & E3 & E4 & E5) & F). apply H_same in F. repeat (split; [assumption|]). exact F. Qed.

Definition with_raw (x : option bytes) (u : uri) : uri := Uri x (scheme u) (authority u) (path u) (query u) (fragment u).
Lemma U_raw u v : U u v -> v = with_raw (raw v) u.
Proof. intros (A & B & C & D & E). destruct u, v; cbn in *. now subst. Qed.
Definition pst_raw x (st : pst) : pst := Pst (auI st) (paI st) (quI st) (nuI st) (with_raw x (pu st)).
Definition rmap {A B} (f : A -> B) (r : res A) : res B := match r with Ok a => Ok (f a) | Panic => Panic end.
Lemma loop_raw x s o : forall n r, (length r <= n)%nat -> forall i st,
  uri_loop s o r i (pst_raw x st) = rmap (fun p => (fst p, pst_raw x (snd p))) (uri_loop s o r i st).
Proof.
  induction n as [|n IH]; intros r L i st; destruct r as [|c r]; try (cbn [length] in L; lia); try reflexivity.
  cbn [length] in L. cbn [uri_loop]. change (auI (pst_raw x st)) with (auI st). change (paI (pst_raw x st)) with (paI st).
  change (quI (pst_raw x st)) with (quI st). change (nuI (pst_raw x st)) with (nuI st).
  assert (I1 : forall i st, uri_loop s o r i (pst_raw x st) = rmap (fun p => (fst p, pst_raw x (snd p))) (uri_loop s o r i st)) by (intros; apply IH; lia).
  destruct (c =? 58).
  { destruct (auI st =? 0); [|apply I1]. destruct (slice_to s i) as [sc|]; [|reflexivity]. cbn [bind].
    destruct r as [|a [|b r]]; try reflexivity.
    refine (IH r _ _ (Pst _ _ _ _ (set_scheme (pu st) sc))). cbn [length] in L. lia. }
  destruct (c =? 47).
  { destruct (negb _ && _).
    - destruct (slice s (auI st) i) as [a|]; [|reflexivity]. exact (I1 _ (Pst _ _ _ _ (set_authority (pu st) a))).
    - destruct (negb o && _ && _); [|apply I1]. destruct (slice_to s i) as [a|]; [|reflexivity]. exact (I1 _ (Pst _ _ _ _ (set_authority (pu st) a))). }
  destruct (c =? 63).
  { destruct (quI st =? 0); [|apply I1]. destruct (slice s (paI st) i) as [a|]; [|reflexivity]. exact (I1 _ (Pst _ _ _ _ (SetPath (pu st) a))). }
  destruct (c =? 35).
  { destruct (nuI st =? 0); [|apply I1]. destruct (quI st =? 0).
    - destruct (slice s (paI st) i) as [a|]; [|reflexivity]. exact (I1 _ (Pst _ _ _ _ (SetPath (pu st) a))).
    - destruct (slice s (quI st + 1) i) as [a|]; [|reflexivity]. exact (I1 _ (Pst _ _ _ _ (set_query (pu st) a))). }
  destruct (c =? 32); [reflexivity|apply I1].
Qed.
Lemma parse_raw x u s : UnmarshalFromString (with_raw x u) s = UnmarshalFromString u s.
Proof.
  unfold UnmarshalFromString. destruct (idx s 0) as [c|]; [|reflexivity]. cbn [bind]. destruct (c =? 42).
  { cbn [bind]. destruct (slice_to s 1); reflexivity. }
  change (Pst 0 0 0 0 (with_raw x u)) with (pst_raw x (Pst 0 0 0 0 u)). rewrite (loop_raw x s _ (length s)) by lia.
  destruct (uri_loop s (c =? 47) s 0 (Pst 0 0 0 0 u)) as [[e st]|]; [|reflexivity]. cbn [bind rmap fst snd].
  change (quI (pst_raw x st)) with (quI st). change (nuI (pst_raw x st)) with (nuI st). change (paI (pst_raw x st)) with (paI st).
  destruct (quI st =? 0); destruct (nuI st =? 0); cbn [andb negb bind];
    repeat match goal with |- context [slice ?a ?b ?c] => destruct (slice a b c); cbn [bind]; try reflexivity end;
    destruct (slice_to s e); reflexivity.
Qed.

Lemma R_step a b o : R a b ->
  match rstep a o, rstep b o with Ok a', Ok b' => R a' b' | Panic, Panic => True | _, _ => False end.
Proof.
  intros (M & V & Ho & B & Hu & Hh). destruct o as [t|v|k v|k|bd| |]; cbn [rstep].
  - destruct t as [s|s au p q f|au|h|au| | |k v|m]; cbn [target_step].
    + rewrite (U_raw _ _ Hu), parse_raw. destruct (UnmarshalFromString (q_uri (f_req a)) s) as [[e u]|]; cbn [bind snd]; [|exact I].
      do 4 (split; [assumption|]). split; [|assumption]. split; auto.
    + cbn [bind]. do 4 (split; [assumption|]). split; [|assumption]. repeat split.
    + cbn [bind]. do 4 (split; [assumption|]). split; [|assumption]. destruct Hu as (E1 & E2 & E3 & E4 & E5). repeat split; assumption.
    + cbn [bind]. do 2 (split; [assumption|]). split; [reflexivity|]. do 2 (split; [assumption|]). assumption.
    + destruct (beq au []); cbn [bind]; [do 5 (split; [assumption|]); assumption|].
      destruct (AuthorityInit au) as [[[[h p] us] pw]|]; cbn [bind]; [|exact I].
      do 2 (split; [assumption|]). split; [reflexivity|]. split; [assumption|]. split; [|assumption].
      destruct Hu as (E1 & E2 & E3 & E4 & E5). repeat split; assumption.
    + cbn [bind]. do 2 (split; [assumption|]). split; [reflexivity|]. split; [assumption|]. split; [repeat split|assumption].
    + cbn [bind]. destruct (H_same _ _ Hh HeaderKey_Host) as [G _]. unfold CheckHost. destruct Hu as (E1 & E2 & E3 & E4 & E5). rewrite E2, G.
      destruct (beq _ _); do 4 (split; [assumption|]); (split; [|assumption]); repeat split; assumption.
    + cbn [bind]. do 5 (split; [assumption|]). now apply H_add.
    + cbn [bind]. split; [reflexivity|]. do 4 (split; [assumption|]). assumption.
  - split; [assumption|]. split; [reflexivity|]. do 3 (split; [assumption|]). assumption.
  - do 5 (split; [assumption|]). now apply H_set.
  - do 5 (split; [assumption|]). cbn [f_req with_lines q_head]. now rewrite !Del_spec.
  - do 3 (split; [assumption|]). split; [reflexivity|]. split; assumption.
  - do 4 (split; [assumption|]). split; [|assumption]. destruct Hu as (E1 & E2 & E3 & E4 & E5).
    unfold Marshal, marshalTo. cbn [f_req with_uri q_uri]. destruct (raw (q_uri (f_req a))), (raw (q_uri (f_req b))); repeat split; assumption.
  - do 4 (split; [reflexivity|]). split; [repeat split|]. cbn [req_Reinit f_req q_head]. now apply H_reinit.
Qed.
Lemma R_ops l : forall a b, R a b -> match rops a l, rops b l with Ok a', Ok b' => R a' b' | Panic, Panic => True | _, _ => False end.
Proof.
  induction l as [|o l IH]; intros a b X; cbn [rops]; [exact X|]. pose proof (R_step a b o X) as S1.
  destruct (rstep a o), (rstep b o); cbn [bind]; try contradiction; [apply IH; exact S1|exact I].
Qed.
Definition lined (h : header) : Prop := (1 <= length h)%nat.
Lemma lined_step r o r' : lined (q_head (f_req r)) -> rstep r o = Ok r' -> (length (q_head (f_req r)) <= length (q_head (f_req r')))%nat.
Proof.
  intros L E. destruct o as [t|v|k v|k|bd| |]; cbn [rstep] in E.
  - destruct t as [s|s au p q f|au|h|au| | |k v|m]; cbn [target_step] in E.
    + destruct (UnmarshalFromString _ s); [|discriminate]. cbn [bind] in E. injection E as <-. cbn. lia.
    + injection E as <-. cbn. lia.
    + injection E as <-. cbn. lia.
    + injection E as <-. cbn. lia.
    + destruct (beq au []); [injection E as <-; cbn; lia|]. destruct (AuthorityInit au) as [[[[h p] us] pw]|]; [|discriminate]. injection E as <-. cbn. lia.
    + injection E as <-. cbn. lia.
    + injection E as <-. unfold CheckHost. destruct (beq _ _); cbn; lia.
    + injection E as <-. cbn [f_req q_head]. unfold Header_Add. rewrite app_length. lia.
    + injection E as <-. cbn. lia.
  - injection E as <-. cbn. lia.
  - injection E as <-. cbn [f_req with_lines q_head]. rewrite Set_spec. destruct (has _ _); [lia|]. rewrite app_length. lia.
  - injection E as <-. cbn [f_req with_lines q_head]. rewrite Del_spec. lia.
  - injection E as <-. cbn. lia.
  - injection E as <-. cbn. lia.
  - injection E as <-. cbn [req_Reinit f_req q_head]. unfold HReinit. rewrite repeat_length. lia.
Qed.
Lemma lined_ops l : forall r r', lined (q_head (f_req r)) -> rops r l = Ok r' -> (length (q_head (f_req r)) <= length (q_head (f_req r')))%nat.
Proof.
  induction l as [|o l IH]; intros r r' L E; cbn [rops] in E; [injection E as <-; lia|].
  destruct (rstep r o) as [r1|] eqn:E1; [|discriminate]. cbn [bind] in E. apply lined_step in E1; auto. unfold lined in *.
  assert ((1 <= length (q_head (f_req r1)))%nat) by lia. specialize (IH _ _ H0 E). lia.
Qed.
Lemma R_reinit r : lined (q_head (f_req r)) -> R (req_Reinit r) new_full.
Proof.
  intros L. do 4 (split; [reflexivity|]). split; [repeat split|]. cbn [req_Reinit new_full new_request f_req q_head]. unfold HReinit, HInit.
  unfold lined in L. destruct (length (q_head (f_req r))) as [|n]; [lia|]. apply (H_new n 15).
Qed.

(** * C159.  After every history and Reinit, a request goes through every further history as a new
    one does: it panics where that one would, and nothing of it can be told apart from that one,
    but for the text of its target and the lines without a name. *)
Theorem C159_request_partial : forall before after r, rops new_full before = Ok r ->
  match rops (req_Reinit r) after, rops new_full after with
  | Ok a, Ok b => same_request a b
  | Panic, Panic => True
  | _, _ => False
  end.
Proof.
  intros l1 l2 r E. assert (L : lined (q_head (f_req r))). { apply lined_ops in E; [|cbn; unfold lined; cbn; lia]. cbn [new_full new_request f_req q_head] in E. unfold lined. cbn in E. lia. }
  pose proof (R_ops l2 _ _ (R_reinit r L)) as X. destruct (rops (req_Reinit r) l2), (rops new_full l2); try contradiction; auto. now apply R_same.
Qed.
Print Assumptions C159_request_partial.

(** Once a target is read from text, the text of the target is that of a new one too; *)
Theorem C159_target_partial : forall before after s r a b, rops new_full before = Ok r ->
  rops (req_Reinit r) (after ++ [RTarget (Parse s)]) = Ok a -> rops new_full (after ++ [RTarget (Parse s)]) = Ok b ->
  snd (Marshal (q_uri (f_req a))) = snd (Marshal (q_uri (f_req b))) /\ exists rest, s = snd (Marshal (q_uri (f_req a))) ++ rest.
Proof.
  intros l1 l2 s r a b E Ea Eb. assert (L : lined (q_head (f_req r))). { apply lined_ops in E; [|cbn; unfold lined; cbn; lia]. cbn [new_full new_request f_req q_head] in E. unfold lined. cbn in E. lia. }
  assert (App : forall l x, rops x (l ++ [RTarget (Parse s)]) = bind (rops x l) (fun y => rstep y (RTarget (Parse s)))).
  { induction l as [|o l IH]; intros x; cbn [rops app bind].
    - destruct (rstep x (RTarget (Parse s))); reflexivity.
    - destruct (rstep x o); cbn [bind]; auto. }
  rewrite App in Ea, Eb. pose proof (R_ops l2 _ _ (R_reinit r L)) as X.
  destruct (rops (req_Reinit r) l2) as [a0|]; [|discriminate]. destruct (rops new_full l2) as [b0|]; [|contradiction]. cbn [bind] in Ea, Eb.
  destruct X as (_ & _ & _ & _ & Hu & _). cbn [rstep target_step] in Ea, Eb. rewrite (U_raw _ _ Hu), parse_raw in Eb.
  destruct (UnmarshalFromString (q_uri (f_req a0)) s) as [[e u]|] eqn:Eu; [|discriminate]. cbn [bind snd] in Ea, Eb.
  injection Ea as <-. injection Eb as <-. cbn [f_req with_uri q_uri]. split; [reflexivity|].
  unfold UnmarshalFromString in Eu. destruct (idx s 0); [|discriminate]. cbn [bind] in Eu.
  match type of Eu with bind ?x _ = _ => destruct x as [[e' u']|]; [|discriminate] end. cbn [bind] in Eu.
  destruct (slice_to s e') as [t|] eqn:Es; [|discriminate]. cbn [bind] in Eu. injection Eu as <- <-. cbn [Marshal raw snd].
  unfold slice_to, slice in Es. destruct (_ && _) in Es; [|discriminate]. injection Es as <-.
  exists (skipn (Z.to_nat e') s). rewrite Z.sub_0_r. cbn [Z.to_nat skipn]. now rewrite firstn_skipn.
Qed.
Print Assumptions C159_target_partial.

(** until then its target is written as nothing, whatever its parts are set to, where a new
    request never writes nothing. *)
Definition reads (o : rop) : Prop := exists s, o = RTarget (Parse s).
Lemma written x l : (forall o, In o l -> ~ reads o) -> forall r r', rops r l = Ok r' -> raw (q_uri (f_req r)) = Some x ->
  (forall o, In o l -> o <> RReinit /\ o <> RTarget ReinitTarget) \/ x = [] -> raw (q_uri (f_req r')) = Some x.
Proof.
  induction l as [|o l IH]; intros Nr r r' E Er D; cbn [rops] in E; [injection E as <-; exact Er|].
  destruct (rstep r o) as [r1|] eqn:E1; [|discriminate]. cbn [bind] in E.
  apply (IH (fun o' I => Nr o' (or_intror I)) r1 r' E); [|destruct D as [D|D]; [left; intros; apply D; now right|now right]].
  clear E IH. destruct o as [t|v|k v|k|bd| |]; cbn [rstep] in E1.
  - destruct t as [s|s au p q f|au|h|au| | |k v|m]; cbn [target_step] in E1.
    + exfalso. apply (Nr (RTarget (Parse s))); [now left|now exists s].
    + injection E1 as <-. exact Er.
    + injection E1 as <-. exact Er.
    + injection E1 as <-. exact Er.
    + destruct (beq au []); [injection E1 as <-; exact Er|]. destruct (AuthorityInit au) as [[[[h p] us] pw]|]; [|discriminate]. injection E1 as <-. exact Er.
    + injection E1 as <-. destruct D as [D|Dx]; [|subst x; reflexivity]. destruct (D (RTarget ReinitTarget) (or_introl eq_refl)) as [_ D']. congruence.
    + injection E1 as <-. unfold CheckHost. destruct (beq _ _); exact Er.
    + injection E1 as <-. exact Er.
    + injection E1 as <-. exact Er.
  - injection E1 as <-. exact Er.
  - injection E1 as <-. exact Er.
  - injection E1 as <-. exact Er.
  - injection E1 as <-. exact Er.
  - injection E1 as <-. cbn [f_req with_uri q_uri]. unfold Marshal. now rewrite Er.
  - injection E1 as <-. destruct D as [D|Dx]; [|subst x; reflexivity]. destruct (D RReinit (or_introl eq_refl)) as [D' _]. congruence.
Qed.
Theorem C159_target_refuted : forall r after a, (forall o, In o after -> ~ reads o) -> rops (req_Reinit r) after = Ok a ->
  snd (Marshal (q_uri (f_req a))) = [].
Proof.
  intros r l a Nr E. apply (written [] l Nr) in E; [|reflexivity|now right]. unfold Marshal. now rewrite E.
Qed.
Print Assumptions C159_target_refuted.

Theorem C159_new_target : forall ops b, (forall o, In o ops -> ~ reads o /\ o <> RReinit /\ o <> RTarget ReinitTarget) -> rops new_full ops = Ok b ->
  snd (Marshal (q_uri (f_req b))) <> [].
Proof.
  assert (T : forall u, uri_text u <> []).
  { intros u E. unfold uri_text in E. apply app_eq_nil in E as [_ E]. apply app_eq_nil in E as [_ E]. apply app_eq_nil in E as [E _].
    destruct (beq (path u) []) eqn:B; [discriminate|]. rewrite E in B. discriminate. }
  assert (G : forall l r r', (forall o, In o l -> ~ reads o /\ o <> RReinit /\ o <> RTarget ReinitTarget) -> rops r l = Ok r' ->
    raw (q_uri (f_req r)) <> Some [] -> raw (q_uri (f_req r')) <> Some []).
  { induction l as [|o l IH]; intros r r' N E Er; cbn [rops] in E; [injection E as <-; exact Er|].
    destruct (rstep r o) as [r1|] eqn:E1; [|discriminate]. cbn [bind] in E.
    apply (IH r1 r' (fun o' I => N o' (or_intror I)) E). clear E IH. destruct (N o (or_introl eq_refl)) as (N1 & N2 & N3). clear N.
    destruct o as [t|v|k v|k|bd| |]; cbn [rstep] in E1; try congruence; try (injection E1 as <-; exact Er).
    - destruct t as [s|s au p q f|au|h|au| | |k v|m]; cbn [target_step] in E1; try congruence; try (injection E1 as <-; exact Er).
      + exfalso. apply N1. now exists s.
      + destruct (beq au []); [injection E1 as <-; exact Er|]. destruct (AuthorityInit au) as [[[[h p] us] pw]|]; [|discriminate]. injection E1 as <-. exact Er.
      + injection E1 as <-. unfold CheckHost. destruct (beq _ _); exact Er.
    - injection E1 as <-. cbn [f_req with_uri q_uri]. unfold Marshal. destruct (raw (q_uri (f_req r))) eqn:Eq; [cbn [fst]; now rewrite Eq|].
      cbn [marshalTo fst raw]. intros X. injection X as X. now apply (T (q_uri (f_req r))). }
  intros l b N E. apply G in E; auto; [|discriminate]. unfold Marshal. destruct (raw (q_uri (f_req b))) as [t|] eqn:Eq.
  - cbn [snd]. intros ->. now apply E.
  - cbn [marshalTo snd app]. apply T.
Qed.
Print Assumptions C159_new_target.

(** Header lines are never given back: every round of reuse that adds n lines leaves n more. *)
Theorem C159_lines_refuted : forall kvs n r, rops new_full (concat (repeat (map (fun kv => RTarget (AddLine (fst kv) (snd kv))) kvs ++ [RReinit]) n)) = Ok r ->
  q_head (f_req r) = repeat ([], []) (16 + n * length kvs).
Proof.
  intros kvs n.
  assert (App : forall l l' x, rops x (l ++ l') = bind (rops x l) (fun y => rops y l')).
  { induction l as [|o l IH]; intros l' x; cbn [rops app bind]; [reflexivity|]. destruct (rstep x o); cbn [bind]; auto. }
  assert (Ad : forall kvs x, exists y, rops x (map (fun kv => RTarget (AddLine (fst kv) (snd kv))) kvs) = Ok y /\ length (q_head (f_req y)) = (length (q_head (f_req x)) + length kvs)%nat).
  { induction kvs0 as [|kv l IH]; intros x; cbn [map rops]; [exists x; split; [reflexivity|cbn [length]; lia]|]. cbn [rstep target_step bind].
    edestruct IH as (y & E & Ly). exists y. split; [exact E|]. rewrite Ly. cbn [f_req q_head]. unfold Header_Add. rewrite app_length. cbn [length]. lia. }
  assert (G : forall n x m r, q_head (f_req x) = repeat ([], []) m -> rops x (concat (repeat (map (fun kv => RTarget (AddLine (fst kv) (snd kv))) kvs ++ [RReinit]) n)) = Ok r ->
    q_head (f_req r) = repeat ([], []) (m + n * length kvs)).
  { induction n0 as [|n0 IH]; intros x m r Ex E; cbn [repeat concat] in E.
    - cbn [rops] in E. injection E as <-. rewrite Ex. f_equal. lia.
    - rewrite <- app_assoc, App in E. destruct (Ad kvs x) as (y & Ey & Ly). rewrite Ey in E. cbn [bind app rops rstep] in E.
      apply (IH _ (m + length kvs)%nat) in E; [rewrite E; f_equal; lia|]. cbn [req_Reinit f_req q_head]. unfold HReinit. now rewrite Ly, Ex, repeat_length. }
  intros r E. now apply (G n new_full 16%nat).
Qed.
Print Assumptions C159_lines_refuted.

(** Responses: nothing can be told apart but the lines without a name. *)
Definition RS (a b : response) : Prop := r_version a = r_version b /\ r_code a = r_code b /\ r_phrase a = r_phrase b /\ r_body a = r_body b /\ H (r_head a) (r_head b).
Lemma RS_ops l : forall a b, RS a b -> RS (sops a l) (sops b l).
Proof.
  induction l as [|o l IH]; intros a b X; [exact X|]. apply (IH (sstep a o) (sstep b o)). destruct X as (A & B & C & D & E).
  destruct o; cbn [sstep].
  - split; [assumption|]. do 2 (split; [reflexivity|]). split; assumption.
  - split; [reflexivity|]. do 3 (split; [assumption|]). assumption.
  - do 4 (split; [assumption|]). now apply H_add.
  - do 4 (split; [assumption|]). now apply H_set.
  - do 4 (split; [assumption|]). cbn [with_head r_head]. now rewrite !Del_spec.
  - do 3 (split; [assumption|]). split; [reflexivity|assumption].
  - do 4 (split; [reflexivity|]). now apply H_reinit.
Qed.
Theorem C159_response_partial : forall before after, same_response (sops (res_Reinit (sops new_response before)) after) (sops new_response after).
Proof.
  assert (L : forall l r, (1 <= length (r_head r))%nat -> (1 <= length (r_head (sops r l)))%nat).
  { induction l as [|o l IH]; intros r X; [exact X|]. apply (IH (sstep r o)).
    destruct o; cbn [sstep SetStatus SetVersion with_head SetBody res_Reinit r_head]; auto.
    - unfold Header_Add. rewrite app_length. lia.
    - unfold res_Set. cbn [with_head r_head]. rewrite Set_spec. destruct (has _ _); [lia|]. rewrite app_length. lia.
    - rewrite Del_spec. exact X.
    - unfold HReinit. now rewrite repeat_length. }
  intros l1 l2. assert (X : RS (sops (res_Reinit (sops new_response l1)) l2) (sops new_response l2)).
  { apply RS_ops. do 4 (split; [reflexivity|]). cbn [res_Reinit new_response r_head]. unfold HReinit, HInit.
    assert (Y : (1 <= length (r_head (sops new_response l1)))%nat) by (apply L; cbn; lia).
    destruct (length (r_head (sops new_response l1))) as [|n]; [lia|]. apply (H_new n 15). }
  destruct X as (A & B & C & D & E). apply H_same in E. do 4 (split; [assumption|]). exact E.
Qed.
Print Assumptions C159_response_partial.

Example C159_nonvacuous : exists r a b, rops new_full [RTarget (SetMethodTo (str "POST")); RTarget (Parse (str "/a?b c")); RTarget (AddLine (str "Host") (str "x")); RBody (Some {| c_len := 3; c_media := None; c_coding := None |})] = Ok r /\
  rops (req_Reinit r) [RTarget (SetParts [] [] (str "/n") [] []); RSet (str "Host") (str "y")] = Ok a /\
  rops new_full [RTarget (SetParts [] [] (str "/n") [] []); RSet (str "Host") (str "y")] = Ok b /\
  snd (Marshal (q_uri (f_req a))) = [] /\ snd (Marshal (q_uri (f_req b))) = str "/n" /\ path (q_uri (f_req a)) = str "/n" /\
  Header_Get (q_head (f_req a)) (str "Host") = str "y" /\ length (q_head (f_req a)) = 18%nat /\ length (q_head (f_req b)) = 17%nat.
Proof. do 3 eexists. split; [vm_compute; reflexivity|]. split; [vm_compute; reflexivity|]. split; [vm_compute; reflexivity|]. vm_compute. repeat split. Qed.
