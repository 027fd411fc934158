(** C176: the methods CompleteMethods writes into a file. *)
From Coq Require Import String ZifyBool ZifyNat.
From Verif Require Import Go GoFacts RegModel StrconvModel IntSpec SyllabModel SyllabGenModel SyllabGenSpec StringsModel FileModel FileSpec FileTheorems GenFileModel GenFileSpec.
From Verif Require HttpTheorems.
Import ListNotations.
Local Open Scope Z_scope.
Local Open Scope list_scope.

Lemma same_iff a b : same a b = true <-> a = b.
Proof. unfold same. destruct (list_eq_dec Z.eq_dec a b); split; congruence. Qed.
Lemma same_refl a : same a a = true. Proof. now apply same_iff. Qed.
Lemma same_sym a b : same a b = same b a.
Proof. unfold same. destruct (list_eq_dec Z.eq_dec a b), (list_eq_dec Z.eq_dec b a); congruence. Qed.
Lemma entry_same {A} s (a : A) r n : entry ((s, a) :: r) n = if same n (str s) then Some a else entry r n.
Proof. cbn [entry]. unfold same. destruct (list_eq_dec Z.eq_dec (str s) n), (list_eq_dec Z.eq_dec n (str s)); congruence. Qed.
Lemma basic_entry n : basic_of n = entry basic_table n.
Proof.
  unfold basic_of, basic_table. rewrite !entry_same. cbn [entry].
  destruct (same n (str "int")), (same n (str "uint")); reflexivity.
Qed.
Lemma kind_entry n : kind_named n = entry method_table n.
Proof.
  unfold kind_named, method_table. rewrite !entry_same. cbn [entry].
  repeat match goal with |- context [same n ?s] => destruct (same n s); cbn [orb]; try reflexivity end.
Qed.
Lemma element_entry n : element_of (EName n) = match entry element_table n with Some e => e | None => Other end.
Proof.
  cbn [element_of]. rewrite basic_entry. unfold basic_table, element_table. rewrite !entry_same. cbn [entry].
  destruct (list_eq_dec Z.eq_dec n (str "int")) as [->|N1]; [reflexivity|]. destruct (list_eq_dec Z.eq_dec n (str "uint")) as [->|N2]; [reflexivity|].
  destruct (same n (str "int")) eqn:E1; [apply same_iff in E1; contradiction|]. destruct (same n (str "uint")) eqn:E2; [apply same_iff in E2; contradiction|]. clear E1 E2.
  repeat match goal with |- context [same n ?s] => let E := fresh in destruct (same n s) eqn:E; [apply same_iff in E; subst n; reflexivity|clear E] end. reflexivity.
Qed.

(** * One struct *)
Definition none_ev : bytes -> list ftype := fun _ => [].
Definition num (t : fexp) : Z := step (shape none_ev t).
Definition refs_of (path : list bytes) (t : fexp) : list ref :=
  match t with
  | FIdent n => match basic_of n with Some _ => [] | None => [(path, n)] end
  | FSelector n => [(path, n)]
  | _ => []
  end.
Lemma nested_step fs : step (Nested fs) = stack_len fs.
Proof. induction fs as [|x r IH]; [reflexivity|]. cbn [stack_len]. rewrite <- IH. reflexivity. Qed.
Lemma basic_step_nonneg b : 0 <= basic_step b. Proof. destruct b; cbn; lia. Qed.
Lemma array_step_nonneg n e : 0 <= array_step n e. Proof. destruct e as [e| |]; cbn [array_step]; [destruct e|..]; lia. Qed.
Lemma num_nonneg t : 0 <= num t.
Proof.
  unfold num. destruct t as [n|n|[n|]|[s|] [n|]|o|]; cbn [shape]; try apply array_step_nonneg; try (cbn; lia).
  destruct (entry basic_table n); [apply basic_step_nonneg|]. cbn. lia.
Qed.
Lemma step_shape ev t path : step (shape ev t) = num t + fold_right Z.add 0 (map (fun r => stack_len (ev (snd r))) (refs_of path t)).
Proof.
  unfold num. destruct t as [n|n|[n|]|[s|] [n|]|o|]; cbn [shape refs_of map fold_right]; rewrite ?Z.add_0_r; try reflexivity.
  rewrite basic_entry. destruct (entry basic_table n); cbn [map fold_right]; rewrite ?Z.add_0_r; [reflexivity|]. rewrite !nested_step. cbn [snd]. unfold none_ev. cbn [stack_len]. lia.
Qed.
Lemma sum_app a b : fold_right Z.add 0 (a ++ b) = fold_right Z.add 0 a + fold_right Z.add 0 b.
Proof. induction a as [|x l IH]; cbn [app fold_right]; [reflexivity|]. rewrite IH. lia. Qed.
Lemma value_app ev n a b : value ev n (a ++ b) = value ev n a + fold_right Z.add 0 (map (fun r => stack_len (ev (snd r))) b).
Proof. unfold value. rewrite map_app, sum_app. apply Z.add_assoc. Qed.
Definition adv (m : maker) (x : bytes * fexp) : maker :=
  Maker (m_types m) (m_rn m) (m_frn m) (m_rtn m) (m_lsi m + num (snd x)) (m_stack m ++ refs_of (m_frn m ++ [fst x]) (snd x))
    (m_code m ++ [Code (m_frn m ++ [fst x]) (m_lsi m) (m_stack m) (snd x)]).
Lemma plain_parse s : plain_length s -> ParseUint10 64 s = (dec_value s, false).
Proof.
  intros (N & F & _ & B). unfold ParseUint10. replace (parse_digits s) with (Some (dec_value s)) by (symmetry; apply HttpTheorems.parse_digits_iff; auto).
  now replace (dec_value s <? 2 ^ 64) with true by lia.
Qed.
Lemma one_name_adv mk name t m err : plain t -> 0 <= m_lsi m -> m_lsi m + num t < 2 ^ 64 -> one_name mk name t m err = Next (adv m (name, t)) err.
Proof.
  intros P L B. pose proof (num_nonneg t). unfold one_name, adv. cbn [fst snd].
  assert (U : u64 (m_lsi m + num t) = m_lsi m + num t) by (apply u64_small; lia).
  destruct t as [n|n|e|[s|] e|o|]; cbn [plain] in P; try contradiction.
  - cbn [refs_of]. destruct (basic_of n) as [b|] eqn:E.
    + unfold grow, emit. cbn [m_types m_rn m_frn m_rtn m_lsi m_stack m_code]. replace (basic_step b) with (num (FIdent n)) by (unfold num; cbn [shape]; rewrite <- basic_entry, E; reflexivity). rewrite U, app_nil_r. reflexivity.
    + unfold refer, emit. cbn [m_types m_rn m_frn m_rtn m_lsi m_stack m_code]. replace (num (FIdent n)) with 0 by (unfold num; cbn [shape]; rewrite <- basic_entry, E; reflexivity). rewrite Z.add_0_r. reflexivity.
  - unfold refer, emit. cbn [m_types m_rn m_frn m_rtn m_lsi m_stack m_code refs_of]. change (num (FSelector n)) with 0. rewrite Z.add_0_r. reflexivity.
  - unfold grow, emit. cbn [m_types m_rn m_frn m_rtn m_lsi m_stack m_code refs_of]. replace (num (FSlice e)) with 8 in * by (destruct e; reflexivity). rewrite U, app_nil_r. reflexivity.
  - rewrite (plain_parse s P). cbv iota beta. unfold grow, emit. cbn [m_types m_rn m_frn m_rtn m_lsi m_stack m_code refs_of].
    replace (array_step (Z.to_nat (dec_value s)) (element_of e)) with (num (FArray (ALit s) e)) by (unfold num; destruct e; cbn [shape step]; rewrite <- ?element_entry; reflexivity). rewrite U, app_nil_r. reflexivity.
  - unfold emit. cbn [m_types m_rn m_frn m_rtn m_lsi m_stack m_code refs_of]. change (num FNone) with 0. rewrite Z.add_0_r, app_nil_r. reflexivity.
Qed.
Definition total (l : list (bytes * fexp)) : Z := fold_right Z.add 0 (map (fun x => num (snd x)) l).
Lemma total_nonneg l : 0 <= total l.
Proof. unfold total. induction l as [|x l IH]; cbn [map fold_right]; [lia|]. pose proof (num_nonneg (snd x)). lia. Qed.
Lemma total_app a b : total (a ++ b) = total a + total b.
Proof. unfold total. rewrite map_app, sum_app. reflexivity. Qed.
Lemma adv_lsi l m : m_lsi (fold_left adv l m) = m_lsi m + total l.
Proof. revert m. induction l as [|x l IH]; intro m; cbn [fold_left]; [unfold total; cbn; lia|]. rewrite IH. unfold total. cbn [map fold_right adv m_lsi]. lia. Qed.
Lemma all_names_adv mk t names m err : plain t -> 0 <= m_lsi m -> m_lsi m + total (map (fun n => (n, t)) names) < 2 ^ 64 ->
  all_names mk names t m err = Next (fold_left adv (map (fun n => (n, t)) names) m) err.
Proof.
  intros P. revert m. induction names as [|n r IH]; intros m L B; [reflexivity|]. cbn [map] in B. change (total ((n, t) :: map (fun n => (n, t)) r)) with (num t + total (map (fun n => (n, t)) r)) in B.
  pose proof (total_nonneg (map (fun n => (n, t)) r)). pose proof (num_nonneg t). cbn [all_names]. rewrite one_name_adv by (auto; lia). cbv iota beta. cbn [map fold_left]. apply IH; cbn [adv m_lsi snd]; lia.
Qed.
Lemma all_fields_adv mk fs m err : Forall (fun x => plain (snd x)) (own fs) -> 0 <= m_lsi m -> m_lsi m + total (own fs) < 2 ^ 64 ->
  all_fields mk fs m err = Made (fold_left adv (own fs) m) err.
Proof.
  revert m. induction fs as [|[sk ns t] r IH]; intros m P L B; [reflexivity|]. cbn [all_fields f_skip f_names f_type].
  change (own (Field sk ns t :: r)) with ((if sk then [] else map (fun n => (n, t)) ns) ++ own r) in *.
  apply Forall_app in P as [P1 P2]. rewrite total_app in B. rewrite fold_left_app. destruct sk; [apply IH; auto|].
  pose proof (total_nonneg (own r)). pose proof (total_nonneg (map (fun n => (n, t)) ns)).
  destruct ns as [|n ns]; [cbn [all_names map fold_left]; apply IH; auto; cbn in B; unfold total in B; cbn in B; unfold total; lia|].
  assert (PT : plain t) by (inversion P1; auto).
  rewrite all_names_adv by (auto; lia). cbv iota beta. apply IH; [exact P2|rewrite adv_lsi; lia|rewrite adv_lsi; lia].
Qed.
Lemma total_stack fs : stack_len (shapes none_ev fs) = total (own fs).
Proof. unfold shapes, total. induction (own fs) as [|x l IH]; [reflexivity|]. cbn [map stack_len fold_right]. rewrite IH. reflexivity. Qed.
Definition started (types : bytes -> option tdef) rn t : maker := Maker types rn [rn] t 0 [] [Head].
Definition finished types rn t fs : maker := emit (fold_left adv (own fs) (started types rn t)) Ret.
Lemma adv_keeps l m : m_types (fold_left adv l m) = m_types m /\ m_rn (fold_left adv l m) = m_rn m /\ m_frn (fold_left adv l m) = m_frn m.
Proof. revert m. induction l as [|x l IH]; intro m; cbn [fold_left]; auto. destruct (IH (adv m x)) as (A & B & C). rewrite A, B, C. auto. Qed.
Lemma pieces_adv ev rn l : forall m, m_frn m = [rn] -> exists cs, m_code (fold_left adv l m) = m_code m ++ cs /\
  Forall2 (fun x c => exists n refs, c = Code [rn; fst (fst x)] n refs (snd (fst x)) /\ value ev n refs = fst (snd x) /\ shape ev (snd (fst x)) = snd (snd x))
    (combine l (layout (value ev (m_lsi m) (m_stack m)) (map (fun x => shape ev (snd x)) l))) cs /\
  value ev (m_lsi (fold_left adv l m)) (m_stack (fold_left adv l m)) = value ev (m_lsi m) (m_stack m) + stack_len (map (fun x => shape ev (snd x)) l).
Proof.
  induction l as [|x l IH]; intros m F; cbn [fold_left map layout combine stack_len]; [exists []; rewrite app_nil_r; split; [reflexivity|split; [constructor|lia]]|].
  assert (V : value ev (m_lsi (adv m x)) (m_stack (adv m x)) = value ev (m_lsi m) (m_stack m) + step (shape ev (snd x))).
  { cbn [adv m_lsi m_stack]. rewrite value_app. rewrite (step_shape ev (snd x) (m_frn m ++ [fst x])). unfold value. lia. }
  destruct (IH (adv m x) F) as (cs & C1 & C2 & C3). rewrite V in C2, C3. exists (Code [rn; fst x] (m_lsi m) (m_stack m) (snd x) :: cs). split; [|split].
  - rewrite C1. cbn [adv m_code]. rewrite F, <- app_assoc. reflexivity.
  - constructor; [|exact C2]. exists (m_lsi m), (m_stack m). cbn [fst snd]. auto.
  - rewrite C3. lia.
Qed.
Lemma finished_describes types rn t fs : describes rn fs (snapshot (finished types rn t fs)).
Proof.
  unfold finished. destruct (adv_keeps (own fs) (started types rn t)) as (_ & R & _). split; [cbn [snapshot b_rn emit m_rn]; exact R|].
  intro ev. destruct (pieces_adv ev rn (own fs) (started types rn t) eq_refl) as (cs & C1 & C2 & C3).
  cbn [snapshot b_code b_lsi b_stack emit m_code m_lsi m_stack]. split.
  - exists cs. split; [rewrite C1; reflexivity|]. exact C2.
  - rewrite C3. unfold value, shapes. cbn. lia.
Qed.
Lemma make_plain d types rn t fs : types t = Some (DStruct fs) -> plain_struct fs ->
  make (S d) (Maker types rn [rn] t 0 [] []) = Made (fold_left adv (own fs) (started types rn t)) false.
Proof.
  intros T (P & B). cbn [make m_types m_rtn m_lsi]. rewrite T. cbv iota beta. change (0 =? 0) with true. cbv iota. unfold emit at 1. cbn [m_types m_rn m_frn m_rtn m_lsi m_stack m_code app].
  rewrite all_fields_adv; [reflexivity|exact P|cbn; lia|]. cbn [m_lsi]. change (shapes (fun _ => []) fs) with (shapes none_ev fs) in B. rewrite total_stack in B. lia.
Qed.

(** * One file *)
Definition types_inv (done : list decl) (m : maker) : Prop := forall n d, In (DType n d) done -> m_types m n = Some d.
Definition last_inv (done : list decl) (m : maker) : Prop :=
  (existsb is_method done = false /\ m_rn m = []) \/
  exists a rn t name body mid fs, done = a ++ DMethod (Recv (Some rn) (Some t)) name body :: mid /\ existsb is_method mid = false /\
    In (DType t (DStruct fs)) done /\ m_rn m = rn /\ describes rn fs (snapshot m).
Lemma type_in n d ds : In (DType n d) ds -> In n (type_names ds).
Proof. intro I. apply in_flat_map. exists (DType n d). split; [exact I|left; reflexivity]. Qed.
Lemma once_type n d d' ds : NoDup (type_names ds) -> In (DType n d) ds -> In (DType n d') ds -> d = d'.
Proof.
  induction ds as [|x ds IH]; intros N I1 I2; [destruct I1|]. destruct I1 as [->|I1], I2 as [E|I2].
  - congruence.
  - apply type_in in I2. cbn in N. inversion N; subst. contradiction.
  - subst x. apply type_in in I1. cbn in N. inversion N; subst. contradiction.
  - apply IH; auto. destruct x; cbn in N; auto. inversion N; auto.
Qed.
Lemma types_of_app a b : type_names (a ++ b) = type_names a ++ type_names b.
Proof. unfold type_names. apply flat_map_app. Qed.
Lemma walk_regular d ds : regular ds -> forall rest done m acc, ds = done ++ rest -> types_inv done m -> last_inv done m ->
  exists l, walk (S d) m rest acc = Edited (acc ++ l) /\ Forall2 (edit_for ds) (flat_map wanted_of rest) l.
Proof.
  intros R. induction rest as [|x rest IH]; intros done m acc E T L.
  - exists []. rewrite app_nil_r. split; [reflexivity|constructor].
  - assert (E2 : ds = (done ++ [x]) ++ rest) by (rewrite <- app_assoc; exact E).
    destruct x as [n df|r name body|].
    + cbn [walk flat_map wanted_of app]. apply (IH (done ++ [DType n df])); auto.
      * intros n' d' I. cbn [declare m_types map_set]. unfold map_set. destruct (same n n') eqn:S1.
        -- apply same_iff in S1. subst n'. f_equal. apply (once_type n df d' ds (reg_once ds R)); [rewrite E2; apply in_or_app; left; apply in_or_app; right; left; reflexivity|rewrite E2; apply in_or_app; left; exact I].
        -- apply in_app_or in I as [I|[I|[]]]; [apply T; exact I|]. injection I as -> ->. rewrite same_refl in S1. discriminate.
      * destruct L as [(L1 & L2)|(a & rn & t & name & body & mid & fs & L1 & L2 & L3 & L4 & L5)].
        -- left. split; [rewrite existsb_app, L1; reflexivity|exact L2].
        -- right. exists a, rn, t, name, body, (mid ++ [DType n df]), fs. split; [rewrite L1, <- app_assoc; reflexivity|]. split; [rewrite existsb_app, L2; reflexivity|].
           split; [apply in_or_app; left; exact L3|]. split; [exact L4|exact L5].
    + destruct (reg_method ds R done r name body rest E) as (rn & t & fs & -> & NE & IT & PS & BD).
      assert (HR : exists m', receiver (S d) m (Recv (Some rn) (Some t)) = Made m' false /\ m_types m' = m_types m /\ m_rn m' = rn /\ describes rn fs (snapshot m')).
      { unfold receiver. cbn [r_name r_type]. destruct (same (m_rn m) rn) eqn:S1.
        - apply same_iff in S1. exists m. split; [reflexivity|]. split; [reflexivity|]. split; [exact S1|].
          destruct L as [(_ & L2)|(a & rn' & t' & name' & body' & mid & fs' & L1 & L2 & L3 & L4 & L5)]; [congruence|].
          assert (RN : rn' = rn) by congruence. rewrite RN in *. clear RN rn'. assert (t' = t).
          { assert (E3 : ds = a ++ DMethod (Recv (Some rn) (Some t')) name' body' :: mid ++ DMethod (Recv (Some rn) (Some t)) name body :: rest) by (rewrite E, L1, <- app_assoc; reflexivity).
            pose proof (reg_names ds R _ _ _ _ _ _ _ _ _ E3 L2 eq_refl) as Q. injection Q as ->. reflexivity. }
          subst t'. assert (Q : DStruct fs' = DStruct fs) by (apply (once_type t _ _ ds (reg_once ds R)); rewrite E; apply in_or_app; left; auto). injection Q as ->. exact L5.
        - rewrite (make_plain d (m_types m) rn t fs (T t _ IT) PS). cbv iota beta. eexists. split; [reflexivity|]. destruct (adv_keeps (own fs) (started (m_types m) rn t)) as (A & B & C).
          cbn [emit m_types m_rn]. split; [exact A|]. split; [exact B|]. apply (finished_describes (m_types m) rn t fs). }
      destruct HR as (m' & HR & HT & HN & HD). cbn [walk]. rewrite HR. cbv iota beta.
      assert (T' : types_inv (done ++ [DMethod (Recv (Some rn) (Some t)) name body]) m') by (intros n' d' I; rewrite HT; apply T; apply in_app_or in I as [I|[I|[]]]; [exact I|discriminate]).
      assert (L' : last_inv (done ++ [DMethod (Recv (Some rn) (Some t)) name body]) m').
      { right. exists done, rn, t, name, body, [], fs. split; [reflexivity|]. split; [reflexivity|]. split; [apply in_or_app; left; exact IT|]. auto. }
      rewrite kind_entry. cbn [flat_map wanted_of]. destruct (entry method_table name) as [k|] eqn:K.
      * destruct body as [(lb, rb)|]; [|exfalso; apply BD; congruence]. destruct (IH _ m' (acc ++ [Edit k (snapshot m') lb (rb - 1)]) E2 T' L') as (l & W & F).
        exists (Edit k (snapshot m') lb (rb - 1) :: l). split; [rewrite W, <- app_assoc; reflexivity|]. cbn [app]. constructor; [|exact F].
        split; [reflexivity|]. split; [reflexivity|]. split; [reflexivity|]. exists fs. split; [rewrite E; apply in_or_app; left; exact IT|exact HD].
      * destruct (IH _ m' acc E2 T' L') as (l & W & F). exists l. split; [exact W|]. destruct body as [(lb, rb)|]; exact F.
    + cbn [walk flat_map wanted_of app]. apply (IH (done ++ [DOther])); auto.
      * intros n' d' I. apply T. apply in_app_or in I as [I|[I|[]]]; [exact I|discriminate].
      * destruct L as [(L1 & L2)|(a & rn & t & name & body & mid & fs & L1 & L2 & L3 & L4 & L5)].
        -- left. split; [rewrite existsb_app, L1; reflexivity|exact L2].
        -- right. exists a, rn, t, name, body, (mid ++ [DOther]), fs. split; [rewrite L1, <- app_assoc; reflexivity|]. split; [rewrite existsb_app, L2; reflexivity|].
           split; [apply in_or_app; left; exact L3|]. split; [exact L4|exact L5].
Qed.
(** In a file whose types come first, whose receivers are named pointers and told apart, every one of the five
    methods gets the code of the fields of its own type, in the place of its body, and nothing else is edited. *)
Theorem C176_bodies_partial : forall d ds, regular ds -> exists l, CompleteMethods (S d) ds = Edited l /\ Forall2 (edit_for ds) (flat_map wanted_of ds) l.
Proof.
  intros d ds R. destruct (walk_regular d ds R ds [] new_maker [] eq_refl) as (l & W & F).
  - intros n d' [].
  - left. split; reflexivity.
  - exists l. auto.
Qed.
Print Assumptions C176_bodies_partial.
(** The text outside the bodies stays as it is. *)
Theorem C176_text_partial : forall d ds text reveal data, regular ds -> in_order (zlen data) 0 (flat_map wanted_of ds) -> (forall k n, 0 <= n -> zlen (reveal k n) = n) ->
  exists l, CompleteMethods (S d) ds = Edited l /\ ReplaceLocation reveal data (requests text l) = Ok (replaced data 0 (requests text l)) /\
    map (fun q => (Start q, End_ q)) (requests text l) = map (fun w => (w_lb w, w_rb w - 1)) (flat_map wanted_of ds).
Proof.
  intros d ds text reveal data R O HR. destruct (C176_bodies_partial d ds R) as (l & W & F). exists l. split; [exact W|]. split.
  - apply C53_replace; [exact HR|]. clear W. revert O. generalize 0. induction F as [|w e ws es (_ & A & B & _) F IH]; intros pos O; [exact O|]. cbn [requests map increasing Start End_] in *. destruct O as (O1 & O2 & O3). rewrite A, B. split; [lia|]. split; [lia|]. apply IH. exact O3.
  - clear -F. induction F as [|w e ws es (_ & A & B & _) F IH]; [reflexivity|]. cbn [requests map Start End_] in *. rewrite A, B. f_equal. exact IH.
Qed.
Print Assumptions C176_text_partial.

(** * What goes wrong in other files *)
Lemma walk_types d r acc : forall a m, existsb is_method a = false -> exists m', walk d m (a ++ r) acc = walk d m' r acc /\ m_rn m' = m_rn m /\
  (forall t, ~ In t (type_names a) -> m_types m' t = m_types m t).
Proof.
  induction a as [|x a IH]; intros m N; [exists m; auto|]. destruct x as [n df|rc name body|]; cbn [existsb is_method orb] in N; [|discriminate|].
  - destruct (IH (declare m n df) N) as (m' & W & A & B). exists m'. split; [exact W|]. split; [exact A|]. intros t I. cbn [type_names flat_map app In] in I. rewrite B by (intro; apply I; right; assumption).
    cbn [declare m_types]. unfold map_set. destruct (same n t) eqn:S1; [|reflexivity]. apply same_iff in S1. exfalso. apply I. left. exact S1.
  - destruct (IH m N) as (m' & W & A & B). exists m'. auto.
Qed.
(** A type declared below its methods is not found: the whole file is refused. *)
Theorem C176_late_type_refuted : forall d a rn t name body b, existsb is_method a = false -> ~ In t (type_names a) -> rn <> [] ->
  CompleteMethods (S d) (a ++ DMethod (Recv (Some rn) (Some t)) name body :: b) = Refused.
Proof.
  intros d a rn t name body b N I R. unfold CompleteMethods. destruct (walk_types (S d) (DMethod (Recv (Some rn) (Some t)) name body :: b) [] a new_maker N) as (m' & W & A & B).
  rewrite W. cbn [walk]. unfold receiver. cbn [r_name r_type]. rewrite A. cbn [new_maker m_rn]. destruct (same [] rn) eqn:S1; [apply same_iff in S1; congruence|].
  cbn [make m_types m_rtn]. rewrite (B t I). reflexivity.
Qed.
Print Assumptions C176_late_type_refuted.
(** A method, of whatever name, whose receiver has no name or is not a pointer makes the call panic. *)
Theorem C176_receiver_refuted : forall d a r name body b, existsb is_method a = false -> r_name r <> Some [] -> r_name r = None \/ r_type r = None ->
  CompleteMethods d (a ++ DMethod r name body :: b) = Crash.
Proof.
  intros d a r name body b N I R. unfold CompleteMethods. destruct (walk_types d (DMethod r name body :: b) [] a new_maker N) as (m' & W & A & B).
  rewrite W. cbn [walk]. unfold receiver. destruct (r_name r) as [rn|]; [|reflexivity]. destruct R as [R|R]; [discriminate|]. rewrite A. cbn [new_maker m_rn].
  destruct (same [] rn) eqn:S1; [apply same_iff in S1; congruence|]. rewrite R. reflexivity.
Qed.
Print Assumptions C176_receiver_refuted.
Lemma walk_same d rn : forall ds m acc l, (forall r name body, In (DMethod r name body) ds -> r_name r = Some rn) -> m_rn m = rn -> walk d m ds acc = Edited l ->
  exists l', l = acc ++ l' /\ Forall (fun e => e_from e = snapshot m) l'.
Proof.
  induction ds as [|x ds IH]; intros m acc l H M W.
  - cbn [walk] in W. injection W as <-. exists []. rewrite app_nil_r. auto.
  - destruct x as [n df|rc name body|]; cbn [walk] in W.
    + destruct (IH (declare m n df) acc l (fun r n b I => H r n b (or_intror I)) M W) as (l' & A & B). exists l'. split; [exact A|]. exact B.
    + unfold receiver in W. rewrite (H rc name body (or_introl eq_refl)), M, same_refl in W. cbv iota beta in W. destruct (kind_named name) as [k|].
      * destruct body as [(lb, rb)|]; [|discriminate]. destruct (IH _ _ _ (fun r n b I => H r n b (or_intror I)) M W) as (l' & A & B). exists (Edit k (snapshot m) lb (rb - 1) :: l'). rewrite A, <- app_assoc. split; [reflexivity|]. constructor; [reflexivity|exact B].
      * apply (IH m acc l (fun r n b I => H r n b (or_intror I)) M W).
    + apply (IH m acc l (fun r n b I => H r n b (or_intror I)) M W).
Qed.
Definition one_from (o : outcome) : Prop := match o with Edited l => forall e e', In e l -> In e' l -> e_from e = e_from e' | _ => True end.
(** Methods that call their receivers the same all get the code of the first one's type, whatever types they are of. *)
Theorem C176_same_receiver_refuted : forall d rn ds, rn <> [] -> (forall r name body, In (DMethod r name body) ds -> r_name r = Some rn) -> one_from (CompleteMethods d ds).
Proof.
  intros d rn ds NE. unfold CompleteMethods. assert (G : forall ds m, m_rn m = [] -> (forall r name body, In (DMethod r name body) ds -> r_name r = Some rn) -> one_from (walk d m ds [])); [|intro; apply G; auto].
  clear ds. induction ds as [|x ds IH]; intros m M H; [intros e e' []|]. destruct x as [n df|rc name body|].
  - apply (IH (declare m n df) M). intros r n' b I. apply (H r n' b). right. exact I.
  - cbn [walk]. destruct (receiver d m rc) as [m' [|]| |] eqn:E; try exact I.
    assert (M' : m_rn m' = rn).
    { unfold receiver in E. rewrite (H rc name body (or_introl eq_refl)), M in E. destruct (same [] rn) eqn:S1; [apply same_iff in S1; congruence|]. destruct (r_type rc) as [t|]; [|discriminate].
      destruct (make d _) as [m2 [|]| |] eqn:E2; try discriminate. injection E as <-. cbn [emit m_rn].
      assert (K : forall d m m2 e, make d m = Made m2 e -> m_rn m2 = m_rn m); [|rewrite (K _ _ _ _ E2); reflexivity].
      clear. induction d as [|d IH]; intros m m2 e E; [discriminate|]. cbn [make] in E. destruct (m_types m (m_rtn m)) as [[fs|]|]; [|injection E as <- _; destruct (m_lsi m =? 0); reflexivity|injection E as <- _; reflexivity].
      assert (K1 : forall n t m err, match one_name (make d) n t m err with Next m2 _ => m_rn m2 = m_rn m | Stop (Made m2 _) => m_rn m2 = m_rn m | _ => True end).
      { intros n t m' err. destruct t as [k|k|el|[s|] el|[f|]|]; cbn [one_name]; auto; try reflexivity.
        - destruct (basic_of k); reflexivity.
        - destruct (ParseUint10 64 s) as [z [|]]; reflexivity.
        - destruct (make d _) as [m3 e3| |] eqn:E3; auto. cbn [leave enter m_rn]. apply IH in E3. exact E3. }
      assert (K2 : forall ns t m err, match all_names (make d) ns t m err with Next m2 _ => m_rn m2 = m_rn m | Stop (Made m2 _) => m_rn m2 = m_rn m | _ => True end).
      { induction ns as [|n ns IHn]; intros t m' err; cbn [all_names]; [reflexivity|]. pose proof (K1 n t m' err) as Q. destruct (one_name (make d) n t m' err) as [m3 e3|[m3 e3| |]]; auto.
        pose proof (IHn t m3 e3) as Q2. destruct (all_names (make d) ns t m3 e3) as [m4 e4|[m4 e4| |]]; auto; congruence. }
      assert (K3 : forall fs m err, match all_fields (make d) fs m err with Made m2 _ => m_rn m2 = m_rn m | _ => True end).
      { clear E fs. induction fs as [|f fs' IHf]; intros m' err; cbn [all_fields]; [reflexivity|]. destruct (f_skip f); [apply IHf|]. pose proof (K2 (f_names f) (f_type f) m' err) as Q.
        destruct (all_names (make d) (f_names f) (f_type f) m' err) as [m3 e3|[m3 e3| |]]; auto. pose proof (IHf m3 e3) as Q2. destruct (all_fields (make d) fs' m3 e3) as [m4 e4| |]; auto. congruence. }
      pose proof (K3 fs (if m_lsi m =? 0 then emit m Head else m) false) as Q. rewrite E in Q. cbv iota beta in Q. rewrite Q. destruct (m_lsi m =? 0); reflexivity. }
    assert (G : forall acc o, walk d m' ds acc = o -> (forall e, In e acc -> e_from e = snapshot m') -> one_from o).
    { intros acc o W A. destruct o as [l| | |]; try exact I. destruct (walk_same d rn ds m' acc l (fun r n b I => H r n b (or_intror I)) M' W) as (l' & -> & F).
      assert (Z1 : forall e, In e (acc ++ l') -> e_from e = snapshot m') by (intros e J; apply in_app_or in J as [J|J]; [auto|rewrite Forall_forall in F; auto]). intros e e' J J'. rewrite (Z1 e J), (Z1 e' J'). reflexivity. }
    destruct (kind_named name) as [k|]; [|apply (G [] _ eq_refl); intros e []]. destruct body as [(lb, rb)|]; [|exact I].
    apply (G _ _ eq_refl). intros e [<-|[]]. reflexivity.
  - apply (IH m M). intros r n' b I. apply (H r n' b). right. exact I.
Qed.
Print Assumptions C176_same_receiver_refuted.
Lemma own_app a b : own (a ++ b) = own a ++ own b. Proof. apply flat_map_app. Qed.
Lemma all_fields_cut mk b : forall a m e, Forall (fun x => plain (snd x)) (own a) -> 0 <= m_lsi m -> m_lsi m + total (own a) < 2 ^ 64 ->
  all_fields mk (a ++ b) m e = all_fields mk b (fold_left adv (own a) m) e.
Proof.
  induction a as [|[sk ns t] r IH]; intros m e P L B; [reflexivity|]. cbn [app all_fields f_skip f_names f_type].
  change (own (Field sk ns t :: r)) with ((if sk then [] else map (fun n => (n, t)) ns) ++ own r) in *.
  apply Forall_app in P as [P1 P2]. rewrite total_app in B. rewrite fold_left_app. destruct sk; [apply IH; auto|].
  pose proof (total_nonneg (own r)). pose proof (total_nonneg (map (fun n => (n, t)) ns)).
  destruct ns as [|n ns]; [cbn [all_names map fold_left]; apply IH; auto; cbn in B; unfold total in B; cbn in B; unfold total; lia|].
  assert (PT : plain t) by (inversion P1; auto).
  rewrite all_names_adv by (auto; lia). cbv iota beta. apply IH; [exact P2|rewrite adv_lsi; lia|rewrite adv_lsi; lia].
Qed.
(** A file of one struct type and a method on it. *)
Definition small_file (t : bytes) (fs : list field) (others : list decl) (rn name : bytes) (body : option (Z * Z)) (b : list decl) : list decl :=
  DType t (DStruct fs) :: others ++ DMethod (Recv (Some rn) (Some t)) name body :: b.
Lemma small_walk d t fs others rn name body b : rn <> [] -> existsb is_method others = false -> ~ In t (type_names others) -> exists types,
  types t = Some (DStruct fs) /\ (forall u, ~ In u (type_names others) -> u <> t -> types u = None) /\
  CompleteMethods (S d) (small_file t fs others rn name body b) =
  match all_fields (make d) fs (started types rn t) false with
  | Made m true => Refused
  | Made m false => match kind_named name with
                    | None => walk (S d) (emit m Ret) b []
                    | Some k => match body with None => Crash | Some (lb, rb) => walk (S d) (emit m Ret) b [Edit k (snapshot (emit m Ret)) lb (rb - 1)] end
                    end
  | Crashed => Crash
  | Endless => Hangs
  end.
Proof.
  intros R N I. unfold CompleteMethods, small_file. cbn [walk]. destruct (walk_types (S d) (DMethod (Recv (Some rn) (Some t)) name body :: b) [] others (declare new_maker t (DStruct fs)) N) as (m' & W & A & B).
  exists (m_types m'). assert (T : m_types m' t = Some (DStruct fs)) by (rewrite (B t I); cbn [declare m_types]; unfold map_set; rewrite same_refl; reflexivity). split; [exact T|]. split.
  - intros u J K. rewrite (B u J). cbn [declare m_types]. unfold map_set. destruct (same t u) eqn:S1; [apply same_iff in S1; congruence|reflexivity].
  - rewrite W. cbn [walk]. unfold receiver. cbn [r_name r_type]. rewrite A. cbn [declare new_maker m_rn]. destruct (same [] rn) eqn:S1; [apply same_iff in S1; congruence|].
    cbn [make m_types m_rtn m_lsi]. rewrite T. cbv iota beta. change (0 =? 0) with true. cbv iota. unfold emit at 1. cbn [m_types m_rn m_frn m_rtn m_lsi m_stack m_code app]. fold (started (m_types m') rn t).
    destruct (all_fields (make d) fs (started (m_types m') rn t) false) as [m2 [|]| |]; reflexivity.
Qed.
Definition good_before (pre : list field) : Prop := Forall (fun x => plain (snd x)) (own pre) /\ stack_len (shapes none_ev pre) < 2 ^ 64.
Lemma small_cut mk types rn t pre b : good_before pre -> all_fields mk (pre ++ b) (started types rn t) false = all_fields mk b (fold_left adv (own pre) (started types rn t)) false.
Proof. intros (P & B). rewrite total_stack in B. apply all_fields_cut; [exact P|cbn; lia|cbn [started m_lsi]; lia]. Qed.
(** An array whose length is a constant makes the call panic, an array whose length is not written in decimal gets the file refused. *)
Theorem C176_array_length_refuted : forall d t pre sk n ns len e post others rn name body b, rn <> [] -> existsb is_method others = false -> ~ In t (type_names others) -> good_before pre -> sk = false ->
  CompleteMethods (S d) (small_file t (pre ++ Field sk (n :: ns) (FArray AExpr e) :: post) others rn name body b) = Crash /\
  (~ Forall is_digit len -> CompleteMethods (S d) (small_file t (pre ++ Field sk (n :: ns) (FArray (ALit len) e) :: post) others rn name body b) = Refused).
Proof.
  intros d t pre sk n ns len e post others rn name body b R N I G ->. split.
  - destruct (small_walk d t (pre ++ Field false (n :: ns) (FArray AExpr e) :: post) others rn name body b R N I) as (types & _ & _ & W). rewrite W, small_cut by exact G. reflexivity.
  - intro D. destruct (small_walk d t (pre ++ Field false (n :: ns) (FArray (ALit len) e) :: post) others rn name body b R N I) as (types & _ & _ & W). rewrite W, small_cut by exact G.
    cbn [all_fields f_skip f_names f_type all_names one_name]. unfold ParseUint10. replace (parse_digits len) with (@None Z); [reflexivity|].
    destruct (parse_digits len) eqn:E; [|reflexivity]. apply HttpTheorems.parse_digits_iff in E as (_ & K & _). contradiction.
Qed.
Print Assumptions C176_array_length_refuted.
(** A field of a struct type without a name: the first name in it is looked up as a type.  An empty one panics; when there is no such
    type the file is refused; when it is the type itself the call does not come back. *)
Theorem C176_anonymous_refuted : forall d t pre n f post others rn name body b, rn <> [] -> existsb is_method others = false -> ~ In t (type_names others) -> good_before pre ->
  CompleteMethods (S d) (small_file t (pre ++ Field false [n] (FAnon None) :: post) others rn name body b) = Crash /\
  (~ In f (type_names others) -> f <> t -> good_before (pre ++ post) -> CompleteMethods (S (S d)) (small_file t (pre ++ Field false [n] (FAnon (Some f)) :: post) others rn name body b) = Refused).
Proof.
  intros d t pre n f post others rn name body b R N I G. split.
  - destruct (small_walk d t (pre ++ Field false [n] (FAnon None) :: post) others rn name body b R N I) as (types & _ & _ & W). rewrite W, small_cut by exact G. reflexivity.
  - intros J K (P & B). destruct (small_walk (S d) t (pre ++ Field false [n] (FAnon (Some f)) :: post) others rn name body b R N I) as (types & _ & T & W). rewrite W, small_cut by exact G.
    set (m := fold_left adv (own pre) (started types rn t)). assert (M : m_types m = types) by (unfold m; apply (adv_keeps (own pre) (started types rn t))).
    assert (ML : m_lsi m = total (own pre)) by (unfold m; rewrite adv_lsi; reflexivity).
    cbn [all_fields f_skip f_names f_type all_names one_name make enter m_types m_rtn]. rewrite M, (T f J K). cbv iota beta. cbn [leave enter m_types m_rn m_frn m_rtn m_lsi m_stack m_code].
    rewrite own_app in P. apply Forall_app in P as [P1 P2]. rewrite total_stack, own_app, total_app in B. pose proof (total_nonneg (own pre)).
    rewrite all_fields_adv; [reflexivity|exact P2|cbn [leave enter m_lsi]; lia|cbn [leave enter m_lsi]; lia].
Qed.
Print Assumptions C176_anonymous_refuted.
Theorem C176_anonymous_endless_refuted : forall d t pre n post others rn name body b, rn <> [] -> existsb is_method others = false -> ~ In t (type_names others) -> own pre = [] ->
  CompleteMethods (S d) (small_file t (pre ++ Field false [n] (FAnon (Some t)) :: post) others rn name body b) = Hangs.
Proof.
  intros d t pre n post others rn name body b R N I G. destruct (small_walk d t (pre ++ Field false [n] (FAnon (Some t)) :: post) others rn name body b R N I) as (types & T & _ & W). rewrite W.
  assert (GB : good_before pre) by (split; [rewrite G; constructor|rewrite total_stack, G; cbn; lia]). rewrite small_cut by exact GB. rewrite G. cbn [fold_left].
  enough (K : forall d m, m_types m = types -> m_rtn m = t -> make d m = Endless).
  { cbn [all_fields f_skip f_names f_type all_names one_name]. rewrite K by reflexivity. reflexivity. }
  clear -T G. induction d as [|d IH]; intros m E1 E2; [reflexivity|]. cbn [make]. rewrite E1, E2, T. cbv iota beta zeta.
  assert (Q : forall m, m_types m = types -> 0 <= 0 -> all_fields (make d) (pre ++ Field false [n] (FAnon (Some t)) :: post) m false = Endless).
  { intros m' E _. revert G m' E. clear -IH. induction pre as [|[sk ns x] pre IHp]; intros G m' E; cbn [app all_fields f_skip f_names f_type].
    - cbn [all_names one_name]. rewrite IH by (cbn [enter m_types m_rtn]; auto). reflexivity.
    - change (own (Field sk ns x :: pre)) with ((if sk then [] else map (fun n => (n, x)) ns) ++ own pre) in G. apply app_eq_nil in G as [G1 G2].
      destruct sk; [apply IHp; auto|]. destruct ns; [|discriminate]. cbn [all_names]. apply IHp; auto. }
  destruct (m_lsi m =? 0); apply Q; auto; lia.
Qed.
Print Assumptions C176_anonymous_endless_refuted.
(** The error of one such field is forgotten when a later one is found. *)
Theorem C176_error_lost_refuted : forall d t n f n2 g rn name lb rb k, rn <> [] -> f <> t -> f <> g -> g <> t -> entry method_table name = Some k -> exists e,
  CompleteMethods (S (S d)) (small_file t [Field false [n] (FAnon (Some f)); Field false [n2] (FAnon (Some g))] [DType g DSimple] rn name (Some (lb, rb)) []) = Edited [e].
Proof.
  intros d t n f n2 g rn name lb rb k R F1 F2 F3 K. rewrite <- kind_entry in K.
  assert (NS : forall a b, a <> b -> same a b = false) by (intros a b H; destruct (same a b) eqn:Q; [apply same_iff in Q; congruence|reflexivity]).
  unfold CompleteMethods, small_file. cbn [walk app]. unfold receiver. cbn [r_name r_type declare m_rn new_maker m_types]. rewrite (NS [] rn) by congruence.
  set (types := map_set same _ g _). assert (Tt : types t = Some (DStruct [Field false [n] (FAnon (Some f)); Field false [n2] (FAnon (Some g))])) by (unfold types, map_set; rewrite (NS g t F3), same_refl; reflexivity).
  assert (Tf : types f = None) by (unfold types, map_set; rewrite (NS g f), (NS t f) by congruence; reflexivity). assert (Tg : types g = Some DSimple) by (unfold types, map_set; rewrite same_refl; reflexivity). clearbody types.
  cbn [make m_types m_rtn m_lsi]. rewrite Tt. cbv iota beta. change (0 =? 0) with true. cbv iota. cbn [all_fields f_skip f_names f_type all_names one_name make enter emit m_types m_rtn m_lsi m_frn m_rn m_stack m_code].
  rewrite Tf. cbv iota beta. cbn [leave enter m_types m_rtn m_lsi m_frn m_rn m_stack m_code make one_name all_names emit]. rewrite Tg. cbv iota beta. rewrite K. eexists. reflexivity.
Qed.
Print Assumptions C176_error_lost_refuted.
(** When that name is the name of a declared struct, the field gets the code for the fields of that struct and not for its own; the fields
    after it keep their own paths. *)
Lemma pieces_path l : forall m, exists cs, m_code (fold_left adv l m) = m_code m ++ cs /\
  Forall2 (fun x c => exists k refs, c = Code (m_frn m ++ [fst x]) k refs (snd x)) l cs.
Proof.
  induction l as [|x l IH]; intro m; cbn [fold_left]; [exists []; rewrite app_nil_r; split; [reflexivity|constructor]|].
  destruct (IH (adv m x)) as (cs & C1 & C2). exists (Code (m_frn m ++ [fst x]) (m_lsi m) (m_stack m) (snd x) :: cs). split.
  - rewrite C1. cbn [adv m_code]. rewrite <- app_assoc. reflexivity.
  - constructor; [eauto|exact C2].
Qed.
Theorem C176_anonymous_taken_refuted : forall d t n f gs post rn name k lb rb, rn <> [] -> f <> t -> plain_struct gs -> plain_struct post ->
  stack_len (shapes none_ev gs) + stack_len (shapes none_ev post) < 2 ^ 64 -> entry method_table name = Some k -> exists e cs ds,
  CompleteMethods (S (S d)) (small_file t (Field false [n] (FAnon (Some f)) :: post) [DType f (DStruct gs)] rn name (Some (lb, rb)) []) = Edited [e] /\
  b_code (e_from e) = Head :: Head :: cs ++ ds ++ [Ret] /\
  Forall2 (fun x c => exists i refs, c = Code [rn; n; fst x] i refs (snd x)) (own gs) cs /\
  Forall2 (fun x c => exists i refs, c = Code [rn; fst x] i refs (snd x)) (own post) ds.
Proof.
  intros d t n f gs post rn name k lb rb R NE (P1 & B1) (P2 & B2) B K. rewrite <- kind_entry in K. fold none_ev in B1, B2. rewrite !total_stack in *.
  unfold CompleteMethods, small_file. cbn [walk app]. unfold receiver. cbn [r_name r_type declare m_rn new_maker m_types]. destruct (same [] rn) eqn:S1; [apply same_iff in S1; congruence|].
  set (types := map_set same _ f _). assert (Tt : types t = Some (DStruct (Field false [n] (FAnon (Some f)) :: post))).
  { unfold types, map_set. destruct (same f t) eqn:Q; [apply same_iff in Q; congruence|]. rewrite same_refl. reflexivity. }
  assert (Tf : types f = Some (DStruct gs)) by (unfold types, map_set; rewrite same_refl; reflexivity). clearbody types.
  pose proof (total_nonneg (own gs)). pose proof (total_nonneg (own post)).
  cbn [make m_types m_rtn m_lsi]. rewrite Tt. cbv iota beta. change (0 =? 0) with true. cbv iota.
  cbn [all_fields f_skip f_names f_type all_names one_name]. cbn [enter emit m_types m_rn m_frn m_rtn m_lsi m_stack m_code app make]. rewrite Tf. cbv iota beta. change (0 =? 0) with true. cbv iota.
  rewrite all_fields_adv; [|exact P1|cbn [emit enter m_lsi]; lia|cbn [emit enter m_lsi]; lia]. cbv iota beta.
  set (m1 := emit _ Head). set (m2 := leave (fold_left adv (own gs) m1) [rn]).
  assert (L2 : m_lsi m2 = total (own gs)) by (unfold m2, m1; cbn [leave enter m_lsi]; rewrite adv_lsi; reflexivity).
  rewrite all_fields_adv; [|exact P2|rewrite L2; lia|rewrite L2; lia]. cbv iota beta. rewrite K.
  destruct (pieces_path (own gs) m1) as (cs & C1 & C2). destruct (pieces_path (own post) m2) as (ds & D1 & D2).
  eexists. exists cs, ds. split; [reflexivity|]. split; [|split; [exact C2|exact D2]].
  cbn [e_from snapshot b_code emit m_code]. rewrite D1. unfold m2. cbn [leave enter m_code]. rewrite C1. unfold m1. cbn [emit m_code app]. rewrite <- app_assoc. reflexivity.
Qed.
Print Assumptions C176_anonymous_taken_refuted.
Example C176_anonymous_taken_case : exists e,
  CompleteMethods 2 [DType (str "A") (DStruct [Field false [str "x"] (FAnon (Some (str "Size"))); Field false [str "y"] (FIdent (str "byte"))]); DType (str "Size") (DStruct [Field false [str "W"] (FIdent (str "int16"))]);
    DMethod (Recv (Some (str "a")) (Some (str "A"))) (str "syllabEncoder") (Some (10, 20))] = Edited [e] /\
  b_code (e_from e) = [Head; Head; Code [str "a"; str "x"; str "W"] 0 [] (FIdent (str "int16")); Code [str "a"; str "y"] 2 [] (FIdent (str "byte")); Ret].
Proof. eexists. split; [vm_compute; reflexivity|reflexivity]. Qed.
(** A type that is not a struct gets no code at all and no length. *)
Theorem C176_not_struct_refuted : forall d t rn name lb rb k, rn <> [] -> entry method_table name = Some k ->
  CompleteMethods (S d) [DType t DSimple; DMethod (Recv (Some rn) (Some t)) name (Some (lb, rb))] = Edited [Edit k (From_ rn [Head; Ret] 0 []) lb (rb - 1)].
Proof.
  intros d t rn name lb rb k R K. rewrite <- kind_entry in K. unfold CompleteMethods. cbn [walk]. unfold receiver. cbn [r_name r_type declare m_rn new_maker m_types]. destruct (same [] rn) eqn:S1; [apply same_iff in S1; congruence|].
  cbn [make m_types m_rtn m_lsi]. unfold map_set. rewrite same_refl. cbv iota beta. rewrite K. reflexivity.
Qed.
Print Assumptions C176_not_struct_refuted.
(** The length of an array written in octal is taken for decimal: the fields after it are put too far up. *)
Definition octal_value (s : bytes) : Z := fold_left (fun a c => 8 * a + (c - 48)) s 0.
Lemma octal_less s : Forall (fun c => 48 <= c <= 55) s -> 0 <= octal_value s <= dec_value s /\ (8 <= dec_value s -> octal_value s < dec_value s).
Proof.
  unfold octal_value, dec_value. induction s as [|c s IH] using rev_ind; intro F; [cbn; lia|]. apply Forall_app in F as [F1 F2]. inversion F2 as [|? ? C]; subst. specialize (IH F1).
  rewrite !fold_left_app. cbn [fold_left]. lia.
Qed.
Theorem C176_octal_refuted : forall d t x y s rn lb rb, rn <> [] -> s <> [] -> Forall (fun c => 48 <= c <= 55) s -> 8 <= dec_value s < 2 ^ 64 - 1 -> exists e c,
  CompleteMethods (S d) (small_file t [Field false [x] (FArray (ALit (48 :: s)) (EName (str "byte"))); Field false [y] (FIdent (str "byte"))] [] rn (str "syllabEncoder") (Some (lb, rb)) []) = Edited [e] /\
  b_code (e_from e) = [Head; c; Code [rn; y] (dec_value s) [] (FIdent (str "byte")); Ret] /\ octal_value s < dec_value s.
Proof.
  intros d t x y s rn lb rb R NE F B. destruct (octal_less s F) as (_ & O). destruct (small_walk d t [Field false [x] (FArray (ALit (48 :: s)) (EName (str "byte"))); Field false [y] (FIdent (str "byte"))] [] rn (str "syllabEncoder") (Some (lb, rb)) [] R eq_refl (fun H => H)) as (types & _ & _ & W).
  rewrite W. cbn [all_fields f_skip f_names f_type all_names one_name].
  assert (PU : ParseUint10 64 (48 :: s) = (dec_value s, false)).
  { unfold ParseUint10. replace (parse_digits (48 :: s)) with (Some (dec_value s)); [replace (dec_value s <? 2 ^ 64) with true by lia; reflexivity|]. symmetry. apply HttpTheorems.parse_digits_iff.
    split; [discriminate|]. split; [constructor; [unfold is_digit; lia|eapply Forall_impl; [|exact F]; intros c H; cbv beta in H; unfold is_digit; lia]|reflexivity]. }
  rewrite PU. cbv iota beta. change (basic_of (str "byte")) with (Some TByte). cbv iota beta. change (element_of (EName (str "byte"))) with (Fixed EByte). cbn [array_step basic_step].
  change (kind_named (str "syllabEncoder")) with (Some KEncoder). cbv iota beta. eexists. exists (Code [rn; x] 0 [] (FArray (ALit (48 :: s)) (EName (str "byte")))). split; [reflexivity|].
  cbn [e_from snapshot b_code emit grow started m_code m_lsi m_stack m_frn app]. split; [|apply O; lia]. rewrite Z.add_0_l, Z2Nat.id by lia. rewrite u64_small by lia. reflexivity.
Qed.
Print Assumptions C176_octal_refuted.

(** * Cases *)
Definition nm (s : string) : bytes := str s.
Definition file1 : list decl :=
  [DType (nm "Point") (DStruct [Field false [nm "X"; nm "Y"] (FIdent (nm "int16")); Field true [nm "cache"] (FAnon None); Field false [nm "Name"] (FIdent (nm "string"))]);
   DMethod (Recv (Some (nm "p")) (Some (nm "Point"))) (nm "syllabEncoder") (Some (100, 120));
   DOther;
   DMethod (Recv (Some (nm "p")) (Some (nm "Point"))) (nm "syllabStackLen") (Some (150, 160));
   DType (nm "Line") (DStruct [Field false [nm "A"] (FIdent (nm "Point")); Field false [nm "Key"] (FArray (ALit (nm "16")) (EName (nm "byte"))); Field false [nm "Tags"] (FSlice (EName (nm "uint32")))]);
   DMethod (Recv (Some (nm "l")) (Some (nm "Line"))) (nm "String") None;
   DMethod (Recv (Some (nm "l")) (Some (nm "Line"))) (nm "syllabDecoder") (Some (300, 333))].
Fixpoint each (P : list decl -> decl -> list decl -> Prop) (done rest : list decl) : Prop :=
  match rest with [] => True | x :: r => P done x r /\ each P (done ++ [x]) r end.
Lemma each_ok P : forall rest done, each P done rest -> forall a x b, rest = a ++ x :: b -> P (done ++ a) x b.
Proof.
  induction rest as [|y rest IH]; intros done H a x b E; [destruct a; discriminate|]. destruct H as (H1 & H2). destruct a as [|z a].
  - injection E as <- <-. rewrite app_nil_r. exact H1.
  - injection E as <- E. specialize (IH _ H2 a x b E). rewrite <- app_assoc in IH. exact IH.
Qed.
Lemma file1_regular : regular file1.
Proof.
  assert (P1 : plain_struct [Field false [nm "X"; nm "Y"] (FIdent (nm "int16")); Field true [nm "cache"] (FAnon None); Field false [nm "Name"] (FIdent (nm "string"))]) by (split; [repeat constructor|vm_compute; reflexivity]).
  assert (P2 : plain_struct [Field false [nm "A"] (FIdent (nm "Point")); Field false [nm "Key"] (FArray (ALit (nm "16")) (EName (nm "byte"))); Field false [nm "Tags"] (FSlice (EName (nm "uint32")))]).
  { split; [|vm_compute; reflexivity]. constructor; [exact I|]. constructor; [|constructor; [exact I|constructor]]. cbn [snd plain f_type]. split; [discriminate|]. split; [repeat constructor; vm_compute; discriminate|]. split; [intros t E; discriminate|vm_compute; reflexivity]. }
  split.
  - vm_compute. constructor; [intros [E|[]]; discriminate|]. constructor; [intros []|constructor].
  - assert (Q : each (fun a x b => match x with DMethod r name body => exists rn t fs, r = Recv (Some rn) (Some t) /\ rn <> [] /\ In (DType t (DStruct fs)) a /\ plain_struct fs /\ (entry method_table name <> None -> body <> None) | _ => True end) [] file1).
    { assert (M : forall name body, name = nm "String" \/ body <> None -> entry method_table name <> None -> body <> @None (Z * Z)) by (intros name body [->|H] K; [exfalso; apply K; reflexivity|exact H]).
      unfold file1. cbn [each app]. split; [exact I|]. split; [|split; [exact I|split; [|split; [exact I|split; [|split; [|exact I]]]]]].
      - exists (nm "p"), (nm "Point"). eexists. split; [reflexivity|]. split; [discriminate|]. split; [left; reflexivity|]. split; [exact P1|apply M; right; discriminate].
      - exists (nm "p"), (nm "Point"). eexists. split; [reflexivity|]. split; [discriminate|]. split; [left; reflexivity|]. split; [exact P1|apply M; right; discriminate].
      - exists (nm "l"), (nm "Line"). eexists. split; [reflexivity|]. split; [discriminate|]. split; [do 4 right; left; reflexivity|]. split; [exact P2|apply M; left; reflexivity].
      - exists (nm "l"), (nm "Line"). eexists. split; [reflexivity|]. split; [discriminate|]. split; [do 4 right; left; reflexivity|]. split; [exact P2|apply M; right; discriminate]. }
    intros a r name body b E. exact (each_ok _ _ _ Q a _ b E).
  - assert (Q : each (fun _ x rest => match x with DMethod r _ _ => each (fun _ x' _ => match x' with DMethod r' _ _ => r_name r = r_name r' -> r_type r = r_type r' | _ => True end) [] rest | _ => True end) [] file1).
    { unfold file1. cbn [each app r_name r_type]. repeat split; intro E; solve [reflexivity|discriminate E]. }
    intros a r name body mid r' name' body' b E NM. pose proof (each_ok _ _ _ Q a _ _ E) as Q2. cbv beta iota in Q2. exact (each_ok _ _ _ Q2 mid _ b eq_refl).
Qed.
Example C176_nonvacuous : regular file1 /\ in_order 400 0 (flat_map wanted_of file1) /\
  exists l, CompleteMethods 2 file1 = Edited l /\ map (fun e => (e_start e, e_end e)) l = [(100, 119); (150, 159); (300, 332)] /\
    map (fun e => (b_lsi (e_from e), map snd (b_stack (e_from e)))) l = [(12, []); (12, []); (24, [nm "Point"])].
Proof. split; [exact file1_regular|]. split; [vm_compute; intuition discriminate|]. eexists. split; [vm_compute; reflexivity|]. split; vm_compute; reflexivity. Qed.
(** Two types whose methods call the receiver r: the second one gets the code of the first. *)
Example C176_same_receiver_case : exists e1 e2,
  CompleteMethods 2 [DType (nm "A") (DStruct [Field false [nm "X"] (FIdent (nm "byte"))]); DType (nm "B") (DStruct [Field false [nm "Y"] (FIdent (nm "string"))]);
    DMethod (Recv (Some (nm "r")) (Some (nm "A"))) (nm "syllabEncoder") (Some (10, 20)); DMethod (Recv (Some (nm "r")) (Some (nm "B"))) (nm "syllabEncoder") (Some (40, 50))] = Edited [e1; e2] /\
  e_from e1 = e_from e2 /\ b_code (e_from e2) = [Head; Code [nm "r"; nm "X"] 0 [] (FIdent (nm "byte")); Ret].
Proof. eexists. eexists. split; [vm_compute; reflexivity|]. split; reflexivity. Qed.
Example C176_refuted_cases :
  CompleteMethods 3 [DMethod (Recv (Some (nm "r")) (Some (nm "A"))) (nm "syllabLen") (Some (10, 20)); DType (nm "A") (DStruct [])] = Refused /\
  CompleteMethods 3 [DType (nm "A") (DStruct []); DMethod (Recv (Some (nm "a")) None) (nm "String") (Some (10, 20))] = Crash /\
  CompleteMethods 9 [DType (nm "A") (DStruct [Field false [nm "x"] (FAnon (Some (nm "A")))]); DMethod (Recv (Some (nm "a")) (Some (nm "A"))) (nm "syllabLen") (Some (10, 20))] = Hangs /\
  octal_value (nm "10") = 8 /\ dec_value (nm "10") = 10.
Proof. split; [vm_compute; reflexivity|]. split; [vm_compute; reflexivity|]. split; [vm_compute; reflexivity|]. split; vm_compute; reflexivity. Qed.
