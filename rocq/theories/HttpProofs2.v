From Coq Require Import ZifyBool ZifyNat.
From Verif Require Import Go GoFacts UriModel UriProofs UriProofs2 StrconvModel StringsModel StringsProofs HttpModel HttpSpec HttpProofs.
Local Open Scope Z_scope.

Lemma slice_from_mid (a b : bytes) lo : lo = zlen a -> slice_from (a ++ b) lo = Ok b.
Proof.
  intros ->. unfold slice_from. rewrite <- (app_nil_r b) at 1. apply slice_mid; [reflexivity|].
  rewrite !zlen_app. lia.
Qed.

(** * Attributes of a Set-Cookie line *)
Inductive av := AV (name v : bytes) | AB (name : bytes).
Definition av_text (a : av) : bytes := match a with AV n v => n ++ 61 :: v | AB n => n end.
Definition avs_text (l : list av) : bytes := concat (map (fun a => 59 :: 32 :: av_text a) l).
Definition av_ok (a : av) : Prop :=
  match a with AV n v => ~ In 61 n /\ ~ In 59 n /\ ~ In 59 v | AB n => ~ In 61 n /\ ~ In 59 n end.
Definition is_val (a : av) : Prop := match a with AV _ _ => True | AB _ => False end.
Definition apply_av (sc : setCookie) (a : av) : setCookie :=
  match a with AV n v => set_attr sc (ToLower n) v | AB n => set_attr sc (ToLower n) [] end.
(** Attributes whose effect does not depend on the value. *)
Definition flag_name (n : bytes) : Prop := forall sc v, set_attr sc (ToLower n) v = set_attr sc (ToLower n) [].
Definition bool_ok (a : av) : Prop := match a with AV _ _ => False | AB n => flag_name n end.

Lemma av_no_semi a : av_ok a -> ~ In 59 (av_text a).
Proof.
  destruct a as [n v|n]; cbn [av_ok av_text].
  - intros (_ & A & B) K. apply in_app_or in K as [K|[K|K]]; [tauto|lia|tauto].
  - tauto.
Qed.

(** One turn of the loop, over the attribute [a] followed by [l]. *)
Lemma sc_step f sc pre a l next val : zlen pre = next -> av_ok a -> Forall av_ok l ->
  sc_loop (S f) sc (pre ++ avs_text (a :: l)) next val =
  match a with
  | AV n v => match l with [] => Some (Ok (set_attr sc (ToLower n) v))
              | _ => sc_loop f (set_attr sc (ToLower n) v) (av_text a ++ avs_text l) (zlen (av_text a)) v end
  | AB n => if existsb (fun x => match x with AV _ _ => true | _ => false end) l then Some Panic
            else match l with [] => Some (Ok (set_attr sc (ToLower n) val))
                 | _ => sc_loop f (set_attr sc (ToLower n) val) (av_text a ++ avs_text l) (zlen (av_text a)) val end
  end.
Proof.
  intros L Ha Hl. cbn [sc_loop avs_text map concat app].
  assert (S1 : slice_from (pre ++ 59 :: 32 :: av_text a ++ avs_text l) (next + 2) = Ok (av_text a ++ avs_text l)).
  { change (pre ++ 59 :: 32 :: av_text a ++ avs_text l) with (pre ++ [59; 32] ++ av_text a ++ avs_text l).
    rewrite app_assoc. apply slice_from_mid. rewrite zlen_app. cbn. lia. }
  unfold avs_text in *. rewrite S1. fold (avs_text l) in *.
  assert (SE : index_byte (av_text a ++ avs_text l) 59 = match l with [] => -1 | _ => zlen (av_text a) end).
  { destruct l as [|b l]; [unfold avs_text; cbn; rewrite app_nil_r; apply index_none; now apply av_no_semi|].
    cbn [avs_text map concat app]. apply index_at. now apply av_no_semi. }
  rewrite SE.
  set (nf := if (match l with [] => -1 | _ => zlen (av_text a) end) =? -1 then (zlen (av_text a ++ avs_text l), true)
             else (match l with [] => -1 | _ => zlen (av_text a) end, false)).
  assert (NF : nf = (zlen (av_text a), match l with [] => true | _ => false end)).
  { unfold nf. pose proof (zlen_nonneg (av_text a)). destruct l as [|b l].
    - cbn. now rewrite app_nil_r.
    - destruct (zlen (av_text a) =? -1) eqn:E; [lia|]. reflexivity. }
  rewrite NF. clear nf NF SE S1.
  destruct a as [n v|n]; cbn [av_text] in *.
  - destruct Ha as (H1 & H2 & H3). rewrite <- app_assoc. cbn [app]. rewrite (index_at n 61) by assumption.
    pose proof (zlen_nonneg n). replace (zlen n =? -1) with false by lia.
    rewrite slice_to_mid by reflexivity. cbn [bind].
    replace (slice (n ++ 61 :: v ++ avs_text l) (zlen n + 1) (zlen (n ++ 61 :: v))) with (Ok v).
    2:{ symmetry. change (n ++ 61 :: v ++ avs_text l) with (n ++ [61] ++ v ++ avs_text l). rewrite app_assoc.
        apply slice_mid; rewrite !zlen_app, ?zlen_cons; change (zlen (@nil Z)) with 0; lia. }
    cbn [bind]. destruct l as [|b l]; reflexivity.
  - destruct Ha as (H1 & H2).
    destruct (existsb (fun x => match x with AV _ _ => true | _ => false end) l) eqn:X.
    + assert (V : exists p q, avs_text l = p ++ 61 :: q /\ ~ In 61 p /\ 1 <= zlen p).
      { clear - X Hl. induction l as [|b l IH]; [discriminate|]. inversion Hl as [|? ? Hb Hl']; subst.
        unfold avs_text. cbn [map concat]. fold (avs_text l). destruct b as [m w|m]; cbn [av_text av_ok] in *.
        - exists (59 :: 32 :: m), (w ++ avs_text l). split; [cbn [app]; now rewrite <- app_assoc|].
          rewrite !zlen_cons. pose proof (zlen_nonneg m). split; [|lia]. intros [K|[K|K]]; [lia|lia|tauto].
        - cbn [existsb] in X. destruct (IH Hl' X) as (p & q & E & Np & Lp). exists (59 :: 32 :: m ++ p), q.
          rewrite E. split; [cbn [app]; now rewrite <- app_assoc|].
          rewrite !zlen_cons, zlen_app. pose proof (zlen_nonneg m). split; [|lia].
          intros [K|[K|K]]; [lia|lia|]. apply in_app_or in K. tauto. }
      destruct V as (p & q & E & Np & Lp). rewrite E. rewrite app_assoc, (index_at (n ++ p) 61).
      2:{ intros K. apply in_app_or in K. tauto. }
      pose proof (zlen_nonneg n). rewrite zlen_app. replace (zlen n + zlen p =? -1) with false by lia.
      rewrite slice_to_mid by now rewrite zlen_app. cbn [bind].
      rewrite slice_panic by lia. reflexivity.
    + assert (Z : ~ In 61 (avs_text l)).
      { clear - X Hl. induction l as [|b l IH]; [intros []|]. inversion Hl as [|? ? Hb Hl']; subst.
        unfold avs_text. cbn [map concat]. fold (avs_text l). destruct b as [m w|m]; [discriminate|].
        cbn [av_text av_ok existsb] in *. intros [K|[K|K]]; [lia|lia|]. apply in_app_or in K. tauto. }
      rewrite index_none by (intros K; apply in_app_or in K; tauto). change (-1 =? -1) with true. cbn iota.
      rewrite slice_to_mid by reflexivity. cbn [bind]. destruct l as [|b l]; reflexivity.
Qed.

Lemma sc_bools l : forall f sc pre next val, zlen pre = next -> Forall av_ok l -> Forall bool_ok l -> l <> [] ->
  (length l <= f)%nat -> sc_loop f sc (pre ++ avs_text l) next val = Some (Ok (fold_left apply_av l sc)).
Proof.
  induction l as [|a l IH]; intros f sc pre next val L O B N F; [congruence|].
  destruct f as [|f]; [cbn in F; lia|]. inversion O as [|? ? Oa Ol]; subst. inversion B as [|? ? Ba Bl]; subst.
  rewrite sc_step by auto. destruct a as [n v|n]; [destruct Ba|]. cbn [bool_ok] in Ba.
  replace (existsb _ l) with false.
  2:{ clear - Bl. symmetry. induction Bl as [|b l H B IH]; [reflexivity|]. destruct b; [destruct H|]. exact IH. }
  cbn [fold_left apply_av]. rewrite <- (Ba sc val). destruct l as [|b l]; [reflexivity|].
  apply IH; auto; [discriminate|cbn in *; lia].
Qed.
Lemma sc_attrs vals l : forall f sc pre next val, zlen pre = next -> Forall av_ok vals -> Forall av_ok l ->
  Forall is_val vals -> Forall bool_ok l -> vals ++ l <> [] ->
  (length (vals ++ l) <= f)%nat ->
  sc_loop f sc (pre ++ avs_text (vals ++ l)) next val = Some (Ok (fold_left apply_av (vals ++ l) sc)).
Proof.
  induction vals as [|a vals IH]; intros f sc pre next val L O1 O2 V B N F; [now apply sc_bools|].
  cbn [app] in *. destruct f as [|f]; [cbn in F; lia|]. inversion O1; inversion V; subst.
  rewrite sc_step by (auto; apply Forall_app; auto). destruct a as [n v|n]; [|contradiction].
  cbn [fold_left apply_av]. destruct (vals ++ l) as [|b r] eqn:E; [reflexivity|]. rewrite <- E in *.
  apply IH; auto; [congruence|cbn in *; lia].
Qed.
(** A flag before a value attribute: the parser crashes. *)
Lemma sc_crash vals : forall f sc pre next val n l, zlen pre = next -> Forall av_ok vals -> av_ok (AB n) -> Forall av_ok l ->
  Forall is_val vals -> existsb (fun x => match x with AV _ _ => true | _ => false end) l = true ->
  (length vals < f)%nat ->
  sc_loop f sc (pre ++ avs_text (vals ++ AB n :: l)) next val = Some Panic.
Proof.
  induction vals as [|a vals IH]; intros f sc pre next val n l L O1 On O2 V X F; cbn [app] in *.
  - destruct f as [|f]; [cbn in F; lia|]. rewrite sc_step by auto. now rewrite X.
  - destruct f as [|f]; [cbn in F; lia|]. inversion O1; inversion V; subst.
    rewrite sc_step; [|auto|auto|]. 2:{ apply Forall_app. split; auto. }
    destruct a as [m v|m]; [|contradiction].
    destruct (vals ++ AB n :: l) as [|b r] eqn:E; [destruct vals; discriminate|]. rewrite <- E in *.
    apply IH; auto. cbn in F. lia.
Qed.

Definition opt_av (name : string) (v : bytes) : list av := if 0 <? zlen v then [AV (str name) v] else [].
Definition sc_vals (sc : setCookie) : list av :=
  opt_av "Path" (sc_path sc) ++ opt_av "Domain" (sc_domain sc) ++ opt_av "Expires" (sc_expires sc)
  ++ opt_av "Max-Age" (sc_maxage sc).
Definition sc_flags (sc : setCookie) : list av :=
  (if sc_httponly sc then [AB (str "HttpOnly")] else []) ++ (if sc_secure sc then [AB (str "Secure")] else []).
Definition sc_last (sc : setCookie) : list av := opt_av "SameSite" (sc_samesite sc).

Lemma avs_app a b : avs_text (a ++ b) = avs_text a ++ avs_text b.
Proof. unfold avs_text. now rewrite map_app, concat_app. Qed.
Lemma attr_opt name v : attr_text ("; " ++ name ++ "=") v = avs_text (opt_av name v).
Proof.
  unfold attr_text, opt_av. destruct (0 <? zlen v); [|reflexivity]. unfold avs_text. cbn [map concat av_text].
  rewrite app_nil_r. cbn [String.append str]. change (Z.of_N (N_of_ascii ";")) with 59. change (Z.of_N (N_of_ascii " ")) with 32.
  cbn [app]. do 2 f_equal. change (61 :: v) with ([61] ++ v). rewrite app_assoc. f_equal.
  induction name as [|c name IH]; [reflexivity|]. cbn [String.append str app]. now rewrite IH.
Qed.
Lemma marshal_text sc : SC_Marshal sc =
  sc_name sc ++ 61 :: sc_value sc ++ avs_text (sc_vals sc ++ sc_flags sc ++ sc_last sc).
Proof.
  unfold SC_Marshal, sc_vals, sc_flags, sc_last. rewrite !avs_app, !app_assoc.
  rewrite <- !(attr_opt "Path"), <- !(attr_opt "Domain"), <- !(attr_opt "Expires"), <- !(attr_opt "Max-Age"), <- !(attr_opt "SameSite").
  cbn [String.append]. rewrite <- !app_assoc. cbn [str app]. change (Z.of_N (N_of_ascii "=")) with 61.
  do 6 f_equal. destruct (sc_httponly sc), (sc_secure sc); reflexivity.
Qed.

Definition sc_legal (sc : setCookie) : Prop :=
  cookie_name (sc_name sc) /\ Forall no_semi [sc_value sc; sc_path sc; sc_domain sc; sc_expires sc; sc_maxage sc; sc_samesite sc].

Lemma opt_av_ok name v : ~ In 61 (str name) -> ~ In 59 (str name) -> no_semi v -> Forall av_ok (opt_av name v).
Proof. intros A B C. unfold opt_av. destruct (0 <? zlen v); repeat constructor; auto. Qed.
Lemma opt_av_val name v : Forall is_val (opt_av name v).
Proof. unfold opt_av. destruct (0 <? zlen v); repeat constructor. Qed.
Ltac notin := vm_compute; intuition discriminate.
Lemma zlen_pos_nil (v : bytes) : (0 <? zlen v) = false -> v = [].
Proof. destruct v as [|x v]; [reflexivity|]. rewrite zlen_cons. pose proof (zlen_nonneg v). lia. Qed.

Lemma fold_attrs n v p d e m s h ss :
  fold_left apply_av (sc_vals (SC n v p d e m s h ss) ++ sc_flags (SC n v p d e m s h ss) ++ sc_last (SC n v p d e m s h ss))
    (SC n v [] [] [] [] false false []) = SC n v p d e m s h ss.
Proof.
  unfold sc_vals, sc_flags, sc_last, opt_av. cbn [sc_path sc_domain sc_expires sc_maxage sc_httponly sc_secure sc_samesite].
  rewrite !fold_left_app.
  destruct (0 <? zlen p) eqn:E1; [|apply zlen_pos_nil in E1; subst p];
  (destruct (0 <? zlen d) eqn:E2; [|apply zlen_pos_nil in E2; subst d]);
  (destruct (0 <? zlen e) eqn:E3; [|apply zlen_pos_nil in E3; subst e]);
  (destruct (0 <? zlen m) eqn:E4; [|apply zlen_pos_nil in E4; subst m]);
  (destruct (0 <? zlen ss) eqn:E5; [|apply zlen_pos_nil in E5; subst ss]); destruct h, s; reflexivity.
Qed.

Lemma fuel_enough (l : list av) (v : bytes) : (length l <= S (length (v ++ avs_text l)))%nat.
Proof.
  rewrite app_length. enough (length l <= length (avs_text l))%nat by lia.
  induction l as [|a l IH]; [cbn; lia|]. unfold avs_text. cbn [map concat app length]. fold (avs_text l).
  rewrite app_length. lia.
Qed.

Lemma set_cookie_exact sc : sc_legal sc ->
  SC_Unmarshal no_sc (SC_Marshal sc) =
  Some (if (sc_httponly sc || sc_secure sc) && (0 <? zlen (sc_samesite sc)) then Panic else Ok sc).
Proof.
  intros ((N1 & N2 & N3) & F). rewrite marshal_text. unfold SC_Unmarshal.
  rewrite index_at by assumption. assert (0 < zlen (sc_name sc)).
  { destruct (sc_name sc); [congruence|]. rewrite zlen_cons. pose proof (zlen_nonneg l). lia. }
  replace (zlen (sc_name sc) <? 1) with false by lia.
  rewrite slice_to_mid by reflexivity. cbn [bind].
  set (A := sc_vals sc ++ sc_flags sc ++ sc_last sc).
  change (sc_name sc ++ 61 :: sc_value sc ++ avs_text A) with (sc_name sc ++ [61] ++ sc_value sc ++ avs_text A).
  rewrite app_assoc, slice_from_mid by (rewrite zlen_app; reflexivity). cbn [bind]. cbn zeta.
  inversion F as [|? ? Hv F1]; inversion F1 as [|? ? Hp F2]; inversion F2 as [|? ? Hd F3]; inversion F3 as [|? ? He F4];
  inversion F4 as [|? ? Hm F5]; inversion F5 as [|? ? Hs _]; subst. clear F F1 F2 F3 F4 F5.
  assert (OV : Forall av_ok (sc_vals sc)).
  { unfold sc_vals. rewrite !Forall_app. repeat split; apply opt_av_ok; auto; notin. }
  assert (OF : Forall av_ok (sc_flags sc)).
  { unfold sc_flags. rewrite Forall_app. split; [destruct (sc_httponly sc)|destruct (sc_secure sc)]; repeat constructor; notin. }
  assert (OL : Forall av_ok (sc_last sc)) by (apply opt_av_ok; auto; notin).
  assert (VV : Forall is_val (sc_vals sc)) by (unfold sc_vals; rewrite !Forall_app; repeat split; apply opt_av_val).
  assert (BF : Forall bool_ok (sc_flags sc)).
  { unfold sc_flags. rewrite Forall_app. split; [destruct (sc_httponly sc)|destruct (sc_secure sc)]; repeat constructor. }
  destruct A as [|a0 A0] eqn:EA.
  - unfold avs_text. cbn [map concat]. rewrite app_nil_r, index_none by assumption. change (-1 =? -1) with true. cbn iota.
    apply app_eq_nil in EA as [E1 E2]. apply app_eq_nil in E2 as [E2 E3].
    pose proof (fold_attrs (sc_name sc) (sc_value sc) (sc_path sc) (sc_domain sc) (sc_expires sc) (sc_maxage sc) (sc_secure sc) (sc_httponly sc) (sc_samesite sc)) as FA.
    replace (SC (sc_name sc) (sc_value sc) (sc_path sc) (sc_domain sc) (sc_expires sc) (sc_maxage sc) (sc_secure sc) (sc_httponly sc) (sc_samesite sc)) with sc in FA by (destruct sc; reflexivity).
    rewrite E1, E2, E3 in FA. cbn in FA. cbn [sc_path sc_domain sc_expires sc_maxage sc_secure sc_httponly sc_samesite no_sc].
    unfold sc_last, opt_av in E3. destruct (0 <? zlen (sc_samesite sc)); [discriminate|]. rewrite andb_false_r. now rewrite FA.
  - assert (IX : index_byte (sc_value sc ++ avs_text (a0 :: A0)) 59 = zlen (sc_value sc)) by (apply index_at; assumption).
    rewrite IX. pose proof (zlen_nonneg (sc_value sc)). replace (zlen (sc_value sc) =? -1) with false by lia.
    rewrite slice_to_mid by reflexivity. cbn [sc_path sc_domain sc_expires sc_maxage sc_secure sc_httponly sc_samesite no_sc].
    rewrite <- EA. unfold A. clear IX.
    destruct (0 <? zlen (sc_samesite sc)) eqn:ES.
    + assert (EL : sc_last sc = [AV (str "SameSite") (sc_samesite sc)]) by (unfold sc_last, opt_av; now rewrite ES).
      rewrite andb_true_r. destruct (sc_httponly sc || sc_secure sc) eqn:EB.
      * assert (exists n l, sc_flags sc = AB n :: l) as (n & l & EF).
        { unfold sc_flags. destruct (sc_httponly sc); [eexists; eexists; reflexivity|]. cbn in EB. rewrite EB. eexists; eexists; reflexivity. }
        rewrite EF in *. cbn [app]. inversion OF; subst. apply sc_crash; auto.
        -- apply Forall_app. auto.
        -- rewrite EL, existsb_app. cbn. now rewrite orb_true_r.
        -- pose proof (fuel_enough (sc_vals sc ++ AB n :: l ++ sc_last sc) (sc_value sc)) as FE.
           rewrite app_length in FE. cbn [length] in FE. lia.
      * apply orb_false_iff in EB as [B1 B2].
        assert (EF : sc_flags sc = []) by (unfold sc_flags; now rewrite B1, B2).
        rewrite EF. cbn [app].
        pose proof (sc_attrs (sc_vals sc ++ sc_last sc) []) as SA. rewrite app_nil_r in SA.
        rewrite SA; auto.
        -- do 2 f_equal. replace (sc_vals sc ++ sc_last sc) with (sc_vals sc ++ sc_flags sc ++ sc_last sc) by now rewrite EF.
           destruct sc. apply fold_attrs.
        -- apply Forall_app; auto.
        -- apply Forall_app; split; auto. apply opt_av_val.
        -- rewrite EL. now destruct (sc_vals sc).
        -- apply fuel_enough.
    + rewrite andb_false_r. assert (EL : sc_last sc = []) by (unfold sc_last, opt_av; now rewrite ES).
      rewrite EL, app_nil_r. rewrite sc_attrs; auto.
      * do 2 f_equal. replace (sc_vals sc ++ sc_flags sc) with (sc_vals sc ++ sc_flags sc ++ sc_last sc) by now rewrite EL, app_nil_r.
        destruct sc. apply fold_attrs.
      * replace (sc_vals sc ++ sc_flags sc) with A by (unfold A; now rewrite EL, app_nil_r). congruence.
      * apply fuel_enough.
Qed.

(** * Cookie *)
Definition cookie_legal (c : cookie) : Prop := cookie_name (c_name c) /\ no_semi (c_value c).
Lemma name_len c : cookie_legal c -> 1 <= zlen (c_name c).
Proof. intros ((N & _) & _). destruct (c_name c) as [|x l]; [congruence|]. rewrite zlen_cons. pose proof (zlen_nonneg l). lia. Qed.
Lemma cookie_round_trip c c0 : cookie_legal c -> c_value c <> [] -> Cookie_Unmarshal c0 (Cookie_Marshal c) = Ok c.
Proof.
  intros L V. pose proof (name_len c L) as NL. destruct L as ((_ & N & _) & _). unfold Cookie_Unmarshal, Cookie_Marshal.
  change (c_name c ++ str "=" ++ c_value c) with (c_name c ++ 61 :: c_value c). rewrite index_at by assumption.
  assert (1 <= zlen (c_value c)) by (destruct (c_value c) as [|x l]; [congruence|]; rewrite zlen_cons; pose proof (zlen_nonneg l); lia).
  rewrite zlen_app, zlen_cons. replace (zlen (c_name c) <? 1) with false by lia.
  replace (zlen (c_name c) =? zlen (c_name c) + (1 + zlen (c_value c)) - 1) with false by lia. cbn [orb].
  rewrite slice_to_mid by reflexivity. cbn [bind].
  change (c_name c ++ 61 :: c_value c) with (c_name c ++ [61] ++ c_value c). rewrite app_assoc, slice_from_mid by (rewrite zlen_app; reflexivity).
  cbn [bind]. now destruct c.
Qed.
Lemma cookie_first c c0 t : cookie_legal c -> Cookie_UnmarshalFrom c0 (Cookie_Marshal c ++ 59 :: 32 :: t) = Ok (c, t).
Proof.
  intros L. pose proof (name_len c L) as NL. destruct L as ((_ & N & N') & V). unfold Cookie_UnmarshalFrom, Cookie_Marshal.
  change (c_name c ++ str "=" ++ c_value c) with (c_name c ++ 61 :: c_value c).
  replace ((c_name c ++ 61 :: c_value c) ++ 59 :: 32 :: t) with (c_name c ++ 61 :: c_value c ++ 59 :: 32 :: t) by (rewrite <- app_assoc; reflexivity).
  rewrite index_at by assumption. rewrite zlen_app, zlen_cons, zlen_app, !zlen_cons.
  pose proof (zlen_nonneg t). pose proof (zlen_nonneg (c_value c)).
  replace (zlen (c_name c) <? 1) with false by lia.
  match goal with |- context [?a =? ?b] => replace (a =? b) with false by lia end. cbn [orb].
  rewrite slice_to_mid by reflexivity. cbn [bind].
  assert (E : c_name c ++ 61 :: c_value c ++ 59 :: 32 :: t = (c_name c ++ 61 :: c_value c) ++ 59 :: 32 :: t) by (rewrite <- app_assoc; reflexivity).
  rewrite E, index_at.
  2:{ intros K. apply in_app_or in K as [K|[K|K]]; [exact (N' K)|lia|exact (V K)]. }
  rewrite <- E. rewrite zlen_app, zlen_cons.
  match goal with |- context [?a =? -1] => replace (a =? -1) with false by lia end.
  replace (slice _ (zlen (c_name c) + 1) _) with (Ok (c_value c)).
  2:{ symmetry. change (c_name c ++ 61 :: c_value c ++ 59 :: 32 :: t) with (c_name c ++ [61] ++ c_value c ++ 59 :: 32 :: t). rewrite app_assoc.
      apply slice_mid; rewrite !zlen_app, ?zlen_cons; change (zlen (@nil Z)) with 0; lia. }
  cbn [bind]. replace (slice_from _ _) with (Ok t).
  2:{ symmetry. change (c_name c ++ 61 :: c_value c ++ 59 :: 32 :: t) with (c_name c ++ [61] ++ c_value c ++ [59; 32] ++ t). rewrite !app_assoc.
      apply slice_from_mid. rewrite !zlen_app, ?zlen_cons; change (zlen (@nil Z)) with 0; lia. }
  cbn [bind]. now destruct c.
Qed.
Lemma cookie_last c c0 : cookie_legal c -> c_value c <> [] -> Cookie_UnmarshalFrom c0 (Cookie_Marshal c) = Ok (c, []).
Proof.
  intros L V. pose proof (cookie_round_trip c c0 L V) as R. pose proof L as ((_ & N & N') & W).
  unfold Cookie_UnmarshalFrom. unfold Cookie_Unmarshal in R.
  destruct ((index_byte (Cookie_Marshal c) 61 <? 1) || (index_byte (Cookie_Marshal c) 61 =? zlen (Cookie_Marshal c) - 1)) eqn:E.
  { injection R as ->. reflexivity. }
  destruct (slice_to (Cookie_Marshal c) _) as [n|]; [|discriminate]. cbn [bind] in *.
  rewrite (index_none _ 59). 2:{ unfold Cookie_Marshal. intros K. apply in_app_or in K as [K|[K|K]]; [exact (N' K)|vm_compute in K; lia|exact (W K)]. }
  change (-1 =? -1) with true. cbn iota. destruct (slice_from _ _) as [v|]; [|discriminate]. cbn [bind] in *. congruence.
Qed.
