(** C144 to C147: searching trees of directories, the data of files, hashed names, relative paths. *)
From Coq Require Import String ZifyBool ZifyNat Permutation Sorted.
From Verif Require Import Go GoFacts FileModel StrconvModel TreeModel TreeSpec TreeProofs.
From Verif Require WwwSpec StringsModel StringsProofs FileTheorems.
Import ListNotations.
Local Open Scope Z_scope.
Local Open Scope list_scope.

(** C144.  In a tree whose directories are all opened the search ends, in whatever order the maps are
    walked; it gives a file of that name that is in the tree, and nil only if there is none. *)
Theorem C144_search_partial : forall t n, ~ some_closed t -> maps t -> exists x, FindFileRecursively t n = Ok x /\
  match x with Some f => holds t n f | None => forall f, ~ holds t n f end.
Proof.
  intros t n C M. destruct (FindFileRecursively t n) as [x|] eqn:E.
  - exists x. split; auto. destruct x as [f|]; [now apply found_both|]. intros f (p & fs & ds & I & J).
    apply (proj1 (proj1 none_both _ _ E) _ _ _ f I). apply entry_at; auto. apply (M _ _ _ I).
  - exfalso. now apply (proj1 total_both t n C).
Qed.
Print Assumptions C144_search_partial.
(** A file that stands in the directory itself is the one found. *)
Theorem C144_nearest : forall fs ds n f, NoDup (map fst fs) -> In (n, Some f) fs -> FindFileRecursively (Tree fs ds) n = Ok (Some f).
Proof. intros fs ds n f N H. cbn [FindFileRecursively]. now rewrite (entry_at _ _ _ N H). Qed.
Print Assumptions C144_nearest.
(** Whatever the tree: a file given back is in it; *)
Theorem C144_sound : forall t n f, FindFileRecursively t n = Ok (Some f) -> holds t n f.
Proof. exact (proj1 found_both). Qed.
Print Assumptions C144_sound.
(** but with a directory anywhere in the tree that was not opened, a name no file has makes the search
    panic; *)
Theorem C144_unopened_refuted : forall t n, some_closed t -> (forall f, ~ holds t n f) -> FindFileRecursively t n = Panic.
Proof.
  intros t n C H. destruct (FindFileRecursively t n) as [[f|]|] eqn:E; auto; exfalso.
  - apply (H f). now apply found_both.
  - now apply (proj1 none_both _ _ E).
Qed.
Print Assumptions C144_unopened_refuted.
(** a name a file has is found or not by chance: by the order in which Go walks the map; *)
Theorem C144_order_refuted : forall fs n m d u r f, (forall g, entry fs n <> Some (Some g)) -> FindFileRecursively d n = Ok (Some f) ->
  FindFileRecursively (Tree fs (FLoaded m d (FUnloaded u r))) n = Ok (Some f) /\
  FindFileRecursively (Tree fs (FUnloaded u (FLoaded m d r))) n = Panic.
Proof.
  intros fs n m d u r f H E. split; cbn [FindFileRecursively find_in]; destruct (entry fs n) as [[g|]|]; try (now destruct (H g)); auto;
    rewrite E; reflexivity.
Qed.
Print Assumptions C144_order_refuted.
(** and in a directory read from disk nothing is ever found: the answer is nil, or a panic as soon as it
    has a sub directory. *)
Theorem C144_fresh_refuted : forall files dirs n, FindFileRecursively (read_dir files dirs) n = match dirs with [] => Ok None | _ => Panic end.
Proof.
  intros files dirs n. unfold read_dir. cbn [FindFileRecursively].
  assert (E : forall f, entry (map (fun x : bytes => (x, @None Z)) files) n <> Some (Some f)).
  { intros f X. apply entry_in, in_map_iff in X. destruct X as (y & Y & _). discriminate Y. }
  destruct (entry _ n) as [[g|]|]; try (now destruct (E g)); destruct dirs; reflexivity.
Qed.
Print Assumptions C144_fresh_refuted.

(** Directories likewise. *)
Theorem C144_dependency_partial : forall t n, ~ some_closed t -> exists x, GetDependencyRecursively t n = Ok x /\
  match x with Some e => holds_dir t n e | None => forall e, ~ holds_dir t n e end.
Proof.
  intros t n C. destruct (GetDependencyRecursively t n) as [x|] eqn:E.
  - exists x. split; auto. destruct x as [e|]; [now apply dep_both|now apply dep_none_both].
  - exfalso. now apply (proj1 dep_total_both t n C).
Qed.
Print Assumptions C144_dependency_partial.
(** In a directory read from disk no sub directory is ever found: nil if there is one of that name or none
    at all, else a panic. *)
Theorem C144_dependency_refuted : forall files dirs n, GetDependencyRecursively (read_dir files dirs) n =
  if existsb (fun k => beq k n) dirs then Ok None else match dirs with [] => Ok None | _ => Panic end.
Proof.
  intros files dirs n. unfold read_dir. cbn [GetDependencyRecursively].
  assert (E : sub_entry (unloaded dirs) n = if existsb (fun k => beq k n) dirs then Some None else None).
  { induction dirs as [|k r IH]; cbn [unloaded sub_entry existsb]; auto. destruct (beq k n); auto. }
  rewrite E. destruct (existsb _ dirs); auto. destruct dirs; reflexivity.
Qed.
Print Assumptions C144_dependency_refuted.

(** By a part of the name: FindFiles gives the files whose name contains it, in the order of the map, the
    first [num] of them, or all for 0 (and for a number that is negative as an int). *)
Theorem C144_find_files : forall l part num, 0 <= num < 2 ^ 64 -> exists m,
  (forall e, In e m <-> In e l /\ WwwSpec.occurs part (fst e)) /\ (exists keep, m = filter keep l) /\
  FindFiles l part num = map snd (if (0 <? num) && (num <? 2 ^ 63) then firstn (Z.to_nat num) m else m).
Proof.
  intros l part num Hn. exists (filter (fun e => Contains (fst e) part) l). split; [|split; [eauto|]].
  { intros e. rewrite filter_In, Contains_iff. reflexivity. }
  assert (G : forall l acc, (i64 num <= 0 -> find_files l part num acc = acc ++ map snd (filter (fun e => Contains (fst e) part) l)) /\
     (zlen acc < i64 num -> find_files l part num acc = acc ++ map snd (firstn (Z.to_nat (i64 num - zlen acc)) (filter (fun e => Contains (fst e) part) l)))).
  { clear l. induction l as [|[n f] l IH]; intros acc; cbn [find_files filter fst].
    - rewrite firstn_nil. cbn [map]. rewrite app_nil_r. auto.
    - destruct (Contains n part); [|apply IH]. cbn [map snd]. destruct (IH (acc ++ [f])) as [I1 I2].
      assert (La : zlen (acc ++ [f]) = zlen acc + 1) by (rewrite zlen_app; reflexivity). pose proof (zlen_nonneg acc). split; intros H0.
      + replace (zlen (acc ++ [f]) =? i64 num) with false by lia. rewrite (I1 H0), <- app_assoc. reflexivity.
      + destruct (Z.eqb_spec (zlen (acc ++ [f])) (i64 num)) as [X|X].
        * replace (i64 num - zlen acc) with 1 by lia. cbn [Z.to_nat Pos.to_nat Pos.iter_op firstn map snd]. reflexivity.
        * rewrite I2 by lia. rewrite <- app_assoc. f_equal. replace (Z.to_nat (i64 num - zlen acc)) with (S (Z.to_nat (i64 num - zlen (acc ++ [f])))) by lia. reflexivity. }
  unfold FindFiles. destruct (G l []) as [G1 G2]. change (zlen (@nil (option Z))) with 0 in *.
  destruct (Z.ltb_spec 0 num); cbn [andb]; [destruct (Z.ltb_spec num (2 ^ 63))|].
  - assert (Ei : i64 num = num) by (apply i64_small; lia). rewrite Ei, Z.sub_0_r in *. apply G2. lia.
  - apply G1. unfold i64. lia.
  - apply G1. replace num with 0 by lia. cbn. lia.
Qed.
Print Assumptions C144_find_files.
(** FindFile gives nil exactly if no name contains the part. *)
Theorem C144_find_file : forall l part, match FindFile l part with
  | INil => forall n f, In (n, f) l -> ~ WwwSpec.occurs part n
  | IPtr f => exists n, In (n, f) l /\ WwwSpec.occurs part n
  end.
Proof.
  intros l part. induction l as [|[n f] l IH]; cbn [FindFile]; [easy|]. destruct (Contains n part) eqn:C.
  - exists n. split; [now left|now apply Contains_iff].
  - destruct (FindFile l part) as [|p].
    + intros k g [[= -> ->]|H]; [|now apply (IH k g)]. rewrite <- Contains_iff. congruence.
    + destruct IH as (k & I & O). exists k. split; [now right|auto].
Qed.
Print Assumptions C144_find_file.
(** In a directory read from disk it gives an interface value that is not nil and holds a nil pointer. *)
Theorem C144_find_nil_refuted : forall files part, FindFile (map (fun n => (n, None)) files) part =
  if existsb (fun n => Contains n part) files then IPtr None else INil.
Proof. intros files part. induction files as [|n r IH]; cbn [map FindFile existsb]; auto. destruct (Contains n part); auto. Qed.
Print Assumptions C144_find_nil_refuted.
(** Files gives all files in the order of their names, however the map is walked; *)
Theorem C144_files : forall l offset limit, NoDup (map fst l) -> exists names, Permutation names (map fst l) /\
  (forall i j a b, (i < j)%nat -> nth_error names i = Some a -> nth_error names j = Some b -> str_le a b = true) /\
  (forall i n f, nth_error names i = Some n -> In (n, f) l -> nth_error (Files l offset limit) i = Some f) /\ length (Files l offset limit) = length l.
Proof.
  intros l o m N. exists (sort_keys (map fst l)). split; [apply sort_perm|]. split; [|split].
  - generalize (sort_sorted (map fst l)). generalize (sort_keys (map fst l)). intros s S. induction S as [|x s S IH F]; intros i j a b L A B; [now destruct i|].
    destruct j as [|j]; [lia|]. destruct i as [|i]; cbn in A, B; [|now apply (IH i j); auto; lia].
    injection A as ->. rewrite Forall_forall in F. apply F. eapply nth_error_In; eauto.
  - intros i n f A H. unfold Files. rewrite nth_error_map, A. cbn [option_map]. now rewrite (entry_at _ _ _ N H).
  - unfold Files. rewrite map_length. rewrite (Permutation_length (sort_perm _)). apply map_length.
Qed.
Print Assumptions C144_files.
Theorem C144_files_order : forall l l' offset limit, NoDup (map fst l) -> Permutation l l' -> Files l offset limit = Files l' offset limit.
Proof.
  intros l l' o m N P. unfold Files.
  assert (E : sort_keys (map fst l) = sort_keys (map fst l')).
  { apply sorted_unique; try apply sort_sorted. rewrite !sort_perm. now apply Permutation_map. }
  rewrite E. apply map_ext_in. intros k K. apply (Permutation_in _ (sort_perm _)) in K. apply in_map_iff in K as ((n & f) & <- & I). cbn [fst].
  rewrite (entry_at l' n f); auto; [|apply (Permutation_NoDup (Permutation_map fst P) N)].
  rewrite (entry_at l n f); auto. apply (Permutation_in _ (Permutation_sym P)). auto.
Qed.
Print Assumptions C144_files_order.
(** never a part of them: offset and limit are ignored. *)
Theorem C144_limit_refuted : forall l offset limit, limit < zlen l -> limit < zlen (Files l offset limit).
Proof.
  intros l o m H. unfold Files, zlen. rewrite map_length, (Permutation_length (sort_perm _)), map_length. exact H.
Qed.
Print Assumptions C144_limit_refuted.
Definition tree144 : tree := Tree [(str "main.js"%string, None)] (FLoaded (str "lib"%string) (Tree [(str "a.js"%string, Some 4)] (FLoaded (str "dom"%string) (Tree [(str "b.js"%string, Some 5)] FNil) FNil)) FNil).
Example C144_nonvacuous : ~ some_closed tree144 /\ maps tree144 /\ FindFileRecursively tree144 (str "b.js"%string) = Ok (Some 5) /\
  FindFileRecursively tree144 (str "main.js"%string) = Ok None /\ GetDependencyRecursively tree144 (str "dom"%string) = Ok (Some (Tree [(str "b.js"%string, Some 5)] FNil)) /\
  FindFiles [(str "x-a"%string, Some 1); (str "y"%string, Some 2); (str "z-a"%string, Some 3)] (str "-a"%string) 0 = [Some 1; Some 3] /\
  Files [(str "b"%string, Some 1); (str "a"%string, Some 2)] 0 1 = [Some 2; Some 1].
Proof.
  repeat match goal with |- _ /\ _ => split end; try (vm_compute; reflexivity).
  - intros (p & fs & ds & m & I & C). unfold tree144 in I.
    repeat match goal with H : sub_of _ _ _ |- _ => inversion H; subst; clear H | H : inside _ _ _ |- _ => inversion H; subst; clear H | H : closed_in _ _ |- _ => inversion H; subst; clear H end.
  - intros p fs ds I. unfold tree144 in I.
    repeat match goal with H : sub_of _ _ _ |- _ => inversion H; subst; clear H | H : inside _ _ _ |- _ => inversion H; subst; clear H end; cbn; split; repeat constructor; cbn; intuition discriminate.
Qed.

(** C145.  After every history of calls that starts with data, all ways to read a file give the contents
    the calls make: Unmarshal replaces them, Append and Prepend add to them. *)
Theorem C145_contents_partial : forall allowed l f d s f' d', d_data f = Some s -> Forall not_nil l -> fsteps allowed (f, d) l = (f', d') ->
  let c := fold_left content_step l s in
  Marshal f' d' = Some c /\ Len f' = zlen c /\ (forall x, MarshalTo f' x = x ++ c) /\ (forall E (w : bytes -> Z * option E), WriteTo w f' = w c).
Proof.
  intros allowed l f d s f' d' Hs Hl H c.
  assert (G : d_data f' = Some c).
  { subst c. revert f d s Hs H. induction Hl as [|o l Ho Hl IH]; intros f d s Hs H; cbn [fsteps fold_left] in *; [congruence|].
    destruct (fstep allowed (f, d) o) as [f1 d1] eqn:E1. eapply (IH f1 d1); [|exact H]. clear IH H.
    destruct o as [x|x|x| |n]; cbn [fstep not_nil content_step] in *; try (injection E1 as <- <-).
    - destruct x; [reflexivity|easy].
    - unfold Append in E1. rewrite Hs in E1. injection E1 as <- <-. destruct x; [reflexivity|easy].
    - unfold Prepend. rewrite Hs. destruct x; [reflexivity|easy].
    - exact Hs.
    - exact Hs. }
  unfold Marshal, Len, MarshalTo, WriteTo. rewrite G. auto.
Qed.
Print Assumptions C145_contents_partial.
(** Saving never writes: whatever is done with a file made from a name or path, the disk stays as it was
    (and no error is returned: Save returns nil in every case); *)
Theorem C145_save_refuted : forall allowed path d l, snd (fsteps allowed (d_init path, d) l) = d.
Proof. intros allowed path d l. destruct (base_steps allowed path l _ d (base_init path)) as (f & E & _). now rewrite E. Qed.
Print Assumptions C145_save_refuted.
(** nothing is read from disk, and what is appended or prepended before data was given is lost; *)
Theorem C145_unopened_refuted : forall allowed path d l f' d', Forall not_unmarshal l -> fsteps allowed (d_init path, d) l = (f', d') ->
  Marshal f' d' = None /\ Len f' = 0.
Proof.
  intros allowed path d l f' d' Hl H. destruct (nil_steps allowed path l Hl _ d (base_init path) eq_refl) as (f & E & B & N). rewrite E in H. injection H as <- <-.
  exact (nil_reads path f d B N).
Qed.
Print Assumptions C145_unopened_refuted.
(** so is what is added after nil was given as the data, or prepended to an empty file. *)
Theorem C145_nil_refuted : forall allowed path d l o l2 f1 d1 f' d', Forall not_unmarshal l2 -> fsteps allowed (d_init path, d) l = (f1, d1) ->
  (o = FUnmarshalOp None \/ (o = FPrepend None /\ d_data f1 = Some [])) -> fsteps allowed (f1, d1) (o :: l2) = (f', d') ->
  Marshal f' d' = None /\ Len f' = 0.
Proof.
  intros allowed path d l o l2 f1 d1 f' d' Hl H1 Ho H. destruct (base_steps allowed path l _ d (base_init path)) as (f & E & B). rewrite E in H1. injection H1 as <- <-.
  assert (K : exists f2, fstep allowed (f, d) o = (f2, d) /\ base path f2 /\ d_data f2 = None).
  { destruct Ho as [->|[-> N]]; cbn [fstep]; eexists; (split; [reflexivity|]).
    - split; [exact B|reflexivity].
    - unfold Prepend. rewrite N. split; [exact B|reflexivity]. }
  destruct K as (f2 & E2 & B2 & N2). cbn [fsteps fold_left] in H. rewrite E2 in H. destruct (nil_steps allowed path l2 Hl _ d B2 N2) as (f3 & E3 & B3 & N3).
  unfold fsteps in E3. rewrite E3 in H. injection H as <- <-. exact (nil_reads path f3 d B3 N3).
Qed.
Print Assumptions C145_nil_refuted.
(** A reader that fails half way: ReadFrom keeps what came and reports the error, Decode reports none. *)
Theorem C145_decode_refuted : forall E f (got : option bytes) (e : E) d, d_data (fst (Decode f got (Some e))) = got /\ snd (Decode f got (Some e)) = None /\
  ReadFrom f got (Some e) = (fst (Decode f got (Some e)), Len (fst (Decode f got (Some e))), Some e) /\ (forall s, got = Some s -> Marshal (fst (Decode f got (Some e))) d = Some s).
Proof. intros E f got e d. repeat split. intros s ->. reflexivity. Qed.
Print Assumptions C145_decode_refuted.
Example C145_nonvacuous : let d : disk := fun p => if beq p (str "gui/main.js"%string) then Some (str "old"%string) else None in
  let s := fsteps (fun _ => true) (d_init (str "gui/main.js"%string), d) [FUnmarshalOp (Some (str "new"%string)); FAppend (Some (str "er"%string)); FPrepend (Some (str "re"%string)); FSave] in
  Marshal (fst s) (snd s) = Some (str "renewer"%string) /\ snd s (str "gui/main.js"%string) = Some (str "old"%string) /\ ReadFile d (str "gui/main.js"%string) = Some (str "old"%string) /\
  d_data (fst (fsteps (fun _ => true) (d_init (str "x"%string), d) [FUnmarshalOp (Some [])])) = Some [].
Proof. repeat split; vm_compute; reflexivity. Qed.

(** C146.  The hash is put after the dot of the extension: base.ext becomes base.-hash.ext; a name without
    a dot gets one at the end; *)
Theorem C146_name_refuted : forall u data, let h := FormatUint10 (ChecksumIEEE data) in
  (forall b e, ~ In 46 e -> hashed_name (Rename u (b ++ 46 :: e)) data = Ok (b ++ str ".-"%string ++ h ++ 46 :: e)) /\
  (forall n, ~ In 46 n -> hashed_name (Rename u n) data = Ok (n ++ 45 :: h ++ [46])).
Proof.
  intros u data h. split.
  - intros b e N. destruct (proj2 (FileTheorems.C54_extension_partial u (b ++ 46 :: e)) b e eq_refl N) as (E1 & E2). unfold hashed_name. rewrite E2, E1. cbn [bind]. f_equal.
    rewrite <- app_assoc. reflexivity.
  - intros n N. destruct (proj1 (FileTheorems.C54_extension_partial u n) N) as (E1 & E2). unfold hashed_name. rewrite E2, E1. cbn [bind]. f_equal.
Qed.
Print Assumptions C146_name_refuted.
(** each time it is applied another one is put in; *)
Theorem C146_again_refuted : forall u b e d1 d2, ~ In 46 e ->
  (let! u1 := AddHashToFileName (Rename u (b ++ 46 :: e)) d1 in let! u2 := AddHashToFileName u1 d2 in Ok (name_ u2)) =
  Ok (b ++ str ".-"%string ++ FormatUint10 (ChecksumIEEE d1) ++ str ".-"%string ++ FormatUint10 (ChecksumIEEE d2) ++ 46 :: e).
Proof.
  intros u b e d1 d2 N. unfold AddHashToFileName. rewrite (proj1 (C146_name_refuted u d1) b e N). cbn [bind].
  set (h := FormatUint10 (ChecksumIEEE d1)). replace (b ++ str ".-"%string ++ h ++ 46 :: e) with ((b ++ str ".-"%string ++ h) ++ 46 :: e) by (rewrite <- !app_assoc; reflexivity).
  set (v := Rename u (b ++ 46 :: e)). rewrite (proj1 (C146_name_refuted v d2) _ e N). cbn [bind name_ Rename]. rewrite <- !app_assoc. reflexivity.
Qed.
Print Assumptions C146_again_refuted.
(** Two versions of a file that differ in up to four bytes in a row get different names. *)
Theorem C146_versions_partial : forall u n a w v c n1 n2, Forall (fun b => 0 <= b < 256) (a ++ w ++ c) -> Forall (fun b => 0 <= b < 256) v ->
  length w = length v -> (length w <= 4)%nat -> w <> v ->
  hashed_name (Rename u n) (a ++ w ++ c) = Ok n1 -> hashed_name (Rename u n) (a ++ v ++ c) = Ok n2 -> n1 <> n2.
Proof.
  intros u n a w v c n1 n2 F Fv L L4 N H1 H2 E. subst n2. unfold hashed_name in *. destruct (NameWithoutExtension (Rename u n)) as [b|]; cbn [bind] in *; [|discriminate].
  rewrite <- H2 in H1. assert (K : b ++ [45] ++ FormatUint10 (ChecksumIEEE (a ++ w ++ c)) ++ [46] ++ extension_ (Rename u n) = b ++ [45] ++ FormatUint10 (ChecksumIEEE (a ++ v ++ c)) ++ [46] ++ extension_ (Rename u n)) by congruence.
  apply app_inv_head in K. apply app_inv_head in K. apply app_inv_tail in K.
  pose proof F as F'. apply Forall_app in F' as [Fa F']. apply Forall_app in F' as [_ Fc].
  apply format_inj in K; [|apply checksum_range; auto|apply checksum_range; repeat (apply Forall_app; split; auto)]. now apply (crc_differs a w v c).
Qed.
Print Assumptions C146_versions_partial.
(** Not so for all versions: two that differ, of the same length, with the same name. *)
Theorem C146_collision_refuted : forall u n a c, exists w v, w <> v /\ length w = length v /\ hashed_name (Rename u n) (a ++ w ++ c) = hashed_name (Rename u n) (a ++ v ++ c).
Proof.
  intros u n a c. exists [0; 0; 0; 0; 0], [65; 6; 113; 219; 1]. split; [discriminate|]. split; [reflexivity|]. unfold hashed_name.
  replace (ChecksumIEEE (a ++ [65; 6; 113; 219; 1] ++ c)) with (ChecksumIEEE (a ++ [0; 0; 0; 0; 0] ++ c)); auto.
  unfold ChecksumIEEE. rewrite !fold_left_app. do 2 f_equal. rewrite (crc_word [0; 0; 0; 0; 0]), (crc_word [65; 6; 113; 219; 1]). cbn [length Nat.mul Nat.add].
  change (le [65; 6; 113; 219; 1]) with 7976584769. change (le [0; 0; 0; 0; 0]) with 0. rewrite Z.lxor_0_r. symmetry. apply iter_gen.
Qed.
Print Assumptions C146_collision_refuted.
(** Renaming: the file is found under the new name and not under the old one, every other file as before;
    but a file that had the new name is lost. *)
Theorem C146_rename : forall files f old new, rename_entry files f old new new = Some f /\
  (old <> new -> rename_entry files f old new old = None) /\ (forall k, k <> old -> k <> new -> rename_entry files f old new k = files k).
Proof.
  intros files f old new. unfold rename_entry. rewrite beq_refl. split; auto. split.
  - intros N. destruct (beq old new) eqn:B; [apply beq_eq in B; contradiction|]. now rewrite beq_refl.
  - intros k A B. destruct (beq k new) eqn:E; [apply beq_eq in E; contradiction|]. destruct (beq k old) eqn:E2; [apply beq_eq in E2; contradiction|auto].
Qed.
Print Assumptions C146_rename.
Theorem C146_lost_refuted : forall files f g old new, f <> g -> files old = Some f -> files new = Some g -> (forall k, files k = Some g -> k = new) ->
  forall k, rename_entry files f old new k <> Some g.
Proof.
  intros files f g old new N A B U k. unfold rename_entry. destruct (beq k new) eqn:E; [congruence|]. destruct (beq k old); [discriminate|]. intros H.
  apply U in H. subst. now rewrite beq_refl in E.
Qed.
Print Assumptions C146_lost_refuted.
Example C146_nonvacuous : hashed_name (Rename no_uri (str "main.js"%string)) (str "123456789"%string) = Ok (str "main.-3421780262.js"%string) /\
  hashed_name (Rename no_uri (str "main.js"%string)) (str "12345678a"%string) <> Ok (str "main.-3421780262.js"%string).
Proof. split; [vm_compute; reflexivity|vm_compute; discriminate]. Qed.

(** C147.  If every directory on the way is opened, the file found is the one of that name in the
    directory the path leads to; *)
Theorem C147_resolves_partial : forall parts name here d up, Forall (fun p => ~ In 47 p) parts -> ~ In 47 name -> parts <> [] -> here <> [] ->
  resolve here parts = Some (d :: up) -> fst (FindByRelativeFrom here (StringsModel.Join (parts ++ [name]) [47])) = Ok (IPtr (files_ d name)).
Proof.
  intros parts name here d up F N Np Nh R. unfold FindByRelativeFrom. rewrite StringsProofs.split_join; [|now destruct parts|apply Forall_app; auto].
  rewrite removelast_last, last_last.
  replace (zlen (parts ++ [name]) <? 2) with false by (rewrite zlen_app; destruct parts; [easy|rewrite zlen_cons; pose proof (zlen_nonneg parts); change (zlen [name]) with 1; lia]).
  assert (W : forall parts here made, resolve here parts = Some (d :: up) -> here <> [] -> fst (walk here parts made) = Ok (d :: up)).
  { clear. induction parts as [|p r IH]; intros here made R Nh; cbn [resolve walk fst] in *; [congruence|].
    change (str "."%string) with [46]. change (str ".."%string) with [46; 46]. destruct (beq p [46]); [now apply IH|].
    destruct here as [|e here]; [easy|]. destruct (beq p [46; 46]).
    - destruct here as [|e2 here]; [discriminate|]. apply IH; auto; discriminate.
    - destruct (dirs_ e p) as [x|]; [|discriminate]. apply IH; auto; discriminate. }
  specialize (W parts here [] R Nh). destruct (walk here parts []) as [r made]. cbn [fst] in *. subst r. reflexivity.
Qed.
Print Assumptions C147_resolves_partial.
(** if one is not, or the path leads out of the tree, the search panics instead of giving nil; *)
Theorem C147_missing_refuted : forall parts name here, Forall (fun p => ~ In 47 p) parts -> ~ In 47 name -> here <> [] ->
  resolve here parts = None -> fst (FindByRelativeFrom here (StringsModel.Join (parts ++ [name]) [47])) = Panic.
Proof.
  intros parts name here F N Nh R. unfold FindByRelativeFrom. rewrite StringsProofs.split_join; [|now destruct parts|apply Forall_app; auto].
  rewrite removelast_last, last_last. destruct parts as [|p0 parts]; [discriminate R|].
  replace (zlen ((p0 :: parts) ++ [name]) <? 2) with false by (rewrite zlen_app, zlen_cons; pose proof (zlen_nonneg parts); change (zlen [name]) with 1; lia).
  assert (Z0 : forall parts made, fst (walk [] parts made) = Ok [] \/ fst (walk [] parts made) = Panic).
  { clear. induction parts as [|p r IH]; intros made; cbn [walk fst]; auto. destruct (beq p _); auto. }
  assert (W : forall parts here made, resolve here parts = None -> here <> [] -> fst (walk here parts made) = Ok [] \/ fst (walk here parts made) = Panic).
  { clear - Z0. induction parts as [|p r IH]; intros here made R Nh; cbn [resolve walk fst] in *; [discriminate|].
    change (str "."%string) with [46]. change (str ".."%string) with [46; 46]. destruct (beq p [46]); [now apply IH|].
    destruct here as [|e here]; [easy|]. destruct (beq p [46; 46]).
    - destruct here as [|e2 here]; [apply Z0|]. apply IH; auto; discriminate.
    - destruct (dirs_ e p) as [x|]; [apply IH; auto; discriminate|apply Z0]. }
  destruct (W (p0 :: parts) here [] R Nh) as [X|X]; destruct (walk here (p0 :: parts) []) as [r made]; cbn [fst] in *; subst r; reflexivity.
Qed.
Print Assumptions C147_missing_refuted.
(** a name without a slash is never found, even beside the file that asks for it; *)
Theorem C147_beside_refuted : forall here n, ~ In 47 n -> FindByRelativeFrom here n = (Ok INil, []).
Proof. intros here n N. unfold FindByRelativeFrom. now rewrite StringsProofs.split_none. Qed.
Print Assumptions C147_beside_refuted.
(** in a directory as it was read from disk every path but "./name" panics, and that gives a nil file in an
    interface value that is not nil; *)
Theorem C147_fresh_refuted : forall names parts name, Forall (fun p => ~ In 47 p) parts -> ~ In 47 name -> parts <> [] ->
  fst (FindByRelativeFrom [dir_init names] (StringsModel.Join (parts ++ [name]) [47])) =
  if forallb (fun p => beq p [46]) parts then Ok (IPtr None) else Panic.
Proof.
  intros names parts name F N Np. destruct (forallb (fun p => beq p [46]) parts) eqn:A.
  - assert (R : resolve [dir_init names] parts = Some [dir_init names]).
    { clear - A. induction parts as [|p r IH]; cbn [resolve forallb] in *; auto. apply andb_true_iff in A as [A1 A2]. rewrite A1. auto. }
    rewrite (C147_resolves_partial parts name _ (dir_init names) [] F N Np) by (auto; discriminate). reflexivity.
  - apply C147_missing_refuted; auto; [discriminate|]. clear - A. induction parts as [|p r IH]; cbn [resolve forallb] in *; [discriminate|].
    destruct (beq p [46]); cbn [andb] in A; auto. destruct (beq p [46; 46]); reflexivity.
Qed.
Print Assumptions C147_fresh_refuted.
(** and the search asks the system to make the directory it looks for. *)
Theorem C147_makes_refuted : forall d up p name, listed_ d p = false -> p <> [46] -> p <> [46; 46] -> ~ In 47 p -> ~ In 47 name ->
  snd (FindByRelativeFrom (d :: up) (p ++ 47 :: name)) = [p].
Proof.
  intros d up p name L N1 N2 F N. unfold FindByRelativeFrom. rewrite StringsProofs.split_app, StringsProofs.split_none by auto.
  change (zlen [p; name] <? 2) with false. cbv iota. cbn [removelast walk]. change (str "."%string) with [46]. change (str ".."%string) with [46; 46].
  destruct (beq p [46]) eqn:E; [apply beq_eq in E; contradiction|]. destruct (beq p [46; 46]) eqn:E2; [apply beq_eq in E2; contradiction|]. rewrite L.
  destruct (dirs_ d p); reflexivity.
Qed.
Print Assumptions C147_makes_refuted.
Example C147_nonvacuous : let lib := Dir (fun n => if beq n (str "a.js"%string) then Some 7%nat else None) (fun _ => None) (fun _ => false) in
  let root := Dir (fun _ => None) (fun n => if beq n (str "lib"%string) then Some lib else None) (fun n => beq n (str "lib"%string)) in
  resolve [root] [str "lib"%string; str ".."%string; str "."%string; str "lib"%string] = Some [lib; root] /\
  FindByRelativeFrom [root] (str "lib/.././lib/a.js"%string) = (Ok (IPtr (Some 7%nat)), []) /\
  resolve [root] [str ".."%string] = None /\ FindByRelativeFrom [root] (str "css/a.css"%string) = (Panic, [str "css"%string]).
Proof. repeat split. Qed.
