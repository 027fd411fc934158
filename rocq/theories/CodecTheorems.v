(** Property theorems C97 to C102 (codecs that keep results, type registries). *)
From Coq Require Import String ZifyBool ZifyNat.
From Verif Require Import Go GoFacts RegModel CodecModel CodecSpec.
Import ListNotations.
Local Open Scope Z_scope.
Local Open Scope list_scope.

(** A small library for the examples: a two-byte header, then the bytes. *)
Definition toy : lib := {| lib_pack := fun lvl x => 31 :: 139 :: x;
  lib_unpack := fun d => match d with 31 :: 139 :: x => Some (x, true) | _ => None end |}.
Example toy_lossless : lossless toy. Proof. intros lvl x _. reflexivity. Qed.

Lemma level_spec l : level_ok l = true <-> -2 <= l <= 9.
Proof. unfold level_ok. lia. Qed.

(** * C97 *)
Lemma comp_trace p L lvl x : -2 <= lvl <= 9 -> forall ops c, Forall no_source ops ->
  c_src c = Some x -> c_lvl c = lvl -> c_data c = None \/ c_data c = Some (lib_pack L lvl x) ->
  Forall2 (fun o r => serves (lib_pack L lvl x) o r /\ refuses o r /\ writes (lib_pack L lvl x) o r)
    ops (run (comp_step p L) c ops).
Proof.
  intros Hl. apply level_spec in Hl. induction ops as [|o ops IH]; intros c Hn Hs Hlv Hd; [constructor|].
  apply Forall_cons_iff in Hn as [Ho Hn]. cbn [run].
  assert (F : comp_force L c = Ok (false, Comp (Some x) lvl (Some (lib_pack L lvl x)))).
  { unfold comp_force, EncodeAll. destruct c as [s l d]. cbn [c_src c_lvl c_data] in *. subst s l.
    destruct Hd as [-> | ->]; [rewrite Hl|]; reflexivity. }
  destruct o as [s| |d| | |d|d|d|]; cbn [comp_step].
  - exfalso. now apply (Ho s).
  - rewrite F. cbn [c_data]. rewrite andb_false_r. constructor; [cbn; auto|]. apply IH; cbn; auto.
  - rewrite F. cbn [c_data go_append]. rewrite andb_false_r. constructor; [cbn; auto|]. apply IH; cbn; auto.
  - rewrite F. cbn [c_data opt_len]. constructor; [cbn; auto|]. apply IH; cbn; auto.
  - constructor; [cbn; auto|]. apply IH; auto.
  - constructor; [cbn; auto|]. apply IH; auto.
  - constructor; [cbn; auto|]. apply IH; auto.
  - constructor; [cbn; auto|]. apply IH; auto.
  - rewrite Hs, Hlv, Hl. constructor; [cbn; eauto|]. apply IH; auto.
Qed.

Theorem C97_compressor : forall p L lvl x ops, -2 <= lvl <= 9 -> Forall no_source ops ->
  Forall2 (fun o r => serves (lib_pack L lvl x) o r /\ refuses o r /\ writes (lib_pack L lvl x) o r)
    ops (run (comp_step p L) (comp_init (Some x) lvl) ops).
Proof. intros. apply comp_trace; cbn; auto. Qed.
Print Assumptions C97_compressor.

(** Decompressing what was compressed serves the original bytes, in every sequence of
    calls. *)
Theorem C97_decompressor : forall p L lvl x ops, lossless L -> -2 <= lvl <= 9 -> Forall no_source ops ->
  Forall2 (fun o r => serves x o r) ops
    (run (decomp_step p L) (decomp_init (Some (lib_pack L lvl x))) ops).
Proof.
  intros p L lvl x ops HL Hl Hn. pose proof (HL lvl x Hl) as U.
  assert (G : forall ops d, Forall no_source ops -> d_src d = Some (lib_pack L lvl x) ->
            d_data d = None \/ d_data d = Some x -> Forall2 (fun o r => serves x o r) ops (run (decomp_step p L) d ops)).
  { clear ops Hn. induction ops as [|o ops IH]; intros d Hn Hs Hd; [constructor|].
    apply Forall_cons_iff in Hn as [Ho Hn]. cbn [run].
    assert (F : exists zr, decomp_force p L d = (false, Decomp (Some (lib_pack L lvl x)) zr (Some x))).
    { unfold decomp_force, decompressAll. destruct d as [s zr dd]. cbn [d_src d_zr d_data] in *. subst s.
      rewrite U. destruct Hd as [-> | ->]; eexists; reflexivity. }
    destruct F as (zr & F).
    destruct o as [s| |b| | |b|b|b|]; cbn [decomp_step].
    - exfalso. now apply (Ho s).
    - rewrite F. cbn [d_data]. rewrite andb_false_r. constructor; [reflexivity|]. apply IH; cbn; auto.
    - rewrite F. cbn [d_data go_append]. rewrite andb_false_r. constructor; [reflexivity|]. apply IH; cbn; auto.
    - rewrite F. cbn [d_data opt_len]. constructor; [reflexivity|]. apply IH; cbn; auto.
    - constructor; [exact I|]. apply IH; auto.
    - destruct p; (constructor; [exact I|]; apply IH; auto).
    - destruct p; (constructor; [exact I|]; apply IH; auto).
    - destruct p; (constructor; [exact I|]; apply IH; auto).
    - destruct p.
      + destruct (d_zr d); (constructor; [exact I|]; apply IH; auto).
      + rewrite Hs, U. constructor; [exact I|]. apply IH; auto. }
  apply G; cbn; auto.
Qed.
Print Assumptions C97_decompressor.

Example C97_nonvacuous : lossless toy /\
  run (comp_step Gzip toy) (comp_init (Some (str "abc")) 6) [Len; Unmarshal [1]; Marshal; WriteTo] =
    [OLen 5; ORefused; OData (Some (31 :: 139 :: str "abc")) false; OWrote (31 :: 139 :: str "abc") 3 false] /\
  run (decomp_step Gzip toy) (decomp_init (Some (31 :: 139 :: str "abc"))) [Unmarshal [7]; MarshalTo [9]; Len] =
    [ODone 0; OData (Some (9 :: str "abc")) false; OLen 3].
Proof. split; [apply toy_lossless|]. split; vm_compute; reflexivity. Qed.

(** Any other compression level makes every reading call panic, if the source gives
    its bytes. *)
Theorem C97_bad_level : forall p L lvl x, ~ (-2 <= lvl <= 9) ->
  run (comp_step p L) (comp_init (Some x) lvl) [Marshal; Len; WriteTo] = [OPanic; OPanic; OPanic].
Proof.
  intros p L lvl x H. assert (E : level_ok lvl = false) by (unfold level_ok; lia).
  assert (F : comp_force L (comp_init (Some x) lvl) = Panic).
  { unfold comp_force, EncodeAll, comp_init. cbn [c_data c_src c_lvl]. now rewrite E. }
  cbn [run comp_step]. rewrite F. rewrite F. cbn [comp_init c_src c_lvl]. now rewrite E.
Qed.
Print Assumptions C97_bad_level.

(** * C98: failures are reported *)
(** The gzip codecs never report one: whatever the source gives (nothing, text that is
    not gzip, a damaged stream), no call of Marshal, MarshalTo or Len returns an
    error. *)
Theorem C98_gzip_reports_nothing_refuted : forall L ops,
  (forall c, Forall (fun r => forall d e, r = OData d e -> e = false) (run (comp_step Gzip L) c ops)) /\
  (forall c, Forall (fun r => forall d e, r = OData d e -> e = false) (run (decomp_step Gzip L) c ops)).
Proof.
  intros L ops. split; induction ops as [|o ops IH]; intros c; cbn [run]; try constructor.
  - destruct (comp_step Gzip L c o) as [c' r] eqn:E. constructor; [|apply IH].
    intros d e ->. destruct o; cbn [comp_step drops negb andb] in E; try congruence;
      try (destruct (comp_force L c) as [[e' c'']|]; congruence);
      destruct (c_src c); try congruence; destruct (level_ok _); congruence.
  - destruct (decomp_step Gzip L c o) as [c' r] eqn:E. constructor; [|apply IH].
    intros d e ->. destruct o; cbn [decomp_step drops negb andb] in E; try congruence;
      try (destruct (decomp_force Gzip L c) as [e' c'']; congruence);
      destruct (d_zr c); congruence.
Qed.
Print Assumptions C98_gzip_reports_nothing_refuted.

(** Damaged data is served as if it were complete, by both packages; data whose header
    is not recognised is served as nil by gzip. *)
Theorem C98_damage_refuted : forall p L data x rest,
  lib_unpack L data = Some (x, false) ->
  run (decomp_step p L) (decomp_init (Some data)) (Marshal :: Len :: rest) =
    OData (Some x) false :: OLen (zlen x) ::
    run (decomp_step p L) (state_after (decomp_step p L) (decomp_init (Some data)) [Marshal; Len]) rest.
Proof.
  intros p L data x rest U. cbn [run]. cbn. rewrite U. cbn. rewrite ?U. cbn. rewrite andb_false_r. reflexivity.
Qed.
Print Assumptions C98_damage_refuted.

Theorem C98_header_refuted : forall L data, lib_unpack L data = None ->
  run (decomp_step Gzip L) (decomp_init (Some data)) [Marshal; Len] = [OData None false; OLen 0].
Proof. intros L data U. cbn. rewrite U. cbn. rewrite U. reflexivity. Qed.
Print Assumptions C98_header_refuted.

(** WriteTo of a compressor returns the number of bytes it read, not written. *)
Theorem C98_write_count_refuted : forall p L lvl x, -2 <= lvl <= 9 ->
  run (comp_step p L) (comp_init (Some x) lvl) [WriteTo] = [OWrote (lib_pack L lvl x) (zlen x) false].
Proof. intros p L lvl x H. cbn. apply level_spec in H. now rewrite H. Qed.
Print Assumptions C98_write_count_refuted.

(** What holds: the flate codecs report a source that fails, for as long as nothing has
    been computed; WriteTo reports it in both compressors. *)
Theorem C98_flate_reports_source_partial : forall L lvl d0,
  run (comp_step Flate L) (comp_init None lvl) [Marshal; MarshalTo d0; WriteTo] =
    [OData None true; OData (Some d0) true; OWrote [] 0 true] /\
  run (decomp_step Flate L) (decomp_init None) [Marshal; MarshalTo d0; WriteTo] =
    [OData None true; OData (Some d0) true; OWrote [] 0 true].
Proof. intros L lvl d0. split; cbn; unfold go_append; now rewrite app_nil_r. Qed.
Print Assumptions C98_flate_reports_source_partial.

(** ... and WriteTo of the flate decompressor reports damage. *)
Theorem C98_flate_write_reports_partial : forall L data x ok, lib_unpack L data = Some (x, ok) ->
  run (decomp_step Flate L) (decomp_init (Some data)) [WriteTo] = [OWrote x (zlen x) (negb ok)].
Proof. intros L data x ok U. cbn. now rewrite U. Qed.
Print Assumptions C98_flate_write_reports_partial.

(** and so does WriteTo of the gzip codec, but only of what it was given by Unmarshal; without that it
    panics, whatever its source. *)
Theorem C98_gzip_write_partial : forall L s data x ok, 
  (lib_unpack L data = Some (x, ok) ->
    run (decomp_step Gzip L) (decomp_init s) [Unmarshal data; WriteTo] = [ODone 0; OWrote x (zlen x) (negb ok)]) /\
  (lib_unpack L data = None -> run (decomp_step Gzip L) (decomp_init s) [Unmarshal data; WriteTo] = [ODone 0; OWrote [] 0 true]) /\
  run (decomp_step Gzip L) (decomp_init s) [WriteTo] = [OPanic].
Proof.
  intros L s data x ok. split; [|split; [|reflexivity]]; intros U; cbn; unfold reset; rewrite U; reflexivity.
Qed.
Print Assumptions C98_gzip_write_partial.
(** A source that cannot be opened: Marshal says nothing, WriteTo after it does, and writes nothing *)
Theorem C98_gzip_bad_source : forall L data, lib_unpack L data = None ->
  run (decomp_step Gzip L) (decomp_init (Some data)) [Marshal; WriteTo] = [OData None false; OWrote [] 0 true].
Proof. intros L data U. cbn. rewrite U. reflexivity. Qed.
Print Assumptions C98_gzip_bad_source.

(** ReadFrom reports data that cannot be opened, and only such; what is read is the same. *)
Theorem C98_gzip_read_partial : forall L d data,
  (snd (decomp_step Gzip L d (ReadFrom data)) = ORead true <-> lib_unpack L data = None) /\
  snd (decomp_step Gzip L d (Unmarshal data)) = ODone 0 /\
  fst (decomp_step Gzip L d (ReadFrom data)) = fst (decomp_step Gzip L d (Unmarshal data)).
Proof. intros L d data. cbn [decomp_step fst snd]. destruct (lib_unpack L data); repeat split; congruence. Qed.
Print Assumptions C98_gzip_read_partial.

Definition toy_cut : lib := {| lib_pack := lib_pack toy;
  lib_unpack := fun d => match d with 31 :: 139 :: x => Some (x, Nat.even (length x)) | _ => None end |}.
Example C98_nonvacuous : lib_unpack toy_cut [31; 139; 7] = Some ([7], false) /\ lib_unpack toy_cut [0] = None /\
  run (decomp_step Gzip toy_cut) (decomp_init (Some [31; 139; 7])) [Marshal] = [OData (Some [7]) false].
Proof. repeat split; vm_compute; reflexivity. Qed.

(** * C99: a codec over a source follows it *)
(** False: once a reading call succeeded, changes of the source are never seen by
    Marshal, MarshalTo or Len again. *)
Theorem C99_stale_compressor_refuted : forall p L lvl x ops, -2 <= lvl <= 9 ->
  Forall2 (fun o r => serves (lib_pack L lvl x) o r) ops
    (run (comp_step p L) (state_after (comp_step p L) (comp_init (Some x) lvl) [Marshal]) ops).
Proof.
  intros p L lvl x ops Hl. apply level_spec in Hl.
  assert (G : forall ops c, c_data c = Some (lib_pack L lvl x) ->
            Forall2 (fun o r => serves (lib_pack L lvl x) o r) ops (run (comp_step p L) c ops)).
  { clear ops. induction ops as [|o ops IH]; intros c Hd; [constructor|]. cbn [run].
    assert (F : comp_force L c = Ok (false, c)) by (unfold comp_force; now rewrite Hd).
    destruct o; cbn [comp_step]; rewrite ?F; try (constructor; [exact I|]; apply IH; exact Hd).
    - rewrite Hd, andb_false_r. constructor; [reflexivity|]. apply IH. exact Hd.
    - rewrite Hd, andb_false_r. constructor; [reflexivity|]. apply IH. exact Hd.
    - rewrite Hd. constructor; [reflexivity|]. apply IH. exact Hd.
    - destruct (c_src c); [destruct (level_ok (c_lvl c))|]; (constructor; [exact I|]; apply IH; exact Hd). }
  apply G. cbn. unfold comp_force, EncodeAll. cbn. now rewrite Hl.
Qed.
Print Assumptions C99_stale_compressor_refuted.

(** Data given to the gzip decompressor by Unmarshal, UnmarshalFrom or ReadFrom is never
    served either: removing those calls changes no Marshal, MarshalTo or Len. *)
Definition gives (o : op) : bool := match o with Unmarshal _ | UnmarshalFrom _ | ReadFrom _ => true | _ => false end.
Definition reads (o : op) : bool := match o with Marshal | MarshalTo _ | Len => true | _ => false end.
Definition read_outputs (ops : list op) (rs : list out) : list out :=
  map snd (filter (fun q => reads (fst q)) (combine ops rs)).
Theorem C99_given_data_ignored_refuted : forall L s ops,
  read_outputs ops (run (decomp_step Gzip L) (decomp_init s) ops) =
  read_outputs (filter (fun o => negb (gives o)) ops)
    (run (decomp_step Gzip L) (decomp_init s) (filter (fun o => negb (gives o)) ops)).
Proof.
  intros L s ops.
  assert (G : forall ops d d', d_src d = d_src d' -> d_data d = d_data d' ->
    read_outputs ops (run (decomp_step Gzip L) d ops) =
    read_outputs (filter (fun o => negb (gives o)) ops) (run (decomp_step Gzip L) d' (filter (fun o => negb (gives o)) ops))).
  { clear s ops. induction ops as [|o ops IH]; intros d d' Hs Hd; [reflexivity|].
    assert (F : fst (decomp_force Gzip L d) = fst (decomp_force Gzip L d') /\
                d_src (snd (decomp_force Gzip L d)) = d_src (snd (decomp_force Gzip L d')) /\
                d_data (snd (decomp_force Gzip L d)) = d_data (snd (decomp_force Gzip L d'))).
    { unfold decomp_force, decompressAll. destruct d as [s1 z1 dd1], d' as [s2 z2 dd2].
      cbn [d_src d_zr d_data] in *. subst s2 dd2. destruct dd1 as [y|]; [cbn; auto|].
      destruct s1 as [y|]; [|cbn; auto]. destruct (lib_unpack L y) as [[? ?]|]; cbn; auto. }
    destruct F as (F1 & F2 & F3).
    destruct (decomp_force Gzip L d) as [e1 d1] eqn:E1. destruct (decomp_force Gzip L d') as [e2 d2] eqn:E2.
    cbn [fst snd] in *. unfold read_outputs in *.
    destruct o as [s| |b| | |b|b|b|]; cbn [filter gives negb run decomp_step]; rewrite ?E1, ?E2;
      cbn [combine filter reads fst map snd]; rewrite ?F3; try (f_equal; now apply IH); try (now apply IH).
    destruct (d_zr d), (d_zr d'); cbn [combine filter reads fst map snd]; now apply IH. }
  now apply G.
Qed.
Print Assumptions C99_given_data_ignored_refuted.

(** Concretely: after Unmarshal of one stream the codec still serves the other. *)
Example C99_given_case :
  run (decomp_step Gzip toy) (decomp_init (Some (31 :: 139 :: str "old"))) [Unmarshal (31 :: 139 :: str "new"); Marshal] =
    [ODone 0; OData (Some (str "old")) false].
Proof. vm_compute. reflexivity. Qed.

(** What holds: until the first reading call the codec follows the source; WriteTo of
    the compressors follows it always. *)
Theorem C99_follows_until_read_partial : forall p L lvl s0 x ops, -2 <= lvl <= 9 ->
  Forall (fun o => reads o = false) ops ->
  run (comp_step p L) (state_after (comp_step p L) (comp_init s0 lvl) (ops ++ [Source (Some x)])) [Marshal] =
    [OData (Some (lib_pack L lvl x)) false].
Proof.
  intros p L lvl s0 x ops Hl Hn. apply level_spec in Hl.
  assert (G : forall ops c, Forall (fun o => reads o = false) ops -> c_data c = None -> c_lvl c = lvl ->
            state_after (comp_step p L) c (ops ++ [Source (Some x)]) = Comp (Some x) lvl None).
  { clear ops Hn. induction ops as [|o ops IH]; intros c Hn Hd Hv.
    - cbn. now rewrite Hd, Hv.
    - apply Forall_cons_iff in Hn as [Ho Hn]. cbn [app state_after]. apply IH; [exact Hn| |];
        destruct o; try discriminate Ho; cbn [comp_step fst c_data c_lvl]; auto;
        destruct (c_src c); auto; destruct (level_ok (c_lvl c)); auto. }
  rewrite G by (cbn; auto). cbn. unfold comp_force, EncodeAll. cbn. rewrite Hl. now rewrite andb_false_r.
Qed.
Print Assumptions C99_follows_until_read_partial.

Theorem C99_write_follows_partial : forall p L lvl s0 x ops, -2 <= lvl <= 9 ->
  run (comp_step p L) (state_after (comp_step p L) (comp_init s0 lvl) (ops ++ [Source (Some x)])) [WriteTo] =
    [OWrote (lib_pack L lvl x) (zlen x) false].
Proof.
  intros p L lvl s0 x ops Hl. apply level_spec in Hl.
  assert (G : forall ops c, c_lvl c = lvl ->
            exists d, state_after (comp_step p L) c (ops ++ [Source (Some x)]) = Comp (Some x) lvl d).
  { clear ops. induction ops as [|o ops IH]; intros c Hv.
    - cbn. rewrite Hv. eauto.
    - cbn [app state_after]. apply IH. unfold comp_step, comp_force, EncodeAll.
      destruct o; cbn [fst c_lvl]; auto; destruct (c_data c); cbn; auto; destruct (c_src c); cbn; auto;
        destruct (level_ok (c_lvl c)); cbn; auto. }
  destruct (G ops (comp_init s0 lvl) eq_refl) as (d & ->). cbn. now rewrite Hl.
Qed.
Print Assumptions C99_write_follows_partial.

Example C99_nonvacuous :
  run (comp_step Flate toy) (comp_init None 1) [WriteTo; Source (Some [5]); Marshal; Source (Some [6]); Marshal; WriteTo] =
    [OWrote [] 0 true; ONothing; OData (Some [31; 139; 5]) false; ONothing; OData (Some [31; 139; 5]) false; OWrote [31; 139; 6] 1 false].
Proof. vm_compute. reflexivity. Qed.

(** * C100: the JSON codec *)
(** Whatever happened before and after (except another Unmarshal or Decode), Marshal and
    WriteTo give back exactly the bytes last unmarshalled; even when they were
    refused. *)
Lemma given_any {T} d : forall (l : list (jop T)) a, last_given l None = Some d -> last_given l a = Some d.
Proof. induction l as [|o l IH]; intros a K; [discriminate K|]. destruct o; cbn [last_given] in *; auto. Qed.
Lemma jpayload {T} (A : japp T) : forall l c, (forall d, last_given l (j_payload c) = Some d ->
  j_payload (jafter A c l) = Some d).
Proof.
  induction l as [|o l IH]; intros c d H; cbn [jafter last_given] in *; [exact H|].
  destruct o as [x| |b| |b|b|s|]; cbn [jstep]; try (apply IH; exact H).
  - apply IH. cbn [fst]. unfold jforce. destruct (j_payload c) eqn:E; cbn [j_payload]; [now rewrite E|].
    destruct (to_json A (j_obj c)); [|exact H].
    now apply given_any.
  - destruct (to_json A (j_obj c)); apply IH; exact H.
  - destruct (from_json A (j_obj c) b). apply IH. exact H.
  - destruct s as [b|].
    + destruct (from_json A (j_obj c) b). apply IH. exact H.
    + apply IH. exact H.
  - apply IH. cbn [fst]. unfold jforce. destruct (j_payload c) eqn:E; cbn [j_payload]; [now rewrite E|].
    destruct (to_json A (j_obj c)); [|exact H].
    now apply given_any.
Qed.

Theorem C100_unmarshalled_bytes : forall T (A : japp T) x l d, last_given l None = Some d ->
  jrun A (jafter A (jinit A x) l) [JMarshal; JWriteTo] = [OData (Some d) false; OWrote d (zlen d) false].
Proof.
  intros T A x l d H. pose proof (jpayload A l (jinit A x) d H) as P.
  cbn [jrun jstep]. unfold jforce at 1 2. rewrite P. rewrite P. unfold jforce. rewrite !P. reflexivity.
Qed.
Print Assumptions C100_unmarshalled_bytes.

(** Before any of them, the first Marshal gives the object's JSON. *)
Theorem C100_first_marshal : forall T (A : japp T) x t, to_json A x = Some t ->
  jrun A (jinit A x) [JMarshal] = [OData (Some t) false].
Proof. intros T A x t H. cbn. unfold jforce. cbn. now rewrite H. Qed.
Print Assumptions C100_first_marshal.

(** MarshalTo puts the JSON of the object as it is now after what it is given; *)
Theorem C100_marshal_to : forall T (A : japp T) l x y t d, to_json A y = Some t ->
  jrun A (jafter A (jinit A x) (l ++ [JSet y])) [JMarshalTo d] = [OData (Some (d ++ t)) false].
Proof.
  intros T A l x y t d H.
  assert (G : forall l c, j_obj (jafter A c (l ++ [JSet y])) = y).
  { induction l0 as [|o l0 IH]; intros c; cbn [app jafter]; [reflexivity|apply IH]. }
  cbn [jrun jstep]. now rewrite G, H.
Qed.
Print Assumptions C100_marshal_to.

(** but the length is the one of the object the codec was made with, whatever became of it. *)
Theorem C100_length_refuted : forall T (A : japp T) l x,
  jrun A (jafter A (jinit A x) l) [JLen] = [OLen (len_json A x)].
Proof.
  intros T A l x.
  assert (G : forall l c, j_len (jafter A c l) = j_len c).
  { induction l0 as [|o l0 IH]; intros c; cbn [jafter]; [reflexivity|]. rewrite IH. destruct o; cbn [jstep fst]; auto.
    - unfold jforce. destruct (j_payload c); reflexivity.
    - destruct (to_json A (j_obj c)); reflexivity.
    - destruct (from_json A (j_obj c) d); reflexivity.
    - destruct s as [d|]; [|reflexivity]. destruct (from_json A (j_obj c) d); reflexivity.
    - unfold jforce. destruct (j_payload c); reflexivity. }
  cbn [jrun jstep]. rewrite G. reflexivity.
Qed.
Print Assumptions C100_length_refuted.

(** False: Marshal follows the object.  After the first Marshal, any number of changes
    of the object leave it unchanged, while MarshalTo shows the new JSON. *)
Theorem C100_stale_refuted : forall T (A : japp T) x t y t', to_json A x = Some t -> to_json A y = Some t' ->
  jrun A (jinit A x) [JMarshal; JSet y; JMarshal; JMarshalTo []] =
    [OData (Some t) false; ONothing; OData (Some t) false; OData (Some t') false].
Proof. intros T A x t y t' H H'. cbn. unfold jforce. cbn. rewrite H. cbn. now rewrite H'. Qed.
Print Assumptions C100_stale_refuted.

(** False: failures of ToJSON are reported by Marshal (they are by MarshalTo); and
    UnmarshalFrom takes the data: it does nothing. *)
Theorem C100_silent_refuted : forall T (A : japp T) x d c, to_json A x = None ->
  jrun A (jinit A x) [JMarshal; JMarshalTo d] = [OData None false; OData None true] /\
  jstep A c (JUnmarshalFrom d) = (c, OData None false).
Proof. intros T A x d c H. split; [|reflexivity]. cbn. unfold jforce. cbn. now rewrite H. Qed.
Print Assumptions C100_silent_refuted.

Definition japp1 : japp (list Z) := {| to_json := fun x => if beq x [] then None else Some (34 :: x ++ [34]);
  from_json := fun x d => match d with 34 :: t => (t, false) | _ => (x, true) end; len_json := fun x => zlen x + 2 |}.
Example C100_nonvacuous :
  jrun japp1 (jinit japp1 [65]) [JMarshal; JSet [66]; JMarshal; JUnmarshal [0]; JMarshal; JLen] =
    [OData (Some [34; 65; 34]) false; ONothing; OData (Some [34; 65; 34]) false; OData None true; OData (Some [0]) false; OLen 3] /\
  last_given (T := list Z) [JMarshal; JSet [66]; JMarshal; JUnmarshal [0]] None = Some [0] /\ to_json japp1 [] = None.
Proof. repeat split; vm_compute; reflexivity. Qed.

(** * C101: compression types *)
Lemma cregister_snoc l c : cregister_all (l ++ [c]) =
  match CRegister (cregister_all l) c with Ok s' => s' | Panic => cregister_all l end.
Proof. unfold cregister_all. now rewrite fold_left_app. Qed.
Lemma last_snoc {A} (f : A -> bool) l c : last_such f (l ++ [c]) = if f c then Some c else last_such f l.
Proof. unfold last_such. rewrite rev_app_distr. reflexivity. Qed.
Lemma CRegister_ok s c : CRegister s c = if acceptable c then
    Ok {| ct_by_id := map_set Z.eqb (ct_by_id s) (ct_id c) (Some c);
             ct_by_mt := map_set beq (ct_by_mt s) (ct_str c) (Some c);
             ct_by_ext := map_set beq (ct_by_ext s) (ct_ext c) (Some c);
             ct_by_enc := map_set beq (ct_by_enc s) (ct_enc c) (Some c);
             ct_encs := ct_encs s ++ [ct_enc c] |} else Panic.
Proof. unfold CRegister, acceptable. destruct (beq (ct_mt c) []), (beq (ct_enc c) []); reflexivity. Qed.

(** Each lookup gives the last accepted registration with that key, and not found when
    there is none; the encodings are listed in order of registration. *)
Theorem C101_lookup : forall l,
  (forall id, CGetByID (cregister_all l) id = last_such (fun c => acceptable c && (ct_id c =? id)) l) /\
  (forall s, CGetByMediaType (cregister_all l) s = last_such (fun c => acceptable c && beq (ct_str c) s) l) /\
  (forall s, CGetByFileExtension (cregister_all l) s = last_such (fun c => acceptable c && beq (ct_ext c) s) l) /\
  (forall s, CGetByContentEncoding (cregister_all l) s = last_such (fun c => acceptable c && beq (ct_enc c) s) l) /\
  ContentEncodings (cregister_all l) = map ct_enc (filter acceptable l).
Proof.
  intros l. induction l as [|c l IH] using rev_ind; [repeat split; reflexivity|].
  destruct IH as (I1 & I2 & I3 & I4 & I5). rewrite cregister_snoc, CRegister_ok.
  unfold CGetByID, CGetByMediaType, CGetByFileExtension, CGetByContentEncoding, ContentEncodings in *.
  destruct (acceptable c) eqn:A.
  - cbn [ct_by_id ct_by_mt ct_by_ext ct_by_enc ct_encs]. unfold map_set.
    split; [|split; [|split; [|split]]]; try (intros k; rewrite last_snoc, A; cbn [andb]).
    + destruct (ct_id c =? k); [reflexivity|apply I1].
    + destruct (beq (ct_str c) k); [reflexivity|apply I2].
    + destruct (beq (ct_ext c) k); [reflexivity|apply I3].
    + destruct (beq (ct_enc c) k); [reflexivity|apply I4].
    + rewrite filter_app, map_app, I5. cbn [filter]. now rewrite A.
  - split; [|split; [|split; [|split]]]; try (intros k; rewrite last_snoc, A; cbn [andb]; auto).
    rewrite filter_app, map_app, I5. cbn [filter]. rewrite A. now rewrite app_nil_r.
Qed.
Print Assumptions C101_lookup.

(** A registration is refused, by a panic, exactly when the media type or the content
    encoding is empty. *)
Theorem C101_refusal : forall s c, CRegister s c = Panic <-> ct_mt c = [] \/ ct_enc c = [].
Proof.
  intros s c. unfold CRegister. destruct (beq (ct_mt c) []) eqn:E.
  - apply beq_eq in E. tauto.
  - destruct (beq (ct_enc c) []) eqn:F.
    + apply beq_eq in F. tauto.
    + split; [discriminate|]. intros [H|H]; rewrite H in *; discriminate.
Qed.
Print Assumptions C101_refusal.

Definition gz_ct : ctype := {| ct_id := 1; ct_mt := str "application/gzip"; ct_str := str "application/gzip"; ct_ext := str "gzip"; ct_enc := str "gzip"; ct_obj := 0 |}.
Definition gz_ct2 : ctype := {| ct_id := 2; ct_mt := str "x"; ct_str := str "x"; ct_ext := str "gz"; ct_enc := str "gzip"; ct_obj := 1 |}.
Example C101_nonvacuous :
  CGetByContentEncoding (cregister_all [gz_ct; gz_ct2]) (str "gzip") = Some gz_ct2 /\
  CGetByID (cregister_all [gz_ct; gz_ct2]) 1 = Some gz_ct /\
  CGetByID (cregister_all [gz_ct; gz_ct2]) 9 = None /\
  ContentEncodings (cregister_all [gz_ct; gz_ct2]) = [str "gzip"; str "gzip"].
Proof. repeat split; vm_compute; reflexivity. Qed.

(** * C102: media types *)
Lemma mregister_snoc l c : mregister_all (l ++ [c]) =
  match MRegister (mregister_all l) c with Ok s' => s' | Panic => mregister_all l end.
Proof. unfold mregister_all. now rewrite fold_left_app. Qed.

(** Each lookup gives the last accepted registration with that key; a type without a
    file extension is never found by one. *)
Theorem C102_lookup : forall l,
  (forall id, fst (MGetByID (mregister_all l) id) = last_such (fun m => m_acceptable m && (m_id m =? id)) l) /\
  (forall s, fst (MGetByMediaType (mregister_all l) s) = last_such (fun m => m_acceptable m && beq (m_str m) s) l) /\
  (forall s, s <> [] -> fst (MGetByFileExtension (mregister_all l) s) = last_such (fun m => m_acceptable m && beq (m_ext m) s) l) /\
  fst (MGetByFileExtension (mregister_all l) []) = None.
Proof.
  intros l. induction l as [|c l IH] using rev_ind; [repeat split; reflexivity|].
  destruct IH as (I1 & I2 & I3 & I4). rewrite mregister_snoc.
  assert (E : MRegister (mregister_all l) c = if m_acceptable c then
    Ok {| m_by_mt := map_set beq (m_by_mt (mregister_all l)) (m_str c) (Some c);
          m_by_id := map_set Z.eqb (m_by_id (mregister_all l)) (m_id c) (Some c);
          m_by_ext := if beq (m_ext c) [] then m_by_ext (mregister_all l) else map_set beq (m_by_ext (mregister_all l)) (m_ext c) (Some c) |}
    else Panic).
  { unfold MRegister, m_acceptable. destruct (beq (m_main c) []), (beq (m_sub c) []); reflexivity. }
  rewrite E. unfold MGetByID, MGetByMediaType, MGetByFileExtension in *. cbn [fst] in *.
  destruct (m_acceptable c) eqn:A.
  - cbn [m_by_mt m_by_id m_by_ext]. unfold map_set.
    split; [|split; [|split]].
    + intros k; rewrite last_snoc, A; cbn [andb]. destruct (m_id c =? k); [reflexivity|apply I1].
    + intros k; rewrite last_snoc, A; cbn [andb]. destruct (beq (m_str c) k); [reflexivity|apply I2].
    + intros k Hk; rewrite last_snoc, A; cbn [andb]. destruct (beq (m_ext c) []) eqn:F.
      * apply beq_eq in F. rewrite F.
        destruct (beq [] k) eqn:G; [apply beq_eq in G; congruence|now apply I3].
      * destruct (beq (m_ext c) k); [reflexivity|now apply I3].
    + destruct (beq (m_ext c) []) eqn:F; [exact I4|]. rewrite F. exact I4.
  - split; [|split; [|split]]; try (intros k; rewrite last_snoc, A; cbn [andb]; auto). exact I4.
Qed.
Print Assumptions C102_lookup.

(** False: looking up an unknown type is an error.  No lookup ever returns one. *)
Theorem C102_not_found_refuted : forall s k id,
  snd (MGetByMediaType s k) = false /\ snd (MGetByID s id) = false /\ snd (MGetByFileExtension s k) = false.
Proof. repeat split. Qed.
Print Assumptions C102_not_found_refuted.

(** A media type with only one of its two parts is accepted. *)
Theorem C102_refusal_partial : forall s m, MRegister s m = Panic <-> m_main m = [] /\ m_sub m = [].
Proof.
  intros s m. unfold MRegister. destruct (beq (m_main m) []) eqn:E; cbn [andb].
  - apply beq_eq in E. destruct (beq (m_sub m) []) eqn:F.
    + apply beq_eq in F. tauto.
    + split; [discriminate|]. intros [_ H]. rewrite H in F. discriminate.
  - split; [discriminate|]. intros [H _]. rewrite H in E. discriminate.
Qed.
Print Assumptions C102_refusal_partial.

Definition html_mt : mtype := {| m_id := 7; m_main := str "text"; m_sub := str "html"; m_str := str "text/html"; m_ext := str "html"; m_obj := 0 |}.
Definition half_mt : mtype := {| m_id := 8; m_main := str "text"; m_sub := []; m_str := str "text/"; m_ext := []; m_obj := 1 |}.
Example C102_nonvacuous :
  MGetByFileExtension (mregister_all [html_mt; half_mt]) (str "html") = (Some html_mt, false) /\
  MGetByID (mregister_all [html_mt; half_mt]) 8 = (Some half_mt, false) /\
  MGetByMediaType (mregister_all [html_mt; half_mt]) (str "image/png") = (None, false).
Proof. repeat split; vm_compute; reflexivity. Qed.
