(** C175: serving web files from the directories of the repository. *)
From Coq Require Import String.
From Verif Require Import Go GoFacts StringsModel StringsProofs UriModel FileModel FileSpec FileTheorems HttpModel HttpSpec HttpMsgModel HttpMsgSpec HttpMsgTheorems HttpProofs StrconvModel ServeFileModel.
Import ListNotations.
Local Open Scope Z_scope.
Local Open Scope list_scope.

(** A request for a file in the top directory is answered 200 with that very file and no other. *)
Theorem C175_file_partial : forall contents gui main q n f, ~ In 47 n -> path (q_uri q) = 47 :: n -> files_ gui n = Some f ->
  exists r, serve contents gui main q empty_response = Ok r /\ r_code r = str "200"%string /\ r_body r = Some (contents f).
Proof.
  intros contents gui main q n f N P F. unfold serve, page_file, FileByPath. rewrite P. cbn [is_inil bind].
  rewrite (proj2 (proj2 (C55_lookup_partial gui) n N)), F.
  eexists. split; [reflexivity|]. match goal with |- context [HandleOutcomeResponse q ?x] => pose proof (outcome_status q x) as (-> & _ & -> & _) end. cbn; auto.
Qed.
Print Assumptions C175_file_partial.
(** What is answered at all is a file found under the path; the main page never is. *)
Theorem C175_only_files : forall contents gui main q r r', serve contents gui main q r = Ok r' ->
  exists f, fileByPath gui (path (q_uri q)) = Some f /\ r_body r' = Some (contents f) /\ r_code r' = str "200"%string.
Proof.
  intros contents gui main q r r' E. unfold serve, page_file, FileByPath in E. cbn [is_inil bind] in E.
  destruct (fileByPath gui (path (q_uri q))) as [f|]; [|discriminate E]. exists f. injection E as <-. split; [reflexivity|].
  match goal with |- context [HandleOutcomeResponse q ?x] => pose proof (outcome_status q x) as (-> & _ & -> & _) end. cbn; auto.
Qed.
Print Assumptions C175_only_files.
(** and the browser is told that all is well and that the file never changes *)
Theorem C175_told : forall contents gui main q r', serve contents gui main q empty_response = Ok r' ->
  r_phrase r' = str "OK"%string /\ lookup (r_head r') (str "Cache-Control"%string) = str "max-age=31536000, immutable"%string.
Proof.
  intros contents gui main q r' E. unfold serve, page_file, FileByPath in E. cbn [is_inil bind] in E.
  destruct (fileByPath gui (path (q_uri q))) as [f|]; [|discriminate E]. injection E as <-.
  match goal with |- context [HandleOutcomeResponse q ?x] => pose proof (outcome_status q x) as (_ & P & _) end.
  split; [rewrite P; reflexivity|].
  assert (K : forall q r, exists ops, r_head (HandleOutcomeResponse q r) = run_ops (r_head r) ops).
  { clear. intros q r. unfold HandleOutcomeResponse.
    exists (match body_MediaType (r_body r) with Some m => [HSet HeaderKey_ContentType m] | None => [] end ++
            match body_CompressType (r_body r) with Some c => [HSet HeaderKey_ContentEncoding c] | None => [] end ++
            [if 0 <? body_Len (r_body r) then HAdd HeaderKey_ContentLength (StrconvModel.FormatUint10 (u64 (body_Len (r_body r)))) else HAdd HeaderKey_TransferEncoding Chunked]).
    unfold SetVersion. cbn [r_body]. destruct (body_MediaType (r_body r)); destruct (body_CompressType (r_body r)) eqn:EC; unfold res_Set, with_head; cbn [r_body r_head];
      rewrite ?EC; cbn [r_body r_head]; destruct (0 <? body_Len (r_body r)); reflexivity. }
  match goal with |- context [HandleOutcomeResponse q ?x] => destruct (K q x) as (ops & ->) end.
  rewrite HttpProofs.first_write_wins. vm_compute. reflexivity.
Qed.
Print Assumptions C175_told.
(** A path without a file is not answered with the main page, however surely there is one: the server panics. *)
Theorem C175_main_page_refuted : forall contents gui main q r m, files_ main (str "en"%string) = Some m ->
  fileByPath gui (path (q_uri q)) = None -> serve contents gui (Some main) q r = Panic.
Proof. intros contents gui main q r m _ E. unfold serve, page_file, FileByPath. cbn [is_inil bind]. rewrite E. reflexivity. Qed.
Print Assumptions C175_main_page_refuted.
(** The front page is such a path. *)
Theorem C175_front_refuted : forall contents gui main q r, path (q_uri q) = str "/"%string -> files_ gui [] = None -> serve contents gui main q r = Panic.
Proof.
  intros contents gui main q r P E. unfold serve, page_file, FileByPath. rewrite P. change (str "/"%string) with [47]. cbn [is_inil bind].
  rewrite (proj2 (proj2 (C55_lookup_partial gui) [] (fun X => X))), E. reflexivity.
Qed.
Print Assumptions C175_front_refuted.
(** Nor is a file in any directory below the top one served, unless a directory there has the name of the file. *)
Theorem C175_below_refuted : forall contents gui main q r parts n d f, Forall (fun p => ~ In 47 p) parts -> ~ In 47 n -> parts <> [] -> hd_error parts <> Some [] ->
  reaches gui parts d -> files_ d n = Some f -> dirs_ d n = None -> path (q_uri q) = 47 :: Join (parts ++ [n]) [47] -> serve contents gui main q r = Panic.
Proof.
  intros contents gui main q r parts n d f F N NE HD R _ E P. unfold serve, page_file, FileByPath. rewrite P. cbn [is_inil bind].
  assert (L : (1 <= length parts)%nat) by (destruct parts; [contradiction|cbn; lia]).
  apply (proj1 (C55_lookup_partial gui)) in R. unfold fileByPath. change (47 :: Join (parts ++ [n]) [47]) with ([] ++ 47 :: Join (parts ++ [n]) [47]).
  rewrite split_app by (intros []). rewrite split_join; [|destruct parts; discriminate|apply Forall_app; auto]. unfold zlen. cbn [length]. rewrite app_length. cbn [length]. replace (_ <? 3) with false by lia.
  cbn [drop_root]. rewrite reach_app, R. cbn [directoryByPathParts]. rewrite E. reflexivity.
Qed.
Print Assumptions C175_below_refuted.
(** Directories as they are read from disk: the assets cannot even be set up, whatever was asked of the
    files before, *)
Theorem C175_setup_refuted : forall names l mk1 mk2, assets_Init (fold_left dstep l (dir_init names)) mk1 mk2 = Panic.
Proof. intros names l mk1 mk2. unfold assets_Init. destruct (C55_empty_refuted names l) as (_ & D & _). rewrite D. reflexivity. Qed.
Print Assumptions C175_setup_refuted.
(** and no request for any path is answered from one. *)
Theorem C175_disk_refuted : forall contents names l main q r, serve contents (fold_left dstep l (dir_init names)) main q r = Panic.
Proof. intros contents names l main q r. unfold serve, page_file, FileByPath. cbn [is_inil bind]. destruct (C55_empty_refuted names l) as (_ & _ & F & _). rewrite F. reflexivity. Qed.
Print Assumptions C175_disk_refuted.
(** With a directory gui that is open, the assets are that one. *)
Theorem C175_setup_partial : forall files g mk1 mk2, dirs_ files (str "gui"%string) = Some g -> assets_Init files mk1 mk2 = Ok (g, dirs_ g (str "main-html"%string)).
Proof. intros files g mk1 mk2 E. unfold assets_Init, Directory. rewrite E. cbn [is_inil]. destruct (_ && _); cbn [snd]; destruct (_ && _); reflexivity. Qed.
Print Assumptions C175_setup_partial.

Definition one_page : dir := Dir (fun n => if beq n (str "en"%string) then Some 5%nat else None) (fun _ => None) (fun _ => false).
Definition some_gui : dir := Dir (fun n => if beq n (str "a.css"%string) then Some 7%nat else None) (fun n => if beq n (str "main-html"%string) then Some one_page else None) (fun _ => false).
Definition asks (p : bytes) : request := {| q_method := str "GET"%string; q_uri := Uri None [] [] p [] []; q_host := []; q_version := []; q_head := HInit |}.
Definition plain (n : nat) : codec := {| c_len := Z.of_nat n; c_media := None; c_coding := None |}.
Example C175_nonvacuous :
  (exists r, serve plain some_gui (Some one_page) (asks (str "/a.css"%string)) empty_response = Ok r /\ r_body r = Some (plain 7)) /\
  files_ one_page (str "en"%string) = Some 5%nat /\ fileByPath some_gui (str "/about"%string) = None /\
  serve plain some_gui (Some one_page) (asks (str "/about"%string)) empty_response = Panic /\
  serve plain some_gui (Some one_page) (asks (str "/"%string)) empty_response = Panic /\
  reaches some_gui [str "main-html"%string] one_page /\ serve plain some_gui (Some one_page) (asks (str "/main-html/en"%string)) empty_response = Panic /\
  assets_Init (Dir (fun _ => None) (fun n => if beq n (str "gui"%string) then Some some_gui else None) (fun _ => false)) true true = Ok (some_gui, Some one_page).
Proof.
  split; [eexists; split; vm_compute; reflexivity|]. split; [vm_compute; reflexivity|]. split; [vm_compute; reflexivity|]. split; [vm_compute; reflexivity|]. split; [vm_compute; reflexivity|].
  split; [econstructor; [reflexivity|constructor]|]. split; [vm_compute; reflexivity|]. reflexivity.
Qed.
