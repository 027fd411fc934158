(** Model of package www, putting the assets together (combine.go), and of compressed copies of files
    (file/file.go Compress). *)
From Coq Require Import String.
From Verif Require Import Go StrconvModel StringsModel UriModel FileModel TreeModel WwwModel.
Import ListNotations.
Local Open Scope Z_scope.
Local Open Scope list_scope.

(** bytes.Replace(s, old, new, -1) of Go's library, for a non-empty [old]: [skip] bytes of a match are
    still to be passed *)
Fixpoint replace_all (s old new : bytes) (skip : nat) : bytes :=
  match s with
  | [] => []
  | c :: t =>
      match skip with
      | S k => replace_all t old new k
      | O => if HasPrefix s old then new ++ replace_all t old new (length old - 1) else c :: replace_all t old new 0
      end
  end.
(** os/default/file.go:81-83 Replace with n = -1 *)
Definition ReplaceAll (s old new : bytes) : bytes := replace_all s old new 0.

(** A directory as package www uses it: names and data in the order Files(0, 0) lists them.  File(name)
    makes the file, with no data, when there is none (os/default/file-directory.go:76-91 says so; that it does not is claim C56). *)
Definition store := list (bytes * bytes).
Fixpoint put (d : store) (n b : bytes) : store :=
  match d with
  | [] => [(n, b)]
  | (m, x) :: r => if beq m n then (n, b) :: r else (m, x) :: put r n b
  end.
Definition data_of (d : store) (n : bytes) : bytes := match entry d n with Some b => b | None => [] end.
Definition open_ (d : store) (n : bytes) : store := put d n (data_of d n).
Definition remove (d : store) (n : bytes) : store := filter (fun e => negb (beq (fst e) n)) d.
(** the URI of a file named [n] and, after file/file.go:41-54 AddHashToFileName with data [b], its name.
    (It never fails: theorem C146_name_refuted.) *)
Definition uri_of (n : bytes) : FURI := Rename no_uri n.
Definition hash_name (n b : bytes) : bytes := match hashed_name (uri_of n) b with Ok m => m | Panic => [] end.
(** the file [n] gets data [b] and then the name with the hash (os/default/file.go:49-53 Rename) *)
Definition put_hashed (d : store) (n b : bytes) : store := put (remove d n) (hash_name n b) b.

(** file/file.go:62-92 Compress in the directory [d].  [by_name]: cts.GetByContentEncoding, the extension
    and the compressor of a known encoding ([None] from it: it reports an error).  The second result: an
    error is returned. *)
Definition never_compressed : list bytes :=
  [str "png"; str "jpg"; str "gif"; str "jpeg"; str "mkv"; str "avi"; str "mp3"; str "mp4"]%string.
Definition compressor := (bytes * (bytes -> option bytes))%type.
Fixpoint compress_loop (by_name : bytes -> option compressor) (d : store) (n : bytes) (encodings : list bytes) (err : bool) : store * bool :=
  match encodings with
  | [] => (d, err)
  | ce :: r =>
      match by_name ce with
      | None => compress_loop by_name d n r true
      | Some (ext, f) =>
          match f (data_of d n) with
          | None => (d, true)
          | Some b => compress_loop by_name (put d (n ++ [46] ++ ext) b) n r false
          end
      end
  end.
Definition Compress (by_name : bytes -> option compressor) (d : store) (n : bytes) (encodings : list bytes) : store * bool :=
  if existsb (beq (extension_ (uri_of n))) never_compressed then (d, false) else compress_loop by_name d n encodings false.

(** * The bundles and pages of each language *)
Record site := Site {
  gui : store;         (* the directory gui *)
  dl : store;          (* gui/design-languages, files only *)
  served : store;      (* gui/main-html: the page of each language *)
  main_js : store;     (* combine.mainJSFiles: language and present name of its script *)
  main_html : store;   (* combine.mainHTMLFiles *)
}.
Section Update.
(** file.Minify by the library, on a page, a style sheet and a script (the data stays when it fails);
    ErrorsSDK of a language; the known compressors and the encodings asked for *)
Variables mini_html mini_css mini_js : bytes -> bytes.
Variable sdk : bytes -> bytes.
Variable by_name : bytes -> option compressor.
Variable encodings : list bytes.
Definition compressed (d : store) (n : bytes) : store := fst (Compress by_name d n encodings).

(** combine.go:143-163 addLocalized, for a file met for the first time (WwwModel.inline), with the
    localised data [m] of it: the bundle of a language *)
Definition addLocalized (lang : bytes) (bundle : bytes) (m : list (bytes * bytes)) : bytes :=
  match entry m lang with Some d => bundle ++ d | None => bundle end.
(** combine.go:104-114, 117-120: the bundle of [lang] from the localised data of the files, last import first *)
Definition bundle_of (mixed : list (list (bytes * bytes))) (lang : bytes) : bytes :=
  fold_left (addLocalized lang) mixed [10] ++ sdk lang.
Definition js_name (lang : bytes) : bytes := str "main-"%string ++ lang ++ str ".js"%string.
Definition html_name (lang : bytes) : bytes := str "main-"%string ++ lang ++ str ".html"%string.
(** combine.go:116-140, one turn.  The page is made from the file main-<lang>.html of the directory gui
    (line 127), not from landings/main.html, which is only looked up (line 65). *)
Definition ready_lang (mixed : list (list (bytes * bytes))) (s : site) (lang : bytes) : site :=
  let b := bundle_of mixed lang in
  let jn := hash_name (js_name lang) b in
  let g := compressed (put_hashed (gui s) (js_name lang) b) jn in
  let page := Replace1 (mini_html (data_of g (html_name lang))) (str "/main.js"%string) jn in
  let hn := hash_name (html_name lang) page in
  let g := compressed (put_hashed g (html_name lang) page) hn in
  Site g (dl s) (put (served s) lang page) (put (main_js s) lang jn) (put (main_html s) lang hn).
(** combine.go:64-141 readyAppJSFiles after the imports are found: [langs] are the languages of main.json
    in the order the map gives them.  [main_page]: landings/main.html, if there is one. *)
Definition readyAppJSFiles (main_page : option bytes) (langs : list bytes) (mixed : list (list (bytes * bytes))) (s : site) : site :=
  match main_page with
  | None => s
  | Some _ => fold_left (ready_lang mixed) langs s
  end.
(** combine.go:259-280 readySWFile; [sw]: gui/libjs/os/sw.js, if there is one *)
Definition sw_name (lang : bytes) : bytes := str "sw-"%string ++ lang ++ str ".js"%string.
Definition sw_of (sw page_name : bytes) : bytes := mini_js (ReplaceAll sw (str "main.html"%string) page_name).
Definition readySWFile (sw : option bytes) (s : site) : site :=
  match sw with
  | None => s
  | Some d =>
      Site (fold_left (fun g e => compressed (put g (sw_name (fst e)) (sw_of d (snd e))) (sw_name (fst e))) (main_html s) (gui s))
           (dl s) (served s) (main_js s) (main_html s)
  end.
(** combine.go:171-191 readyDesignLanguagesFiles, the files; lines 192-214 go over the directories given
    by Directories(0, 0), which the implementation leaves empty (os/default/file-directory.go:29-32) *)
Definition h_name (n : bytes) : bytes := str "h-"%string ++ n.
Definition rewrite_refs (g : store) (old new : bytes) (js : store) : store :=
  fold_left (fun g e => put g (snd e) (ReplaceAll (data_of g (snd e)) old new)) js g.
Definition ready_sheet (s : site) (n : bytes) : site :=
  let b := mini_css (data_of (dl s) n) in
  let hn := hash_name (h_name n) b in
  Site (rewrite_refs (gui s) n hn (main_js s)) (compressed (put_hashed (dl s) (h_name n) b) hn) (served s) (main_js s) (main_html s).
Definition is_css (n : bytes) : bool := beq (extension_ (uri_of n)) (str "css"%string).
Definition readyDesignLanguagesFiles (s : site) : site := fold_left ready_sheet (filter is_css (map fst (dl s))) s.
(** combine.go:31-52 update, after the landings *)
Definition update (main_page sw : option bytes) (langs : list bytes) (mixed : list (list (bytes * bytes))) (s : site) : site :=
  readyDesignLanguagesFiles (readySWFile sw (readyAppJSFiles main_page langs mixed (Site (gui s) (dl s) (served s) [] []))).

(** * Landing pages *)
(** combine.go:218-257 readyLandingsFiles; [decode]: the localisation decoder.  [None]: fuel of the
    localisation exhausted (never: C106_ends). *)
Definition plain_name (n : bytes) : bytes := match NameWithoutExtension (uri_of n) with Ok b => b | Panic => [] end.
Definition is_html (n : bytes) : bool := beq (extension_ (uri_of n)) (str "html"%string).
Definition landing (decode : bytes -> localize) (d : store) (n : bytes) : option (res store) :=
  let l := plain_name n in
  let d := open_ d (l ++ str ".json"%string) in
  match decode (data_of d (l ++ str ".json"%string)) with
  | [] => Some (Ok d)
  | lj =>
      let d := open_ d (l ++ str ".css"%string) in
      match localizeHTMLFile (mixCSSToHTML (data_of d n) (data_of d (l ++ str ".css"%string))) lj with
      | None => None
      | Some Panic => Some Panic
      | Some (Ok pages) =>
          Some (Ok (fold_left (fun d p =>
            let m := l ++ str "-"%string ++ fst p ++ str ".html"%string in compressed (put d m (mini_html (snd p))) m) pages d))
      end
  end.
Fixpoint landings (decode : bytes -> localize) (d : store) (l : list bytes) : option (res store) :=
  match l with
  | [] => Some (Ok d)
  | n :: r => match landing decode d n with Some (Ok d) => landings decode d r | e => e end
  end.
Definition readyLandingsFiles (decode : bytes -> localize) (d : store) : option (res store) :=
  landings decode d (filter is_html (map fst d)).
End Update.
