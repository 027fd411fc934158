(** Model of packages www (localising and combining web assets) and minify (HTML). *)
From Coq Require Import String.
From Verif Require Import Go UriModel StrconvModel StringsModel.
Import ListNotations.
Local Open Scope Z_scope.
Local Open Scope list_scope.

(** bytes.Index(s, sub) of Go's library: position of the first occurrence, or -1 *)
Fixpoint Index (s sub : bytes) : Z :=
  if HasPrefix s sub then 0
  else match s with
  | [] => -1
  | _ :: t => let k := Index t sub in if k =? -1 then -1 else k + 1
  end.
(** bytes.Replace(s, old, new, 1) of Go's library, for a non-empty [old] *)
Definition Replace1 (s old new : bytes) : bytes :=
  let k := Index s old in
  if k <? 0 then s else firstn (Z.to_nat k) s ++ new ++ skipn (Z.to_nat (k + zlen old)) s.

(** www/html.go:72-97 replaceLocalizeTextInHTML and www/js.go:144-168 replaceLocalizeTextInJS:
    the same loop, on the marker [pat] and with the offset [off] of the index in the marked text.  [None]: fuel exhausted. *)
Fixpoint replace_loop (fuel : nat) (pat : bytes) (off : Z) (s : bytes) (text : list bytes) (mix : bytes) : option (res bytes) :=
  match fuel with
  | O => None
  | S f =>
      let r := Index s pat in
      if r <? 0 then Some (Ok (mix ++ s))
      else
        let mix := mix ++ firstn (Z.to_nat r) s in
        let s := skipn (Z.to_nat r) s in
        let b := index_byte s 93 in
        match slice s off b with
        | Panic => Some Panic
        | Ok w =>
            let '(n, bad) := ParseUint10 8 w in
            match (if bad then Ok mix else match idx text n with Ok t => Ok (mix ++ t) | Panic => Panic end) with
            | Panic => Some Panic
            | Ok mix =>
                match slice_from s (b + 1) with
                | Panic => Some Panic
                | Ok s => replace_loop f pat off s text mix
                end
            end
        end
  end.
(** The fuel is the length of the text: each turn consumes the marker *)
Definition replaceLocalizeTextInJS (js : bytes) (text : list bytes) : option (res bytes) :=
  replace_loop (S (length js)) (str "LocaleText["%string) 11 js text [].
Definition replaceLocalizeTextInHTML (html : bytes) (text : list bytes) : option (res bytes) :=
  replace_loop (S (length html)) (str "${LocaleText["%string) 13 html text [].

(** minify/html.go:16 htmlMinifier: [\r?\n|(<!--.*?-->)|(<!--[\w\W\n\s]+?-->)].
    [until_close] is the text after the first "-->" *)
Fixpoint until_close (s : bytes) : option bytes :=
  if HasPrefix s (str "-->"%string) then Some (skipn 3 s)
  else match s with [] => None | _ :: t => until_close t end.
(** the same without passing a line feed ('.' does not match it) *)
Fixpoint until_close_line (s : bytes) : option bytes :=
  if HasPrefix s (str "-->"%string) then Some (skipn 3 s)
  else match s with [] => None | c :: t => if c =? 10 then None else until_close_line t end.
(** what one match of the expression at the start of [s] leaves, if there is one *)
Definition html_match (s : bytes) : option bytes :=
  if HasPrefix s [13; 10] then Some (skipn 2 s)
  else if HasPrefix s [10] then Some (skipn 1 s)
  else if HasPrefix s (str "<!--"%string) then
    match until_close_line (skipn 4 s) with
    | Some r => Some r
    | None => match skipn 4 s with [] => None | _ :: t => until_close t end
    end
  else None.
(** minify/html.go:41-46 MinifyBytes: regexp ReplaceAll with nothing; the rest of the function is
    not reachable.  Each turn consumes at least one byte. *)
Fixpoint html_loop (fuel : nat) (s : bytes) : bytes :=
  match fuel with
  | O => []
  | S f => match html_match s with
           | Some r => html_loop f r
           | None => match s with [] => [] | c :: t => c :: html_loop f t end
           end
  end.
Definition HTML_MinifyBytes (s : bytes) : bytes := html_loop (S (length s)) s.
(** minify/css.go:37-46 MinifyBytes, over the library's minifier ([None]: it reports an error, which
    the function drops, returning no data and no error) *)
Definition CSS_MinifyBytes (lib : bytes -> option bytes) (data : bytes) : bytes :=
  match lib data with Some d => d | None => [] end.

(** www/css.go:13-20 mixCSSToHTML *)
Definition mixCSSToHTML (html css : bytes) : bytes := html ++ str "
<style>"%string ++ css ++ str "</style>"%string.
(** www/css.go:23-38 mixCSSToJS *)
Definition mixCSSToJS (lib : bytes -> option bytes) (js css : bytes) : bytes :=
  let css := CSS_MinifyBytes lib css in
  if Index js (str "CSS: '"%string) <? 0
  then Replace1 js (str "CSS = '"%string) (str "CSS = '"%string ++ css)
  else Replace1 js (str "CSS: '"%string) (str "CSS: '"%string ++ css).
(** the insertion shared by the two functions below: after the first grave accent at or after [loc] *)
Definition insert_at_accent (js html : bytes) (loc : Z) : bytes :=
  let g := index_byte (skipn (Z.to_nat loc) js) 96 + (loc + 1) in
  firstn (Z.to_nat g) js ++ html ++ skipn (Z.to_nat g) js.
(** www/html.go:15-38 mixHTMLToJS; no data when there is no marker *)
Definition mixHTMLToJS (js html : bytes) : bytes :=
  let html := HTML_MinifyBytes html in
  let loc := Index js (str "HTML: ("%string) in
  if loc <? 0 then
    let loc := Index js (str "HTML = ("%string) in
    if loc <? 0 then [] else insert_at_accent js html loc
  else insert_at_accent js html loc.
(** www/html.go:41-61 mixHTMLTemplateToJS *)
Definition mixHTMLTemplateToJS (js html name : bytes) : bytes :=
  let html := HTML_MinifyBytes html in
  let loc := Index js (name ++ [34] ++ str ": ("%string) in
  if loc <? 0 then [] else insert_at_accent js html loc.

(** www/html.go:99 localize: the texts of each language *)
Definition localize := list (bytes * list bytes).
(** www/html.go:64-70 localizeHTMLFile and www/js.go:136-142 localizeJSFile *)
Fixpoint localize_all (f : bytes -> list bytes -> option (res bytes)) (data : bytes) (lj : localize) : option (res (list (bytes * bytes))) :=
  match lj with
  | [] => Some (Ok [])
  | (lang, text) :: r =>
      match f data text, localize_all f data r with
      | Some (Ok d), Some (Ok m) => Some (Ok ((lang, d) :: m))
      | Some Panic, _ => Some Panic
      | _, Some Panic => Some Panic
      | _, _ => None
      end
  end.
Definition localizeHTMLFile := localize_all replaceLocalizeTextInHTML.
Definition localizeJSFile := localize_all replaceLocalizeTextInJS.
Fixpoint localize_each (lj : localize) (l : list bytes) : option (res unit) :=
  match l with
  | [] => Some (Ok tt)
  | d :: r => match localizeHTMLFile d lj with
              | Some (Ok _) => localize_each lj r
              | Some Panic => Some Panic
              | None => None
              end
  end.
(** www/js.go:91-133 localeAndMixJSFile: [json] is the decoded localisation file, the other files
    may be absent.  The results of mixHTMLToJS and mixHTMLTemplateToJS are not used (lines 120, 128),
    so only the localisation of these files, which may panic, is left. *)
Definition localeAndMixJSFile (dev : bool) (lib : bytes -> option bytes) (js : bytes) (json : option localize)
    (css html : option bytes) (templates : list bytes) : option (res (list (bytes * bytes))) :=
  match json with
  | None => if dev then Some (Ok []) else Some Panic
  | Some lj =>
      let js := match css with Some c => mixCSSToJS lib js c | None => js end in
      match localizeJSFile js lj with
      | Some (Ok mixed) =>
          match localize_each lj (match html with Some h => h :: templates | None => templates end) with
          | Some (Ok _) => Some (Ok mixed)
          | Some Panic => Some Panic
          | None => None
          end
      | r => r
      end
  end.

(** www/js.go:59-89 extractJSImports: the data left and the import paths met, in order.  The copy is
    made in place and the slice then cut. *)
Fixpoint extract (fuel : nat) (d : bytes) (acc : list bytes) : option (res (bytes * list bytes)) :=
  match fuel with
  | O => None
  | S f =>
      let k := Index d (str "import "%string) in
      if k =? -1 then Some (Ok (d, acc))
      else
        let st := k + index_byte (skipn (Z.to_nat k) d) 39 + 1 in
        match (let! tail := slice_from d st in
               let en := st + index_byte tail 39 in
               let! path := slice d st en in
               let! src := slice_from d (en + 1) in
               let! moved := copy_at d (k - 1) src in
               let! cut := slice_to moved (zlen d - (en - k) - 2) in
               Ok (cut, path)) with
        | Panic => Some Panic
        | Ok r => let '(cut, path) := r in extract f cut (acc ++ [path])
        end
  end.
Definition extractJSImports (d : bytes) : option (res (bytes * list bytes)) := extract (S (length d)) d [].

(** www/js.go:50-57 extractJSImportsRecursively on files named by numbers: [imports_of] gives the
    files the imports of a file's stored data resolve to; a file whose data was extracted before has
    no imports left (theorem C108_again).  State: the list js.imports and the files extracted. *)
Section Recursion.
Variable imports_of : nat -> list nat.
Definition mem (x : nat) (l : list nat) : bool := existsb (Nat.eqb x) l.
Fixpoint each (f : nat -> list nat * list nat -> option (list nat * list nat)) (l : list nat) (s : list nat * list nat) : option (list nat * list nat) :=
  match l with
  | [] => Some s
  | x :: r => match f x s with Some s => each f r s | None => None end
  end.
Fixpoint recursively (fuel : nat) (file : nat) (s : list nat * list nat) : option (list nat * list nat) :=
  match fuel with
  | O => None
  | S f =>
      let '(imports, done) := s in
      let fresh := if mem file done then [] else imports_of file in
      each (recursively f) fresh (imports ++ fresh, if mem file done then done else file :: done)
  end.
(** www/combine.go:112-114 with addLocalized 143-163 and isInlined 165-168: the files written to the
    bundle, in order *)
Fixpoint inline (l inlined : list nat) : list nat :=
  match l with
  | [] => []
  | x :: r => if mem x inlined then inline r inlined else x :: inline r (x :: inlined)
  end.
Definition bundle (fuel main : nat) : option (list nat) :=
  match recursively fuel main ([main], []) with
  | Some (imports, _) => Some (inline (rev imports) [])
  | None => None
  end.
End Recursion.
