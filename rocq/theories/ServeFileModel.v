(** Model of serving web files from the directories of os/default: www/assets.go Init,
    net/http/services/serve-www.go and the first thing net/http/v1/handler.go does with the body.
    Simplified: os/default is written against an older version of the interfaces than net/http (its
    MediaType gives a string); what matters here is only which pointer is handed on and read. *)
From Coq Require Import String.
From Verif Require Import Go UriModel FileModel HttpModel HttpMsgModel.
Import ListNotations.
Local Open Scope Z_scope.
Local Open Scope list_scope.

(** os/default/file-directory.go:94-97 FileByPath: the pointer of fileByPath becomes an interface value *)
Definition FileByPath (d : dir) (p : bytes) : iface nat := IPtr (fileByPath d p).
(** www/assets.go:22-30 Init up to the update: the directory gui of the files of the application and the
    directory main-html in it; Directory on a nil directory panics (file-directory.go:38).  [mk1], [mk2]:
    whether the system makes them. *)
Definition assets_Init (files : dir) (mk1 mk2 : bool) : res (dir * option dir) :=
  match snd (Directory files (str "gui"%string) mk1) with
  | INil | IPtr None => Panic
  | IPtr (Some g) =>
      match snd (Directory g (str "main-html"%string) mk2) with
      | INil => Panic
      | IPtr m => Ok (g, m)
      end
  end.
(** serve-www.go:64-75: the file whose data becomes the body; the main page is looked up only when the
    interface value is nil.  Calling File on a nil directory panics at dir.files. *)
Definition page_file (gui : dir) (main : option dir) (p : bytes) : res (iface nat) :=
  let f := FileByPath gui p in
  if is_inil f then match main with Some m => Ok (snd (File_ m (str "en"%string) 0)) | None => Panic end
  else Ok f.
(** serve-www.go:76-79 and v1/handler.go:66-71: Data() of a file gives the file itself (os/default/file.go:27),
    also when it is a nil pointer; that is a body which is not nil, and asking it for its media type
    reads through the pointer (file.go:165).  [contents]: what the files hold. *)
Definition serve (contents : nat -> codec) (gui : dir) (main : option dir) (q : request) (r : response) : res response :=
  let! f := page_file gui main (path (q_uri q)) in
  let r := SetStatus r (str "200"%string) (str "OK"%string) in
  let r := res_Set r HeaderKey_CacheControl (str "max-age=31536000, immutable"%string) in
  match f with
  | INil | IPtr None => Panic
  | IPtr (Some f) => Ok (HandleOutcomeResponse q (SetBody r (Some (contents f))))
  end.
