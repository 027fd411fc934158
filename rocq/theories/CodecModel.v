(** Codecs that keep what they computed: compress/gzip, compress/flate and
    json/codec.go; and the registries compress-types and mediatypes. *)
From Verif Require Import Go RegModel.

(** Go's compress/gzip or compress/flate, library code left abstract.
    [lib_pack level raw]: what Write and Close put out.
    [lib_unpack data]: [None] when the reader cannot even be opened (gzip header);
    otherwise the bytes it yields and whether it ended without error. *)
Record lib := { lib_pack : Z -> bytes -> bytes; lib_unpack : bytes -> option (bytes * bool) }.
(** NewWriterLevel and flate.NewWriter return a nil writer for other levels; using it
    panics. *)
Definition level_ok (l : Z) : bool := (-2 <=? l) && (l <=? 9).

(** The two packages differ in whether Marshal drops the error of the source
    (gzip) or returns it (flate), and in the decompressor's Unmarshal and ReadFrom. *)
Inductive pkg := Gzip | Flate.
Definition drops (p : pkg) : bool := match p with Gzip => true | Flate => false end.

(** The codec given to Init: what its Marshal returns now ([None]: an error).  It is
    held by reference and may change between calls. *)
Definition source := option bytes.

(** What a call returns.  [OData]: data ([None] is a nil slice) and whether an error
    was returned; [ORead]: whether ReadFrom returned an error; [OWrote]: the bytes the writer received, the count and the error. *)
Inductive out :=
| OData (d : option bytes) (e : bool)
| OLen (n : Z)
| ORefused
| ODone (n : Z)
| ORead (e : bool)
| ORest (r : bytes)
| OWrote (w : bytes) (n : Z) (e : bool)
| OPanic
| ONothing.
Inductive op :=
| Source (s : source)          (* the source changes *)
| Marshal
| MarshalTo (d : bytes)
| Len
| Decode
| Unmarshal (d : bytes)
| UnmarshalFrom (d : bytes)
| ReadFrom (d : bytes)
| WriteTo.

(** append to a slice (nil appended to nil stays nil). *)
Definition go_append (d : bytes) (c : option bytes) : bytes := d ++ match c with Some x => x | None => [] end.
Definition opt_len (c : option bytes) : Z := match c with Some x => zlen x | None => 0 end.

(** * Compressor, compress/gzip/compressor.go and compress/flate/compressor.go *)
Record comp := Comp { c_src : source; c_lvl : Z; c_data : option bytes }.
(** compressor.go:21-25 Init *)
Definition comp_init (s : source) (lvl : Z) : comp := Comp s lvl None.
(** compressor.go:27-43 EncodeAll: error and new cache. *)
Definition EncodeAll (L : lib) (c : comp) : res (bool * comp) :=
  match c_src c with
  | None => Ok (true, c)
  | Some raw =>
      if level_ok (c_lvl c) then Ok (false, Comp (c_src c) (c_lvl c) (Some (lib_pack L (c_lvl c) raw)))
      else Panic
  end.
(** "if c.compressedData == nil { err = c.EncodeAll() }" in Marshal, MarshalTo, Len *)
Definition comp_force (L : lib) (c : comp) : res (bool * comp) :=
  match c_data c with Some _ => Ok (false, c) | None => EncodeAll L c end.
(** compressor.go:49-110, one method per operation *)
Definition comp_step (p : pkg) (L : lib) (c : comp) (o : op) : comp * out :=
  match o with
  | Source s => (Comp s (c_lvl c) (c_data c), ONothing)
  | Marshal =>
      match comp_force L c with
      | Panic => (c, OPanic)
      | Ok (e, c) => (c, OData (c_data c) (negb (drops p) && e))
      end
  | MarshalTo d =>
      match comp_force L c with
      | Panic => (c, OPanic)
      | Ok (e, c) => (c, OData (Some (go_append d (c_data c))) (negb (drops p) && e))
      end
  | Len =>
      match comp_force L c with
      | Panic => (c, OPanic)
      | Ok (_, c) => (c, OLen (opt_len (c_data c)))
      end
  | Decode | Unmarshal _ | UnmarshalFrom _ | ReadFrom _ => (c, ORefused)
  | WriteTo =>
      match c_src c with
      | None => (c, OWrote [] 0 true)
      | Some raw =>
          if level_ok (c_lvl c) then (c, OWrote (lib_pack L (c_lvl c) raw) (zlen raw) false)
          else (c, OPanic)
      end
  end.

(** * Decompressor, compress/gzip/decompressor.go and compress/flate/decompressor.go *)
(** egzip.Reader: never Reset (reading panics), or what is left to read and whether it
    will end without error. *)
Inductive reader := RNil | RAt (d : bytes) (ok : bool).
Record decomp := Decomp { d_src : source; d_zr : reader; d_data : option bytes }.
Definition decomp_init (s : source) : decomp := Decomp s RNil None.
(** zr.Reset: [RAt [] false] after a bad header. *)
Definition reset (L : lib) (data : bytes) : reader :=
  match lib_unpack L data with Some (x, ok) => RAt x ok | None => RAt [] false end.
(** gzip/decompressor.go:32-58, flate/decompressor.go:27-46 decompressAll; errors of the
    reader are dropped. *)
Definition decompressAll (p : pkg) (L : lib) (d : decomp) : bool * decomp :=
  match d_src d with
  | None => (true, d)
  | Some data =>
      let zr' := fun ok => match p with Gzip => RAt [] ok | Flate => d_zr d end in
      match lib_unpack L data with
      | None => (false, Decomp (d_src d) (zr' false) (d_data d))
      | Some (x, ok) => (false, Decomp (d_src d) (zr' ok) (Some x))
      end
  end.
Definition decomp_force (p : pkg) (L : lib) (d : decomp) : bool * decomp :=
  match d_data d with Some _ => (false, d) | None => decompressAll p L d end.
(** gzip/decompressor.go:60-121, flate/decompressor.go:48-104 *)
Definition decomp_step (p : pkg) (L : lib) (d : decomp) (o : op) : decomp * out :=
  match o with
  | Source s => (Decomp s (d_zr d) (d_data d), ONothing)
  | Marshal => let '(e, d) := decomp_force p L d in (d, OData (d_data d) (negb (drops p) && e))
  | MarshalTo x => let '(e, d) := decomp_force p L d in (d, OData (Some (go_append x (d_data d))) (negb (drops p) && e))
  | Len => let '(_, d) := decomp_force p L d in (d, OLen (opt_len (d_data d)))
  | Decode => (d, ORefused)
  | Unmarshal x =>
      match p with
      | Gzip => (Decomp (d_src d) (reset L x) (d_data d), ODone 0)
      | Flate => (d, ORefused)
      end
  | UnmarshalFrom x =>
      match p with
      | Gzip => (Decomp (d_src d) (reset L x) (d_data d), ORest x)
      | Flate => (d, ORefused)
      end
  | ReadFrom x => (* gzip/decompressor.go:114-117 returns the error of Reset, Unmarshal above does not *)
      match p with
      | Gzip => (Decomp (d_src d) (reset L x) (d_data d), ORead (match lib_unpack L x with Some _ => false | None => true end))
      | Flate => (d, ORefused)
      end
  | WriteTo =>
      match p with
      | Gzip =>
          match d_zr d with
          | RNil => (d, OPanic)
          | RAt x ok => (Decomp (d_src d) (RAt [] ok) (d_data d), OWrote x (zlen x) (negb ok))
          end
      | Flate =>
          match d_src d with
          | None => (d, OWrote [] 0 true)
          | Some data =>
              match lib_unpack L data with
              | None => (d, OWrote [] 0 true)
              | Some (x, ok) => (d, OWrote x (zlen x) (negb ok))
              end
          end
      end
  end.

(** The outputs of a sequence of calls. *)
Fixpoint run {S} (step : S -> op -> S * out) (s : S) (l : list op) : list out :=
  match l with
  | [] => []
  | o :: t => let '(s', r) := step s o in r :: run step s' t
  end.
Fixpoint state_after {S} (step : S -> op -> S * out) (s : S) (l : list op) : S :=
  match l with [] => s | o :: t => state_after step (fst (step s o)) t end.

(** * json/codec.go Codec over an object of the application *)
(** protocol.JSON: ToJSON (appending to the given slice; [None]: error), FromJSON
    (the new object and whether it failed), LenAsJSON. *)
Record japp (T : Type) := { to_json : T -> option bytes; from_json : T -> bytes -> T * bool; len_json : T -> Z }.
Arguments to_json {T}. Arguments from_json {T}. Arguments len_json {T}.
Record jcodec (T : Type) := JC { j_obj : T; j_payload : option bytes; j_len : Z }.
Arguments JC {T}. Arguments j_obj {T}. Arguments j_payload {T}. Arguments j_len {T}.
Inductive jop (T : Type) := JSet (x : T) | JMarshal | JMarshalTo (d : bytes) | JLen
| JUnmarshal (d : bytes) | JUnmarshalFrom (d : bytes) | JDecode (s : source) | JWriteTo.
Arguments JSet {T}. Arguments JMarshal {T}. Arguments JMarshalTo {T}. Arguments JLen {T}.
Arguments JUnmarshal {T}. Arguments JUnmarshalFrom {T}. Arguments JDecode {T}. Arguments JWriteTo {T}.
(** codec.go:23-26 Init *)
Definition jinit {T} (A : japp T) (x : T) : jcodec T := JC x None (len_json A x).
(** codec.go:66-72: an error of ToJSON is dropped; the slice ToJSON returned with it is
    taken to be nil. *)
Definition jforce {T} (A : japp T) (c : jcodec T) : jcodec T :=
  match j_payload c with
  | Some _ => c
  | None => JC (j_obj c) (to_json A (j_obj c)) (j_len c)
  end.
(** codec.go:35-94; ReadFrom is Decode through a buffer and is left out.  [JSet]: the
    application changes its object. *)
Definition jstep {T} (A : japp T) (c : jcodec T) (o : jop T) : jcodec T * out :=
  match o with
  | JSet x => (JC x (j_payload c) (j_len c), ONothing)
  | JMarshal => let c := jforce A c in (c, OData (j_payload c) false)
  | JMarshalTo d =>
      match to_json A (j_obj c) with
      | Some t => (c, OData (Some (d ++ t)) false)
      | None => (c, OData None true)
      end
  | JLen => (c, OLen (j_len c))
  | JUnmarshal d =>
      let '(x, e) := from_json A (j_obj c) d in (JC x (Some d) (j_len c), OData None e)
  | JUnmarshalFrom d => (c, OData None false)
  | JDecode s =>
      match s with
      | None => (JC (j_obj c) None (j_len c), OData None true)
      | Some d => let '(x, e) := from_json A (j_obj c) d in (JC x (Some d) (j_len c), OData None e)
      end
  | JWriteTo =>
      let c := jforce A c in
      (c, OWrote (go_append [] (j_payload c)) (opt_len (j_payload c)) false)
  end.
Fixpoint jrun {T} (A : japp T) (c : jcodec T) (l : list (jop T)) : list out :=
  match l with
  | [] => []
  | o :: t => let '(c', r) := jstep A c o in r :: jrun A c' t
  end.
Fixpoint jafter {T} (A : japp T) (c : jcodec T) (l : list (jop T)) : jcodec T :=
  match l with [] => c | o :: t => jafter A (fst (jstep A c o)) t end.

(** * compress-types/compress-types.go *)
(** protocol.CompressType: identifier, MediaType(), ToString(), file extension, content
    encoding, and which object it is. *)
Record ctype := { ct_id : Z; ct_mt : bytes; ct_str : bytes; ct_ext : bytes; ct_enc : bytes; ct_obj : nat }.
(** compress-types.go:29-35 *)
Record ctypes := { ct_by_id : Z -> option ctype; ct_by_mt : bytes -> option ctype;
  ct_by_ext : bytes -> option ctype; ct_by_enc : bytes -> option ctype; ct_encs : list bytes }.
Definition ctypes0 : ctypes :=
  {| ct_by_id := fun _ => None; ct_by_mt := fun _ => None; ct_by_ext := fun _ => None;
     ct_by_enc := fun _ => None; ct_encs := [] |}.
(** compress-types.go:38-57 Register *)
Definition CRegister (s : ctypes) (c : ctype) : res ctypes :=
  if beq (ct_mt c) [] then Panic
  else if beq (ct_enc c) [] then Panic
  else Ok {| ct_by_id := map_set Z.eqb (ct_by_id s) (ct_id c) (Some c);
             ct_by_mt := map_set beq (ct_by_mt s) (ct_str c) (Some c);
             ct_by_ext := map_set beq (ct_by_ext s) (ct_ext c) (Some c);
             ct_by_enc := map_set beq (ct_by_enc s) (ct_enc c) (Some c);
             ct_encs := ct_encs s ++ [ct_enc c] |}.
(** A registration that panics is recovered by its caller: nothing changes. *)
Definition cregister_all (l : list ctype) : ctypes :=
  fold_left (fun s c => match CRegister s c with Ok s' => s' | Panic => s end) l ctypes0.
(** compress-types.go:59-86; [None] is ErrNotFound *)
Definition CGetByID (s : ctypes) (id : Z) := ct_by_id s id.
Definition CGetByMediaType (s : ctypes) (mt : bytes) := ct_by_mt s mt.
Definition CGetByFileExtension (s : ctypes) (ex : bytes) := ct_by_ext s ex.
Definition CGetByContentEncoding (s : ctypes) (ce : bytes) := ct_by_enc s ce.
Definition ContentEncodings (s : ctypes) : list bytes := ct_encs s.

(** * mediatypes/media-types.go *)
Record mtype := { m_id : Z; m_main : bytes; m_sub : bytes; m_str : bytes; m_ext : bytes; m_obj : nat }.
(** media-types.go:26-30 *)
Record mtypes := { m_by_mt : bytes -> option mtype; m_by_id : Z -> option mtype; m_by_ext : bytes -> option mtype }.
Definition mtypes0 : mtypes := {| m_by_mt := fun _ => None; m_by_id := fun _ => None; m_by_ext := fun _ => None |}.
(** media-types.go:33-47 Register *)
Definition MRegister (s : mtypes) (m : mtype) : res mtypes :=
  if beq (m_main m) [] && beq (m_sub m) [] then Panic
  else Ok {| m_by_mt := map_set beq (m_by_mt s) (m_str m) (Some m);
             m_by_id := map_set Z.eqb (m_by_id s) (m_id m) (Some m);
             m_by_ext := if beq (m_ext m) [] then m_by_ext s else map_set beq (m_by_ext s) (m_ext m) (Some m) |}.
Definition mregister_all (l : list mtype) : mtypes :=
  fold_left (fun s c => match MRegister s c with Ok s' => s' | Panic => s end) l mtypes0.
(** media-types.go:49-70: the media type (nil when absent) and whether there is an error. *)
Definition MGetByMediaType (s : mtypes) (mt : bytes) : option mtype * bool := (m_by_mt s mt, false).
Definition MGetByID (s : mtypes) (id : Z) : option mtype * bool := (m_by_id s id, false).
Definition MGetByFileExtension (s : mtypes) (ex : bytes) : option mtype * bool := (m_by_ext s ex, false).
