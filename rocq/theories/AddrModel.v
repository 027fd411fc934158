(** Model of textual addresses: net/ipv4/addr.go and net/ipv6/addr.go. *)
From Verif Require Import Go.

(** * IPv4 *)
(** net/ipv4/addr.go:76-90 ubtoa; arithmetic is on bytes *)
Definition ubtoa (dst : bytes) (start v : Z) : res (bytes * Z) :=
  if v <? 10 then let! d := set_idx dst start (u8 (v + 48)) in Ok (d, 1)
  else if v <? 100 then
    let! d := set_idx dst (start + 1) (u8 (v mod 10 + 48)) in
    let! d := set_idx d start (u8 (v / 10 + 48)) in Ok (d, 2)
  else
    let! d := set_idx dst (start + 2) (u8 (v mod 10 + 48)) in
    let! d := set_idx d (start + 1) (u8 ((v / 10) mod 10 + 48)) in
    let! d := set_idx d start (u8 (v / 100 + 48)) in Ok (d, 3).
(** net/ipv4/addr.go:21-40 ToString *)
Definition ip4_ToString (addr : bytes) : res bytes :=
  let b := repeat 0 15 in
  let! a0 := idx addr 0 in
  let! r_ := ubtoa b 0 a0 in let '(b, n) := r_ in
  let! b := set_idx b n 46 in let n := n + 1 in
  let! a1 := idx addr 1 in
  let! r_ := ubtoa b n a1 in let '(b, c) := r_ in let n := n + c in
  let! b := set_idx b n 46 in let n := n + 1 in
  let! a2 := idx addr 2 in
  let! r_ := ubtoa b n a2 in let '(b, c) := r_ in let n := n + c in
  let! b := set_idx b n 46 in let n := n + 1 in
  let! a3 := idx addr 3 in
  let! r_ := ubtoa b n a3 in let '(b, c) := r_ in let n := n + c in
  slice_to b n.
(** net/ipv4/addr.go:94-109 dtoi: number, characters consumed, success *)
Fixpoint dtoi_loop (s : bytes) (n i : Z) : Z * Z * bool :=
  match s with
  | c :: r =>
      if (48 <=? c) && (c <=? 57) then
        let n := n * 10 + (c - 48) in
        if 16777215 <=? n then (16777215, i, false) else dtoi_loop r n (i + 1)
      else if i =? 0 then (0, 0, false) else (n, i, true)
  | [] => if i =? 0 then (0, 0, false) else (n, i, true)
  end.
Definition dtoi (s : bytes) : Z * Z * bool := dtoi_loop s 0 0.
(** net/ipv4/addr.go:41-71 FromString; [i] counts from 0, [k] is 4 - i.  The error is always nil,
    so the model returns it as such. *)
Inductive aerr := NilErr | SomeErr.
Fixpoint ip4_parse (k : nat) (i : Z) (addr s : bytes) : res (bytes * aerr) :=
  match k with
  | O => Ok (addr, NilErr)
  | S k =>
      if zlen s =? 0 then Ok (addr, NilErr)
      else
        let! dot := (if 0 <? i then let! c := idx s 0 in Ok (c =? 46) else Ok true) in
        if negb dot then Ok (addr, NilErr)
        else
        let! s := (if 0 <? i then slice_from s 1 else Ok s) in
        let '(n, c, ok) := dtoi s in
        if negb ok || (255 <? n) then Ok (addr, NilErr)
        else
          let! lead := (if 1 <? c then let! f := idx s 0 in Ok (f =? 48) else Ok false) in
          if lead then Ok (addr, NilErr)
          else
            let! s := slice_from s c in
            let! addr := set_idx addr i (u8 n) in
            ip4_parse k (i + 1) addr s
  end.
Definition ip4_FromString (addr s : bytes) : res (bytes * aerr) := ip4_parse 4 0 addr s.

(** * IPv6 *)
(** net/ipv6/addr.go:55-67: the end of the zero run starting at [j] (both loops), [k] groups left *)
Fixpoint zero_run (k : nat) (addr : bytes) (j : Z) : res Z :=
  match k with
  | O => Ok j
  | S k =>
      if j <? 16 then
        let! a := idx addr j in
        if a =? 0 then let! b := idx addr (j + 1) in if b =? 0 then zero_run k addr (j + 2) else Ok j
        else Ok j
      else Ok j
  end.
Fixpoint longest (k : nat) (addr : bytes) (i e0 e1 : Z) : res (Z * Z) :=
  match k with
  | O => Ok (e0, e1)
  | S k =>
      if i <? 16 then
        let! j := zero_run 8 addr i in
        if (i <? j) && (e1 - e0 <? j - i) then longest k addr (j + 2) i j else longest k addr (i + 2) e0 e1
      else Ok (e0, e1)
  end.
(** net/ipv6/addr.go:82-94 the printing loop; b[i] = c is an index into the built text *)
Definition hex (v : Z) : Z := if v <? 10 then 48 + v else 87 + v.
Fixpoint print6 (k : nat) (addr : bytes) (e0 e1 i : Z) (b : bytes) : res bytes :=
  match k with
  | O => Ok b
  | S k =>
      if i <? 16 then
        let b1 := if i =? e0 then b ++ [58; 58] else if 0 <? i then b ++ [58] else b in
        let i1 := if i =? e0 then e1 else i in
        if (i =? e0) && (16 <=? e1) then Ok b1
        else
          let! x := idx addr i1 in
          let! b2 := set_idx b1 (i1 * 2) (hex (Z.shiftr x 4)) in
          let! y := idx addr (i1 + 1) in
          let! b3 := set_idx b2 (i1 * 2 + 1) (hex (Z.land y 15)) in
          print6 k addr e0 e1 (i1 + 2) b3
      else Ok b
  end.
(** net/ipv6/addr.go:53-96 ToString *)
Definition ip6_ToString (addr : bytes) : res bytes :=
  let! r_ := longest 8 addr 0 (-1) (-1) in let '(e0, e1) := r_ in
  let '(e0, e1) := if e1 - e0 <=? 2 then (-1, -1) else (e0, e1) in
  print6 8 addr e0 e1 0 [].
(** net/ipv6/addr.go:180-208 xtoi *)
Definition hexval (c : Z) : option Z :=
  if (48 <=? c) && (c <=? 57) then Some (c - 48)
  else if (97 <=? c) && (c <=? 102) then Some (c - 97 + 10)
  else if (65 <=? c) && (c <=? 70) then Some (c - 65 + 10)
  else None.
Fixpoint xtoi_loop (s : bytes) (n i : Z) : Z * Z * bool :=
  match s with
  | c :: r =>
      match hexval c with
      | Some v => let n := n * 16 + v in if 16777215 <=? n then (0, i, false) else xtoi_loop r n (i + 1)
      | None => if i =? 0 then (0, i, false) else (n, i, true)
      end
  | [] => if i =? 0 then (0, i, false) else (n, i, true)
  end.
Definition xtoi (s : bytes) : Z * Z * bool := xtoi_loop s 0 0.
(** net/ipv6/addr.go:116-151 the loop; [k] groups left.  [Some (addr, i, s, ellipsis)] on leaving
    it, [None] on a return from inside. *)
Fixpoint groups6 (k : nat) (i : Z) (addr s : bytes) (ell : Z) : res (bytes * option (Z * bytes * Z)) :=
  match k with
  | O => Ok (addr, Some (i, s, ell))
  | S k =>
      let '(n, c, ok) := xtoi s in
      if negb ok || (65535 <? n) then Ok (addr, None)
      else
        let! addr := set_idx addr i (u8 (Z.shiftr n 8)) in
        let! addr := set_idx addr (i + 1) (u8 n) in
        let i := i + 2 in
        let! s := slice_from s c in
        if zlen s =? 0 then Ok (addr, Some (i, s, ell))
        else
          let! c0 := idx s 0 in
          if negb (c0 =? 58) || (zlen s =? 1) then Ok (addr, None)
          else
            let! s := slice_from s 1 in
            let! c1 := idx s 0 in
            if c1 =? 58 then
              if 0 <=? ell then Ok (addr, None)
              else
                let! s := slice_from s 1 in
                if zlen s =? 0 then Ok (addr, Some (i, s, i)) else groups6 k i addr s i
            else groups6 k i addr s ell
  end.
(** 164-166: for j := i-1; j >= ell; j-- addr[j+n] = addr[j];  [m] is i - ell *)
Fixpoint move6 (m : nat) (addr : bytes) (ell n : Z) : res bytes :=
  match m with
  | O => Ok addr
  | S m => let j := ell + Z.of_nat m in
           let! a := idx addr j in let! addr := set_idx addr (j + n) a in move6 m addr ell n
  end.
(** 167-169: for j := ell+n-1; j >= ell; j-- addr[j] = 0;  [m] is n *)
Fixpoint zero6 (m : nat) (addr : bytes) (ell : Z) : res bytes :=
  match m with
  | O => Ok addr
  | S m => let! addr := set_idx addr (ell + Z.of_nat m) 0 in zero6 m addr ell
  end.
(** net/ipv6/addr.go:101-176 FromString *)
Definition ip6_FromString (addr ip : bytes) : res (bytes * aerr) :=
  let lead := match ip with 58 :: 58 :: _ => true | _ => false end in
  let ell := if lead then 0 else -1 in
  let ip := if lead then skipn 2 ip else ip in
  if lead && (zlen ip =? 0) then Ok (addr, NilErr)
  else
    let! r_ := groups6 8 0 addr ip ell in let '(addr, r) := r_ in
    match r with
    | None => Ok (addr, NilErr)
    | Some (i, s, ell) =>
        if negb (zlen s =? 0) then Ok (addr, NilErr)
        else if i <? 16 then
          if ell <? 0 then Ok (addr, NilErr)
          else
            let n := 16 - i in
            let! addr := move6 (Z.to_nat (i - ell)) addr ell n in
            let! addr := zero6 (Z.to_nat n) addr ell in
            Ok (addr, NilErr)
        else Ok (addr, NilErr)
    end.

(** net/ipv6/addr.go:22-39 *)
Definition ip6_IsUnspecified (a : bytes) : bool := beq a (repeat 0 16).
Definition ip6_IsLoopback (a : bytes) : bool := beq a (repeat 0 15 ++ [1]).
Definition ip6_IsMulticast (a : bytes) : res bool := let! x := idx a 0 in Ok (x =? 255).
Definition ip6_IsLinkLocalUnicast (a : bytes) : res bool :=
  let! x := idx a 0 in let! y := idx a 1 in Ok ((x =? 254) && (Z.land y 192 =? 128)).
Definition ip6_IsGlobalUnicast (a : bytes) : res bool :=
  let! m := ip6_IsMulticast a in let! l := ip6_IsLinkLocalUnicast a in
  Ok (negb (ip6_IsUnspecified a) && negb (ip6_IsLoopback a) && negb m && negb l).
(** net/ipv6/addr.go:42-48 *)
Definition ip6_FromIPv4 (a v4 : bytes) : bytes :=
  overwrite (overwrite a 0 (repeat 0 10 ++ [255; 255])) 12 v4.
(** net/ipv6/addr.go:25-26 *)
Definition ip6_IsInterfaceLocalMulticast (a : bytes) : res bool :=
  let! x := idx a 0 in let! y := idx a 1 in Ok ((x =? 255) && (Z.land y 15 =? 1)).
Definition ip6_IsLinkLocalMulticast (a : bytes) : res bool :=
  let! x := idx a 0 in let! y := idx a 1 in Ok ((x =? 255) && (Z.land y 15 =? 2)).
