(** Model of package binary: fixed-width integer codecs.
    Each of the four files is modelled separately: the type chosen at build time
    depends on the host byte order. *)
From Verif Require Import Go.

(** binary/be-in-le-cpu.go L12-15: func (b BigEndian) Uint16() *)
Definition bele_Uint16 (b : bytes) : res Z :=
  let! _ := idx b 1 in
  let! b0 := idx b 0 in
  let! b1 := idx b 1 in
  Ok (Z.lor b1 (u16 (Z.shiftl b0 8))).

(** binary/be-in-le-cpu.go L27-31: func (b BigEndian) PutUint16(v uint16); returns the new buffer *)
Definition bele_PutUint16 (b : bytes) (v : Z) : res bytes :=
  let! _ := idx b 1 in
  let! b := set_idx b 0 (u8 (Z.shiftr v 8)) in
  let! b := set_idx b 1 (u8 v) in
  Ok b.

(** binary/be-in-le-cpu.go L16-19: func (b BigEndian) Uint32() *)
Definition bele_Uint32 (b : bytes) : res Z :=
  let! _ := idx b 3 in
  let! b0 := idx b 0 in
  let! b1 := idx b 1 in
  let! b2 := idx b 2 in
  let! b3 := idx b 3 in
  Ok (Z.lor (Z.lor (Z.lor b3 (u32 (Z.shiftl b2 8))) (u32 (Z.shiftl b1 16))) (u32 (Z.shiftl b0 24))).

(** binary/be-in-le-cpu.go L32-38: func (b BigEndian) PutUint32(v uint32); returns the new buffer *)
Definition bele_PutUint32 (b : bytes) (v : Z) : res bytes :=
  let! _ := idx b 3 in
  let! b := set_idx b 0 (u8 (Z.shiftr v 24)) in
  let! b := set_idx b 1 (u8 (Z.shiftr v 16)) in
  let! b := set_idx b 2 (u8 (Z.shiftr v 8)) in
  let! b := set_idx b 3 (u8 v) in
  Ok b.

(** binary/be-in-le-cpu.go L21-25: func (b BigEndian) Uint64() *)
Definition bele_Uint64 (b : bytes) : res Z :=
  let! _ := idx b 7 in
  let! b0 := idx b 0 in
  let! b1 := idx b 1 in
  let! b2 := idx b 2 in
  let! b3 := idx b 3 in
  let! b4 := idx b 4 in
  let! b5 := idx b 5 in
  let! b6 := idx b 6 in
  let! b7 := idx b 7 in
  Ok (Z.lor (Z.lor (Z.lor (Z.lor (Z.lor (Z.lor (Z.lor b7 (u64 (Z.shiftl b6 8))) (u64 (Z.shiftl b5 16))) (u64 (Z.shiftl b4 24))) (u64 (Z.shiftl b3 32))) (u64 (Z.shiftl b2 40))) (u64 (Z.shiftl b1 48))) (u64 (Z.shiftl b0 56))).

(** binary/be-in-le-cpu.go L39-49: func (b BigEndian) PutUint64(v uint64); returns the new buffer *)
Definition bele_PutUint64 (b : bytes) (v : Z) : res bytes :=
  let! _ := idx b 7 in
  let! b := set_idx b 0 (u8 (Z.shiftr v 56)) in
  let! b := set_idx b 1 (u8 (Z.shiftr v 48)) in
  let! b := set_idx b 2 (u8 (Z.shiftr v 40)) in
  let! b := set_idx b 3 (u8 (Z.shiftr v 32)) in
  let! b := set_idx b 4 (u8 (Z.shiftr v 24)) in
  let! b := set_idx b 5 (u8 (Z.shiftr v 16)) in
  let! b := set_idx b 6 (u8 (Z.shiftr v 8)) in
  let! b := set_idx b 7 (u8 v) in
  Ok b.

(** binary/le-in-le-cpu.go L14-17: func (b LittleEndian) Uint16() *)
Definition lele_Uint16 (b : bytes) : res Z :=
  let! _ := idx b 1 in
  let! b0 := idx b 0 in
  let! b1 := idx b 1 in
  Ok (Z.lor b0 (u16 (Z.shiftl b1 8))).

(** binary/le-in-le-cpu.go L28-32: func (b LittleEndian) PutUint16(v uint16); returns the new buffer *)
Definition lele_PutUint16 (b : bytes) (v : Z) : res bytes :=
  let! _ := idx b 1 in
  let! b := set_idx b 0 (u8 v) in
  let! b := set_idx b 1 (u8 (Z.shiftr v 8)) in
  Ok b.

(** binary/le-in-le-cpu.go L18-21: func (b LittleEndian) Uint32() *)
Definition lele_Uint32 (b : bytes) : res Z :=
  let! _ := idx b 3 in
  let! b0 := idx b 0 in
  let! b1 := idx b 1 in
  let! b2 := idx b 2 in
  let! b3 := idx b 3 in
  Ok (Z.lor (Z.lor (Z.lor b0 (u32 (Z.shiftl b1 8))) (u32 (Z.shiftl b2 16))) (u32 (Z.shiftl b3 24))).

(** binary/le-in-le-cpu.go L33-39: func (b LittleEndian) PutUint32(v uint32); returns the new buffer *)
Definition lele_PutUint32 (b : bytes) (v : Z) : res bytes :=
  let! _ := idx b 3 in
  let! b := set_idx b 0 (u8 v) in
  let! b := set_idx b 1 (u8 (Z.shiftr v 8)) in
  let! b := set_idx b 2 (u8 (Z.shiftr v 16)) in
  let! b := set_idx b 3 (u8 (Z.shiftr v 24)) in
  Ok b.

(** binary/le-in-le-cpu.go L22-26: func (b LittleEndian) Uint64() *)
Definition lele_Uint64 (b : bytes) : res Z :=
  let! _ := idx b 7 in
  let! b0 := idx b 0 in
  let! b1 := idx b 1 in
  let! b2 := idx b 2 in
  let! b3 := idx b 3 in
  let! b4 := idx b 4 in
  let! b5 := idx b 5 in
  let! b6 := idx b 6 in
  let! b7 := idx b 7 in
  Ok (Z.lor (Z.lor (Z.lor (Z.lor (Z.lor (Z.lor (Z.lor b0 (u64 (Z.shiftl b1 8))) (u64 (Z.shiftl b2 16))) (u64 (Z.shiftl b3 24))) (u64 (Z.shiftl b4 32))) (u64 (Z.shiftl b5 40))) (u64 (Z.shiftl b6 48))) (u64 (Z.shiftl b7 56))).

(** binary/le-in-le-cpu.go L40-50: func (b LittleEndian) PutUint64(v uint64); returns the new buffer *)
Definition lele_PutUint64 (b : bytes) (v : Z) : res bytes :=
  let! _ := idx b 7 in
  let! b := set_idx b 0 (u8 v) in
  let! b := set_idx b 1 (u8 (Z.shiftr v 8)) in
  let! b := set_idx b 2 (u8 (Z.shiftr v 16)) in
  let! b := set_idx b 3 (u8 (Z.shiftr v 24)) in
  let! b := set_idx b 4 (u8 (Z.shiftr v 32)) in
  let! b := set_idx b 5 (u8 (Z.shiftr v 40)) in
  let! b := set_idx b 6 (u8 (Z.shiftr v 48)) in
  let! b := set_idx b 7 (u8 (Z.shiftr v 56)) in
  Ok b.

(** binary/be-in-be-cpu.go L14-17: func (b BigEndian) Uint16() *)
Definition bebe_Uint16 (b : bytes) : res Z :=
  let! _ := idx b 1 in
  let! b0 := idx b 0 in
  let! b1 := idx b 1 in
  Ok (Z.lor b0 (u16 (Z.shiftl b1 8))).

(** binary/be-in-be-cpu.go L28-32: func (b BigEndian) PutUint16(v uint16); returns the new buffer *)
Definition bebe_PutUint16 (b : bytes) (v : Z) : res bytes :=
  let! _ := idx b 1 in
  let! b := set_idx b 0 (u8 v) in
  let! b := set_idx b 1 (u8 (Z.shiftr v 8)) in
  Ok b.

(** binary/be-in-be-cpu.go L18-21: func (b BigEndian) Uint32() *)
Definition bebe_Uint32 (b : bytes) : res Z :=
  let! _ := idx b 3 in
  let! b0 := idx b 0 in
  let! b1 := idx b 1 in
  let! b2 := idx b 2 in
  let! b3 := idx b 3 in
  Ok (Z.lor (Z.lor (Z.lor b0 (u32 (Z.shiftl b1 8))) (u32 (Z.shiftl b2 16))) (u32 (Z.shiftl b3 24))).

(** binary/be-in-be-cpu.go L33-39: func (b BigEndian) PutUint32(v uint32); returns the new buffer *)
Definition bebe_PutUint32 (b : bytes) (v : Z) : res bytes :=
  let! _ := idx b 3 in
  let! b := set_idx b 0 (u8 v) in
  let! b := set_idx b 1 (u8 (Z.shiftr v 8)) in
  let! b := set_idx b 2 (u8 (Z.shiftr v 16)) in
  let! b := set_idx b 3 (u8 (Z.shiftr v 24)) in
  Ok b.

(** binary/be-in-be-cpu.go L22-26: func (b BigEndian) Uint64() *)
Definition bebe_Uint64 (b : bytes) : res Z :=
  let! _ := idx b 7 in
  let! b0 := idx b 0 in
  let! b1 := idx b 1 in
  let! b2 := idx b 2 in
  let! b3 := idx b 3 in
  let! b4 := idx b 4 in
  let! b5 := idx b 5 in
  let! b6 := idx b 6 in
  let! b7 := idx b 7 in
  Ok (Z.lor (Z.lor (Z.lor (Z.lor (Z.lor (Z.lor (Z.lor b0 (u64 (Z.shiftl b1 8))) (u64 (Z.shiftl b2 16))) (u64 (Z.shiftl b3 24))) (u64 (Z.shiftl b4 32))) (u64 (Z.shiftl b5 40))) (u64 (Z.shiftl b6 48))) (u64 (Z.shiftl b7 56))).

(** binary/be-in-be-cpu.go L40-50: func (b BigEndian) PutUint64(v uint64); returns the new buffer *)
Definition bebe_PutUint64 (b : bytes) (v : Z) : res bytes :=
  let! _ := idx b 7 in
  let! b := set_idx b 0 (u8 v) in
  let! b := set_idx b 1 (u8 (Z.shiftr v 8)) in
  let! b := set_idx b 2 (u8 (Z.shiftr v 16)) in
  let! b := set_idx b 3 (u8 (Z.shiftr v 24)) in
  let! b := set_idx b 4 (u8 (Z.shiftr v 32)) in
  let! b := set_idx b 5 (u8 (Z.shiftr v 40)) in
  let! b := set_idx b 6 (u8 (Z.shiftr v 48)) in
  let! b := set_idx b 7 (u8 (Z.shiftr v 56)) in
  Ok b.

(** binary/le-in-be-cpu.go L12-15: func (b LittleEndian) Uint16() *)
Definition lebe_Uint16 (b : bytes) : res Z :=
  let! _ := idx b 1 in
  let! b0 := idx b 0 in
  let! b1 := idx b 1 in
  Ok (Z.lor b1 (u16 (Z.shiftl b0 8))).

(** binary/le-in-be-cpu.go L26-30: func (b LittleEndian) PutUint16(v uint16); returns the new buffer *)
Definition lebe_PutUint16 (b : bytes) (v : Z) : res bytes :=
  let! _ := idx b 1 in
  let! b := set_idx b 0 (u8 (Z.shiftr v 8)) in
  let! b := set_idx b 1 (u8 v) in
  Ok b.

(** binary/le-in-be-cpu.go L16-19: func (b LittleEndian) Uint32() *)
Definition lebe_Uint32 (b : bytes) : res Z :=
  let! _ := idx b 3 in
  let! b0 := idx b 0 in
  let! b1 := idx b 1 in
  let! b2 := idx b 2 in
  let! b3 := idx b 3 in
  Ok (Z.lor (Z.lor (Z.lor b3 (u32 (Z.shiftl b2 8))) (u32 (Z.shiftl b1 16))) (u32 (Z.shiftl b0 24))).

(** binary/le-in-be-cpu.go L31-37: func (b LittleEndian) PutUint32(v uint32); returns the new buffer *)
Definition lebe_PutUint32 (b : bytes) (v : Z) : res bytes :=
  let! _ := idx b 3 in
  let! b := set_idx b 0 (u8 (Z.shiftr v 24)) in
  let! b := set_idx b 1 (u8 (Z.shiftr v 16)) in
  let! b := set_idx b 2 (u8 (Z.shiftr v 8)) in
  let! b := set_idx b 3 (u8 v) in
  Ok b.

(** binary/le-in-be-cpu.go L20-24: func (b LittleEndian) Uint64() *)
Definition lebe_Uint64 (b : bytes) : res Z :=
  let! _ := idx b 7 in
  let! b0 := idx b 0 in
  let! b1 := idx b 1 in
  let! b2 := idx b 2 in
  let! b3 := idx b 3 in
  let! b4 := idx b 4 in
  let! b5 := idx b 5 in
  let! b6 := idx b 6 in
  let! b7 := idx b 7 in
  Ok (Z.lor (Z.lor (Z.lor (Z.lor (Z.lor (Z.lor (Z.lor b7 (u64 (Z.shiftl b6 8))) (u64 (Z.shiftl b5 16))) (u64 (Z.shiftl b4 24))) (u64 (Z.shiftl b3 32))) (u64 (Z.shiftl b2 40))) (u64 (Z.shiftl b1 48))) (u64 (Z.shiftl b0 56))).

(** binary/le-in-be-cpu.go L38-48: func (b LittleEndian) PutUint64(v uint64); returns the new buffer *)
Definition lebe_PutUint64 (b : bytes) (v : Z) : res bytes :=
  let! _ := idx b 7 in
  let! b := set_idx b 0 (u8 (Z.shiftr v 56)) in
  let! b := set_idx b 1 (u8 (Z.shiftr v 48)) in
  let! b := set_idx b 2 (u8 (Z.shiftr v 40)) in
  let! b := set_idx b 3 (u8 (Z.shiftr v 32)) in
  let! b := set_idx b 4 (u8 (Z.shiftr v 24)) in
  let! b := set_idx b 5 (u8 (Z.shiftr v 16)) in
  let! b := set_idx b 6 (u8 (Z.shiftr v 8)) in
  let! b := set_idx b 7 (u8 v) in
  Ok b.

(** binary/binary.go L5: func Bool(b []byte) bool *)
Definition bin_Bool (b : bytes) : res bool :=
  let! x := idx b 0 in Ok (negb (x =? 0)).

(** binary/binary.go L6: func Uint8(b []byte) uint8 *)
Definition bin_Uint8 (b : bytes) : res Z := idx b 0.

(** binary/binary.go L8-14: func PutBool(b []byte, v bool) *)
Definition bin_PutBool (b : bytes) (v : bool) : res bytes :=
  if v then set_idx b 0 1 else set_idx b 0 0.

(** binary/binary.go L15-17: func PutUint8(b []byte, v uint8) *)
Definition bin_PutUint8 (b : bytes) (v : Z) : res bytes := set_idx b 0 v.
