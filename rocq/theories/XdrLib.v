(** Model of /repo/xdr/lib.go, function by function.

    Go methods with pointer receivers / pointer arguments become functions that return
    the new state and the new pointee.  Byte slices are lists; the aliasing between
    decoded slices and the input is the subject of Heap.v.  Go's [int] is 64 bits: the
    file compares an [int] with math.MaxUint32 (lib.go:50,197,244), which does not
    compile where [int] is 32 bits. *)
From Verif Require Import Bytes.
Open Scope string_scope.
Open Scope Z_scope.
Open Scope list_scope.

(** Errors.  errors.New(s) / fmt.Errorf(...) values; only nil / non-nil is observable
    to the library itself, the text is kept for fidelity. *)
Inductive xerr : Type :=
| EMsg (s : string)                        (* lib.go:67  errors.New *)
| ENotEnoughGot (wanted got : Z)           (* lib.go:84  "Not enough bytes: wanted %d, got %d" *)
| ENotEnoughHave (wanted have : Z).        (* lib.go:93  "Not enough bytes: wanted %d, have %d" *)

(** /repo/xdr/lib.go:10-19 [XdrState]. *)
Record xst : Type := mkXst {
  x_err : option xerr;
  x_reader : bool;
  x_buf : list byte
}.

(** /repo/xdr/lib.go:21-27 and 29-35. *)
Definition MakeReader (buf : list byte) : xst := mkXst None true buf.
Definition MakeWriter (buf : list byte) : xst := mkXst None false buf.

(** /repo/xdr/lib.go:37-39. *)
Definition WriteBuf (xs : xst) : list byte := x_buf xs.

(** /repo/xdr/lib.go:58-64. *)
Definition Encoding (xs : xst) : bool :=
  match x_err xs with None => negb (x_reader xs) | Some _ => false end.
Definition Decoding (xs : xst) : bool :=
  match x_err xs with None => x_reader xs | Some _ => false end.

(** /repo/xdr/lib.go:66-68. *)
Definition set_err (xs : xst) (e : xerr) : xst := mkXst (Some e) (x_reader xs) (x_buf xs).
Definition SetError (xs : xst) (s : string) : xst := set_err xs (EMsg s).
Definition set_buf (xs : xst) (b : list byte) : xst := mkXst (x_err xs) (x_reader xs) b.

(** /repo/xdr/lib.go:70-72. *)
Definition Error (xs : xst) : option xerr := x_err xs.

(** math.MaxUint32 *)
Definition MaxUint32 : Z := 4294967295.

(** /repo/xdr/lib.go:41-56 [EncodingSetSize]; [arraysz] is the pointee. *)
Definition EncodingSetSize (xs : xst) (arraysz : Z) (len : Z) : xst * Z :=
  match x_err xs with
  | Some _ => (xs, arraysz)
  | None =>
      if x_reader xs then (xs, arraysz)
      else if len >? MaxUint32 then (SetError xs "length too large", arraysz)
      else (xs, len mod 2 ^ 32)
  end.

(** /repo/xdr/lib.go:74-89 [xdrRW]; [v] is the contents of the slice argument.
    copy(v, xs.buf) copies min(len v, len buf) bytes. *)
Definition xdrRW (xs : xst) (v : list byte) : xst * list byte :=
  match x_err xs with
  | Some _ => (xs, v)
  | None =>
      if x_reader xs then
        let n := Nat.min (List.length v) (List.length (x_buf xs)) in
        let v' := firstn n (x_buf xs) ++ skipn n v in
        let xs1 := set_buf xs (skipn n (x_buf xs)) in
        if Nat.ltb n (List.length v)
        then (set_err xs1 (ENotEnoughGot (zlen v) (Z.of_nat n)), v')
        else (xs1, v')
      else (set_buf xs (x_buf xs ++ v), v)
  end.

(** /repo/xdr/lib.go:91-103 [xdrR]; result [None] is the nil slice.  [n] is a Go int. *)
Definition xdrR (xs : xst) (n : Z) : xst * option (list byte) :=
  let xs1 := if zlen (x_buf xs) <? n
             then set_err xs (ENotEnoughHave n (zlen (x_buf xs))) else xs in
  match x_err xs1 with
  | Some _ => (xs1, None)
  | None => (set_buf xs1 (skipn (Z.to_nat n) (x_buf xs1)),
             Some (firstn (Z.to_nat n) (x_buf xs1)))
  end.

(** /repo/xdr/lib.go:105-129 [XdrBool]. *)
Definition XdrBool (xs : xst) (v : bool) : xst * bool :=
  match x_err xs with
  | Some _ => (xs, v)
  | None =>
      let buf := if Encoding xs then (if v then put_u32 1 else put_u32 0) else zeros 4 in
      let '(xs1, buf1) := xdrRW xs buf in
      if Decoding xs1
      then let r := get_u32 buf1 in (xs1, if r =? 0 then false else true)
      else (xs1, v)
  end.

(** Go conversions between fixed-width integers. *)
Definition to_u32 (z : Z) : Z := z mod 2 ^ 32.                       (* uint32(x) *)
Definition to_s32 (z : Z) : Z := (z + 2 ^ 31) mod 2 ^ 32 - 2 ^ 31.   (* int32(x) *)
Definition to_u64 (z : Z) : Z := z mod 2 ^ 64.                       (* uint64(x) *)
Definition to_s64 (z : Z) : Z := (z + 2 ^ 63) mod 2 ^ 64 - 2 ^ 63.   (* int64(x) *)

(** /repo/xdr/lib.go:131-144 [XdrS32]. *)
Definition XdrS32 (xs : xst) (v : Z) : xst * Z :=
  match x_err xs with
  | Some _ => (xs, v)
  | None =>
      let buf := if Encoding xs then put_u32 (to_u32 v) else zeros 4 in
      let '(xs1, buf1) := xdrRW xs buf in
      if Decoding xs1 then (xs1, to_s32 (get_u32 buf1)) else (xs1, v)
  end.

(** /repo/xdr/lib.go:146-159 [XdrU32]. *)
Definition XdrU32 (xs : xst) (v : Z) : xst * Z :=
  match x_err xs with
  | Some _ => (xs, v)
  | None =>
      let buf := if Encoding xs then put_u32 v else zeros 4 in
      let '(xs1, buf1) := xdrRW xs buf in
      if Decoding xs1 then (xs1, get_u32 buf1) else (xs1, v)
  end.

(** /repo/xdr/lib.go:161-174 [XdrS64]. *)
Definition XdrS64 (xs : xst) (v : Z) : xst * Z :=
  match x_err xs with
  | Some _ => (xs, v)
  | None =>
      let buf := if Encoding xs then put_u64 (to_u64 v) else zeros 8 in
      let '(xs1, buf1) := xdrRW xs buf in
      if Decoding xs1 then (xs1, to_s64 (get_u64 buf1)) else (xs1, v)
  end.

(** /repo/xdr/lib.go:176-189 [XdrU64]. *)
Definition XdrU64 (xs : xst) (v : Z) : xst * Z :=
  match x_err xs with
  | Some _ => (xs, v)
  | None =>
      let buf := if Encoding xs then put_u64 v else zeros 8 in
      let '(xs1, buf1) := xdrRW xs buf in
      if Decoding xs1 then (xs1, get_u64 buf1) else (xs1, v)
  end.

(** A []byte value: [None] is nil. *)
Definition bytes_of (o : option (list byte)) : list byte :=
  match o with Some l => l | None => [] end.

(** The expression [(4-len%4)%4] of lib.go:221,232,254,269, and [make([]byte, ...)] of it. *)
Definition pad_make (len : nat) : list byte :=
  zeros (Z.to_nat (Z.rem (4 - Z.rem (Z.of_nat len) 4) 4)).

(** /repo/xdr/lib.go:191-223 [XdrVarArray]. *)
Definition XdrVarArray (xs : xst) (maxlen : Z) (v : option (list byte))
  : xst * option (list byte) :=
  match x_err xs with
  | Some _ => (xs, v)
  | None =>
      let finish (xs : xst) (v : option (list byte)) :=
        (* lib.go:220-222 *)
        if negb (Z.rem (zlen (bytes_of v)) 4 =? 0)
        then (fst (xdrRW xs (pad_make (List.length (bytes_of v)))), v)
        else (xs, v) in
      if Encoding xs then
        if (zlen (bytes_of v) >? MaxUint32)
           || ((maxlen >=? 0) && (zlen (bytes_of v) >? maxlen))
        then (SetError xs "var array too large", v)
        else
          let szbuf := put_u32 (to_u32 (zlen (bytes_of v))) in
          let xs1 := fst (xdrRW xs szbuf) in
          let xs2 := fst (xdrRW xs1 (bytes_of v)) in
          finish xs2 v
      else
        let '(xs1, szbuf) := xdrRW xs (zeros 4) in
        let sz := get_u32 szbuf in
        if ((maxlen >=? 0) && (sz >? maxlen)) || (sz <? 0)
        then (SetError xs1 "var array too large", v)
        else
          let '(xs2, v') := xdrR xs1 sz in
          finish xs2 v'
  end.

(** /repo/xdr/lib.go:225-236 [XdrArray]; [v] is the contents of the (array) slice. *)
Definition XdrArray (xs : xst) (v : list byte) : xst * list byte :=
  match x_err xs with
  | Some _ => (xs, v)
  | None =>
      let '(xs1, v1) := xdrRW xs v in
      if negb (Z.rem (zlen v) 4 =? 0)
      then (fst (xdrRW xs1 (pad_make (List.length v))), v1)
      else (xs1, v1)
  end.

(** /repo/xdr/lib.go:238-271 [XdrString]; Go strings are byte sequences. *)
Definition XdrString (xs : xst) (maxlen : Z) (v : list byte) : xst * list byte :=
  match x_err xs with
  | Some _ => (xs, v)
  | None =>
      if Encoding xs then
        if (zlen v >? MaxUint32) || ((maxlen >=? 0) && (zlen v >? maxlen))
        then (SetError xs "string too large", v)
        else
          let szbuf := put_u32 (to_u32 (zlen v)) in
          let xs1 := fst (xdrRW xs szbuf) in
          let xs2 := fst (xdrRW xs1 v) in
          (fst (xdrRW xs2 (pad_make (List.length v))), v)
      else
        let '(xs1, szbuf) := xdrRW xs (zeros 4) in
        let sz := get_u32 szbuf in
        if ((maxlen >=? 0) && (sz >? maxlen)) || (sz <? 0)
        then (SetError xs1 "string too large", v)
        else
          let '(xs2, b) := xdrR xs1 sz in
          let v' := bytes_of b in
          (fst (xdrRW xs2 (pad_make (List.length v'))), v')
  end.
