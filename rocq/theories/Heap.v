(** Byte slices in memory: /repo/xdr/lib.go and the generated methods again, with [[]byte]
    values as slices of heap blocks, so that sharing between the buffer of an XdrState and
    the values encoded or decoded is visible.  [heap_refines] (HeapP.v) relates this to
    XdrLib.v and Interp.v. *)
From Verif Require Import Bytes XdrLib Types Interp.
Open Scope string_scope.
Open Scope Z_scope.
Open Scope list_scope.

(** ** Go slices of bytes *)
(** Memory: blocks (allocated arrays) of bytes. *)
Definition heap : Type := list (list byte).

(** A slice: block, offset, length, capacity (both counted from the offset). *)
Record slice : Type := mkSl { sl_blk : nat; sl_off : nat; sl_len : nat; sl_cap : nat }.

Definition block (h : heap) (b : nat) : list byte := nth b h [].
(** The bytes of a slice; [None] is nil. *)
Definition sread (h : heap) (s : slice) : list byte := firstn (sl_len s) (skipn (sl_off s) (block h (sl_blk s))).
Definition gread (h : heap) (o : option slice) : list byte :=
  match o with Some s => sread h s | None => [] end.
Definition glen (o : option slice) : nat := match o with Some s => sl_len s | None => O end.

(** What Go guarantees of any slice: it lies inside its block. *)
Definition svalid (h : heap) (s : slice) : Prop :=
  (sl_blk s < List.length h)%nat /\ (sl_len s <= sl_cap s)%nat /\
  (sl_off s + sl_cap s <= List.length (block h (sl_blk s)))%nat.
Definition gvalid (h : heap) (o : option slice) : Prop := match o with Some s => svalid h s | None => True end.

(** Store [bs] at index [i] of a block. *)
Definition poke (l : list byte) (i : nat) (bs : list byte) : list byte :=
  firstn i l ++ bs ++ skipn (i + List.length bs) l.
Definition hset (h : heap) (b : nat) (l : list byte) : heap := firstn b h ++ l :: skipn (b + 1) h.

(** [s[n:]] and [s[:n:n]] for [n <= len(s)]; slicing nil gives nil. *)
Definition gfrom (o : option slice) (n : nat) : option slice :=
  match o with
  | Some s => Some (mkSl (sl_blk s) (sl_off s + n) (sl_len s - n) (sl_cap s - n))
  | None => None
  end.
Definition gclip (o : option slice) (n : nat) : option slice :=
  match o with Some s => Some (mkSl (sl_blk s) (sl_off s) n n) | None => None end.

Section Heap.
(** The capacity the Go runtime chooses when append has to move a slice of this capacity to
    hold this many bytes: unspecified, at least what is needed. *)
Variable grow : nat -> nat -> nat.

Definition gcap (o : option slice) : nat := match o with Some s => sl_cap s | None => O end.

(** Go's [append(s, bs...)]: in place if the capacity suffices, else in a new block. *)
Definition gappend (h : heap) (o : option slice) (bs : list byte) : heap * option slice :=
  let need := (glen o + List.length bs)%nat in
  if Nat.leb need (gcap o) then
    match o with
    | Some s => (hset h (sl_blk s) (poke (block h (sl_blk s)) (sl_off s + sl_len s) bs),
                 Some (mkSl (sl_blk s) (sl_off s) need (sl_cap s)))
    | None => (h, None)
    end
  else
    let c := grow (gcap o) need in
    (h ++ [gread h o ++ bs ++ zeros (c - need)], Some (mkSl (List.length h) 0 need c)).

(** ** XdrState, lib.go:10-103 *)
Record hst : Type := mkHst { h_err : option xerr; h_reader : bool; h_buf : option slice }.

Definition HEncoding (xs : hst) : bool :=
  match h_err xs with None => negb (h_reader xs) | Some _ => false end.
Definition HDecoding (xs : hst) : bool :=
  match h_err xs with None => h_reader xs | Some _ => false end.
Definition hset_err (xs : hst) (e : xerr) : hst := mkHst (Some e) (h_reader xs) (h_buf xs).
Definition HSetError (xs : hst) (s : string) : hst := hset_err xs (EMsg s).
Definition hset_buf (xs : hst) (b : option slice) : hst := mkHst (h_err xs) (h_reader xs) b.

(** lib.go:41-56 *)
Definition HEncodingSetSize (xs : hst) (arraysz : Z) (len : Z) : hst * Z :=
  match h_err xs with
  | Some _ => (xs, arraysz)
  | None =>
      if h_reader xs then (xs, arraysz)
      else if len >? MaxUint32 then (HSetError xs "length too large", arraysz)
      else (xs, len mod 2 ^ 32)
  end.

(** lib.go:74-89; [v] is the contents of the slice argument: a local array, a fixed-size
    field of the caller's variable, or a byte slice being encoded. *)
Definition hxdrRW (h : heap) (xs : hst) (v : list byte) : heap * hst * list byte :=
  match h_err xs with
  | Some _ => (h, xs, v)
  | None =>
      if h_reader xs then
        let b := gread h (h_buf xs) in
        let n := Nat.min (List.length v) (List.length b) in
        let v' := firstn n b ++ skipn n v in
        let xs1 := hset_buf xs (gfrom (h_buf xs) n) in
        if Nat.ltb n (List.length v)
        then (h, hset_err xs1 (ENotEnoughGot (zlen v) (Z.of_nat n)), v')
        else (h, xs1, v')
      else
        let '(h', b') := gappend h (h_buf xs) v in (h', hset_buf xs b', v)
  end.

(** lib.go:91-103 *)
Definition hxdrR (xs : hst) (n : Z) : hst * option slice :=
  let have := Z.of_nat (glen (h_buf xs)) in
  let xs1 := if have <? n then hset_err xs (ENotEnoughHave n have) else xs in
  match h_err xs1 with
  | Some _ => (xs1, None)
  | None => (hset_buf xs1 (gfrom (h_buf xs1) (Z.to_nat n)), gclip (h_buf xs1) (Z.to_nat n))
  end.

(** ** lib.go:105-189: the fixed-size codecs, which differ only in conversions *)
Definition hxdr_fixed (h : heap) (xs : hst) (k : nat) (put : list byte) : heap * hst * list byte :=
  hxdrRW h xs (if HEncoding xs then put else zeros k).

Definition HXdrBool (h : heap) (xs : hst) (v : bool) : heap * hst * bool :=
  match h_err xs with
  | Some _ => (h, xs, v)
  | None =>
      let '(h1, xs1, buf1) := hxdr_fixed h xs 4 (if v then put_u32 1 else put_u32 0) in
      if HDecoding xs1
      then let r := get_u32 buf1 in (h1, xs1, if r =? 0 then false else true)
      else (h1, xs1, v)
  end.
Definition HXdrS32 (h : heap) (xs : hst) (v : Z) : heap * hst * Z :=
  match h_err xs with
  | Some _ => (h, xs, v)
  | None =>
      let '(h1, xs1, buf1) := hxdr_fixed h xs 4 (put_u32 (to_u32 v)) in
      if HDecoding xs1 then (h1, xs1, to_s32 (get_u32 buf1)) else (h1, xs1, v)
  end.
Definition HXdrU32 (h : heap) (xs : hst) (v : Z) : heap * hst * Z :=
  match h_err xs with
  | Some _ => (h, xs, v)
  | None =>
      let '(h1, xs1, buf1) := hxdr_fixed h xs 4 (put_u32 v) in
      if HDecoding xs1 then (h1, xs1, get_u32 buf1) else (h1, xs1, v)
  end.
Definition HXdrS64 (h : heap) (xs : hst) (v : Z) : heap * hst * Z :=
  match h_err xs with
  | Some _ => (h, xs, v)
  | None =>
      let '(h1, xs1, buf1) := hxdr_fixed h xs 8 (put_u64 (to_u64 v)) in
      if HDecoding xs1 then (h1, xs1, to_s64 (get_u64 buf1)) else (h1, xs1, v)
  end.
Definition HXdrU64 (h : heap) (xs : hst) (v : Z) : heap * hst * Z :=
  match h_err xs with
  | Some _ => (h, xs, v)
  | None =>
      let '(h1, xs1, buf1) := hxdr_fixed h xs 8 (put_u64 v) in
      if HDecoding xs1 then (h1, xs1, get_u64 buf1) else (h1, xs1, v)
  end.

(** lib.go:191-223 *)
Definition HXdrVarArray (h : heap) (xs : hst) (maxlen : Z) (v : option slice) : heap * hst * option slice :=
  match h_err xs with
  | Some _ => (h, xs, v)
  | None =>
      let finish (h : heap) (xs : hst) (v : option slice) :=
        if negb (Z.rem (Z.of_nat (glen v)) 4 =? 0)
        then (fst (hxdrRW h xs (pad_make (glen v))), v)
        else (h, xs, v) in
      if HEncoding xs then
        if (Z.of_nat (glen v) >? MaxUint32)
           || ((maxlen >=? 0) && (Z.of_nat (glen v) >? maxlen))
        then (h, HSetError xs "var array too large", v)
        else
          let szbuf := put_u32 (to_u32 (Z.of_nat (glen v))) in
          let '(h1, xs1, _) := hxdrRW h xs szbuf in
          let '(h2, xs2, _) := hxdrRW h1 xs1 (gread h1 v) in
          finish h2 xs2 v
      else
        let '(h1, xs1, szbuf) := hxdrRW h xs (zeros 4) in
        let sz := get_u32 szbuf in
        if ((maxlen >=? 0) && (sz >? maxlen)) || (sz <? 0)
        then (h1, HSetError xs1 "var array too large", v)
        else
          let '(xs2, v') := hxdrR xs1 sz in
          finish h1 xs2 v'
  end.

(** lib.go:225-236 *)
Definition HXdrArray (h : heap) (xs : hst) (v : list byte) : heap * hst * list byte :=
  match h_err xs with
  | Some _ => (h, xs, v)
  | None =>
      let '(h1, xs1, v1) := hxdrRW h xs v in
      if negb (Z.rem (zlen v) 4 =? 0)
      then (fst (hxdrRW h1 xs1 (pad_make (List.length v))), v1)
      else (h1, xs1, v1)
  end.

(** lib.go:238-271; [string(buf)] copies the bytes. *)
Definition HXdrString (h : heap) (xs : hst) (maxlen : Z) (v : list byte) : heap * hst * list byte :=
  match h_err xs with
  | Some _ => (h, xs, v)
  | None =>
      if HEncoding xs then
        if (zlen v >? MaxUint32) || ((maxlen >=? 0) && (zlen v >? maxlen))
        then (h, HSetError xs "string too large", v)
        else
          let szbuf := put_u32 (to_u32 (zlen v)) in
          let '(h1, xs1, _) := hxdrRW h xs szbuf in
          let '(h2, xs2, _) := hxdrRW h1 xs1 v in
          (fst (hxdrRW h2 xs2 (pad_make (List.length v))), v)
      else
        let '(h1, xs1, szbuf) := hxdrRW h xs (zeros 4) in
        let sz := get_u32 szbuf in
        if ((maxlen >=? 0) && (sz >? maxlen)) || (sz <? 0)
        then (h1, HSetError xs1 "string too large", v)
        else
          let '(xs2, b) := hxdrR xs1 sz in
          let v' := gread h1 b in
          (fst (hxdrRW h1 xs2 (pad_make (List.length v'))), v')
  end.

(** ** Go values with byte slices in memory.  Other slices and pointers are never shared by
    this library (decoding always allocates them), so they stay trees. *)
Inductive hval : Type :=
| HInt (z : Z)
| HBool (b : bool)
| HArr (bs : list byte)
| HBytes (o : option slice)
| HStr (bs : list byte)
| HSlice (o : option (list hval))
| HPtr (o : option hval)
| HStruct (l : list (string * hval)).

(** The value as it reads in memory [h]. *)
Fixpoint deref (h : heap) (v : hval) : val :=
  match v with
  | HInt z => VInt z
  | HBool b => VBool b
  | HArr bs => VArr bs
  | HBytes None => VBytes None
  | HBytes (Some s) => VBytes (Some (sread h s))
  | HStr bs => VStr bs
  | HSlice o => VSlice (option_map (map (deref h)) o)
  | HPtr o => VPtr (option_map (deref h) o)
  | HStruct l => VStruct (map (fun fx => (fst fx, deref h (snd fx))) l)
  end.

(** The byte slices in a value. *)
Fixpoint hslices (v : hval) : list slice :=
  match v with
  | HBytes (Some s) => [s]
  | HSlice (Some l) => flat_map hslices l
  | HPtr (Some x) => hslices x
  | HStruct l => flat_map (fun fx => hslices (snd fx)) l
  | _ => []
  end.

(** A value without byte slices, e.g. a zero value. *)
Fixpoint hlift (v : val) : hval :=
  match v with
  | VInt z => HInt z
  | VBool b => HBool b
  | VArr bs => HArr bs
  | VBytes _ => HBytes None
  | VStr bs => HStr bs
  | VSlice o => HSlice (option_map (map hlift) o)
  | VPtr o => HPtr (option_map hlift o)
  | VStruct l => HStruct (map (fun fx => (fst fx, hlift (snd fx))) l)
  end.
Definition hzero (n : nat) (E : env) (t : cty) : option hval := option_map hlift (zero n E t).

Definition helems (o : option (list hval)) : list hval := match o with Some l => l | None => [] end.
Definition hdisc (v : hval) : option Z :=
  match v with HInt z => Some z | HBool b => Some (if b then 1 else 0) | _ => None end.
Definition hfield_disc (v : hval) (f : string) : option Z :=
  match v with
  | HStruct l => match lookup f l with Some x => hdisc x | None => None end
  | _ => None
  end.

(** ** The generated methods: Interp.v, same citations *)
Definition hcode : Type := heap -> hst -> hval -> outcome (heap * hst * hval).

Definition hon_field (X : hcode) (h : heap) (s : hst) (v : hval) (f : string) : outcome (heap * hst * hval) :=
  match v with
  | HStruct l =>
      match lookup f l with
      | Some x => 'r <- X h s x ;; match r with (h', s', x') => Ret (h', s', HStruct (update f x' l)) end
      | None => Panic
      end
  | _ => Panic
  end.

Fixpoint hxdr_fields (X : cty -> hcode) (fs : list (string * cty)) (h : heap) (s : hst) (v : hval)
  : outcome (heap * hst * hval) :=
  match fs with
  | [] => Ret (h, s, v)
  | (f, t) :: fs =>
      'r <- hon_field (X t) h s v f ;; match r with (h1, s1, v1) => hxdr_fields X fs h1 s1 v1 end
  end.

Fixpoint hxdr_elems (X : hcode) (k : nat) (l : list hval) (h : heap) (s : hst)
  : outcome (heap * hst * list hval) :=
  match k with
  | O => Ret (h, s, l)
  | S k =>
      match l with
      | [] => Panic
      | x :: l =>
          'r <- X h s x ;;
          match r with (h1, s1, x1) =>
            'r2 <- hxdr_elems X k l h1 s1 ;;
            match r2 with (h2, s2, l2) => Ret (h2, s2, x1 :: l2) end
          end
      end
  end.

Fixpoint hxdr (n : nat) (E : env) (t : cty) (h : heap) (s : hst) (v : hval)
  : outcome (heap * hst * hval) :=
  match n with
  | O => NoFuel
  | S n =>
      match t, v with
      | CU32, HInt z => let '(h', s', z') := HXdrU32 h s z in Ret (h', s', HInt z')
      | CS32, HInt z => let '(h', s', z') := HXdrS32 h s z in Ret (h', s', HInt z')
      | CU64, HInt z => let '(h', s', z') := HXdrU64 h s z in Ret (h', s', HInt z')
      | CS64, HInt z => let '(h', s', z') := HXdrS64 h s z in Ret (h', s', HInt z')
      | CBool, HBool b => let '(h', s', b') := HXdrBool h s b in Ret (h', s', HBool b')
      | COpaque _, HArr bs => let '(h', s', bs') := HXdrArray h s bs in Ret (h', s', HArr bs')
      | CVarOpaque m, HBytes o =>
          let '(h', s', o') := HXdrVarArray h s (maxlen_of m) o in Ret (h', s', HBytes o')
      | CString m, HStr bs =>
          let '(h', s', bs') := HXdrString h s (maxlen_of m) bs in Ret (h', s', HStr bs')
      | CVarArray m te, HSlice o =>
          let '(s1, sz0) := HEncodingSetSize s 0 (zlen (helems o)) in
          let '(h2, s2, sz) := HXdrU32 h s1 sz0 in
          if match m with Some k => sz >? k | None => false end
          then Ret (h2, HSetError s2 "array too large", HSlice o)
          else if HDecoding s2 then
            match hzero n E te with
            | None => NoFuel
            | Some z =>
                'r <- hxdr_elems (hxdr n E te) (Z.to_nat sz) (repeat z (Z.to_nat sz)) h2 s2 ;;
                match r with (h3, s3, l3) => Ret (h3, s3, HSlice (Some l3)) end
            end
          else
            'r <- hxdr_elems (hxdr n E te) (Z.to_nat sz) (helems o) h2 s2 ;;
            match r with (h3, s3, l3) =>
              Ret (h3, s3, HSlice (match o with Some _ => Some l3 | None => None end)) end
      | CPtr te, HPtr o =>
          'r <-
            (if HEncoding s then
               let opted := match o with Some _ => true | None => false end in
               let '(h1, s1, opted) := HXdrBool h s opted in
               if opted then
                 match o with
                 | Some x => 'r <- hxdr n E te h1 s1 x ;; match r with (h2, s2, x2) => Ret (h2, s2, Some x2) end
                 | None => Panic
                 end
               else Ret (h1, s1, o)
             else Ret (h, s, o)) ;;
          match r with (h1, s1, o1) =>
          if HDecoding s1 then
            let '(h2, s2, opted) := HXdrBool h1 s1 false in
            if opted then
              match hzero n E te with
              | None => NoFuel
              | Some z => 'r <- hxdr n E te h2 s2 z ;; match r with (h3, s3, x3) => Ret (h3, s3, HPtr (Some x3)) end
              end
            else Ret (h2, s2, HPtr o1)
          else Ret (h1, s1, HPtr o1)
          end
      | CStruct fs, HStruct _ => hxdr_fields (hxdr n E) fs h s v
      | CUnion sw st arms def, HStruct _ =>
          'r <- hon_field (hxdr n E st) h s v sw ;;
          match r with (h1, s1, v1) =>
          match hfield_disc v1 sw with
          | None => Panic
          | Some d =>
              match pick_arm d arms def with
              | Some (Some (f, t)) => hon_field (hxdr n E t) h1 s1 v1 f
              | _ => Ret (h1, s1, v1)
              end
          end
          end
      | CIdent x, _ =>
          match lookup x E with
          | Some t => hxdr n E t h s v
          | None => Panic
          end
      | _, _ => Panic
      end
  end.

End Heap.
Arguments mkHst : clear implicits.
