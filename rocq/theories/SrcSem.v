(** What the Go statements of SrcAst.v do: a definitional interpreter for the part of Go used
    by /repo/xdr/{lib,helper,types}.go and /repo/rfc1057/{client,server}.go, on the memory of
    Heap.v (blocks of bytes) extended with cells (variables that pointers point to).

    The static types of a program that compiles are used only where they matter at run time:
    numbers carry their type, so arithmetic wraps at its width; nil and constants take the
    type of where they are stored.  A program that would not compile panics here.
    Simplifications: [:=] always declares; [goto] only forwards; strings print no escapes;
    the address of a local variable is taken only by calling a method on it. *)
From Verif Require Import GoLex SrcAst.
From Verif Require Import Bytes XdrLib Types Interp Heap.
Open Scope string_scope.
Open Scope Z_scope.
Open Scope list_scope.

(** ** Values *)
Inductive gv : Type :=
| WNil                                            (* nil of interface or pointer type, or of no type yet *)
| WBool (b : bool)
| WNum (t : string) (z : Z)                       (* of a numeric type *)
| WUn (z : Z)                                     (* an integer constant without type *)
| WStr (s : list byte)
| WSl (o : option slice)                          (* []byte *)
| WArr (b n : nat)                                (* a variable of type [n]byte: its block *)
| WPtr (p : nat)                                  (* pointer to a cell *)
| WRef (p : nat)                                  (* a local variable that lives in a cell *)
| WStruct (t : string) (fs : list (string * gv))
| WErr (f : list byte) (args : list gv)           (* errors.New, fmt.Errorf *)
| WMap (p : nat)                                  (* a map, kept in a cell *)
| WEnts (l : list (Z * gv))                       (* the entries of a map *)
| WObj (i : nat)                                  (* a value of a type defined elsewhere, or a function *)
| WTup (vs : list gv)                             (* several results; the elements of a slice *)
| WTyp (t : gx).                                  (* a type used as an argument *)

(** ** Numbers *)
Definition num_types : list string := ["int"; "int32"; "int64"; "uint32"; "uint64"; "byte"].
(** Conversion to a numeric type, and the result of arithmetic in it; int has 64 bits. *)
Definition wrap (t : string) (z : Z) : Z :=
  if String.eqb t "uint32" then to_u32 z else if String.eqb t "int32" then to_s32 z
  else if String.eqb t "uint64" then to_u64 z else if String.eqb t "byte" then z mod 256
  else to_s64 z.

Definition digit (c : ascii) : Z :=
  if GoLex.between "0"%char "9"%char c then Z.of_N (acode c - 48) else if GoLex.between "a"%char "f"%char c then Z.of_N (acode c - 87) else Z.of_N (acode c - 55).
Fixpoint digits (base acc : Z) (s : string) : Z :=
  match s with EmptyString => acc | String c r => digits base (acc * base + digit c) r end.
Definition int_lit (s : string) : Z :=
  match s with String "0" (String "x" r) => digits 16 0 r | _ => digits 10 0 s end.

Fixpoint str_bytes (s : string) : list byte :=
  match s with EmptyString => [] | String c r => byte_of_ascii c :: str_bytes r end.
(** A string literal without its quotes; \n is the only escape in use. *)
Fixpoint unescape (s : string) : list byte :=
  match s with
  | String "\" (String "n" r) => x0a :: unescape r
  | String _ EmptyString => []
  | String c r => byte_of_ascii c :: unescape r
  | EmptyString => []
  end.
Definition str_lit (s : string) : list byte := match s with String _ r => unescape r | EmptyString => [] end.

(** The common type of the operands, [None] for two untyped constants. *)
Definition operands (a b : gv) : option (option string * Z * Z) :=
  match a, b with
  | WNum t x, WNum t' y => if String.eqb t t' then Some (Some t, x, y) else None
  | WNum t x, WUn y | WUn x, WNum t y => Some (Some t, x, y)
  | WUn x, WUn y => Some (None, x, y)
  | _, _ => None
  end.
Definition number (t : option string) (z : Z) : gv := match t with Some t => WNum t (wrap t z) | None => WUn z end.
Definition arith (o : string) (t : option string) (x y : Z) : outcome gv :=
  if String.eqb o "+" then Ret (number t (x + y))
  else if String.eqb o "-" then Ret (number t (x - y))
  else if String.eqb o "%" then if y =? 0 then Panic else Ret (number t (Z.rem x y))
  else if String.eqb o "&" then Ret (number t (Z.land x y))
  else if String.eqb o "|" then Ret (number t (Z.lor x y))
  else if String.eqb o "<<" then if y <? 0 then Panic else Ret (number t (Z.shiftl x y))
  else if String.eqb o "==" then Ret (WBool (x =? y))
  else if String.eqb o "!=" then Ret (WBool (negb (x =? y)))
  else if String.eqb o "<" then Ret (WBool (x <? y))
  else if String.eqb o "<=" then Ret (WBool (x <=? y))
  else if String.eqb o ">" then Ret (WBool (x >? y))
  else if String.eqb o ">=" then Ret (WBool (x >=? y))
  else Panic.
(** Comparison with nil, and of booleans. *)
Definition is_nil (v : gv) : option bool :=
  match v with WNil => Some true | WErr _ _ | WObj _ | WPtr _ | WTup _ => Some false | WSl o => Some (match o with None => true | Some _ => false end) | _ => None end.
Definition same (a b : gv) : option bool :=
  match a, b with
  | WBool x, WBool y => Some (Bool.eqb x y)
  | WNil, v | v, WNil => is_nil v
  | _, _ => None
  end.
Definition binop (o : string) (a b : gv) : outcome gv :=
  match operands a b with
  | Some (t, x, y) => arith o t x y
  | None =>
      match same a b with
      | Some r => if String.eqb o "==" then Ret (WBool r) else if String.eqb o "!=" then Ret (WBool (negb r)) else Panic
      | None => Panic
      end
  end.
Definition unop (o : string) (a : gv) : outcome gv :=
  match a with
  | WBool b => if String.eqb o "!" then Ret (WBool (negb b)) else Panic
  | _ => Panic
  end.

(** A value stored where a value of type [t] is expected; where [old] was. *)
Definition coerce (t : gx) (v : gv) : gv :=
  match v, t with
  | WNil, TSlice _ => WSl None
  | WUn z, EId t => if GoLex.mem t num_types then WNum t z else WNum "int" z
  | _, _ => v
  end.
Definition like (old v : gv) : gv :=
  match v, old with
  | WNil, WSl _ => WSl None
  | WUn z, WNum t _ => WNum t z
  | _, _ => v
  end.
Definition default (v : gv) : gv := match v with WUn z => WNum "int" z | _ => v end.

(** ** Fields and variables *)
Fixpoint assoc {A} (x : string) (l : list (string * A)) : option A :=
  match l with [] => None | (y, a) :: l => if String.eqb x y then Some a else assoc x l end.
Fixpoint assoc_set {A} (x : string) (a : A) (l : list (string * A)) : option (list (string * A)) :=
  match l with
  | [] => None
  | (y, b) :: l => if String.eqb x y then Some ((y, a) :: l) else option_map (cons (y, b)) (assoc_set x a l)
  end.
Definition genv : Type := list (string * gv).

Fixpoint set_path (v : gv) (path : list string) (new : gv) : option gv :=
  match path with
  | [] => Some (like v new)
  | f :: path =>
      match v with
      | WStruct t fs =>
          match assoc f fs with
          | Some w => match set_path w path new with
                      | Some w' => option_map (WStruct t) (assoc_set f w' fs)
                      | None => None
                      end
          | None => None
          end
      | _ => None
      end
  end.

(** [x.f.g] as the variable [x] and the fields. *)
Fixpoint lpath (e : gx) : option (string * list string) :=
  match e with
  | EId x => Some (x, [])
  | ESel e f => match lpath e with Some (x, fs) => Some (x, fs ++ [f]) | None => None end
  | _ => None
  end.

Definition byte_type (t : gx) : bool := match t with EId t => String.eqb t "byte" | _ => false end.

(** ** Memory *)
Record mem (W : Type) : Type := mkMem { m_heap : heap; m_cells : list gv; m_world : W }.
Arguments mkMem {W} m_heap m_cells m_world.
Arguments m_heap {W} m. Arguments m_cells {W} m. Arguments m_world {W} m.

Section Sem.
Context {W : Type}.                                (* what the rest of the world is *)
Variable grow : nat -> nat -> nat.                 (* append's choice of capacity *)
Variable pkgs : list string.                       (* imported packages *)
Variable consts : string -> option gv.             (* package-level constants *)
Variable structs : string -> option gv.            (* zero values of struct types *)

Notation mem := (mem W).
Definition with_heap (m : mem) (h : heap) : mem := mkMem h (m_cells m) (m_world m).
Definition with_cells (m : mem) (c : list gv) : mem := mkMem (m_heap m) c (m_world m).
Definition cell (m : mem) (p : nat) : outcome gv := match nth_error (m_cells m) p with Some v => Ret v | None => Panic end.
Fixpoint set_nth {A} (l : list A) (n : nat) (a : A) : list A :=
  match l, n with
  | [], _ => []
  | _ :: l, O => a :: l
  | b :: l, S n => b :: set_nth l n a
  end.
Definition set_cell (m : mem) (p : nat) (v : gv) : mem := with_cells m (set_nth (m_cells m) p v).
Definition new_cell (m : mem) (v : gv) : mem * nat := (with_cells m (m_cells m ++ [v]), List.length (m_cells m)).
(** A fresh block with the contents [bs]. *)
Definition new_block (m : mem) (bs : list byte) : mem * slice :=
  (with_heap m (m_heap m ++ [bs]), mkSl (List.length (m_heap m)) 0 (List.length bs) (List.length bs)).
(** Stores [bs] at the start of a slice that is long enough. *)
Definition hstore (h : heap) (o : option slice) (bs : list byte) : heap :=
  match o with
  | Some s => hset h (sl_blk s) (poke (block h (sl_blk s)) (sl_off s) bs)
  | None => h
  end.
Definition store (m : mem) (o : option slice) (bs : list byte) : mem := with_heap m (hstore (m_heap m) o bs).

(** ** Builtin functions and those of other packages that work on bytes *)
(** [e[lo:hi:mx]] on a byte slice: bounds are checked against the capacity. *)
Definition subslice (o : option slice) (lo hi mx : option Z) : outcome (option slice) :=
  let l := match lo with Some z => z | None => 0 end in
  let h := match hi with Some z => z | None => Z.of_nat (glen o) end in
  let c := match mx with Some z => z | None => Z.of_nat (gcap o) end in
  if (0 <=? l) && (l <=? h) && (h <=? c) && (c <=? Z.of_nat (gcap o)) then
    Ret (match o with
         | Some s => Some (mkSl (sl_blk s) (sl_off s + Z.to_nat l) (Z.to_nat (h - l)) (Z.to_nat (c - l)))
         | None => None
         end)
  else Panic.

Definition put (k : nat) (bytes : Z -> list byte) (m : mem) (args : list gv) : outcome (mem * gv) :=
  match args with
  | [WSl o; (WNum _ z | WUn z)] => if Nat.leb k (glen o) then Ret (store m o (bytes z), WTup []) else Panic
  | _ => Panic
  end.
Definition get (k : nat) (t : string) (value : list byte -> Z) (m : mem) (args : list gv) : outcome (mem * gv) :=
  match args with
  | [WSl o] => if Nat.leb k (glen o) then Ret (m, WNum t (value (firstn k (gread (m_heap m) o)))) else Panic
  | _ => Panic
  end.

(** [Some] for the functions defined here. *)
Definition builtin (f : string) (m : mem) (args : list gv) : option (outcome (mem * gv)) :=
  if String.eqb f "len" then Some
    match args with
    | [WSl o] => Ret (m, WNum "int" (Z.of_nat (glen o)))
    | [WStr s] => Ret (m, WNum "int" (zlen s))
    | _ => Panic
    end
  else if String.eqb f "cap" then Some
    match args with [WSl o] => Ret (m, WNum "int" (Z.of_nat (gcap o))) | _ => Panic end
  else if String.eqb f "copy" then Some
    match args with
    | [WSl d; WSl s] =>
        let n := Nat.min (glen d) (glen s) in
        Ret (store m d (firstn n (gread (m_heap m) s)), WNum "int" (Z.of_nat n))
    | _ => Panic
    end
  else if String.eqb f "append" then Some                  (* append(s, t...) *)
    match args with
    | [WSl d; WSl s] => let r := gappend grow (m_heap m) d (gread (m_heap m) s) in Ret (with_heap m (fst r), WSl (snd r))
    | _ => Panic
    end
  else if String.eqb f "make" then Some
    match args with
    | [WTyp (TSlice _); (WNum _ z | WUn z)] =>
        if z <? 0 then Panic else let '(m, s) := new_block m (zeros (Z.to_nat z)) in Ret (m, WSl (Some s))
    | [WTyp (TMap _ _)] => let '(m, p) := new_cell m (WEnts []) in Ret (m, WMap p)
    | _ => Panic
    end
  else if String.eqb f "string" then Some
    match args with [WSl o] => Ret (m, WStr (gread (m_heap m) o)) | _ => Panic end
  else if GoLex.mem f num_types then Some
    match args with [(WNum _ z | WUn z)] => Ret (m, WNum f (wrap f z)) | _ => Panic end
  else if String.eqb f "binary.BigEndian.PutUint32" then Some (put 4 put_u32 m args)
  else if String.eqb f "binary.BigEndian.PutUint64" then Some (put 8 put_u64 m args)
  else if String.eqb f "binary.BigEndian.Uint32" then Some (get 4 "uint32" get_u32 m args)
  else if String.eqb f "binary.BigEndian.Uint64" then Some (get 8 "uint64" get_u64 m args)
  else if String.eqb f "errors.New" then Some match args with [WStr s] => Ret (m, WErr s []) | _ => Panic end
  else if String.eqb f "fmt.Errorf" then Some match args with WStr s :: vs => Ret (m, WErr s vs) | _ => Panic end
  else None.

(** Constants of other packages. *)
Definition pkg_const (x : string) : option gv := if String.eqb x "math.MaxUint32" then Some (WUn 4294967295) else None.
Definition universe (x : string) : option gv :=
  if String.eqb x "nil" then Some WNil else if String.eqb x "true" then Some (WBool true)
  else if String.eqb x "false" then Some (WBool false) else consts x.

(** [binary.BigEndian.PutUint32] as a string, if the leftmost identifier is a package. *)
Fixpoint pkg_path (en : genv) (e : gx) : option string :=
  match e with
  | EId x => if GoLex.mem x pkgs then match assoc x en with Some _ => None | None => Some x end else None
  | ESel e f => match pkg_path en e with Some p => Some (p ++ "." ++ f)%string | None => None end
  | _ => None
  end.

(** The name of method [f] of the dynamic type of [v]. *)
Definition method (m : mem) (v : gv) (f : string) : outcome string :=
  match v with
  | WPtr p => match nth_error (m_cells m) p with Some (WStruct t _) => Ret (t ++ "." ++ f)%string | _ => Panic end
  | WObj _ => Ret ("." ++ f)%string
  | _ => Panic
  end.
Definition one (vs : list gv) : gv := match vs with [v] => v | _ => WTup vs end.
Definition many (v : gv) : list gv := match v with WTup vs => vs | v => [v] end.
Definition key (v : gv) : option Z := match v with WNum _ z | WUn z => Some z | _ => None end.
Definition zassoc (k : Z) (l : list (Z * gv)) : option gv :=
  match find (fun e => fst e =? k) l with Some (_, v) => Some v | None => None end.

(** ** Expressions.  [call f args] runs the function or method named [f]. *)
Section Calls.
Variable call : string -> list gv -> mem -> outcome (mem * list gv).
Definition invoke (f : string) (m : mem) (args : list gv) : outcome (mem * gv) :=
  match builtin f m args with
  | Some r => r
  | None => '(m, vs) <- call f args m ;; Ret (m, one vs)
  end.

Definition local (en : genv) (x : string) (m : mem) : option (outcome gv) :=
  match assoc x en with
  | Some (WRef p) => Some (cell m p)
  | Some v => Some (Ret v)
  | None => None
  end.
Definition field (m : mem) (v : gv) (f : string) : outcome gv :=
  let of v := match v with WStruct _ fs => match assoc f fs with Some w => Ret w | None => Panic end | _ => Panic end in
  match v with
  | WPtr p => 'w <- cell m p ;; of w
  | _ => of v
  end.

Fixpoint eval (e : gx) (m : mem) (en : genv) {struct e} : outcome (mem * gv) :=
  let evals := fix evals (l : list gx) (m : mem) {struct l} : outcome (mem * list gv) :=
    match l with
    | [] => Ret (m, [])
    | a :: l => '(m, v) <- eval a m en ;; '(m, vs) <- evals l m ;; Ret (m, v :: vs)
    end in
  let evalo (o : option gx) (m : mem) : outcome (mem * option Z) :=
    match o with
    | None => Ret (m, None)
    | Some e => '(m, v) <- eval e m en ;; match key v with Some z => Ret (m, Some z) | None => Panic end
    end in
  match e with
  | EId x =>
      match local en x m with
      | Some r => 'v <- r ;; Ret (m, v)
      | None => match universe x with Some v => Ret (m, v) | None => Panic end
      end
  | EInt s => Ret (m, WUn (int_lit s))
  | EStr s => Ret (m, WStr (str_lit s))
  | EParen e => eval e m en
  | EUn o a =>
      '(m, v) <- eval a m en ;;
      if String.eqb o "*" then match v with WPtr p => 'w <- cell m p ;; Ret (m, w) | _ => Panic end
      else if String.eqb o "&" then let '(m, p) := new_cell m v in Ret (m, WPtr p)          (* &T{...} *)
      else 'w <- unop o v ;; Ret (m, w)
  | EBin o a b =>
      '(m, v) <- eval a m en ;;
      if String.eqb o "&&" then
        match v with WBool true => eval b m en | WBool false => Ret (m, v) | _ => Panic end
      else if String.eqb o "||" then
        match v with WBool false => eval b m en | WBool true => Ret (m, v) | _ => Panic end
      else '(m, w) <- eval b m en ;; 'r <- binop o v w ;; Ret (m, r)
  | ESel a f =>
      match pkg_path en e with
      | Some p => match pkg_const p with Some v => Ret (m, v) | None => match consts p with Some v => Ret (m, v) | None => Panic end end
      | None => '(m, v) <- eval a m en ;; 'w <- field m v f ;; Ret (m, w)
      end
  | EIdx a i =>                                             (* maps: the value and whether it is there *)
      '(m, v) <- eval a m en ;; '(m, k) <- eval i m en ;;
      match hd WNil (many v), key k with
      | WMap p, Some k =>
          'c <- cell m p ;;
          match c with
          | WEnts l => Ret (m, match zassoc k l with Some w => WTup [w; WBool true] | None => WTup [WNil; WBool false] end)
          | _ => Panic
          end
      | _, _ => Panic
      end
  | ESub a lo hi mx =>
      '(m, v) <- eval a m en ;; '(m, lo) <- evalo lo m ;; '(m, hi) <- evalo hi m ;; '(m, mx) <- evalo mx m ;;
      match v with
      | WSl o => 'r <- subslice o lo hi mx ;; Ret (m, WSl r)
      | WArr b n => 'r <- subslice (Some (mkSl b 0 n n)) lo hi mx ;; Ret (m, WSl r)
      | _ => Panic
      end
  | ECall f args dots =>
      match f with
      | EId x =>
          match assoc x en with
          | Some v => '(m, vs) <- evals args m ;; invoke "()" m (v :: vs)                   (* a function value *)
          | None => '(m, vs) <- evals args m ;; invoke x m vs
          end
      | ESel r x =>
          match pkg_path en f with
          | Some p => '(m, vs) <- evals args m ;; invoke p m vs
          | None =>
              '(m, v) <- match r with
                         | EId y => match assoc y en with
                                    | Some (WRef p) => Ret (m, WPtr p)
                                    | Some v => Ret (m, v)
                                    | None => match universe y with Some v => Ret (m, v) | None => Panic end
                                    end
                         | _ => eval r m en
                         end ;;
              '(m, vs) <- evals args m ;; 'p <- method m v x ;; invoke p m (v :: vs)
          end
      | EParen (EUn _ _) => '(m, vs) <- evals args m ;; match vs with [v] => Ret (m, v) | _ => Panic end   (* ( *T)(v) *)
      | TSlice _ =>                                                                      (* []byte(s) *)
          '(m, vs) <- evals args m ;;
          match vs with [WStr s] => let '(m, sl) := new_block m s in Ret (m, WSl (Some sl)) | _ => Panic end
      | _ => Panic
      end
  | EAssert a t => eval a m en
  | EComp t fs =>
      match t with
      | EId t =>
          match structs t with
          | Some z =>
              (fix fill (l : list (string * gx)) (z : gv) (m : mem) {struct l} : outcome (mem * gv) :=
                 match l with
                 | [] => Ret (m, z)
                 | (f, a) :: l =>
                     '(m, v) <- eval a m en ;;
                     match set_path z [f] v with Some z => fill l z m | None => Panic end
                 end) fs z m
          | None => Panic
          end
      | _ => Panic
      end
  | TSlice _ | TArr _ _ | TMap _ _ | TStruct _ | TStruct1 _ _ | TIface _ | TFunc _ _ _ => Ret (m, WTyp e)
  end.

Fixpoint evals (l : list gx) (m : mem) (en : genv) : outcome (mem * list gv) :=
  match l with
  | [] => Ret (m, [])
  | a :: l => '(m, v) <- eval a m en ;; '(m, vs) <- evals l m en ;; Ret (m, v :: vs)
  end.

(** ** Statements *)
Inductive ctl : Type := CNext | CRet (vs : list gv) | CGoto (l : string).

(** [l = v] *)
Definition assign (l : gx) (v : gv) (m : mem) (en : genv) : outcome (mem * genv) :=
  match l with
  | EUn _ e =>
      '(m, w) <- eval e m en ;;
      match w with WPtr p => 'old <- cell m p ;; Ret (set_cell m p (like old v), en) | _ => Panic end
  | EIdx a i =>
      '(m, w) <- eval a m en ;; '(m, k) <- eval i m en ;;
      match hd WNil (many w), key k with
      | WMap p, Some k =>
          'c <- cell m p ;;
          match c with WEnts l => Ret (set_cell m p (WEnts ((k, v) :: l)), en) | _ => Panic end
      | _, _ => Panic
      end
  | _ =>
      match lpath l with
      | Some (x, path) =>
          if String.eqb x "_" then Ret (m, en) else
          match assoc x en with
          | Some (WRef p) | Some (WPtr p) =>
              match assoc x en, path with
              | Some (WPtr _), [] =>
                  match assoc_set x v en with Some en => Ret (m, en) | None => Panic end
              | _, _ =>
                  'old <- cell m p ;;
                  match set_path old path v with Some new => Ret (set_cell m p new, en) | None => Panic end
              end
          | Some old =>
              match path, assoc_set x (like old v) en with
              | [], Some en => Ret (m, en)
              | _, _ => Panic
              end
          | None => Panic
          end
      | None => Panic
      end
  end.
Fixpoint assigns (ls : list gx) (vs : list gv) (m : mem) (en : genv) : outcome (mem * genv) :=
  match ls, vs with
  | [], [] => Ret (m, en)
  | l :: ls, v :: vs => '(m, en) <- assign l v m en ;; assigns ls vs m en
  | _, _ => Panic
  end.

(** The zero value of a declared variable. *)
Definition zero_var (t : gx) (m : mem) : outcome (mem * gv) :=
  match t with
  | TArr (EInt n) b =>
      if byte_type b then let '(m, s) := new_block m (zeros (Z.to_nat (int_lit n))) in Ret (m, WArr (sl_blk s) (sl_len s)) else Panic
  | TSlice b => Ret (m, WSl None)
  | EId x =>
      if GoLex.mem x num_types then Ret (m, WNum x 0)
      else match structs x with
           | Some z => let '(m, p) := new_cell m z in Ret (m, WRef p)
           | None => Ret (m, WNil)
           end
  | _ => Ret (m, WNil)
  end.

Fixpoint declare (xs : list string) (vs : list gv) (en : genv) : outcome genv :=
  match xs, vs with
  | [], [] => Ret en
  | x :: xs, v :: vs => declare xs vs (if String.eqb x "_" then en else (x, default v) :: en)
  | _, _ => Panic
  end.

(** Variables declared inside a block end with it. *)
Definition leave (en en' : genv) : genv := skipn (List.length en' - List.length en) en'.

Fixpoint exec (n : nat) (s : gs) (m : mem) (en : genv) {struct s} : outcome (mem * genv * ctl) :=
  let go := fix go (skip : option string) (b : list gs) (m : mem) (en : genv) {struct b} : outcome (mem * genv * ctl) :=
    match b with
    | [] => Ret (m, en, match skip with Some l => CGoto l | None => CNext end)
    | s :: b =>
        match skip with
        | Some l => match s with SLabel l' => if String.eqb l l' then go None b m en else go skip b m en | _ => go skip b m en end
        | None =>
            '(m, en, c) <- exec n s m en ;;
            match c with CNext => go None b m en | CGoto l => go (Some l) b m en | CRet vs => Ret (m, en, c) end
        end
    end in
  let blk b m en := '(m, en', c) <- go None b m en ;; Ret (m, leave en en', c) in
  match s with
  | SExpr e => '(m, _) <- eval e m en ;; Ret (m, en, CNext)
  | SVar x t => '(m, v) <- zero_var t m ;; Ret (m, (x, v) :: en, CNext)
  | SDef xs e =>
      '(m, v) <- eval e m en ;; 'en <- declare xs (many v) en ;; Ret (m, en, CNext)
  | SSet ls e => '(m, v) <- eval e m en ;; '(m, en) <- assigns ls (many v) m en ;; Ret (m, en, CNext)
  | SInc e => '(m, v) <- eval e m en ;; 'w <- binop "+" v (WUn 1) ;; '(m, en) <- assign e w m en ;; Ret (m, en, CNext)
  | SIf c a b =>
      '(m, v) <- eval c m en ;;
      match v with
      | WBool true => blk a m en
      | WBool false => match b with Some b => blk b m en | None => Ret (m, en, CNext) end
      | _ => Panic
      end
  | SFor b =>
      (fix loop (n : nat) (m : mem) (en : genv) {struct n} : outcome (mem * genv * ctl) :=
         match n with
         | O => NoFuel
         | S n => '(m, en, c) <- blk b m en ;; match c with CNext => loop n m en | _ => Ret (m, en, c) end
         end) n m en
  | SRange k v e b =>
      '(m, w) <- eval e m en ;;
      (fix loop (l : list gv) (m : mem) (en : genv) {struct l} : outcome (mem * genv * ctl) :=
         match l with
         | [] => Ret (m, en, CNext)
         | w :: l =>
             '(m, en', c) <- go None b m ((v, w) :: en) ;;
             match c with CNext => loop l m (leave en en') | _ => Ret (m, leave en en', c) end
         end) (many w) m en
  | SRet es => '(m, vs) <- evals es m en ;; Ret (m, en, CRet (match vs with [v] => many v | _ => vs end))
  | SGo e =>                                                (* go x.f(...): function "go" is told the method and its arguments *)
      match e with
      | ECall (ESel r f) args _ =>
          '(m, v) <- eval r m en ;; '(m, vs) <- evals args m en ;; 'p <- method m v f ;;
          '(m, _) <- call "go" (WStr (str_bytes p) :: v :: vs) m ;; Ret (m, en, CNext)
      | _ => Panic
      end
  | SDefer e => Panic                                       (* see [deferred] *)
  | SGoto l => Ret (m, en, CGoto l)
  | SLabel _ => Ret (m, en, CNext)
  end.
(** [defer f(args)], at the top level of a function: the arguments are evaluated now, the call is made when the function returns
    (a panic ends everything). *)
Definition deferred (s : gs) : option (string * list gx) :=
  match s with SDefer (ECall (EId f) args _) => Some (f, args) | _ => None end.
Fixpoint exec_body (n : nat) (skip : option string) (b : list gs) (m : mem) (en : genv) {struct b} : outcome (mem * genv * ctl) :=
  match b with
  | [] => Ret (m, en, match skip with Some l => CGoto l | None => CNext end)
  | s :: b =>
      match skip with
      | Some l => match s with SLabel l' => if String.eqb l l' then exec_body n None b m en else exec_body n skip b m en | _ => exec_body n skip b m en end
      | None =>
          match deferred s with
          | Some (f, args) =>
              '(m, vs) <- evals args m en ;; '(m, en, c) <- exec_body n None b m en ;; '(m, _) <- invoke f m vs ;; Ret (m, en, c)
          | None =>
              '(m, en, c) <- exec n s m en ;;
              match c with CNext => exec_body n None b m en | CGoto l => exec_body n (Some l) b m en | CRet vs => Ret (m, en, c) end
          end
      end
  end.
End Calls.

(** ** Functions *)
Definition flatten (ps : list (list string * gx)) : list (string * gx) :=
  flat_map (fun p : list string * gx => map (fun x => (x, snd p)) (fst p)) ps.
Definition results (rs : list (list string * gx)) : list gx :=
  flat_map (fun p : list string * gx => match fst p with [] => [snd p] | xs => map (fun _ => snd p) xs end) rs.
(** The name by which a declared function is called: methods of *T are T.f. *)
Definition fname (recv : option (string * gx)) (x : string) : string :=
  match recv with Some (_, EUn _ (EId t)) => (t ++ "." ++ x)%string | _ => x end.
Fixpoint find_fun (P : list gd) (f : string) : option (list (string * gx) * list gx * list gs) :=
  match P with
  | [] => None
  | DFunc recv x ps rs par body _ :: P =>
      if String.eqb (fname recv x) f
      then Some (match recv with Some p => [p] | None => [] end ++ flatten ps, results rs, body)
      else find_fun P f
  | _ :: P => find_fun P f
  end.
Fixpoint bind_params (ps : list (string * gx)) (args : list gv) : option genv :=
  match ps, args with
  | [], [] => Some []
  | (x, t) :: ps, v :: args => option_map (cons (x, coerce t v)) (bind_params ps args)
  | _, _ => None
  end.
Fixpoint coerces (ts : list gx) (vs : list gv) : option (list gv) :=
  match ts, vs with
  | [], [] => Some []
  | t :: ts, v :: vs => option_map (cons (coerce t v)) (coerces ts vs)
  | _, _ => None
  end.

(** What a function returns when its body ends. *)
Definition finish (rs : list gx) (r : mem * genv * ctl) : outcome (mem * list gv) :=
  let '(m, _, c) := r in
  match c with
  | CRet vs => match coerces rs vs with Some vs => Ret (m, vs) | None => Panic end
  | CNext => match rs with [] => Ret (m, []) | _ => Panic end
  | CGoto _ => Panic
  end.

Variable P : list gd.                              (* the package *)
Variable ext : string -> list gv -> mem -> outcome (mem * list gv).   (* functions declared elsewhere *)

(** Runs function [f]; [n] bounds the depth of calls (and the iterations of a for loop). *)
Fixpoint run (n : nat) (f : string) (args : list gv) (m : mem) : outcome (mem * list gv) :=
  match n with
  | O => NoFuel
  | S n =>
      match find_fun P f with
      | None => ext f args m
      | Some (ps, rs, body) =>
          match bind_params ps args with
          | None => Panic
          | Some en => obind (exec_body (run n) n None body m en) (finish rs)
          end
      end
  end.
End Sem.

(** ** The declarations of a package *)
(** The zero value of a struct type declared in the package; fields of types declared
    elsewhere are nil. *)
Definition zero_field (t : gx) : gv :=
  match t with
  | EId x => if GoLex.mem x num_types then WNum x 0 else if String.eqb x "bool" then WBool false else WNil
  | TSlice _ => WSl None
  | _ => WNil
  end.
Fixpoint struct_zero (P : list gd) (x : string) : option gv :=
  match P with
  | [] => None
  | DType y (TStruct fs) :: P =>
      if String.eqb y x then Some (WStruct x (map (fun f : string * gx => (fst f, zero_field (snd f))) fs)) else struct_zero P x
  | _ :: P => struct_zero P x
  end.
