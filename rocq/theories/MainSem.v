(** What the Go statements of MainAst.v do: a definitional interpreter for the part of Go used by package main
    (/repo/{out,scan,main}.go, actions of /repo/xdr.y).

    Values are immutable; variables are local, or global, or (behind pointers) in cells.  A run ends, or panics, or exits
    the program, in a state; [MStuck] is the result of programs that would not compile, of calls deeper than the fuel, and
    of what is not specified here (formats other than %s, strings.ToUpper outside ASCII).
    Simplifications: [:=] always declares; integers do not overflow; slices are values (package main never writes
    to an element, and appends to a slice only once). *)
From Verif Require Import GoLex SrcAst MainAst.
Open Scope string_scope.
Open Scope list_scope.

Inductive uv : Type :=
| UNil                                            (* of interface, pointer or slice type *)
| UBool (b : bool)
| UInt (z : Z)
| UStr (s : string)
| UStruct (t : string) (fs : list (string * uv))
| UList (vs : list uv)                            (* a slice that is not nil *)
| UPtr (p : nat)                                  (* pointer to a cell *)
| URef (p : nat)                                  (* a local variable of struct type, in a cell *)
| UObj (i : nat)                                  (* a value of a type of another package *)
| UTup (vs : list uv).                            (* several results *)
Definition uenv : Type := list (string * uv).

Record mm (W : Type) : Type := mkMM { mm_glob : uenv; mm_cells : list uv; mm_defers : list (string * list uv); mm_world : W }.
Arguments mkMM {W}. Arguments mm_glob {W}. Arguments mm_cells {W}. Arguments mm_defers {W}. Arguments mm_world {W}.

(** How a run ends, and in which state. *)
Inductive mres (W A : Type) : Type := MOk (m : mm W) (a : A) | MPanic (m : mm W) | MExit (m : mm W) | MStuck.
Arguments MOk {W A}. Arguments MPanic {W A}. Arguments MExit {W A}. Arguments MStuck {W A}.
Definition mbind {W A B} (r : mres W A) (k : A -> mm W -> mres W B) : mres W B :=
  match r with MOk m a => k a m | MPanic m => MPanic m | MExit m => MExit m | MStuck => MStuck end.

(** ** Strings *)
(** A literal after its opening quote. *)
Fixpoint unquote (s : string) : string :=
  match s with
  | String "\" (String c r) => String (if Ascii.eqb c "n" then nl else c) (unquote r)
  | String c EmptyString => EmptyString
  | String c r => String c (unquote r)
  | EmptyString => EmptyString
  end.
Definition lit_text (s : string) : string := match s with String _ r => unquote r | EmptyString => EmptyString end.
Definition dec_digit (c : ascii) : Z := Z.of_N (acode c - 48).
Fixpoint oct (acc : Z) (s : string) : Z := match s with EmptyString => acc | String c r => oct (acc * 8 + dec_digit c) r end.
Fixpoint dec (acc : Z) (s : string) : Z := match s with EmptyString => acc | String c r => dec (acc * 10 + dec_digit c) r end.
Definition int_text (s : string) : Z := match s with String "0" r => oct 0 r | _ => dec 0 s end.
Definition chr_text (s : string) : Z := match s with String _ (String c _) => Z.of_N (acode c) | _ => 0%Z end.

(** Concatenation; only a name for it. *)
Definition scat (a b : string) : string := String.append a b.
Arguments scat : simpl never.
(** fmt.Sprintf with %s only. *)
Fixpoint sprintf (f : string) (args : list uv) : option string :=
  match f with
  | EmptyString => match args with [] => Some EmptyString | _ => None end
  | String c r =>
      if Ascii.eqb c "%" then
        match r with
        | String d r => if Ascii.eqb d "s" then match args with UStr s :: args => option_map (scat s) (sprintf r args) | _ => None end else None
        | EmptyString => None
        end
      else option_map (String c) (sprintf r args)
  end.
(** strings.ToUpper on ASCII *)
Definition is_ascii (c : ascii) : bool := (acode c <? 128)%N.
Arguments is_ascii : simpl never.
Fixpoint to_upper (s : string) : option string :=
  match s with
  | EmptyString => Some EmptyString
  | String c r => if is_ascii c then option_map (String (upper c)) (to_upper r) else None
  end.
(** s[lo:hi]; [None] is a panic. *)
Fixpoint sdrop (n : nat) (s : string) : option string :=
  match n, s with O, _ => Some s | S n, String _ r => sdrop n r | S _, EmptyString => None end.
Fixpoint stake (n : nat) (s : string) : option string :=
  match n, s with O, _ => Some EmptyString | S n, String c r => option_map (String c) (stake n r) | S _, EmptyString => None end.

(** ** Operators *)
Definition is_unil (v : uv) : option bool :=
  match v with UNil => Some true | UStruct _ _ | UList _ | UPtr _ | UObj _ => Some false | _ => None end.
Definition usame (a b : uv) : option bool :=
  match a, b with
  | UStr x, UStr y => Some (String.eqb x y)
  | UInt x, UInt y => Some (Z.eqb x y)
  | UBool x, UBool y => Some (Bool.eqb x y)
  | UNil, v | v, UNil => is_unil v
  | _, _ => None
  end.
Definition ubin (o : string) (a b : uv) : option uv :=
  if String.eqb o "==" then option_map UBool (usame a b)
  else if String.eqb o "!=" then option_map (fun r => UBool (negb r)) (usame a b)
  else match a, b with
       | UStr x, UStr y => if String.eqb o "+" then Some (UStr (scat x y)) else None
       | UInt x, UInt y =>
           if String.eqb o "+" then Some (UInt (x + y)) else if String.eqb o "-" then Some (UInt (x - y))
           else if String.eqb o "|" then Some (UInt (Z.lor x y)) else None
       | _, _ => None
       end.

(** ** Fields and variables *)
Fixpoint uassoc {A} (x : string) (l : list (string * A)) : option A :=
  match l with [] => None | (y, a) :: l => if String.eqb x y then Some a else uassoc x l end.
Fixpoint uset {A} (x : string) (a : A) (l : list (string * A)) : option (list (string * A)) :=
  match l with
  | [] => None
  | (y, b) :: l => if String.eqb x y then Some ((y, a) :: l) else option_map (cons (y, b)) (uset x a l)
  end.
Fixpoint nset {A} (l : list A) (n : nat) (a : A) : list A :=
  match l, n with [], _ => [] | _ :: l, O => a :: l | b :: l, S n => b :: nset l n a end.

(** ** Declarations *)
Fixpoint find_struct (P : list md) (x : string) : option (list (string * mx)) :=
  match P with
  | [] => None
  | MType y (XStruct fs) :: P => if String.eqb y x then Some fs else find_struct P x
  | _ :: P => find_struct P x
  end.
(** Methods of T and of *T are T.f. *)
Definition mfname (recv : option (string * mx)) (x : string) : string :=
  match recv with Some (_, XId t) | Some (_, XUn _ (XId t)) => (t ++ "." ++ x)%string | _ => x end.
Fixpoint find_func (P : list md) (f : string) : option (list string * nat * list ms) :=
  match P with
  | [] => None
  | MFunc recv x ps rs body _ :: P =>
      if String.eqb (mfname recv x) f
      then Some (match recv with Some p => [fst p] | None => [] end ++ map fst ps, List.length rs, body)
      else find_func P f
  | _ :: P => find_func P f
  end.
(** Constants of the package that are written as numbers. *)
Fixpoint find_const (P : list md) (x : string) : option uv :=
  match P with
  | [] => None
  | MConst y (XInt s) :: P => if String.eqb y x then Some (UInt (int_text s)) else find_const P x
  | _ :: P => find_const P x
  end.
Fixpoint bind_args (ps : list string) (args : list uv) : option uenv :=
  match ps, args with
  | [], [] => Some []
  | x :: ps, v :: args => option_map (cons (x, v)) (bind_args ps args)
  | _, _ => None
  end.

Section Sem.
Context {W : Type}.
Notation mm := (mm W).
Notation mres := (mres W).
Variable pkgs : list string.                       (* imported packages *)
Variable consts : string -> option uv.             (* constants declared elsewhere; zero values of types declared elsewhere *)
Variable P : list md.                              (* the package *)
Variable ext : string -> list uv -> mm -> mres (list uv).    (* functions declared elsewhere *)

Definition lift {A} (o : option A) (m : mm) : mres A := match o with Some a => MOk m a | None => MStuck end.
Definition or_panic {A} (o : option A) (m : mm) : mres A := match o with Some a => MOk m a | None => MPanic m end.
Definition with_glob (m : mm) (g : uenv) : mm := mkMM g (mm_cells m) (mm_defers m) (mm_world m).
Definition with_ucells (m : mm) (c : list uv) : mm := mkMM (mm_glob m) c (mm_defers m) (mm_world m).
Definition with_defers (m : mm) (d : list (string * list uv)) : mm := mkMM (mm_glob m) (mm_cells m) d (mm_world m).
Definition uone (vs : list uv) : uv := match vs with [v] => v | _ => UTup vs end.
Definition umany (v : uv) : list uv := match v with UTup vs => vs | v => [v] end.
Definition elems (v : uv) : option (list uv) := match v with UNil => Some [] | UList vs => Some vs | _ => None end.

Fixpoint uzero (n : nat) (t : mx) : uv :=
  match n with
  | O => UNil
  | S n =>
      match t with
      | XId x =>
          if String.eqb x "string" then UStr "" else if String.eqb x "bool" then UBool false else if String.eqb x "int" then UInt 0
          else match find_struct P x with
               | Some fs => UStruct x (map (fun f : string * mx => (fst f, uzero n (snd f))) fs)
               | None => UNil
               end
      | XSel (XId p) x => match consts (p ++ "." ++ x)%string with Some v => v | None => UNil end
      | _ => UNil
      end
  end.

(** Functions of the language and of other packages that are defined here. *)
Definition ubuiltin (f : string) (args : list uv) (m : mm) : option (mres uv) :=
  if String.eqb f "fmt.Sprintf" then Some
    match args with UStr s :: vs => lift (option_map UStr (sprintf s vs)) m | _ => MStuck end
  else if String.eqb f "fmt.Fprintf" then Some
    match args with
    | w :: UStr s :: vs => match sprintf s vs with Some t => mbind (ext "write" [w; UStr t] m) (fun _ m => MOk m UNil) | None => MStuck end
    | _ => MStuck
    end
  else if String.eqb f "strings.ToUpper" then Some match args with [UStr s] => lift (option_map UStr (to_upper s)) m | _ => MStuck end
  else if String.eqb f "len" then Some
    match args with
    | [UStr s] => MOk m (UInt (Z.of_nat (String.length s)))
    | [v] => match elems v with Some l => MOk m (UInt (Z.of_nat (List.length l))) | None => MStuck end
    | _ => MStuck
    end
  else if String.eqb f "append" then Some
    match args with [a; v] => match elems a with Some l => MOk m (UList (l ++ [v])) | None => MStuck end | _ => MStuck end
  else if String.eqb f "panic" then Some (MPanic m)
  else None.

Section Calls.
Variable call : string -> list uv -> mm -> mres (list uv).
Definition uinvoke (f : string) (args : list uv) (m : mm) : mres uv :=
  match ubuiltin f args m with Some r => r | None => mbind (call f args m) (fun vs m => MOk m (uone vs)) end.

Definition ucell (m : mm) (p : nat) : option uv := nth_error (mm_cells m) p.
Definition uvar (en : uenv) (m : mm) (x : string) : option uv :=
  match uassoc x en with
  | Some (URef p) => ucell m p
  | Some v => Some v
  | None =>
      if String.eqb x "nil" then Some UNil else if String.eqb x "true" then Some (UBool true) else if String.eqb x "false" then Some (UBool false)
      else match uassoc x (mm_glob m) with Some v => Some v | None => match find_const P x with Some v => Some v | None => consts x end end
  end.
Definition ufield (m : mm) (v : uv) (f : string) : option uv :=
  match v with
  | UStruct _ fs => uassoc f fs
  | UPtr p => match ucell m p with Some (UStruct _ fs) => uassoc f fs | _ => None end
  | _ => None
  end.
Definition umethod (m : mm) (v : uv) (f : string) : option string :=
  match v with
  | UStruct t _ => Some (t ++ "." ++ f)%string
  | UPtr p => match ucell m p with Some (UStruct t _) => Some (t ++ "." ++ f)%string | _ => None end
  | UObj _ => Some ("." ++ f)%string
  | _ => None
  end.
(** v.x(vs) *)
Definition ucallm (v : uv) (x : string) (vs : list uv) (m : mm) : mres uv :=
  match v with
  | UNil => MPanic m
  | _ => match umethod m v x with Some f => uinvoke f (v :: vs) m | None => MStuck end
  end.
(** [fmt.Sprintf] as a string, if the identifier is a package. *)
Definition upkg (en : uenv) (e : mx) : option string :=
  match e with XId x => if GoLex.mem x pkgs then match uassoc x en with Some _ => None | None => Some x end else None | _ => None end.

Section Evals.
Variable ev : mx -> mm -> mres uv.
Fixpoint uevals (l : list mx) (m : mm) : mres (list uv) :=
  match l with
  | [] => MOk m []
  | a :: l => mbind (ev a m) (fun v m => mbind (uevals l m) (fun vs m => MOk m (v :: vs)))
  end.
Fixpoint ufill (l : list (string * mx)) (fs : uenv) (m : mm) : mres uenv :=
  match l with
  | [] => MOk m fs
  | (f, a) :: l => mbind (ev a m) (fun v m => match uset f v fs with Some fs => ufill l fs m | None => MStuck end)
  end.
End Evals.

Fixpoint ueval (en : uenv) (e : mx) (m : mm) {struct e} : mres uv :=
  match e with
  | XId x => lift (uvar en m x) m
  | XInt s => MOk m (UInt (int_text s))
  | XStr s => MOk m (UStr (lit_text s))
  | XChr s => MOk m (UInt (chr_text s))
  | XUn o a =>
      if String.eqb o "*" then mbind (ueval en a m) (fun v m => match v with UPtr p => lift (ucell m p) m | UNil => MPanic m | _ => MStuck end)
      else if String.eqb o "!" then mbind (ueval en a m) (fun v m => match v with UBool b => MOk m (UBool (negb b)) | _ => MStuck end)
      else if String.eqb o "-" then mbind (ueval en a m) (fun v m => match v with UInt z => MOk m (UInt (- z)) | _ => MStuck end)
      else if String.eqb o "&" then match a with XId x => match uassoc x en with Some (URef p) => MOk m (UPtr p) | _ => MStuck end | _ => MStuck end
      else MStuck
  | XBin o a b => mbind (ueval en a m) (fun v m => mbind (ueval en b m) (fun w m => lift (ubin o v w) m))
  | XSel a f =>
      match upkg en a with
      | Some p => lift (consts (p ++ "." ++ f)%string) m
      | None => mbind (ueval en a m) (fun v m => match v with UNil => MPanic m | _ => lift (ufield m v f) m end)
      end
  | XSub a lo hi =>
      mbind (ueval en a m) (fun v m =>
      mbind match hi with None => MOk m None | Some h => mbind (ueval en h m) (fun w m => MOk m (Some w)) end (fun h m =>
      mbind match lo with None => MOk m (UInt 0) | Some l => ueval en l m end (fun l m =>
      match v, l, h with
      | UStr s, UInt l, None => or_panic (option_map UStr (sdrop (Z.to_nat l) s)) m
      | UStr s, UInt 0, Some (UInt h) => or_panic (option_map UStr (stake (Z.to_nat h) s)) m
      | _, _, _ => MStuck
      end)))
  | XCall f args =>
      match f with
      | XId x =>
          match uassoc x en with
          | Some _ => MStuck                                          (* not a function *)
          | None => mbind (uevals (ueval en) args m) (fun vs m => uinvoke x vs m)
          end
      | XSel a x =>
          match upkg en a with
          | Some p => mbind (uevals (ueval en) args m) (fun vs m => uinvoke (p ++ "." ++ x)%string vs m)
          | None =>
              mbind (ueval en a m) (fun v m => mbind (uevals (ueval en) args m) (fun vs m =>
              ucallm v x vs m))
          end
      | _ => MStuck
      end
  | XLit t es =>
      mbind (uevals (ueval en) es m) (fun vs m =>
      match t with
      | XSlice _ => MOk m (UList vs)
      | XId t =>
          match find_struct P t with
          | Some fs => match bind_args (map fst fs) vs with Some l => MOk m (UStruct t l) | None => MStuck end
          | None => MStuck
          end
      | _ => MStuck
      end)
  | XLitK t fs =>
      match t with
      | XId x =>
          match uzero 5 t with
          | UStruct _ zs => mbind (ufill (ueval en) fs zs m) (fun zs m => MOk m (UStruct x zs))
          | _ => MStuck
          end
      | _ => MStuck
      end
  | XDol n => lift (uassoc (String "$" (String (ascii_of_nat (48 + n)) EmptyString)) en) m
  | XSlice _ | XStruct _ | XIface _ => MStuck
  end.

(** ** Statements *)
Inductive uctl : Type := KNext | KRet (vs : list uv).

Definition uassign (l : mx) (v : uv) (en : uenv) (m : mm) : mres uenv :=
  match l with
  | XId x =>
      match uset x v en with
      | Some en => MOk m en
      | None => match uset x v (mm_glob m) with Some g => MOk (with_glob m g) en | None => MStuck end
      end
  | XSel (XId x) f =>
      match uassoc x en with
      | Some (UPtr p) =>
          match ucell m p with
          | Some (UStruct t fs) => match uset f v fs with Some fs => MOk (with_ucells m (nset (mm_cells m) p (UStruct t fs))) en | None => MStuck end
          | _ => MStuck
          end
      | _ => MStuck
      end
  | _ => MStuck
  end.
Fixpoint uassigns (ls : list mx) (vs : list uv) (en : uenv) (m : mm) : mres uenv :=
  match ls, vs with
  | [], [] => MOk m en
  | l :: ls, v :: vs => mbind (uassign l v en m) (fun en m => uassigns ls vs en m)
  | _, _ => MStuck
  end.
Fixpoint udeclare (xs : list string) (vs : list uv) (en : uenv) : option uenv :=
  match xs, vs with
  | [], [] => Some en
  | x :: xs, v :: vs => udeclare xs vs (if String.eqb x "_" then en else (x, v) :: en)
  | _, _ => None
  end.
(** Variables declared inside a block end with it. *)
Definition uleave (en en' : uenv) : uenv := skipn (List.length en' - List.length en) en'.

Section Seq.
Variable ex : ms -> uenv -> mm -> mres (uenv * uctl).
Fixpoint useq (b : list ms) (en : uenv) (m : mm) : mres (uenv * uctl) :=
  match b with
  | [] => MOk m (en, KNext)
  | s :: b => mbind (ex s en m) (fun r m => match snd r with KNext => useq b (fst r) m | KRet _ => MOk m r end)
  end.
Definition ublk (b : list ms) (en : uenv) (m : mm) : mres (uenv * uctl) :=
  mbind (useq b en m) (fun r m => MOk m (uleave en (fst r), snd r)).
(** The body of a case, in which [x] may be declared. *)
Definition uinner (b : list ms) (add en : uenv) (m : mm) : mres (uenv * uctl) :=
  mbind (useq b (add ++ en) m) (fun r m => MOk m (uleave en (fst r), snd r)).
Definition uloop (k v : string) (b : list ms) : Z -> list uv -> uenv -> mm -> mres (uenv * uctl) :=
  fix go (i : Z) (l : list uv) (en : uenv) (m : mm) : mres (uenv * uctl) :=
  match l with
  | [] => MOk m (en, KNext)
  | w :: l =>
      match udeclare [k; v] [UInt i; w] [] with
      | Some add => mbind (uinner b add en m) (fun r m => match snd r with KNext => go (i + 1)%Z l (fst r) m | KRet _ => MOk m r end)
      | None => MStuck
      end
  end.
Definition utypecase (x : option string) (v : uv) (en : uenv) (m : mm) : list (string * list ms) -> mres (uenv * uctl) :=
  fix go (cs : list (string * list ms)) : mres (uenv * uctl) :=
  match cs with
  | [] => MOk m (en, KNext)
  | (t, b) :: cs =>
      if match v with UStruct t' _ => String.eqb t t' | _ => false end
      then uinner b (match x with Some x => [(x, v)] | None => [] end) en m
      else go cs
  end.
Variable ev : mx -> mm -> mres uv.
(** The first case that is equal, or the default (which comes last in these files). *)
Definition ucase (v : uv) (en : uenv) : list (option mx * list ms) -> mm -> mres (uenv * uctl) :=
  fix go (cs : list (option mx * list ms)) (m : mm) : mres (uenv * uctl) :=
  match cs with
  | [] => MOk m (en, KNext)
  | (None, b) :: _ => ublk b en m
  | (Some e, b) :: cs =>
      mbind (ev e m) (fun w m => match usame v w with Some true => ublk b en m | Some false => go cs m | None => MStuck end)
  end.
End Seq.

Fixpoint uexec (s : ms) (en : uenv) (m : mm) {struct s} : mres (uenv * uctl) :=
  match s with
  | TExpr e => mbind (ueval en e m) (fun _ m => MOk m (en, KNext))
  | TVar x t =>
      match uzero 5 t with
      | UStruct n fs => MOk (with_ucells m (mm_cells m ++ [UStruct n fs])) ((x, URef (List.length (mm_cells m))) :: en, KNext)
      | v => MOk m ((x, v) :: en, KNext)
      end
  | TDef xs e => mbind (ueval en e m) (fun v m => match udeclare xs (umany v) en with Some en => MOk m (en, KNext) | None => MStuck end)
  | TSet ls e => mbind (ueval en e m) (fun v m => mbind (uassigns ls (umany v) en m) (fun en m => MOk m (en, KNext)))
  | TAdd x e =>
      mbind (ueval en x m) (fun v m => mbind (ueval en e m) (fun w m =>
      match ubin "+" v w with Some r => mbind (uassign x r en m) (fun en m => MOk m (en, KNext)) | None => MStuck end))
  | TIf c a b =>
      mbind (ueval en c m) (fun v m =>
      match v with
      | UBool true => ublk uexec a en m
      | UBool false => match b with Some b => ublk uexec b en m | None => MOk m (en, KNext) end
      | _ => MStuck
      end)
  | TRange k v e b => mbind (ueval en e m) (fun w m => match elems w with Some l => uloop uexec k v b 0 l en m | None => MStuck end)
  | TSwitch e cs => mbind (ueval en e m) (fun v m => ucase uexec (ueval en) v en cs m)
  | TType x e cs => mbind (ueval en e m) (fun v m => utypecase uexec x v en m cs)
  | TRet es => mbind (uevals (ueval en) es m) (fun vs m => MOk m (en, KRet vs))
  | TDefer e =>
      match e with
      | XCall (XSel a x) args =>
          match upkg en a with
          | Some p => mbind (uevals (ueval en) args m) (fun vs m => MOk (with_defers m (((p ++ "." ++ x)%string, vs) :: mm_defers m)) (en, KNext))
          | None => MStuck
          end
      | _ => MStuck
      end
  end.

(** The deferred calls, last registered first. *)
Fixpoint udeferred (ds : list (string * list uv)) (m : mm) : mres unit :=
  match ds with
  | [] => MOk m tt
  | (f, vs) :: ds => match uinvoke f vs m with MOk m _ => udeferred ds m | MExit m => MExit m | _ => MStuck end
  end.
End Calls.

(** Runs function [f]; [n] bounds the depth of calls. *)
Fixpoint urun (n : nat) (f : string) (args : list uv) (m : mm) : mres (list uv) :=
  match n with
  | O => MStuck
  | S n =>
      match find_func P f with
      | None => ext f args m
      | Some (ps, rs, body) =>
          match bind_args ps args with
          | None => MStuck
          | Some en =>
              let leave {A} (m' : mm) (k : mm -> mres A) : mres A :=
                mbind (udeferred (urun n) (mm_defers m') (with_defers m' [])) (fun _ m' => k (with_defers m' (mm_defers m))) in
              match useq (uexec (urun n)) body en (with_defers m []) with
              | MOk m' (_, c) =>
                  leave m' (fun m' =>
                    match c, rs with
                    | KNext, O => MOk m' []
                    | KRet vs, rs => if Nat.eqb (List.length vs) rs then MOk m' vs else MStuck
                    | _, _ => MStuck
                    end)
              | MPanic m' => leave m' MPanic
              | MExit m' => MExit m'
              | MStuck => MStuck
              end
          end
      end
  end.

(** The variables of the package before function main is called, in the order of the file. *)
Fixpoint uinit (n : nat) (ds : list md) (m : mm) : mres unit :=
  match ds with
  | [] => MOk m tt
  | MInit x e :: ds => mbind (ueval (urun n) [] e m) (fun v m => uinit n ds (with_glob m (mm_glob m ++ [(x, v)])))
  | MVar x t :: ds => uinit n ds (with_glob m (mm_glob m ++ [(x, uzero 5 t)]))
  | _ :: ds => uinit n ds m
  end.
End Sem.
