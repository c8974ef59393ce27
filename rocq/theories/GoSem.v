(** What the emitted Go code does when run: a semantics of the trees of GoAst.v following the
    Go specification: block scoping and shadowing, addressable operands and pointers, slices,
    zero values, switch with fallthrough, and the run-time panics for nil and bad indices.

    Simplifications.  Go values are trees ([val], as in Types.v): a pointer stored in a value
    owns its pointee.  A pointer the code holds is the path to its pointee.  A method call
    hands the pointee to the callee and puts it back afterwards; callee and caller have no
    other way to reach it.  Sharing inside a value being encoded cannot be observed, since
    encoding does not write; decoding never follows a pointer or slice that was there before,
    as the emitted code first assigns a fresh one (HeapX.v treats the aliasing of byte slices). *)
From Coq Require Import Ascii.
From Verif Require Import Bytes XdrLib Types GoLex XLex Gram GParse Emit GoAst.
Open Scope string_scope.
Open Scope Z_scope.
Open Scope list_scope.

(** Return, run-time panic, not a program the compiler accepts, or out of the model's fuel. *)
Inductive gor (A : Type) : Type := GRet (a : A) | GPanic | GStuck | GOut.
Arguments GRet {A} a. Arguments GPanic {A}. Arguments GStuck {A}. Arguments GOut {A}.
Definition gbind {A B} (o : gor A) (k : A -> gor B) : gor B :=
  match o with GRet a => k a | GPanic => GPanic | GStuck => GStuck | GOut => GOut end.
Notation "'let!' p := o 'in' k" := (gbind o (fun x => match x with p => k end)) (at level 61, p pattern, o at next level, right associativity).
Definition some_or {A} (o : option A) (d : gor A) : gor A := match o with Some a => GRet a | None => d end.

(** ** Integer literals (Go specification, "Integer literals") *)
Definition digit_val (c : ascii) : Z :=
  if is_digit c then Z.of_N (acode c) - 48 else Z.of_N (acode (lower c)) - 87.
Fixpoint digits (base acc : Z) (us : bool) (s : string) : option Z :=
  match s with
  | EmptyString => if us then None else Some acc
  | String c r =>
      if Ascii.eqb c "_" then if us then None else digits base acc true r
      else if is_hex c && (digit_val c <? base) then digits base (acc * base + digit_val c) false r else None
  end.
Definition num_val (s : string) : option Z :=
  match s with
  | EmptyString => None
  | String "-" r => option_map Z.opp (digits 10 0 true r)
  | String "0" EmptyString => Some 0
  | String "0" (String x r) =>
      let pre b := match r with EmptyString => None | _ => digits b 0 false r end in
      if Ascii.eqb (lower x) "x" then pre 16
      else if Ascii.eqb (lower x) "o" then pre 8
      else if Ascii.eqb (lower x) "b" then pre 2
      else digits 8 0 false (String x r)
  | _ => digits 10 0 true s
  end.

Section Sem.
Variable G : gpkg.

(** ** Constants *)
Fixpoint find_const (x : string) (l : list cdecl) : option cdecl :=
  match l with [] => None | c :: l => if String.eqb x (c_name c) then Some c else find_const x l end.
(** The value of a package-level constant; fuel bounds chains of references. *)
Fixpoint const_val (n : nat) (x : string) : option Z :=
  match n with
  | O => None
  | S n => match find_const x (g_consts G) with
           | Some c => if head_is is_digit (c_val c) then num_val (c_val c) else const_val n (c_val c)
           | None => None
           end
  end.
Definition cval (x : string) : option Z := const_val (S (List.length (g_consts G))) x.
(** A literal or a constant. *)
Definition size_val (s : string) : option Z := if head_is is_digit s then num_val s else cval s.

(** ** Zero values *)
Definition gzero_fields (Z0 : gty -> option val) : list (string * gty) -> option (list (string * val)) :=
  fix go fs := match fs with
               | [] => Some []
               | (f, t) :: fs => match Z0 t, go fs with Some v, Some l => Some ((f, v) :: l) | _, _ => None end
               end.
Fixpoint gzero (n : nat) (t : gty) : option val :=
  match n with
  | O => None
  | S n =>
      match t with
      | GBasic b => if mem b ["uint32"; "int32"; "uint64"; "int64"; "int"] then Some (VInt 0)
                    else if String.eqb b "bool" then Some (VBool false) else if String.eqb b "string" then Some (VStr []) else None
      | GNamed x => match lookup x (g_types G) with Some t => gzero n t | None => None end
      | GPtr _ => Some (VPtr None)
      | GSlice (GBasic "byte") => Some (VBytes None)
      | GSlice _ => Some (VSlice None)
      | GArr sz (GBasic "byte") => match size_val sz with Some k => Some (VArr (zeros (Z.to_nat k))) | None => None end
      | GArr _ _ => None
      | GStruct fs => option_map VStruct (gzero_fields (gzero n) fs)
      end
  end.

(** ** Memory of one method call: the receiver's pointee and the local variables *)
Inductive step : Type := PField (f : string) | PIdx (k : nat) | PDeref.
Inductive place : Type := PRecv (p : list step) | PLoc (level : nat).
Record frame : Type := mkFrame { f_recv : val; f_locs : list (string * val) }.

Definition step_load (v : val) (p : step) : option val :=
  match v, p with
  | VStruct l, PField f => lookup f l
  | VSlice (Some l), PIdx k => nth_error l k
  | VPtr (Some x), PDeref => Some x
  | _, _ => None
  end.
Fixpoint set_nth {A} (k : nat) (x : A) (l : list A) : option (list A) :=
  match l, k with
  | [], _ => None
  | _ :: l, O => Some (x :: l)
  | a :: l, S k => option_map (cons a) (set_nth k x l)
  end.
Definition step_store (v : val) (p : step) (x : val) : option val :=
  match v, p with
  | VStruct l, PField f => match lookup f l with Some _ => Some (VStruct (update f x l)) | None => None end
  | VSlice (Some l), PIdx k => option_map (fun l => VSlice (Some l)) (set_nth k x l)
  | VPtr (Some _), PDeref => Some (VPtr (Some x))
  | _, _ => None
  end.
Fixpoint path_load (v : val) (p : list step) : option val :=
  match p with [] => Some v | a :: p => match step_load v a with Some w => path_load w p | None => None end end.
Fixpoint path_store (v : val) (p : list step) (x : val) : option val :=
  match p with
  | [] => Some x
  | a :: p => match step_load v a with
              | Some w => match path_store w p x with Some w' => step_store v a w' | None => None end
              | None => None
              end
  end.
(** Locals, innermost first; a variable's level is the number of those declared before it. *)
Fixpoint loc_get (k : nat) (l : list (string * val)) : option val :=
  match l with [] => None | (_, v) :: l => if Nat.eqb k (List.length l) then Some v else loc_get k l end.
Fixpoint loc_set (k : nat) (x : val) (l : list (string * val)) : option (list (string * val)) :=
  match l with
  | [] => None
  | (y, v) :: l => if Nat.eqb k (List.length l) then Some ((y, x) :: l) else option_map (cons (y, v)) (loc_set k x l)
  end.
Fixpoint loc_find (x : string) (l : list (string * val)) : option nat :=
  match l with [] => None | (y, _) :: l => if String.eqb x y then Some (List.length l) else loc_find x l end.

Definition load (fr : frame) (p : place) : option val :=
  match p with PRecv p => path_load (f_recv fr) p | PLoc k => loc_get k (f_locs fr) end.
Definition store (fr : frame) (p : place) (x : val) : option frame :=
  match p with
  | PRecv p => option_map (fun v => mkFrame v (f_locs fr)) (path_store (f_recv fr) p x)
  | PLoc k => option_map (fun l => mkFrame (f_recv fr) l) (loc_set k x (f_locs fr))
  end.
Definition sub (p : place) (a : step) : option place := match p with PRecv l => Some (PRecv (l ++ [a])) | PLoc _ => None end.

(** ** Expressions *)
Inductive gval : Type :=
| GV (v : val)
| GP (p : option place)                 (* a pointer; None = nil *)
| GS (p : place)                        (* the slice of all of an array *)
| GX.                                   (* xs *)
Inductive operand : Type := OPl (p : place) | OVal (g : gval).

(** The value of an operand; a pointer in memory is followed to a place when it is read. *)
Definition rval (fr : frame) (o : operand) : gor gval :=
  match o with
  | OVal g => GRet g
  | OPl p => match load fr p with
             | Some (VPtr None) => GRet (GP None)
             | Some (VPtr (Some _)) => match sub p PDeref with Some q => GRet (GP (Some q)) | None => GStuck end
             | Some v => GRet (GV v)
             | None => GStuck
             end
  end.
Definition conv_val (t : gty) (g : gval) : gor gval :=
  match t, g with
  | GPtr _, GP p => GRet (GP p)
  | GBasic b, GV (VInt z) =>
      if String.eqb b "uint64" then GRet (GV (VInt (to_u64 z))) else if String.eqb b "int" then GRet (GV (VInt (to_s64 z))) else GStuck
  | _, _ => GStuck
  end.
Definition compare (f : Z -> Z -> bool) (a b : gval) : gor operand :=
  match a, b with GV (VInt x), GV (VInt y) => GRet (OVal (GV (VBool (f x y)))) | _, _ => GStuck end.

Fixpoint ev (n : nat) (s : xst) (fr : frame) (e : expr) {struct e} : gor operand :=
  match e with
  | EVar x =>
      match loc_find x (f_locs fr) with
      | Some k => GRet (OPl (PLoc k))
      | None =>
          if String.eqb x "v" then GRet (OVal (GP (Some (PRecv []))))
          else if String.eqb x "xs" then GRet (OVal GX)
          else match cval x with
               | Some z => GRet (OVal (GV (VInt z)))
               | None => if String.eqb x "nil" then GRet (OVal (GP None))
                         else if String.eqb x "true" then GRet (OVal (GV (VBool true)))
                         else if String.eqb x "false" then GRet (OVal (GV (VBool false))) else GStuck
               end
      end
  | ENum t => let! z := some_or (num_val t) GStuck in GRet (OVal (GV (VInt z)))
  | EStr _ => GStuck                                   (* only an argument of SetError *)
  | EParen e => ev n s fr e
  | EDeref e =>
      let! o := ev n s fr e in let! g := rval fr o in
      match g with GP (Some p) => GRet (OPl p) | GP None => GPanic | _ => GStuck end
  | EAddr e => let! o := ev n s fr e in match o with OPl p => GRet (OVal (GP (Some p))) | OVal _ => GStuck end
  | ESel e f =>                                        (* a pointer is dereferenced *)
      let! o := ev n s fr e in let! g := rval fr o in
      match g with
      | GP (Some p) => match sub p (PField f) with Some q => GRet (OPl q) | None => GStuck end
      | GP None => GPanic
      | _ => match o with OPl p => match sub p (PField f) with Some q => GRet (OPl q) | None => GStuck end | OVal _ => GStuck end
      end
  | EIdx e i =>
      let! o := ev n s fr e in let! oi := ev n s fr i in let! gi := rval fr oi in let! g := rval fr o in
      match o, g, gi with
      | OPl p, GV (VSlice l), GV (VInt k) =>
          if (0 <=? k) && (k <? zlen (elems l)) then match sub p (PIdx (Z.to_nat k)) with Some q => GRet (OPl q) | None => GStuck end else GPanic
      | _, _, _ => GStuck
      end
  | EAll e => let! o := ev n s fr e in match o with OPl p => GRet (OVal (GS p)) | OVal _ => GStuck end
  | EConv t e => let! o := ev n s fr e in let! g := rval fr o in let! g := conv_val t g in GRet (OVal g)
  | ELen e =>
      let! o := ev n s fr e in let! g := rval fr o in
      match g with GV (VSlice l) => GRet (OVal (GV (VInt (zlen (elems l))))) | _ => GStuck end
  | EMake t e =>
      let! o := ev n s fr e in let! g := rval fr o in
      match t, g with
      | GSlice t, GV (VInt k) => let! z := some_or (gzero n t) GOut in GRet (OVal (GV (VSlice (Some (repeat z (Z.to_nat k))))))
      | _, _ => GStuck
      end
  | ENew t => let! z := some_or (gzero n t) GOut in GRet (OVal (GV (VPtr (Some z))))
  | EQuery x m =>
      match loc_find x (f_locs fr) with
      | Some _ => GStuck
      | None => if negb (String.eqb x "xs") then GStuck
                else if String.eqb m "Encoding" then GRet (OVal (GV (VBool (Encoding s))))
                else if String.eqb m "Decoding" then GRet (OVal (GV (VBool (Decoding s)))) else GStuck
      end
  | ENe a b =>                                         (* only pointers are compared so *)
      let! oa := ev n s fr a in let! ga := rval fr oa in let! ob := ev n s fr b in let! gb := rval fr ob in
      match ga, gb with
      | GP p, GP None => GRet (OVal (GV (VBool (match p with Some _ => true | None => false end))))
      | _, _ => GStuck
      end
  | EGt a b => let! oa := ev n s fr a in let! ga := rval fr oa in let! ob := ev n s fr b in let! gb := rval fr ob in compare Z.gtb ga gb
  | ELt a b => let! oa := ev n s fr a in let! ga := rval fr oa in let! ob := ev n s fr b in let! gb := rval fr ob in compare Z.ltb ga gb
  end.
Definition evv (n : nat) (s : xst) (fr : frame) (e : expr) : gor gval := let! o := ev n s fr e in rval fr o.
Definition ev_bool (n : nat) (s : xst) (fr : frame) (e : expr) : gor bool :=
  let! g := evv n s fr e in match g with GV (VBool b) => GRet b | _ => GStuck end.

(** ** Calls into the library and to other methods *)
(** The pointee of an argument, replaced by what [f] makes of it. *)
Definition through (fr : frame) (g : gval) (f : val -> gor (xst * val)) : gor (xst * frame) :=
  match g with
  | GP (Some p) | GS p =>
      let! x := some_or (load fr p) GStuck in
      let! (s, x) := f x in
      let! fr := some_or (store fr p x) GStuck in GRet (s, fr)
  | GP None => GPanic
  | _ => GStuck
  end.
(** The functions of /repo/xdr/lib.go; [m] is the bound argument of the ones that have it. *)
Definition lib_fun (fn : string) (s : xst) (m : option Z) (x : val) : gor (xst * val) :=
  match m, x with
  | None, VInt z =>
      if String.eqb fn "XdrU32" then let '(s, z) := XdrU32 s z in GRet (s, VInt z)
      else if String.eqb fn "XdrS32" then let '(s, z) := XdrS32 s z in GRet (s, VInt z)
      else if String.eqb fn "XdrU64" then let '(s, z) := XdrU64 s z in GRet (s, VInt z)
      else if String.eqb fn "XdrS64" then let '(s, z) := XdrS64 s z in GRet (s, VInt z) else GStuck
  | None, VBool b => if String.eqb fn "XdrBool" then let '(s, b) := XdrBool s b in GRet (s, VBool b) else GStuck
  | None, VArr bs => if String.eqb fn "XdrArray" then let '(s, bs) := XdrArray s bs in GRet (s, VArr bs) else GStuck
  | Some m, VBytes o => if String.eqb fn "XdrVarArray" then let '(s, o) := XdrVarArray s m o in GRet (s, VBytes o) else GStuck
  | Some m, VStr bs => if String.eqb fn "XdrString" then let '(s, bs) := XdrString s m bs in GRet (s, VStr bs) else GStuck
  | _, _ => GStuck
  end.

(** ** Statements *)
Definition pop (k : nat) (fr : frame) : frame := mkFrame (f_recv fr) (skipn (List.length (f_locs fr) - k) (f_locs fr)).
Definition push (x : string) (v : val) (fr : frame) : frame := mkFrame (f_recv fr) ((x, v) :: f_locs fr).
Definition depth (fr : frame) : nat := List.length (f_locs fr).

(** The clause a switch starts with: the first one whose label equals [g], else the default.
    All clauses from there on are returned. *)
Fixpoint find_clause (n : nat) (s : xst) (fr : frame) (g : gval) (cs : list (option expr * list stmt * bool)) : gor (option (list (option expr * list stmt * bool))) :=
  match cs with
  | [] => GRet None
  | ((Some l, _, _) :: r) as cs =>
      let! gl := evv n s fr l in
      match g, gl with
      | GV (VInt a), GV (VInt b) => if a =? b then GRet (Some cs) else find_clause n s fr g r
      | GV (VBool a), GV (VBool b) => if Bool.eqb a b then GRet (Some cs) else find_clause n s fr g r
      | _, _ => GStuck
      end
  | (None, _, _) :: r => find_clause n s fr g r
  end.
Fixpoint find_default (cs : list (option expr * list stmt * bool)) : option (list (option expr * list stmt * bool)) :=
  match cs with [] => None | ((None, _, _) :: _) as cs => Some cs | _ :: r => find_default r end.

Definition frame0 (v : val) : frame := mkFrame v [].

Section Exec.
(** How a single statement runs. *)
Variable X : xst -> frame -> stmt -> gor (xst * frame).
(** Statements one after another. *)
Fixpoint seq (s : xst) (fr : frame) (ss : list stmt) : gor (xst * frame) :=
  match ss with [] => GRet (s, fr) | a :: ss => let! (s, fr) := X s fr a in seq s fr ss end.
(** A block: its variables end with it. *)
Definition block (s : xst) (fr : frame) (ss : list stmt) : gor (xst * frame) :=
  let! (s, fr') := seq s fr ss in GRet (s, pop (depth fr) fr').
(** [x++]; no wrap: x stays below a 64-bit bound. *)
Definition incr (x : string) (fr : frame) : gor frame :=
  match loc_find x (f_locs fr) with
  | Some k => match loc_get k (f_locs fr) with Some (VInt z) => some_or (store fr (PLoc k) (VInt (z + 1))) GStuck | _ => GStuck end
  | None => GStuck
  end.
Fixpoint loop (n k : nat) (x : string) (c : expr) (ss : list stmt) (s : xst) (fr : frame) : gor (xst * frame) :=
  match k with
  | O => GOut
  | S k =>
      let! t := ev_bool n s fr c in
      if t then let! (s, fr) := block s fr ss in let! fr := incr x fr in loop n k x c ss s fr
      else GRet (s, fr)
  end.
(** The clauses of a switch from the chosen one on. *)
Fixpoint run (s : xst) (fr : frame) (cs : list (option expr * list stmt * bool)) : gor (xst * frame) :=
  match cs with
  | [] => GRet (s, fr)
  | (_, ss, ft) :: cs => let! (s, fr) := block s fr ss in if ft then run s fr cs else GRet (s, fr)
  end.
End Exec.

Fixpoint exec (n : nat) (s : xst) (fr : frame) (st : stmt) {struct n} : gor (xst * frame) :=
  match n with
  | O => GOut
  | S n =>
      match st with
      | SPkg fn args =>
          match args with
          | EVar "xs" :: args =>
              match args with
              | [e] => let! g := evv n s fr e in through fr g (lib_fun fn s None)
              | [b; e] => let! m := evv n s fr b in let! g := evv n s fr e in
                          match m with GV (VInt m) => through fr g (lib_fun fn s (Some m)) | _ => GStuck end
              | _ => GStuck
              end
          | _ => GStuck
          end
      | SMeth (EVar "xs") m args =>
          if String.eqb m "EncodingSetSize" then
            match args with
            | [p; l] => let! gp := evv n s fr p in let! gl := evv n s fr l in
                        match gl with
                        | GV (VInt len) => through fr gp (fun x => match x with VInt z => let '(s, z) := EncodingSetSize s z len in GRet (s, VInt z) | _ => GStuck end)
                        | _ => GStuck
                        end
            | _ => GStuck
            end
          else if String.eqb m "SetError" then
            match args with [EStr t] => GRet (SetError s t, fr) | _ => GStuck end
          else GStuck
      | SMeth (EConv (GPtr (GNamed x)) e) m args =>
          match args with
          | [EVar "xs"] =>
              if String.eqb m "Xdr" then
                match lookup x (g_meths G) with
                | None => GStuck
                | Some body =>
                    let! g := evv n s fr e in
                    through fr g (fun x => let! (s, fr) := block (exec n) s (frame0 x) body in GRet (s, f_recv fr))
                end
              else GStuck
          | _ => GStuck
          end
      | SMeth _ _ _ => GStuck
      | SVar x t => let! z := some_or (gzero n t) GOut in GRet (s, push x z fr)
      | SDef x e => let! g := evv n s fr e in match g with GV v => GRet (s, push x v fr) | _ => GStuck end
      | SAssign a b =>
          let! o := ev n s fr a in let! g := evv n s fr b in
          match o, g with OPl p, GV v => let! fr := some_or (store fr p v) GStuck in GRet (s, fr) | _, _ => GStuck end
      | SBlock ss => block (exec n) s fr ss
      | SIf c a b =>
          let! t := ev_bool n s fr c in
          if t then block (exec n) s fr a else match b with Some b => block (exec n) s fr b | None => GRet (s, fr) end
      | SFor x init c ss =>
          let! g := evv n s fr init in
          match g with
          | GV (VInt z0) => let! (s, fr') := loop (exec n) n n x c ss s (push x (VInt z0) fr) in GRet (s, pop (depth fr) fr')
          | _ => GStuck
          end
      | SSwitch e cs =>
          let! g := evv n s fr e in
          let! o := find_clause n s fr g cs in
          match o with
          | Some cs => run (exec n) s fr cs
          | None => match find_default cs with Some cs => run (exec n) s fr cs | None => GRet (s, fr) end
          end
      end
  end.

(** A call of the generated method Xdr of [*x]: the state and the pointee afterwards. *)
Definition call (n : nat) (x : string) (s : xst) (v : val) : gor (xst * val) :=
  match lookup x (g_meths G) with
  | None => GStuck
  | Some body => let! (s, fr) := block (exec n) s (frame0 v) body in GRet (s, f_recv fr)
  end.
End Sem.
