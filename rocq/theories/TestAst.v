(** Syntax trees of the tests of the repository (/repo/xdr/xdr_test.go,
    /repo/rfc1057/fuzz_test.go, /repo/rfc1813/fuzz_test.go), their tokens, and what they do when
    run.  The expressions are those of SrcAst.v, with three forms added that only the tests use. *)
From Coq Require Import Ascii String List ZArith.
From Verif Require Import Bytes XdrLib Types GoLex GoAst GoSem GenFuzz SrcAst.
Import ListNotations.
Open Scope string_scope.
Open Scope Z_scope.
Open Scope list_scope.

(** ** Trees *)
Inductive tx : Type :=
| TX (e : gx)
| TLit (t : gx) (es : list gx)                               (* T{e, ...}, on one line *)
| TAddr (x : tx)                                             (* &x *)
| TFn (ps : list (list string * gx)) (body : list ts)        (* func(ps) { body } *)
| TApp (f : gx) (args : list tx)                             (* f(args), an argument being of these forms *)
with ts : Type :=
| TExpr (x : tx)
| TVar (x : string) (t : gx)                                 (* var x T *)
| TDef (xs : list string) (x : tx)                           (* x, y := e *)
| TSet (ls : list gx) (x : tx)                               (* a, b = e *)
| TIf (c : gx) (b : list ts)
| TRet.
(** A file: its package, the paths it imports, its functions with their parameters. *)
Record tfile : Type := mkTfile { t_pkg : string; t_imports : list string; t_funcs : list (string * (list (list string * gx) * list ts)) }.

(** ** Tokens, as in SrcAst.v *)
Fixpoint xtoks (x : tx) : list gtok :=
  match x with
  | TX e => toks e
  | TLit t es => toks t ++ GOp "{" :: commas (map toks es) ++ [GOp "}"]
  | TAddr x => GOp "&" :: xtoks x
  | TFn ps body => toks (TFunc ps [] false) ++ GOp "{" :: flat_map tstoks body ++ [GOp "}"]
  | TApp f args => toks f ++ GOp "(" :: commas (map xtoks args) ++ [GOp ")"]
  end
with tstoks (s : ts) : list gtok :=
  match s with
  | TExpr x => xtoks x ++ [GSemi]
  | TVar x t => stoks (SVar x t)
  | TDef xs x => names xs ++ GOp ":=" :: xtoks x ++ [GSemi]
  | TSet ls x => commas (map toks ls) ++ GOp "=" :: xtoks x ++ [GSemi]
  | TIf c b => GKw "if" :: toks c ++ GOp "{" :: flat_map tstoks b ++ [GOp "}"; GSemi]
  | TRet => [GKw "return"; GSemi]
  end.
Definition tftoks (f : tfile) : list gtok :=
  GKw "package" :: GIdent (t_pkg f) :: GSemi :: dtoks (DImport (t_imports f)) ++
  flat_map (fun d => GKw "func" :: GIdent (fst d) :: sig_toks (fst (snd d)) [] false ++ GOp "{" :: flat_map tstoks (snd (snd d)) ++ [GOp "}"; GSemi]) (t_funcs f).
(** Grouping, as in SrcAst.v. *)
Fixpoint xgrouped (x : tx) : bool :=
  match x with
  | TX e => grouped e
  | TLit t es => grouped t && forallb grouped es
  | TAddr x => match x with TX e => grouped (EUn "&" e) | TAddr _ => false | _ => xgrouped x end
  | TFn ps body => grouped (TFunc ps [] false) && forallb tsgrouped body
  | TApp f args => grouped f && Nat.eqb (level f) 7 && forallb xgrouped args
  end
with tsgrouped (s : ts) : bool :=
  match s with
  | TExpr x | TDef _ x => xgrouped x
  | TVar _ t => grouped t
  | TSet ls x => forallb grouped ls && xgrouped x
  | TIf c b => grouped c && forallb tsgrouped b
  | TRet => true
  end.
(** The scanner reads the text as exactly the tokens of the tree. *)
Definition is_test (text : string) (f : tfile) : Prop :=
  go_tokens text = Some (tftoks f) /\ forallb (fun d => forallb tsgrouped (snd (snd d))) (t_funcs f) = true.

(** ** Running them *)
(** What a variable holds: a value, an error, the XdrState a *XdrState points to (no two variables
    of the tests hold the same pointer), or the *testing.T or *testing.F of the test. *)
Inductive tv : Type := OVal (v : val) | OErr (e : option xerr) | OState (s : xst) | OTest.
(** The variables, innermost first, each with its type when that was declared with a name; how many
    of them are outside the current block; the seeds given to f.Add, the function given to f.Fuzz,
    and the outcomes of the assertions so far. *)
Record tst : Type := mkTst {
  vars : list (string * (string * tv));
  base : nat;
  seeds : list (list byte);
  fuzzed : option (list (list string * gx) * list ts);
  asserts : list bool
}.
Definition with_vars (st : tst) (l : list (string * (string * tv))) : tst := mkTst l (base st) (seeds st) (fuzzed st) (asserts st).

Definition tmem (x : string) (l : list string) : bool := existsb (String.eqb x) l.
Definition free (st : tst) (x : string) : bool := negb (tmem x (map fst (vars st))).
(** Declaring a variable; one name twice in one block is not Go. *)
Definition declare (st : tst) (x ty : string) (v : tv) : gor tst :=
  if tmem x (map fst (firstn (List.length (vars st) - base st) (vars st))) then GStuck else GRet (with_vars st ((x, (ty, v)) :: vars st)).
Fixpoint put {A} (x : string) (v : A) (l : list (string * A)) : list (string * A) :=
  match l with [] => [] | (y, u) :: l => if String.eqb x y then (y, v) :: l else (y, u) :: put x v l end.
Definition store (st : tst) (x : string) (v : tv) : gor tst :=
  match lookup x (vars st) with Some (ty, _) => GRet (with_vars st (put x (ty, v) (vars st))) | None => GStuck end.

(** v.f, through a pointer when v is one *)
Definition field (v : val) (f : string) : gor val :=
  match v with
  | VStruct fs => some_or (lookup f fs) GStuck
  | VPtr None => GPanic
  | VPtr (Some (VStruct fs)) => some_or (lookup f fs) GStuck
  | _ => GStuck
  end.
(** v.f1...fk = u *)
Fixpoint set_path (path : list string) (v u : val) : gor val :=
  match path with
  | [] => GRet u
  | f :: path =>
      let upd fs := match lookup f fs with Some x => let! x := set_path path x u in GRet (put f x fs) | None => GStuck end in
      match v with
      | VStruct fs => let! fs := upd fs in GRet (VStruct fs)
      | VPtr None => GPanic
      | VPtr (Some (VStruct fs)) => let! fs := upd fs in GRet (VPtr (Some (VStruct fs)))
      | _ => GStuck
      end
  end.
Fixpoint path_of (e : gx) : option (string * list string) :=
  match e with
  | EId x => Some (x, [])
  | ESel e f => match path_of e with Some (x, p) => Some (x, p ++ [f]) | None => None end
  | _ => None
  end.
(** A string literal without escapes. *)
Fixpoint quoted (s : string) : option string :=
  match s with
  | String """" EmptyString => Some EmptyString
  | String c s => if Ascii.eqb c """" || Ascii.eqb c "\" then None else option_map (String c) (quoted s)
  | EmptyString => None
  end.
Definition str_lit (s : string) : option string := match s with String """" s => quoted s | _ => None end.
Definition byte_lit (e : gx) : gor byte :=
  match e with EInt s => match num_val s with Some z => if (0 <=? z) && (z <? 256) then GRet (z2b z) else GStuck | None => GStuck end | _ => GStuck end.
Fixpoint gmap {A B} (f : A -> gor B) (l : list A) : gor (list B) :=
  match l with [] => GRet [] | a :: l => let! b := f a in let! l := gmap f l in GRet (b :: l) end.
Definition type_name (t : gx) : string := match t with EId x => x | _ => "" end.
Definition as_call (x : tx) : option (gx * list tx) :=
  match x with TX (ECall f args false) => Some (f, map TX args) | TApp f args => Some (f, args) | _ => None end.
Definition xdr_path : string := """github.com/zeldovich/go-rpcgen/xdr""".
Definition assert_path : string := """github.com/stretchr/testify/assert""".

Section Run.
Variables (pkg : string) (imports : list string).
(** Of the package tested: the zero value of a type, the value of a constant, the method Xdr. *)
Variables (Z0 : string -> gor val) (K : string -> option Z) (X : string -> xst -> val -> gor (xst * val)).

(** The package name [x] stands for the package imported from [path]. *)
Definition imported (st : tst) (x path : string) : bool := free st x && tmem path imports.
(** A function of package xdr, called in that package. *)
Definition own_xdr (st : tst) (f : string) : bool := String.eqb pkg "xdr" && free st f.

(** Expressions; reading them changes nothing.  Slicing b[:k] beyond the length (which Go allows up
    to the capacity) is stuck. *)
Fixpoint gval (st : tst) (e : gx) : gor tv :=
  match e with
  | EInt s => match num_val s with Some z => GRet (OVal (VInt z)) | None => GStuck end
  | EStr s => match str_lit s with Some s => GRet (OVal (VStr (list_byte_of_string s))) | None => GStuck end
  | EId x => match lookup x (vars st) with Some (_, v) => GRet v | None => match K x with Some z => GRet (OVal (VInt z)) | None => GStuck end end
  | ESel e f => let! v := gval st e in match v with OVal v => let! u := field v f in GRet (OVal u) | _ => GStuck end
  | ESub e None (Some (EInt k)) None =>
      let! v := gval st e in
      match v, num_val k with
      | OVal (VBytes (Some l)), Some k => if (0 <=? k) && (k <=? zlen l) then GRet (OVal (VBytes (Some (firstn (Z.to_nat k) l)))) else GStuck
      | _, _ => GStuck
      end
  | ECall (ESel e f) [] false =>
      let! v := gval st e in
      match v with
      | OState s => if String.eqb f "Error" then GRet (OErr (Error s)) else if String.eqb f "WriteBuf" then GRet (OVal (VBytes (Some (WriteBuf s)))) else GStuck
      | _ => GStuck
      end
  | ECall (EId f) [a] false =>
      if negb (own_xdr st f) then GStuck
      else if String.eqb f "MakeWriter" then match a with EId n => if String.eqb n "nil" && free st n then GRet (OState (MakeWriter [])) else GStuck | _ => GStuck end
      else if String.eqb f "MakeReader" then let! v := gval st a in match v with OVal (VBytes o) => GRet (OState (MakeReader (bytes_of o))) | _ => GStuck end
      else GStuck
  | _ => GStuck
  end.
Definition tval (st : tst) (x : tx) : gor tv :=
  match x with
  | TX e => gval st e
  | TLit (TSlice (EId t)) es => if String.eqb t "byte" then let! l := gmap byte_lit es in GRet (OVal (VBytes (Some l))) else GStuck
  | TLit (EId t) [] => let! v := Z0 t in GRet (OVal v)
  | TAddr (TLit (EId t) []) => let! v := Z0 t in GRet (OVal (VPtr (Some v)))
  | _ => GStuck
  end.
(** err != nil, !reflect.DeepEqual(a, b) *)
Definition tcond (st : tst) (c : gx) : gor bool :=
  match c with
  | EBin o a (EId n) =>
      if String.eqb o "!=" && String.eqb n "nil" && free st n then let! v := gval st a in match v with OErr e => GRet (match e with Some _ => true | None => false end) | _ => GStuck end
      else GStuck
  | EUn o (ECall (ESel (EId r) f) [a; b] false) =>
      if String.eqb o "!" && String.eqb r "reflect" && imported st r """reflect""" && String.eqb f "DeepEqual" then
        let! x := gval st a in let! y := gval st b in
        match x, y with OVal x, OVal y => GRet (negb (deep_equal x y)) | _, _ => GStuck end
      else GStuck
  | _ => GStuck
  end.
(** Is the variable [x] of type *testing.[k]?  Its type was recorded as [k]. *)
Definition testing (st : tst) (x k : string) : bool :=
  match lookup x (vars st) with Some (ty, OTest) => String.eqb ty k | _ => false end.
Definition check (st : tst) (b : bool) : gor (tst * list tv) := GRet (mkTst (vars st) (base st) (seeds st) (fuzzed st) (asserts st ++ [b]), []).
(** Calls with an effect, and their results.  assert.Equal compares as reflect.DeepEqual does, byte
    slices with bytes.Equal unless one is nil, which is the same; a failing assertion records the
    failure and goes on. *)
Definition tcall (st : tst) (f : gx) (args : list tx) : gor (tst * list tv) :=
  match f, args with
  | EId p, [_] => if String.eqb p "panic" && free st p then GPanic else GStuck
  | EId g, [TX (EId s); TX (EInt k); TX (EUn a (EId x))] =>
      if own_xdr st g && String.eqb a "&" then
        match lookup s (vars st), num_val k, lookup x (vars st) with
        | Some (_, OState q), Some k, Some (_, OVal (VStr v)) =>
            if String.eqb g "XdrString" then let '(q, v) := XdrString q k v in let! st := store st s (OState q) in let! st := store st x (OVal (VStr v)) in GRet (st, []) else GStuck
        | Some (_, OState q), Some k, Some (_, OVal (VBytes v)) =>
            if String.eqb g "XdrVarArray" then let '(q, v) := XdrVarArray q k v in let! st := store st s (OState q) in let! st := store st x (OVal (VBytes v)) in GRet (st, []) else GStuck
        | _, _, _ => GStuck
        end
      else GStuck
  | ESel (EId p) g, [TX (EUn a (EId x))] =>
      if String.eqb p "xdr" && imported st p xdr_path && String.eqb g "EncodeBuf" && String.eqb a "&" then
        match lookup x (vars st) with
        | Some (ty, OVal v) => let! (q, v) := X ty (MakeWriter []) v in let! st := store st x (OVal v) in GRet (st, [OVal (VBytes (Some (WriteBuf q))); OErr (Error q)])
        | _ => GStuck
        end
      else GStuck
  | ESel (EId p) g, [TX (EId d); TX (EUn a (EId x))] =>
      if String.eqb p "xdr" && imported st p xdr_path && String.eqb g "DecodeBuf" && String.eqb a "&" then
        match lookup d (vars st), lookup x (vars st) with
        | Some (_, OVal (VBytes b)), Some (ty, OVal v) => let! (q, v) := X ty (MakeReader (bytes_of b)) v in let! st := store st x (OVal v) in GRet (st, [OErr (Error q)])
        | _, _ => GStuck
        end
      else GStuck
  | ESel (EId p) g, [TX (EId t); TX e] =>
      if String.eqb p "assert" && imported st p assert_path && testing st t "T" then
        let! v := gval st e in
        match v with
        | OErr e => if String.eqb g "NoError" then check st (match e with None => true | Some _ => false end)
                    else if String.eqb g "Error" then check st (match e with None => false | Some _ => true end) else GStuck
        | _ => GStuck
        end
      else GStuck
  | ESel (EId p) g, [TX (EId t); TX a; TX b] =>
      if String.eqb p "assert" && imported st p assert_path && testing st t "T" && String.eqb g "Equal" then
        let! x := gval st a in let! y := gval st b in
        match x, y with OVal x, OVal y => check st (deep_equal x y) | _, _ => GStuck end
      else GStuck
  | ESel (EId p) g, [x] =>
      if testing st p "F" then
        if String.eqb g "Add" then
          let! v := tval st x in match v with OVal (VBytes b) => GRet (mkTst (vars st) (base st) (seeds st ++ [bytes_of b]) (fuzzed st) (asserts st), []) | _ => GStuck end
        else match x with
             | TFn ps body => if String.eqb g "Fuzz" then GRet (mkTst (vars st) (base st) (seeds st) (Some (ps, body)) (asserts st), []) else GStuck
             | _ => GStuck
             end
      else GStuck
  | _, _ => GStuck
  end.
(** Which calls those are; x.Error() and x.WriteBuf() only read. *)
Definition effects (x : tx) : bool :=
  match as_call x with
  | Some (EId p, _) => tmem p ["panic"; "XdrString"; "XdrVarArray"]
  | Some (ESel _ _, args) => match args with [] => false | _ => true end
  | _ => false
  end.
(** The values of the right-hand side of a statement. *)
Definition rhs (st : tst) (x : tx) : gor (tst * list tv) :=
  match as_call x with
  | Some (f, args) => if effects x then tcall st f args else let! v := tval st x in GRet (st, [v])
  | None => let! v := tval st x in GRet (st, [v])
  end.
Definition assign (st : tst) (l : gx) (v : tv) : gor tst :=
  match path_of l with
  | Some (x, []) => store st x v
  | Some (x, p) => match lookup x (vars st), v with
                   | Some (_, OVal w), OVal u => let! w := set_path p w u in store st x (OVal w)
                   | _, _ => GStuck
                   end
  | None => GStuck
  end.
Fixpoint each {A} (f : tst -> A -> tv -> gor tst) (st : tst) (ls : list A) (vs : list tv) : gor tst :=
  match ls, vs with
  | [], [] => GRet st
  | l :: ls, v :: vs => let! st := f st l v in each f st ls vs
  | _, _ => GStuck
  end.
Definition enter (st : tst) : tst := mkTst (vars st) (List.length (vars st)) (seeds st) (fuzzed st) (asserts st).
(** After a block the variables declared in it are gone. *)
Definition leave (n : nat) (b : nat) (st : tst) : tst := mkTst (skipn (List.length (vars st) - n) (vars st)) b (seeds st) (fuzzed st) (asserts st).
Definition var_zero (t : gx) : gor tv :=
  match t with
  | EId s => if String.eqb s "string" then GRet (OVal (VStr [])) else let! v := Z0 s in GRet (OVal v)
  | TSlice (EId b) => if String.eqb b "byte" then GRet (OVal (VBytes None)) else GStuck
  | _ => GStuck
  end.
Definition tblock (ex : tst -> ts -> gor (tst * bool)) : tst -> list ts -> gor (tst * bool) :=
  fix go st l := match l with [] => GRet (st, false) | s :: l => let! (st, r) := ex st s in if r then GRet (st, true) else go st l end.
(** A statement; the boolean says whether it returned. *)
Fixpoint texec (st : tst) (s : ts) {struct s} : gor (tst * bool) :=
  match s with
  | TExpr x => let! (st, _) := rhs st x in GRet (st, false)
  | TVar x t => let! v := var_zero t in let! st := declare st x (type_name t) v in GRet (st, false)
  | TDef xs x => let! (st, vs) := rhs st x in let! st := each (fun st x v => declare st x "" v) st xs vs in GRet (st, false)
  | TSet ls x => let! (st, vs) := rhs st x in let! st := each assign st ls vs in GRet (st, false)
  | TIf c b =>
      let! t := tcond st c in
      if t then let! (st', r) := tblock texec (enter st) b in GRet (leave (List.length (vars st)) (base st) st', r) else GRet (st, false)
  | TRet => GRet (st, true)
  end.

(** A parameter of type *testing.T or *testing.F. *)
Definition test_param (ps : list (list string * gx)) : option (string * string) :=
  match ps with [([x], EUn s (ESel (EId p) k))] => if String.eqb s "*" && String.eqb p "testing" && tmem """testing""" imports then Some (x, k) else None | _ => None end.
(** Running a test function from the start. *)
Definition run_body (ps : list (list string * gx)) (body : list ts) : gor tst :=
  match test_param ps with
  | Some (x, k) => let! (st, _) := tblock texec (mkTst [(x, (k, OTest))] 0 [] None []) body in GRet st
  | None => GStuck
  end.
(** Running the function given to f.Fuzz on [data], in what FuzzDecodeEncode left; the result says
    whether it returned before its end. *)
Definition run_fuzz (st : tst) (data : list byte) : gor (tst * bool) :=
  match fuzzed st with
  | Some ([p; ([d], TSlice (EId b))], body) =>
      match test_param [p] with
      | Some (x, k) =>
          if String.eqb b "byte" then
            let! (st', r) := tblock texec (mkTst ((d, ("", OVal (VBytes (Some data)))) :: (x, (k, OTest)) :: vars st) (List.length (vars st)) (seeds st) (fuzzed st) (asserts st)) body in
            GRet (leave (List.length (vars st)) (base st) st', r)
          else GStuck
      | None => GStuck
      end
  | _ => GStuck
  end.
End Run.

(** The function [x] of the file, with the types, constants and methods given. *)
Definition run_test (f : tfile) (Z0 : string -> gor val) (K : string -> option Z) (X : string -> xst -> val -> gor (xst * val)) (x : string) : gor tst :=
  match lookup x (t_funcs f) with Some (ps, body) => run_body (t_pkg f) (t_imports f) Z0 K X ps body | None => GStuck end.
(** In a package [G], with [m] nested calls at most. *)
Definition test_in (f : tfile) (G : gpkg) (m : nat) : string -> gor tst :=
  run_test f (fun x => some_or (gzero G m (GNamed x)) GOut) (cval G) (call G m).
Definition fuzz_in (f : tfile) (G : gpkg) (m : nat) : tst -> list byte -> gor (tst * bool) :=
  run_fuzz (t_pkg f) (t_imports f) (fun x => some_or (gzero G m (GNamed x)) GOut) (cval G) (call G m).
