(** Syntax trees of Go, as far as package main (/repo/{main,scan,out}.go and the actions of
    /repo/xdr.y) uses it, and the tokens they are written with. *)
From Verif Require Import GoLex SrcAst.
Open Scope string_scope.
Open Scope list_scope.

(** ** Expressions and types *)
Inductive mx : Type :=
| XId (x : string)
| XInt (s : string)                                     (* as written *)
| XStr (s : string)                                     (* as written, with the quotes *)
| XChr (s : string)                                     (* likewise *)
| XUn (o : string) (e : mx)                             (* also the type *T *)
| XBin (o : string) (a b : mx)
| XSel (e : mx) (f : string)                            (* e.f *)
| XSub (e : mx) (lo hi : option mx)                     (* e[lo:hi] *)
| XCall (f : mx) (args : list mx)
| XLit (t : mx) (es : list mx)                          (* T{e, ...} *)
| XLitK (t : mx) (fs : list (string * mx))              (* T{f: e, ...} *)
| XDol (n : nat)                                        (* $n in an action of xdr.y *)
| XSlice (t : mx)                                       (* []T *)
| XStruct (fs : list (string * mx))                     (* a field on each line *)
| XIface (ms : list (string * list (string * mx) * list mx)).     (* methods: parameters, results *)

Inductive ms : Type :=
| TExpr (e : mx)
| TVar (x : string) (t : mx)                            (* var x T *)
| TDef (xs : list string) (e : mx)                      (* x, y := e *)
| TSet (ls : list mx) (e : mx)                          (* a, b = e *)
| TAdd (x : mx) (e : mx)                                (* x += e *)
| TIf (c : mx) (a : list ms) (b : option (list ms))
| TRange (k v : string) (e : mx) (b : list ms)          (* for k, v := range e { b } *)
| TSwitch (e : mx) (cs : list (option mx * list ms))    (* switch e { case a: ... default: ... } *)
| TType (x : option string) (e : mx) (cs : list (string * list ms))   (* switch x := e.(type) { case T: ... } *)
| TRet (es : list mx)
| TDefer (e : mx).

Inductive md : Type :=
| MImport (ps : list string)
| MVar (x : string) (t : mx)                            (* var x T *)
| MInit (x : string) (e : mx)                           (* var x = e *)
| MType (x : string) (t : mx)
| MConst (x : string) (e : mx)                          (* const x = e *)
| MFunc (recv : option (string * mx)) (x : string) (ps : list (string * mx)) (rs : list mx) (body : list ms) (oneline : bool).

Record mfile : Type := mkMFile { mf_pkg : string; mf_decls : list md }.

(** ** The tokens of a tree *)
Fixpoint xtoks (e : mx) : list gtok :=
  let oe o := match o with Some e => xtoks e | None => [] end in
  match e with
  | XId x => [GIdent x]
  | XInt s => [GInt s]
  | XStr s => [GoLex.GStr s]
  | XChr s => [GChar s]
  | XUn o e => GOp o :: xtoks e
  | XBin o a b => xtoks a ++ GOp o :: xtoks b
  | XSel e f => xtoks e ++ [GOp "."; GIdent f]
  | XSub e lo hi => xtoks e ++ GOp "[" :: oe lo ++ GOp ":" :: oe hi ++ [GOp "]"]
  | XCall f args => xtoks f ++ GOp "(" :: commas (map xtoks args) ++ [GOp ")"]
  | XLit t es => xtoks t ++ GOp "{" :: commas (map xtoks es) ++ [GOp "}"]
  | XLitK t fs => xtoks t ++ GOp "{" :: commas (map (fun f : string * mx => GIdent (fst f) :: GOp ":" :: xtoks (snd f)) fs) ++ [GOp "}"]
  | XDol n => [GIllegal "$"; GInt (String (ascii_of_nat (48 + n)) EmptyString)]
  | XSlice t => GOp "[" :: GOp "]" :: xtoks t
  | XStruct fs => GKw "struct" :: GOp "{" :: flat_map (fun f : string * mx => GIdent (fst f) :: xtoks (snd f) ++ [GSemi]) fs ++ [GOp "}"]
  | XIface ms =>
      GKw "interface" :: GOp "{" ::
      flat_map (fun f : string * list (string * mx) * list mx =>
        GIdent (fst (fst f)) :: GOp "(" :: commas (map (fun p : string * mx => GIdent (fst p) :: xtoks (snd p)) (snd (fst f))) ++ GOp ")" :: flat_map xtoks (snd f) ++ [GSemi]) ms ++ [GOp "}"]
  end.

Fixpoint mtoks (s : ms) : list gtok :=
  let blk b := GOp "{" :: flat_map mtoks b ++ [GOp "}"] in
  match s with
  | TExpr e => xtoks e ++ [GSemi]
  | TVar x t => GKw "var" :: GIdent x :: xtoks t ++ [GSemi]
  | TDef xs e => names xs ++ GOp ":=" :: xtoks e ++ [GSemi]
  | TSet ls e => commas (map xtoks ls) ++ GOp "=" :: xtoks e ++ [GSemi]
  | TAdd x e => xtoks x ++ GOp "+=" :: xtoks e ++ [GSemi]
  | TIf c a b => GKw "if" :: xtoks c ++ blk a ++ match b with Some b => GKw "else" :: blk b | None => [] end ++ [GSemi]
  | TRange k v e b => GKw "for" :: GIdent k :: GOp "," :: GIdent v :: GOp ":=" :: GKw "range" :: xtoks e ++ blk b ++ [GSemi]
  | TSwitch e cs =>
      GKw "switch" :: xtoks e ++ GOp "{" ::
      flat_map (fun c : option mx * list ms =>
        match fst c with Some e => GKw "case" :: xtoks e | None => [GKw "default"] end ++ GOp ":" :: flat_map mtoks (snd c)) cs ++ [GOp "}"; GSemi]
  | TType x e cs =>
      GKw "switch" :: match x with Some x => [GIdent x; GOp ":="] | None => [] end ++ xtoks e ++ GOp "." :: GOp "(" :: GKw "type" :: GOp ")" :: GOp "{" ::
      flat_map (fun c : string * list ms => GKw "case" :: GIdent (fst c) :: GOp ":" :: flat_map mtoks (snd c)) cs ++ [GOp "}"; GSemi]
  | TRet es => GKw "return" :: commas (map xtoks es) ++ [GSemi]
  | TDefer e => GKw "defer" :: xtoks e ++ [GSemi]
  end.

Definition mdtoks (d : md) : list gtok :=
  match d with
  | MImport ps => GKw "import" :: GOp "(" :: flat_map (fun p => [GoLex.GStr p; GSemi]) ps ++ [GOp ")"; GSemi]
  | MVar x t => GKw "var" :: GIdent x :: xtoks t ++ [GSemi]
  | MInit x e => GKw "var" :: GIdent x :: GOp "=" :: xtoks e ++ [GSemi]
  | MType x t => GKw "type" :: GIdent x :: xtoks t ++ [GSemi]
  | MConst x e => GKw "const" :: GIdent x :: GOp "=" :: xtoks e ++ [GSemi]
  | MFunc recv x ps rs body one =>
      GKw "func" :: match recv with Some (r, t) => GOp "(" :: GIdent r :: xtoks t ++ [GOp ")"] | None => [] end
      ++ GIdent x :: GOp "(" :: commas (map (fun p : string * mx => GIdent (fst p) :: xtoks (snd p)) ps) ++ GOp ")" :: flat_map xtoks rs
      ++ GOp "{" :: (if one then removelast (flat_map mtoks body) else flat_map mtoks body) ++ [GOp "}"; GSemi]
  end.
Definition mftoks (f : mfile) : list gtok := GKw "package" :: GIdent (mf_pkg f) :: GSemi :: flat_map mdtoks (mf_decls f).

(** ** Grouping, as in SrcAst.v *)
Definition xlevel (e : mx) : nat := match e with XBin o _ _ => prec o | XUn _ _ => 6 | _ => 7 end.
Fixpoint xgrouped (e : mx) : bool :=
  let og o := match o with Some e => xgrouped e | None => true end in
  match e with
  | XId _ | XInt _ | XStr _ | XChr _ | XDol _ => true
  | XSlice e => xgrouped e
  | XUn _ e => xgrouped e && Nat.leb 6 (xlevel e)
  | XBin o a b => xgrouped a && xgrouped b && Nat.leb (prec o) (xlevel a) && Nat.ltb (prec o) (xlevel b)
  | XSel e _ => xgrouped e && Nat.eqb (xlevel e) 7
  | XSub e lo hi => xgrouped e && Nat.eqb (xlevel e) 7 && og lo && og hi
  | XCall f args => xgrouped f && Nat.eqb (xlevel f) 7 && forallb xgrouped args
  | XLit t es => xgrouped t && Nat.eqb (xlevel t) 7 && forallb xgrouped es
  | XLitK t fs => xgrouped t && Nat.eqb (xlevel t) 7 && forallb (fun f : string * mx => xgrouped (snd f)) fs
  | XStruct fs => forallb (fun f : string * mx => xgrouped (snd f)) fs
  | XIface ms => forallb (fun f : string * list (string * mx) * list mx =>
      forallb (fun p : string * mx => xgrouped (snd p)) (snd (fst f)) && forallb xgrouped (snd f)) ms
  end.
Fixpoint mgrouped (s : ms) : bool :=
  match s with
  | TExpr e | TVar _ e | TDef _ e | TDefer e => xgrouped e
  | TSet ls e => forallb xgrouped ls && xgrouped e
  | TAdd x e => xgrouped x && xgrouped e
  | TIf c a b => xgrouped c && forallb mgrouped a && match b with Some b => forallb mgrouped b | None => true end
  | TRange _ _ e b => xgrouped e && forallb mgrouped b
  | TSwitch e cs => xgrouped e && forallb (fun c : option mx * list ms => match fst c with Some e => xgrouped e | None => true end && forallb mgrouped (snd c)) cs
  | TType _ e cs => xgrouped e && Nat.eqb (xlevel e) 7 && forallb (fun c : string * list ms => forallb mgrouped (snd c)) cs
  | TRet es => forallb xgrouped es
  end.
Definition mdgrouped (d : md) : bool :=
  match d with
  | MImport _ => true
  | MVar _ t | MInit _ t | MType _ t | MConst _ t => xgrouped t
  | MFunc recv _ ps rs body _ =>
      match recv with Some (_, t) => xgrouped t | None => true end && forallb (fun p : string * mx => xgrouped (snd p)) ps && forallb xgrouped rs && forallb mgrouped body
  end.

Definition is_main_source (text : string) (f : mfile) : Prop :=
  go_tokens text = Some (mftoks f) /\ forallb mdgrouped (mf_decls f) = true.
