(** Syntax trees of Go, as far as the hand-written files /repo/xdr/{lib,helper,types}.go and
    /repo/rfc1057/{types,client,server}.go use it, and the tokens they are written with. *)
From Verif Require Import GoLex.
Open Scope string_scope.
Open Scope list_scope.

(** ** Expressions and types (Go's grammar does not separate them) *)
Inductive gx : Type :=
| EId (x : string)
| EInt (s : string)                                     (* as written *)
| EStr (s : string)                                     (* as written, with the quotes *)
| EParen (e : gx)
| EUn (o : string) (e : gx)                             (* also the type *T *)
| EBin (o : string) (a b : gx)
| ESel (e : gx) (f : string)                            (* e.f *)
| EIdx (e i : gx)                                       (* e[i] *)
| ESub (e : gx) (lo hi mx : option gx)                  (* e[lo:hi:mx] *)
| ECall (f : gx) (args : list gx) (dots : bool)         (* f(args), f(args...) *)
| EAssert (e t : gx)                                    (* e.(T) *)
| EComp (t : gx) (fs : list (string * gx))              (* T{f: e, ...}, a field on each line *)
| TSlice (t : gx)
| TArr (n t : gx)
| TMap (k v : gx)
| TStruct (fs : list (string * gx))                     (* a field on each line *)
| TStruct1 (f : string) (t : gx)                        (* struct{ f t }, on one line *)
| TIface (ms : list (string * gx))                      (* methods with their TFunc *)
| TFunc (ps rs : list (list string * gx)) (par : bool). (* parameters, results, whether the results are in parentheses *)

Inductive gs : Type :=
| SExpr (e : gx)
| SVar (x : string) (t : gx)                            (* var x T *)
| SDef (xs : list string) (e : gx)                      (* x, y := e *)
| SSet (ls : list gx) (e : gx)                          (* a, b = e *)
| SInc (e : gx)                                         (* e++ *)
| SIf (c : gx) (a : list gs) (b : option (list gs))
| SFor (b : list gs)                                    (* for { b } *)
| SRange (k v : string) (e : gx) (b : list gs)          (* for k, v := range e { b } *)
| SRet (es : list gx)
| SGo (e : gx)
| SDefer (e : gx)
| SGoto (l : string)
| SLabel (l : string).                                  (* l: before the next statement *)

Inductive gd : Type :=
| DImport (ps : list string)
| DVar (x : string) (t : gx)
| DType (x : string) (t : gx)
| DConst (x : string) (t e : gx)
| DFunc (recv : option (string * gx)) (x : string) (ps rs : list (list string * gx)) (par : bool)
        (body : list gs) (oneline : bool).

Record gfile : Type := mkFile { f_pkg : string; f_decls : list gd }.

(** ** The tokens of a tree; a semicolon for each newline where the scanner puts one *)
Definition commas (ls : list (list gtok)) : list gtok :=
  match ls with [] => [] | l :: ls => l ++ flat_map (fun l => GOp "," :: l) ls end.
Definition names (xs : list string) : list gtok := commas (map (fun x => [GIdent x]) xs).

Fixpoint toks (e : gx) : list gtok :=
  let oe o := match o with Some e => toks e | None => [] end in
  let params ps := GOp "(" :: commas (map (fun p : list string * gx => names (fst p) ++ toks (snd p)) ps) ++ [GOp ")"] in
  match e with
  | EId x => [GIdent x]
  | EInt s => [GInt s]
  | EStr s => [GoLex.GStr s]
  | EParen e => GOp "(" :: toks e ++ [GOp ")"]
  | EUn o e => GOp o :: toks e
  | EBin o a b => toks a ++ GOp o :: toks b
  | ESel e f => toks e ++ [GOp "."; GIdent f]
  | EIdx e i => toks e ++ GOp "[" :: toks i ++ [GOp "]"]
  | ESub e lo hi mx => toks e ++ GOp "[" :: oe lo ++ GOp ":" :: oe hi ++ match mx with Some m => GOp ":" :: toks m | None => [] end ++ [GOp "]"]
  | ECall f args dots => toks f ++ GOp "(" :: commas (map toks args) ++ (if dots then [GOp "..."] else []) ++ [GOp ")"]
  | EAssert e t => toks e ++ GOp "." :: GOp "(" :: toks t ++ [GOp ")"]
  | EComp t fs => toks t ++ GOp "{" :: flat_map (fun f : string * gx => GIdent (fst f) :: GOp ":" :: toks (snd f) ++ [GOp ","]) fs ++ [GOp "}"]
  | TSlice t => GOp "[" :: GOp "]" :: toks t
  | TArr n t => GOp "[" :: toks n ++ GOp "]" :: toks t
  | TMap k v => GKw "map" :: GOp "[" :: toks k ++ GOp "]" :: toks v
  | TStruct fs => GKw "struct" :: GOp "{" :: flat_map (fun f : string * gx => GIdent (fst f) :: toks (snd f) ++ [GSemi]) fs ++ [GOp "}"]
  | TStruct1 f t => GKw "struct" :: GOp "{" :: GIdent f :: toks t ++ [GOp "}"]
  | TIface ms => GKw "interface" :: GOp "{" :: flat_map (fun f : string * gx => GIdent (fst f) :: tl (toks (snd f)) ++ [GSemi]) ms ++ [GOp "}"]
  | TFunc ps rs par => GKw "func" :: params ps ++ (if par then params rs else flat_map (fun p : list string * gx => toks (snd p)) rs)
  end.

Definition sig_toks (ps rs : list (list string * gx)) (par : bool) : list gtok := tl (toks (TFunc ps rs par)).

Fixpoint stoks (s : gs) : list gtok :=
  let blk b := GOp "{" :: flat_map stoks b ++ [GOp "}"] in
  match s with
  | SExpr e => toks e ++ [GSemi]
  | SVar x t => GKw "var" :: GIdent x :: toks t ++ [GSemi]
  | SDef xs e => names xs ++ GOp ":=" :: toks e ++ [GSemi]
  | SSet ls e => commas (map toks ls) ++ GOp "=" :: toks e ++ [GSemi]
  | SInc e => toks e ++ [GOp "++"; GSemi]
  | SIf c a b => GKw "if" :: toks c ++ blk a ++ match b with Some b => GKw "else" :: blk b | None => [] end ++ [GSemi]
  | SFor b => GKw "for" :: blk b ++ [GSemi]
  | SRange k v e b => GKw "for" :: GIdent k :: GOp "," :: GIdent v :: GOp ":=" :: GKw "range" :: toks e ++ blk b ++ [GSemi]
  | SRet es => GKw "return" :: commas (map toks es) ++ [GSemi]
  | SGo e => GKw "go" :: toks e ++ [GSemi]
  | SDefer e => GKw "defer" :: toks e ++ [GSemi]
  | SGoto l => [GKw "goto"; GIdent l; GSemi]
  | SLabel l => [GIdent l; GOp ":"]
  end.

Definition dtoks (d : gd) : list gtok :=
  match d with
  | DImport ps => GKw "import" :: GOp "(" :: flat_map (fun p => [GoLex.GStr p; GSemi]) ps ++ [GOp ")"; GSemi]
  | DVar x t => GKw "var" :: GIdent x :: toks t ++ [GSemi]
  | DType x t => GKw "type" :: GIdent x :: toks t ++ [GSemi]
  | DConst x t e => GKw "const" :: GIdent x :: toks t ++ GOp "=" :: toks e ++ [GSemi]
  | DFunc recv x ps rs par body one =>
      GKw "func" :: match recv with Some (r, t) => GOp "(" :: GIdent r :: toks t ++ [GOp ")"] | None => [] end
      ++ GIdent x :: sig_toks ps rs par ++ GOp "{" :: (if one then removelast (flat_map stoks body) else flat_map stoks body) ++ [GOp "}"; GSemi]
  end.
Definition ftoks (f : gfile) : list gtok := GKw "package" :: GIdent (f_pkg f) :: GSemi :: flat_map dtoks (f_decls f).

(** ** Grouping: the tree respects Go's operator precedence, so that it is the one the tokens mean
    (all binary operators associate to the left). *)
Definition prec (o : string) : nat :=
  if String.eqb o "||" then 1 else if String.eqb o "&&" then 2
  else if GoLex.mem o ["=="; "!="; "<"; "<="; ">"; ">="] then 3
  else if GoLex.mem o ["+"; "-"; "|"; "^"] then 4 else 5.
Definition level (e : gx) : nat := match e with EBin o _ _ => prec o | EUn _ _ => 6 | _ => 7 end.
Fixpoint grouped (e : gx) : bool :=
  let og o := match o with Some e => grouped e | None => true end in
  match e with
  | EId _ | EInt _ | EStr _ => true
  | EParen e | TSlice e | TStruct1 _ e => grouped e
  | EUn _ e => grouped e && Nat.leb 6 (level e)
  | EBin o a b => grouped a && grouped b && Nat.leb (prec o) (level a) && Nat.ltb (prec o) (level b)
  | ESel e _ => grouped e && Nat.eqb (level e) 7
  | EIdx e i => grouped e && grouped i && Nat.eqb (level e) 7
  | ESub e lo hi mx => grouped e && Nat.eqb (level e) 7 && og lo && og hi && og mx
  | ECall f args _ => grouped f && Nat.eqb (level f) 7 && forallb grouped args
  | EAssert e t => grouped e && Nat.eqb (level e) 7 && grouped t
  | EComp t fs => grouped t && Nat.eqb (level t) 7 && forallb (fun f : string * gx => grouped (snd f)) fs
  | TArr a b | TMap a b => grouped a && grouped b
  | TStruct fs | TIface fs => forallb (fun f : string * gx => grouped (snd f)) fs
  | TFunc ps rs _ => forallb (fun p : list string * gx => grouped (snd p)) ps && forallb (fun p : list string * gx => grouped (snd p)) rs
  end.
Fixpoint sgrouped (s : gs) : bool :=
  match s with
  | SExpr e | SVar _ e | SDef _ e | SInc e | SGo e | SDefer e => grouped e
  | SSet ls e => forallb grouped ls && grouped e
  | SIf c a b => grouped c && forallb sgrouped a && match b with Some b => forallb sgrouped b | None => true end
  | SFor b => forallb sgrouped b
  | SRange _ _ e b => grouped e && forallb sgrouped b
  | SRet es => forallb grouped es
  | SGoto _ | SLabel _ => true
  end.
Definition dgrouped (d : gd) : bool :=
  match d with
  | DImport _ => true
  | DVar _ t | DType _ t => grouped t
  | DConst _ t e => grouped t && grouped e
  | DFunc recv _ ps rs par body _ =>
      match recv with Some (_, t) => grouped t | None => true end && grouped (TFunc ps rs par) && forallb sgrouped body
  end.
