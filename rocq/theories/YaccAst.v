(** The tree of a grammar file of goyacc, as far as /repo/xdr.y uses its language, and the tokens it is written with. *)
From Verif Require Import GoLex SrcAst MainAst.
Open Scope string_scope.
Open Scope list_scope.

(** An action: [$$ = e] or [e]; symbols are names, or characters with their quotes. *)
Inductive yact : Type := ASet (e : mx) | ADo (e : mx).
Record yfile : Type := mkYFile {
  y_pkg : string;                                                      (* %{ package main %} *)
  y_union : list (string * mx);                                        (* %union { f T; ... } *)
  y_tokens : list (option string * string);                            (* %token <f> X *)
  y_types : list (string * list string);                               (* %type <f> X ... *)
  y_rules : list (string * list (list string * option yact)) }.        (* X: X ... { action } | ... *)

Definition symtok (s : string) : gtok := match s with String "'" _ => GChar s | _ => GIdent s end.
Definition tag (f : string) : list gtok := [GOp "<"; GIdent f; GOp ">"].
Definition acttoks (a : option yact) : list gtok :=
  match a with
  | Some (ASet e) => GOp "{" :: GIllegal "$" :: GIllegal "$" :: GOp "=" :: xtoks e ++ [GOp "}"]
  | Some (ADo e) => GOp "{" :: xtoks e ++ [GOp "}"]
  | None => []
  end.
Fixpoint bars (l : list (list gtok)) : list gtok := match l with [] => [] | [a] => a | a :: l => a ++ GOp "|" :: bars l end.
Definition alttoks (a : list string * option yact) : list gtok := map symtok (fst a) ++ acttoks (snd a).
Definition ruletoks (r : string * list (list string * option yact)) : list gtok := GIdent (fst r) :: GOp ":" :: bars (map alttoks (snd r)).
(** The tokens of the file by the rules of Go, but for semicolons (yacc has no use for line ends). *)
Definition yftoks (f : yfile) : list gtok :=
  [GOp "%"; GOp "{"; GKw "package"; GIdent (y_pkg f); GOp "%"; GOp "}"; GOp "%"; GIdent "union"; GOp "{"]
  ++ flat_map (fun p : string * mx => GIdent (fst p) :: xtoks (snd p)) (y_union f) ++ GOp "}"
  :: flat_map (fun p : option string * string => GOp "%" :: GIdent "token" :: match fst p with Some t => tag t | None => [] end ++ [symtok (snd p)]) (y_tokens f)
  ++ flat_map (fun p : string * list string => GOp "%" :: GKw "type" :: tag (fst p) ++ map symtok (snd p)) (y_types f)
  ++ [GOp "%"; GOp "%"] ++ flat_map ruletoks (y_rules f) ++ [GOp "%"; GOp "%"].
Definition is_semi (t : gtok) : bool := match t with GSemi => true | _ => false end.
Definition act_expr (a : option yact) : option mx := match a with Some (ASet e) | Some (ADo e) => Some e | None => None end.
Definition is_grammar (text : string) (f : yfile) : Prop :=
  option_map (filter (fun t => negb (is_semi t))) (go_tokens text) = Some (yftoks f) /\
  forallb (fun r => forallb (fun a => match act_expr (snd a) with Some e => xgrouped e | None => true end) (snd r)) (y_rules f) = true.

(** ** Productions, numbered from 0 in file order *)
Record prod : Type := mkProd { p_lhs : string; p_rhs : list string; p_act : option yact }.
Definition prods (f : yfile) : list prod := flat_map (fun r => map (fun a => mkProd (fst r) (fst a) (snd a)) (snd r)) (y_rules f).

(** ** Types of symbols.  goyacc turns $n into the field of %union that the n-th symbol is declared with. *)
Definition tag_of (f : yfile) (x : string) : option string :=
  match find (fun p : option string * string => String.eqb (snd p) x) (y_tokens f) with
  | Some (t, _) => t
  | None => option_map fst (find (fun p : string * list string => existsb (String.eqb x) (snd p)) (y_types f))
  end.
Definition has_type (f : yfile) (x : string) : bool :=
  match tag_of f x with Some t => existsb (fun p : string * mx => String.eqb (fst p) t) (y_union f) | None => false end.
(** The $n of an expression. *)
Fixpoint dols (e : mx) : list nat :=
  match e with
  | XDol n => [n]
  | XUn _ e | XSel e _ => dols e
  | XBin _ a b => dols a ++ dols b
  | XSub e lo hi => dols e ++ match lo with Some e => dols e | None => [] end ++ match hi with Some e => dols e | None => [] end
  | XCall f es => dols f ++ flat_map dols es
  | XLit _ es => flat_map dols es
  | XLitK _ fs => flat_map (fun p : string * mx => dols (snd p)) fs
  | _ => []
  end.
Definition typed (f : yfile) : bool :=
  forallb (fun p =>
    match p_act p with Some (ASet _) => has_type f (p_lhs p) | _ => true end &&
    forallb (fun n => match n with O => false | S n => match nth_error (p_rhs p) n with Some x => has_type f x | None => false end end)
      match act_expr (p_act p) with Some e => dols e | None => [] end) (prods f).
