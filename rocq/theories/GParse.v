(** A parser for the grammar of Gram.v.  It stands for the automaton goyacc makes of
    /repo/xdr.y; GParseP.v proves that it accepts exactly the grammar. *)
From Verif Require Import GoLex XLex Gram.
Open Scope string_scope.
Open Scope list_scope.

Definition ytok_eqb (a b : ytok) : bool :=
  match a, b with
  | KWCONST, KWCONST | KWTYPEDEF, KWTYPEDEF | KWENUM, KWENUM | KWSTRUCT, KWSTRUCT | KWUNION, KWUNION | KWSWITCH, KWSWITCH
  | KWCASE, KWCASE | KWDEFAULT, KWDEFAULT | KWVOID, KWVOID | KWOPAQUE, KWOPAQUE | KWSTRING, KWSTRING | KWUNSIGNED, KWUNSIGNED
  | KWINT, KWINT | KWHYPER, KWHYPER | KWFLOAT, KWFLOAT | KWDOUBLE, KWDOUBLE | KWQUADRUPLE, KWQUADRUPLE | KWBOOL, KWBOOL
  | KWPROGRAM, KWPROGRAM | KWVERSION, KWVERSION | YEq, YEq | YSemi, YSemi | YColon, YColon | YLt, YLt | YGt, YGt
  | YLBrack, YLBrack | YRBrack, YRBrack | YLBrace, YLBrace | YRBrace, YRBrace | YComma, YComma | YLParen, YLParen
  | YRParen, YRParen | YStar, YStar => true
  | CONST s, CONST t | IDENT s, IDENT t => String.eqb s t
  | _, _ => false
  end.

Definition pbind {A B} (o : option A) (k : A -> option B) : option B := match o with Some a => k a | None => None end.
Notation "'do' p <- o ; k" := (pbind o (fun x => match x with p => k end)) (at level 61, p pattern, o at next level, right associativity).
Definition orelse {A} (o k : option A) : option A := match o with Some a => Some a | None => k end.

Definition parser (A : Type) : Type := list ytok -> option (A * list ytok).
(** The next token is [y]. *)
Definition tk (y : ytok) (ts : list ytok) : option (list ytok) :=
  match ts with t :: r => if ytok_eqb t y then Some r else None | [] => None end.
Definition p_id : parser string := fun ts => match ts with IDENT s :: r => Some (s, r) | _ => None end.
Definition p_num : parser string := fun ts => match ts with CONST s :: r => Some (s, r) | _ => None end.
Definition p_val : parser string := fun ts => orelse (p_num ts) (p_id ts).
Definition p_varlen : parser string := fun ts =>
  do r <- tk YLt ts ;
  match tk YGt r with
  | Some r1 => Some ("", r1)
  | None => do (s, r1) <- p_val r ; do r2 <- tk YGt r1 ; Some (s, r2)
  end.
Definition p_item : parser enumItem := fun ts =>
  do (n, r) <- p_id ts ; do r <- tk YEq r ; do (s, r) <- p_val r ; Some ((n, s), r).

(** Lists; [n] bounds their length. *)
Fixpoint p_items (n : nat) : parser (list enumItem) := fun ts =>
  match n with
  | O => None
  | S n =>
      do (i, r) <- p_item ts ;
      match tk YComma r with
      | Some r => do (l, r) <- p_items n r ; Some (i :: l, r)
      | None => Some ([i], r)
      end
  end.
Definition p_enumbody (n : nat) : parser (list enumItem) := fun ts =>
  do r <- tk YLBrace ts ; do (l, r) <- p_items n r ; do r <- tk YRBrace r ; Some (l, r).
Fixpoint p_caselist (n : nat) : parser (list string) := fun ts =>
  match n with
  | O => None
  | S n =>
      do r <- tk KWCASE ts ; do (s, r) <- p_val r ; do r <- tk YColon r ;
      match tk KWCASE r with
      | Some _ => do (l, r) <- p_caselist n r ; Some (s :: l, r)
      | None => Some ([s], r)
      end
  end.

(** [n] bounds the nesting and the list lengths. *)
Fixpoint p_typespec (n : nat) : parser typespec := fun ts =>
  match n with
  | O => None
  | S n =>
      match ts with
      | KWINT :: r => Some (typeInt false, r)
      | KWHYPER :: r => Some (typeHyper false, r)
      | KWUNSIGNED :: KWINT :: r => Some (typeInt true, r)
      | KWUNSIGNED :: KWHYPER :: r => Some (typeHyper true, r)
      | KWFLOAT :: r => Some (typeFloat, r)
      | KWDOUBLE :: r => Some (typeDouble, r)
      | KWQUADRUPLE :: r => Some (typeQuadruple, r)
      | KWBOOL :: r => Some (typeBool, r)
      | KWENUM :: r => do (l, r) <- p_enumbody n r ; Some (typeEnum l, r)
      | KWSTRUCT :: r => do (l, r) <- p_structbody n r ; Some (typeStruct l, r)
      | KWUNION :: r => do (s, c, d, r) <- p_unionbody n r ; Some (typeUnion s c d, r)
      | IDENT x :: r => Some (typeIdent x, r)
      | _ => None
      end
  end
with p_decl (n : nat) : parser decl := fun ts =>
  match n with
  | O => None
  | S n =>
      match p_typespec n ts with
      | Some (t, r) =>
          match tk YStar r with
          | Some r => do (x, r) <- p_id r ; Some (declName (declTypePtr t) x, r)
          | None =>
              do (x, r) <- p_id r ;
              match tk YLBrack r with
              | Some r => do (s, r) <- p_val r ; do r <- tk YRBrack r ; Some (declName (declTypeArray t s) x, r)
              | None =>
                  match tk YLt r with
                  | Some _ => do (s, r) <- p_varlen r ; Some (declName (declTypeVarArray t s) x, r)
                  | None => Some (declName (declTypeTypespec t) x, r)
                  end
              end
          end
      | None =>
          match ts with
          | KWOPAQUE :: r =>
              do (x, r) <- p_id r ;
              match tk YLBrack r with
              | Some r => do (s, r) <- p_val r ; do r <- tk YRBrack r ; Some (declName (declTypeOpaqueArray s) x, r)
              | None => do (s, r) <- p_varlen r ; Some (declName (declTypeOpaqueVarArray s) x, r)
              end
          | KWSTRING :: r => do (x, r) <- p_id r ; do (s, r) <- p_varlen r ; Some (declName (declTypeString s) x, r)
          | KWVOID :: r => Some (declVoid, r)
          | _ => None
          end
      end
  end
with p_structbody (n : nat) : parser (list decl) := fun ts =>
  match n with
  | O => None
  | S n => do r <- tk YLBrace ts ; do (l, r) <- p_decls n r ; do r <- tk YRBrace r ; Some (l, r)
  end
with p_decls (n : nat) : parser (list decl) := fun ts =>
  match n with
  | O => None
  | S n =>
      match p_decl n ts with
      | Some (d, r) => do r <- tk YSemi r ; do (l, r) <- p_decls n r ; Some (d :: l, r)
      | None => Some ([], ts)
      end
  end
with p_unionbody (n : nat) : list ytok -> option (decl * list (list string * decl) * option decl * list ytok) := fun ts =>
  match n with
  | O => None
  | S n =>
      do r <- tk KWSWITCH ts ; do r <- tk YLParen r ; do (s, r) <- p_decl n r ; do r <- tk YRParen r ; do r <- tk YLBrace r ;
      do (c, r) <- p_cases n r ;
      match tk KWDEFAULT r with
      | Some r => do r <- tk YColon r ; do (d, r) <- p_decl n r ; do r <- tk YSemi r ; do r <- tk YRBrace r ; Some (s, c, Some d, r)
      | None => do r <- tk YRBrace r ; Some (s, c, None, r)
      end
  end
with p_cases (n : nat) : parser (list (list string * decl)) := fun ts =>
  match n with
  | O => None
  | S n =>
      match tk KWCASE ts with
      | Some _ => do (l, r) <- p_caselist n ts ; do (d, r) <- p_decl n r ; do r <- tk YSemi r ;
                  do (c, r) <- p_cases n r ; Some ((l, d) :: c, r)
      | None => Some ([], ts)
      end
  end.

Definition p_opt (n : nat) : parser typespecOpt := fun ts =>
  match tk KWVOID ts with Some r => Some (None, r) | None => do (t, r) <- p_typespec n ts ; Some (Some t, r) end.
(** ['=' CONST ';'] *)
Definition p_eq : parser string := fun ts => do r <- tk YEq ts ; do (c, r) <- p_num r ; do r <- tk YSemi r ; Some (c, r).
Definition p_call (n : nat) : parser progCall := fun ts =>
  do (res, r) <- p_opt n ts ; do (x, r) <- p_id r ; do r <- tk YLParen r ; do (arg, r) <- p_opt n r ; do r <- tk YRParen r ;
  do (c, r) <- p_eq r ; Some (mkCall x arg res c, r).
Fixpoint p_calls (n : nat) : parser (list progCall) := fun ts =>
  match n with
  | O => None
  | S n => match tk YRBrace ts with
           | Some _ => Some ([], ts)
           | None => do (c, r) <- p_call n ts ; do (l, r) <- p_calls n r ; Some (c :: l, r)
           end
  end.
Definition p_ver (n : nat) : parser progVer := fun ts =>
  do r <- tk KWVERSION ts ; do (x, r) <- p_id r ; do r <- tk YLBrace r ; do (l, r) <- p_calls n r ; do r <- tk YRBrace r ;
  do (c, r) <- p_eq r ; Some (mkVer x l c, r).
Fixpoint p_vers (n : nat) : parser (list progVer) := fun ts =>
  match n with
  | O => None
  | S n => match tk YRBrace ts with
           | Some _ => Some ([], ts)
           | None => do (c, r) <- p_ver n ts ; do (l, r) <- p_vers n r ; Some (c :: l, r)
           end
  end.
Definition p_defn (n : nat) : parser defn := fun ts =>
  match ts with
  | KWTYPEDEF :: r => do (d, r) <- p_decl n r ; do r <- tk YSemi r ; Some (defTypedef d, r)
  | KWENUM :: r => do (x, r) <- p_id r ; do (l, r) <- p_enumbody n r ; do r <- tk YSemi r ; Some (defEnum x l, r)
  | KWSTRUCT :: r => do (x, r) <- p_id r ; do (l, r) <- p_structbody n r ; do r <- tk YSemi r ; Some (defStruct x l, r)
  | KWUNION :: r => do (x, r) <- p_id r ; do (s, c, d, r) <- p_unionbody n r ; do r <- tk YSemi r ; Some (defUnion x s c d, r)
  | KWCONST :: r => do (x, r) <- p_id r ; do (c, r) <- p_eq r ; Some (defConst x c, r)
  | KWPROGRAM :: r => do (x, r) <- p_id r ; do r <- tk YLBrace r ; do (l, r) <- p_vers n r ; do r <- tk YRBrace r ;
                      do (c, r) <- p_eq r ; Some (defProg (mkProg x l c), r)
  | _ => None
  end.
Fixpoint p_spec (n : nat) (ts : list ytok) : option (list defn) :=
  match n with
  | O => None
  | S n => match ts with
           | [] => Some []
           | _ => do (d, r) <- p_defn n ts ; do l <- p_spec n r ; Some (d :: l)
           end
  end.

(** xdrParse: the definitions in order, or [None] where the generator panics with a syntax error. *)
Definition parse (ts : list ytok) : option (list defn) := p_spec (S (List.length ts)) ts.
(** Source text to definitions. *)
Definition front (s : string) : option (list defn) := match x_tokens s with Some ts => parse ts | None => None end.
