(** The part of Go that /repo/out.go emits, as syntax trees, and the trees emitted for each
    declaration.  Each definition on declarations follows the goType or goXdr method cited;
    GoText.v relates the trees to the emitted text. *)
From Verif Require Import GoLex XLex Gram GParse Emit.
Open Scope string_scope.
Open Scope list_scope.

(** Types; the size of an array is a literal or the name of a constant. *)
Inductive gty : Type :=
| GBasic (b : string)                   (* a predeclared type *)
| GNamed (x : string)
| GPtr (t : gty)
| GSlice (t : gty)
| GArr (sz : string) (t : gty)
| GStruct (fs : list (string * gty)).

Definition gU32 : gty := GBasic "uint32".
Definition gS32 : gty := GBasic "int32".
Definition gU64 : gty := GBasic "uint64".
Definition gS64 : gty := GBasic "int64".
Definition gInt : gty := GBasic "int".
Definition gBool : gty := GBasic "bool".
Definition gString : gty := GBasic "string".
Definition gByte : gty := GBasic "byte".

Inductive expr : Type :=
| EVar (x : string)                     (* an identifier *)
| ENum (s : string)                     (* an integer literal, or -1 *)
| EStr (s : string)
| EParen (e : expr)
| EDeref (e : expr)                     (* e dereferenced *)
| EAddr (e : expr)                      (* &e *)
| ESel (e : expr) (f : string)          (* e.f *)
| EIdx (e i : expr)                     (* e[i] *)
| EAll (e : expr)                       (* e[:] *)
| EConv (t : gty) (e : expr)            (* (t)(e), or t(e) for a predeclared type *)
| ELen (e : expr)
| EMake (t : gty) (e : expr)
| ENew (t : gty)
| EQuery (x m : string)                 (* x.m() *)
| ENe (a b : expr) | EGt (a b : expr) | ELt (a b : expr).

Inductive stmt : Type :=
| SPkg (fn : string) (args : list expr)             (* xdr.fn(args) *)
| SMeth (e : expr) (m : string) (args : list expr)  (* e.m(args) *)
| SVar (x : string) (t : gty)
| SDef (x : string) (e : expr)                      (* x := e *)
| SAssign (a b : expr)
| SBlock (ss : list stmt)
| SIf (c : expr) (a : list stmt) (b : option (list stmt))
| SFor (x : string) (init c : expr) (ss : list stmt) (* for x := init; c; x++ { ss } *)
| SSwitch (e : expr) (cs : list (option expr * list stmt * bool)). (* [None]: default; [true]: ends in fallthrough *)

(** A bound, a size or a label: literal or identifier (xdr.y:105-108 [val]). *)
Definition val_expr (s : string) : expr := if head_is is_digit s then ENum s else EVar s.
Definition size_expr (sz : string) : expr := if String.eqb sz "" then ENum "-1" else val_expr sz.

(** ** goType *)
Fixpoint gt (t : typespec) : option gty :=
  match t with
  | typeInt u => Some (if u then gU32 else gS32)                     (* out.go:187-193 *)
  | typeHyper u => Some (if u then gU64 else gS64)                   (* 207-213 *)
  | typeFloat => Some (GBasic "float32")                             (* 225 *)
  | typeDouble => Some (GBasic "float64")                            (* 230 *)
  | typeQuadruple => None                                            (* 235 *)
  | typeBool => Some gBool                                           (* 240 *)
  | typeEnum _ => Some gS32                                          (* 249 *)
  | typeStruct items =>                                              (* 265-272 *)
      do fs <- (fix go l := match l with [] => Some [] | d :: l => do a <- gt_field d ; do b <- go l ; Some (a ++ b) end) items ;
      Some (GStruct fs)
  | typeUnion sw cases def =>                                        (* 290-301 *)
      do a <- gt_field sw ;
      do b <- (fix go (l : list (list string * decl)) := match l with [] => Some [] | c :: l => do a <- gt_field (snd c) ; do b <- go l ; Some (a ++ b) end) cases ;
      do c <- match def with Some d => gt_field d | None => Some [] end ;
      Some (GStruct (a ++ b ++ c))
  | typeIdent n => Some (GNamed (cap n))                             (* 341 *)
  end
with gt_dt (t : declType) : option gty :=
  match t with
  | declTypeTypespec t => gt t                                       (* 38-40 *)
  | declTypeArray t sz => do r <- gt t ; Some (GArr sz r)            (* 51-53 *)
  | declTypeVarArray t _ => do r <- gt t ; Some (GSlice r)           (* 68-70 *)
  | declTypeOpaqueArray sz => Some (GArr sz gByte)                   (* 96-98 *)
  | declTypeOpaqueVarArray _ => Some (GSlice gByte)                  (* 108-110 *)
  | declTypeString _ => Some gString                                 (* 124-126 *)
  | declTypePtr t => do r <- gt t ; Some (GPtr r)                    (* 140-142 *)
  end
with gt_field (d : decl) : option (list (string * gty)) :=           (* 252-259 declToNameGotype *)
  match d with
  | declVoid => Some []
  | declName t n => do r <- gt_dt t ; Some [(cap n, r)]
  end.

(** ** goXdr; [P] is valPtr *)
Definition xU32 (P : expr) : stmt := SPkg "XdrU32" [EVar "xs"; EConv (GPtr gU32) P].
Definition xBool (P : expr) : stmt := SPkg "XdrBool" [EVar "xs"; EConv (GPtr gBool) P].
(** valPtr of a member, of an array element and of a pointee (out.go:279, 83, 150). *)
Definition fieldP (P : expr) (n : string) : expr := EAddr (EParen (ESel (EParen P) (cap n))).
Definition elemP (P : expr) : expr := EAddr (EParen (EIdx (EParen (EDeref (EParen P))) (EVar "i"))).
Definition derefP (P : expr) : expr := EDeref (EParen P).
(** out.go:58: the star applies to the element, as indexing binds tighter. *)
Definition fixedP (P : expr) : expr := EAddr (EParen (EDeref (EIdx (EParen P) (EVar "i")))).

(** out.go:315-320: all labels but the last fall through. *)
Fixpoint label_clauses (l : list string) (body : list stmt) : list (option expr * list stmt * bool) :=
  match l with
  | [] => []
  | [c] => [(Some (val_expr (cap c)), body, false)]
  | c :: l => (Some (val_expr (cap c)), [], true) :: label_clauses l body
  end.
(** out.go:76-88, after the block is opened. *)
Definition arr_body (P : expr) (bound : string) (e : gty) (body : list stmt) : list stmt :=
  let rest :=
    [SIf (EQuery "xs" "Decoding") [SAssign (EDeref P) (EMake (GSlice e) (EVar "__arraysz"))] None;
     SFor "i" (EConv gU64 (ENum "0")) (ELt (EVar "i") (EConv gU64 (EVar "__arraysz"))) body] in
  [SVar "__arraysz" gU32;
   SMeth (EVar "xs") "EncodingSetSize" [EAddr (EVar "__arraysz"); ELen (EDeref P)];
   xU32 (EAddr (EVar "__arraysz"))] ++
  (if String.eqb bound "" then rest
   else [SIf (EGt (EVar "__arraysz") (val_expr bound)) [SMeth (EVar "xs") "SetError" [EStr "array too large"]] (Some rest)]).
(** out.go:146-161 *)
Definition ptr_body (P : expr) (e : gty) (body : list stmt) : list stmt :=
  [SIf (EQuery "xs" "Encoding")
     [SDef "opted" (ENe (derefP P) (EVar "nil")); xBool (EAddr (EVar "opted")); SIf (EVar "opted") body None] None;
   SIf (EQuery "xs" "Decoding")
     [SVar "opted" gBool; xBool (EAddr (EVar "opted")); SIf (EVar "opted") (SAssign (derefP P) (ENew e) :: body) None] None].

Fixpoint gx (t : typespec) (P : expr) : option (list stmt) :=
  match t with
  | typeInt u => Some [if u then xU32 P else SPkg "XdrS32" [EVar "xs"; EConv (GPtr gS32) P]]           (* 195-201 *)
  | typeHyper u => Some [if u then SPkg "XdrU64" [EVar "xs"; EConv (GPtr gU64) P]
                              else SPkg "XdrS64" [EVar "xs"; EConv (GPtr gS64) P]]                      (* 215-221 *)
  | typeFloat | typeDouble | typeQuadruple | typeEnum _ => None      (* 226, 231, 236, 250 *)
  | typeBool => Some [xBool P]                                       (* 241-243 *)
  | typeStruct items =>                                              (* 274-283 *)
      (fix go l := match l with [] => Some [] | d :: l => do a <- gx_field d P ; do b <- go l ; Some (a ++ b) end) items
  | typeUnion sw cases def =>                                        (* 303-335 *)
      match sw with
      | declVoid => None
      | declName st sn =>
          do a <- gx_dt st (fieldP P sn) ;
          do b <- (fix go (l : list (list string * decl)) :=
                     match l with [] => Some [] | c :: l => do a <- gx_field (snd c) P ; do b <- go l ; Some (label_clauses (fst c) a ++ b) end) cases ;
          do c <- match def with Some d => do a <- gx_field d P ; Some [(None, a, false)] | None => Some [] end ;
          Some (a ++ [SSwitch (ESel (EParen P) (cap sn)) (b ++ c)])
      end
  | typeIdent n => Some [SMeth (EConv (GPtr (GNamed (cap n))) P) "Xdr" [EVar "xs"]]     (* 342-344 *)
  end
with gx_dt (t : declType) (P : expr) : option (list stmt) :=
  match t with
  | declTypeTypespec t => gx t P                                     (* 42-44 *)
  | declTypeArray t sz =>                                            (* 55-61 *)
      do b <- gx t (fixedP P) ; Some [SFor "i" (ENum "0") (ELt (EVar "i") (val_expr sz)) b]
  | declTypeVarArray t sz =>                                         (* 72-90 *)
      do e <- gt t ; do b <- gx t (elemP P) ; Some [SBlock (arr_body P sz e b)]
  | declTypeOpaqueArray _ => Some [SPkg "XdrArray" [EVar "xs"; EAll (EParen (EDeref P))]]                (* 100-102 *)
  | declTypeOpaqueVarArray sz => Some [SPkg "XdrVarArray" [EVar "xs"; EConv gInt (size_expr sz); EConv (GPtr (GSlice gByte)) P]]  (* 112-118 *)
  | declTypeString sz => Some [SPkg "XdrString" [EVar "xs"; EConv gInt (size_expr sz); EConv (GPtr gString) P]]     (* 128-134 *)
  | declTypePtr t => do e <- gt t ; do b <- gx t (derefP P) ; Some (ptr_body P e b)                      (* 144-163 *)
  end
with gx_field (d : decl) (P : expr) : option (list stmt) :=          (* 277-280, 321-324, 328-331 *)
  match d with
  | declVoid => Some []
  | declName t n => gx_dt t (fieldP P n)
  end.

(** ** Package-level declarations, without those of programs other than constants *)
Definition tydecl : Type := (string * gty)%type.
Definition method : Type := (string * list stmt)%type.                (* func (v *T) Xdr(xs *xdr.XdrState) *)
Record cdecl : Type := mkC { c_name : string; c_ty : option gty; c_val : string }.

Definition opt_list {A} (o : option A) : list A := match o with Some a => [a] | None => [] end.
(** The type a definition declares (out.go:462, 476, 488-495, 503). *)
Definition ty_decl (fl : flags) (d : defn) : option (list tydecl) :=
  match d with
  | defTypedef (declName t n) =>
      do g <- gt_dt t ; Some [(cap n, match t with declTypePtr _ => GStruct [("P", g)] | _ => g end)]
  | defTypedef declVoid => Some []
  | defEnum n _ => Some [(cap n, if fl_unsigned fl then gU32 else gS32)]
  | defStruct n items => do g <- gt (typeStruct items) ; Some [(cap n, g)]
  | defUnion n s c d => do g <- gt (typeUnion s c d) ; Some [(cap n, g)]
  | defConst _ _ | defProg _ => Some []
  end.
(** The method it declares (out.go:464-466, 478-480, 497-499, 505-507). *)
Definition meth_decl (fl : flags) (d : defn) : option (list method) :=
  match d with
  | defTypedef (declName t n) =>
      do b <- gx_dt t (match t with declTypePtr _ => EAddr (ESel (EVar "v") "P") | _ => EVar "v" end) ; Some [(cap n, b)]
  | defTypedef declVoid => Some []
  | defEnum n _ => do b <- gx (typeInt (fl_unsigned fl)) (EVar "v") ; Some [(cap n, b)]
  | defStruct n items => do b <- gx (typeStruct items) (EVar "v") ; Some [(cap n, b)]
  | defUnion n s c d => do b <- gx (typeUnion s c d) (EVar "v") ; Some [(cap n, b)]
  | defConst _ _ | defProg _ => Some []
  end.
(** The constants it declares (out.go:381-387, 445, 482-484). *)
Definition const_decl (fl : flags) (d : defn) : list cdecl :=
  match d with
  | defConst n v => [mkC n (if String.eqb (fl_const fl) "" then None else Some (GBasic (fl_const fl))) v]
  | defEnum n items => map (fun it => mkC (cap (fst it)) (Some (GNamed (cap n))) (snd it)) items
  | defProg p =>
      mkC (cap (pd_name p)) (Some gU32) (pd_id p) ::
      flat_map (fun v => mkC (cap (pv_name v)) (Some gU32) (pv_id v) ::
                         map (fun c => mkC (cap (pc_name c)) (Some gU32) (pc_id c)) (pv_calls v)) (pd_vers p)
  | defTypedef _ | defStruct _ _ | defUnion _ _ _ _ => []
  end.
Fixpoint all_decls {A} (f : defn -> option (list A)) (ds : list defn) : option (list A) :=
  match ds with [] => Some [] | d :: ds => do a <- f d ; do b <- all_decls f ds ; Some (a ++ b) end.

Record gpkg : Type := mkPkg { g_types : list tydecl; g_meths : list method; g_consts : list cdecl }.
Definition pkg_of (fl : flags) (ds : list defn) : option gpkg :=
  do ts <- all_decls (ty_decl fl) ds ;
  do ms <- all_decls (meth_decl fl) ds ;
  Some (mkPkg ts ms (flat_map (const_decl fl) ds)).
