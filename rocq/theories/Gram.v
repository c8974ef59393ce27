(** Abstract syntax (the types of /repo/out.go) and the grammar of /repo/xdr.y with its
    actions, as relations between tokens and what the actions build. *)
From Verif Require Import GoLex XLex.
Open Scope string_scope.
Open Scope list_scope.

(** /repo/out.go:346-349 enumItem: name, value. *)
Definition enumItem : Type := (string * string)%type.

Inductive typespec : Type :=
| typeInt (unsig : bool)                     (* out.go:183-185 *)
| typeHyper (unsig : bool)                   (* out.go:203-205 *)
| typeFloat | typeDouble | typeQuadruple     (* out.go:223-236 *)
| typeBool                                   (* out.go:238 *)
| typeEnum (items : list enumItem)           (* out.go:245-247 *)
| typeStruct (items : list decl)             (* out.go:261-263 *)
| typeUnion (switchDecl : decl)              (* out.go:285-288, 351-359 *)
    (cases : list (list string * decl)) (def : option decl)
| typeIdent (n : string)                     (* out.go:337-339 *)
with declType : Type :=
| declTypeTypespec (t : typespec)            (* out.go:34-36 *)
| declTypeArray (t : typespec) (sz : string) (* out.go:46-49 *)
| declTypeVarArray (t : typespec) (sz : string) (* out.go:63-66; "" = no bound *)
| declTypeOpaqueArray (sz : string)          (* out.go:92-94 *)
| declTypeOpaqueVarArray (sz : string)       (* out.go:104-106 *)
| declTypeString (sz : string)               (* out.go:120-122 *)
| declTypePtr (t : typespec)                 (* out.go:136-138 *)
with decl : Type :=
| declVoid                                   (* out.go:21-22 *)
| declName (t : declType) (n : string).      (* out.go:24-27 *)

(** out.go:170-173 typespecOpt: [None] = void. *)
Definition typespecOpt : Type := option typespec.
(** out.go:361-378; record fields in declaration order. *)
Record progCall : Type := mkCall { pc_name : string; pc_arg : typespecOpt; pc_res : typespecOpt; pc_id : string }.
Record progVer : Type := mkVer { pv_name : string; pv_calls : list progCall; pv_id : string }.
Record progDef : Type := mkProg { pd_name : string; pd_vers : list progVer; pd_id : string }.

(** What one [defn] makes its action emit. *)
Inductive defn : Type :=
| defConst (ident val : string)                          (* xdr.y:178-179 *)
| defTypedef (d : decl)                                  (* xdr.y:181-182 *)
| defEnum (ident : string) (items : list enumItem)       (* xdr.y:183-184 *)
| defStruct (ident : string) (items : list decl)         (* xdr.y:185-186 *)
| defUnion (ident : string) (sw : decl) (cases : list (list string * decl)) (def : option decl)   (* xdr.y:187-188 *)
| defProg (p : progDef).                                 (* xdr.y:190-191 *)

(** ** The grammar.  One constructor per production, in file order. *)

(** xdr.y:105-108 *)
Inductive D_val : string -> list ytok -> Prop :=
| D_val_const s : D_val s [CONST s]
| D_val_ident s : D_val s [IDENT s].

(** xdr.y:100-103 *)
Inductive D_varlen : string -> list ytok -> Prop :=
| D_varlen_none : D_varlen "" [YLt; YGt]
| D_varlen_some s v : D_val s v -> D_varlen s (YLt :: v ++ [YGt]).

(** xdr.y:131 *)
Inductive D_unsig : bool -> list ytok -> Prop :=
| D_unsig_no : D_unsig false []
| D_unsig_yes : D_unsig true [KWUNSIGNED].

(** xdr.y:144-145 *)
Inductive D_enumitem : enumItem -> list ytok -> Prop :=
| D_item n s v : D_val s v -> D_enumitem (n, s) (IDENT n :: YEq :: v).

(** xdr.y:139-142 *)
Inductive D_enumitems : list enumItem -> list ytok -> Prop :=
| D_items_one i ts : D_enumitem i ts -> D_enumitems [i] ts
| D_items_more l ts i ts' : D_enumitems l ts -> D_enumitem i ts' -> D_enumitems (l ++ [i]) (ts ++ YComma :: ts').

(** xdr.y:136-137 *)
Inductive D_enumbody : list enumItem -> list ytok -> Prop :=
| D_body l ts : D_enumitems l ts -> D_enumbody l (YLBrace :: ts ++ [YRBrace]).

(** xdr.y:173-176 *)
Inductive D_caselist : list string -> list ytok -> Prop :=
| D_case_one s v : D_val s v -> D_caselist [s] (KWCASE :: v ++ [YColon])
| D_case_more l ts s v : D_caselist l ts -> D_val s v -> D_caselist (l ++ [s]) (ts ++ KWCASE :: v ++ [YColon]).

Inductive D_typespec : typespec -> list ytok -> Prop :=              (* xdr.y:110-129 *)
| D_int u ts : D_unsig u ts -> D_typespec (typeInt u) (ts ++ [KWINT])
| D_hyper u ts : D_unsig u ts -> D_typespec (typeHyper u) (ts ++ [KWHYPER])
| D_float : D_typespec typeFloat [KWFLOAT]
| D_double : D_typespec typeDouble [KWDOUBLE]
| D_quadruple : D_typespec typeQuadruple [KWQUADRUPLE]
| D_bool : D_typespec typeBool [KWBOOL]
| D_enum l ts : D_enumbody l ts -> D_typespec (typeEnum l) (KWENUM :: ts)       (* 133-134 *)
| D_struct l ts : D_structbody l ts -> D_typespec (typeStruct l) (KWSTRUCT :: ts) (* 147-148 *)
| D_union s c d ts : D_unionbody s c d ts -> D_typespec (typeUnion s c d) (KWUNION :: ts) (* 156-157 *)
| D_ident n : D_typespec (typeIdent n) [IDENT n]
with D_decl : decl -> list ytok -> Prop :=                            (* xdr.y:83-98 *)
| D_plain t ts n : D_typespec t ts -> D_decl (declName (declTypeTypespec t) n) (ts ++ [IDENT n])
| D_array t ts n s v : D_typespec t ts -> D_val s v -> D_decl (declName (declTypeArray t s) n) (ts ++ IDENT n :: YLBrack :: v ++ [YRBrack])
| D_vararray t ts n s v : D_typespec t ts -> D_varlen s v -> D_decl (declName (declTypeVarArray t s) n) (ts ++ IDENT n :: v)
| D_opaque n s v : D_val s v -> D_decl (declName (declTypeOpaqueArray s) n) (KWOPAQUE :: IDENT n :: YLBrack :: v ++ [YRBrack])
| D_varopaque n s v : D_varlen s v -> D_decl (declName (declTypeOpaqueVarArray s) n) (KWOPAQUE :: IDENT n :: v)
| D_string n s v : D_varlen s v -> D_decl (declName (declTypeString s) n) (KWSTRING :: IDENT n :: v)
| D_ptr t ts n : D_typespec t ts -> D_decl (declName (declTypePtr t) n) (ts ++ [YStar; IDENT n])
| D_void : D_decl declVoid [KWVOID]
with D_structbody : list decl -> list ytok -> Prop :=                 (* xdr.y:150-151 *)
| D_sbody l ts : D_structdecls l ts -> D_structbody l (YLBrace :: ts ++ [YRBrace])
with D_structdecls : list decl -> list ytok -> Prop :=                (* xdr.y:153-154 *)
| D_decls_nil : D_structdecls [] []
| D_decls_more l ts d ts' : D_structdecls l ts -> D_decl d ts' -> D_structdecls (l ++ [d]) (ts ++ ts' ++ [YSemi])
with D_unionbody : decl -> list (list string * decl) -> option decl -> list ytok -> Prop :=   (* xdr.y:159-160 *)
| D_ubody s ts c d ts' : D_decl s ts -> D_unioncasesdef c d ts' ->
    D_unionbody s c d (KWSWITCH :: YLParen :: ts ++ YRParen :: YLBrace :: ts' ++ [YRBrace])
with D_unioncasesdef : list (list string * decl) -> option decl -> list ytok -> Prop :=       (* xdr.y:162-165 *)
| D_nodef c ts : D_unioncases c ts -> D_unioncasesdef c None ts
| D_def c ts d ts' : D_unioncases c ts -> D_decl d ts' ->
    D_unioncasesdef c (Some d) (ts ++ KWDEFAULT :: YColon :: ts' ++ [YSemi])
with D_unioncases : list (list string * decl) -> list ytok -> Prop := (* xdr.y:167-168 *)
| D_cases_nil : D_unioncases [] []
| D_cases_more l ts c ts' : D_unioncases l ts -> D_unioncase c ts' -> D_unioncases (l ++ [c]) (ts ++ ts')
with D_unioncase : list string * decl -> list ytok -> Prop :=         (* xdr.y:170-171 *)
| D_ucase l ts d ts' : D_caselist l ts -> D_decl d ts' -> D_unioncase (l, d) (ts ++ ts' ++ [YSemi]).

(** xdr.y:205-208 *)
Inductive D_typespecopt : typespecOpt -> list ytok -> Prop :=
| D_opt_void : D_typespecopt None [KWVOID]
| D_opt_some t ts : D_typespec t ts -> D_typespecopt (Some t) ts.

(** xdr.y:202-203 *)
Inductive D_progcall : progCall -> list ytok -> Prop :=
| D_call r tr n a ta c : D_typespecopt r tr -> D_typespecopt a ta ->
    D_progcall (mkCall n a r c) (tr ++ IDENT n :: YLParen :: ta ++ [YRParen; YEq; CONST c; YSemi]).
(** xdr.y:199-200 *)
Inductive D_progcalls : list progCall -> list ytok -> Prop :=
| D_calls_nil : D_progcalls [] []
| D_calls_more l ts c ts' : D_progcalls l ts -> D_progcall c ts' -> D_progcalls (l ++ [c]) (ts ++ ts').
(** xdr.y:196-197 *)
Inductive D_progver : progVer -> list ytok -> Prop :=
| D_ver n l ts c : D_progcalls l ts ->
    D_progver (mkVer n l c) (KWVERSION :: IDENT n :: YLBrace :: ts ++ [YRBrace; YEq; CONST c; YSemi]).
(** xdr.y:193-194 *)
Inductive D_progvers : list progVer -> list ytok -> Prop :=
| D_vers_nil : D_progvers [] []
| D_vers_more l ts c ts' : D_progvers l ts -> D_progver c ts' -> D_progvers (l ++ [c]) (ts ++ ts').

(** xdr.y:81, 178-191 *)
Inductive D_defn : defn -> list ytok -> Prop :=
| D_typedef d ts : D_decl d ts -> D_defn (defTypedef d) (KWTYPEDEF :: ts ++ [YSemi])
| D_tenum n l ts : D_enumbody l ts -> D_defn (defEnum n l) (KWENUM :: IDENT n :: ts ++ [YSemi])
| D_tstruct n l ts : D_structbody l ts -> D_defn (defStruct n l) (KWSTRUCT :: IDENT n :: ts ++ [YSemi])
| D_tunion n s c d ts : D_unionbody s c d ts -> D_defn (defUnion n s c d) (KWUNION :: IDENT n :: ts ++ [YSemi])
| D_const n c : D_defn (defConst n c) [KWCONST; IDENT n; YEq; CONST c; YSemi]
| D_prog n l ts c : D_progvers l ts ->
    D_defn (defProg (mkProg n l c)) (KWPROGRAM :: IDENT n :: YLBrace :: ts ++ [YRBrace; YEq; CONST c; YSemi]).

(** xdr.y:79 *)
Inductive D_spec : list defn -> list ytok -> Prop :=
| D_spec_nil : D_spec [] []
| D_spec_more l ts d ts' : D_spec l ts -> D_defn d ts' -> D_spec (l ++ [d]) (ts ++ ts').
