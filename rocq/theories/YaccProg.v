(** The tree of /repo/xdr.y (made by tools/mainast.py; YaccTextP.v checks that it is the file). *)
From Coq Require Import List String.
From Verif Require Import MainAst YaccAst.
Import ListNotations.
Open Scope string_scope.

Definition xdr_y_prog : yfile := mkYFile "main"
  [("decl", (XId "decl")); ("typespec", (XId "typespec")); ("str", (XId "string")); ("bool", (XId "bool")); ("enumItem", (XId "enumItem")); ("enumItems", (XSlice (XId "enumItem"))); ("decls", (XSlice (XId "decl"))); ("typeUnion", (XId "typeUnion")); ("unionCasesDef", (XId "unionCasesDef")); ("unionCaseDecls", (XSlice (XId "unionCaseDecl"))); ("unionCaseDecl", (XId "unionCaseDecl")); ("strs", (XSlice (XId "string"))); ("progCall", (XId "progCall")); ("progCalls", (XSlice (XId "progCall"))); ("progVer", (XId "progVer")); ("progVers", (XSlice (XId "progVer"))); ("typespecOpt", (XId "typespecOpt"))]
  [(None, "KWCONST"); (None, "KWTYPEDEF"); (None, "KWENUM"); (None, "KWSTRUCT"); (None, "KWUNION"); (None, "KWSWITCH"); (None, "KWCASE"); (None, "KWDEFAULT"); (None, "KWVOID"); (None, "KWOPAQUE"); (None, "KWSTRING"); (None, "KWUNSIGNED"); (None, "KWINT"); (None, "KWHYPER"); (None, "KWFLOAT"); (None, "KWDOUBLE"); (None, "KWQUADRUPLE"); (None, "KWBOOL"); (None, "KWPROGRAM"); (None, "KWVERSION"); ((Some "str"), "CONST"); ((Some "str"), "IDENT"); (None, "'='"); (None, "';'"); (None, "'<'"); (None, "'>'"); (None, "'['"); (None, "']'"); (None, "'{'"); (None, "'}'"); (None, "','"); (None, "':'"); (None, "'*'")]
  [("decl", ["decl"]); ("typespec", ["typespec"; "enumtypespec"; "structtypespec"; "uniontypespec"]); ("str", ["val"; "varlen"]); ("bool", ["maybeunsig"]); ("enumItem", ["enumitem"]); ("enumItems", ["enumbody"; "enumitems"]); ("decls", ["structbody"; "structdecls"]); ("typeUnion", ["unionbody"]); ("unionCasesDef", ["unioncasesdef"]); ("unionCaseDecls", ["unioncases"]); ("unionCaseDecl", ["unioncase"]); ("strs", ["caselist"]); ("progCall", ["progcall"]); ("progCalls", ["progcalls"]); ("progVers", ["progvers"]); ("progVer", ["progver"]); ("typespecOpt", ["typespecopt"])]
  [("spec", [
    ([], None);
    (["spec"; "defn"], None)]);
   ("defn", [
    (["typedef"], None);
    (["constdef"], None);
    (["progdef"], None)]);
   ("decl", [
    (["typespec"; "IDENT"], (Some (ASet (XLit (XId "declName") [(XLit (XId "declTypeTypespec") [(XDol 1)]); (XDol 2)]))));
    (["typespec"; "IDENT"; "'['"; "val"; "']'"], (Some (ASet (XLit (XId "declName") [(XLit (XId "declTypeArray") [(XDol 1); (XDol 4)]); (XDol 2)]))));
    (["typespec"; "IDENT"; "varlen"], (Some (ASet (XLit (XId "declName") [(XLit (XId "declTypeVarArray") [(XDol 1); (XDol 3)]); (XDol 2)]))));
    (["KWOPAQUE"; "IDENT"; "'['"; "val"; "']'"], (Some (ASet (XLit (XId "declName") [(XLit (XId "declTypeOpaqueArray") [(XDol 4)]); (XDol 2)]))));
    (["KWOPAQUE"; "IDENT"; "varlen"], (Some (ASet (XLit (XId "declName") [(XLit (XId "declTypeOpaqueVarArray") [(XDol 3)]); (XDol 2)]))));
    (["KWSTRING"; "IDENT"; "varlen"], (Some (ASet (XLit (XId "declName") [(XLit (XId "declTypeString") [(XDol 3)]); (XDol 2)]))));
    (["typespec"; "'*'"; "IDENT"], (Some (ASet (XLit (XId "declName") [(XLit (XId "declTypePtr") [(XDol 1)]); (XDol 3)]))));
    (["KWVOID"], (Some (ASet (XLit (XId "declVoid") []))))]);
   ("varlen", [
    (["'<'"; "'>'"], (Some (ASet (XStr """"""))));
    (["'<'"; "val"; "'>'"], (Some (ASet (XDol 2))))]);
   ("val", [
    (["CONST"], (Some (ASet (XDol 1))));
    (["IDENT"], (Some (ASet (XDol 1))))]);
   ("typespec", [
    (["maybeunsig"; "KWINT"], (Some (ASet (XLit (XId "typeInt") [(XDol 1)]))));
    (["maybeunsig"; "KWHYPER"], (Some (ASet (XLit (XId "typeHyper") [(XDol 1)]))));
    (["KWFLOAT"], (Some (ASet (XLit (XId "typeFloat") []))));
    (["KWDOUBLE"], (Some (ASet (XLit (XId "typeDouble") []))));
    (["KWQUADRUPLE"], (Some (ASet (XLit (XId "typeQuadruple") []))));
    (["KWBOOL"], (Some (ASet (XLit (XId "typeBool") []))));
    (["enumtypespec"], (Some (ASet (XDol 1))));
    (["structtypespec"], (Some (ASet (XDol 1))));
    (["uniontypespec"], (Some (ASet (XDol 1))));
    (["IDENT"], (Some (ASet (XLit (XId "typeIdent") [(XDol 1)]))))]);
   ("maybeunsig", [
    ([], (Some (ASet (XId "false"))));
    (["KWUNSIGNED"], (Some (ASet (XId "true"))))]);
   ("enumtypespec", [
    (["KWENUM"; "enumbody"], (Some (ASet (XLit (XId "typeEnum") [(XDol 2)]))))]);
   ("enumbody", [
    (["'{'"; "enumitems"; "'}'"], (Some (ASet (XDol 2))))]);
   ("enumitems", [
    (["enumitem"], (Some (ASet (XLit (XSlice (XId "enumItem")) [(XDol 1)]))));
    (["enumitems"; "','"; "enumitem"], (Some (ASet (XCall (XId "append") [(XDol 1); (XDol 3)]))))]);
   ("enumitem", [
    (["IDENT"; "'='"; "val"], (Some (ASet (XLit (XId "enumItem") [(XDol 1); (XDol 3)]))))]);
   ("structtypespec", [
    (["KWSTRUCT"; "structbody"], (Some (ASet (XLit (XId "typeStruct") [(XDol 2)]))))]);
   ("structbody", [
    (["'{'"; "structdecls"; "'}'"], (Some (ASet (XDol 2))))]);
   ("structdecls", [
    ([], (Some (ASet (XId "nil"))));
    (["structdecls"; "decl"; "';'"], (Some (ASet (XCall (XId "append") [(XDol 1); (XDol 2)]))))]);
   ("uniontypespec", [
    (["KWUNION"; "unionbody"], (Some (ASet (XDol 2))))]);
   ("unionbody", [
    (["KWSWITCH"; "'('"; "decl"; "')'"; "'{'"; "unioncasesdef"; "'}'"], (Some (ASet (XLitK (XId "typeUnion") [("switchDecl", (XDol 3)); ("cases", (XDol 6))]))))]);
   ("unioncasesdef", [
    (["unioncases"], (Some (ASet (XLit (XId "unionCasesDef") [(XDol 1); (XId "nil")]))));
    (["unioncases"; "KWDEFAULT"; "':'"; "decl"; "';'"], (Some (ASet (XLit (XId "unionCasesDef") [(XDol 1); (XDol 4)]))))]);
   ("unioncases", [
    ([], (Some (ASet (XId "nil"))));
    (["unioncases"; "unioncase"], (Some (ASet (XCall (XId "append") [(XDol 1); (XDol 2)]))))]);
   ("unioncase", [
    (["caselist"; "decl"; "';'"], (Some (ASet (XLit (XId "unionCaseDecl") [(XDol 1); (XDol 2)]))))]);
   ("caselist", [
    (["KWCASE"; "val"; "':'"], (Some (ASet (XLit (XSlice (XId "string")) [(XDol 2)]))));
    (["caselist"; "KWCASE"; "val"; "':'"], (Some (ASet (XCall (XId "append") [(XDol 1); (XDol 3)]))))]);
   ("constdef", [
    (["KWCONST"; "IDENT"; "'='"; "CONST"; "';'"], (Some (ADo (XCall (XId "emitConst") [(XDol 2); (XDol 4)]))))]);
   ("typedef", [
    (["KWTYPEDEF"; "decl"; "';'"], (Some (ADo (XCall (XId "emitTypedef") [(XDol 2)]))));
    (["KWENUM"; "IDENT"; "enumbody"; "';'"], (Some (ADo (XCall (XId "emitEnum") [(XDol 2); (XDol 3)]))));
    (["KWSTRUCT"; "IDENT"; "structbody"; "';'"], (Some (ADo (XCall (XId "emitStruct") [(XDol 2); (XDol 3)]))));
    (["KWUNION"; "IDENT"; "unionbody"; "';'"], (Some (ADo (XCall (XId "emitUnion") [(XDol 2); (XDol 3)]))))]);
   ("progdef", [
    (["KWPROGRAM"; "IDENT"; "'{'"; "progvers"; "'}'"; "'='"; "CONST"; "';'"], (Some (ADo (XCall (XId "emitProg") [(XLit (XId "progDef") [(XDol 2); (XDol 4); (XDol 7)])]))))]);
   ("progvers", [
    ([], (Some (ASet (XId "nil"))));
    (["progvers"; "progver"], (Some (ASet (XCall (XId "append") [(XDol 1); (XDol 2)]))))]);
   ("progver", [
    (["KWVERSION"; "IDENT"; "'{'"; "progcalls"; "'}'"; "'='"; "CONST"; "';'"], (Some (ASet (XLit (XId "progVer") [(XDol 2); (XDol 4); (XDol 7)]))))]);
   ("progcalls", [
    ([], (Some (ASet (XId "nil"))));
    (["progcalls"; "progcall"], (Some (ASet (XCall (XId "append") [(XDol 1); (XDol 2)]))))]);
   ("progcall", [
    (["typespecopt"; "IDENT"; "'('"; "typespecopt"; "')'"; "'='"; "CONST"; "';'"], (Some (ASet (XLit (XId "progCall") [(XDol 2); (XDol 4); (XDol 1); (XDol 7)]))))]);
   ("typespecopt", [
    (["KWVOID"], (Some (ASet (XLitK (XId "typespecOpt") [("isVoid", (XId "true"))]))));
    (["typespec"], (Some (ASet (XLitK (XId "typespecOpt") [("isVoid", (XId "false")); ("t", (XDol 1))]))))])].
