(** Syntax trees of the Go files in MainText.v (made by tools/mainast.py; MainTextP.v checks that they are the
    files).  One definition for each function. *)
From Coq Require Import List String.
From Verif Require Import MainAst.
Import ListNotations.
Open Scope string_scope.

(** ** /repo/out.go *)
Definition out_i : md := MFunc None "i" [("ident", (XId "string"))] [(XId "string")]
  [TSwitch (XId "ident") [((Some (XStr """TRUE""")), [TRet [(XStr """true""")]]); ((Some (XStr """FALSE""")), [TRet [(XStr """false""")]]); (None, [TRet [(XBin "+" (XCall (XSel (XId "strings") "ToUpper") [(XSub (XId "ident") None (Some (XInt "1")))]) (XSub (XId "ident") (Some (XInt "1")) None))]])]]
  false.

Definition out_declTypeTypespec_goType : md := MFunc (Some ("t", (XId "declTypeTypespec"))) "goType" [] [(XId "string")]
  [TRet [(XCall (XSel (XSel (XId "t") "t") "goType") [])]]
  false.

Definition out_declTypeTypespec_goXdr : md := MFunc (Some ("t", (XId "declTypeTypespec"))) "goXdr" [("valPtr", (XId "string"))] [(XId "string")]
  [TRet [(XCall (XSel (XSel (XId "t") "t") "goXdr") [(XId "valPtr")])]]
  false.

Definition out_declTypeArray_goType : md := MFunc (Some ("t", (XId "declTypeArray"))) "goType" [] [(XId "string")]
  [TRet [(XCall (XSel (XId "fmt") "Sprintf") [(XStr """[%s]%s"""); (XSel (XId "t") "sz"); (XCall (XSel (XSel (XId "t") "t") "goType") [])])]]
  false.

Definition out_declTypeArray_goXdr : md := MFunc (Some ("t", (XId "declTypeArray"))) "goXdr" [("valPtr", (XId "string"))] [(XId "string")]
  [TVar "res" (XId "string");
   TAdd (XId "res") (XCall (XSel (XId "fmt") "Sprintf") [(XStr """for i := 0; i < %s; i++ {\n"""); (XSel (XId "t") "sz")]);
   TAdd (XId "res") (XCall (XSel (XId "fmt") "Sprintf") [(XStr """%s\n"""); (XCall (XSel (XSel (XId "t") "t") "goXdr") [(XCall (XSel (XId "fmt") "Sprintf") [(XStr """&(*(%s)[i])"""); (XId "valPtr")])])]);
   TAdd (XId "res") (XCall (XSel (XId "fmt") "Sprintf") [(XStr """}\n""")]);
   TRet [(XId "res")]]
  false.

Definition out_declTypeVarArray_goType : md := MFunc (Some ("t", (XId "declTypeVarArray"))) "goType" [] [(XId "string")]
  [TRet [(XCall (XSel (XId "fmt") "Sprintf") [(XStr """[]%s"""); (XCall (XSel (XSel (XId "t") "t") "goType") [])])]]
  false.

Definition out_declTypeVarArray_goXdr : md := MFunc (Some ("t", (XId "declTypeVarArray"))) "goXdr" [("valPtr", (XId "string"))] [(XId "string")]
  [TVar "res" (XId "string");
   TAdd (XId "res") (XCall (XSel (XId "fmt") "Sprintf") [(XStr """{\n""")]);
   TAdd (XId "res") (XCall (XSel (XId "fmt") "Sprintf") [(XStr """var __arraysz uint32\n""")]);
   TAdd (XId "res") (XCall (XSel (XId "fmt") "Sprintf") [(XStr """xs.EncodingSetSize(&__arraysz, len(*%s));\n"""); (XId "valPtr")]);
   TAdd (XId "res") (XCall (XSel (XId "fmt") "Sprintf") [(XStr """%s\n"""); (XCall (XSel (XLit (XId "typeInt") [(XId "true")]) "goXdr") [(XStr """&__arraysz""")])]);
   TIf (XBin "!=" (XSel (XId "t") "sz") (XStr """""")) [TAdd (XId "res") (XCall (XSel (XId "fmt") "Sprintf") [(XStr """if __arraysz > %s { xs.SetError(\""array too large\"") } else {\n"""); (XSel (XId "t") "sz")])] None;
   TAdd (XId "res") (XCall (XSel (XId "fmt") "Sprintf") [(XStr """if xs.Decoding() { *%s = make([]%s, __arraysz); }\n"""); (XId "valPtr"); (XCall (XSel (XSel (XId "t") "t") "goType") [])]);
   TAdd (XId "res") (XCall (XSel (XId "fmt") "Sprintf") [(XStr """for i := uint64(0); i < uint64(__arraysz); i++ {\n""")]);
   TAdd (XId "res") (XCall (XSel (XId "fmt") "Sprintf") [(XStr """%s\n"""); (XCall (XSel (XSel (XId "t") "t") "goXdr") [(XCall (XSel (XId "fmt") "Sprintf") [(XStr """&((*(%s))[i])"""); (XId "valPtr")])])]);
   TAdd (XId "res") (XCall (XSel (XId "fmt") "Sprintf") [(XStr """}\n""")]);
   TIf (XBin "!=" (XSel (XId "t") "sz") (XStr """""")) [TAdd (XId "res") (XCall (XSel (XId "fmt") "Sprintf") [(XStr """}\n""")])] None;
   TAdd (XId "res") (XCall (XSel (XId "fmt") "Sprintf") [(XStr """}\n""")]);
   TRet [(XId "res")]]
  false.

Definition out_declTypeOpaqueArray_goType : md := MFunc (Some ("t", (XId "declTypeOpaqueArray"))) "goType" [] [(XId "string")]
  [TRet [(XCall (XSel (XId "fmt") "Sprintf") [(XStr """[%s]byte"""); (XSel (XId "t") "sz")])]]
  false.

Definition out_declTypeOpaqueArray_goXdr : md := MFunc (Some ("t", (XId "declTypeOpaqueArray"))) "goXdr" [("valPtr", (XId "string"))] [(XId "string")]
  [TRet [(XCall (XSel (XId "fmt") "Sprintf") [(XStr """xdr.XdrArray(xs, (*%s)[:]);\n"""); (XId "valPtr")])]]
  false.

Definition out_declTypeOpaqueVarArray_goType : md := MFunc (Some ("t", (XId "declTypeOpaqueVarArray"))) "goType" [] [(XId "string")]
  [TRet [(XStr """[]byte""")]]
  false.

Definition out_declTypeOpaqueVarArray_goXdr : md := MFunc (Some ("t", (XId "declTypeOpaqueVarArray"))) "goXdr" [("valPtr", (XId "string"))] [(XId "string")]
  [TDef ["sz"] (XSel (XId "t") "sz");
   TIf (XBin "==" (XId "sz") (XStr """""")) [TSet [(XId "sz")] (XStr """-1""")] None;
   TRet [(XCall (XSel (XId "fmt") "Sprintf") [(XStr """xdr.XdrVarArray(xs, int(%s), (*[]byte)(%s));\n"""); (XId "sz"); (XId "valPtr")])]]
  false.

Definition out_declTypeString_goType : md := MFunc (Some ("t", (XId "declTypeString"))) "goType" [] [(XId "string")]
  [TRet [(XStr """string""")]]
  false.

Definition out_declTypeString_goXdr : md := MFunc (Some ("t", (XId "declTypeString"))) "goXdr" [("valPtr", (XId "string"))] [(XId "string")]
  [TDef ["sz"] (XSel (XId "t") "sz");
   TIf (XBin "==" (XId "sz") (XStr """""")) [TSet [(XId "sz")] (XStr """-1""")] None;
   TRet [(XCall (XSel (XId "fmt") "Sprintf") [(XStr """xdr.XdrString(xs, int(%s), (*string)(%s));\n"""); (XId "sz"); (XId "valPtr")])]]
  false.

Definition out_declTypePtr_goType : md := MFunc (Some ("t", (XId "declTypePtr"))) "goType" [] [(XId "string")]
  [TRet [(XCall (XSel (XId "fmt") "Sprintf") [(XStr """*%s"""); (XCall (XSel (XSel (XId "t") "t") "goType") [])])]]
  false.

Definition out_declTypePtr_goXdr : md := MFunc (Some ("t", (XId "declTypePtr"))) "goXdr" [("valPtr", (XId "string"))] [(XId "string")]
  [TVar "res" (XId "string");
   TAdd (XId "res") (XCall (XSel (XId "fmt") "Sprintf") [(XStr """if xs.Encoding() {\n""")]);
   TAdd (XId "res") (XCall (XSel (XId "fmt") "Sprintf") [(XStr """opted := *(%s) != nil\n"""); (XId "valPtr")]);
   TAdd (XId "res") (XCall (XSel (XLit (XId "typeBool") []) "goXdr") [(XStr """&opted""")]);
   TAdd (XId "res") (XCall (XSel (XId "fmt") "Sprintf") [(XStr """if opted {\n""")]);
   TAdd (XId "res") (XCall (XSel (XSel (XId "t") "t") "goXdr") [(XCall (XSel (XId "fmt") "Sprintf") [(XStr """*(%s)"""); (XId "valPtr")])]);
   TAdd (XId "res") (XCall (XSel (XId "fmt") "Sprintf") [(XStr """}\n""")]);
   TAdd (XId "res") (XCall (XSel (XId "fmt") "Sprintf") [(XStr """}\n""")]);
   TAdd (XId "res") (XCall (XSel (XId "fmt") "Sprintf") [(XStr """if xs.Decoding() {\n""")]);
   TAdd (XId "res") (XCall (XSel (XId "fmt") "Sprintf") [(XStr """var opted bool\n""")]);
   TAdd (XId "res") (XCall (XSel (XLit (XId "typeBool") []) "goXdr") [(XStr """&opted""")]);
   TAdd (XId "res") (XCall (XSel (XId "fmt") "Sprintf") [(XStr """if opted {\n""")]);
   TAdd (XId "res") (XCall (XSel (XId "fmt") "Sprintf") [(XStr """*(%s) = new(%s)\n"""); (XId "valPtr"); (XCall (XSel (XSel (XId "t") "t") "goType") [])]);
   TAdd (XId "res") (XCall (XSel (XSel (XId "t") "t") "goXdr") [(XCall (XSel (XId "fmt") "Sprintf") [(XStr """*(%s)"""); (XId "valPtr")])]);
   TAdd (XId "res") (XCall (XSel (XId "fmt") "Sprintf") [(XStr """}\n""")]);
   TAdd (XId "res") (XCall (XSel (XId "fmt") "Sprintf") [(XStr """}\n""")]);
   TRet [(XId "res")]]
  false.

Definition out_typespecOpt_maybeGoType : md := MFunc (Some ("t", (XId "typespecOpt"))) "maybeGoType" [] [(XId "string")]
  [TIf (XSel (XId "t") "isVoid") [TRet [(XStr """""")]] None;
   TRet [(XCall (XSel (XSel (XId "t") "t") "goType") [])]]
  false.

Definition out_typeInt_goType : md := MFunc (Some ("t", (XId "typeInt"))) "goType" [] [(XId "string")]
  [TIf (XSel (XId "t") "unsig") [TRet [(XStr """uint32""")]] (Some [TRet [(XStr """int32""")]])]
  false.

Definition out_typeInt_goXdr : md := MFunc (Some ("t", (XId "typeInt"))) "goXdr" [("valPtr", (XId "string"))] [(XId "string")]
  [TIf (XSel (XId "t") "unsig") [TRet [(XCall (XSel (XId "fmt") "Sprintf") [(XStr """xdr.XdrU32(xs, (*uint32)(%s));\n"""); (XId "valPtr")])]] (Some [TRet [(XCall (XSel (XId "fmt") "Sprintf") [(XStr """xdr.XdrS32(xs, (*int32)(%s));\n"""); (XId "valPtr")])]])]
  false.

Definition out_typeHyper_goType : md := MFunc (Some ("t", (XId "typeHyper"))) "goType" [] [(XId "string")]
  [TIf (XSel (XId "t") "unsig") [TRet [(XStr """uint64""")]] (Some [TRet [(XStr """int64""")]])]
  false.

Definition out_typeHyper_goXdr : md := MFunc (Some ("t", (XId "typeHyper"))) "goXdr" [("valPtr", (XId "string"))] [(XId "string")]
  [TIf (XSel (XId "t") "unsig") [TRet [(XCall (XSel (XId "fmt") "Sprintf") [(XStr """xdr.XdrU64(xs, (*uint64)(%s));\n"""); (XId "valPtr")])]] (Some [TRet [(XCall (XSel (XId "fmt") "Sprintf") [(XStr """xdr.XdrS64(xs, (*int64)(%s));\n"""); (XId "valPtr")])]])]
  false.

Definition out_typeFloat_goType : md := MFunc (Some ("t", (XId "typeFloat"))) "goType" [] [(XId "string")]
  [TRet [(XStr """float32""")]]
  true.

Definition out_typeFloat_goXdr : md := MFunc (Some ("t", (XId "typeFloat"))) "goXdr" [("valPtr", (XId "string"))] [(XId "string")]
  [TExpr (XCall (XId "panic") [(XStr """x""")])]
  true.

Definition out_typeDouble_goType : md := MFunc (Some ("t", (XId "typeDouble"))) "goType" [] [(XId "string")]
  [TRet [(XStr """float64""")]]
  true.

Definition out_typeDouble_goXdr : md := MFunc (Some ("t", (XId "typeDouble"))) "goXdr" [("valPtr", (XId "string"))] [(XId "string")]
  [TExpr (XCall (XId "panic") [(XStr """x""")])]
  true.

Definition out_typeQuadruple_goType : md := MFunc (Some ("t", (XId "typeQuadruple"))) "goType" [] [(XId "string")]
  [TExpr (XCall (XId "panic") [(XStr """quadruple""")])]
  true.

Definition out_typeQuadruple_goXdr : md := MFunc (Some ("t", (XId "typeQuadruple"))) "goXdr" [("valPtr", (XId "string"))] [(XId "string")]
  [TExpr (XCall (XId "panic") [(XStr """x""")])]
  true.

Definition out_typeBool_goType : md := MFunc (Some ("t", (XId "typeBool"))) "goType" [] [(XId "string")]
  [TRet [(XStr """bool""")]]
  true.

Definition out_typeBool_goXdr : md := MFunc (Some ("t", (XId "typeBool"))) "goXdr" [("valPtr", (XId "string"))] [(XId "string")]
  [TRet [(XCall (XSel (XId "fmt") "Sprintf") [(XStr """xdr.XdrBool(xs, (*bool)(%s));\n"""); (XId "valPtr")])]]
  false.

Definition out_typeEnum_goType : md := MFunc (Some ("t", (XId "typeEnum"))) "goType" [] [(XId "string")]
  [TRet [(XStr """int32""")]]
  true.

Definition out_typeEnum_goXdr : md := MFunc (Some ("t", (XId "typeEnum"))) "goXdr" [("valPtr", (XId "string"))] [(XId "string")]
  [TExpr (XCall (XId "panic") [(XStr """x""")])]
  true.

Definition out_declToNameGotype : md := MFunc None "declToNameGotype" [("d", (XId "decl"))] [(XId "string")]
  [TType (Some "v") (XId "d") [("declName", [TRet [(XCall (XSel (XId "fmt") "Sprintf") [(XStr """%s %s;"""); (XCall (XId "i") [(XSel (XId "v") "n")]); (XCall (XSel (XSel (XId "v") "t") "goType") [])])]])];
   TRet [(XStr """""")]]
  false.

Definition out_typeStruct_goType : md := MFunc (Some ("t", (XId "typeStruct"))) "goType" [] [(XId "string")]
  [TDef ["res"] (XStr """struct { """);
   TRange "_" "i" (XSel (XId "t") "items") [TAdd (XId "res") (XCall (XId "declToNameGotype") [(XId "i")])];
   TAdd (XId "res") (XStr """}""");
   TRet [(XId "res")]]
  false.

Definition out_typeStruct_goXdr : md := MFunc (Some ("t", (XId "typeStruct"))) "goXdr" [("valPtr", (XId "string"))] [(XId "string")]
  [TVar "res" (XId "string");
   TRange "_" "v" (XSel (XId "t") "items") [TType (Some "v") (XId "v") [("declName", [TAdd (XId "res") (XCall (XSel (XSel (XId "v") "t") "goXdr") [(XCall (XSel (XId "fmt") "Sprintf") [(XStr """&((%s).%s)"""); (XId "valPtr"); (XCall (XId "i") [(XSel (XId "v") "n")])])])])]];
   TRet [(XId "res")]]
  false.

Definition out_typeUnion_goType : md := MFunc (Some ("t", (XId "typeUnion"))) "goType" [] [(XId "string")]
  [TDef ["res"] (XStr """struct { """);
   TAdd (XId "res") (XCall (XId "declToNameGotype") [(XSel (XId "t") "switchDecl")]);
   TRange "_" "i" (XSel (XSel (XId "t") "cases") "cases") [TAdd (XId "res") (XCall (XId "declToNameGotype") [(XSel (XId "i") "body")])];
   TIf (XBin "!=" (XSel (XSel (XId "t") "cases") "def") (XId "nil")) [TAdd (XId "res") (XCall (XId "declToNameGotype") [(XSel (XSel (XId "t") "cases") "def")])] None;
   TAdd (XId "res") (XStr """}""");
   TRet [(XId "res")]]
  false.

Definition out_typeUnion_goXdr : md := MFunc (Some ("t", (XId "typeUnion"))) "goXdr" [("valPtr", (XId "string"))] [(XId "string")]
  [TVar "res" (XId "string");
   TVar "switchName" (XId "string");
   TType (Some "v") (XSel (XId "t") "switchDecl") [("declVoid", [TExpr (XCall (XId "panic") [(XStr """void union switch""")])]); ("declName", [TSet [(XId "switchName")] (XCall (XSel (XId "fmt") "Sprintf") [(XStr """(%s).%s"""); (XId "valPtr"); (XCall (XId "i") [(XSel (XId "v") "n")])]);
   TAdd (XId "res") (XCall (XSel (XSel (XId "v") "t") "goXdr") [(XCall (XSel (XId "fmt") "Sprintf") [(XStr """&(%s)"""); (XId "switchName")])])])];
   TAdd (XId "res") (XCall (XSel (XId "fmt") "Sprintf") [(XStr """switch %s {\n"""); (XId "switchName")]);
   TRange "_" "c" (XSel (XSel (XId "t") "cases") "cases") [TRange "idx" "cval" (XSel (XId "c") "cases") [TAdd (XId "res") (XCall (XSel (XId "fmt") "Sprintf") [(XStr """case %s:\n"""); (XCall (XId "i") [(XId "cval")])]);
   TIf (XBin "!=" (XId "idx") (XBin "-" (XCall (XId "len") [(XSel (XId "c") "cases")]) (XInt "1"))) [TAdd (XId "res") (XStr """fallthrough\n""")] None];
   TType (Some "v") (XSel (XId "c") "body") [("declName", [TAdd (XId "res") (XCall (XSel (XSel (XId "v") "t") "goXdr") [(XCall (XSel (XId "fmt") "Sprintf") [(XStr """&((%s).%s)"""); (XId "valPtr"); (XCall (XId "i") [(XSel (XId "v") "n")])])])])]];
   TIf (XBin "!=" (XSel (XSel (XId "t") "cases") "def") (XId "nil")) [TAdd (XId "res") (XStr """default:\n""");
   TType (Some "v") (XSel (XSel (XId "t") "cases") "def") [("declName", [TAdd (XId "res") (XCall (XSel (XSel (XId "v") "t") "goXdr") [(XCall (XSel (XId "fmt") "Sprintf") [(XStr """&((%s).%s)"""); (XId "valPtr"); (XCall (XId "i") [(XSel (XId "v") "n")])])])])]] None;
   TAdd (XId "res") (XStr """}\n""");
   TRet [(XId "res")]]
  false.

Definition out_typeIdent_goType : md := MFunc (Some ("t", (XId "typeIdent"))) "goType" [] [(XId "string")]
  [TRet [(XCall (XId "i") [(XSel (XId "t") "n")])]]
  true.

Definition out_typeIdent_goXdr : md := MFunc (Some ("t", (XId "typeIdent"))) "goXdr" [("valPtr", (XId "string"))] [(XId "string")]
  [TRet [(XCall (XSel (XId "fmt") "Sprintf") [(XStr """(*%s)(%s).Xdr(xs);\n"""); (XCall (XId "i") [(XSel (XId "t") "n")]); (XId "valPtr")])]]
  false.

Definition out_emitProg : md := MFunc None "emitProg" [("d", (XId "progDef"))] []
  [TExpr (XCall (XSel (XId "fmt") "Fprintf") [(XId "tout"); (XStr """const %s uint32 = %s\n"""); (XCall (XId "i") [(XSel (XId "d") "name")]); (XSel (XId "d") "id")]);
   TRange "_" "v" (XSel (XId "d") "vers") [TExpr (XCall (XSel (XId "fmt") "Fprintf") [(XId "tout"); (XStr """const %s uint32 = %s\n"""); (XCall (XId "i") [(XSel (XId "v") "name")]); (XSel (XId "v") "id")]);
   TRange "_" "c" (XSel (XId "v") "calls") [TExpr (XCall (XSel (XId "fmt") "Fprintf") [(XId "tout"); (XStr """const %s uint32 = %s\n"""); (XCall (XId "i") [(XSel (XId "c") "name")]); (XSel (XId "c") "id")])];
   TExpr (XCall (XSel (XId "fmt") "Fprintf") [(XId "out"); (XStr """type %s_%s_handler interface {\n"""); (XCall (XId "i") [(XSel (XId "d") "name")]); (XCall (XId "i") [(XSel (XId "v") "name")])]);
   TRange "_" "c" (XSel (XId "v") "calls") [TExpr (XCall (XSel (XId "fmt") "Fprintf") [(XId "out"); (XStr """%s(%s) %s\n"""); (XCall (XId "i") [(XSel (XId "c") "name")]); (XCall (XSel (XSel (XId "c") "arg") "maybeGoType") []); (XCall (XSel (XSel (XId "c") "res") "maybeGoType") [])])];
   TExpr (XCall (XSel (XId "fmt") "Fprintf") [(XId "out"); (XStr """}\n""")]);
   TExpr (XCall (XSel (XId "fmt") "Fprintf") [(XId "out"); (XStr """type %s_%s_handler_wrapper struct {\n"""); (XCall (XId "i") [(XSel (XId "d") "name")]); (XCall (XId "i") [(XSel (XId "v") "name")])]);
   TExpr (XCall (XSel (XId "fmt") "Fprintf") [(XId "out"); (XStr """h %s_%s_handler\n"""); (XCall (XId "i") [(XSel (XId "d") "name")]); (XCall (XId "i") [(XSel (XId "v") "name")])]);
   TExpr (XCall (XSel (XId "fmt") "Fprintf") [(XId "out"); (XStr """}\n""")]);
   TRange "_" "c" (XSel (XId "v") "calls") [TExpr (XCall (XSel (XId "fmt") "Fprintf") [(XId "out"); (XStr """func (w *%s_%s_handler_wrapper) %s(args *xdr.XdrState) (res xdr.Xdrable, err error) {\n"""); (XCall (XId "i") [(XSel (XId "d") "name")]); (XCall (XId "i") [(XSel (XId "v") "name")]); (XCall (XId "i") [(XSel (XId "c") "name")])]);
   TIf (XUn "!" (XSel (XSel (XId "c") "arg") "isVoid")) [TExpr (XCall (XSel (XId "fmt") "Fprintf") [(XId "out"); (XStr """var in %s\n"""); (XCall (XSel (XSel (XSel (XId "c") "arg") "t") "goType") [])]);
   TExpr (XCall (XSel (XId "fmt") "Fprintf") [(XId "out"); (XStr """in.Xdr(args)\n""")]);
   TExpr (XCall (XSel (XId "fmt") "Fprintf") [(XId "out"); (XStr """err = args.Error()\n""")]);
   TExpr (XCall (XSel (XId "fmt") "Fprintf") [(XId "out"); (XStr """if err != nil { return }\n""")])] None;
   TIf (XUn "!" (XSel (XSel (XId "c") "res") "isVoid")) [TExpr (XCall (XSel (XId "fmt") "Fprintf") [(XId "out"); (XStr """var out %s\n"""); (XCall (XSel (XSel (XSel (XId "c") "res") "t") "goType") [])])] (Some [TExpr (XCall (XSel (XId "fmt") "Fprintf") [(XId "out"); (XStr """var out xdr.Void\n""")])]);
   TIf (XUn "!" (XSel (XSel (XId "c") "res") "isVoid")) [TExpr (XCall (XSel (XId "fmt") "Fprintf") [(XId "out"); (XStr """out = """)])] None;
   TExpr (XCall (XSel (XId "fmt") "Fprintf") [(XId "out"); (XStr """w.h.%s("""); (XCall (XId "i") [(XSel (XId "c") "name")])]);
   TIf (XUn "!" (XSel (XSel (XId "c") "arg") "isVoid")) [TExpr (XCall (XSel (XId "fmt") "Fprintf") [(XId "out"); (XStr """in""")])] None;
   TExpr (XCall (XSel (XId "fmt") "Fprintf") [(XId "out"); (XStr """)\n""")]);
   TExpr (XCall (XSel (XId "fmt") "Fprintf") [(XId "out"); (XStr """return &out, nil""")]);
   TExpr (XCall (XSel (XId "fmt") "Fprintf") [(XId "out"); (XStr """}\n""")])];
   TExpr (XCall (XSel (XId "fmt") "Fprintf") [(XId "out"); (XStr """func %s_%s_regs(h %s_%s_handler) []xdr.ProcRegistration {\n"""); (XCall (XId "i") [(XSel (XId "d") "name")]); (XCall (XId "i") [(XSel (XId "v") "name")]); (XCall (XId "i") [(XSel (XId "d") "name")]); (XCall (XId "i") [(XSel (XId "v") "name")])]);
   TExpr (XCall (XSel (XId "fmt") "Fprintf") [(XId "out"); (XStr """w := &%s_%s_handler_wrapper{h}\n"""); (XCall (XId "i") [(XSel (XId "d") "name")]); (XCall (XId "i") [(XSel (XId "v") "name")])]);
   TExpr (XCall (XSel (XId "fmt") "Fprintf") [(XId "out"); (XStr """return []xdr.ProcRegistration{\n""")]);
   TRange "_" "c" (XSel (XId "v") "calls") [TExpr (XCall (XSel (XId "fmt") "Fprintf") [(XId "out"); (XStr """xdr.ProcRegistration{\n""")]);
   TExpr (XCall (XSel (XId "fmt") "Fprintf") [(XId "out"); (XStr """Prog: %s,\n"""); (XCall (XId "i") [(XSel (XId "d") "name")])]);
   TExpr (XCall (XSel (XId "fmt") "Fprintf") [(XId "out"); (XStr """Vers: %s,\n"""); (XCall (XId "i") [(XSel (XId "v") "name")])]);
   TExpr (XCall (XSel (XId "fmt") "Fprintf") [(XId "out"); (XStr """Proc: %s,\n"""); (XCall (XId "i") [(XSel (XId "c") "name")])]);
   TExpr (XCall (XSel (XId "fmt") "Fprintf") [(XId "out"); (XStr """Handler: w.%s,\n"""); (XCall (XId "i") [(XSel (XId "c") "name")])]);
   TExpr (XCall (XSel (XId "fmt") "Fprintf") [(XId "out"); (XStr """},\n""")])];
   TExpr (XCall (XSel (XId "fmt") "Fprintf") [(XId "out"); (XStr """}\n""")]);
   TExpr (XCall (XSel (XId "fmt") "Fprintf") [(XId "out"); (XStr """}\n""")])]]
  false.

Definition out_emitConst : md := MFunc None "emitConst" [("ident", (XId "string")); ("val", (XId "string"))] []
  [TExpr (XCall (XSel (XId "fmt") "Fprintf") [(XId "tout"); (XStr """const %s %s = %s\n"""); (XId "ident"); (XUn "*" (XId "constTypeFlag")); (XId "val")])]
  false.

Definition out_emitTypedef : md := MFunc None "emitTypedef" [("val", (XId "decl"))] []
  [TType (Some "v") (XId "val") [("declName", [TDef ["goType"] (XCall (XSel (XSel (XId "v") "t") "goType") []);
   TDef ["goRef"] (XStr """v""");
   TType None (XSel (XId "v") "t") [("declTypePtr", [TSet [(XId "goType")] (XCall (XSel (XId "fmt") "Sprintf") [(XStr """struct { P %s }"""); (XId "goType")]);
   TSet [(XId "goRef")] (XStr """&v.P""")])];
   TExpr (XCall (XSel (XId "fmt") "Fprintf") [(XId "tout"); (XStr """type %s %s\n"""); (XCall (XId "i") [(XSel (XId "v") "n")]); (XId "goType")]);
   TExpr (XCall (XSel (XId "fmt") "Fprintf") [(XId "out"); (XStr """func (v *%s) Xdr(xs *xdr.XdrState) {\n"""); (XCall (XId "i") [(XSel (XId "v") "n")])]);
   TExpr (XCall (XSel (XId "fmt") "Fprintf") [(XId "out"); (XStr """%s"""); (XCall (XSel (XSel (XId "v") "t") "goXdr") [(XId "goRef")])]);
   TExpr (XCall (XSel (XId "fmt") "Fprintf") [(XId "out"); (XStr """}\n""")])])]]
  false.

Definition out_emitEnum : md := MFunc None "emitEnum" [("ident", (XId "string")); ("val", (XSlice (XId "enumItem")))] []
  [TDef ["t"] (XStr """int32""");
   TIf (XUn "*" (XId "unsignedEnumFlag")) [TSet [(XId "t")] (XStr """uint32""")] None;
   TExpr (XCall (XSel (XId "fmt") "Fprintf") [(XId "tout"); (XStr """type %s %s\n"""); (XCall (XId "i") [(XId "ident")]); (XId "t")]);
   TExpr (XCall (XSel (XId "fmt") "Fprintf") [(XId "out"); (XStr """func (v *%s) Xdr(xs *xdr.XdrState) {\n"""); (XCall (XId "i") [(XId "ident")])]);
   TExpr (XCall (XSel (XId "fmt") "Fprintf") [(XId "out"); (XStr """%s"""); (XCall (XSel (XLit (XId "typeInt") [(XUn "*" (XId "unsignedEnumFlag"))]) "goXdr") [(XStr """v""")])]);
   TExpr (XCall (XSel (XId "fmt") "Fprintf") [(XId "out"); (XStr """}\n""")]);
   TRange "_" "v" (XId "val") [TExpr (XCall (XSel (XId "fmt") "Fprintf") [(XId "tout"); (XStr """const %s %s = %s\n"""); (XCall (XId "i") [(XSel (XId "v") "name")]); (XCall (XId "i") [(XId "ident")]); (XSel (XId "v") "val")])]]
  false.

Definition out_emitStruct : md := MFunc None "emitStruct" [("ident", (XId "string")); ("val", (XSlice (XId "decl")))] []
  [TExpr (XCall (XSel (XId "fmt") "Fprintf") [(XId "tout"); (XStr """type %s struct {\n"""); (XCall (XId "i") [(XId "ident")])]);
   TRange "_" "v" (XId "val") [TType (Some "v") (XId "v") [("declName", [TExpr (XCall (XSel (XId "fmt") "Fprintf") [(XId "tout"); (XStr """  %s %s;\n"""); (XCall (XId "i") [(XSel (XId "v") "n")]); (XCall (XSel (XSel (XId "v") "t") "goType") [])])])]];
   TExpr (XCall (XSel (XId "fmt") "Fprintf") [(XId "tout"); (XStr """}\n""")]);
   TExpr (XCall (XSel (XId "fmt") "Fprintf") [(XId "out"); (XStr """func (v *%s) Xdr(xs *xdr.XdrState) {\n"""); (XCall (XId "i") [(XId "ident")])]);
   TExpr (XCall (XSel (XId "fmt") "Fprintf") [(XId "out"); (XStr """%s"""); (XCall (XSel (XLit (XId "typeStruct") [(XId "val")]) "goXdr") [(XStr """v""")])]);
   TExpr (XCall (XSel (XId "fmt") "Fprintf") [(XId "out"); (XStr """}\n""")])]
  false.

Definition out_emitUnion : md := MFunc None "emitUnion" [("ident", (XId "string")); ("val", (XId "typeUnion"))] []
  [TExpr (XCall (XSel (XId "fmt") "Fprintf") [(XId "tout"); (XStr """type %s %s\n"""); (XCall (XId "i") [(XId "ident")]); (XCall (XSel (XId "val") "goType") [])]);
   TExpr (XCall (XSel (XId "fmt") "Fprintf") [(XId "out"); (XStr """func (v *%s) Xdr(xs *xdr.XdrState) {\n"""); (XCall (XId "i") [(XId "ident")])]);
   TExpr (XCall (XSel (XId "fmt") "Fprintf") [(XId "out"); (XStr """%s"""); (XCall (XSel (XId "val") "goXdr") [(XStr """v""")])]);
   TExpr (XCall (XSel (XId "fmt") "Fprintf") [(XId "out"); (XStr """}\n""")])]
  false.

Definition out_prog : mfile := mkMFile "main" [
  MImport ["""fmt"""; """strings"""];
  out_i;
  MType "decl" (XIface []);
  MType "declVoid" (XStruct []);
  MType "declName" (XStruct [("t", (XId "declType")); ("n", (XId "string"))]);
  MType "declType" (XIface [("goType", [], [(XId "string")]); ("goXdr", [("valPtr", (XId "string"))], [(XId "string")])]);
  MType "declTypeTypespec" (XStruct [("t", (XId "typespec"))]);
  out_declTypeTypespec_goType;
  out_declTypeTypespec_goXdr;
  MType "declTypeArray" (XStruct [("t", (XId "typespec")); ("sz", (XId "string"))]);
  out_declTypeArray_goType;
  out_declTypeArray_goXdr;
  MType "declTypeVarArray" (XStruct [("t", (XId "typespec")); ("sz", (XId "string"))]);
  out_declTypeVarArray_goType;
  out_declTypeVarArray_goXdr;
  MType "declTypeOpaqueArray" (XStruct [("sz", (XId "string"))]);
  out_declTypeOpaqueArray_goType;
  out_declTypeOpaqueArray_goXdr;
  MType "declTypeOpaqueVarArray" (XStruct [("sz", (XId "string"))]);
  out_declTypeOpaqueVarArray_goType;
  out_declTypeOpaqueVarArray_goXdr;
  MType "declTypeString" (XStruct [("sz", (XId "string"))]);
  out_declTypeString_goType;
  out_declTypeString_goXdr;
  MType "declTypePtr" (XStruct [("t", (XId "typespec"))]);
  out_declTypePtr_goType;
  out_declTypePtr_goXdr;
  MType "typespec" (XIface [("goType", [], [(XId "string")]); ("goXdr", [("valPtr", (XId "string"))], [(XId "string")])]);
  MType "typespecOpt" (XStruct [("isVoid", (XId "bool")); ("t", (XId "typespec"))]);
  out_typespecOpt_maybeGoType;
  MType "typeInt" (XStruct [("unsig", (XId "bool"))]);
  out_typeInt_goType;
  out_typeInt_goXdr;
  MType "typeHyper" (XStruct [("unsig", (XId "bool"))]);
  out_typeHyper_goType;
  out_typeHyper_goXdr;
  MType "typeFloat" (XStruct []);
  out_typeFloat_goType;
  out_typeFloat_goXdr;
  MType "typeDouble" (XStruct []);
  out_typeDouble_goType;
  out_typeDouble_goXdr;
  MType "typeQuadruple" (XStruct []);
  out_typeQuadruple_goType;
  out_typeQuadruple_goXdr;
  MType "typeBool" (XStruct []);
  out_typeBool_goType;
  out_typeBool_goXdr;
  MType "typeEnum" (XStruct [("items", (XSlice (XId "enumItem")))]);
  out_typeEnum_goType;
  out_typeEnum_goXdr;
  out_declToNameGotype;
  MType "typeStruct" (XStruct [("items", (XSlice (XId "decl")))]);
  out_typeStruct_goType;
  out_typeStruct_goXdr;
  MType "typeUnion" (XStruct [("switchDecl", (XId "decl")); ("cases", (XId "unionCasesDef"))]);
  out_typeUnion_goType;
  out_typeUnion_goXdr;
  MType "typeIdent" (XStruct [("n", (XId "string"))]);
  out_typeIdent_goType;
  out_typeIdent_goXdr;
  MType "enumItem" (XStruct [("name", (XId "string")); ("val", (XId "string"))]);
  MType "unionCasesDef" (XStruct [("cases", (XSlice (XId "unionCaseDecl"))); ("def", (XId "decl"))]);
  MType "unionCaseDecl" (XStruct [("cases", (XSlice (XId "string"))); ("body", (XId "decl"))]);
  MType "progCall" (XStruct [("name", (XId "string")); ("arg", (XId "typespecOpt")); ("res", (XId "typespecOpt")); ("id", (XId "string"))]);
  MType "progVer" (XStruct [("name", (XId "string")); ("calls", (XSlice (XId "progCall"))); ("id", (XId "string"))]);
  MType "progDef" (XStruct [("name", (XId "string")); ("vers", (XSlice (XId "progVer"))); ("id", (XId "string"))]);
  out_emitProg;
  out_emitConst;
  out_emitTypedef;
  out_emitEnum;
  out_emitStruct;
  out_emitUnion].

(** ** /repo/scan.go *)
Definition scan_lexer_Lex : md := MFunc (Some ("l", (XUn "*" (XId "lexer")))) "Lex" [("lval", (XUn "*" (XId "xdrSymType")))] [(XId "int")]
  [TDef ["pos"; "tok"; "lit"] (XCall (XSel (XSel (XId "l") "s") "Scan") []);
   TIf (XBin "==" (XId "tok") (XSel (XId "token") "EOF")) [TRet [(XId "eof")]] None;
   TIf (XUn "*" (XId "debugFlag")) [TExpr (XCall (XSel (XId "fmt") "Printf") [(XStr """pos=%v, tok=%v, lit=%v\n"""); (XId "pos"); (XId "tok"); (XId "lit")])] None;
   TSwitch (XId "tok") [((Some (XSel (XId "token") "CONST")), [TRet [(XId "KWCONST")]]); ((Some (XSel (XId "token") "STRUCT")), [TRet [(XId "KWSTRUCT")]]); ((Some (XSel (XId "token") "TYPE")), [TSet [(XSel (XId "lval") "str")] (XStr """type""");
   TRet [(XId "IDENT")]]); ((Some (XSel (XId "token") "SWITCH")), [TRet [(XId "KWSWITCH")]]); ((Some (XSel (XId "token") "CASE")), [TRet [(XId "KWCASE")]]); ((Some (XSel (XId "token") "DEFAULT")), [TRet [(XId "KWDEFAULT")]]); ((Some (XSel (XId "token") "MAP")), [TSet [(XSel (XId "lval") "str")] (XStr """map""");
   TRet [(XId "IDENT")]]); ((Some (XSel (XId "token") "IDENT")), [TSwitch (XId "lit") [((Some (XStr """typedef""")), [TRet [(XId "KWTYPEDEF")]]); ((Some (XStr """enum""")), [TRet [(XId "KWENUM")]]); ((Some (XStr """union""")), [TRet [(XId "KWUNION")]]); ((Some (XStr """void""")), [TRet [(XId "KWVOID")]]); ((Some (XStr """string""")), [TRet [(XId "KWSTRING")]]); ((Some (XStr """opaque""")), [TRet [(XId "KWOPAQUE")]]); ((Some (XStr """unsigned""")), [TRet [(XId "KWUNSIGNED")]]); ((Some (XStr """int""")), [TRet [(XId "KWINT")]]); ((Some (XStr """hyper""")), [TRet [(XId "KWHYPER")]]); ((Some (XStr """float""")), [TRet [(XId "KWFLOAT")]]); ((Some (XStr """double""")), [TRet [(XId "KWDOUBLE")]]); ((Some (XStr """quadruple""")), [TRet [(XId "KWQUADRUPLE")]]); ((Some (XStr """bool""")), [TRet [(XId "KWBOOL")]]); ((Some (XStr """program""")), [TRet [(XId "KWPROGRAM")]]); ((Some (XStr """version""")), [TRet [(XId "KWVERSION")]]); (None, [TSet [(XSel (XId "lval") "str")] (XId "lit");
   TRet [(XId "IDENT")]])]]); ((Some (XSel (XId "token") "ASSIGN")), [TRet [(XChr "'='")]]); ((Some (XSel (XId "token") "SEMICOLON")), [TRet [(XChr "';'")]]); ((Some (XSel (XId "token") "COLON")), [TRet [(XChr "':'")]]); ((Some (XSel (XId "token") "LSS")), [TRet [(XChr "'<'")]]); ((Some (XSel (XId "token") "GTR")), [TRet [(XChr "'>'")]]); ((Some (XSel (XId "token") "LBRACK")), [TRet [(XChr "'['")]]); ((Some (XSel (XId "token") "RBRACK")), [TRet [(XChr "']'")]]); ((Some (XSel (XId "token") "LBRACE")), [TRet [(XChr "'{'")]]); ((Some (XSel (XId "token") "RBRACE")), [TRet [(XChr "'}'")]]); ((Some (XSel (XId "token") "COMMA")), [TRet [(XChr "','")]]); ((Some (XSel (XId "token") "LPAREN")), [TRet [(XChr "'('")]]); ((Some (XSel (XId "token") "RPAREN")), [TRet [(XChr "')'")]]); ((Some (XSel (XId "token") "MUL")), [TRet [(XChr "'*'")]]); ((Some (XSel (XId "token") "INT")), [TSet [(XSel (XId "lval") "str")] (XId "lit");
   TRet [(XId "CONST")]]); (None, [TExpr (XCall (XSel (XId "fmt") "Printf") [(XStr """NOT HANDLED: pos=%v, tok=%v, lit=%v\n"""); (XId "pos"); (XId "tok"); (XId "lit")]);
   TExpr (XCall (XId "panic") [(XStr """token not handled""")])])]]
  false.

Definition scan_lexer_Error : md := MFunc (Some ("l", (XUn "*" (XId "lexer")))) "Error" [("e", (XId "string"))] []
  [TExpr (XCall (XId "panic") [(XId "e")])]
  false.

Definition scan_prog : mfile := mkMFile "main" [
  MImport ["""fmt"""; """go/scanner"""; """go/token"""];
  MType "lexer" (XStruct [("s", (XSel (XId "scanner") "Scanner"))]);
  MConst "eof" (XInt "0");
  scan_lexer_Lex;
  scan_lexer_Error].

(** ** /repo/main.go *)
Definition main_main : md := MFunc None "main" [] []
  [TExpr (XCall (XSel (XId "flag") "Parse") []);
   TIf (XBin "==" (XUn "*" (XId "inputFile")) (XStr """""")) [TExpr (XCall (XSel (XId "fmt") "Fprintf") [(XSel (XId "os") "Stderr"); (XStr """Must specify input file (-i)\n""")]);
   TExpr (XCall (XSel (XId "os") "Exit") [(XInt "1")])] None;
   TIf (XBin "==" (XUn "*" (XId "outputFile")) (XStr """""")) [TExpr (XCall (XSel (XId "fmt") "Fprintf") [(XSel (XId "os") "Stderr"); (XStr """Must specify output file (-o)\n""")]);
   TExpr (XCall (XSel (XId "os") "Exit") [(XInt "1")])] None;
   TDef ["src"; "err"] (XCall (XSel (XId "ioutil") "ReadFile") [(XUn "*" (XId "inputFile"))]);
   TIf (XBin "!=" (XId "err") (XId "nil")) [TExpr (XCall (XId "panic") [(XId "err")])] None;
   TDef ["fset"] (XCall (XSel (XId "token") "NewFileSet") []);
   TDef ["f"] (XCall (XSel (XId "fset") "AddFile") [(XUn "*" (XId "inputFile")); (XUn "-" (XInt "1")); (XCall (XId "len") [(XId "src")])]);
   TVar "l" (XId "lexer");
   TExpr (XCall (XSel (XSel (XId "l") "s") "Init") [(XId "f"); (XId "src"); (XId "nil"); (XInt "0")]);
   TDef ["outTmp"] (XBin "+" (XUn "*" (XId "outputFile")) (XStr """.tmp"""));
   TDef ["outf"; "err"] (XCall (XSel (XId "os") "OpenFile") [(XId "outTmp"); (XBin "|" (XBin "|" (XBin "|" (XSel (XId "os") "O_WRONLY") (XSel (XId "os") "O_EXCL")) (XSel (XId "os") "O_CREATE")) (XSel (XId "os") "O_TRUNC")); (XInt "0666")]);
   TIf (XBin "!=" (XId "err") (XId "nil")) [TExpr (XCall (XId "panic") [(XId "err")])] None;
   TDefer (XCall (XSel (XId "os") "Remove") [(XId "outTmp")]);
   TSet [(XId "out")] (XId "outf");
   TExpr (XCall (XSel (XId "fmt") "Fprintf") [(XId "out"); (XStr """package %s\n"""); (XUn "*" (XId "outputPackage"))]);
   TExpr (XCall (XSel (XId "fmt") "Fprintf") [(XId "out"); (XStr """import \""github.com/zeldovich/go-rpcgen/xdr\""\n""")]);
   TVar "toutTmp" (XId "string");
   TVar "toutf" (XUn "*" (XSel (XId "os") "File"));
   TIf (XBin "!=" (XUn "*" (XId "typesFile")) (XStr """""")) [TSet [(XId "toutTmp")] (XBin "+" (XUn "*" (XId "typesFile")) (XStr """.tmp"""));
   TSet [(XId "toutf"); (XId "err")] (XCall (XSel (XId "os") "OpenFile") [(XId "toutTmp"); (XBin "|" (XBin "|" (XBin "|" (XSel (XId "os") "O_WRONLY") (XSel (XId "os") "O_EXCL")) (XSel (XId "os") "O_CREATE")) (XSel (XId "os") "O_TRUNC")); (XInt "0666")]);
   TIf (XBin "!=" (XId "err") (XId "nil")) [TExpr (XCall (XId "panic") [(XId "err")])] None;
   TDefer (XCall (XSel (XId "os") "Remove") [(XId "toutTmp")]);
   TSet [(XId "tout")] (XId "toutf");
   TExpr (XCall (XSel (XId "fmt") "Fprintf") [(XId "tout"); (XStr """package %s\n"""); (XUn "*" (XId "outputPackage"))])] (Some [TSet [(XId "tout")] (XId "outf")]);
   TExpr (XCall (XId "xdrParse") [(XUn "&" (XId "l"))]);
   TExpr (XCall (XSel (XId "outf") "Close") []);
   TExpr (XCall (XId "refmt") [(XId "outTmp"); (XUn "*" (XId "outputFile"))]);
   TIf (XBin "!=" (XUn "*" (XId "typesFile")) (XStr """""")) [TExpr (XCall (XSel (XId "toutf") "Close") []);
   TExpr (XCall (XId "refmt") [(XId "toutTmp"); (XUn "*" (XId "typesFile"))])] None]
  false.

Definition main_refmt : md := MFunc None "refmt" [("infile", (XId "string")); ("outfile", (XId "string"))] []
  [TDef ["buf"; "err"] (XCall (XSel (XId "ioutil") "ReadFile") [(XId "infile")]);
   TIf (XBin "!=" (XId "err") (XId "nil")) [TExpr (XCall (XId "panic") [(XId "err")])] None;
   TSet [(XId "buf"); (XId "err")] (XCall (XSel (XId "format") "Source") [(XId "buf")]);
   TIf (XBin "!=" (XId "err") (XId "nil")) [TExpr (XCall (XId "panic") [(XId "err")])] None;
   TSet [(XId "err")] (XCall (XSel (XId "ioutil") "WriteFile") [(XId "outfile"); (XId "buf"); (XInt "0666")]);
   TIf (XBin "!=" (XId "err") (XId "nil")) [TExpr (XCall (XId "panic") [(XId "err")])] None]
  false.

Definition main_prog : mfile := mkMFile "main" [
  MImport ["""flag"""; """fmt"""; """go/format"""; """go/token"""; """io"""; """io/ioutil"""; """os"""];
  MInit "inputFile" (XCall (XSel (XId "flag") "String") [(XStr """i"""); (XStr """"""); (XStr """Input file (.x)""")]);
  MInit "outputFile" (XCall (XSel (XId "flag") "String") [(XStr """o"""); (XStr """"""); (XStr """Output file (.go)""")]);
  MInit "outputPackage" (XCall (XSel (XId "flag") "String") [(XStr """p"""); (XStr """main"""); (XStr """Output package name""")]);
  MInit "typesFile" (XCall (XSel (XId "flag") "String") [(XStr """t"""); (XStr """"""); (XStr """Output file for separate type definitions (optional""")]);
  MInit "debugFlag" (XCall (XSel (XId "flag") "Bool") [(XStr """d"""); (XId "false"); (XStr """Debug parsing""")]);
  MInit "unsignedEnumFlag" (XCall (XSel (XId "flag") "Bool") [(XStr """unsigned-enum"""); (XId "false"); (XStr """Unsigned integer enum types""")]);
  MInit "constTypeFlag" (XCall (XSel (XId "flag") "String") [(XStr """const-type"""); (XStr """"""); (XStr """Optional type for const definitions""")]);
  MVar "out" (XSel (XId "io") "Writer");
  MVar "tout" (XSel (XId "io") "Writer");
  main_main;
  main_refmt].
