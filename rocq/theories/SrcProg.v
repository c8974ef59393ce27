(** Syntax trees of the hand-written Go files in SrcText.v (made by tools/goast.py; SrcTextP.v
    checks that they are the files).  One definition for each function. *)
From Coq Require Import List String.
From Verif Require Import SrcAst.
Import ListNotations.
Open Scope string_scope.

(** ** /repo/xdr/lib.go *)
Definition lib_MakeReader : gd := DFunc None "MakeReader" [(["buf"], (TSlice (EId "byte")))] [([], (EUn "*" (EId "XdrState")))] false
  [SRet [(EUn "&" (EComp (EId "XdrState") [("err", (EId "nil")); ("reader", (EId "true")); ("buf", (EId "buf"))]))]]
  false.

Definition lib_MakeWriter : gd := DFunc None "MakeWriter" [(["buf"], (TSlice (EId "byte")))] [([], (EUn "*" (EId "XdrState")))] false
  [SRet [(EUn "&" (EComp (EId "XdrState") [("err", (EId "nil")); ("reader", (EId "false")); ("buf", (EId "buf"))]))]]
  false.

Definition lib_XdrState_WriteBuf : gd := DFunc (Some ("xs", (EUn "*" (EId "XdrState")))) "WriteBuf" [] [([], (TSlice (EId "byte")))] false
  [SRet [(ESel (EId "xs") "buf")]]
  false.

Definition lib_XdrState_EncodingSetSize : gd := DFunc (Some ("xs", (EUn "*" (EId "XdrState")))) "EncodingSetSize" [(["arraysz"], (EUn "*" (EId "uint32"))); (["len"], (EId "int"))] [] false
  [SIf (EBin "!=" (ESel (EId "xs") "err") (EId "nil")) [SRet []] None;
   SIf (ESel (EId "xs") "reader") [SRet []] None;
   SIf (EBin ">" (EId "len") (ESel (EId "math") "MaxUint32")) [SExpr (ECall (ESel (EId "xs") "SetError") [(EStr """length too large""")] false);
   SRet []] None;
   SSet [(EUn "*" (EId "arraysz"))] (ECall (EId "uint32") [(EId "len")] false)]
  false.

Definition lib_XdrState_Encoding : gd := DFunc (Some ("xs", (EUn "*" (EId "XdrState")))) "Encoding" [] [([], (EId "bool"))] false
  [SRet [(EBin "&&" (EBin "==" (ESel (EId "xs") "err") (EId "nil")) (EBin "==" (ESel (EId "xs") "reader") (EId "false")))]]
  false.

Definition lib_XdrState_Decoding : gd := DFunc (Some ("xs", (EUn "*" (EId "XdrState")))) "Decoding" [] [([], (EId "bool"))] false
  [SRet [(EBin "&&" (EBin "==" (ESel (EId "xs") "err") (EId "nil")) (EBin "==" (ESel (EId "xs") "reader") (EId "true")))]]
  false.

Definition lib_XdrState_SetError : gd := DFunc (Some ("xs", (EUn "*" (EId "XdrState")))) "SetError" [(["s"], (EId "string"))] [] false
  [SSet [(ESel (EId "xs") "err")] (ECall (ESel (EId "errors") "New") [(EId "s")] false)]
  false.

Definition lib_XdrState_Error : gd := DFunc (Some ("xs", (EUn "*" (EId "XdrState")))) "Error" [] [([], (EId "error"))] false
  [SRet [(ESel (EId "xs") "err")]]
  false.

Definition lib_xdrRW : gd := DFunc None "xdrRW" [(["xs"], (EUn "*" (EId "XdrState"))); (["v"], (TSlice (EId "byte")))] [] false
  [SIf (EBin "!=" (ESel (EId "xs") "err") (EId "nil")) [SRet []] None;
   SIf (ESel (EId "xs") "reader") [SDef ["n"] (ECall (EId "copy") [(EId "v"); (ESel (EId "xs") "buf")] false);
   SSet [(ESel (EId "xs") "buf")] (ESub (ESel (EId "xs") "buf") (Some (EId "n")) None None);
   SIf (EBin "<" (EId "n") (ECall (EId "len") [(EId "v")] false)) [SSet [(ESel (EId "xs") "err")] (ECall (ESel (EId "fmt") "Errorf") [(EStr """Not enough bytes: wanted %d, got %d"""); (ECall (EId "len") [(EId "v")] false); (EId "n")] false)] None] (Some [SSet [(ESel (EId "xs") "buf")] (ECall (EId "append") [(ESel (EId "xs") "buf"); (EId "v")] true)])]
  false.

Definition lib_xdrR : gd := DFunc None "xdrR" [(["xs"], (EUn "*" (EId "XdrState"))); (["n"], (EId "int"))] [([], (TSlice (EId "byte")))] false
  [SIf (EBin "<" (ECall (EId "len") [(ESel (EId "xs") "buf")] false) (EId "n")) [SSet [(ESel (EId "xs") "err")] (ECall (ESel (EId "fmt") "Errorf") [(EStr """Not enough bytes: wanted %d, have %d"""); (EId "n"); (ECall (EId "len") [(ESel (EId "xs") "buf")] false)] false)] None;
   SIf (EBin "!=" (ESel (EId "xs") "err") (EId "nil")) [SRet [(EId "nil")]] None;
   SDef ["res"] (ESub (ESel (EId "xs") "buf") None (Some (EId "n")) (Some (EId "n")));
   SSet [(ESel (EId "xs") "buf")] (ESub (ESel (EId "xs") "buf") (Some (EId "n")) None None);
   SRet [(EId "res")]]
  false.

Definition lib_XdrBool : gd := DFunc None "XdrBool" [(["xs"], (EUn "*" (EId "XdrState"))); (["v"], (EUn "*" (EId "bool")))] [] false
  [SIf (EBin "!=" (ESel (EId "xs") "err") (EId "nil")) [SRet []] None;
   SVar "buf" (TArr (EInt "4") (EId "byte"));
   SIf (ECall (ESel (EId "xs") "Encoding") [] false) [SIf (EUn "*" (EId "v")) [SExpr (ECall (ESel (ESel (EId "binary") "BigEndian") "PutUint32") [(ESub (EId "buf") None None None); (EInt "1")] false)] (Some [SExpr (ECall (ESel (ESel (EId "binary") "BigEndian") "PutUint32") [(ESub (EId "buf") None None None); (EInt "0")] false)])] None;
   SExpr (ECall (EId "xdrRW") [(EId "xs"); (ESub (EId "buf") None None None)] false);
   SIf (ECall (ESel (EId "xs") "Decoding") [] false) [SDef ["r"] (ECall (ESel (ESel (EId "binary") "BigEndian") "Uint32") [(ESub (EId "buf") None None None)] false);
   SIf (EBin "==" (EId "r") (EInt "0")) [SSet [(EUn "*" (EId "v"))] (EId "false")] (Some [SSet [(EUn "*" (EId "v"))] (EId "true")])] None]
  false.

Definition lib_XdrS32 : gd := DFunc None "XdrS32" [(["xs"], (EUn "*" (EId "XdrState"))); (["v"], (EUn "*" (EId "int32")))] [] false
  [SIf (EBin "!=" (ESel (EId "xs") "err") (EId "nil")) [SRet []] None;
   SVar "buf" (TArr (EInt "4") (EId "byte"));
   SIf (ECall (ESel (EId "xs") "Encoding") [] false) [SExpr (ECall (ESel (ESel (EId "binary") "BigEndian") "PutUint32") [(ESub (EId "buf") None None None); (ECall (EId "uint32") [(EUn "*" (EId "v"))] false)] false)] None;
   SExpr (ECall (EId "xdrRW") [(EId "xs"); (ESub (EId "buf") None None None)] false);
   SIf (ECall (ESel (EId "xs") "Decoding") [] false) [SSet [(EUn "*" (EId "v"))] (ECall (EId "int32") [(ECall (ESel (ESel (EId "binary") "BigEndian") "Uint32") [(ESub (EId "buf") None None None)] false)] false)] None]
  false.

Definition lib_XdrU32 : gd := DFunc None "XdrU32" [(["xs"], (EUn "*" (EId "XdrState"))); (["v"], (EUn "*" (EId "uint32")))] [] false
  [SIf (EBin "!=" (ESel (EId "xs") "err") (EId "nil")) [SRet []] None;
   SVar "buf" (TArr (EInt "4") (EId "byte"));
   SIf (ECall (ESel (EId "xs") "Encoding") [] false) [SExpr (ECall (ESel (ESel (EId "binary") "BigEndian") "PutUint32") [(ESub (EId "buf") None None None); (EUn "*" (EId "v"))] false)] None;
   SExpr (ECall (EId "xdrRW") [(EId "xs"); (ESub (EId "buf") None None None)] false);
   SIf (ECall (ESel (EId "xs") "Decoding") [] false) [SSet [(EUn "*" (EId "v"))] (ECall (ESel (ESel (EId "binary") "BigEndian") "Uint32") [(ESub (EId "buf") None None None)] false)] None]
  false.

Definition lib_XdrS64 : gd := DFunc None "XdrS64" [(["xs"], (EUn "*" (EId "XdrState"))); (["v"], (EUn "*" (EId "int64")))] [] false
  [SIf (EBin "!=" (ESel (EId "xs") "err") (EId "nil")) [SRet []] None;
   SVar "buf" (TArr (EInt "8") (EId "byte"));
   SIf (ECall (ESel (EId "xs") "Encoding") [] false) [SExpr (ECall (ESel (ESel (EId "binary") "BigEndian") "PutUint64") [(ESub (EId "buf") None None None); (ECall (EId "uint64") [(EUn "*" (EId "v"))] false)] false)] None;
   SExpr (ECall (EId "xdrRW") [(EId "xs"); (ESub (EId "buf") None None None)] false);
   SIf (ECall (ESel (EId "xs") "Decoding") [] false) [SSet [(EUn "*" (EId "v"))] (ECall (EId "int64") [(ECall (ESel (ESel (EId "binary") "BigEndian") "Uint64") [(ESub (EId "buf") None None None)] false)] false)] None]
  false.

Definition lib_XdrU64 : gd := DFunc None "XdrU64" [(["xs"], (EUn "*" (EId "XdrState"))); (["v"], (EUn "*" (EId "uint64")))] [] false
  [SIf (EBin "!=" (ESel (EId "xs") "err") (EId "nil")) [SRet []] None;
   SVar "buf" (TArr (EInt "8") (EId "byte"));
   SIf (ECall (ESel (EId "xs") "Encoding") [] false) [SExpr (ECall (ESel (ESel (EId "binary") "BigEndian") "PutUint64") [(ESub (EId "buf") None None None); (EUn "*" (EId "v"))] false)] None;
   SExpr (ECall (EId "xdrRW") [(EId "xs"); (ESub (EId "buf") None None None)] false);
   SIf (ECall (ESel (EId "xs") "Decoding") [] false) [SSet [(EUn "*" (EId "v"))] (ECall (ESel (ESel (EId "binary") "BigEndian") "Uint64") [(ESub (EId "buf") None None None)] false)] None]
  false.

Definition lib_XdrVarArray : gd := DFunc None "XdrVarArray" [(["xs"], (EUn "*" (EId "XdrState"))); (["maxlen"], (EId "int")); (["v"], (EUn "*" (TSlice (EId "byte"))))] [] false
  [SIf (EBin "!=" (ESel (EId "xs") "err") (EId "nil")) [SRet []] None;
   SIf (ECall (ESel (EId "xs") "Encoding") [] false) [SIf (EBin "||" (EBin ">" (ECall (EId "len") [(EUn "*" (EId "v"))] false) (ESel (EId "math") "MaxUint32")) (EParen (EBin "&&" (EBin ">=" (EId "maxlen") (EInt "0")) (EBin ">" (ECall (EId "len") [(EUn "*" (EId "v"))] false) (EId "maxlen"))))) [SExpr (ECall (ESel (EId "xs") "SetError") [(EStr """var array too large""")] false);
   SRet []] None;
   SVar "szbuf" (TArr (EInt "4") (EId "byte"));
   SExpr (ECall (ESel (ESel (EId "binary") "BigEndian") "PutUint32") [(ESub (EId "szbuf") None None None); (ECall (EId "uint32") [(ECall (EId "len") [(EUn "*" (EId "v"))] false)] false)] false);
   SExpr (ECall (EId "xdrRW") [(EId "xs"); (ESub (EId "szbuf") None None None)] false);
   SExpr (ECall (EId "xdrRW") [(EId "xs"); (EUn "*" (EId "v"))] false)] (Some [SVar "szbuf" (TArr (EInt "4") (EId "byte"));
   SExpr (ECall (EId "xdrRW") [(EId "xs"); (ESub (EId "szbuf") None None None)] false);
   SDef ["sz32"] (ECall (ESel (ESel (EId "binary") "BigEndian") "Uint32") [(ESub (EId "szbuf") None None None)] false);
   SDef ["sz"] (ECall (EId "int") [(EId "sz32")] false);
   SIf (EBin "||" (EParen (EBin "&&" (EBin ">=" (EId "maxlen") (EInt "0")) (EBin ">" (EId "sz") (EId "maxlen")))) (EBin "<" (EId "sz") (EInt "0"))) [SExpr (ECall (ESel (EId "xs") "SetError") [(EStr """var array too large""")] false);
   SRet []] None;
   SSet [(EUn "*" (EId "v"))] (ECall (EId "xdrR") [(EId "xs"); (EId "sz")] false)]);
   SIf (EBin "!=" (EBin "%" (ECall (EId "len") [(EUn "*" (EId "v"))] false) (EInt "4")) (EInt "0")) [SExpr (ECall (EId "xdrRW") [(EId "xs"); (ECall (EId "make") [(TSlice (EId "byte")); (EBin "%" (EParen (EBin "-" (EInt "4") (EBin "%" (ECall (EId "len") [(EUn "*" (EId "v"))] false) (EInt "4")))) (EInt "4"))] false)] false)] None]
  false.

Definition lib_XdrArray : gd := DFunc None "XdrArray" [(["xs"], (EUn "*" (EId "XdrState"))); (["v"], (TSlice (EId "byte")))] [] false
  [SIf (EBin "!=" (ESel (EId "xs") "err") (EId "nil")) [SRet []] None;
   SExpr (ECall (EId "xdrRW") [(EId "xs"); (EId "v")] false);
   SIf (EBin "!=" (EBin "%" (ECall (EId "len") [(EId "v")] false) (EInt "4")) (EInt "0")) [SExpr (ECall (EId "xdrRW") [(EId "xs"); (ECall (EId "make") [(TSlice (EId "byte")); (EBin "%" (EParen (EBin "-" (EInt "4") (EBin "%" (ECall (EId "len") [(EId "v")] false) (EInt "4")))) (EInt "4"))] false)] false)] None]
  false.

Definition lib_XdrString : gd := DFunc None "XdrString" [(["xs"], (EUn "*" (EId "XdrState"))); (["maxlen"], (EId "int")); (["v"], (EUn "*" (EId "string")))] [] false
  [SIf (EBin "!=" (ESel (EId "xs") "err") (EId "nil")) [SRet []] None;
   SIf (ECall (ESel (EId "xs") "Encoding") [] false) [SIf (EBin "||" (EBin ">" (ECall (EId "len") [(EUn "*" (EId "v"))] false) (ESel (EId "math") "MaxUint32")) (EParen (EBin "&&" (EBin ">=" (EId "maxlen") (EInt "0")) (EBin ">" (ECall (EId "len") [(EUn "*" (EId "v"))] false) (EId "maxlen"))))) [SExpr (ECall (ESel (EId "xs") "SetError") [(EStr """string too large""")] false);
   SRet []] None;
   SVar "szbuf" (TArr (EInt "4") (EId "byte"));
   SExpr (ECall (ESel (ESel (EId "binary") "BigEndian") "PutUint32") [(ESub (EId "szbuf") None None None); (ECall (EId "uint32") [(ECall (EId "len") [(EUn "*" (EId "v"))] false)] false)] false);
   SExpr (ECall (EId "xdrRW") [(EId "xs"); (ESub (EId "szbuf") None None None)] false);
   SExpr (ECall (EId "xdrRW") [(EId "xs"); (ECall (TSlice (EId "byte")) [(EUn "*" (EId "v"))] false)] false);
   SExpr (ECall (EId "xdrRW") [(EId "xs"); (ECall (EId "make") [(TSlice (EId "byte")); (EBin "%" (EParen (EBin "-" (EInt "4") (EBin "%" (ECall (EId "len") [(EUn "*" (EId "v"))] false) (EInt "4")))) (EInt "4"))] false)] false)] (Some [SVar "szbuf" (TArr (EInt "4") (EId "byte"));
   SExpr (ECall (EId "xdrRW") [(EId "xs"); (ESub (EId "szbuf") None None None)] false);
   SDef ["sz32"] (ECall (ESel (ESel (EId "binary") "BigEndian") "Uint32") [(ESub (EId "szbuf") None None None)] false);
   SDef ["sz"] (ECall (EId "int") [(EId "sz32")] false);
   SIf (EBin "||" (EParen (EBin "&&" (EBin ">=" (EId "maxlen") (EInt "0")) (EBin ">" (EId "sz") (EId "maxlen")))) (EBin "<" (EId "sz") (EInt "0"))) [SExpr (ECall (ESel (EId "xs") "SetError") [(EStr """string too large""")] false);
   SRet []] None;
   SDef ["buf"] (ECall (EId "xdrR") [(EId "xs"); (EId "sz")] false);
   SSet [(EUn "*" (EId "v"))] (ECall (EId "string") [(EId "buf")] false);
   SExpr (ECall (EId "xdrRW") [(EId "xs"); (ECall (EId "make") [(TSlice (EId "byte")); (EBin "%" (EParen (EBin "-" (EInt "4") (EBin "%" (ECall (EId "len") [(EUn "*" (EId "v"))] false) (EInt "4")))) (EInt "4"))] false)] false)])]
  false.

Definition lib_prog : gfile := mkFile "xdr" [
  DImport ["""encoding/binary"""; """errors"""; """fmt"""; """math"""];
  DType "XdrState" (TStruct [("err", (EId "error")); ("reader", (EId "bool")); ("buf", (TSlice (EId "byte")))]);
  lib_MakeReader;
  lib_MakeWriter;
  lib_XdrState_WriteBuf;
  lib_XdrState_EncodingSetSize;
  lib_XdrState_Encoding;
  lib_XdrState_Decoding;
  lib_XdrState_SetError;
  lib_XdrState_Error;
  lib_xdrRW;
  lib_xdrR;
  lib_XdrBool;
  lib_XdrS32;
  lib_XdrU32;
  lib_XdrS64;
  lib_XdrU64;
  lib_XdrVarArray;
  lib_XdrArray;
  lib_XdrString].

(** ** /repo/xdr/helper.go *)
Definition helper_EncodeBuf : gd := DFunc None "EncodeBuf" [(["v"], (EId "Xdrable"))] [(["res"], (TSlice (EId "byte"))); (["err"], (EId "error"))] true
  [SDef ["x"] (ECall (EId "MakeWriter") [(EId "nil")] false);
   SExpr (ECall (ESel (EId "v") "Xdr") [(EId "x")] false);
   SRet [(ECall (ESel (EId "x") "WriteBuf") [] false); (ECall (ESel (EId "x") "Error") [] false)]]
  false.

Definition helper_DecodeBuf : gd := DFunc None "DecodeBuf" [(["buf"], (TSlice (EId "byte"))); (["v"], (EId "Xdrable"))] [([], (EId "error"))] false
  [SDef ["x"] (ECall (EId "MakeReader") [(EId "buf")] false);
   SExpr (ECall (ESel (EId "v") "Xdr") [(EId "x")] false);
   SRet [(ECall (ESel (EId "x") "Error") [] false)]]
  false.

Definition helper_prog : gfile := mkFile "xdr" [
  helper_EncodeBuf;
  helper_DecodeBuf].

(** ** /repo/xdr/types.go *)
Definition xtypes_Bool_Xdr : gd := DFunc (Some ("v", (EUn "*" (EId "Bool")))) "Xdr" [(["xs"], (EUn "*" (EId "XdrState")))] [] false
  [SExpr (ECall (EId "XdrBool") [(EId "xs"); (ECall (EParen (EUn "*" (EId "bool"))) [(EId "v")] false)] false)]
  true.

Definition xtypes_Uint32_Xdr : gd := DFunc (Some ("v", (EUn "*" (EId "Uint32")))) "Xdr" [(["xs"], (EUn "*" (EId "XdrState")))] [] false
  [SExpr (ECall (EId "XdrU32") [(EId "xs"); (ECall (EParen (EUn "*" (EId "uint32"))) [(EId "v")] false)] false)]
  true.

Definition xtypes_Int32_Xdr : gd := DFunc (Some ("v", (EUn "*" (EId "Int32")))) "Xdr" [(["xs"], (EUn "*" (EId "XdrState")))] [] false
  [SExpr (ECall (EId "XdrS32") [(EId "xs"); (ECall (EParen (EUn "*" (EId "int32"))) [(EId "v")] false)] false)]
  true.

Definition xtypes_Uint64_Xdr : gd := DFunc (Some ("v", (EUn "*" (EId "Uint64")))) "Xdr" [(["xs"], (EUn "*" (EId "XdrState")))] [] false
  [SExpr (ECall (EId "XdrU64") [(EId "xs"); (ECall (EParen (EUn "*" (EId "uint64"))) [(EId "v")] false)] false)]
  true.

Definition xtypes_Int64_Xdr : gd := DFunc (Some ("v", (EUn "*" (EId "Int64")))) "Xdr" [(["xs"], (EUn "*" (EId "XdrState")))] [] false
  [SExpr (ECall (EId "XdrS64") [(EId "xs"); (ECall (EParen (EUn "*" (EId "int64"))) [(EId "v")] false)] false)]
  true.

Definition xtypes_Void_Xdr : gd := DFunc (Some ("v", (EUn "*" (EId "Void")))) "Xdr" [(["xs"], (EUn "*" (EId "XdrState")))] [] false
  []
  false.

Definition xtypes_prog : gfile := mkFile "xdr" [
  DType "Xdrable" (TIface [("Xdr", (TFunc [(["xs"], (EUn "*" (EId "XdrState")))] [] false))]);
  DType "Bool" (EId "bool");
  DType "Uint32" (EId "uint32");
  DType "Int32" (EId "int32");
  DType "Uint64" (EId "uint64");
  DType "Int64" (EId "int64");
  DType "Void" (TStruct []);
  DConst "TRUE" (EId "Bool") (EId "true");
  DConst "FALSE" (EId "Bool") (EId "false");
  xtypes_Bool_Xdr;
  xtypes_Uint32_Xdr;
  xtypes_Int32_Xdr;
  xtypes_Uint64_Xdr;
  xtypes_Int64_Xdr;
  xtypes_Void_Xdr;
  DType "ProcRegistration" (TStruct [("Prog", (EId "uint32")); ("Vers", (EId "uint32")); ("Proc", (EId "uint32")); ("Handler", (TFunc [(["args"], (EUn "*" (EId "XdrState")))] [(["res"], (EId "Xdrable")); (["err"], (EId "error"))] true))])].

(** ** /repo/rfc1057/types.go *)
Definition rtypes_prog : gfile := mkFile "rfc1057" [
  DType "Auth_flavor" (EId "uint32");
  DConst "AUTH_NONE" (EId "Auth_flavor") (EInt "0");
  DConst "AUTH_UNIX" (EId "Auth_flavor") (EInt "1");
  DConst "AUTH_SHORT" (EId "Auth_flavor") (EInt "2");
  DConst "AUTH_DES" (EId "Auth_flavor") (EInt "3");
  DType "Opaque_auth" (TStruct [("Flavor", (EId "Auth_flavor")); ("Body", (TSlice (EId "byte")))]);
  DType "Msg_type" (EId "uint32");
  DConst "CALL" (EId "Msg_type") (EInt "0");
  DConst "REPLY" (EId "Msg_type") (EInt "1");
  DType "Reply_stat" (EId "uint32");
  DConst "MSG_ACCEPTED" (EId "Reply_stat") (EInt "0");
  DConst "MSG_DENIED" (EId "Reply_stat") (EInt "1");
  DType "Accept_stat" (EId "uint32");
  DConst "SUCCESS" (EId "Accept_stat") (EInt "0");
  DConst "PROG_UNAVAIL" (EId "Accept_stat") (EInt "1");
  DConst "PROG_MISMATCH" (EId "Accept_stat") (EInt "2");
  DConst "PROC_UNAVAIL" (EId "Accept_stat") (EInt "3");
  DConst "GARBAGE_ARGS" (EId "Accept_stat") (EInt "4");
  DType "Reject_stat" (EId "uint32");
  DConst "RPC_MISMATCH" (EId "Reject_stat") (EInt "0");
  DConst "AUTH_ERROR" (EId "Reject_stat") (EInt "1");
  DType "Auth_stat" (EId "uint32");
  DConst "AUTH_BADCRED" (EId "Auth_stat") (EInt "1");
  DConst "AUTH_REJECTEDCRED" (EId "Auth_stat") (EInt "2");
  DConst "AUTH_BADVERF" (EId "Auth_stat") (EInt "3");
  DConst "AUTH_REJECTEDVERF" (EId "Auth_stat") (EInt "4");
  DConst "AUTH_TOOWEAK" (EId "Auth_stat") (EInt "5");
  DType "Rpc_msg" (TStruct [("Xid", (EId "uint32")); ("Body", (TStruct [("Mtype", (EId "Msg_type")); ("Cbody", (EId "Call_body")); ("Rbody", (EId "Reply_body"))]))]);
  DType "Call_body" (TStruct [("Rpcvers", (EId "uint32")); ("Prog", (EId "uint32")); ("Vers", (EId "uint32")); ("Proc", (EId "uint32")); ("Cred", (EId "Opaque_auth")); ("Verf", (EId "Opaque_auth"))]);
  DType "Reply_body" (TStruct [("Stat", (EId "Reply_stat")); ("Areply", (EId "Accepted_reply")); ("Rreply", (EId "Rejected_reply"))]);
  DType "Accepted_reply" (TStruct [("Verf", (EId "Opaque_auth")); ("Reply_data", (TStruct [("Stat", (EId "Accept_stat")); ("Results", (TArr (EInt "0") (EId "byte"))); ("Mismatch_info", (TStruct [("Low", (EId "uint32")); ("High", (EId "uint32"))]))]))]);
  DType "Rejected_reply" (TStruct [("Stat", (EId "Reject_stat")); ("Mismatch_info", (TStruct [("Low", (EId "uint32")); ("High", (EId "uint32"))])); ("Astat", (EId "Auth_stat"))]);
  DType "Auth_unix" (TStruct [("Stamp", (EId "uint32")); ("Machinename", (EId "string")); ("Uid", (EId "uint32")); ("Gid", (EId "uint32")); ("Gids", (TSlice (EId "uint32")))]);
  DConst "PMAP_PORT" (EId "uint32") (EInt "111");
  DType "Mapping" (TStruct [("Prog", (EId "uint32")); ("Vers", (EId "uint32")); ("Prot", (EId "uint32")); ("Port", (EId "uint32"))]);
  DConst "IPPROTO_TCP" (EId "uint32") (EInt "6");
  DConst "IPPROTO_UDP" (EId "uint32") (EInt "17");
  DType "Pmaplist" (TStruct1 "P" (EUn "*" (EId "Pmaplistelem")));
  DType "Pmaplistelem" (TStruct [("Map", (EId "Mapping")); ("Next", (EId "Pmaplist"))]);
  DType "Call_args" (TStruct [("Prog", (EId "uint32")); ("Vers", (EId "uint32")); ("Proc", (EId "uint32")); ("Args", (TSlice (EId "byte")))]);
  DType "Call_result" (TStruct [("Port", (EId "uint32")); ("Res", (TSlice (EId "byte")))]);
  DType "Uint32" (EId "uint32");
  DType "Xbool" (EId "bool");
  DConst "PMAP_PROG" (EId "uint32") (EInt "100000");
  DConst "PMAP_VERS" (EId "uint32") (EInt "2");
  DConst "PMAPPROC_NULL" (EId "uint32") (EInt "0");
  DConst "PMAPPROC_SET" (EId "uint32") (EInt "1");
  DConst "PMAPPROC_UNSET" (EId "uint32") (EInt "2");
  DConst "PMAPPROC_GETPORT" (EId "uint32") (EInt "3");
  DConst "PMAPPROC_DUMP" (EId "uint32") (EInt "4");
  DConst "PMAPPROC_CALLIT" (EId "uint32") (EInt "5")].

(** ** /repo/rfc1057/client.go *)
Definition client_MakeClient : gd := DFunc None "MakeClient" [(["rw"], (ESel (EId "io") "ReadWriter")); (["prog"; "vers"], (EId "uint32"))] [([], (EUn "*" (EId "Client")))] false
  [SRet [(EUn "&" (EComp (EId "Client") [("rw", (EId "rw")); ("xid", (EInt "0")); ("prog", (EId "prog")); ("vers", (EId "vers"))]))]]
  false.

Definition client_Client_Call : gd := DFunc (Some ("c", (EUn "*" (EId "Client")))) "Call" [(["proc"], (EId "uint32")); (["cred"; "verf"], (EId "Opaque_auth")); (["args"], (ESel (EId "xdr") "Xdrable")); (["resp"], (ESel (EId "xdr") "Xdrable"))] [([], (EId "error"))] false
  [SInc (ESel (EId "c") "xid");
   SVar "req" (EId "Rpc_msg");
   SSet [(ESel (EId "req") "Xid")] (ESel (EId "c") "xid");
   SSet [(ESel (ESel (EId "req") "Body") "Mtype")] (EId "CALL");
   SSet [(ESel (ESel (ESel (EId "req") "Body") "Cbody") "Rpcvers")] (EInt "2");
   SSet [(ESel (ESel (ESel (EId "req") "Body") "Cbody") "Prog")] (ESel (EId "c") "prog");
   SSet [(ESel (ESel (ESel (EId "req") "Body") "Cbody") "Vers")] (ESel (EId "c") "vers");
   SSet [(ESel (ESel (ESel (EId "req") "Body") "Cbody") "Proc")] (EId "proc");
   SSet [(ESel (ESel (ESel (EId "req") "Body") "Cbody") "Cred")] (EId "cred");
   SSet [(ESel (ESel (ESel (EId "req") "Body") "Cbody") "Verf")] (EId "verf");
   SDef ["wr"] (ECall (ESel (EId "xdr") "MakeWriter") [(EId "nil")] false);
   SExpr (ECall (ESel (EId "req") "Xdr") [(EId "wr")] false);
   SDef ["err"] (ECall (ESel (EId "wr") "Error") [] false);
   SIf (EBin "!=" (EId "err") (EId "nil")) [SRet [(EId "err")]] None;
   SExpr (ECall (ESel (EId "args") "Xdr") [(EId "wr")] false);
   SSet [(EId "err")] (ECall (ESel (EId "wr") "Error") [] false);
   SIf (EBin "!=" (EId "err") (EId "nil")) [SRet [(EId "err")]] None;
   SDef ["wbuf"] (ECall (ESel (EId "wr") "WriteBuf") [] false);
   SVar "hdr" (TArr (EInt "4") (EId "byte"));
   SExpr (ECall (ESel (ESel (EId "binary") "BigEndian") "PutUint32") [(ESub (EId "hdr") None None None); (EBin "|" (EParen (EBin "<<" (EInt "1") (EInt "31"))) (ECall (EId "uint32") [(ECall (EId "len") [(EId "wbuf")] false)] false))] false);
   SSet [(EId "_"); (EId "err")] (ECall (ESel (ESel (EId "c") "rw") "Write") [(ECall (EId "append") [(ESub (EId "hdr") None None None); (EId "wbuf")] true)] false);
   SIf (EBin "!=" (EId "err") (EId "nil")) [SRet [(EId "err")]] None;
   SSet [(EId "_"); (EId "err")] (ECall (ESel (EId "io") "ReadFull") [(ESel (EId "c") "rw"); (ESub (EId "hdr") None None None)] false);
   SIf (EBin "!=" (EId "err") (EId "nil")) [SRet [(EId "err")]] None;
   SDef ["hlen"] (ECall (ESel (ESel (EId "binary") "BigEndian") "Uint32") [(ESub (EId "hdr") None None None)] false);
   SIf (EBin "==" (EBin "&" (EId "hlen") (EParen (EBin "<<" (EInt "1") (EInt "31")))) (EInt "0")) [SRet [(ECall (ESel (EId "fmt") "Errorf") [(EStr """fragments not supported""")] false)]] None;
   SDef ["buf"] (ECall (EId "make") [(TSlice (EId "byte")); (EBin "&" (EId "hlen") (EInt "0x7fffffff"))] false);
   SSet [(EId "_"); (EId "err")] (ECall (ESel (EId "io") "ReadFull") [(ESel (EId "c") "rw"); (EId "buf")] false);
   SIf (EBin "!=" (EId "err") (EId "nil")) [SRet [(EId "err")]] None;
   SDef ["rd"] (ECall (ESel (EId "xdr") "MakeReader") [(EId "buf")] false);
   SVar "res" (EId "Rpc_msg");
   SExpr (ECall (ESel (EId "res") "Xdr") [(EId "rd")] false);
   SSet [(EId "err")] (ECall (ESel (EId "rd") "Error") [] false);
   SIf (EBin "!=" (EId "err") (EId "nil")) [SRet [(EId "err")]] None;
   SIf (EBin "!=" (ESel (EId "res") "Xid") (ESel (EId "req") "Xid")) [SRet [(ECall (ESel (EId "fmt") "Errorf") [(EStr """xid mismatch: %d != %d"""); (ESel (EId "res") "Xid"); (ESel (EId "req") "Xid")] false)]] None;
   SIf (EBin "!=" (ESel (ESel (EId "res") "Body") "Mtype") (EId "REPLY")) [SRet [(ECall (ESel (EId "fmt") "Errorf") [(EStr """expected REPLY, got %d"""); (ESel (ESel (EId "res") "Body") "Mtype")] false)]] None;
   SIf (EBin "!=" (ESel (ESel (ESel (EId "res") "Body") "Rbody") "Stat") (EId "MSG_ACCEPTED")) [SRet [(ECall (ESel (EId "fmt") "Errorf") [(EStr """MSG_DENIED stat %d"""); (ESel (ESel (ESel (ESel (EId "res") "Body") "Rbody") "Rreply") "Stat")] false)]] None;
   SIf (EBin "!=" (ESel (ESel (ESel (ESel (ESel (EId "res") "Body") "Rbody") "Areply") "Reply_data") "Stat") (EId "SUCCESS")) [SRet [(ECall (ESel (EId "fmt") "Errorf") [(EStr """accept_stat %d"""); (ESel (ESel (ESel (ESel (ESel (EId "res") "Body") "Rbody") "Areply") "Reply_data") "Stat")] false)]] None;
   SExpr (ECall (ESel (EId "resp") "Xdr") [(EId "rd")] false);
   SSet [(EId "err")] (ECall (ESel (EId "rd") "Error") [] false);
   SIf (EBin "!=" (EId "err") (EId "nil")) [SRet [(EId "err")]] None;
   SRet [(EId "nil")]]
  false.

Definition client_prog : gfile := mkFile "rfc1057" [
  DImport ["""encoding/binary"""; """fmt"""; """io"""; """github.com/zeldovich/go-rpcgen/xdr"""];
  DType "Client" (TStruct [("rw", (ESel (EId "io") "ReadWriter")); ("xid", (EId "uint32")); ("prog", (EId "uint32")); ("vers", (EId "uint32"))]);
  client_MakeClient;
  client_Client_Call].

(** ** /repo/rfc1057/server.go *)
Definition server_getReqBuf : gd := DFunc None "getReqBuf" [(["buflen"], (EId "int"))] [([], (TSlice (EId "byte")))] false
  [SDef ["bufi"] (ECall (ESel (EId "reqBufPool") "Get") [] false);
   SIf (EBin "!=" (EId "bufi") (EId "nil")) [SDef ["buf"] (EAssert (EId "bufi") (TSlice (EId "byte")));
   SIf (EBin "<=" (EId "buflen") (ECall (EId "cap") [(EId "buf")] false)) [SRet [(ESub (EId "buf") None (Some (EId "buflen")) None)]] None] None;
   SRet [(ECall (EId "make") [(TSlice (EId "byte")); (EId "buflen")] false)]]
  false.

Definition server_putReqBuf : gd := DFunc None "putReqBuf" [(["s"], (TSlice (EId "byte")))] [] false
  [SExpr (ECall (ESel (EId "reqBufPool") "Put") [(EId "s")] false)]
  false.

Definition server_MakeServer : gd := DFunc None "MakeServer" [] [([], (EUn "*" (EId "Server")))] false
  [SRet [(EUn "&" (EComp (EId "Server") [("handlers", (ECall (EId "make") [(TMap (EId "uint32") (TMap (EId "uint32") (TMap (EId "uint32") (EId "ProcHandler"))))] false))]))]]
  false.

Definition server_Server_Register : gd := DFunc (Some ("s", (EUn "*" (EId "Server")))) "Register" [(["prog"; "vers"; "proc"], (EId "uint32")); (["handler"], (EId "ProcHandler"))] [] false
  [SDef ["_"; "progok"] (EIdx (ESel (EId "s") "handlers") (EId "prog"));
   SIf (EUn "!" (EId "progok")) [SSet [(EIdx (ESel (EId "s") "handlers") (EId "prog"))] (ECall (EId "make") [(TMap (EId "uint32") (TMap (EId "uint32") (EId "ProcHandler")))] false)] None;
   SDef ["_"; "versok"] (EIdx (EIdx (ESel (EId "s") "handlers") (EId "prog")) (EId "vers"));
   SIf (EUn "!" (EId "versok")) [SSet [(EIdx (EIdx (ESel (EId "s") "handlers") (EId "prog")) (EId "vers"))] (ECall (EId "make") [(TMap (EId "uint32") (EId "ProcHandler"))] false)] None;
   SSet [(EIdx (EIdx (EIdx (ESel (EId "s") "handlers") (EId "prog")) (EId "vers")) (EId "proc"))] (EId "handler")]
  false.

Definition server_Server_RegisterMany : gd := DFunc (Some ("s", (EUn "*" (EId "Server")))) "RegisterMany" [(["regs"], (TSlice (ESel (EId "xdr") "ProcRegistration")))] [] false
  [SRange "_" "r" (EId "regs") [SExpr (ECall (ESel (EId "s") "Register") [(ESel (EId "r") "Prog"); (ESel (EId "r") "Vers"); (ESel (EId "r") "Proc"); (ESel (EId "r") "Handler")] false)]]
  false.

Definition server_Server_Run : gd := DFunc (Some ("s", (EUn "*" (EId "Server")))) "Run" [(["rw"], (ESel (EId "io") "ReadWriter"))] [([], (EId "error"))] false
  [SDef ["sc"] (EUn "&" (EComp (EId "serverConn") [("s", (EId "s")); ("rw", (EId "rw"))]));
   SFor [SVar "hdr" (TArr (EInt "4") (EId "byte"));
   SDef ["_"; "err"] (ECall (ESel (EId "io") "ReadFull") [(ESel (EId "sc") "rw"); (ESub (EId "hdr") None None None)] false);
   SIf (EBin "!=" (EId "err") (EId "nil")) [SRet [(EId "err")]] None;
   SDef ["hlen"] (ECall (ESel (ESel (EId "binary") "BigEndian") "Uint32") [(ESub (EId "hdr") None None None)] false);
   SIf (EBin "==" (EBin "&" (EId "hlen") (EParen (EBin "<<" (EInt "1") (EInt "31")))) (EInt "0")) [SRet [(ECall (ESel (EId "fmt") "Errorf") [(EStr """fragments not supported""")] false)]] None;
   SDef ["buflen"] (ECall (EId "int") [(EBin "&" (EId "hlen") (EInt "0x7fffffff"))] false);
   SDef ["buf"] (ECall (EId "getReqBuf") [(EId "buflen")] false);
   SSet [(EId "_"); (EId "err")] (ECall (ESel (EId "io") "ReadFull") [(ESel (EId "sc") "rw"); (EId "buf")] false);
   SIf (EBin "!=" (EId "err") (EId "nil")) [SRet [(EId "err")]] None;
   SGo (ECall (ESel (EId "sc") "handleReq") [(EId "buf")] false)]]
  false.

Definition server_serverConn_handleReq : gd := DFunc (Some ("sc", (EUn "*" (EId "serverConn")))) "handleReq" [(["buf"], (TSlice (EId "byte")))] [] false
  [SDefer (ECall (EId "putReqBuf") [(EId "buf")] false);
   SDef ["err"] (ECall (ESel (EId "sc") "handleReqErr") [(EId "buf")] false);
   SIf (EBin "!=" (EId "err") (EId "nil")) [SExpr (ECall (ESel (EId "fmt") "Fprintf") [(ESel (EId "os") "Stderr"); (EStr """%v\n"""); (EId "err")] false)] None]
  false.

Definition server_serverConn_handleReqErr : gd := DFunc (Some ("sc", (EUn "*" (EId "serverConn")))) "handleReqErr" [(["buf"], (TSlice (EId "byte")))] [([], (EId "error"))] false
  [SDef ["rd"] (ECall (ESel (EId "xdr") "MakeReader") [(EId "buf")] false);
   SVar "req" (EId "Rpc_msg");
   SExpr (ECall (ESel (EId "req") "Xdr") [(EId "rd")] false);
   SDef ["err"] (ECall (ESel (EId "rd") "Error") [] false);
   SIf (EBin "!=" (EId "err") (EId "nil")) [SRet [(EId "err")]] None;
   SIf (EBin "!=" (ESel (ESel (EId "req") "Body") "Mtype") (EId "CALL")) [SRet [(ECall (ESel (EId "fmt") "Errorf") [(EStr """request mtype %d != CALL"""); (ESel (ESel (EId "req") "Body") "Mtype")] false)]] None;
   SVar "res" (EId "Rpc_msg");
   SVar "resdata" (ESel (EId "xdr") "Xdrable");
   SSet [(ESel (EId "res") "Xid")] (ESel (EId "req") "Xid");
   SSet [(ESel (ESel (EId "res") "Body") "Mtype")] (EId "REPLY");
   SIf (EBin "!=" (ESel (ESel (ESel (EId "req") "Body") "Cbody") "Rpcvers") (EInt "2")) [SSet [(ESel (ESel (ESel (EId "res") "Body") "Rbody") "Stat")] (EId "MSG_DENIED");
   SSet [(ESel (ESel (ESel (ESel (EId "res") "Body") "Rbody") "Rreply") "Stat")] (EId "RPC_MISMATCH")] (Some [SSet [(ESel (ESel (ESel (EId "res") "Body") "Rbody") "Stat")] (EId "MSG_ACCEPTED");
   SDef ["vermap"; "progok"] (EIdx (ESel (ESel (EId "sc") "s") "handlers") (ESel (ESel (ESel (EId "req") "Body") "Cbody") "Prog"));
   SIf (EUn "!" (EId "progok")) [SSet [(ESel (ESel (ESel (ESel (ESel (EId "res") "Body") "Rbody") "Areply") "Reply_data") "Stat")] (EId "PROG_UNAVAIL");
   SGoto "reply"] None;
   SDef ["procmap"; "verok"] (EIdx (EId "vermap") (ESel (ESel (ESel (EId "req") "Body") "Cbody") "Vers"));
   SIf (EUn "!" (EId "verok")) [SSet [(ESel (ESel (ESel (ESel (ESel (EId "res") "Body") "Rbody") "Areply") "Reply_data") "Stat")] (EId "PROG_MISMATCH");
   SGoto "reply"] None;
   SDef ["h"; "procok"] (EIdx (EId "procmap") (ESel (ESel (ESel (EId "req") "Body") "Cbody") "Proc"));
   SIf (EUn "!" (EId "procok")) [SSet [(ESel (ESel (ESel (ESel (ESel (EId "res") "Body") "Rbody") "Areply") "Reply_data") "Stat")] (EId "PROC_UNAVAIL");
   SGoto "reply"] None;
   SSet [(EId "resdata"); (EId "err")] (ECall (EId "h") [(EId "rd")] false);
   SIf (EBin "!=" (EId "err") (EId "nil")) [SSet [(ESel (ESel (ESel (ESel (ESel (EId "res") "Body") "Rbody") "Areply") "Reply_data") "Stat")] (EId "GARBAGE_ARGS");
   SGoto "reply"] None;
   SSet [(ESel (ESel (ESel (ESel (ESel (EId "res") "Body") "Rbody") "Areply") "Reply_data") "Stat")] (EId "SUCCESS")]);
   SLabel "reply";
   SVar "reserveLen" (TArr (EInt "4") (EId "byte"));
   SDef ["wr"] (ECall (ESel (EId "xdr") "MakeWriter") [(ESub (EId "reserveLen") None None None)] false);
   SExpr (ECall (ESel (EId "res") "Xdr") [(EId "wr")] false);
   SSet [(EId "err")] (ECall (ESel (EId "wr") "Error") [] false);
   SIf (EBin "!=" (EId "err") (EId "nil")) [SRet [(EId "err")]] None;
   SIf (EBin "!=" (EId "resdata") (EId "nil")) [SExpr (ECall (ESel (EId "resdata") "Xdr") [(EId "wr")] false);
   SSet [(EId "err")] (ECall (ESel (EId "wr") "Error") [] false);
   SIf (EBin "!=" (EId "err") (EId "nil")) [SRet [(EId "err")]] None] None;
   SDef ["wbuf"] (ECall (ESel (EId "wr") "WriteBuf") [] false);
   SExpr (ECall (ESel (ESel (EId "binary") "BigEndian") "PutUint32") [(ESub (EId "wbuf") (Some (EInt "0")) (Some (EInt "4")) None); (EBin "|" (EParen (EBin "<<" (EInt "1") (EInt "31"))) (ECall (EId "uint32") [(EBin "-" (ECall (EId "len") [(EId "wbuf")] false) (EInt "4"))] false))] false);
   SSet [(EId "_"); (EId "err")] (ECall (ESel (ESel (EId "sc") "rw") "Write") [(EId "wbuf")] false);
   SRet [(EId "err")]]
  false.

Definition server_prog : gfile := mkFile "rfc1057" [
  DImport ["""encoding/binary"""; """fmt"""; """io"""; """os"""; """sync"""; """github.com/zeldovich/go-rpcgen/xdr"""];
  DVar "reqBufPool" (ESel (EId "sync") "Pool");
  server_getReqBuf;
  server_putReqBuf;
  DType "ProcHandler" (TFunc [(["args"], (EUn "*" (ESel (EId "xdr") "XdrState")))] [(["res"], (ESel (EId "xdr") "Xdrable")); (["err"], (EId "error"))] true);
  DType "Server" (TStruct [("handlers", (TMap (EId "uint32") (TMap (EId "uint32") (TMap (EId "uint32") (EId "ProcHandler")))))]);
  DType "serverConn" (TStruct [("s", (EUn "*" (EId "Server"))); ("rw", (ESel (EId "io") "ReadWriter"))]);
  server_MakeServer;
  server_Server_Register;
  server_Server_RegisterMany;
  server_Server_Run;
  server_serverConn_handleReq;
  server_serverConn_handleReqErr].
