(** Syntax trees of the tests in TestText.v, checked to be the files in TestP.v. *)
From Coq Require Import String List.
From Verif Require Import SrcAst TestAst.
Import ListNotations.
Open Scope string_scope.

Definition call1 (f : gx) (args : list gx) : tx := TX (ECall f args false).
Definition sel (x f : string) : gx := ESel (EId x) f.
Definition amp (x : string) : gx := EUn "&" (EId x).
Definition bytes_t : gx := TSlice (EId "byte").
Definition t_par : list (list string * gx) := [(["t"], EUn "*" (sel "testing" "T"))].

(** ** /repo/xdr/xdr_test.go *)
(** lines 9-21 *)
Definition test_string : list ts :=
  [TDef ["xw"] (call1 (EId "MakeWriter") [EId "nil"]);
   TDef ["s"] (TX (EStr """hello"""));
   TExpr (call1 (EId "XdrString") [EId "xw"; EInt "100"; amp "s"]);
   TExpr (call1 (sel "assert" "NoError") [EId "t"; ECall (sel "xw" "Error") [] false]);
   TDef ["buf"] (call1 (sel "xw" "WriteBuf") []);
   TDef ["xr"] (call1 (EId "MakeReader") [EId "buf"]);
   TVar "newString" (EId "string");
   TExpr (call1 (EId "XdrString") [EId "xr"; EInt "100"; amp "newString"]);
   TExpr (call1 (sel "assert" "NoError") [EId "t"; ECall (sel "xr" "Error") [] false]);
   TExpr (call1 (sel "assert" "Equal") [EId "t"; EId "s"; EId "newString"])].
(** lines 23-38 *)
Definition test_large_string : list ts :=
  [TDef ["xw"] (call1 (EId "MakeWriter") [EId "nil"]);
   TDef ["s"] (TX (EStr """hello world"""));
   TExpr (call1 (EId "XdrString") [EId "xw"; EInt "100"; amp "s"]);
   TDef ["buf"] (call1 (sel "xw" "WriteBuf") []);
   TSet [EId "buf"] (TX (ESub (EId "buf") None (Some (EInt "6")) None));
   TDef ["xr"] (call1 (EId "MakeReader") [EId "buf"]);
   TVar "newString" (EId "string");
   TExpr (call1 (EId "XdrString") [EId "xr"; EInt "100"; amp "newString"]);
   TExpr (call1 (sel "assert" "Error") [EId "t"; ECall (sel "xr" "Error") [] false])].
(** lines 40-52 *)
Definition test_array : list ts :=
  [TDef ["xw"] (call1 (EId "MakeWriter") [EId "nil"]);
   TDef ["v"] (TLit bytes_t [EInt "1"; EInt "2"; EInt "3"]);
   TExpr (call1 (EId "XdrVarArray") [EId "xw"; EInt "100"; amp "v"]);
   TExpr (call1 (sel "assert" "NoError") [EId "t"; ECall (sel "xw" "Error") [] false]);
   TDef ["buf"] (call1 (sel "xw" "WriteBuf") []);
   TDef ["xr"] (call1 (EId "MakeReader") [EId "buf"]);
   TVar "newArray" bytes_t;
   TExpr (call1 (EId "XdrVarArray") [EId "xr"; EInt "100"; amp "newArray"]);
   TExpr (call1 (sel "assert" "NoError") [EId "t"; ECall (sel "xr" "Error") [] false]);
   TExpr (call1 (sel "assert" "Equal") [EId "t"; EId "v"; EId "newArray"])].
(** lines 54-65 *)
Definition test_large_array : list ts :=
  [TDef ["xw"] (call1 (EId "MakeWriter") [EId "nil"]);
   TDef ["v"] (TLit bytes_t (map EInt ["1"; "2"; "3"; "4"; "5"; "6"; "7"; "8"; "9"; "10"]));
   TExpr (call1 (EId "XdrVarArray") [EId "xw"; EInt "100"; amp "v"]);
   TDef ["buf"] (call1 (sel "xw" "WriteBuf") []);
   TSet [EId "buf"] (TX (ESub (EId "buf") None (Some (EInt "6")) None));
   TDef ["xr"] (call1 (EId "MakeReader") [EId "buf"]);
   TVar "newArray" bytes_t;
   TExpr (call1 (EId "XdrVarArray") [EId "xr"; EInt "100"; amp "newArray"]);
   TExpr (call1 (sel "assert" "Error") [EId "t"; ECall (sel "xr" "Error") [] false])].
Definition xdr_tests : tfile := mkTfile "xdr" ["""testing"""; assert_path]
  [("TestXdrString", (t_par, test_string)); ("TestLargeStringLength", (t_par, test_large_string));
   ("TestXdrVarArray", (t_par, test_array)); ("TestLargeVarArrayLength", (t_par, test_large_array))].

(** ** The two fuzz_test.go *)
Definition if_err (b : list ts) : ts := TIf (EBin "!=" (EId "err") (EId "nil")) b.
Definition panic_err : list ts := [TExpr (call1 (EId "panic") [EId "err"])].
Definition encode (x : string) : tx := call1 (sel "xdr" "EncodeBuf") [amp x].
(** /repo/rfc1057/fuzz_test.go:33-50, /repo/rfc1813/fuzz_test.go:28-45, for the type [T]. *)
Definition fuzz_body (T : string) : list ts :=
  [TVar "x" (EId T);
   TDef ["err"] (call1 (sel "xdr" "DecodeBuf") [EId "data"; amp "x"]);
   if_err [TRet];
   TVar "res" bytes_t;
   TSet [EId "res"; EId "err"] (encode "x");
   if_err panic_err;
   TVar "y" (EId T);
   TExpr (call1 (sel "xdr" "DecodeBuf") [EId "res"; amp "y"]);
   TIf (EUn "!" (ECall (sel "reflect" "DeepEqual") [EId "x"; EId "y"] false))
     [TExpr (call1 (EId "panic") [ECall (sel "fmt" "Sprintf") [EStr """%+v does not roundtrip; got %+v"""; EId "x"; EId "y"] false])]].
Definition fuzz_params : list (list string * gx) := [(["t"], EUn "*" (sel "testing" "T")); (["data"], bytes_t)].
(** FuzzDecodeEncode, for the type [T], with a variable [v] and the assignments [sets]. *)
Definition fuzz_fn (v T : string) (sets : list ts) : list ts :=
  [TVar v (EId T); TDef ["res"; "err"] (encode v); if_err panic_err; TExpr (call1 (sel "f" "Add") [EId "res"])] ++ sets ++
  [TSet [EId "res"; EId "err"] (encode v); if_err panic_err; TExpr (call1 (sel "f" "Add") [EId "res"]);
   TExpr (TApp (sel "f" "Add") [TLit bytes_t []]);
   TExpr (TApp (sel "f" "Fuzz") [TFn fuzz_params (fuzz_body T)])].
Definition fuzz_imports : list string := ["""fmt"""; """reflect"""; """testing"""; xdr_path].
Definition f_par : list (list string * gx) := [(["f"], EUn "*" (sel "testing" "F"))].
(** /repo/rfc1057/fuzz_test.go:20-25 *)
Definition rpc_sets : list ts :=
  [TSet [sel "m" "Xid"] (TX (EInt "1"));
   TSet [ESel (sel "m" "Body") "Mtype"] (TX (EInt "2"));
   TSet [ESel (ESel (sel "m" "Body") "Cbody") "Rpcvers"] (TX (EInt "3"));
   TSet [ESel (ESel (sel "m" "Body") "Cbody") "Prog"] (TX (EInt "4"));
   TSet [ESel (ESel (ESel (sel "m" "Body") "Cbody") "Cred") "Flavor"] (TX (EId "AUTH_UNIX"));
   TSet [ESel (ESel (ESel (sel "m" "Body") "Cbody") "Cred") "Body"] (TLit bytes_t [EInt "1"; EInt "2"; EInt "3"; EInt "4"])].
Definition rpc_fuzz : tfile := mkTfile "rfc1057" fuzz_imports [("FuzzDecodeEncode", (f_par, fuzz_fn "m" "Rpc_msg" rpc_sets))].
(** /repo/rfc1813/fuzz_test.go:19-20 *)
Definition nfs_sets : list ts :=
  [TSet [ESel (ESel (sel "r" "Resok") "Reply") "Entries"] (TAddr (TLit (EId "Entryplus3") []));
   TSet [ESel (ESel (ESel (sel "r" "Resok") "Reply") "Entries") "Nextentry"] (TAddr (TLit (EId "Entryplus3") []))].
Definition nfs_fuzz : tfile := mkTfile "rfc1813" fuzz_imports [("FuzzDecodeEncode", (f_par, fuzz_fn "r" "READDIRPLUS3res" nfs_sets))].
