(** Syntax trees of the example programs in ExText.v (made by tools/goast.py; ExTextP.v
    checks that they are the files).  One definition for each function. *)
From Coq Require Import List String.
From Verif Require Import SrcAst.
Import ListNotations.
Open Scope string_scope.

(** ** /repo/example/client/main.go *)
Definition excli_pmap_client : gd := DFunc None "pmap_client" [(["host"], (EId "string")); (["prog"; "vers"], (EId "uint32"))] [([], (EUn "*" (ESel (EId "rfc1057") "Client")))] false
  [SVar "cred" (ESel (EId "rfc1057") "Opaque_auth");
   SSet [(ESel (EId "cred") "Flavor")] (ESel (EId "rfc1057") "AUTH_NONE");
   SDef ["pmapc"; "err"] (ECall (ESel (EId "net") "Dial") [(EStr """tcp"""); (ECall (ESel (EId "fmt") "Sprintf") [(EStr """%s:%d"""); (EId "host"); (ESel (EId "rfc1057") "PMAP_PORT")] false)] false);
   SIf (EBin "!=" (EId "err") (EId "nil")) [SExpr (ECall (EId "panic") [(EId "err")] false)] None;
   SDefer (ECall (ESel (EId "pmapc") "Close") [] false);
   SDef ["pmap"] (ECall (ESel (EId "rfc1057") "MakeClient") [(EId "pmapc"); (ESel (EId "rfc1057") "PMAP_PROG"); (ESel (EId "rfc1057") "PMAP_VERS")] false);
   SDef ["arg"] (EComp (ESel (EId "rfc1057") "Mapping") [("Prog", (EId "prog")); ("Vers", (EId "vers")); ("Prot", (ESel (EId "rfc1057") "IPPROTO_TCP"))]);
   SVar "res" (ESel (EId "xdr") "Uint32");
   SSet [(EId "err")] (ECall (ESel (EId "pmap") "Call") [(ESel (EId "rfc1057") "PMAPPROC_GETPORT"); (EId "cred"); (EId "cred"); (EUn "&" (EId "arg")); (EUn "&" (EId "res"))] false);
   SIf (EBin "!=" (EId "err") (EId "nil")) [SExpr (ECall (EId "panic") [(EId "err")] false)] None;
   SDef ["svcc"; "err"] (ECall (ESel (EId "net") "Dial") [(EStr """tcp"""); (ECall (ESel (EId "fmt") "Sprintf") [(EStr """%s:%d"""); (EId "host"); (EId "res")] false)] false);
   SIf (EBin "!=" (EId "err") (EId "nil")) [SExpr (ECall (EId "panic") [(EId "err")] false)] None;
   SRet [(ECall (ESel (EId "rfc1057") "MakeClient") [(EId "svcc"); (EId "prog"); (EId "vers")] false)]]
  false.

Definition excli_lookup : gd := DFunc None "lookup" [(["c"], (EUn "*" (ESel (EId "rfc1057") "Client"))); (["cred"; "verf"], (ESel (EId "rfc1057") "Opaque_auth")); (["fh"], (ESel (EId "rfc1813") "Nfs_fh3")); (["name"], (EId "string"))] [([], (ESel (EId "rfc1813") "Nfs_fh3"))] false
  [SVar "arg" (ESel (EId "rfc1813") "LOOKUP3args");
   SVar "res" (ESel (EId "rfc1813") "LOOKUP3res");
   SSet [(ESel (ESel (EId "arg") "What") "Dir")] (EId "fh");
   SSet [(ESel (ESel (EId "arg") "What") "Name")] (ECall (ESel (EId "rfc1813") "Filename3") [(EId "name")] false);
   SDef ["err"] (ECall (ESel (EId "c") "Call") [(ESel (EId "rfc1813") "NFSPROC3_LOOKUP"); (EId "cred"); (EId "verf"); (EUn "&" (EId "arg")); (EUn "&" (EId "res"))] false);
   SIf (EBin "!=" (EId "err") (EId "nil")) [SExpr (ECall (EId "panic") [(EId "err")] false)] None;
   SIf (EBin "!=" (ESel (EId "res") "Status") (ESel (EId "rfc1813") "NFS3_OK")) [SExpr (ECall (EId "panic") [(ECall (ESel (EId "fmt") "Sprintf") [(EStr """lookup status %d"""); (ESel (EId "res") "Status")] false)] false)] None;
   SRet [(ESel (ESel (EId "res") "Resok") "Object")]]
  false.

Definition excli_main : gd := DFunc None "main" [] [] false
  [SVar "err" (EId "error");
   SVar "unix" (ESel (EId "rfc1057") "Auth_unix");
   SVar "cred_unix" (ESel (EId "rfc1057") "Opaque_auth");
   SSet [(ESel (EId "cred_unix") "Flavor")] (ESel (EId "rfc1057") "AUTH_UNIX");
   SSet [(ESel (EId "cred_unix") "Body"); (EId "err")] (ECall (ESel (EId "xdr") "EncodeBuf") [(EUn "&" (EId "unix"))] false);
   SIf (EBin "!=" (EId "err") (EId "nil")) [SExpr (ECall (EId "panic") [(EId "err")] false)] None;
   SVar "cred_none" (ESel (EId "rfc1057") "Opaque_auth");
   SSet [(ESel (EId "cred_none") "Flavor")] (ESel (EId "rfc1057") "AUTH_NONE");
   SDef ["mnt"] (ECall (EId "pmap_client") [(EStr """localhost"""); (ESel (EId "rfc1813") "MOUNT_PROGRAM"); (ESel (EId "rfc1813") "MOUNT_V3")] false);
   SDef ["arg"] (ECall (ESel (EId "rfc1813") "Dirpath3") [(EStr """/""")] false);
   SVar "res" (ESel (EId "rfc1813") "Mountres3");
   SSet [(EId "err")] (ECall (ESel (EId "mnt") "Call") [(ESel (EId "rfc1813") "MOUNTPROC3_MNT"); (EId "cred_none"); (EId "cred_none"); (EUn "&" (EId "arg")); (EUn "&" (EId "res"))] false);
   SIf (EBin "!=" (EId "err") (EId "nil")) [SExpr (ECall (EId "panic") [(EId "err")] false)] None;
   SIf (EBin "!=" (ESel (EId "res") "Fhs_status") (ESel (EId "rfc1813") "MNT3_OK")) [SExpr (ECall (EId "panic") [(ECall (ESel (EId "fmt") "Sprintf") [(EStr """mount status %d"""); (ESel (EId "res") "Fhs_status")] false)] false)] None;
   SVar "root_fh" (ESel (EId "rfc1813") "Nfs_fh3");
   SSet [(ESel (EId "root_fh") "Data")] (ESel (ESel (EId "res") "Mountinfo") "Fhandle");
   SRange "_" "flavor" (ESel (ESel (EId "res") "Mountinfo") "Auth_flavors") [SExpr (ECall (ESel (EId "fmt") "Printf") [(EStr """flavor %d\n"""); (EId "flavor")] false)];
   SExpr (ECall (ESel (EId "fmt") "Printf") [(EStr """root fh %v\n"""); (EId "root_fh")] false);
   SDef ["nfs"] (ECall (EId "pmap_client") [(EStr """localhost"""); (ESel (EId "rfc1813") "NFS_PROGRAM"); (ESel (EId "rfc1813") "NFS_V3")] false);
   SDef ["foo"] (ECall (EId "lookup") [(EId "nfs"); (EId "cred_unix"); (EId "cred_none"); (EId "root_fh"); (EStr """foo""")] false);
   SDef ["bar"] (ECall (EId "lookup") [(EId "nfs"); (EId "cred_unix"); (EId "cred_none"); (EId "foo"); (EStr """bar""")] false);
   SExpr (ECall (ESel (EId "fmt") "Printf") [(EStr """bar = %v\n"""); (EId "bar")] false);
   SVar "arg1" (ESel (EId "rfc1813") "RENAME3args");
   SVar "res1" (ESel (EId "rfc1813") "RENAME3res");
   SSet [(ESel (ESel (EId "arg1") "From") "Dir")] (EId "root_fh");
   SSet [(ESel (ESel (EId "arg1") "From") "Name")] (EStr """foo""");
   SSet [(ESel (ESel (EId "arg1") "To") "Dir")] (EId "bar");
   SSet [(ESel (ESel (EId "arg1") "To") "Name")] (EStr """foonew""");
   SSet [(EId "err")] (ECall (ESel (EId "nfs") "Call") [(ESel (EId "rfc1813") "NFSPROC3_RENAME"); (EId "cred_unix"); (EId "cred_none"); (EUn "&" (EId "arg1")); (EUn "&" (EId "res1"))] false);
   SIf (EBin "!=" (EId "err") (EId "nil")) [SExpr (ECall (EId "panic") [(EId "err")] false)] None;
   SExpr (ECall (ESel (EId "fmt") "Printf") [(EStr """res = %v\n"""); (EId "res1")] false)]
  false.

Definition excli_prog : gfile := mkFile "main" [
  DImport ["""fmt"""; """net"""; """github.com/zeldovich/go-rpcgen/rfc1057"""; """github.com/zeldovich/go-rpcgen/rfc1813"""; """github.com/zeldovich/go-rpcgen/xdr"""];
  excli_pmap_client;
  excli_lookup;
  excli_main].

(** ** /repo/example/server/main.go *)
Definition exsrv_pmap_set_unset : gd := DFunc None "pmap_set_unset" [(["prog"; "vers"; "port"], (EId "uint32")); (["setit"], (EId "bool"))] [([], (EId "bool"))] false
  [SVar "cred" (ESel (EId "rfc1057") "Opaque_auth");
   SSet [(ESel (EId "cred") "Flavor")] (ESel (EId "rfc1057") "AUTH_NONE");
   SDef ["pmapc"; "err"] (ECall (ESel (EId "net") "Dial") [(EStr """tcp"""); (ECall (ESel (EId "fmt") "Sprintf") [(EStr """localhost:%d"""); (ESel (EId "rfc1057") "PMAP_PORT")] false)] false);
   SIf (EBin "!=" (EId "err") (EId "nil")) [SExpr (ECall (EId "panic") [(EId "err")] false)] None;
   SDefer (ECall (ESel (EId "pmapc") "Close") [] false);
   SDef ["pmap"] (ECall (ESel (EId "rfc1057") "MakeClient") [(EId "pmapc"); (ESel (EId "rfc1057") "PMAP_PROG"); (ESel (EId "rfc1057") "PMAP_VERS")] false);
   SDef ["arg"] (EComp (ESel (EId "rfc1057") "Mapping") [("Prog", (EId "prog")); ("Vers", (EId "vers")); ("Prot", (ESel (EId "rfc1057") "IPPROTO_TCP")); ("Port", (EId "port"))]);
   SVar "res" (ESel (EId "xdr") "Bool");
   SVar "proc" (EId "uint32");
   SIf (EId "setit") [SSet [(EId "proc")] (ESel (EId "rfc1057") "PMAPPROC_SET")] (Some [SSet [(EId "proc")] (ESel (EId "rfc1057") "PMAPPROC_UNSET")]);
   SSet [(EId "err")] (ECall (ESel (EId "pmap") "Call") [(EId "proc"); (EId "cred"); (EId "cred"); (EUn "&" (EId "arg")); (EUn "&" (EId "res"))] false);
   SIf (EBin "!=" (EId "err") (EId "nil")) [SExpr (ECall (EId "panic") [(EId "err")] false)] None;
   SRet [(ECall (EId "bool") [(EId "res")] false)]]
  false.

Definition exsrv_main : gd := DFunc None "main" [] [] false
  [SDef ["listener"; "err"] (ECall (ESel (EId "net") "Listen") [(EStr """tcp"""); (EStr """:0""")] false);
   SIf (EBin "!=" (EId "err") (EId "nil")) [SExpr (ECall (EId "panic") [(EId "err")] false)] None;
   SDef ["port"] (ECall (EId "uint32") [(ESel (EAssert (ECall (ESel (EId "listener") "Addr") [] false) (EUn "*" (ESel (EId "net") "TCPAddr"))) "Port")] false);
   SExpr (ECall (EId "pmap_set_unset") [(ESel (EId "rfc1813") "MOUNT_PROGRAM"); (ESel (EId "rfc1813") "MOUNT_V3"); (EInt "0"); (EId "false")] false);
   SDef ["ok"] (ECall (EId "pmap_set_unset") [(ESel (EId "rfc1813") "MOUNT_PROGRAM"); (ESel (EId "rfc1813") "MOUNT_V3"); (EId "port"); (EId "true")] false);
   SIf (EUn "!" (EId "ok")) [SExpr (ECall (EId "panic") [(EStr """Could not set pmap mapping for mount""")] false)] None;
   SDefer (ECall (EId "pmap_set_unset") [(ESel (EId "rfc1813") "MOUNT_PROGRAM"); (ESel (EId "rfc1813") "MOUNT_V3"); (EId "port"); (EId "false")] false);
   SExpr (ECall (EId "pmap_set_unset") [(ESel (EId "rfc1813") "NFS_PROGRAM"); (ESel (EId "rfc1813") "NFS_V3"); (EInt "0"); (EId "false")] false);
   SSet [(EId "ok")] (ECall (EId "pmap_set_unset") [(ESel (EId "rfc1813") "NFS_PROGRAM"); (ESel (EId "rfc1813") "NFS_V3"); (EId "port"); (EId "true")] false);
   SIf (EUn "!" (EId "ok")) [SExpr (ECall (EId "panic") [(EStr """Could not set pmap mapping for NFS""")] false)] None;
   SDefer (ECall (EId "pmap_set_unset") [(ESel (EId "rfc1813") "NFS_PROGRAM"); (ESel (EId "rfc1813") "NFS_V3"); (EId "port"); (EId "false")] false);
   SDef ["srv"] (ECall (ESel (EId "rfc1057") "MakeServer") [] false);
   SFor [SDef ["conn"; "err"] (ECall (ESel (EId "listener") "Accept") [] false);
   SIf (EBin "!=" (EId "err") (EId "nil")) [SExpr (ECall (EId "panic") [(EId "err")] false)] None;
   SGo (ECall (ESel (EId "srv") "Run") [(EId "conn")] false)]]
  false.

Definition exsrv_prog : gfile := mkFile "main" [
  DImport ["""fmt"""; """net"""; """github.com/zeldovich/go-rpcgen/rfc1057"""; """github.com/zeldovich/go-rpcgen/rfc1813"""; """github.com/zeldovich/go-rpcgen/xdr"""];
  exsrv_pmap_set_unset;
  exsrv_main].
