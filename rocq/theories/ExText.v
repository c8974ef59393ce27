(** Example programs of /repo, verbatim (made by tools/goast.py). *)
From Coq Require Import List String Ascii.
From Verif Require Import RepoText.
Import ListNotations.
Open Scope string_scope.

(** /repo/example/client/main.go *)
Definition excli_go : string := text [
  "package main";
  "";
  "import (";
  "	""fmt""";
  "	""net""";
  "";
  "	""github.com/zeldovich/go-rpcgen/rfc1057""";
  "	""github.com/zeldovich/go-rpcgen/rfc1813""";
  "	""github.com/zeldovich/go-rpcgen/xdr""";
  ")";
  "";
  "func pmap_client(host string, prog, vers uint32) *rfc1057.Client {";
  "	var cred rfc1057.Opaque_auth";
  "	cred.Flavor = rfc1057.AUTH_NONE";
  "";
  "	pmapc, err := net.Dial(""tcp"", fmt.Sprintf(""%s:%d"", host, rfc1057.PMAP_PORT))";
  "	if err != nil {";
  "		panic(err)";
  "	}";
  "	defer pmapc.Close()";
  "	pmap := rfc1057.MakeClient(pmapc, rfc1057.PMAP_PROG, rfc1057.PMAP_VERS)";
  "";
  "	arg := rfc1057.Mapping{";
  "		Prog: prog,";
  "		Vers: vers,";
  "		Prot: rfc1057.IPPROTO_TCP,";
  "	}";
  "	var res xdr.Uint32";
  "	err = pmap.Call(rfc1057.PMAPPROC_GETPORT, cred, cred, &arg, &res)";
  "	if err != nil {";
  "		panic(err)";
  "	}";
  "";
  "	svcc, err := net.Dial(""tcp"", fmt.Sprintf(""%s:%d"", host, res))";
  "	if err != nil {";
  "		panic(err)";
  "	}";
  "	return rfc1057.MakeClient(svcc, prog, vers)";
  "}";
  "";
  "func lookup(c *rfc1057.Client, cred, verf rfc1057.Opaque_auth, fh rfc1813.Nfs_fh3, name string) rfc1813.Nfs_fh3 {";
  "	var arg rfc1813.LOOKUP3args";
  "	var res rfc1813.LOOKUP3res";
  "	arg.What.Dir = fh";
  "	arg.What.Name = rfc1813.Filename3(name)";
  "	err := c.Call(rfc1813.NFSPROC3_LOOKUP, cred, verf, &arg, &res)";
  "	if err != nil {";
  "		panic(err)";
  "	}";
  "";
  "	if res.Status != rfc1813.NFS3_OK {";
  "		panic(fmt.Sprintf(""lookup status %d"", res.Status))";
  "	}";
  "";
  "	return res.Resok.Object";
  "}";
  "";
  "func main() {";
  "	var err error";
  "";
  "	var unix rfc1057.Auth_unix";
  "	var cred_unix rfc1057.Opaque_auth";
  "	cred_unix.Flavor = rfc1057.AUTH_UNIX";
  "	cred_unix.Body, err = xdr.EncodeBuf(&unix)";
  "	if err != nil {";
  "		panic(err)";
  "	}";
  "";
  "	var cred_none rfc1057.Opaque_auth";
  "	cred_none.Flavor = rfc1057.AUTH_NONE";
  "";
  "	mnt := pmap_client(""localhost"", rfc1813.MOUNT_PROGRAM, rfc1813.MOUNT_V3)";
  "";
  "	arg := rfc1813.Dirpath3(""/"")";
  "	var res rfc1813.Mountres3";
  "	err = mnt.Call(rfc1813.MOUNTPROC3_MNT, cred_none, cred_none, &arg, &res)";
  "	if err != nil {";
  "		panic(err)";
  "	}";
  "";
  "	if res.Fhs_status != rfc1813.MNT3_OK {";
  "		panic(fmt.Sprintf(""mount status %d"", res.Fhs_status))";
  "	}";
  "";
  "	var root_fh rfc1813.Nfs_fh3";
  "	root_fh.Data = res.Mountinfo.Fhandle";
  "";
  "	for _, flavor := range res.Mountinfo.Auth_flavors {";
  "		fmt.Printf(""flavor %d\n"", flavor)";
  "	}";
  "";
  "	fmt.Printf(""root fh %v\n"", root_fh)";
  "";
  "	nfs := pmap_client(""localhost"", rfc1813.NFS_PROGRAM, rfc1813.NFS_V3)";
  "";
  "	foo := lookup(nfs, cred_unix, cred_none, root_fh, ""foo"")";
  "	bar := lookup(nfs, cred_unix, cred_none, foo, ""bar"")";
  "";
  "	fmt.Printf(""bar = %v\n"", bar)";
  "";
  "	var arg1 rfc1813.RENAME3args";
  "	var res1 rfc1813.RENAME3res";
  "	arg1.From.Dir = root_fh";
  "	arg1.From.Name = ""foo""";
  "	arg1.To.Dir = bar";
  "	arg1.To.Name = ""foonew""";
  "	err = nfs.Call(rfc1813.NFSPROC3_RENAME, cred_unix, cred_none, &arg1, &res1)";
  "	if err != nil {";
  "		panic(err)";
  "	}";
  "";
  "	fmt.Printf(""res = %v\n"", res1)";
  "}"
].

(** /repo/example/server/main.go *)
Definition exsrv_go : string := text [
  "package main";
  "";
  "import (";
  "	""fmt""";
  "	""net""";
  "";
  "	""github.com/zeldovich/go-rpcgen/rfc1057""";
  "	""github.com/zeldovich/go-rpcgen/rfc1813""";
  "	""github.com/zeldovich/go-rpcgen/xdr""";
  ")";
  "";
  "func pmap_set_unset(prog, vers, port uint32, setit bool) bool {";
  "	var cred rfc1057.Opaque_auth";
  "	cred.Flavor = rfc1057.AUTH_NONE";
  "";
  "	pmapc, err := net.Dial(""tcp"", fmt.Sprintf(""localhost:%d"", rfc1057.PMAP_PORT))";
  "	if err != nil {";
  "		panic(err)";
  "	}";
  "	defer pmapc.Close()";
  "	pmap := rfc1057.MakeClient(pmapc, rfc1057.PMAP_PROG, rfc1057.PMAP_VERS)";
  "";
  "	arg := rfc1057.Mapping{";
  "		Prog: prog,";
  "		Vers: vers,";
  "		Prot: rfc1057.IPPROTO_TCP,";
  "		Port: port,";
  "	}";
  "";
  "	var res xdr.Bool";
  "	var proc uint32";
  "	if setit {";
  "		proc = rfc1057.PMAPPROC_SET";
  "	} else {";
  "		proc = rfc1057.PMAPPROC_UNSET";
  "	}";
  "";
  "	err = pmap.Call(proc, cred, cred, &arg, &res)";
  "	if err != nil {";
  "		panic(err)";
  "	}";
  "";
  "	return bool(res)";
  "}";
  "";
  "func main() {";
  "	listener, err := net.Listen(""tcp"", "":0"")";
  "	if err != nil {";
  "		panic(err)";
  "	}";
  "	port := uint32(listener.Addr().(*net.TCPAddr).Port)";
  "";
  "	pmap_set_unset(rfc1813.MOUNT_PROGRAM, rfc1813.MOUNT_V3, 0, false)";
  "	ok := pmap_set_unset(rfc1813.MOUNT_PROGRAM, rfc1813.MOUNT_V3, port, true)";
  "	if !ok {";
  "		panic(""Could not set pmap mapping for mount"")";
  "	}";
  "	defer pmap_set_unset(rfc1813.MOUNT_PROGRAM, rfc1813.MOUNT_V3, port, false)";
  "";
  "	pmap_set_unset(rfc1813.NFS_PROGRAM, rfc1813.NFS_V3, 0, false)";
  "	ok = pmap_set_unset(rfc1813.NFS_PROGRAM, rfc1813.NFS_V3, port, true)";
  "	if !ok {";
  "		panic(""Could not set pmap mapping for NFS"")";
  "	}";
  "	defer pmap_set_unset(rfc1813.NFS_PROGRAM, rfc1813.NFS_V3, port, false)";
  "";
  "	srv := rfc1057.MakeServer()";
  "	// srv.Register(rfc1813.NFS_PROGRAM, rfc1813.NFS_V3, rfc1813....";
  "	for {";
  "		conn, err := listener.Accept()";
  "		if err != nil {";
  "			panic(err)";
  "		}";
  "";
  "		go srv.Run(conn)";
  "	}";
  "}"
].
