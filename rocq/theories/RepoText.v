(** The committed .x files and generated Go files of /repo, verbatim (made by tools/embed.py).
    [text ls] is the file with the lines [ls]. *)
From Coq Require Import List String Ascii.
Import ListNotations.
Open Scope string_scope.

Fixpoint text (ls : list string) : string :=
  match ls with [] => EmptyString | l :: ls => l ++ String "010" (text ls) end.

(** /repo/rfc1057/prot.x *)
Definition rfc1057_prot_x : string := text [
  "enum auth_flavor {";
  "   AUTH_NONE       = 0,";
  "   AUTH_UNIX       = 1,";
  "   AUTH_SHORT      = 2,";
  "   AUTH_DES        = 3 };";
  "";
  "struct opaque_auth {";
  "   auth_flavor flavor;";
  "   opaque body<400>;";
  "};";
  "";
  "enum msg_type {";
  "   CALL  = 0,";
  "   REPLY = 1 };";
  "";
  "enum reply_stat {";
  "   MSG_ACCEPTED = 0,";
  "   MSG_DENIED   = 1 };";
  "";
  "";
  "enum accept_stat {";
  "   SUCCESS       = 0, /* RPC executed successfully       */";
  "   PROG_UNAVAIL  = 1, /* remote hasn't exported program  */";
  "   PROG_MISMATCH = 2, /* remote can't support version #  */";
  "   PROC_UNAVAIL  = 3, /* program can't support procedure */";
  "   GARBAGE_ARGS  = 4  /* procedure can't decode params   */ };";
  "";
  "enum reject_stat {";
  "   RPC_MISMATCH = 0, /* RPC version number != 2          */";
  "   AUTH_ERROR = 1    /* remote can't authenticate caller */ };";
  "";
  "enum auth_stat {";
  "   AUTH_BADCRED      = 1,  /* bad credential (seal broken)     */";
  "   AUTH_REJECTEDCRED = 2,  /* client must begin new session    */";
  "   AUTH_BADVERF      = 3,  /* bad verifier (seal broken)       */";
  "   AUTH_REJECTEDVERF = 4,  /* verifier expired or replayed     */";
  "   AUTH_TOOWEAK      = 5   /* rejected for security reasons    */ };";
  "";
  "struct rpc_msg {";
  "   unsigned int xid;";
  "   union switch (msg_type mtype) {";
  "   case CALL:";
  "      call_body cbody;";
  "   case REPLY:";
  "      reply_body rbody;";
  "   } body;";
  "};";
  "";
  "struct call_body {";
  "   unsigned int rpcvers;       /* must be equal to two (2) */";
  "   unsigned int prog;";
  "   unsigned int vers;";
  "   unsigned int proc;";
  "   opaque_auth  cred;";
  "   opaque_auth  verf;";
  "   /* procedure specific parameters start here */";
  "};";
  "";
  "";
  "union reply_body switch (reply_stat stat) {";
  "case MSG_ACCEPTED:";
  "   accepted_reply areply;";
  "case MSG_DENIED:";
  "   rejected_reply rreply;";
  "};";
  "";
  "struct accepted_reply {";
  "   opaque_auth verf;";
  "   union switch (accept_stat stat) {";
  "   case SUCCESS:";
  "      opaque results[0];";
  "      /*";
  "       * procedure-specific results start here";
  "       */";
  "   case PROG_MISMATCH:";
  "      struct {";
  "         unsigned int low;";
  "         unsigned int high;";
  "      } mismatch_info;";
  "   default:";
  "      /*";
  "       * Void.  Cases include PROG_UNAVAIL, PROC_UNAVAIL,";
  "       * GARBAGE_ARGS, and SYSTEM_ERR.";
  "       */";
  "      void;";
  "   } reply_data;";
  "};";
  "";
  "";
  "union rejected_reply switch (reject_stat stat) {";
  "case RPC_MISMATCH:";
  "   struct {";
  "      unsigned int low;";
  "      unsigned int high;";
  "   } mismatch_info;";
  "case AUTH_ERROR:";
  "   auth_stat astat;";
  "};";
  "";
  "";
  "struct auth_unix {";
  "   unsigned int stamp;";
  "   string machinename<255>;";
  "   unsigned int uid;";
  "   unsigned int gid;";
  "   unsigned int gids<16>;";
  "};";
  "";
  "";
  "const PMAP_PORT = 111;      /* portmapper port number */";
  "";
  "struct mapping {";
  "   unsigned int prog;";
  "   unsigned int vers;";
  "   unsigned int prot;";
  "   unsigned int port;";
  "};";
  "";
  "const IPPROTO_TCP = 6;      /* protocol number for TCP/IP */";
  "const IPPROTO_UDP = 17;     /* protocol number for UDP/IP */";
  "";
  "typedef pmaplistelem *pmaplist;";
  "";
  "struct pmaplistelem {";
  "   mapping map;";
  "   pmaplist next;";
  "};";
  "";
  "struct call_args {";
  "   unsigned int prog;";
  "   unsigned int vers;";
  "   unsigned int proc;";
  "   opaque args<>;";
  "};";
  "";
  "struct call_result {";
  "   unsigned int port;";
  "   opaque res<>;";
  "};";
  "";
  "typedef unsigned int uint32;";
  "typedef bool xbool;";
  "";
  "program PMAP_PROG {";
  "   version PMAP_VERS {";
  "      void PMAPPROC_NULL(void)                = 0;";
  "      xbool PMAPPROC_SET(mapping)             = 1;";
  "      xbool PMAPPROC_UNSET(mapping)           = 2;";
  "      uint32 PMAPPROC_GETPORT(mapping)        = 3;";
  "      pmaplist PMAPPROC_DUMP(void)            = 4;";
  "      call_result PMAPPROC_CALLIT(call_args)  = 5;";
  "   } = 2;";
  "} = 100000;"
].

(** /repo/rfc1057/xdr.go *)
Definition rfc1057_xdr_go : string := text [
  "package rfc1057";
  "";
  "import ""github.com/zeldovich/go-rpcgen/xdr""";
  "";
  "func (v *Auth_flavor) Xdr(xs *xdr.XdrState) {";
  "	xdr.XdrU32(xs, (*uint32)(v))";
  "}";
  "func (v *Opaque_auth) Xdr(xs *xdr.XdrState) {";
  "	(*Auth_flavor)(&((v).Flavor)).Xdr(xs)";
  "	xdr.XdrVarArray(xs, int(400), (*[]byte)(&((v).Body)))";
  "}";
  "func (v *Msg_type) Xdr(xs *xdr.XdrState) {";
  "	xdr.XdrU32(xs, (*uint32)(v))";
  "}";
  "func (v *Reply_stat) Xdr(xs *xdr.XdrState) {";
  "	xdr.XdrU32(xs, (*uint32)(v))";
  "}";
  "func (v *Accept_stat) Xdr(xs *xdr.XdrState) {";
  "	xdr.XdrU32(xs, (*uint32)(v))";
  "}";
  "func (v *Reject_stat) Xdr(xs *xdr.XdrState) {";
  "	xdr.XdrU32(xs, (*uint32)(v))";
  "}";
  "func (v *Auth_stat) Xdr(xs *xdr.XdrState) {";
  "	xdr.XdrU32(xs, (*uint32)(v))";
  "}";
  "func (v *Rpc_msg) Xdr(xs *xdr.XdrState) {";
  "	xdr.XdrU32(xs, (*uint32)(&((v).Xid)))";
  "	(*Msg_type)(&((&((v).Body)).Mtype)).Xdr(xs)";
  "	switch (&((v).Body)).Mtype {";
  "	case CALL:";
  "		(*Call_body)(&((&((v).Body)).Cbody)).Xdr(xs)";
  "	case REPLY:";
  "		(*Reply_body)(&((&((v).Body)).Rbody)).Xdr(xs)";
  "	}";
  "}";
  "func (v *Call_body) Xdr(xs *xdr.XdrState) {";
  "	xdr.XdrU32(xs, (*uint32)(&((v).Rpcvers)))";
  "	xdr.XdrU32(xs, (*uint32)(&((v).Prog)))";
  "	xdr.XdrU32(xs, (*uint32)(&((v).Vers)))";
  "	xdr.XdrU32(xs, (*uint32)(&((v).Proc)))";
  "	(*Opaque_auth)(&((v).Cred)).Xdr(xs)";
  "	(*Opaque_auth)(&((v).Verf)).Xdr(xs)";
  "}";
  "func (v *Reply_body) Xdr(xs *xdr.XdrState) {";
  "	(*Reply_stat)(&((v).Stat)).Xdr(xs)";
  "	switch (v).Stat {";
  "	case MSG_ACCEPTED:";
  "		(*Accepted_reply)(&((v).Areply)).Xdr(xs)";
  "	case MSG_DENIED:";
  "		(*Rejected_reply)(&((v).Rreply)).Xdr(xs)";
  "	}";
  "}";
  "func (v *Accepted_reply) Xdr(xs *xdr.XdrState) {";
  "	(*Opaque_auth)(&((v).Verf)).Xdr(xs)";
  "	(*Accept_stat)(&((&((v).Reply_data)).Stat)).Xdr(xs)";
  "	switch (&((v).Reply_data)).Stat {";
  "	case SUCCESS:";
  "		xdr.XdrArray(xs, (*&((&((v).Reply_data)).Results))[:])";
  "	case PROG_MISMATCH:";
  "		xdr.XdrU32(xs, (*uint32)(&((&((&((v).Reply_data)).Mismatch_info)).Low)))";
  "		xdr.XdrU32(xs, (*uint32)(&((&((&((v).Reply_data)).Mismatch_info)).High)))";
  "	default:";
  "	}";
  "}";
  "func (v *Rejected_reply) Xdr(xs *xdr.XdrState) {";
  "	(*Reject_stat)(&((v).Stat)).Xdr(xs)";
  "	switch (v).Stat {";
  "	case RPC_MISMATCH:";
  "		xdr.XdrU32(xs, (*uint32)(&((&((v).Mismatch_info)).Low)))";
  "		xdr.XdrU32(xs, (*uint32)(&((&((v).Mismatch_info)).High)))";
  "	case AUTH_ERROR:";
  "		(*Auth_stat)(&((v).Astat)).Xdr(xs)";
  "	}";
  "}";
  "func (v *Auth_unix) Xdr(xs *xdr.XdrState) {";
  "	xdr.XdrU32(xs, (*uint32)(&((v).Stamp)))";
  "	xdr.XdrString(xs, int(255), (*string)(&((v).Machinename)))";
  "	xdr.XdrU32(xs, (*uint32)(&((v).Uid)))";
  "	xdr.XdrU32(xs, (*uint32)(&((v).Gid)))";
  "	{";
  "		var __arraysz uint32";
  "		xs.EncodingSetSize(&__arraysz, len(*&((v).Gids)))";
  "		xdr.XdrU32(xs, (*uint32)(&__arraysz))";
  "";
  "		if __arraysz > 16 {";
  "			xs.SetError(""array too large"")";
  "		} else {";
  "			if xs.Decoding() {";
  "				*&((v).Gids) = make([]uint32, __arraysz)";
  "			}";
  "			for i := uint64(0); i < uint64(__arraysz); i++ {";
  "				xdr.XdrU32(xs, (*uint32)(&((*(&((v).Gids)))[i])))";
  "";
  "			}";
  "		}";
  "	}";
  "}";
  "func (v *Mapping) Xdr(xs *xdr.XdrState) {";
  "	xdr.XdrU32(xs, (*uint32)(&((v).Prog)))";
  "	xdr.XdrU32(xs, (*uint32)(&((v).Vers)))";
  "	xdr.XdrU32(xs, (*uint32)(&((v).Prot)))";
  "	xdr.XdrU32(xs, (*uint32)(&((v).Port)))";
  "}";
  "func (v *Pmaplist) Xdr(xs *xdr.XdrState) {";
  "	if xs.Encoding() {";
  "		opted := *(&v.P) != nil";
  "		xdr.XdrBool(xs, (*bool)(&opted))";
  "		if opted {";
  "			(*Pmaplistelem)(*(&v.P)).Xdr(xs)";
  "		}";
  "	}";
  "	if xs.Decoding() {";
  "		var opted bool";
  "		xdr.XdrBool(xs, (*bool)(&opted))";
  "		if opted {";
  "			*(&v.P) = new(Pmaplistelem)";
  "			(*Pmaplistelem)(*(&v.P)).Xdr(xs)";
  "		}";
  "	}";
  "}";
  "func (v *Pmaplistelem) Xdr(xs *xdr.XdrState) {";
  "	(*Mapping)(&((v).Map)).Xdr(xs)";
  "	(*Pmaplist)(&((v).Next)).Xdr(xs)";
  "}";
  "func (v *Call_args) Xdr(xs *xdr.XdrState) {";
  "	xdr.XdrU32(xs, (*uint32)(&((v).Prog)))";
  "	xdr.XdrU32(xs, (*uint32)(&((v).Vers)))";
  "	xdr.XdrU32(xs, (*uint32)(&((v).Proc)))";
  "	xdr.XdrVarArray(xs, int(-1), (*[]byte)(&((v).Args)))";
  "}";
  "func (v *Call_result) Xdr(xs *xdr.XdrState) {";
  "	xdr.XdrU32(xs, (*uint32)(&((v).Port)))";
  "	xdr.XdrVarArray(xs, int(-1), (*[]byte)(&((v).Res)))";
  "}";
  "func (v *Uint32) Xdr(xs *xdr.XdrState) {";
  "	xdr.XdrU32(xs, (*uint32)(v))";
  "}";
  "func (v *Xbool) Xdr(xs *xdr.XdrState) {";
  "	xdr.XdrBool(xs, (*bool)(v))";
  "}";
  "";
  "type PMAP_PROG_PMAP_VERS_handler interface {";
  "	PMAPPROC_NULL()";
  "	PMAPPROC_SET(Mapping) Xbool";
  "	PMAPPROC_UNSET(Mapping) Xbool";
  "	PMAPPROC_GETPORT(Mapping) Uint32";
  "	PMAPPROC_DUMP() Pmaplist";
  "	PMAPPROC_CALLIT(Call_args) Call_result";
  "}";
  "type PMAP_PROG_PMAP_VERS_handler_wrapper struct {";
  "	h PMAP_PROG_PMAP_VERS_handler";
  "}";
  "";
  "func (w *PMAP_PROG_PMAP_VERS_handler_wrapper) PMAPPROC_NULL(args *xdr.XdrState) (res xdr.Xdrable, err error) {";
  "	var out xdr.Void";
  "	w.h.PMAPPROC_NULL()";
  "	return &out, nil";
  "}";
  "func (w *PMAP_PROG_PMAP_VERS_handler_wrapper) PMAPPROC_SET(args *xdr.XdrState) (res xdr.Xdrable, err error) {";
  "	var in Mapping";
  "	in.Xdr(args)";
  "	err = args.Error()";
  "	if err != nil {";
  "		return";
  "	}";
  "	var out Xbool";
  "	out = w.h.PMAPPROC_SET(in)";
  "	return &out, nil";
  "}";
  "func (w *PMAP_PROG_PMAP_VERS_handler_wrapper) PMAPPROC_UNSET(args *xdr.XdrState) (res xdr.Xdrable, err error) {";
  "	var in Mapping";
  "	in.Xdr(args)";
  "	err = args.Error()";
  "	if err != nil {";
  "		return";
  "	}";
  "	var out Xbool";
  "	out = w.h.PMAPPROC_UNSET(in)";
  "	return &out, nil";
  "}";
  "func (w *PMAP_PROG_PMAP_VERS_handler_wrapper) PMAPPROC_GETPORT(args *xdr.XdrState) (res xdr.Xdrable, err error) {";
  "	var in Mapping";
  "	in.Xdr(args)";
  "	err = args.Error()";
  "	if err != nil {";
  "		return";
  "	}";
  "	var out Uint32";
  "	out = w.h.PMAPPROC_GETPORT(in)";
  "	return &out, nil";
  "}";
  "func (w *PMAP_PROG_PMAP_VERS_handler_wrapper) PMAPPROC_DUMP(args *xdr.XdrState) (res xdr.Xdrable, err error) {";
  "	var out Pmaplist";
  "	out = w.h.PMAPPROC_DUMP()";
  "	return &out, nil";
  "}";
  "func (w *PMAP_PROG_PMAP_VERS_handler_wrapper) PMAPPROC_CALLIT(args *xdr.XdrState) (res xdr.Xdrable, err error) {";
  "	var in Call_args";
  "	in.Xdr(args)";
  "	err = args.Error()";
  "	if err != nil {";
  "		return";
  "	}";
  "	var out Call_result";
  "	out = w.h.PMAPPROC_CALLIT(in)";
  "	return &out, nil";
  "}";
  "func PMAP_PROG_PMAP_VERS_regs(h PMAP_PROG_PMAP_VERS_handler) []xdr.ProcRegistration {";
  "	w := &PMAP_PROG_PMAP_VERS_handler_wrapper{h}";
  "	return []xdr.ProcRegistration{";
  "		xdr.ProcRegistration{";
  "			Prog:    PMAP_PROG,";
  "			Vers:    PMAP_VERS,";
  "			Proc:    PMAPPROC_NULL,";
  "			Handler: w.PMAPPROC_NULL,";
  "		},";
  "		xdr.ProcRegistration{";
  "			Prog:    PMAP_PROG,";
  "			Vers:    PMAP_VERS,";
  "			Proc:    PMAPPROC_SET,";
  "			Handler: w.PMAPPROC_SET,";
  "		},";
  "		xdr.ProcRegistration{";
  "			Prog:    PMAP_PROG,";
  "			Vers:    PMAP_VERS,";
  "			Proc:    PMAPPROC_UNSET,";
  "			Handler: w.PMAPPROC_UNSET,";
  "		},";
  "		xdr.ProcRegistration{";
  "			Prog:    PMAP_PROG,";
  "			Vers:    PMAP_VERS,";
  "			Proc:    PMAPPROC_GETPORT,";
  "			Handler: w.PMAPPROC_GETPORT,";
  "		},";
  "		xdr.ProcRegistration{";
  "			Prog:    PMAP_PROG,";
  "			Vers:    PMAP_VERS,";
  "			Proc:    PMAPPROC_DUMP,";
  "			Handler: w.PMAPPROC_DUMP,";
  "		},";
  "		xdr.ProcRegistration{";
  "			Prog:    PMAP_PROG,";
  "			Vers:    PMAP_VERS,";
  "			Proc:    PMAPPROC_CALLIT,";
  "			Handler: w.PMAPPROC_CALLIT,";
  "		},";
  "	}";
  "}"
].

(** /repo/rfc1057/types.go *)
Definition rfc1057_types_go : string := text [
  "package rfc1057";
  "";
  "type Auth_flavor uint32";
  "";
  "const AUTH_NONE Auth_flavor = 0";
  "const AUTH_UNIX Auth_flavor = 1";
  "const AUTH_SHORT Auth_flavor = 2";
  "const AUTH_DES Auth_flavor = 3";
  "";
  "type Opaque_auth struct {";
  "	Flavor Auth_flavor";
  "	Body   []byte";
  "}";
  "type Msg_type uint32";
  "";
  "const CALL Msg_type = 0";
  "const REPLY Msg_type = 1";
  "";
  "type Reply_stat uint32";
  "";
  "const MSG_ACCEPTED Reply_stat = 0";
  "const MSG_DENIED Reply_stat = 1";
  "";
  "type Accept_stat uint32";
  "";
  "const SUCCESS Accept_stat = 0";
  "const PROG_UNAVAIL Accept_stat = 1";
  "const PROG_MISMATCH Accept_stat = 2";
  "const PROC_UNAVAIL Accept_stat = 3";
  "const GARBAGE_ARGS Accept_stat = 4";
  "";
  "type Reject_stat uint32";
  "";
  "const RPC_MISMATCH Reject_stat = 0";
  "const AUTH_ERROR Reject_stat = 1";
  "";
  "type Auth_stat uint32";
  "";
  "const AUTH_BADCRED Auth_stat = 1";
  "const AUTH_REJECTEDCRED Auth_stat = 2";
  "const AUTH_BADVERF Auth_stat = 3";
  "const AUTH_REJECTEDVERF Auth_stat = 4";
  "const AUTH_TOOWEAK Auth_stat = 5";
  "";
  "type Rpc_msg struct {";
  "	Xid  uint32";
  "	Body struct {";
  "		Mtype Msg_type";
  "		Cbody Call_body";
  "		Rbody Reply_body";
  "	}";
  "}";
  "type Call_body struct {";
  "	Rpcvers uint32";
  "	Prog    uint32";
  "	Vers    uint32";
  "	Proc    uint32";
  "	Cred    Opaque_auth";
  "	Verf    Opaque_auth";
  "}";
  "type Reply_body struct {";
  "	Stat   Reply_stat";
  "	Areply Accepted_reply";
  "	Rreply Rejected_reply";
  "}";
  "type Accepted_reply struct {";
  "	Verf       Opaque_auth";
  "	Reply_data struct {";
  "		Stat          Accept_stat";
  "		Results       [0]byte";
  "		Mismatch_info struct {";
  "			Low  uint32";
  "			High uint32";
  "		}";
  "	}";
  "}";
  "type Rejected_reply struct {";
  "	Stat          Reject_stat";
  "	Mismatch_info struct {";
  "		Low  uint32";
  "		High uint32";
  "	}";
  "	Astat Auth_stat";
  "}";
  "type Auth_unix struct {";
  "	Stamp       uint32";
  "	Machinename string";
  "	Uid         uint32";
  "	Gid         uint32";
  "	Gids        []uint32";
  "}";
  "";
  "const PMAP_PORT uint32 = 111";
  "";
  "type Mapping struct {";
  "	Prog uint32";
  "	Vers uint32";
  "	Prot uint32";
  "	Port uint32";
  "}";
  "";
  "const IPPROTO_TCP uint32 = 6";
  "const IPPROTO_UDP uint32 = 17";
  "";
  "type Pmaplist struct{ P *Pmaplistelem }";
  "type Pmaplistelem struct {";
  "	Map  Mapping";
  "	Next Pmaplist";
  "}";
  "type Call_args struct {";
  "	Prog uint32";
  "	Vers uint32";
  "	Proc uint32";
  "	Args []byte";
  "}";
  "type Call_result struct {";
  "	Port uint32";
  "	Res  []byte";
  "}";
  "type Uint32 uint32";
  "type Xbool bool";
  "";
  "const PMAP_PROG uint32 = 100000";
  "const PMAP_VERS uint32 = 2";
  "const PMAPPROC_NULL uint32 = 0";
  "const PMAPPROC_SET uint32 = 1";
  "const PMAPPROC_UNSET uint32 = 2";
  "const PMAPPROC_GETPORT uint32 = 3";
  "const PMAPPROC_DUMP uint32 = 4";
  "const PMAPPROC_CALLIT uint32 = 5"
].

(** /repo/rfc1813/prot.x *)
Definition rfc1813_prot_x : string := text [
  "const PROGRAM             = 100003;";
  "const VERSION             = 3;";
  "const NFS3_FHSIZE         = 64;";
  "const NFS3_COOKIEVERFSIZE = 8;";
  "const NFS3_CREATEVERFSIZE = 8;";
  "const NFS3_WRITEVERFSIZE  = 8;";
  "";
  "typedef unsigned hyper uint64;";
  "typedef unsigned int uint32;";
  "typedef string filename3<>;";
  "typedef string nfspath3<>;";
  "typedef uint64 fileid3;";
  "typedef uint64 cookie3;";
  "typedef opaque cookieverf3[NFS3_COOKIEVERFSIZE];";
  "typedef opaque createverf3[NFS3_CREATEVERFSIZE];";
  "typedef opaque writeverf3[NFS3_WRITEVERFSIZE];";
  "typedef uint32 uid3;";
  "typedef uint32 gid3;";
  "typedef uint64 size3;";
  "typedef uint64 offset3;";
  "typedef uint32 mode3;";
  "typedef uint32 count3;";
  "";
  "enum nfsstat3 {";
  "  NFS3_OK             = 0,";
  "  NFS3ERR_PERM        = 1,";
  "  NFS3ERR_NOENT       = 2,";
  "  NFS3ERR_IO          = 5,";
  "  NFS3ERR_NXIO        = 6,";
  "  NFS3ERR_ACCES       = 13,";
  "  NFS3ERR_EXIST       = 17,";
  "  NFS3ERR_XDEV        = 18,";
  "  NFS3ERR_NODEV       = 19,";
  "  NFS3ERR_NOTDIR      = 20,";
  "  NFS3ERR_ISDIR       = 21,";
  "  NFS3ERR_INVAL       = 22,";
  "  NFS3ERR_FBIG        = 27,";
  "  NFS3ERR_NOSPC       = 28,";
  "  NFS3ERR_ROFS        = 30,";
  "  NFS3ERR_MLINK       = 31,";
  "  NFS3ERR_NAMETOOLONG = 63,";
  "  NFS3ERR_NOTEMPTY    = 66,";
  "  NFS3ERR_DQUOT       = 69,";
  "  NFS3ERR_STALE       = 70,";
  "  NFS3ERR_REMOTE      = 71,";
  "  NFS3ERR_BADHANDLE   = 10001,";
  "";
  "  NFS3ERR_NOT_SYNC    = 10002,";
  "  NFS3ERR_BAD_COOKIE  = 10003,";
  "  NFS3ERR_NOTSUPP     = 10004,";
  "  NFS3ERR_TOOSMALL    = 10005,";
  "  NFS3ERR_SERVERFAULT = 10006,";
  "  NFS3ERR_BADTYPE     = 10007,";
  "  NFS3ERR_JUKEBOX     = 10008 };";
  "";
  "enum ftype3 {";
  "  NF3REG    = 1,";
  "  NF3DIR    = 2,";
  "  NF3BLK    = 3,";
  "  NF3CHR    = 4,";
  "  NF3LNK    = 5,";
  "  NF3SOCK   = 6,";
  "  NF3FIFO   = 7 };";
  "";
  "struct specdata3 {";
  "  uint32     specdata1;";
  "  uint32     specdata2;";
  "};";
  "";
  "struct nfs_fh3 {";
  "  opaque       data<NFS3_FHSIZE>;";
  "};";
  "";
  "struct nfstime3 {";
  "  uint32   seconds;";
  "  uint32   nseconds;";
  "};";
  "";
  "struct fattr3 {";
  "  ftype3     ftype;";
  "  mode3      mode;";
  "  uint32     nlink;";
  "  uid3       uid;";
  "  gid3       gid;";
  "  size3      size;";
  "  size3      used;";
  "  specdata3  rdev;";
  "  uint64     fsid;";
  "  fileid3    fileid;";
  "  nfstime3   atime;";
  "  nfstime3   mtime;";
  "  nfstime3   ctime;";
  "};";
  "";
  "union post_op_attr switch (bool attributes_follow) {";
  "case TRUE:";
  "  fattr3   attributes;";
  "case FALSE:";
  "  void;";
  "};";
  "";
  "struct wcc_attr {";
  "  size3       size;";
  "  nfstime3    mtime;";
  "  nfstime3    ctime;";
  "};";
  "";
  "union pre_op_attr switch (bool attributes_follow) {";
  "case TRUE:";
  "  wcc_attr  attributes;";
  "case FALSE:";
  "  void;";
  "};";
  "";
  "struct wcc_data {";
  "  pre_op_attr    before;";
  "  post_op_attr   after;";
  "};";
  "";
  "union post_op_fh3 switch (bool handle_follows) {";
  "case TRUE:";
  "  nfs_fh3  handle;";
  "case FALSE:";
  "  void;";
  "};";
  "";
  "enum time_how {";
  "  DONT_CHANGE        = 0,";
  "  SET_TO_SERVER_TIME = 1,";
  "  SET_TO_CLIENT_TIME = 2 };";
  "";
  "union set_mode3 switch (bool set_it) {";
  "case TRUE:";
  "  mode3    mode;";
  "default:";
  "  void;";
  "};";
  "";
  "union set_uid3 switch (bool set_it) {";
  "case TRUE:";
  "  uid3     uid;";
  "default:";
  "  void;";
  "};";
  "";
  "union set_gid3 switch (bool set_it) {";
  "case TRUE:";
  "  gid3     gid;";
  "default:";
  "  void;";
  "};";
  "";
  "union set_size3 switch (bool set_it) {";
  "case TRUE:";
  "  size3    size;";
  "default:";
  "  void;";
  "};";
  "";
  "union set_atime switch (time_how set_it) {";
  "case SET_TO_CLIENT_TIME:";
  "  nfstime3  atime;";
  "default:";
  "  void;";
  "};";
  "";
  "union set_mtime switch (time_how set_it) {";
  "case SET_TO_CLIENT_TIME:";
  "  nfstime3  mtime;";
  "default:";
  "  void;";
  "};";
  "";
  "struct sattr3 {";
  "  set_mode3   mode;";
  "  set_uid3    uid;";
  "  set_gid3    gid;";
  "  set_size3   size;";
  "  set_atime   atime;";
  "  set_mtime   mtime;";
  "";
  "};";
  "";
  "struct diropargs3 {";
  "  nfs_fh3     dir;";
  "  filename3   name;";
  "};";
  "";
  "";
  "program NFS_PROGRAM {";
  "  version NFS_V3 {";
  "    void            NFSPROC3_NULL(void)                    = 0;";
  "    GETATTR3res     NFSPROC3_GETATTR(GETATTR3args)         = 1;";
  "    SETATTR3res     NFSPROC3_SETATTR(SETATTR3args)         = 2;";
  "    LOOKUP3res      NFSPROC3_LOOKUP(LOOKUP3args)           = 3;";
  "    ACCESS3res      NFSPROC3_ACCESS(ACCESS3args)           = 4;";
  "    READLINK3res    NFSPROC3_READLINK(READLINK3args)       = 5;";
  "    READ3res        NFSPROC3_READ(READ3args)               = 6;";
  "    WRITE3res       NFSPROC3_WRITE(WRITE3args)             = 7;";
  "    CREATE3res      NFSPROC3_CREATE(CREATE3args)           = 8;";
  "    MKDIR3res       NFSPROC3_MKDIR(MKDIR3args)             = 9;";
  "    SYMLINK3res     NFSPROC3_SYMLINK(SYMLINK3args)         = 10;";
  "    MKNOD3res       NFSPROC3_MKNOD(MKNOD3args)             = 11;";
  "    REMOVE3res      NFSPROC3_REMOVE(REMOVE3args)           = 12;";
  "    RMDIR3res       NFSPROC3_RMDIR(RMDIR3args)             = 13;";
  "    RENAME3res      NFSPROC3_RENAME(RENAME3args)           = 14;";
  "    LINK3res        NFSPROC3_LINK(LINK3args)               = 15;";
  "    READDIR3res     NFSPROC3_READDIR(READDIR3args)         = 16;";
  "    READDIRPLUS3res NFSPROC3_READDIRPLUS(READDIRPLUS3args) = 17;";
  "    FSSTAT3res      NFSPROC3_FSSTAT(FSSTAT3args)           = 18;";
  "    FSINFO3res      NFSPROC3_FSINFO(FSINFO3args)           = 19;";
  "    PATHCONF3res    NFSPROC3_PATHCONF(PATHCONF3args)       = 20;";
  "    COMMIT3res      NFSPROC3_COMMIT(COMMIT3args)           = 21;";
  "} = 3;";
  "} = 100003;";
  "";
  "struct GETATTR3args {";
  "  nfs_fh3  object;";
  "};";
  "";
  "struct GETATTR3resok {";
  "  fattr3   obj_attributes;";
  "};";
  "";
  "union GETATTR3res switch (nfsstat3 status) {";
  "case NFS3_OK:";
  "  GETATTR3resok  resok;";
  "default:";
  "  void;";
  "};";
  "";
  "union sattrguard3 switch (bool check) {";
  "case TRUE:";
  "  nfstime3  obj_ctime;";
  "case FALSE:";
  "  void;";
  "};";
  "";
  "struct SETATTR3args {";
  "  nfs_fh3      object;";
  "  sattr3       new_attributes;";
  "  sattrguard3  guard;";
  "};";
  "";
  "struct SETATTR3resok {";
  "  wcc_data  obj_wcc;";
  "};";
  "";
  "struct SETATTR3resfail {";
  "  wcc_data  obj_wcc;";
  "};";
  "";
  "union SETATTR3res switch (nfsstat3 status) {";
  "case NFS3_OK:";
  "  SETATTR3resok   resok;";
  "default:";
  "  SETATTR3resfail resfail;";
  "};";
  "";
  "struct LOOKUP3args {";
  "  diropargs3  what;";
  "};";
  "";
  "struct LOOKUP3resok {";
  "  nfs_fh3      object;";
  "  post_op_attr obj_attributes;";
  "  post_op_attr dir_attributes;";
  "};";
  "";
  "struct LOOKUP3resfail {";
  "  post_op_attr dir_attributes;";
  "};";
  "";
  "union LOOKUP3res switch (nfsstat3 status) {";
  "case NFS3_OK:";
  "  LOOKUP3resok    resok;";
  "default:";
  "  LOOKUP3resfail  resfail;";
  "};";
  "";
  "";
  "const ACCESS3_READ    = 0x0001;";
  "const ACCESS3_LOOKUP  = 0x0002;";
  "const ACCESS3_MODIFY  = 0x0004;";
  "const ACCESS3_EXTEND  = 0x0008;";
  "const ACCESS3_DELETE  = 0x0010;";
  "const ACCESS3_EXECUTE = 0x0020;";
  "";
  "struct ACCESS3args {";
  "  nfs_fh3  object;";
  "  uint32   access;";
  "};";
  "";
  "struct ACCESS3resok {";
  "  post_op_attr   obj_attributes;";
  "  uint32         access;";
  "};";
  "";
  "struct ACCESS3resfail {";
  "  post_op_attr   obj_attributes;";
  "};";
  "";
  "union ACCESS3res switch (nfsstat3 status) {";
  "case NFS3_OK:";
  "  ACCESS3resok   resok;";
  "default:";
  "  ACCESS3resfail resfail;";
  "};";
  "";
  "struct READLINK3args {";
  "  nfs_fh3  symlink;";
  "};";
  "";
  "struct READLINK3resok {";
  "  post_op_attr   symlink_attributes;";
  "  nfspath3       data;";
  "};";
  "";
  "struct READLINK3resfail {";
  "  post_op_attr   symlink_attributes;";
  "};";
  "";
  "union READLINK3res switch (nfsstat3 status) {";
  "case NFS3_OK:";
  "  READLINK3resok   resok;";
  "default:";
  "  READLINK3resfail resfail;";
  "};";
  "";
  "struct READ3args {";
  "  nfs_fh3  file;";
  "  offset3  offset;";
  "  count3   count;";
  "};";
  "";
  "struct READ3resok {";
  "  post_op_attr   file_attributes;";
  "  count3         count;";
  "  bool           eof;";
  "  opaque         data<>;";
  "};";
  "";
  "struct READ3resfail {";
  "  post_op_attr   file_attributes;";
  "};";
  "";
  "union READ3res switch (nfsstat3 status) {";
  "case NFS3_OK:";
  "  READ3resok   resok;";
  "default:";
  "  READ3resfail resfail;";
  "};";
  "";
  "enum stable_how {";
  "  UNSTABLE  = 0,";
  "  DATA_SYNC = 1,";
  "  FILE_SYNC = 2 };";
  "";
  "struct WRITE3args {";
  "  nfs_fh3     file;";
  "  offset3     offset;";
  "  count3      count;";
  "  stable_how  stable;";
  "  opaque      data<>;";
  "};";
  "";
  "struct WRITE3resok {";
  "  wcc_data    file_wcc;";
  "  count3      count;";
  "  stable_how  committed;";
  "  writeverf3  verf;";
  "};";
  "";
  "struct WRITE3resfail {";
  "  wcc_data    file_wcc;";
  "};";
  "";
  "union WRITE3res switch (nfsstat3 status) {";
  "case NFS3_OK:";
  "  WRITE3resok    resok;";
  "default:";
  "  WRITE3resfail  resfail;";
  "};";
  "";
  "";
  "enum createmode3 {";
  "  UNCHECKED = 0,";
  "  GUARDED   = 1,";
  "  EXCLUSIVE = 2 };";
  "";
  "union createhow3 switch (createmode3 mode) {";
  "case UNCHECKED:";
  "case GUARDED:";
  "  sattr3       obj_attributes;";
  "case EXCLUSIVE:";
  "  createverf3  verf;";
  "};";
  "";
  "struct CREATE3args {";
  "  diropargs3   where;";
  "  createhow3   how;";
  "};";
  "";
  "struct CREATE3resok {";
  "  post_op_fh3   obj;";
  "  post_op_attr  obj_attributes;";
  "  wcc_data      dir_wcc;";
  "};";
  "";
  "struct CREATE3resfail {";
  "  wcc_data      dir_wcc;";
  "};";
  "";
  "union CREATE3res switch (nfsstat3 status) {";
  "case NFS3_OK:";
  "  CREATE3resok    resok;";
  "default:";
  "  CREATE3resfail  resfail;";
  "};";
  "";
  "";
  "struct MKDIR3args {";
  "  diropargs3   where;";
  "  sattr3       attributes;";
  "};";
  "";
  "struct MKDIR3resok {";
  "  post_op_fh3   obj;";
  "  post_op_attr  obj_attributes;";
  "  wcc_data      dir_wcc;";
  "};";
  "";
  "struct MKDIR3resfail {";
  "  wcc_data      dir_wcc;";
  "};";
  "";
  "union MKDIR3res switch (nfsstat3 status) {";
  "case NFS3_OK:";
  "  MKDIR3resok   resok;";
  "default:";
  "  MKDIR3resfail resfail;";
  "};";
  "";
  "";
  "struct symlinkdata3 {";
  "  sattr3    symlink_attributes;";
  "  nfspath3  symlink_data;";
  "};";
  "";
  "struct SYMLINK3args {";
  "  diropargs3    where;";
  "  symlinkdata3  symlink;";
  "};";
  "";
  "struct SYMLINK3resok {";
  "  post_op_fh3   obj;";
  "  post_op_attr  obj_attributes;";
  "  wcc_data      dir_wcc;";
  "};";
  "";
  "struct SYMLINK3resfail {";
  "  wcc_data      dir_wcc;";
  "};";
  "";
  "union SYMLINK3res switch (nfsstat3 status) {";
  "case NFS3_OK:";
  "  SYMLINK3resok   resok;";
  "default:";
  "  SYMLINK3resfail resfail;";
  "};";
  "";
  "";
  "struct devicedata3 {";
  "  sattr3     dev_attributes;";
  "  specdata3  spec;";
  "};";
  "";
  "union mknoddata3 switch (ftype3 ftype) {";
  "case NF3CHR:";
  "case NF3BLK:";
  "  devicedata3  device;";
  "case NF3SOCK:";
  "case NF3FIFO:";
  "  sattr3       pipe_attributes;";
  "default:";
  "  void;";
  "};";
  "";
  "struct MKNOD3args {";
  "  diropargs3   where;";
  "  mknoddata3   what;";
  "};";
  "";
  "struct MKNOD3resok {";
  "  post_op_fh3   obj;";
  "  post_op_attr  obj_attributes;";
  "  wcc_data      dir_wcc;";
  "};";
  "";
  "struct MKNOD3resfail {";
  "  wcc_data      dir_wcc;";
  "};";
  "";
  "union MKNOD3res switch (nfsstat3 status) {";
  "case NFS3_OK:";
  "  MKNOD3resok   resok;";
  "default:";
  "  MKNOD3resfail resfail;";
  "};";
  "";
  "struct REMOVE3args {";
  "  diropargs3  object;";
  "};";
  "";
  "struct REMOVE3resok {";
  "  wcc_data    dir_wcc;";
  "};";
  "";
  "struct REMOVE3resfail {";
  "  wcc_data    dir_wcc;";
  "};";
  "";
  "union REMOVE3res switch (nfsstat3 status) {";
  "case NFS3_OK:";
  "  REMOVE3resok   resok;";
  "default:";
  "  REMOVE3resfail resfail;";
  "};";
  "";
  "";
  "struct RMDIR3args {";
  "  diropargs3  object;";
  "};";
  "";
  "struct RMDIR3resok {";
  "  wcc_data    dir_wcc;";
  "};";
  "";
  "struct RMDIR3resfail {";
  "  wcc_data    dir_wcc;";
  "};";
  "";
  "union RMDIR3res switch (nfsstat3 status) {";
  "case NFS3_OK:";
  "  RMDIR3resok   resok;";
  "default:";
  "  RMDIR3resfail resfail;";
  "};";
  "";
  "struct RENAME3args {";
  "  diropargs3   from;";
  "  diropargs3   to;";
  "};";
  "";
  "struct RENAME3resok {";
  "  wcc_data     fromdir_wcc;";
  "  wcc_data     todir_wcc;";
  "};";
  "";
  "struct RENAME3resfail {";
  "  wcc_data     fromdir_wcc;";
  "  wcc_data     todir_wcc;";
  "};";
  "";
  "union RENAME3res switch (nfsstat3 status) {";
  "case NFS3_OK:";
  "  RENAME3resok   resok;";
  "default:";
  "  RENAME3resfail resfail;";
  "};";
  "";
  "struct LINK3args {";
  "  nfs_fh3     file;";
  "  diropargs3  link;";
  "};";
  "";
  "struct LINK3resok {";
  "  post_op_attr   file_attributes;";
  "  wcc_data       linkdir_wcc;";
  "};";
  "";
  "struct LINK3resfail {";
  "  post_op_attr   file_attributes;";
  "  wcc_data       linkdir_wcc;";
  "};";
  "";
  "union LINK3res switch (nfsstat3 status) {";
  "case NFS3_OK:";
  "";
  "  LINK3resok    resok;";
  "default:";
  "  LINK3resfail  resfail;";
  "};";
  "";
  "struct READDIR3args {";
  "  nfs_fh3      dir;";
  "  cookie3      cookie;";
  "  cookieverf3  cookieverf;";
  "  count3       count;";
  "};";
  "";
  "struct entry3 {";
  "  fileid3      fileid;";
  "  filename3    name;";
  "  cookie3      cookie;";
  "  entry3       *nextentry;";
  "};";
  "";
  "struct dirlist3 {";
  "  entry3       *entries;";
  "  bool         eof;";
  "};";
  "";
  "struct READDIR3resok {";
  "  post_op_attr dir_attributes;";
  "  cookieverf3  cookieverf;";
  "  dirlist3     reply;";
  "};";
  "";
  "struct READDIR3resfail {";
  "  post_op_attr dir_attributes;";
  "};";
  "";
  "union READDIR3res switch (nfsstat3 status) {";
  "case NFS3_OK:";
  "  READDIR3resok   resok;";
  "default:";
  "  READDIR3resfail resfail;";
  "};";
  "";
  "struct READDIRPLUS3args {";
  "  nfs_fh3      dir;";
  "  cookie3      cookie;";
  "  cookieverf3  cookieverf;";
  "  count3       dircount;";
  "  count3       maxcount;";
  "};";
  "";
  "struct entryplus3 {";
  "  fileid3      fileid;";
  "  filename3    name;";
  "  cookie3      cookie;";
  "  post_op_attr name_attributes;";
  "  post_op_fh3  name_handle;";
  "  entryplus3   *nextentry;";
  "};";
  "";
  "struct dirlistplus3 {";
  "  entryplus3   *entries;";
  "  bool         eof;";
  "};";
  "";
  "struct READDIRPLUS3resok {";
  "  post_op_attr dir_attributes;";
  "  cookieverf3  cookieverf;";
  "  dirlistplus3 reply;";
  "};";
  "";
  "struct READDIRPLUS3resfail {";
  "  post_op_attr dir_attributes;";
  "};";
  "";
  "union READDIRPLUS3res switch (nfsstat3 status) {";
  "case NFS3_OK:";
  "  READDIRPLUS3resok   resok;";
  "default:";
  "  READDIRPLUS3resfail resfail;";
  "};";
  "";
  "struct FSSTAT3args {";
  "  nfs_fh3   fsroot;";
  "};";
  "";
  "struct FSSTAT3resok {";
  "  post_op_attr obj_attributes;";
  "  size3        tbytes;";
  "  size3        fbytes;";
  "  size3        abytes;";
  "  size3        tfiles;";
  "  size3        ffiles;";
  "  size3        afiles;";
  "  uint32       invarsec;";
  "};";
  "";
  "struct FSSTAT3resfail {";
  "  post_op_attr obj_attributes;";
  "};";
  "";
  "union FSSTAT3res switch (nfsstat3 status) {";
  "case NFS3_OK:";
  "  FSSTAT3resok   resok;";
  "default:";
  "  FSSTAT3resfail resfail;";
  "};";
  "";
  "const FSF3_LINK        = 0x0001;";
  "const FSF3_SYMLINK     = 0x0002;";
  "const FSF3_HOMOGENEOUS = 0x0008;";
  "const FSF3_CANSETTIME  = 0x0010;";
  "";
  "struct FSINFO3args {";
  "  nfs_fh3   fsroot;";
  "};";
  "";
  "struct FSINFO3resok {";
  "  post_op_attr obj_attributes;";
  "  uint32       rtmax;";
  "  uint32       rtpref;";
  "  uint32       rtmult;";
  "  uint32       wtmax;";
  "  uint32       wtpref;";
  "  uint32       wtmult;";
  "  uint32       dtpref;";
  "";
  "  size3        maxfilesize;";
  "  nfstime3     time_delta;";
  "  uint32       properties;";
  "};";
  "";
  "struct FSINFO3resfail {";
  "  post_op_attr obj_attributes;";
  "};";
  "";
  "union FSINFO3res switch (nfsstat3 status) {";
  "case NFS3_OK:";
  "  FSINFO3resok   resok;";
  "default:";
  "  FSINFO3resfail resfail;";
  "};";
  "";
  "struct PATHCONF3args {";
  "  nfs_fh3   object;";
  "};";
  "";
  "struct PATHCONF3resok {";
  "  post_op_attr obj_attributes;";
  "  uint32       linkmax;";
  "  uint32       name_max;";
  "  bool         no_trunc;";
  "  bool         chown_restricted;";
  "  bool         case_insensitive;";
  "  bool         case_preserving;";
  "};";
  "";
  "struct PATHCONF3resfail {";
  "  post_op_attr obj_attributes;";
  "};";
  "";
  "union PATHCONF3res switch (nfsstat3 status) {";
  "case NFS3_OK:";
  "  PATHCONF3resok   resok;";
  "default:";
  "  PATHCONF3resfail resfail;";
  "};";
  "";
  "struct COMMIT3args {";
  "  nfs_fh3    file;";
  "  offset3    offset;";
  "  count3     count;";
  "};";
  "";
  "struct COMMIT3resok {";
  "  wcc_data   file_wcc;";
  "  writeverf3 verf;";
  "};";
  "";
  "struct COMMIT3resfail {";
  "  wcc_data   file_wcc;";
  "};";
  "";
  "union COMMIT3res switch (nfsstat3 status) {";
  "case NFS3_OK:";
  "  COMMIT3resok   resok;";
  "default:";
  "  COMMIT3resfail resfail;";
  "};";
  "";
  "";
  "const MNTPATHLEN3 = 1024;   /* Maximum bytes in a path name */";
  "const MNTNAMLEN3  = 255;    /* Maximum bytes in a name */";
  "const FHSIZE3    = 64;      /* Maximum bytes in a V3 file handle */";
  "";
  "typedef opaque fhandle3<FHSIZE3>;";
  "typedef string dirpath3<MNTPATHLEN3>;";
  "typedef string name3<MNTNAMLEN3>;";
  "";
  "enum mountstat3 {";
  "   MNT3_OK = 0,                 /* no error */";
  "   MNT3ERR_PERM = 1,            /* Not owner */";
  "   MNT3ERR_NOENT = 2,           /* No such file or directory */";
  "   MNT3ERR_IO = 5,              /* I/O error */";
  "   MNT3ERR_ACCES = 13,          /* Permission denied */";
  "   MNT3ERR_NOTDIR = 20,         /* Not a directory */";
  "   MNT3ERR_INVAL = 22,          /* Invalid argument */";
  "   MNT3ERR_NAMETOOLONG = 63,    /* Filename too long */";
  "   MNT3ERR_NOTSUPP = 10004,     /* Operation not supported */";
  "   MNT3ERR_SERVERFAULT = 10006  /* A failure on the server */ };";
  "";
  "";
  "program MOUNT_PROGRAM {";
  "  version MOUNT_V3 {";
  "    void        MOUNTPROC3_NULL(void)     = 0;";
  "    mountres3   MOUNTPROC3_MNT(dirpath3)  = 1;";
  "    mountopt3   MOUNTPROC3_DUMP(void)     = 2;";
  "    void        MOUNTPROC3_UMNT(dirpath3) = 3;";
  "    void        MOUNTPROC3_UMNTALL(void)  = 4;";
  "    exportsopt3 MOUNTPROC3_EXPORT(void)   = 5;";
  "  } = 3;";
  "} = 100005;";
  "";
  "struct mountres3_ok {";
  "  fhandle3     fhandle;";
  "  unsigned int auth_flavors<>;";
  "};";
  "";
  "union mountres3 switch (mountstat3 fhs_status) {";
  "case MNT3_OK:";
  "  mountres3_ok  mountinfo;";
  "default:";
  "  void;";
  "};";
  "";
  "struct mount3 {";
  "  name3    ml_hostname;";
  "  dirpath3 ml_directory;";
  "  mount3   *ml_next;";
  "};";
  "";
  "typedef mount3 *mountopt3;";
  "";
  "struct groups3 {";
  "  name3   gr_name;";
  "  groups3 *gr_next;";
  "};";
  "";
  "struct exports3 {";
  "  dirpath3 ex_dir;";
  "  groups3  *ex_groups;";
  "  exports3 *ex_next;";
  "};";
  "";
  "typedef exports3 *exportsopt3;"
].

(** /repo/rfc1813/xdr.go *)
Definition rfc1813_xdr_go : string := text [
  "package rfc1813";
  "";
  "import ""github.com/zeldovich/go-rpcgen/xdr""";
  "";
  "func (v *Uint64) Xdr(xs *xdr.XdrState) {";
  "	xdr.XdrU64(xs, (*uint64)(v))";
  "}";
  "func (v *Uint32) Xdr(xs *xdr.XdrState) {";
  "	xdr.XdrU32(xs, (*uint32)(v))";
  "}";
  "func (v *Filename3) Xdr(xs *xdr.XdrState) {";
  "	xdr.XdrString(xs, int(-1), (*string)(v))";
  "}";
  "func (v *Nfspath3) Xdr(xs *xdr.XdrState) {";
  "	xdr.XdrString(xs, int(-1), (*string)(v))";
  "}";
  "func (v *Fileid3) Xdr(xs *xdr.XdrState) {";
  "	(*Uint64)(v).Xdr(xs)";
  "}";
  "func (v *Cookie3) Xdr(xs *xdr.XdrState) {";
  "	(*Uint64)(v).Xdr(xs)";
  "}";
  "func (v *Cookieverf3) Xdr(xs *xdr.XdrState) {";
  "	xdr.XdrArray(xs, (*v)[:])";
  "}";
  "func (v *Createverf3) Xdr(xs *xdr.XdrState) {";
  "	xdr.XdrArray(xs, (*v)[:])";
  "}";
  "func (v *Writeverf3) Xdr(xs *xdr.XdrState) {";
  "	xdr.XdrArray(xs, (*v)[:])";
  "}";
  "func (v *Uid3) Xdr(xs *xdr.XdrState) {";
  "	(*Uint32)(v).Xdr(xs)";
  "}";
  "func (v *Gid3) Xdr(xs *xdr.XdrState) {";
  "	(*Uint32)(v).Xdr(xs)";
  "}";
  "func (v *Size3) Xdr(xs *xdr.XdrState) {";
  "	(*Uint64)(v).Xdr(xs)";
  "}";
  "func (v *Offset3) Xdr(xs *xdr.XdrState) {";
  "	(*Uint64)(v).Xdr(xs)";
  "}";
  "func (v *Mode3) Xdr(xs *xdr.XdrState) {";
  "	(*Uint32)(v).Xdr(xs)";
  "}";
  "func (v *Count3) Xdr(xs *xdr.XdrState) {";
  "	(*Uint32)(v).Xdr(xs)";
  "}";
  "func (v *Nfsstat3) Xdr(xs *xdr.XdrState) {";
  "	xdr.XdrU32(xs, (*uint32)(v))";
  "}";
  "func (v *Ftype3) Xdr(xs *xdr.XdrState) {";
  "	xdr.XdrU32(xs, (*uint32)(v))";
  "}";
  "func (v *Specdata3) Xdr(xs *xdr.XdrState) {";
  "	(*Uint32)(&((v).Specdata1)).Xdr(xs)";
  "	(*Uint32)(&((v).Specdata2)).Xdr(xs)";
  "}";
  "func (v *Nfs_fh3) Xdr(xs *xdr.XdrState) {";
  "	xdr.XdrVarArray(xs, int(NFS3_FHSIZE), (*[]byte)(&((v).Data)))";
  "}";
  "func (v *Nfstime3) Xdr(xs *xdr.XdrState) {";
  "	(*Uint32)(&((v).Seconds)).Xdr(xs)";
  "	(*Uint32)(&((v).Nseconds)).Xdr(xs)";
  "}";
  "func (v *Fattr3) Xdr(xs *xdr.XdrState) {";
  "	(*Ftype3)(&((v).Ftype)).Xdr(xs)";
  "	(*Mode3)(&((v).Mode)).Xdr(xs)";
  "	(*Uint32)(&((v).Nlink)).Xdr(xs)";
  "	(*Uid3)(&((v).Uid)).Xdr(xs)";
  "	(*Gid3)(&((v).Gid)).Xdr(xs)";
  "	(*Size3)(&((v).Size)).Xdr(xs)";
  "	(*Size3)(&((v).Used)).Xdr(xs)";
  "	(*Specdata3)(&((v).Rdev)).Xdr(xs)";
  "	(*Uint64)(&((v).Fsid)).Xdr(xs)";
  "	(*Fileid3)(&((v).Fileid)).Xdr(xs)";
  "	(*Nfstime3)(&((v).Atime)).Xdr(xs)";
  "	(*Nfstime3)(&((v).Mtime)).Xdr(xs)";
  "	(*Nfstime3)(&((v).Ctime)).Xdr(xs)";
  "}";
  "func (v *Post_op_attr) Xdr(xs *xdr.XdrState) {";
  "	xdr.XdrBool(xs, (*bool)(&((v).Attributes_follow)))";
  "	switch (v).Attributes_follow {";
  "	case true:";
  "		(*Fattr3)(&((v).Attributes)).Xdr(xs)";
  "	case false:";
  "	}";
  "}";
  "func (v *Wcc_attr) Xdr(xs *xdr.XdrState) {";
  "	(*Size3)(&((v).Size)).Xdr(xs)";
  "	(*Nfstime3)(&((v).Mtime)).Xdr(xs)";
  "	(*Nfstime3)(&((v).Ctime)).Xdr(xs)";
  "}";
  "func (v *Pre_op_attr) Xdr(xs *xdr.XdrState) {";
  "	xdr.XdrBool(xs, (*bool)(&((v).Attributes_follow)))";
  "	switch (v).Attributes_follow {";
  "	case true:";
  "		(*Wcc_attr)(&((v).Attributes)).Xdr(xs)";
  "	case false:";
  "	}";
  "}";
  "func (v *Wcc_data) Xdr(xs *xdr.XdrState) {";
  "	(*Pre_op_attr)(&((v).Before)).Xdr(xs)";
  "	(*Post_op_attr)(&((v).After)).Xdr(xs)";
  "}";
  "func (v *Post_op_fh3) Xdr(xs *xdr.XdrState) {";
  "	xdr.XdrBool(xs, (*bool)(&((v).Handle_follows)))";
  "	switch (v).Handle_follows {";
  "	case true:";
  "		(*Nfs_fh3)(&((v).Handle)).Xdr(xs)";
  "	case false:";
  "	}";
  "}";
  "func (v *Time_how) Xdr(xs *xdr.XdrState) {";
  "	xdr.XdrU32(xs, (*uint32)(v))";
  "}";
  "func (v *Set_mode3) Xdr(xs *xdr.XdrState) {";
  "	xdr.XdrBool(xs, (*bool)(&((v).Set_it)))";
  "	switch (v).Set_it {";
  "	case true:";
  "		(*Mode3)(&((v).Mode)).Xdr(xs)";
  "	default:";
  "	}";
  "}";
  "func (v *Set_uid3) Xdr(xs *xdr.XdrState) {";
  "	xdr.XdrBool(xs, (*bool)(&((v).Set_it)))";
  "	switch (v).Set_it {";
  "	case true:";
  "		(*Uid3)(&((v).Uid)).Xdr(xs)";
  "	default:";
  "	}";
  "}";
  "func (v *Set_gid3) Xdr(xs *xdr.XdrState) {";
  "	xdr.XdrBool(xs, (*bool)(&((v).Set_it)))";
  "	switch (v).Set_it {";
  "	case true:";
  "		(*Gid3)(&((v).Gid)).Xdr(xs)";
  "	default:";
  "	}";
  "}";
  "func (v *Set_size3) Xdr(xs *xdr.XdrState) {";
  "	xdr.XdrBool(xs, (*bool)(&((v).Set_it)))";
  "	switch (v).Set_it {";
  "	case true:";
  "		(*Size3)(&((v).Size)).Xdr(xs)";
  "	default:";
  "	}";
  "}";
  "func (v *Set_atime) Xdr(xs *xdr.XdrState) {";
  "	(*Time_how)(&((v).Set_it)).Xdr(xs)";
  "	switch (v).Set_it {";
  "	case SET_TO_CLIENT_TIME:";
  "		(*Nfstime3)(&((v).Atime)).Xdr(xs)";
  "	default:";
  "	}";
  "}";
  "func (v *Set_mtime) Xdr(xs *xdr.XdrState) {";
  "	(*Time_how)(&((v).Set_it)).Xdr(xs)";
  "	switch (v).Set_it {";
  "	case SET_TO_CLIENT_TIME:";
  "		(*Nfstime3)(&((v).Mtime)).Xdr(xs)";
  "	default:";
  "	}";
  "}";
  "func (v *Sattr3) Xdr(xs *xdr.XdrState) {";
  "	(*Set_mode3)(&((v).Mode)).Xdr(xs)";
  "	(*Set_uid3)(&((v).Uid)).Xdr(xs)";
  "	(*Set_gid3)(&((v).Gid)).Xdr(xs)";
  "	(*Set_size3)(&((v).Size)).Xdr(xs)";
  "	(*Set_atime)(&((v).Atime)).Xdr(xs)";
  "	(*Set_mtime)(&((v).Mtime)).Xdr(xs)";
  "}";
  "func (v *Diropargs3) Xdr(xs *xdr.XdrState) {";
  "	(*Nfs_fh3)(&((v).Dir)).Xdr(xs)";
  "	(*Filename3)(&((v).Name)).Xdr(xs)";
  "}";
  "";
  "type NFS_PROGRAM_NFS_V3_handler interface {";
  "	NFSPROC3_NULL()";
  "	NFSPROC3_GETATTR(GETATTR3args) GETATTR3res";
  "	NFSPROC3_SETATTR(SETATTR3args) SETATTR3res";
  "	NFSPROC3_LOOKUP(LOOKUP3args) LOOKUP3res";
  "	NFSPROC3_ACCESS(ACCESS3args) ACCESS3res";
  "	NFSPROC3_READLINK(READLINK3args) READLINK3res";
  "	NFSPROC3_READ(READ3args) READ3res";
  "	NFSPROC3_WRITE(WRITE3args) WRITE3res";
  "	NFSPROC3_CREATE(CREATE3args) CREATE3res";
  "	NFSPROC3_MKDIR(MKDIR3args) MKDIR3res";
  "	NFSPROC3_SYMLINK(SYMLINK3args) SYMLINK3res";
  "	NFSPROC3_MKNOD(MKNOD3args) MKNOD3res";
  "	NFSPROC3_REMOVE(REMOVE3args) REMOVE3res";
  "	NFSPROC3_RMDIR(RMDIR3args) RMDIR3res";
  "	NFSPROC3_RENAME(RENAME3args) RENAME3res";
  "	NFSPROC3_LINK(LINK3args) LINK3res";
  "	NFSPROC3_READDIR(READDIR3args) READDIR3res";
  "	NFSPROC3_READDIRPLUS(READDIRPLUS3args) READDIRPLUS3res";
  "	NFSPROC3_FSSTAT(FSSTAT3args) FSSTAT3res";
  "	NFSPROC3_FSINFO(FSINFO3args) FSINFO3res";
  "	NFSPROC3_PATHCONF(PATHCONF3args) PATHCONF3res";
  "	NFSPROC3_COMMIT(COMMIT3args) COMMIT3res";
  "}";
  "type NFS_PROGRAM_NFS_V3_handler_wrapper struct {";
  "	h NFS_PROGRAM_NFS_V3_handler";
  "}";
  "";
  "func (w *NFS_PROGRAM_NFS_V3_handler_wrapper) NFSPROC3_NULL(args *xdr.XdrState) (res xdr.Xdrable, err error) {";
  "	var out xdr.Void";
  "	w.h.NFSPROC3_NULL()";
  "	return &out, nil";
  "}";
  "func (w *NFS_PROGRAM_NFS_V3_handler_wrapper) NFSPROC3_GETATTR(args *xdr.XdrState) (res xdr.Xdrable, err error) {";
  "	var in GETATTR3args";
  "	in.Xdr(args)";
  "	err = args.Error()";
  "	if err != nil {";
  "		return";
  "	}";
  "	var out GETATTR3res";
  "	out = w.h.NFSPROC3_GETATTR(in)";
  "	return &out, nil";
  "}";
  "func (w *NFS_PROGRAM_NFS_V3_handler_wrapper) NFSPROC3_SETATTR(args *xdr.XdrState) (res xdr.Xdrable, err error) {";
  "	var in SETATTR3args";
  "	in.Xdr(args)";
  "	err = args.Error()";
  "	if err != nil {";
  "		return";
  "	}";
  "	var out SETATTR3res";
  "	out = w.h.NFSPROC3_SETATTR(in)";
  "	return &out, nil";
  "}";
  "func (w *NFS_PROGRAM_NFS_V3_handler_wrapper) NFSPROC3_LOOKUP(args *xdr.XdrState) (res xdr.Xdrable, err error) {";
  "	var in LOOKUP3args";
  "	in.Xdr(args)";
  "	err = args.Error()";
  "	if err != nil {";
  "		return";
  "	}";
  "	var out LOOKUP3res";
  "	out = w.h.NFSPROC3_LOOKUP(in)";
  "	return &out, nil";
  "}";
  "func (w *NFS_PROGRAM_NFS_V3_handler_wrapper) NFSPROC3_ACCESS(args *xdr.XdrState) (res xdr.Xdrable, err error) {";
  "	var in ACCESS3args";
  "	in.Xdr(args)";
  "	err = args.Error()";
  "	if err != nil {";
  "		return";
  "	}";
  "	var out ACCESS3res";
  "	out = w.h.NFSPROC3_ACCESS(in)";
  "	return &out, nil";
  "}";
  "func (w *NFS_PROGRAM_NFS_V3_handler_wrapper) NFSPROC3_READLINK(args *xdr.XdrState) (res xdr.Xdrable, err error) {";
  "	var in READLINK3args";
  "	in.Xdr(args)";
  "	err = args.Error()";
  "	if err != nil {";
  "		return";
  "	}";
  "	var out READLINK3res";
  "	out = w.h.NFSPROC3_READLINK(in)";
  "	return &out, nil";
  "}";
  "func (w *NFS_PROGRAM_NFS_V3_handler_wrapper) NFSPROC3_READ(args *xdr.XdrState) (res xdr.Xdrable, err error) {";
  "	var in READ3args";
  "	in.Xdr(args)";
  "	err = args.Error()";
  "	if err != nil {";
  "		return";
  "	}";
  "	var out READ3res";
  "	out = w.h.NFSPROC3_READ(in)";
  "	return &out, nil";
  "}";
  "func (w *NFS_PROGRAM_NFS_V3_handler_wrapper) NFSPROC3_WRITE(args *xdr.XdrState) (res xdr.Xdrable, err error) {";
  "	var in WRITE3args";
  "	in.Xdr(args)";
  "	err = args.Error()";
  "	if err != nil {";
  "		return";
  "	}";
  "	var out WRITE3res";
  "	out = w.h.NFSPROC3_WRITE(in)";
  "	return &out, nil";
  "}";
  "func (w *NFS_PROGRAM_NFS_V3_handler_wrapper) NFSPROC3_CREATE(args *xdr.XdrState) (res xdr.Xdrable, err error) {";
  "	var in CREATE3args";
  "	in.Xdr(args)";
  "	err = args.Error()";
  "	if err != nil {";
  "		return";
  "	}";
  "	var out CREATE3res";
  "	out = w.h.NFSPROC3_CREATE(in)";
  "	return &out, nil";
  "}";
  "func (w *NFS_PROGRAM_NFS_V3_handler_wrapper) NFSPROC3_MKDIR(args *xdr.XdrState) (res xdr.Xdrable, err error) {";
  "	var in MKDIR3args";
  "	in.Xdr(args)";
  "	err = args.Error()";
  "	if err != nil {";
  "		return";
  "	}";
  "	var out MKDIR3res";
  "	out = w.h.NFSPROC3_MKDIR(in)";
  "	return &out, nil";
  "}";
  "func (w *NFS_PROGRAM_NFS_V3_handler_wrapper) NFSPROC3_SYMLINK(args *xdr.XdrState) (res xdr.Xdrable, err error) {";
  "	var in SYMLINK3args";
  "	in.Xdr(args)";
  "	err = args.Error()";
  "	if err != nil {";
  "		return";
  "	}";
  "	var out SYMLINK3res";
  "	out = w.h.NFSPROC3_SYMLINK(in)";
  "	return &out, nil";
  "}";
  "func (w *NFS_PROGRAM_NFS_V3_handler_wrapper) NFSPROC3_MKNOD(args *xdr.XdrState) (res xdr.Xdrable, err error) {";
  "	var in MKNOD3args";
  "	in.Xdr(args)";
  "	err = args.Error()";
  "	if err != nil {";
  "		return";
  "	}";
  "	var out MKNOD3res";
  "	out = w.h.NFSPROC3_MKNOD(in)";
  "	return &out, nil";
  "}";
  "func (w *NFS_PROGRAM_NFS_V3_handler_wrapper) NFSPROC3_REMOVE(args *xdr.XdrState) (res xdr.Xdrable, err error) {";
  "	var in REMOVE3args";
  "	in.Xdr(args)";
  "	err = args.Error()";
  "	if err != nil {";
  "		return";
  "	}";
  "	var out REMOVE3res";
  "	out = w.h.NFSPROC3_REMOVE(in)";
  "	return &out, nil";
  "}";
  "func (w *NFS_PROGRAM_NFS_V3_handler_wrapper) NFSPROC3_RMDIR(args *xdr.XdrState) (res xdr.Xdrable, err error) {";
  "	var in RMDIR3args";
  "	in.Xdr(args)";
  "	err = args.Error()";
  "	if err != nil {";
  "		return";
  "	}";
  "	var out RMDIR3res";
  "	out = w.h.NFSPROC3_RMDIR(in)";
  "	return &out, nil";
  "}";
  "func (w *NFS_PROGRAM_NFS_V3_handler_wrapper) NFSPROC3_RENAME(args *xdr.XdrState) (res xdr.Xdrable, err error) {";
  "	var in RENAME3args";
  "	in.Xdr(args)";
  "	err = args.Error()";
  "	if err != nil {";
  "		return";
  "	}";
  "	var out RENAME3res";
  "	out = w.h.NFSPROC3_RENAME(in)";
  "	return &out, nil";
  "}";
  "func (w *NFS_PROGRAM_NFS_V3_handler_wrapper) NFSPROC3_LINK(args *xdr.XdrState) (res xdr.Xdrable, err error) {";
  "	var in LINK3args";
  "	in.Xdr(args)";
  "	err = args.Error()";
  "	if err != nil {";
  "		return";
  "	}";
  "	var out LINK3res";
  "	out = w.h.NFSPROC3_LINK(in)";
  "	return &out, nil";
  "}";
  "func (w *NFS_PROGRAM_NFS_V3_handler_wrapper) NFSPROC3_READDIR(args *xdr.XdrState) (res xdr.Xdrable, err error) {";
  "	var in READDIR3args";
  "	in.Xdr(args)";
  "	err = args.Error()";
  "	if err != nil {";
  "		return";
  "	}";
  "	var out READDIR3res";
  "	out = w.h.NFSPROC3_READDIR(in)";
  "	return &out, nil";
  "}";
  "func (w *NFS_PROGRAM_NFS_V3_handler_wrapper) NFSPROC3_READDIRPLUS(args *xdr.XdrState) (res xdr.Xdrable, err error) {";
  "	var in READDIRPLUS3args";
  "	in.Xdr(args)";
  "	err = args.Error()";
  "	if err != nil {";
  "		return";
  "	}";
  "	var out READDIRPLUS3res";
  "	out = w.h.NFSPROC3_READDIRPLUS(in)";
  "	return &out, nil";
  "}";
  "func (w *NFS_PROGRAM_NFS_V3_handler_wrapper) NFSPROC3_FSSTAT(args *xdr.XdrState) (res xdr.Xdrable, err error) {";
  "	var in FSSTAT3args";
  "	in.Xdr(args)";
  "	err = args.Error()";
  "	if err != nil {";
  "		return";
  "	}";
  "	var out FSSTAT3res";
  "	out = w.h.NFSPROC3_FSSTAT(in)";
  "	return &out, nil";
  "}";
  "func (w *NFS_PROGRAM_NFS_V3_handler_wrapper) NFSPROC3_FSINFO(args *xdr.XdrState) (res xdr.Xdrable, err error) {";
  "	var in FSINFO3args";
  "	in.Xdr(args)";
  "	err = args.Error()";
  "	if err != nil {";
  "		return";
  "	}";
  "	var out FSINFO3res";
  "	out = w.h.NFSPROC3_FSINFO(in)";
  "	return &out, nil";
  "}";
  "func (w *NFS_PROGRAM_NFS_V3_handler_wrapper) NFSPROC3_PATHCONF(args *xdr.XdrState) (res xdr.Xdrable, err error) {";
  "	var in PATHCONF3args";
  "	in.Xdr(args)";
  "	err = args.Error()";
  "	if err != nil {";
  "		return";
  "	}";
  "	var out PATHCONF3res";
  "	out = w.h.NFSPROC3_PATHCONF(in)";
  "	return &out, nil";
  "}";
  "func (w *NFS_PROGRAM_NFS_V3_handler_wrapper) NFSPROC3_COMMIT(args *xdr.XdrState) (res xdr.Xdrable, err error) {";
  "	var in COMMIT3args";
  "	in.Xdr(args)";
  "	err = args.Error()";
  "	if err != nil {";
  "		return";
  "	}";
  "	var out COMMIT3res";
  "	out = w.h.NFSPROC3_COMMIT(in)";
  "	return &out, nil";
  "}";
  "func NFS_PROGRAM_NFS_V3_regs(h NFS_PROGRAM_NFS_V3_handler) []xdr.ProcRegistration {";
  "	w := &NFS_PROGRAM_NFS_V3_handler_wrapper{h}";
  "	return []xdr.ProcRegistration{";
  "		xdr.ProcRegistration{";
  "			Prog:    NFS_PROGRAM,";
  "			Vers:    NFS_V3,";
  "			Proc:    NFSPROC3_NULL,";
  "			Handler: w.NFSPROC3_NULL,";
  "		},";
  "		xdr.ProcRegistration{";
  "			Prog:    NFS_PROGRAM,";
  "			Vers:    NFS_V3,";
  "			Proc:    NFSPROC3_GETATTR,";
  "			Handler: w.NFSPROC3_GETATTR,";
  "		},";
  "		xdr.ProcRegistration{";
  "			Prog:    NFS_PROGRAM,";
  "			Vers:    NFS_V3,";
  "			Proc:    NFSPROC3_SETATTR,";
  "			Handler: w.NFSPROC3_SETATTR,";
  "		},";
  "		xdr.ProcRegistration{";
  "			Prog:    NFS_PROGRAM,";
  "			Vers:    NFS_V3,";
  "			Proc:    NFSPROC3_LOOKUP,";
  "			Handler: w.NFSPROC3_LOOKUP,";
  "		},";
  "		xdr.ProcRegistration{";
  "			Prog:    NFS_PROGRAM,";
  "			Vers:    NFS_V3,";
  "			Proc:    NFSPROC3_ACCESS,";
  "			Handler: w.NFSPROC3_ACCESS,";
  "		},";
  "		xdr.ProcRegistration{";
  "			Prog:    NFS_PROGRAM,";
  "			Vers:    NFS_V3,";
  "			Proc:    NFSPROC3_READLINK,";
  "			Handler: w.NFSPROC3_READLINK,";
  "		},";
  "		xdr.ProcRegistration{";
  "			Prog:    NFS_PROGRAM,";
  "			Vers:    NFS_V3,";
  "			Proc:    NFSPROC3_READ,";
  "			Handler: w.NFSPROC3_READ,";
  "		},";
  "		xdr.ProcRegistration{";
  "			Prog:    NFS_PROGRAM,";
  "			Vers:    NFS_V3,";
  "			Proc:    NFSPROC3_WRITE,";
  "			Handler: w.NFSPROC3_WRITE,";
  "		},";
  "		xdr.ProcRegistration{";
  "			Prog:    NFS_PROGRAM,";
  "			Vers:    NFS_V3,";
  "			Proc:    NFSPROC3_CREATE,";
  "			Handler: w.NFSPROC3_CREATE,";
  "		},";
  "		xdr.ProcRegistration{";
  "			Prog:    NFS_PROGRAM,";
  "			Vers:    NFS_V3,";
  "			Proc:    NFSPROC3_MKDIR,";
  "			Handler: w.NFSPROC3_MKDIR,";
  "		},";
  "		xdr.ProcRegistration{";
  "			Prog:    NFS_PROGRAM,";
  "			Vers:    NFS_V3,";
  "			Proc:    NFSPROC3_SYMLINK,";
  "			Handler: w.NFSPROC3_SYMLINK,";
  "		},";
  "		xdr.ProcRegistration{";
  "			Prog:    NFS_PROGRAM,";
  "			Vers:    NFS_V3,";
  "			Proc:    NFSPROC3_MKNOD,";
  "			Handler: w.NFSPROC3_MKNOD,";
  "		},";
  "		xdr.ProcRegistration{";
  "			Prog:    NFS_PROGRAM,";
  "			Vers:    NFS_V3,";
  "			Proc:    NFSPROC3_REMOVE,";
  "			Handler: w.NFSPROC3_REMOVE,";
  "		},";
  "		xdr.ProcRegistration{";
  "			Prog:    NFS_PROGRAM,";
  "			Vers:    NFS_V3,";
  "			Proc:    NFSPROC3_RMDIR,";
  "			Handler: w.NFSPROC3_RMDIR,";
  "		},";
  "		xdr.ProcRegistration{";
  "			Prog:    NFS_PROGRAM,";
  "			Vers:    NFS_V3,";
  "			Proc:    NFSPROC3_RENAME,";
  "			Handler: w.NFSPROC3_RENAME,";
  "		},";
  "		xdr.ProcRegistration{";
  "			Prog:    NFS_PROGRAM,";
  "			Vers:    NFS_V3,";
  "			Proc:    NFSPROC3_LINK,";
  "			Handler: w.NFSPROC3_LINK,";
  "		},";
  "		xdr.ProcRegistration{";
  "			Prog:    NFS_PROGRAM,";
  "			Vers:    NFS_V3,";
  "			Proc:    NFSPROC3_READDIR,";
  "			Handler: w.NFSPROC3_READDIR,";
  "		},";
  "		xdr.ProcRegistration{";
  "			Prog:    NFS_PROGRAM,";
  "			Vers:    NFS_V3,";
  "			Proc:    NFSPROC3_READDIRPLUS,";
  "			Handler: w.NFSPROC3_READDIRPLUS,";
  "		},";
  "		xdr.ProcRegistration{";
  "			Prog:    NFS_PROGRAM,";
  "			Vers:    NFS_V3,";
  "			Proc:    NFSPROC3_FSSTAT,";
  "			Handler: w.NFSPROC3_FSSTAT,";
  "		},";
  "		xdr.ProcRegistration{";
  "			Prog:    NFS_PROGRAM,";
  "			Vers:    NFS_V3,";
  "			Proc:    NFSPROC3_FSINFO,";
  "			Handler: w.NFSPROC3_FSINFO,";
  "		},";
  "		xdr.ProcRegistration{";
  "			Prog:    NFS_PROGRAM,";
  "			Vers:    NFS_V3,";
  "			Proc:    NFSPROC3_PATHCONF,";
  "			Handler: w.NFSPROC3_PATHCONF,";
  "		},";
  "		xdr.ProcRegistration{";
  "			Prog:    NFS_PROGRAM,";
  "			Vers:    NFS_V3,";
  "			Proc:    NFSPROC3_COMMIT,";
  "			Handler: w.NFSPROC3_COMMIT,";
  "		},";
  "	}";
  "}";
  "func (v *GETATTR3args) Xdr(xs *xdr.XdrState) {";
  "	(*Nfs_fh3)(&((v).Object)).Xdr(xs)";
  "}";
  "func (v *GETATTR3resok) Xdr(xs *xdr.XdrState) {";
  "	(*Fattr3)(&((v).Obj_attributes)).Xdr(xs)";
  "}";
  "func (v *GETATTR3res) Xdr(xs *xdr.XdrState) {";
  "	(*Nfsstat3)(&((v).Status)).Xdr(xs)";
  "	switch (v).Status {";
  "	case NFS3_OK:";
  "		(*GETATTR3resok)(&((v).Resok)).Xdr(xs)";
  "	default:";
  "	}";
  "}";
  "func (v *Sattrguard3) Xdr(xs *xdr.XdrState) {";
  "	xdr.XdrBool(xs, (*bool)(&((v).Check)))";
  "	switch (v).Check {";
  "	case true:";
  "		(*Nfstime3)(&((v).Obj_ctime)).Xdr(xs)";
  "	case false:";
  "	}";
  "}";
  "func (v *SETATTR3args) Xdr(xs *xdr.XdrState) {";
  "	(*Nfs_fh3)(&((v).Object)).Xdr(xs)";
  "	(*Sattr3)(&((v).New_attributes)).Xdr(xs)";
  "	(*Sattrguard3)(&((v).Guard)).Xdr(xs)";
  "}";
  "func (v *SETATTR3resok) Xdr(xs *xdr.XdrState) {";
  "	(*Wcc_data)(&((v).Obj_wcc)).Xdr(xs)";
  "}";
  "func (v *SETATTR3resfail) Xdr(xs *xdr.XdrState) {";
  "	(*Wcc_data)(&((v).Obj_wcc)).Xdr(xs)";
  "}";
  "func (v *SETATTR3res) Xdr(xs *xdr.XdrState) {";
  "	(*Nfsstat3)(&((v).Status)).Xdr(xs)";
  "	switch (v).Status {";
  "	case NFS3_OK:";
  "		(*SETATTR3resok)(&((v).Resok)).Xdr(xs)";
  "	default:";
  "		(*SETATTR3resfail)(&((v).Resfail)).Xdr(xs)";
  "	}";
  "}";
  "func (v *LOOKUP3args) Xdr(xs *xdr.XdrState) {";
  "	(*Diropargs3)(&((v).What)).Xdr(xs)";
  "}";
  "func (v *LOOKUP3resok) Xdr(xs *xdr.XdrState) {";
  "	(*Nfs_fh3)(&((v).Object)).Xdr(xs)";
  "	(*Post_op_attr)(&((v).Obj_attributes)).Xdr(xs)";
  "	(*Post_op_attr)(&((v).Dir_attributes)).Xdr(xs)";
  "}";
  "func (v *LOOKUP3resfail) Xdr(xs *xdr.XdrState) {";
  "	(*Post_op_attr)(&((v).Dir_attributes)).Xdr(xs)";
  "}";
  "func (v *LOOKUP3res) Xdr(xs *xdr.XdrState) {";
  "	(*Nfsstat3)(&((v).Status)).Xdr(xs)";
  "	switch (v).Status {";
  "	case NFS3_OK:";
  "		(*LOOKUP3resok)(&((v).Resok)).Xdr(xs)";
  "	default:";
  "		(*LOOKUP3resfail)(&((v).Resfail)).Xdr(xs)";
  "	}";
  "}";
  "func (v *ACCESS3args) Xdr(xs *xdr.XdrState) {";
  "	(*Nfs_fh3)(&((v).Object)).Xdr(xs)";
  "	(*Uint32)(&((v).Access)).Xdr(xs)";
  "}";
  "func (v *ACCESS3resok) Xdr(xs *xdr.XdrState) {";
  "	(*Post_op_attr)(&((v).Obj_attributes)).Xdr(xs)";
  "	(*Uint32)(&((v).Access)).Xdr(xs)";
  "}";
  "func (v *ACCESS3resfail) Xdr(xs *xdr.XdrState) {";
  "	(*Post_op_attr)(&((v).Obj_attributes)).Xdr(xs)";
  "}";
  "func (v *ACCESS3res) Xdr(xs *xdr.XdrState) {";
  "	(*Nfsstat3)(&((v).Status)).Xdr(xs)";
  "	switch (v).Status {";
  "	case NFS3_OK:";
  "		(*ACCESS3resok)(&((v).Resok)).Xdr(xs)";
  "	default:";
  "		(*ACCESS3resfail)(&((v).Resfail)).Xdr(xs)";
  "	}";
  "}";
  "func (v *READLINK3args) Xdr(xs *xdr.XdrState) {";
  "	(*Nfs_fh3)(&((v).Symlink)).Xdr(xs)";
  "}";
  "func (v *READLINK3resok) Xdr(xs *xdr.XdrState) {";
  "	(*Post_op_attr)(&((v).Symlink_attributes)).Xdr(xs)";
  "	(*Nfspath3)(&((v).Data)).Xdr(xs)";
  "}";
  "func (v *READLINK3resfail) Xdr(xs *xdr.XdrState) {";
  "	(*Post_op_attr)(&((v).Symlink_attributes)).Xdr(xs)";
  "}";
  "func (v *READLINK3res) Xdr(xs *xdr.XdrState) {";
  "	(*Nfsstat3)(&((v).Status)).Xdr(xs)";
  "	switch (v).Status {";
  "	case NFS3_OK:";
  "		(*READLINK3resok)(&((v).Resok)).Xdr(xs)";
  "	default:";
  "		(*READLINK3resfail)(&((v).Resfail)).Xdr(xs)";
  "	}";
  "}";
  "func (v *READ3args) Xdr(xs *xdr.XdrState) {";
  "	(*Nfs_fh3)(&((v).File)).Xdr(xs)";
  "	(*Offset3)(&((v).Offset)).Xdr(xs)";
  "	(*Count3)(&((v).Count)).Xdr(xs)";
  "}";
  "func (v *READ3resok) Xdr(xs *xdr.XdrState) {";
  "	(*Post_op_attr)(&((v).File_attributes)).Xdr(xs)";
  "	(*Count3)(&((v).Count)).Xdr(xs)";
  "	xdr.XdrBool(xs, (*bool)(&((v).Eof)))";
  "	xdr.XdrVarArray(xs, int(-1), (*[]byte)(&((v).Data)))";
  "}";
  "func (v *READ3resfail) Xdr(xs *xdr.XdrState) {";
  "	(*Post_op_attr)(&((v).File_attributes)).Xdr(xs)";
  "}";
  "func (v *READ3res) Xdr(xs *xdr.XdrState) {";
  "	(*Nfsstat3)(&((v).Status)).Xdr(xs)";
  "	switch (v).Status {";
  "	case NFS3_OK:";
  "		(*READ3resok)(&((v).Resok)).Xdr(xs)";
  "	default:";
  "		(*READ3resfail)(&((v).Resfail)).Xdr(xs)";
  "	}";
  "}";
  "func (v *Stable_how) Xdr(xs *xdr.XdrState) {";
  "	xdr.XdrU32(xs, (*uint32)(v))";
  "}";
  "func (v *WRITE3args) Xdr(xs *xdr.XdrState) {";
  "	(*Nfs_fh3)(&((v).File)).Xdr(xs)";
  "	(*Offset3)(&((v).Offset)).Xdr(xs)";
  "	(*Count3)(&((v).Count)).Xdr(xs)";
  "	(*Stable_how)(&((v).Stable)).Xdr(xs)";
  "	xdr.XdrVarArray(xs, int(-1), (*[]byte)(&((v).Data)))";
  "}";
  "func (v *WRITE3resok) Xdr(xs *xdr.XdrState) {";
  "	(*Wcc_data)(&((v).File_wcc)).Xdr(xs)";
  "	(*Count3)(&((v).Count)).Xdr(xs)";
  "	(*Stable_how)(&((v).Committed)).Xdr(xs)";
  "	(*Writeverf3)(&((v).Verf)).Xdr(xs)";
  "}";
  "func (v *WRITE3resfail) Xdr(xs *xdr.XdrState) {";
  "	(*Wcc_data)(&((v).File_wcc)).Xdr(xs)";
  "}";
  "func (v *WRITE3res) Xdr(xs *xdr.XdrState) {";
  "	(*Nfsstat3)(&((v).Status)).Xdr(xs)";
  "	switch (v).Status {";
  "	case NFS3_OK:";
  "		(*WRITE3resok)(&((v).Resok)).Xdr(xs)";
  "	default:";
  "		(*WRITE3resfail)(&((v).Resfail)).Xdr(xs)";
  "	}";
  "}";
  "func (v *Createmode3) Xdr(xs *xdr.XdrState) {";
  "	xdr.XdrU32(xs, (*uint32)(v))";
  "}";
  "func (v *Createhow3) Xdr(xs *xdr.XdrState) {";
  "	(*Createmode3)(&((v).Mode)).Xdr(xs)";
  "	switch (v).Mode {";
  "	case UNCHECKED:";
  "		fallthrough";
  "	case GUARDED:";
  "		(*Sattr3)(&((v).Obj_attributes)).Xdr(xs)";
  "	case EXCLUSIVE:";
  "		(*Createverf3)(&((v).Verf)).Xdr(xs)";
  "	}";
  "}";
  "func (v *CREATE3args) Xdr(xs *xdr.XdrState) {";
  "	(*Diropargs3)(&((v).Where)).Xdr(xs)";
  "	(*Createhow3)(&((v).How)).Xdr(xs)";
  "}";
  "func (v *CREATE3resok) Xdr(xs *xdr.XdrState) {";
  "	(*Post_op_fh3)(&((v).Obj)).Xdr(xs)";
  "	(*Post_op_attr)(&((v).Obj_attributes)).Xdr(xs)";
  "	(*Wcc_data)(&((v).Dir_wcc)).Xdr(xs)";
  "}";
  "func (v *CREATE3resfail) Xdr(xs *xdr.XdrState) {";
  "	(*Wcc_data)(&((v).Dir_wcc)).Xdr(xs)";
  "}";
  "func (v *CREATE3res) Xdr(xs *xdr.XdrState) {";
  "	(*Nfsstat3)(&((v).Status)).Xdr(xs)";
  "	switch (v).Status {";
  "	case NFS3_OK:";
  "		(*CREATE3resok)(&((v).Resok)).Xdr(xs)";
  "	default:";
  "		(*CREATE3resfail)(&((v).Resfail)).Xdr(xs)";
  "	}";
  "}";
  "func (v *MKDIR3args) Xdr(xs *xdr.XdrState) {";
  "	(*Diropargs3)(&((v).Where)).Xdr(xs)";
  "	(*Sattr3)(&((v).Attributes)).Xdr(xs)";
  "}";
  "func (v *MKDIR3resok) Xdr(xs *xdr.XdrState) {";
  "	(*Post_op_fh3)(&((v).Obj)).Xdr(xs)";
  "	(*Post_op_attr)(&((v).Obj_attributes)).Xdr(xs)";
  "	(*Wcc_data)(&((v).Dir_wcc)).Xdr(xs)";
  "}";
  "func (v *MKDIR3resfail) Xdr(xs *xdr.XdrState) {";
  "	(*Wcc_data)(&((v).Dir_wcc)).Xdr(xs)";
  "}";
  "func (v *MKDIR3res) Xdr(xs *xdr.XdrState) {";
  "	(*Nfsstat3)(&((v).Status)).Xdr(xs)";
  "	switch (v).Status {";
  "	case NFS3_OK:";
  "		(*MKDIR3resok)(&((v).Resok)).Xdr(xs)";
  "	default:";
  "		(*MKDIR3resfail)(&((v).Resfail)).Xdr(xs)";
  "	}";
  "}";
  "func (v *Symlinkdata3) Xdr(xs *xdr.XdrState) {";
  "	(*Sattr3)(&((v).Symlink_attributes)).Xdr(xs)";
  "	(*Nfspath3)(&((v).Symlink_data)).Xdr(xs)";
  "}";
  "func (v *SYMLINK3args) Xdr(xs *xdr.XdrState) {";
  "	(*Diropargs3)(&((v).Where)).Xdr(xs)";
  "	(*Symlinkdata3)(&((v).Symlink)).Xdr(xs)";
  "}";
  "func (v *SYMLINK3resok) Xdr(xs *xdr.XdrState) {";
  "	(*Post_op_fh3)(&((v).Obj)).Xdr(xs)";
  "	(*Post_op_attr)(&((v).Obj_attributes)).Xdr(xs)";
  "	(*Wcc_data)(&((v).Dir_wcc)).Xdr(xs)";
  "}";
  "func (v *SYMLINK3resfail) Xdr(xs *xdr.XdrState) {";
  "	(*Wcc_data)(&((v).Dir_wcc)).Xdr(xs)";
  "}";
  "func (v *SYMLINK3res) Xdr(xs *xdr.XdrState) {";
  "	(*Nfsstat3)(&((v).Status)).Xdr(xs)";
  "	switch (v).Status {";
  "	case NFS3_OK:";
  "		(*SYMLINK3resok)(&((v).Resok)).Xdr(xs)";
  "	default:";
  "		(*SYMLINK3resfail)(&((v).Resfail)).Xdr(xs)";
  "	}";
  "}";
  "func (v *Devicedata3) Xdr(xs *xdr.XdrState) {";
  "	(*Sattr3)(&((v).Dev_attributes)).Xdr(xs)";
  "	(*Specdata3)(&((v).Spec)).Xdr(xs)";
  "}";
  "func (v *Mknoddata3) Xdr(xs *xdr.XdrState) {";
  "	(*Ftype3)(&((v).Ftype)).Xdr(xs)";
  "	switch (v).Ftype {";
  "	case NF3CHR:";
  "		fallthrough";
  "	case NF3BLK:";
  "		(*Devicedata3)(&((v).Device)).Xdr(xs)";
  "	case NF3SOCK:";
  "		fallthrough";
  "	case NF3FIFO:";
  "		(*Sattr3)(&((v).Pipe_attributes)).Xdr(xs)";
  "	default:";
  "	}";
  "}";
  "func (v *MKNOD3args) Xdr(xs *xdr.XdrState) {";
  "	(*Diropargs3)(&((v).Where)).Xdr(xs)";
  "	(*Mknoddata3)(&((v).What)).Xdr(xs)";
  "}";
  "func (v *MKNOD3resok) Xdr(xs *xdr.XdrState) {";
  "	(*Post_op_fh3)(&((v).Obj)).Xdr(xs)";
  "	(*Post_op_attr)(&((v).Obj_attributes)).Xdr(xs)";
  "	(*Wcc_data)(&((v).Dir_wcc)).Xdr(xs)";
  "}";
  "func (v *MKNOD3resfail) Xdr(xs *xdr.XdrState) {";
  "	(*Wcc_data)(&((v).Dir_wcc)).Xdr(xs)";
  "}";
  "func (v *MKNOD3res) Xdr(xs *xdr.XdrState) {";
  "	(*Nfsstat3)(&((v).Status)).Xdr(xs)";
  "	switch (v).Status {";
  "	case NFS3_OK:";
  "		(*MKNOD3resok)(&((v).Resok)).Xdr(xs)";
  "	default:";
  "		(*MKNOD3resfail)(&((v).Resfail)).Xdr(xs)";
  "	}";
  "}";
  "func (v *REMOVE3args) Xdr(xs *xdr.XdrState) {";
  "	(*Diropargs3)(&((v).Object)).Xdr(xs)";
  "}";
  "func (v *REMOVE3resok) Xdr(xs *xdr.XdrState) {";
  "	(*Wcc_data)(&((v).Dir_wcc)).Xdr(xs)";
  "}";
  "func (v *REMOVE3resfail) Xdr(xs *xdr.XdrState) {";
  "	(*Wcc_data)(&((v).Dir_wcc)).Xdr(xs)";
  "}";
  "func (v *REMOVE3res) Xdr(xs *xdr.XdrState) {";
  "	(*Nfsstat3)(&((v).Status)).Xdr(xs)";
  "	switch (v).Status {";
  "	case NFS3_OK:";
  "		(*REMOVE3resok)(&((v).Resok)).Xdr(xs)";
  "	default:";
  "		(*REMOVE3resfail)(&((v).Resfail)).Xdr(xs)";
  "	}";
  "}";
  "func (v *RMDIR3args) Xdr(xs *xdr.XdrState) {";
  "	(*Diropargs3)(&((v).Object)).Xdr(xs)";
  "}";
  "func (v *RMDIR3resok) Xdr(xs *xdr.XdrState) {";
  "	(*Wcc_data)(&((v).Dir_wcc)).Xdr(xs)";
  "}";
  "func (v *RMDIR3resfail) Xdr(xs *xdr.XdrState) {";
  "	(*Wcc_data)(&((v).Dir_wcc)).Xdr(xs)";
  "}";
  "func (v *RMDIR3res) Xdr(xs *xdr.XdrState) {";
  "	(*Nfsstat3)(&((v).Status)).Xdr(xs)";
  "	switch (v).Status {";
  "	case NFS3_OK:";
  "		(*RMDIR3resok)(&((v).Resok)).Xdr(xs)";
  "	default:";
  "		(*RMDIR3resfail)(&((v).Resfail)).Xdr(xs)";
  "	}";
  "}";
  "func (v *RENAME3args) Xdr(xs *xdr.XdrState) {";
  "	(*Diropargs3)(&((v).From)).Xdr(xs)";
  "	(*Diropargs3)(&((v).To)).Xdr(xs)";
  "}";
  "func (v *RENAME3resok) Xdr(xs *xdr.XdrState) {";
  "	(*Wcc_data)(&((v).Fromdir_wcc)).Xdr(xs)";
  "	(*Wcc_data)(&((v).Todir_wcc)).Xdr(xs)";
  "}";
  "func (v *RENAME3resfail) Xdr(xs *xdr.XdrState) {";
  "	(*Wcc_data)(&((v).Fromdir_wcc)).Xdr(xs)";
  "	(*Wcc_data)(&((v).Todir_wcc)).Xdr(xs)";
  "}";
  "func (v *RENAME3res) Xdr(xs *xdr.XdrState) {";
  "	(*Nfsstat3)(&((v).Status)).Xdr(xs)";
  "	switch (v).Status {";
  "	case NFS3_OK:";
  "		(*RENAME3resok)(&((v).Resok)).Xdr(xs)";
  "	default:";
  "		(*RENAME3resfail)(&((v).Resfail)).Xdr(xs)";
  "	}";
  "}";
  "func (v *LINK3args) Xdr(xs *xdr.XdrState) {";
  "	(*Nfs_fh3)(&((v).File)).Xdr(xs)";
  "	(*Diropargs3)(&((v).Link)).Xdr(xs)";
  "}";
  "func (v *LINK3resok) Xdr(xs *xdr.XdrState) {";
  "	(*Post_op_attr)(&((v).File_attributes)).Xdr(xs)";
  "	(*Wcc_data)(&((v).Linkdir_wcc)).Xdr(xs)";
  "}";
  "func (v *LINK3resfail) Xdr(xs *xdr.XdrState) {";
  "	(*Post_op_attr)(&((v).File_attributes)).Xdr(xs)";
  "	(*Wcc_data)(&((v).Linkdir_wcc)).Xdr(xs)";
  "}";
  "func (v *LINK3res) Xdr(xs *xdr.XdrState) {";
  "	(*Nfsstat3)(&((v).Status)).Xdr(xs)";
  "	switch (v).Status {";
  "	case NFS3_OK:";
  "		(*LINK3resok)(&((v).Resok)).Xdr(xs)";
  "	default:";
  "		(*LINK3resfail)(&((v).Resfail)).Xdr(xs)";
  "	}";
  "}";
  "func (v *READDIR3args) Xdr(xs *xdr.XdrState) {";
  "	(*Nfs_fh3)(&((v).Dir)).Xdr(xs)";
  "	(*Cookie3)(&((v).Cookie)).Xdr(xs)";
  "	(*Cookieverf3)(&((v).Cookieverf)).Xdr(xs)";
  "	(*Count3)(&((v).Count)).Xdr(xs)";
  "}";
  "func (v *Entry3) Xdr(xs *xdr.XdrState) {";
  "	(*Fileid3)(&((v).Fileid)).Xdr(xs)";
  "	(*Filename3)(&((v).Name)).Xdr(xs)";
  "	(*Cookie3)(&((v).Cookie)).Xdr(xs)";
  "	if xs.Encoding() {";
  "		opted := *(&((v).Nextentry)) != nil";
  "		xdr.XdrBool(xs, (*bool)(&opted))";
  "		if opted {";
  "			(*Entry3)(*(&((v).Nextentry))).Xdr(xs)";
  "		}";
  "	}";
  "	if xs.Decoding() {";
  "		var opted bool";
  "		xdr.XdrBool(xs, (*bool)(&opted))";
  "		if opted {";
  "			*(&((v).Nextentry)) = new(Entry3)";
  "			(*Entry3)(*(&((v).Nextentry))).Xdr(xs)";
  "		}";
  "	}";
  "}";
  "func (v *Dirlist3) Xdr(xs *xdr.XdrState) {";
  "	if xs.Encoding() {";
  "		opted := *(&((v).Entries)) != nil";
  "		xdr.XdrBool(xs, (*bool)(&opted))";
  "		if opted {";
  "			(*Entry3)(*(&((v).Entries))).Xdr(xs)";
  "		}";
  "	}";
  "	if xs.Decoding() {";
  "		var opted bool";
  "		xdr.XdrBool(xs, (*bool)(&opted))";
  "		if opted {";
  "			*(&((v).Entries)) = new(Entry3)";
  "			(*Entry3)(*(&((v).Entries))).Xdr(xs)";
  "		}";
  "	}";
  "	xdr.XdrBool(xs, (*bool)(&((v).Eof)))";
  "}";
  "func (v *READDIR3resok) Xdr(xs *xdr.XdrState) {";
  "	(*Post_op_attr)(&((v).Dir_attributes)).Xdr(xs)";
  "	(*Cookieverf3)(&((v).Cookieverf)).Xdr(xs)";
  "	(*Dirlist3)(&((v).Reply)).Xdr(xs)";
  "}";
  "func (v *READDIR3resfail) Xdr(xs *xdr.XdrState) {";
  "	(*Post_op_attr)(&((v).Dir_attributes)).Xdr(xs)";
  "}";
  "func (v *READDIR3res) Xdr(xs *xdr.XdrState) {";
  "	(*Nfsstat3)(&((v).Status)).Xdr(xs)";
  "	switch (v).Status {";
  "	case NFS3_OK:";
  "		(*READDIR3resok)(&((v).Resok)).Xdr(xs)";
  "	default:";
  "		(*READDIR3resfail)(&((v).Resfail)).Xdr(xs)";
  "	}";
  "}";
  "func (v *READDIRPLUS3args) Xdr(xs *xdr.XdrState) {";
  "	(*Nfs_fh3)(&((v).Dir)).Xdr(xs)";
  "	(*Cookie3)(&((v).Cookie)).Xdr(xs)";
  "	(*Cookieverf3)(&((v).Cookieverf)).Xdr(xs)";
  "	(*Count3)(&((v).Dircount)).Xdr(xs)";
  "	(*Count3)(&((v).Maxcount)).Xdr(xs)";
  "}";
  "func (v *Entryplus3) Xdr(xs *xdr.XdrState) {";
  "	(*Fileid3)(&((v).Fileid)).Xdr(xs)";
  "	(*Filename3)(&((v).Name)).Xdr(xs)";
  "	(*Cookie3)(&((v).Cookie)).Xdr(xs)";
  "	(*Post_op_attr)(&((v).Name_attributes)).Xdr(xs)";
  "	(*Post_op_fh3)(&((v).Name_handle)).Xdr(xs)";
  "	if xs.Encoding() {";
  "		opted := *(&((v).Nextentry)) != nil";
  "		xdr.XdrBool(xs, (*bool)(&opted))";
  "		if opted {";
  "			(*Entryplus3)(*(&((v).Nextentry))).Xdr(xs)";
  "		}";
  "	}";
  "	if xs.Decoding() {";
  "		var opted bool";
  "		xdr.XdrBool(xs, (*bool)(&opted))";
  "		if opted {";
  "			*(&((v).Nextentry)) = new(Entryplus3)";
  "			(*Entryplus3)(*(&((v).Nextentry))).Xdr(xs)";
  "		}";
  "	}";
  "}";
  "func (v *Dirlistplus3) Xdr(xs *xdr.XdrState) {";
  "	if xs.Encoding() {";
  "		opted := *(&((v).Entries)) != nil";
  "		xdr.XdrBool(xs, (*bool)(&opted))";
  "		if opted {";
  "			(*Entryplus3)(*(&((v).Entries))).Xdr(xs)";
  "		}";
  "	}";
  "	if xs.Decoding() {";
  "		var opted bool";
  "		xdr.XdrBool(xs, (*bool)(&opted))";
  "		if opted {";
  "			*(&((v).Entries)) = new(Entryplus3)";
  "			(*Entryplus3)(*(&((v).Entries))).Xdr(xs)";
  "		}";
  "	}";
  "	xdr.XdrBool(xs, (*bool)(&((v).Eof)))";
  "}";
  "func (v *READDIRPLUS3resok) Xdr(xs *xdr.XdrState) {";
  "	(*Post_op_attr)(&((v).Dir_attributes)).Xdr(xs)";
  "	(*Cookieverf3)(&((v).Cookieverf)).Xdr(xs)";
  "	(*Dirlistplus3)(&((v).Reply)).Xdr(xs)";
  "}";
  "func (v *READDIRPLUS3resfail) Xdr(xs *xdr.XdrState) {";
  "	(*Post_op_attr)(&((v).Dir_attributes)).Xdr(xs)";
  "}";
  "func (v *READDIRPLUS3res) Xdr(xs *xdr.XdrState) {";
  "	(*Nfsstat3)(&((v).Status)).Xdr(xs)";
  "	switch (v).Status {";
  "	case NFS3_OK:";
  "		(*READDIRPLUS3resok)(&((v).Resok)).Xdr(xs)";
  "	default:";
  "		(*READDIRPLUS3resfail)(&((v).Resfail)).Xdr(xs)";
  "	}";
  "}";
  "func (v *FSSTAT3args) Xdr(xs *xdr.XdrState) {";
  "	(*Nfs_fh3)(&((v).Fsroot)).Xdr(xs)";
  "}";
  "func (v *FSSTAT3resok) Xdr(xs *xdr.XdrState) {";
  "	(*Post_op_attr)(&((v).Obj_attributes)).Xdr(xs)";
  "	(*Size3)(&((v).Tbytes)).Xdr(xs)";
  "	(*Size3)(&((v).Fbytes)).Xdr(xs)";
  "	(*Size3)(&((v).Abytes)).Xdr(xs)";
  "	(*Size3)(&((v).Tfiles)).Xdr(xs)";
  "	(*Size3)(&((v).Ffiles)).Xdr(xs)";
  "	(*Size3)(&((v).Afiles)).Xdr(xs)";
  "	(*Uint32)(&((v).Invarsec)).Xdr(xs)";
  "}";
  "func (v *FSSTAT3resfail) Xdr(xs *xdr.XdrState) {";
  "	(*Post_op_attr)(&((v).Obj_attributes)).Xdr(xs)";
  "}";
  "func (v *FSSTAT3res) Xdr(xs *xdr.XdrState) {";
  "	(*Nfsstat3)(&((v).Status)).Xdr(xs)";
  "	switch (v).Status {";
  "	case NFS3_OK:";
  "		(*FSSTAT3resok)(&((v).Resok)).Xdr(xs)";
  "	default:";
  "		(*FSSTAT3resfail)(&((v).Resfail)).Xdr(xs)";
  "	}";
  "}";
  "func (v *FSINFO3args) Xdr(xs *xdr.XdrState) {";
  "	(*Nfs_fh3)(&((v).Fsroot)).Xdr(xs)";
  "}";
  "func (v *FSINFO3resok) Xdr(xs *xdr.XdrState) {";
  "	(*Post_op_attr)(&((v).Obj_attributes)).Xdr(xs)";
  "	(*Uint32)(&((v).Rtmax)).Xdr(xs)";
  "	(*Uint32)(&((v).Rtpref)).Xdr(xs)";
  "	(*Uint32)(&((v).Rtmult)).Xdr(xs)";
  "	(*Uint32)(&((v).Wtmax)).Xdr(xs)";
  "	(*Uint32)(&((v).Wtpref)).Xdr(xs)";
  "	(*Uint32)(&((v).Wtmult)).Xdr(xs)";
  "	(*Uint32)(&((v).Dtpref)).Xdr(xs)";
  "	(*Size3)(&((v).Maxfilesize)).Xdr(xs)";
  "	(*Nfstime3)(&((v).Time_delta)).Xdr(xs)";
  "	(*Uint32)(&((v).Properties)).Xdr(xs)";
  "}";
  "func (v *FSINFO3resfail) Xdr(xs *xdr.XdrState) {";
  "	(*Post_op_attr)(&((v).Obj_attributes)).Xdr(xs)";
  "}";
  "func (v *FSINFO3res) Xdr(xs *xdr.XdrState) {";
  "	(*Nfsstat3)(&((v).Status)).Xdr(xs)";
  "	switch (v).Status {";
  "	case NFS3_OK:";
  "		(*FSINFO3resok)(&((v).Resok)).Xdr(xs)";
  "	default:";
  "		(*FSINFO3resfail)(&((v).Resfail)).Xdr(xs)";
  "	}";
  "}";
  "func (v *PATHCONF3args) Xdr(xs *xdr.XdrState) {";
  "	(*Nfs_fh3)(&((v).Object)).Xdr(xs)";
  "}";
  "func (v *PATHCONF3resok) Xdr(xs *xdr.XdrState) {";
  "	(*Post_op_attr)(&((v).Obj_attributes)).Xdr(xs)";
  "	(*Uint32)(&((v).Linkmax)).Xdr(xs)";
  "	(*Uint32)(&((v).Name_max)).Xdr(xs)";
  "	xdr.XdrBool(xs, (*bool)(&((v).No_trunc)))";
  "	xdr.XdrBool(xs, (*bool)(&((v).Chown_restricted)))";
  "	xdr.XdrBool(xs, (*bool)(&((v).Case_insensitive)))";
  "	xdr.XdrBool(xs, (*bool)(&((v).Case_preserving)))";
  "}";
  "func (v *PATHCONF3resfail) Xdr(xs *xdr.XdrState) {";
  "	(*Post_op_attr)(&((v).Obj_attributes)).Xdr(xs)";
  "}";
  "func (v *PATHCONF3res) Xdr(xs *xdr.XdrState) {";
  "	(*Nfsstat3)(&((v).Status)).Xdr(xs)";
  "	switch (v).Status {";
  "	case NFS3_OK:";
  "		(*PATHCONF3resok)(&((v).Resok)).Xdr(xs)";
  "	default:";
  "		(*PATHCONF3resfail)(&((v).Resfail)).Xdr(xs)";
  "	}";
  "}";
  "func (v *COMMIT3args) Xdr(xs *xdr.XdrState) {";
  "	(*Nfs_fh3)(&((v).File)).Xdr(xs)";
  "	(*Offset3)(&((v).Offset)).Xdr(xs)";
  "	(*Count3)(&((v).Count)).Xdr(xs)";
  "}";
  "func (v *COMMIT3resok) Xdr(xs *xdr.XdrState) {";
  "	(*Wcc_data)(&((v).File_wcc)).Xdr(xs)";
  "	(*Writeverf3)(&((v).Verf)).Xdr(xs)";
  "}";
  "func (v *COMMIT3resfail) Xdr(xs *xdr.XdrState) {";
  "	(*Wcc_data)(&((v).File_wcc)).Xdr(xs)";
  "}";
  "func (v *COMMIT3res) Xdr(xs *xdr.XdrState) {";
  "	(*Nfsstat3)(&((v).Status)).Xdr(xs)";
  "	switch (v).Status {";
  "	case NFS3_OK:";
  "		(*COMMIT3resok)(&((v).Resok)).Xdr(xs)";
  "	default:";
  "		(*COMMIT3resfail)(&((v).Resfail)).Xdr(xs)";
  "	}";
  "}";
  "func (v *Fhandle3) Xdr(xs *xdr.XdrState) {";
  "	xdr.XdrVarArray(xs, int(FHSIZE3), (*[]byte)(v))";
  "}";
  "func (v *Dirpath3) Xdr(xs *xdr.XdrState) {";
  "	xdr.XdrString(xs, int(MNTPATHLEN3), (*string)(v))";
  "}";
  "func (v *Name3) Xdr(xs *xdr.XdrState) {";
  "	xdr.XdrString(xs, int(MNTNAMLEN3), (*string)(v))";
  "}";
  "func (v *Mountstat3) Xdr(xs *xdr.XdrState) {";
  "	xdr.XdrU32(xs, (*uint32)(v))";
  "}";
  "";
  "type MOUNT_PROGRAM_MOUNT_V3_handler interface {";
  "	MOUNTPROC3_NULL()";
  "	MOUNTPROC3_MNT(Dirpath3) Mountres3";
  "	MOUNTPROC3_DUMP() Mountopt3";
  "	MOUNTPROC3_UMNT(Dirpath3)";
  "	MOUNTPROC3_UMNTALL()";
  "	MOUNTPROC3_EXPORT() Exportsopt3";
  "}";
  "type MOUNT_PROGRAM_MOUNT_V3_handler_wrapper struct {";
  "	h MOUNT_PROGRAM_MOUNT_V3_handler";
  "}";
  "";
  "func (w *MOUNT_PROGRAM_MOUNT_V3_handler_wrapper) MOUNTPROC3_NULL(args *xdr.XdrState) (res xdr.Xdrable, err error) {";
  "	var out xdr.Void";
  "	w.h.MOUNTPROC3_NULL()";
  "	return &out, nil";
  "}";
  "func (w *MOUNT_PROGRAM_MOUNT_V3_handler_wrapper) MOUNTPROC3_MNT(args *xdr.XdrState) (res xdr.Xdrable, err error) {";
  "	var in Dirpath3";
  "	in.Xdr(args)";
  "	err = args.Error()";
  "	if err != nil {";
  "		return";
  "	}";
  "	var out Mountres3";
  "	out = w.h.MOUNTPROC3_MNT(in)";
  "	return &out, nil";
  "}";
  "func (w *MOUNT_PROGRAM_MOUNT_V3_handler_wrapper) MOUNTPROC3_DUMP(args *xdr.XdrState) (res xdr.Xdrable, err error) {";
  "	var out Mountopt3";
  "	out = w.h.MOUNTPROC3_DUMP()";
  "	return &out, nil";
  "}";
  "func (w *MOUNT_PROGRAM_MOUNT_V3_handler_wrapper) MOUNTPROC3_UMNT(args *xdr.XdrState) (res xdr.Xdrable, err error) {";
  "	var in Dirpath3";
  "	in.Xdr(args)";
  "	err = args.Error()";
  "	if err != nil {";
  "		return";
  "	}";
  "	var out xdr.Void";
  "	w.h.MOUNTPROC3_UMNT(in)";
  "	return &out, nil";
  "}";
  "func (w *MOUNT_PROGRAM_MOUNT_V3_handler_wrapper) MOUNTPROC3_UMNTALL(args *xdr.XdrState) (res xdr.Xdrable, err error) {";
  "	var out xdr.Void";
  "	w.h.MOUNTPROC3_UMNTALL()";
  "	return &out, nil";
  "}";
  "func (w *MOUNT_PROGRAM_MOUNT_V3_handler_wrapper) MOUNTPROC3_EXPORT(args *xdr.XdrState) (res xdr.Xdrable, err error) {";
  "	var out Exportsopt3";
  "	out = w.h.MOUNTPROC3_EXPORT()";
  "	return &out, nil";
  "}";
  "func MOUNT_PROGRAM_MOUNT_V3_regs(h MOUNT_PROGRAM_MOUNT_V3_handler) []xdr.ProcRegistration {";
  "	w := &MOUNT_PROGRAM_MOUNT_V3_handler_wrapper{h}";
  "	return []xdr.ProcRegistration{";
  "		xdr.ProcRegistration{";
  "			Prog:    MOUNT_PROGRAM,";
  "			Vers:    MOUNT_V3,";
  "			Proc:    MOUNTPROC3_NULL,";
  "			Handler: w.MOUNTPROC3_NULL,";
  "		},";
  "		xdr.ProcRegistration{";
  "			Prog:    MOUNT_PROGRAM,";
  "			Vers:    MOUNT_V3,";
  "			Proc:    MOUNTPROC3_MNT,";
  "			Handler: w.MOUNTPROC3_MNT,";
  "		},";
  "		xdr.ProcRegistration{";
  "			Prog:    MOUNT_PROGRAM,";
  "			Vers:    MOUNT_V3,";
  "			Proc:    MOUNTPROC3_DUMP,";
  "			Handler: w.MOUNTPROC3_DUMP,";
  "		},";
  "		xdr.ProcRegistration{";
  "			Prog:    MOUNT_PROGRAM,";
  "			Vers:    MOUNT_V3,";
  "			Proc:    MOUNTPROC3_UMNT,";
  "			Handler: w.MOUNTPROC3_UMNT,";
  "		},";
  "		xdr.ProcRegistration{";
  "			Prog:    MOUNT_PROGRAM,";
  "			Vers:    MOUNT_V3,";
  "			Proc:    MOUNTPROC3_UMNTALL,";
  "			Handler: w.MOUNTPROC3_UMNTALL,";
  "		},";
  "		xdr.ProcRegistration{";
  "			Prog:    MOUNT_PROGRAM,";
  "			Vers:    MOUNT_V3,";
  "			Proc:    MOUNTPROC3_EXPORT,";
  "			Handler: w.MOUNTPROC3_EXPORT,";
  "		},";
  "	}";
  "}";
  "func (v *Mountres3_ok) Xdr(xs *xdr.XdrState) {";
  "	(*Fhandle3)(&((v).Fhandle)).Xdr(xs)";
  "	{";
  "		var __arraysz uint32";
  "		xs.EncodingSetSize(&__arraysz, len(*&((v).Auth_flavors)))";
  "		xdr.XdrU32(xs, (*uint32)(&__arraysz))";
  "";
  "		if xs.Decoding() {";
  "			*&((v).Auth_flavors) = make([]uint32, __arraysz)";
  "		}";
  "		for i := uint64(0); i < uint64(__arraysz); i++ {";
  "			xdr.XdrU32(xs, (*uint32)(&((*(&((v).Auth_flavors)))[i])))";
  "";
  "		}";
  "	}";
  "}";
  "func (v *Mountres3) Xdr(xs *xdr.XdrState) {";
  "	(*Mountstat3)(&((v).Fhs_status)).Xdr(xs)";
  "	switch (v).Fhs_status {";
  "	case MNT3_OK:";
  "		(*Mountres3_ok)(&((v).Mountinfo)).Xdr(xs)";
  "	default:";
  "	}";
  "}";
  "func (v *Mount3) Xdr(xs *xdr.XdrState) {";
  "	(*Name3)(&((v).Ml_hostname)).Xdr(xs)";
  "	(*Dirpath3)(&((v).Ml_directory)).Xdr(xs)";
  "	if xs.Encoding() {";
  "		opted := *(&((v).Ml_next)) != nil";
  "		xdr.XdrBool(xs, (*bool)(&opted))";
  "		if opted {";
  "			(*Mount3)(*(&((v).Ml_next))).Xdr(xs)";
  "		}";
  "	}";
  "	if xs.Decoding() {";
  "		var opted bool";
  "		xdr.XdrBool(xs, (*bool)(&opted))";
  "		if opted {";
  "			*(&((v).Ml_next)) = new(Mount3)";
  "			(*Mount3)(*(&((v).Ml_next))).Xdr(xs)";
  "		}";
  "	}";
  "}";
  "func (v *Mountopt3) Xdr(xs *xdr.XdrState) {";
  "	if xs.Encoding() {";
  "		opted := *(&v.P) != nil";
  "		xdr.XdrBool(xs, (*bool)(&opted))";
  "		if opted {";
  "			(*Mount3)(*(&v.P)).Xdr(xs)";
  "		}";
  "	}";
  "	if xs.Decoding() {";
  "		var opted bool";
  "		xdr.XdrBool(xs, (*bool)(&opted))";
  "		if opted {";
  "			*(&v.P) = new(Mount3)";
  "			(*Mount3)(*(&v.P)).Xdr(xs)";
  "		}";
  "	}";
  "}";
  "func (v *Groups3) Xdr(xs *xdr.XdrState) {";
  "	(*Name3)(&((v).Gr_name)).Xdr(xs)";
  "	if xs.Encoding() {";
  "		opted := *(&((v).Gr_next)) != nil";
  "		xdr.XdrBool(xs, (*bool)(&opted))";
  "		if opted {";
  "			(*Groups3)(*(&((v).Gr_next))).Xdr(xs)";
  "		}";
  "	}";
  "	if xs.Decoding() {";
  "		var opted bool";
  "		xdr.XdrBool(xs, (*bool)(&opted))";
  "		if opted {";
  "			*(&((v).Gr_next)) = new(Groups3)";
  "			(*Groups3)(*(&((v).Gr_next))).Xdr(xs)";
  "		}";
  "	}";
  "}";
  "func (v *Exports3) Xdr(xs *xdr.XdrState) {";
  "	(*Dirpath3)(&((v).Ex_dir)).Xdr(xs)";
  "	if xs.Encoding() {";
  "		opted := *(&((v).Ex_groups)) != nil";
  "		xdr.XdrBool(xs, (*bool)(&opted))";
  "		if opted {";
  "			(*Groups3)(*(&((v).Ex_groups))).Xdr(xs)";
  "		}";
  "	}";
  "	if xs.Decoding() {";
  "		var opted bool";
  "		xdr.XdrBool(xs, (*bool)(&opted))";
  "		if opted {";
  "			*(&((v).Ex_groups)) = new(Groups3)";
  "			(*Groups3)(*(&((v).Ex_groups))).Xdr(xs)";
  "		}";
  "	}";
  "	if xs.Encoding() {";
  "		opted := *(&((v).Ex_next)) != nil";
  "		xdr.XdrBool(xs, (*bool)(&opted))";
  "		if opted {";
  "			(*Exports3)(*(&((v).Ex_next))).Xdr(xs)";
  "		}";
  "	}";
  "	if xs.Decoding() {";
  "		var opted bool";
  "		xdr.XdrBool(xs, (*bool)(&opted))";
  "		if opted {";
  "			*(&((v).Ex_next)) = new(Exports3)";
  "			(*Exports3)(*(&((v).Ex_next))).Xdr(xs)";
  "		}";
  "	}";
  "}";
  "func (v *Exportsopt3) Xdr(xs *xdr.XdrState) {";
  "	if xs.Encoding() {";
  "		opted := *(&v.P) != nil";
  "		xdr.XdrBool(xs, (*bool)(&opted))";
  "		if opted {";
  "			(*Exports3)(*(&v.P)).Xdr(xs)";
  "		}";
  "	}";
  "	if xs.Decoding() {";
  "		var opted bool";
  "		xdr.XdrBool(xs, (*bool)(&opted))";
  "		if opted {";
  "			*(&v.P) = new(Exports3)";
  "			(*Exports3)(*(&v.P)).Xdr(xs)";
  "		}";
  "	}";
  "}"
].

(** /repo/rfc1813/types.go *)
Definition rfc1813_types_go : string := text [
  "package rfc1813";
  "";
  "const PROGRAM uint32 = 100003";
  "const VERSION uint32 = 3";
  "const NFS3_FHSIZE uint32 = 64";
  "const NFS3_COOKIEVERFSIZE uint32 = 8";
  "const NFS3_CREATEVERFSIZE uint32 = 8";
  "const NFS3_WRITEVERFSIZE uint32 = 8";
  "";
  "type Uint64 uint64";
  "type Uint32 uint32";
  "type Filename3 string";
  "type Nfspath3 string";
  "type Fileid3 Uint64";
  "type Cookie3 Uint64";
  "type Cookieverf3 [NFS3_COOKIEVERFSIZE]byte";
  "type Createverf3 [NFS3_CREATEVERFSIZE]byte";
  "type Writeverf3 [NFS3_WRITEVERFSIZE]byte";
  "type Uid3 Uint32";
  "type Gid3 Uint32";
  "type Size3 Uint64";
  "type Offset3 Uint64";
  "type Mode3 Uint32";
  "type Count3 Uint32";
  "type Nfsstat3 uint32";
  "";
  "const NFS3_OK Nfsstat3 = 0";
  "const NFS3ERR_PERM Nfsstat3 = 1";
  "const NFS3ERR_NOENT Nfsstat3 = 2";
  "const NFS3ERR_IO Nfsstat3 = 5";
  "const NFS3ERR_NXIO Nfsstat3 = 6";
  "const NFS3ERR_ACCES Nfsstat3 = 13";
  "const NFS3ERR_EXIST Nfsstat3 = 17";
  "const NFS3ERR_XDEV Nfsstat3 = 18";
  "const NFS3ERR_NODEV Nfsstat3 = 19";
  "const NFS3ERR_NOTDIR Nfsstat3 = 20";
  "const NFS3ERR_ISDIR Nfsstat3 = 21";
  "const NFS3ERR_INVAL Nfsstat3 = 22";
  "const NFS3ERR_FBIG Nfsstat3 = 27";
  "const NFS3ERR_NOSPC Nfsstat3 = 28";
  "const NFS3ERR_ROFS Nfsstat3 = 30";
  "const NFS3ERR_MLINK Nfsstat3 = 31";
  "const NFS3ERR_NAMETOOLONG Nfsstat3 = 63";
  "const NFS3ERR_NOTEMPTY Nfsstat3 = 66";
  "const NFS3ERR_DQUOT Nfsstat3 = 69";
  "const NFS3ERR_STALE Nfsstat3 = 70";
  "const NFS3ERR_REMOTE Nfsstat3 = 71";
  "const NFS3ERR_BADHANDLE Nfsstat3 = 10001";
  "const NFS3ERR_NOT_SYNC Nfsstat3 = 10002";
  "const NFS3ERR_BAD_COOKIE Nfsstat3 = 10003";
  "const NFS3ERR_NOTSUPP Nfsstat3 = 10004";
  "const NFS3ERR_TOOSMALL Nfsstat3 = 10005";
  "const NFS3ERR_SERVERFAULT Nfsstat3 = 10006";
  "const NFS3ERR_BADTYPE Nfsstat3 = 10007";
  "const NFS3ERR_JUKEBOX Nfsstat3 = 10008";
  "";
  "type Ftype3 uint32";
  "";
  "const NF3REG Ftype3 = 1";
  "const NF3DIR Ftype3 = 2";
  "const NF3BLK Ftype3 = 3";
  "const NF3CHR Ftype3 = 4";
  "const NF3LNK Ftype3 = 5";
  "const NF3SOCK Ftype3 = 6";
  "const NF3FIFO Ftype3 = 7";
  "";
  "type Specdata3 struct {";
  "	Specdata1 Uint32";
  "	Specdata2 Uint32";
  "}";
  "type Nfs_fh3 struct {";
  "	Data []byte";
  "}";
  "type Nfstime3 struct {";
  "	Seconds  Uint32";
  "	Nseconds Uint32";
  "}";
  "type Fattr3 struct {";
  "	Ftype  Ftype3";
  "	Mode   Mode3";
  "	Nlink  Uint32";
  "	Uid    Uid3";
  "	Gid    Gid3";
  "	Size   Size3";
  "	Used   Size3";
  "	Rdev   Specdata3";
  "	Fsid   Uint64";
  "	Fileid Fileid3";
  "	Atime  Nfstime3";
  "	Mtime  Nfstime3";
  "	Ctime  Nfstime3";
  "}";
  "type Post_op_attr struct {";
  "	Attributes_follow bool";
  "	Attributes        Fattr3";
  "}";
  "type Wcc_attr struct {";
  "	Size  Size3";
  "	Mtime Nfstime3";
  "	Ctime Nfstime3";
  "}";
  "type Pre_op_attr struct {";
  "	Attributes_follow bool";
  "	Attributes        Wcc_attr";
  "}";
  "type Wcc_data struct {";
  "	Before Pre_op_attr";
  "	After  Post_op_attr";
  "}";
  "type Post_op_fh3 struct {";
  "	Handle_follows bool";
  "	Handle         Nfs_fh3";
  "}";
  "type Time_how uint32";
  "";
  "const DONT_CHANGE Time_how = 0";
  "const SET_TO_SERVER_TIME Time_how = 1";
  "const SET_TO_CLIENT_TIME Time_how = 2";
  "";
  "type Set_mode3 struct {";
  "	Set_it bool";
  "	Mode   Mode3";
  "}";
  "type Set_uid3 struct {";
  "	Set_it bool";
  "	Uid    Uid3";
  "}";
  "type Set_gid3 struct {";
  "	Set_it bool";
  "	Gid    Gid3";
  "}";
  "type Set_size3 struct {";
  "	Set_it bool";
  "	Size   Size3";
  "}";
  "type Set_atime struct {";
  "	Set_it Time_how";
  "	Atime  Nfstime3";
  "}";
  "type Set_mtime struct {";
  "	Set_it Time_how";
  "	Mtime  Nfstime3";
  "}";
  "type Sattr3 struct {";
  "	Mode  Set_mode3";
  "	Uid   Set_uid3";
  "	Gid   Set_gid3";
  "	Size  Set_size3";
  "	Atime Set_atime";
  "	Mtime Set_mtime";
  "}";
  "type Diropargs3 struct {";
  "	Dir  Nfs_fh3";
  "	Name Filename3";
  "}";
  "";
  "const NFS_PROGRAM uint32 = 100003";
  "const NFS_V3 uint32 = 3";
  "const NFSPROC3_NULL uint32 = 0";
  "const NFSPROC3_GETATTR uint32 = 1";
  "const NFSPROC3_SETATTR uint32 = 2";
  "const NFSPROC3_LOOKUP uint32 = 3";
  "const NFSPROC3_ACCESS uint32 = 4";
  "const NFSPROC3_READLINK uint32 = 5";
  "const NFSPROC3_READ uint32 = 6";
  "const NFSPROC3_WRITE uint32 = 7";
  "const NFSPROC3_CREATE uint32 = 8";
  "const NFSPROC3_MKDIR uint32 = 9";
  "const NFSPROC3_SYMLINK uint32 = 10";
  "const NFSPROC3_MKNOD uint32 = 11";
  "const NFSPROC3_REMOVE uint32 = 12";
  "const NFSPROC3_RMDIR uint32 = 13";
  "const NFSPROC3_RENAME uint32 = 14";
  "const NFSPROC3_LINK uint32 = 15";
  "const NFSPROC3_READDIR uint32 = 16";
  "const NFSPROC3_READDIRPLUS uint32 = 17";
  "const NFSPROC3_FSSTAT uint32 = 18";
  "const NFSPROC3_FSINFO uint32 = 19";
  "const NFSPROC3_PATHCONF uint32 = 20";
  "const NFSPROC3_COMMIT uint32 = 21";
  "";
  "type GETATTR3args struct {";
  "	Object Nfs_fh3";
  "}";
  "type GETATTR3resok struct {";
  "	Obj_attributes Fattr3";
  "}";
  "type GETATTR3res struct {";
  "	Status Nfsstat3";
  "	Resok  GETATTR3resok";
  "}";
  "type Sattrguard3 struct {";
  "	Check     bool";
  "	Obj_ctime Nfstime3";
  "}";
  "type SETATTR3args struct {";
  "	Object         Nfs_fh3";
  "	New_attributes Sattr3";
  "	Guard          Sattrguard3";
  "}";
  "type SETATTR3resok struct {";
  "	Obj_wcc Wcc_data";
  "}";
  "type SETATTR3resfail struct {";
  "	Obj_wcc Wcc_data";
  "}";
  "type SETATTR3res struct {";
  "	Status  Nfsstat3";
  "	Resok   SETATTR3resok";
  "	Resfail SETATTR3resfail";
  "}";
  "type LOOKUP3args struct {";
  "	What Diropargs3";
  "}";
  "type LOOKUP3resok struct {";
  "	Object         Nfs_fh3";
  "	Obj_attributes Post_op_attr";
  "	Dir_attributes Post_op_attr";
  "}";
  "type LOOKUP3resfail struct {";
  "	Dir_attributes Post_op_attr";
  "}";
  "type LOOKUP3res struct {";
  "	Status  Nfsstat3";
  "	Resok   LOOKUP3resok";
  "	Resfail LOOKUP3resfail";
  "}";
  "";
  "const ACCESS3_READ uint32 = 0x0001";
  "const ACCESS3_LOOKUP uint32 = 0x0002";
  "const ACCESS3_MODIFY uint32 = 0x0004";
  "const ACCESS3_EXTEND uint32 = 0x0008";
  "const ACCESS3_DELETE uint32 = 0x0010";
  "const ACCESS3_EXECUTE uint32 = 0x0020";
  "";
  "type ACCESS3args struct {";
  "	Object Nfs_fh3";
  "	Access Uint32";
  "}";
  "type ACCESS3resok struct {";
  "	Obj_attributes Post_op_attr";
  "	Access         Uint32";
  "}";
  "type ACCESS3resfail struct {";
  "	Obj_attributes Post_op_attr";
  "}";
  "type ACCESS3res struct {";
  "	Status  Nfsstat3";
  "	Resok   ACCESS3resok";
  "	Resfail ACCESS3resfail";
  "}";
  "type READLINK3args struct {";
  "	Symlink Nfs_fh3";
  "}";
  "type READLINK3resok struct {";
  "	Symlink_attributes Post_op_attr";
  "	Data               Nfspath3";
  "}";
  "type READLINK3resfail struct {";
  "	Symlink_attributes Post_op_attr";
  "}";
  "type READLINK3res struct {";
  "	Status  Nfsstat3";
  "	Resok   READLINK3resok";
  "	Resfail READLINK3resfail";
  "}";
  "type READ3args struct {";
  "	File   Nfs_fh3";
  "	Offset Offset3";
  "	Count  Count3";
  "}";
  "type READ3resok struct {";
  "	File_attributes Post_op_attr";
  "	Count           Count3";
  "	Eof             bool";
  "	Data            []byte";
  "}";
  "type READ3resfail struct {";
  "	File_attributes Post_op_attr";
  "}";
  "type READ3res struct {";
  "	Status  Nfsstat3";
  "	Resok   READ3resok";
  "	Resfail READ3resfail";
  "}";
  "type Stable_how uint32";
  "";
  "const UNSTABLE Stable_how = 0";
  "const DATA_SYNC Stable_how = 1";
  "const FILE_SYNC Stable_how = 2";
  "";
  "type WRITE3args struct {";
  "	File   Nfs_fh3";
  "	Offset Offset3";
  "	Count  Count3";
  "	Stable Stable_how";
  "	Data   []byte";
  "}";
  "type WRITE3resok struct {";
  "	File_wcc  Wcc_data";
  "	Count     Count3";
  "	Committed Stable_how";
  "	Verf      Writeverf3";
  "}";
  "type WRITE3resfail struct {";
  "	File_wcc Wcc_data";
  "}";
  "type WRITE3res struct {";
  "	Status  Nfsstat3";
  "	Resok   WRITE3resok";
  "	Resfail WRITE3resfail";
  "}";
  "type Createmode3 uint32";
  "";
  "const UNCHECKED Createmode3 = 0";
  "const GUARDED Createmode3 = 1";
  "const EXCLUSIVE Createmode3 = 2";
  "";
  "type Createhow3 struct {";
  "	Mode           Createmode3";
  "	Obj_attributes Sattr3";
  "	Verf           Createverf3";
  "}";
  "type CREATE3args struct {";
  "	Where Diropargs3";
  "	How   Createhow3";
  "}";
  "type CREATE3resok struct {";
  "	Obj            Post_op_fh3";
  "	Obj_attributes Post_op_attr";
  "	Dir_wcc        Wcc_data";
  "}";
  "type CREATE3resfail struct {";
  "	Dir_wcc Wcc_data";
  "}";
  "type CREATE3res struct {";
  "	Status  Nfsstat3";
  "	Resok   CREATE3resok";
  "	Resfail CREATE3resfail";
  "}";
  "type MKDIR3args struct {";
  "	Where      Diropargs3";
  "	Attributes Sattr3";
  "}";
  "type MKDIR3resok struct {";
  "	Obj            Post_op_fh3";
  "	Obj_attributes Post_op_attr";
  "	Dir_wcc        Wcc_data";
  "}";
  "type MKDIR3resfail struct {";
  "	Dir_wcc Wcc_data";
  "}";
  "type MKDIR3res struct {";
  "	Status  Nfsstat3";
  "	Resok   MKDIR3resok";
  "	Resfail MKDIR3resfail";
  "}";
  "type Symlinkdata3 struct {";
  "	Symlink_attributes Sattr3";
  "	Symlink_data       Nfspath3";
  "}";
  "type SYMLINK3args struct {";
  "	Where   Diropargs3";
  "	Symlink Symlinkdata3";
  "}";
  "type SYMLINK3resok struct {";
  "	Obj            Post_op_fh3";
  "	Obj_attributes Post_op_attr";
  "	Dir_wcc        Wcc_data";
  "}";
  "type SYMLINK3resfail struct {";
  "	Dir_wcc Wcc_data";
  "}";
  "type SYMLINK3res struct {";
  "	Status  Nfsstat3";
  "	Resok   SYMLINK3resok";
  "	Resfail SYMLINK3resfail";
  "}";
  "type Devicedata3 struct {";
  "	Dev_attributes Sattr3";
  "	Spec           Specdata3";
  "}";
  "type Mknoddata3 struct {";
  "	Ftype           Ftype3";
  "	Device          Devicedata3";
  "	Pipe_attributes Sattr3";
  "}";
  "type MKNOD3args struct {";
  "	Where Diropargs3";
  "	What  Mknoddata3";
  "}";
  "type MKNOD3resok struct {";
  "	Obj            Post_op_fh3";
  "	Obj_attributes Post_op_attr";
  "	Dir_wcc        Wcc_data";
  "}";
  "type MKNOD3resfail struct {";
  "	Dir_wcc Wcc_data";
  "}";
  "type MKNOD3res struct {";
  "	Status  Nfsstat3";
  "	Resok   MKNOD3resok";
  "	Resfail MKNOD3resfail";
  "}";
  "type REMOVE3args struct {";
  "	Object Diropargs3";
  "}";
  "type REMOVE3resok struct {";
  "	Dir_wcc Wcc_data";
  "}";
  "type REMOVE3resfail struct {";
  "	Dir_wcc Wcc_data";
  "}";
  "type REMOVE3res struct {";
  "	Status  Nfsstat3";
  "	Resok   REMOVE3resok";
  "	Resfail REMOVE3resfail";
  "}";
  "type RMDIR3args struct {";
  "	Object Diropargs3";
  "}";
  "type RMDIR3resok struct {";
  "	Dir_wcc Wcc_data";
  "}";
  "type RMDIR3resfail struct {";
  "	Dir_wcc Wcc_data";
  "}";
  "type RMDIR3res struct {";
  "	Status  Nfsstat3";
  "	Resok   RMDIR3resok";
  "	Resfail RMDIR3resfail";
  "}";
  "type RENAME3args struct {";
  "	From Diropargs3";
  "	To   Diropargs3";
  "}";
  "type RENAME3resok struct {";
  "	Fromdir_wcc Wcc_data";
  "	Todir_wcc   Wcc_data";
  "}";
  "type RENAME3resfail struct {";
  "	Fromdir_wcc Wcc_data";
  "	Todir_wcc   Wcc_data";
  "}";
  "type RENAME3res struct {";
  "	Status  Nfsstat3";
  "	Resok   RENAME3resok";
  "	Resfail RENAME3resfail";
  "}";
  "type LINK3args struct {";
  "	File Nfs_fh3";
  "	Link Diropargs3";
  "}";
  "type LINK3resok struct {";
  "	File_attributes Post_op_attr";
  "	Linkdir_wcc     Wcc_data";
  "}";
  "type LINK3resfail struct {";
  "	File_attributes Post_op_attr";
  "	Linkdir_wcc     Wcc_data";
  "}";
  "type LINK3res struct {";
  "	Status  Nfsstat3";
  "	Resok   LINK3resok";
  "	Resfail LINK3resfail";
  "}";
  "type READDIR3args struct {";
  "	Dir        Nfs_fh3";
  "	Cookie     Cookie3";
  "	Cookieverf Cookieverf3";
  "	Count      Count3";
  "}";
  "type Entry3 struct {";
  "	Fileid    Fileid3";
  "	Name      Filename3";
  "	Cookie    Cookie3";
  "	Nextentry *Entry3";
  "}";
  "type Dirlist3 struct {";
  "	Entries *Entry3";
  "	Eof     bool";
  "}";
  "type READDIR3resok struct {";
  "	Dir_attributes Post_op_attr";
  "	Cookieverf     Cookieverf3";
  "	Reply          Dirlist3";
  "}";
  "type READDIR3resfail struct {";
  "	Dir_attributes Post_op_attr";
  "}";
  "type READDIR3res struct {";
  "	Status  Nfsstat3";
  "	Resok   READDIR3resok";
  "	Resfail READDIR3resfail";
  "}";
  "type READDIRPLUS3args struct {";
  "	Dir        Nfs_fh3";
  "	Cookie     Cookie3";
  "	Cookieverf Cookieverf3";
  "	Dircount   Count3";
  "	Maxcount   Count3";
  "}";
  "type Entryplus3 struct {";
  "	Fileid          Fileid3";
  "	Name            Filename3";
  "	Cookie          Cookie3";
  "	Name_attributes Post_op_attr";
  "	Name_handle     Post_op_fh3";
  "	Nextentry       *Entryplus3";
  "}";
  "type Dirlistplus3 struct {";
  "	Entries *Entryplus3";
  "	Eof     bool";
  "}";
  "type READDIRPLUS3resok struct {";
  "	Dir_attributes Post_op_attr";
  "	Cookieverf     Cookieverf3";
  "	Reply          Dirlistplus3";
  "}";
  "type READDIRPLUS3resfail struct {";
  "	Dir_attributes Post_op_attr";
  "}";
  "type READDIRPLUS3res struct {";
  "	Status  Nfsstat3";
  "	Resok   READDIRPLUS3resok";
  "	Resfail READDIRPLUS3resfail";
  "}";
  "type FSSTAT3args struct {";
  "	Fsroot Nfs_fh3";
  "}";
  "type FSSTAT3resok struct {";
  "	Obj_attributes Post_op_attr";
  "	Tbytes         Size3";
  "	Fbytes         Size3";
  "	Abytes         Size3";
  "	Tfiles         Size3";
  "	Ffiles         Size3";
  "	Afiles         Size3";
  "	Invarsec       Uint32";
  "}";
  "type FSSTAT3resfail struct {";
  "	Obj_attributes Post_op_attr";
  "}";
  "type FSSTAT3res struct {";
  "	Status  Nfsstat3";
  "	Resok   FSSTAT3resok";
  "	Resfail FSSTAT3resfail";
  "}";
  "";
  "const FSF3_LINK uint32 = 0x0001";
  "const FSF3_SYMLINK uint32 = 0x0002";
  "const FSF3_HOMOGENEOUS uint32 = 0x0008";
  "const FSF3_CANSETTIME uint32 = 0x0010";
  "";
  "type FSINFO3args struct {";
  "	Fsroot Nfs_fh3";
  "}";
  "type FSINFO3resok struct {";
  "	Obj_attributes Post_op_attr";
  "	Rtmax          Uint32";
  "	Rtpref         Uint32";
  "	Rtmult         Uint32";
  "	Wtmax          Uint32";
  "	Wtpref         Uint32";
  "	Wtmult         Uint32";
  "	Dtpref         Uint32";
  "	Maxfilesize    Size3";
  "	Time_delta     Nfstime3";
  "	Properties     Uint32";
  "}";
  "type FSINFO3resfail struct {";
  "	Obj_attributes Post_op_attr";
  "}";
  "type FSINFO3res struct {";
  "	Status  Nfsstat3";
  "	Resok   FSINFO3resok";
  "	Resfail FSINFO3resfail";
  "}";
  "type PATHCONF3args struct {";
  "	Object Nfs_fh3";
  "}";
  "type PATHCONF3resok struct {";
  "	Obj_attributes   Post_op_attr";
  "	Linkmax          Uint32";
  "	Name_max         Uint32";
  "	No_trunc         bool";
  "	Chown_restricted bool";
  "	Case_insensitive bool";
  "	Case_preserving  bool";
  "}";
  "type PATHCONF3resfail struct {";
  "	Obj_attributes Post_op_attr";
  "}";
  "type PATHCONF3res struct {";
  "	Status  Nfsstat3";
  "	Resok   PATHCONF3resok";
  "	Resfail PATHCONF3resfail";
  "}";
  "type COMMIT3args struct {";
  "	File   Nfs_fh3";
  "	Offset Offset3";
  "	Count  Count3";
  "}";
  "type COMMIT3resok struct {";
  "	File_wcc Wcc_data";
  "	Verf     Writeverf3";
  "}";
  "type COMMIT3resfail struct {";
  "	File_wcc Wcc_data";
  "}";
  "type COMMIT3res struct {";
  "	Status  Nfsstat3";
  "	Resok   COMMIT3resok";
  "	Resfail COMMIT3resfail";
  "}";
  "";
  "const MNTPATHLEN3 uint32 = 1024";
  "const MNTNAMLEN3 uint32 = 255";
  "const FHSIZE3 uint32 = 64";
  "";
  "type Fhandle3 []byte";
  "type Dirpath3 string";
  "type Name3 string";
  "type Mountstat3 uint32";
  "";
  "const MNT3_OK Mountstat3 = 0";
  "const MNT3ERR_PERM Mountstat3 = 1";
  "const MNT3ERR_NOENT Mountstat3 = 2";
  "const MNT3ERR_IO Mountstat3 = 5";
  "const MNT3ERR_ACCES Mountstat3 = 13";
  "const MNT3ERR_NOTDIR Mountstat3 = 20";
  "const MNT3ERR_INVAL Mountstat3 = 22";
  "const MNT3ERR_NAMETOOLONG Mountstat3 = 63";
  "const MNT3ERR_NOTSUPP Mountstat3 = 10004";
  "const MNT3ERR_SERVERFAULT Mountstat3 = 10006";
  "const MOUNT_PROGRAM uint32 = 100005";
  "const MOUNT_V3 uint32 = 3";
  "const MOUNTPROC3_NULL uint32 = 0";
  "const MOUNTPROC3_MNT uint32 = 1";
  "const MOUNTPROC3_DUMP uint32 = 2";
  "const MOUNTPROC3_UMNT uint32 = 3";
  "const MOUNTPROC3_UMNTALL uint32 = 4";
  "const MOUNTPROC3_EXPORT uint32 = 5";
  "";
  "type Mountres3_ok struct {";
  "	Fhandle      Fhandle3";
  "	Auth_flavors []uint32";
  "}";
  "type Mountres3 struct {";
  "	Fhs_status Mountstat3";
  "	Mountinfo  Mountres3_ok";
  "}";
  "type Mount3 struct {";
  "	Ml_hostname  Name3";
  "	Ml_directory Dirpath3";
  "	Ml_next      *Mount3";
  "}";
  "type Mountopt3 struct{ P *Mount3 }";
  "type Groups3 struct {";
  "	Gr_name Name3";
  "	Gr_next *Groups3";
  "}";
  "type Exports3 struct {";
  "	Ex_dir    Dirpath3";
  "	Ex_groups *Groups3";
  "	Ex_next   *Exports3";
  "}";
  "type Exportsopt3 struct{ P *Exports3 }"
].
