(** Hand-written Go files of /repo, verbatim (made by tools/goast.py). *)
From Coq Require Import List String Ascii.
From Verif Require Import RepoText.
Import ListNotations.
Open Scope string_scope.

(** /repo/xdr/lib.go *)
Definition lib_go : string := text [
  "package xdr";
  "";
  "import (";
  "	""encoding/binary""";
  "	""errors""";
  "	""fmt""";
  "	""math""";
  ")";
  "";
  "type XdrState struct {";
  "	// err != nil means error state";
  "	err error";
  "";
  "	// reader means we are reading; otherwise writing";
  "	reader bool";
  "";
  "	// buf has the data to be read (or already written)";
  "	buf []byte";
  "}";
  "";
  "func MakeReader(buf []byte) *XdrState {";
  "	return &XdrState{";
  "		err:    nil,";
  "		reader: true,";
  "		buf:    buf,";
  "	}";
  "}";
  "";
  "func MakeWriter(buf []byte) *XdrState {";
  "	return &XdrState{";
  "		err:    nil,";
  "		reader: false,";
  "		buf:    buf,";
  "	}";
  "}";
  "";
  "func (xs *XdrState) WriteBuf() []byte {";
  "	return xs.buf";
  "}";
  "";
  "func (xs *XdrState) EncodingSetSize(arraysz *uint32, len int) {";
  "	if xs.err != nil {";
  "		return";
  "	}";
  "";
  "	if xs.reader {";
  "		return";
  "	}";
  "";
  "	if len > math.MaxUint32 {";
  "		xs.SetError(""length too large"")";
  "		return";
  "	}";
  "";
  "	*arraysz = uint32(len)";
  "}";
  "";
  "func (xs *XdrState) Encoding() bool {";
  "	return xs.err == nil && xs.reader == false";
  "}";
  "";
  "func (xs *XdrState) Decoding() bool {";
  "	return xs.err == nil && xs.reader == true";
  "}";
  "";
  "func (xs *XdrState) SetError(s string) {";
  "	xs.err = errors.New(s)";
  "}";
  "";
  "func (xs *XdrState) Error() error {";
  "	return xs.err";
  "}";
  "";
  "func xdrRW(xs *XdrState, v []byte) {";
  "	if xs.err != nil {";
  "		return";
  "	}";
  "";
  "	if xs.reader {";
  "		n := copy(v, xs.buf)";
  "		xs.buf = xs.buf[n:]";
  "";
  "		if n < len(v) {";
  "			xs.err = fmt.Errorf(""Not enough bytes: wanted %d, got %d"", len(v), n)";
  "		}";
  "	} else {";
  "		xs.buf = append(xs.buf, v...)";
  "	}";
  "}";
  "";
  "func xdrR(xs *XdrState, n int) []byte {";
  "	if len(xs.buf) < n {";
  "		xs.err = fmt.Errorf(""Not enough bytes: wanted %d, have %d"", n, len(xs.buf))";
  "	}";
  "";
  "	if xs.err != nil {";
  "		return nil";
  "	}";
  "";
  "	res := xs.buf[:n:n]";
  "	xs.buf = xs.buf[n:]";
  "	return res";
  "}";
  "";
  "func XdrBool(xs *XdrState, v *bool) {";
  "	if xs.err != nil {";
  "		return";
  "	}";
  "";
  "	var buf [4]byte";
  "	if xs.Encoding() {";
  "		if *v {";
  "			binary.BigEndian.PutUint32(buf[:], 1)";
  "		} else {";
  "			binary.BigEndian.PutUint32(buf[:], 0)";
  "		}";
  "	}";
  "";
  "	xdrRW(xs, buf[:])";
  "";
  "	if xs.Decoding() {";
  "		r := binary.BigEndian.Uint32(buf[:])";
  "		if r == 0 {";
  "			*v = false";
  "		} else {";
  "			*v = true";
  "		}";
  "	}";
  "}";
  "";
  "func XdrS32(xs *XdrState, v *int32) {";
  "	if xs.err != nil {";
  "		return";
  "	}";
  "";
  "	var buf [4]byte";
  "	if xs.Encoding() {";
  "		binary.BigEndian.PutUint32(buf[:], uint32(*v))";
  "	}";
  "	xdrRW(xs, buf[:])";
  "	if xs.Decoding() {";
  "		*v = int32(binary.BigEndian.Uint32(buf[:]))";
  "	}";
  "}";
  "";
  "func XdrU32(xs *XdrState, v *uint32) {";
  "	if xs.err != nil {";
  "		return";
  "	}";
  "";
  "	var buf [4]byte";
  "	if xs.Encoding() {";
  "		binary.BigEndian.PutUint32(buf[:], *v)";
  "	}";
  "	xdrRW(xs, buf[:])";
  "	if xs.Decoding() {";
  "		*v = binary.BigEndian.Uint32(buf[:])";
  "	}";
  "}";
  "";
  "func XdrS64(xs *XdrState, v *int64) {";
  "	if xs.err != nil {";
  "		return";
  "	}";
  "";
  "	var buf [8]byte";
  "	if xs.Encoding() {";
  "		binary.BigEndian.PutUint64(buf[:], uint64(*v))";
  "	}";
  "	xdrRW(xs, buf[:])";
  "	if xs.Decoding() {";
  "		*v = int64(binary.BigEndian.Uint64(buf[:]))";
  "	}";
  "}";
  "";
  "func XdrU64(xs *XdrState, v *uint64) {";
  "	if xs.err != nil {";
  "		return";
  "	}";
  "";
  "	var buf [8]byte";
  "	if xs.Encoding() {";
  "		binary.BigEndian.PutUint64(buf[:], *v)";
  "	}";
  "	xdrRW(xs, buf[:])";
  "	if xs.Decoding() {";
  "		*v = binary.BigEndian.Uint64(buf[:])";
  "	}";
  "}";
  "";
  "func XdrVarArray(xs *XdrState, maxlen int, v *[]byte) {";
  "	if xs.err != nil {";
  "		return";
  "	}";
  "";
  "	if xs.Encoding() {";
  "		if len(*v) > math.MaxUint32 || (maxlen >= 0 && len(*v) > maxlen) {";
  "			xs.SetError(""var array too large"")";
  "			return";
  "		}";
  "";
  "		var szbuf [4]byte";
  "		binary.BigEndian.PutUint32(szbuf[:], uint32(len(*v)))";
  "		xdrRW(xs, szbuf[:])";
  "		xdrRW(xs, *v)";
  "	} else {";
  "		var szbuf [4]byte";
  "		xdrRW(xs, szbuf[:])";
  "		sz32 := binary.BigEndian.Uint32(szbuf[:])";
  "		sz := int(sz32)";
  "";
  "		if (maxlen >= 0 && sz > maxlen) || sz < 0 {";
  "			xs.SetError(""var array too large"")";
  "			return";
  "		}";
  "";
  "		*v = xdrR(xs, sz)";
  "	}";
  "";
  "	if len(*v)%4 != 0 {";
  "		xdrRW(xs, make([]byte, (4-len(*v)%4)%4))";
  "	}";
  "}";
  "";
  "func XdrArray(xs *XdrState, v []byte) {";
  "	if xs.err != nil {";
  "		return";
  "	}";
  "";
  "	xdrRW(xs, v)";
  "	if len(v)%4 != 0 {";
  "		xdrRW(xs, make([]byte, (4-len(v)%4)%4))";
  "	}";
  "";
  "	// Check that the padding values are zero?";
  "}";
  "";
  "func XdrString(xs *XdrState, maxlen int, v *string) {";
  "	if xs.err != nil {";
  "		return";
  "	}";
  "";
  "	if xs.Encoding() {";
  "		if len(*v) > math.MaxUint32 || (maxlen >= 0 && len(*v) > maxlen) {";
  "			xs.SetError(""string too large"")";
  "			return";
  "		}";
  "";
  "		var szbuf [4]byte";
  "		binary.BigEndian.PutUint32(szbuf[:], uint32(len(*v)))";
  "		xdrRW(xs, szbuf[:])";
  "";
  "		xdrRW(xs, []byte(*v))";
  "		xdrRW(xs, make([]byte, (4-len(*v)%4)%4))";
  "	} else {";
  "		var szbuf [4]byte";
  "		xdrRW(xs, szbuf[:])";
  "		sz32 := binary.BigEndian.Uint32(szbuf[:])";
  "		sz := int(sz32)";
  "";
  "		if (maxlen >= 0 && sz > maxlen) || sz < 0 {";
  "			xs.SetError(""string too large"")";
  "			return";
  "		}";
  "";
  "		buf := xdrR(xs, sz)";
  "		*v = string(buf)";
  "";
  "		xdrRW(xs, make([]byte, (4-len(*v)%4)%4))";
  "	}";
  "}"
].

(** /repo/xdr/helper.go *)
Definition helper_go : string := text [
  "package xdr";
  "";
  "func EncodeBuf(v Xdrable) (res []byte, err error) {";
  "	x := MakeWriter(nil)";
  "	v.Xdr(x)";
  "	return x.WriteBuf(), x.Error()";
  "}";
  "";
  "func DecodeBuf(buf []byte, v Xdrable) error {";
  "	x := MakeReader(buf)";
  "	v.Xdr(x)";
  "	return x.Error()";
  "}"
].

(** /repo/xdr/types.go *)
Definition xtypes_go : string := text [
  "package xdr";
  "";
  "type Xdrable interface {";
  "	Xdr(xs *XdrState)";
  "}";
  "";
  "type Bool bool";
  "type Uint32 uint32";
  "type Int32 int32";
  "type Uint64 uint64";
  "type Int64 int64";
  "type Void struct{}";
  "";
  "const TRUE Bool = true";
  "const FALSE Bool = false";
  "";
  "func (v *Bool) Xdr(xs *XdrState)   { XdrBool(xs, (*bool)(v)) }";
  "func (v *Uint32) Xdr(xs *XdrState) { XdrU32(xs, (*uint32)(v)) }";
  "func (v *Int32) Xdr(xs *XdrState)  { XdrS32(xs, (*int32)(v)) }";
  "func (v *Uint64) Xdr(xs *XdrState) { XdrU64(xs, (*uint64)(v)) }";
  "func (v *Int64) Xdr(xs *XdrState)  { XdrS64(xs, (*int64)(v)) }";
  "func (v *Void) Xdr(xs *XdrState)   {}";
  "";
  "type ProcRegistration struct {";
  "	Prog    uint32";
  "	Vers    uint32";
  "	Proc    uint32";
  "	Handler func(args *XdrState) (res Xdrable, err error)";
  "}"
].

(** /repo/rfc1057/client.go *)
Definition client_go : string := text [
  "package rfc1057";
  "";
  "import (";
  "	""encoding/binary""";
  "	""fmt""";
  "	""io""";
  "";
  "	""github.com/zeldovich/go-rpcgen/xdr""";
  ")";
  "";
  "type Client struct {";
  "	rw   io.ReadWriter";
  "	xid  uint32";
  "	prog uint32";
  "	vers uint32";
  "}";
  "";
  "func MakeClient(rw io.ReadWriter, prog, vers uint32) *Client {";
  "	return &Client{";
  "		rw:   rw,";
  "		xid:  0,";
  "		prog: prog,";
  "		vers: vers,";
  "	}";
  "}";
  "";
  "func (c *Client) Call(proc uint32, cred, verf Opaque_auth, args xdr.Xdrable, resp xdr.Xdrable) error {";
  "	c.xid++";
  "";
  "	var req Rpc_msg";
  "	req.Xid = c.xid";
  "	req.Body.Mtype = CALL";
  "	req.Body.Cbody.Rpcvers = 2";
  "	req.Body.Cbody.Prog = c.prog";
  "	req.Body.Cbody.Vers = c.vers";
  "	req.Body.Cbody.Proc = proc";
  "	req.Body.Cbody.Cred = cred";
  "	req.Body.Cbody.Verf = verf";
  "";
  "	wr := xdr.MakeWriter(nil)";
  "	req.Xdr(wr)";
  "	err := wr.Error()";
  "	if err != nil {";
  "		return err";
  "	}";
  "";
  "	args.Xdr(wr)";
  "	err = wr.Error()";
  "	if err != nil {";
  "		return err";
  "	}";
  "";
  "	wbuf := wr.WriteBuf()";
  "	var hdr [4]byte";
  "	binary.BigEndian.PutUint32(hdr[:], (1<<31)|uint32(len(wbuf)))";
  "	_, err = c.rw.Write(append(hdr[:], wbuf...))";
  "	if err != nil {";
  "		return err";
  "	}";
  "";
  "	_, err = io.ReadFull(c.rw, hdr[:])";
  "	if err != nil {";
  "		return err";
  "	}";
  "";
  "	hlen := binary.BigEndian.Uint32(hdr[:])";
  "	if hlen&(1<<31) == 0 {";
  "		return fmt.Errorf(""fragments not supported"")";
  "	}";
  "";
  "	buf := make([]byte, hlen&0x7fffffff)";
  "	_, err = io.ReadFull(c.rw, buf)";
  "	if err != nil {";
  "		return err";
  "	}";
  "";
  "	rd := xdr.MakeReader(buf)";
  "	var res Rpc_msg";
  "	res.Xdr(rd)";
  "	err = rd.Error()";
  "	if err != nil {";
  "		return err";
  "	}";
  "";
  "	if res.Xid != req.Xid {";
  "		return fmt.Errorf(""xid mismatch: %d != %d"", res.Xid, req.Xid)";
  "	}";
  "";
  "	if res.Body.Mtype != REPLY {";
  "		return fmt.Errorf(""expected REPLY, got %d"", res.Body.Mtype)";
  "	}";
  "";
  "	if res.Body.Rbody.Stat != MSG_ACCEPTED {";
  "		return fmt.Errorf(""MSG_DENIED stat %d"", res.Body.Rbody.Rreply.Stat)";
  "	}";
  "";
  "	if res.Body.Rbody.Areply.Reply_data.Stat != SUCCESS {";
  "		return fmt.Errorf(""accept_stat %d"", res.Body.Rbody.Areply.Reply_data.Stat)";
  "	}";
  "";
  "	resp.Xdr(rd)";
  "	err = rd.Error()";
  "	if err != nil {";
  "		return err";
  "	}";
  "";
  "	return nil";
  "}"
].

(** /repo/rfc1057/server.go *)
Definition server_go : string := text [
  "package rfc1057";
  "";
  "import (";
  "	""encoding/binary""";
  "	""fmt""";
  "	""io""";
  "	""os""";
  "	""sync""";
  "";
  "	""github.com/zeldovich/go-rpcgen/xdr""";
  ")";
  "";
  "// reqBufPool holds temporary byte slice buffers used for incoming requests.";
  "var reqBufPool sync.Pool";
  "";
  "func getReqBuf(buflen int) []byte {";
  "	bufi := reqBufPool.Get()";
  "	if bufi != nil {";
  "		buf := bufi.([]byte)";
  "		if buflen <= cap(buf) {";
  "			return buf[:buflen]";
  "		}";
  "	}";
  "";
  "	return make([]byte, buflen)";
  "}";
  "";
  "func putReqBuf(s []byte) {";
  "	reqBufPool.Put(s)";
  "}";
  "";
  "type ProcHandler func(args *xdr.XdrState) (res xdr.Xdrable, err error)";
  "";
  "type Server struct {";
  "	handlers map[uint32]map[uint32]map[uint32]ProcHandler";
  "}";
  "";
  "type serverConn struct {";
  "	s  *Server";
  "	rw io.ReadWriter";
  "}";
  "";
  "func MakeServer() *Server {";
  "	return &Server{";
  "		handlers: make(map[uint32]map[uint32]map[uint32]ProcHandler),";
  "	}";
  "}";
  "";
  "func (s *Server) Register(prog, vers, proc uint32, handler ProcHandler) {";
  "	_, progok := s.handlers[prog]";
  "	if !progok {";
  "		s.handlers[prog] = make(map[uint32]map[uint32]ProcHandler)";
  "	}";
  "";
  "	_, versok := s.handlers[prog][vers]";
  "	if !versok {";
  "		s.handlers[prog][vers] = make(map[uint32]ProcHandler)";
  "	}";
  "";
  "	s.handlers[prog][vers][proc] = handler";
  "}";
  "";
  "func (s *Server) RegisterMany(regs []xdr.ProcRegistration) {";
  "	for _, r := range regs {";
  "		s.Register(r.Prog, r.Vers, r.Proc, r.Handler)";
  "	}";
  "}";
  "";
  "func (s *Server) Run(rw io.ReadWriter) error {";
  "	sc := &serverConn{";
  "		s:  s,";
  "		rw: rw,";
  "	}";
  "";
  "	for {";
  "		var hdr [4]byte";
  "		_, err := io.ReadFull(sc.rw, hdr[:])";
  "		if err != nil {";
  "			return err";
  "		}";
  "";
  "		hlen := binary.BigEndian.Uint32(hdr[:])";
  "		if hlen&(1<<31) == 0 {";
  "			return fmt.Errorf(""fragments not supported"")";
  "		}";
  "";
  "		buflen := int(hlen & 0x7fffffff)";
  "		buf := getReqBuf(buflen)";
  "		_, err = io.ReadFull(sc.rw, buf)";
  "		if err != nil {";
  "			return err";
  "		}";
  "";
  "		go sc.handleReq(buf)";
  "	}";
  "}";
  "";
  "func (sc *serverConn) handleReq(buf []byte) {";
  "	defer putReqBuf(buf)";
  "";
  "	err := sc.handleReqErr(buf)";
  "	if err != nil {";
  "		fmt.Fprintf(os.Stderr, ""%v\n"", err)";
  "	}";
  "}";
  "";
  "func (sc *serverConn) handleReqErr(buf []byte) error {";
  "	rd := xdr.MakeReader(buf)";
  "";
  "	var req Rpc_msg";
  "	req.Xdr(rd)";
  "	err := rd.Error()";
  "	if err != nil {";
  "		return err";
  "	}";
  "";
  "	if req.Body.Mtype != CALL {";
  "		return fmt.Errorf(""request mtype %d != CALL"", req.Body.Mtype)";
  "	}";
  "";
  "	var res Rpc_msg";
  "	var resdata xdr.Xdrable";
  "	res.Xid = req.Xid";
  "	res.Body.Mtype = REPLY";
  "";
  "	if req.Body.Cbody.Rpcvers != 2 {";
  "		res.Body.Rbody.Stat = MSG_DENIED";
  "		res.Body.Rbody.Rreply.Stat = RPC_MISMATCH";
  "	} else {";
  "		res.Body.Rbody.Stat = MSG_ACCEPTED";
  "		vermap, progok := sc.s.handlers[req.Body.Cbody.Prog]";
  "		if !progok {";
  "			res.Body.Rbody.Areply.Reply_data.Stat = PROG_UNAVAIL";
  "			goto reply";
  "		}";
  "";
  "		procmap, verok := vermap[req.Body.Cbody.Vers]";
  "		if !verok {";
  "			res.Body.Rbody.Areply.Reply_data.Stat = PROG_MISMATCH";
  "			goto reply";
  "		}";
  "";
  "		h, procok := procmap[req.Body.Cbody.Proc]";
  "		if !procok {";
  "			res.Body.Rbody.Areply.Reply_data.Stat = PROC_UNAVAIL";
  "			goto reply";
  "		}";
  "";
  "		resdata, err = h(rd)";
  "		if err != nil {";
  "			res.Body.Rbody.Areply.Reply_data.Stat = GARBAGE_ARGS";
  "			goto reply";
  "		}";
  "";
  "		res.Body.Rbody.Areply.Reply_data.Stat = SUCCESS";
  "	}";
  "";
  "reply:";
  "	// Reserve 4 bytes at the front for the length";
  "	var reserveLen [4]byte";
  "";
  "	wr := xdr.MakeWriter(reserveLen[:])";
  "	res.Xdr(wr)";
  "	err = wr.Error()";
  "	if err != nil {";
  "		return err";
  "	}";
  "";
  "	if resdata != nil {";
  "		resdata.Xdr(wr)";
  "		err = wr.Error()";
  "		if err != nil {";
  "			return err";
  "		}";
  "	}";
  "";
  "	wbuf := wr.WriteBuf()";
  "	binary.BigEndian.PutUint32(wbuf[0:4], (1<<31)|uint32(len(wbuf)-4))";
  "";
  "	_, err = sc.rw.Write(wbuf)";
  "	return err";
  "}"
].
