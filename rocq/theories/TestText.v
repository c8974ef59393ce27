(** Tests of /repo, verbatim (made by tools/goast.py). *)
From Coq Require Import List String Ascii.
From Verif Require Import RepoText.
Import ListNotations.
Open Scope string_scope.

(** /repo/xdr/xdr_test.go *)
Definition xdr_test_go : string := text [
  "package xdr";
  "";
  "import (";
  "	""testing""";
  "";
  "	""github.com/stretchr/testify/assert""";
  ")";
  "";
  "func TestXdrString(t *testing.T) {";
  "	xw := MakeWriter(nil)";
  "	s := ""hello""";
  "	XdrString(xw, 100, &s)";
  "	assert.NoError(t, xw.Error())";
  "	buf := xw.WriteBuf()";
  "";
  "	xr := MakeReader(buf)";
  "	var newString string";
  "	XdrString(xr, 100, &newString)";
  "	assert.NoError(t, xr.Error())";
  "	assert.Equal(t, s, newString)";
  "}";
  "";
  "func TestLargeStringLength(t *testing.T) {";
  "	xw := MakeWriter(nil)";
  "	s := ""hello world""";
  "	XdrString(xw, 100, &s)";
  "	buf := xw.WriteBuf()";
  "	// cut off the actual string (but leave the length as len(s))";
  "	//";
  "	// 6 is enough for the length prefix (4 bytes) and a little bit for the";
  "	// string";
  "	buf = buf[:6]";
  "";
  "	xr := MakeReader(buf)";
  "	var newString string";
  "	XdrString(xr, 100, &newString)";
  "	assert.Error(t, xr.Error())";
  "}";
  "";
  "func TestXdrVarArray(t *testing.T) {";
  "	xw := MakeWriter(nil)";
  "	v := []byte{1, 2, 3}";
  "	XdrVarArray(xw, 100, &v)";
  "	assert.NoError(t, xw.Error())";
  "	buf := xw.WriteBuf()";
  "";
  "	xr := MakeReader(buf)";
  "	var newArray []byte";
  "	XdrVarArray(xr, 100, &newArray)";
  "	assert.NoError(t, xr.Error())";
  "	assert.Equal(t, v, newArray)";
  "}";
  "";
  "func TestLargeVarArrayLength(t *testing.T) {";
  "	xw := MakeWriter(nil)";
  "	v := []byte{1, 2, 3, 4, 5, 6, 7, 8, 9, 10}";
  "	XdrVarArray(xw, 100, &v)";
  "	buf := xw.WriteBuf()";
  "	buf = buf[:6]";
  "";
  "	xr := MakeReader(buf)";
  "	var newArray []byte";
  "	XdrVarArray(xr, 100, &newArray)";
  "	assert.Error(t, xr.Error())";
  "}"
].

(** /repo/rfc1057/fuzz_test.go *)
Definition rfc1057_fuzz_go : string := text [
  "package rfc1057";
  "";
  "import (";
  "	""fmt""";
  "	""reflect""";
  "	""testing""";
  "";
  "	""github.com/zeldovich/go-rpcgen/xdr""";
  ")";
  "";
  "func FuzzDecodeEncode(f *testing.F) {";
  "	var m Rpc_msg";
  "	res, err := xdr.EncodeBuf(&m)";
  "	if err != nil {";
  "		panic(err)";
  "	}";
  "	f.Add(res)";
  "";
  "	m.Xid = 1";
  "	m.Body.Mtype = 2";
  "	m.Body.Cbody.Rpcvers = 3";
  "	m.Body.Cbody.Prog = 4";
  "	m.Body.Cbody.Cred.Flavor = AUTH_UNIX";
  "	m.Body.Cbody.Cred.Body = []byte{1, 2, 3, 4}";
  "	res, err = xdr.EncodeBuf(&m)";
  "	if err != nil {";
  "		panic(err)";
  "	}";
  "	f.Add(res)";
  "";
  "	f.Add([]byte{})";
  "";
  "	f.Fuzz(func(t *testing.T, data []byte) {";
  "		var x Rpc_msg";
  "";
  "		err := xdr.DecodeBuf(data, &x)";
  "		if err != nil {";
  "			return";
  "		}";
  "";
  "		var res []byte";
  "		res, err = xdr.EncodeBuf(&x)";
  "		if err != nil {";
  "			panic(err)";
  "		}";
  "";
  "		var y Rpc_msg";
  "		xdr.DecodeBuf(res, &y)";
  "		if !reflect.DeepEqual(x, y) {";
  "			panic(fmt.Sprintf(""%+v does not roundtrip; got %+v"", x, y))";
  "		}";
  "	})";
  "}"
].

(** /repo/rfc1813/fuzz_test.go *)
Definition rfc1813_fuzz_go : string := text [
  "package rfc1813";
  "";
  "import (";
  "	""fmt""";
  "	""reflect""";
  "	""testing""";
  "";
  "	""github.com/zeldovich/go-rpcgen/xdr""";
  ")";
  "";
  "func FuzzDecodeEncode(f *testing.F) {";
  "	var r READDIRPLUS3res";
  "	res, err := xdr.EncodeBuf(&r)";
  "	if err != nil {";
  "		panic(err)";
  "	}";
  "	f.Add(res)";
  "";
  "	r.Resok.Reply.Entries = &Entryplus3{}";
  "	r.Resok.Reply.Entries.Nextentry = &Entryplus3{}";
  "	res, err = xdr.EncodeBuf(&r)";
  "	if err != nil {";
  "		panic(err)";
  "	}";
  "	f.Add(res)";
  "";
  "	f.Add([]byte{})";
  "";
  "	f.Fuzz(func(t *testing.T, data []byte) {";
  "		var x READDIRPLUS3res";
  "		err := xdr.DecodeBuf(data, &x)";
  "		if err != nil {";
  "			return";
  "		}";
  "";
  "		var res []byte";
  "		res, err = xdr.EncodeBuf(&x)";
  "		if err != nil {";
  "			panic(err)";
  "		}";
  "";
  "		var y READDIRPLUS3res";
  "		xdr.DecodeBuf(res, &y)";
  "		if !reflect.DeepEqual(x, y) {";
  "			panic(fmt.Sprintf(""%+v does not roundtrip; got %+v"", x, y))";
  "		}";
  "	})";
  "}"
].
