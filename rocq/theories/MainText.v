(** The hand-written files of package main of /repo, verbatim (made by tools/mainast.py). *)
From Coq Require Import List String Ascii.
From Verif Require Import RepoText.
Import ListNotations.
Open Scope string_scope.

(** /repo/out.go *)
Definition out_go : string := text [
  "package main";
  "";
  "import (";
  "	""fmt""";
  "	""strings""";
  ")";
  "";
  "func i(ident string) string {";
  "	switch ident {";
  "	case ""TRUE"":";
  "		return ""true""";
  "	case ""FALSE"":";
  "		return ""false""";
  "	default:";
  "		return strings.ToUpper(ident[:1]) + ident[1:]";
  "	}";
  "}";
  "";
  "type decl interface{}";
  "";
  "type declVoid struct {";
  "}";
  "";
  "type declName struct {";
  "	t declType";
  "	n string";
  "}";
  "";
  "type declType interface {";
  "	goType() string";
  "	goXdr(valPtr string) string";
  "}";
  "";
  "type declTypeTypespec struct {";
  "	t typespec";
  "}";
  "";
  "func (t declTypeTypespec) goType() string {";
  "	return t.t.goType()";
  "}";
  "";
  "func (t declTypeTypespec) goXdr(valPtr string) string {";
  "	return t.t.goXdr(valPtr)";
  "}";
  "";
  "type declTypeArray struct {";
  "	t  typespec";
  "	sz string";
  "}";
  "";
  "func (t declTypeArray) goType() string {";
  "	return fmt.Sprintf(""[%s]%s"", t.sz, t.t.goType())";
  "}";
  "";
  "func (t declTypeArray) goXdr(valPtr string) string {";
  "	var res string";
  "	res += fmt.Sprintf(""for i := 0; i < %s; i++ {\n"", t.sz)";
  "	res += fmt.Sprintf(""%s\n"", t.t.goXdr(fmt.Sprintf(""&(*(%s)[i])"", valPtr)))";
  "	res += fmt.Sprintf(""}\n"")";
  "	return res";
  "}";
  "";
  "type declTypeVarArray struct {";
  "	t  typespec";
  "	sz string";
  "}";
  "";
  "func (t declTypeVarArray) goType() string {";
  "	return fmt.Sprintf(""[]%s"", t.t.goType())";
  "}";
  "";
  "func (t declTypeVarArray) goXdr(valPtr string) string {";
  "	var res string";
  "	res += fmt.Sprintf(""{\n"")";
  "	res += fmt.Sprintf(""var __arraysz uint32\n"")";
  "	res += fmt.Sprintf(""xs.EncodingSetSize(&__arraysz, len(*%s));\n"", valPtr)";
  "	res += fmt.Sprintf(""%s\n"", typeInt{true}.goXdr(""&__arraysz""))";
  "	if t.sz != """" {";
  "		res += fmt.Sprintf(""if __arraysz > %s { xs.SetError(\""array too large\"") } else {\n"", t.sz)";
  "	}";
  "	res += fmt.Sprintf(""if xs.Decoding() { *%s = make([]%s, __arraysz); }\n"", valPtr, t.t.goType())";
  "	res += fmt.Sprintf(""for i := uint64(0); i < uint64(__arraysz); i++ {\n"")";
  "	res += fmt.Sprintf(""%s\n"", t.t.goXdr(fmt.Sprintf(""&((*(%s))[i])"", valPtr)))";
  "	res += fmt.Sprintf(""}\n"")";
  "	if t.sz != """" {";
  "		res += fmt.Sprintf(""}\n"")";
  "	}";
  "	res += fmt.Sprintf(""}\n"")";
  "	return res";
  "}";
  "";
  "type declTypeOpaqueArray struct {";
  "	sz string";
  "}";
  "";
  "func (t declTypeOpaqueArray) goType() string {";
  "	return fmt.Sprintf(""[%s]byte"", t.sz)";
  "}";
  "";
  "func (t declTypeOpaqueArray) goXdr(valPtr string) string {";
  "	return fmt.Sprintf(""xdr.XdrArray(xs, (*%s)[:]);\n"", valPtr)";
  "}";
  "";
  "type declTypeOpaqueVarArray struct {";
  "	sz string";
  "}";
  "";
  "func (t declTypeOpaqueVarArray) goType() string {";
  "	return ""[]byte""";
  "}";
  "";
  "func (t declTypeOpaqueVarArray) goXdr(valPtr string) string {";
  "	sz := t.sz";
  "	if sz == """" {";
  "		sz = ""-1""";
  "	}";
  "	return fmt.Sprintf(""xdr.XdrVarArray(xs, int(%s), (*[]byte)(%s));\n"", sz, valPtr)";
  "}";
  "";
  "type declTypeString struct {";
  "	sz string";
  "}";
  "";
  "func (t declTypeString) goType() string {";
  "	return ""string""";
  "}";
  "";
  "func (t declTypeString) goXdr(valPtr string) string {";
  "	sz := t.sz";
  "	if sz == """" {";
  "		sz = ""-1""";
  "	}";
  "	return fmt.Sprintf(""xdr.XdrString(xs, int(%s), (*string)(%s));\n"", sz, valPtr)";
  "}";
  "";
  "type declTypePtr struct {";
  "	t typespec";
  "}";
  "";
  "func (t declTypePtr) goType() string {";
  "	return fmt.Sprintf(""*%s"", t.t.goType())";
  "}";
  "";
  "func (t declTypePtr) goXdr(valPtr string) string {";
  "	var res string";
  "	res += fmt.Sprintf(""if xs.Encoding() {\n"")";
  "	res += fmt.Sprintf(""opted := *(%s) != nil\n"", valPtr)";
  "	res += typeBool{}.goXdr(""&opted"")";
  "	res += fmt.Sprintf(""if opted {\n"")";
  "	res += t.t.goXdr(fmt.Sprintf(""*(%s)"", valPtr))";
  "	res += fmt.Sprintf(""}\n"")";
  "	res += fmt.Sprintf(""}\n"")";
  "";
  "	res += fmt.Sprintf(""if xs.Decoding() {\n"")";
  "	res += fmt.Sprintf(""var opted bool\n"")";
  "	res += typeBool{}.goXdr(""&opted"")";
  "	res += fmt.Sprintf(""if opted {\n"")";
  "	res += fmt.Sprintf(""*(%s) = new(%s)\n"", valPtr, t.t.goType())";
  "	res += t.t.goXdr(fmt.Sprintf(""*(%s)"", valPtr))";
  "	res += fmt.Sprintf(""}\n"")";
  "	res += fmt.Sprintf(""}\n"")";
  "	return res";
  "}";
  "";
  "type typespec interface {";
  "	goType() string";
  "	goXdr(valPtr string) string";
  "}";
  "";
  "type typespecOpt struct {";
  "	isVoid bool";
  "	t      typespec";
  "}";
  "";
  "func (t typespecOpt) maybeGoType() string {";
  "	if t.isVoid {";
  "		return """"";
  "	}";
  "";
  "	return t.t.goType()";
  "}";
  "";
  "type typeInt struct {";
  "	unsig bool";
  "}";
  "";
  "func (t typeInt) goType() string {";
  "	if t.unsig {";
  "		return ""uint32""";
  "	} else {";
  "		return ""int32""";
  "	}";
  "}";
  "";
  "func (t typeInt) goXdr(valPtr string) string {";
  "	if t.unsig {";
  "		return fmt.Sprintf(""xdr.XdrU32(xs, (*uint32)(%s));\n"", valPtr)";
  "	} else {";
  "		return fmt.Sprintf(""xdr.XdrS32(xs, (*int32)(%s));\n"", valPtr)";
  "	}";
  "}";
  "";
  "type typeHyper struct {";
  "	unsig bool";
  "}";
  "";
  "func (t typeHyper) goType() string {";
  "	if t.unsig {";
  "		return ""uint64""";
  "	} else {";
  "		return ""int64""";
  "	}";
  "}";
  "";
  "func (t typeHyper) goXdr(valPtr string) string {";
  "	if t.unsig {";
  "		return fmt.Sprintf(""xdr.XdrU64(xs, (*uint64)(%s));\n"", valPtr)";
  "	} else {";
  "		return fmt.Sprintf(""xdr.XdrS64(xs, (*int64)(%s));\n"", valPtr)";
  "	}";
  "}";
  "";
  "type typeFloat struct{}";
  "";
  "func (t typeFloat) goType() string             { return ""float32"" }";
  "func (t typeFloat) goXdr(valPtr string) string { panic(""x"") }";
  "";
  "type typeDouble struct{}";
  "";
  "func (t typeDouble) goType() string             { return ""float64"" }";
  "func (t typeDouble) goXdr(valPtr string) string { panic(""x"") }";
  "";
  "type typeQuadruple struct{}";
  "";
  "func (t typeQuadruple) goType() string             { panic(""quadruple"") }";
  "func (t typeQuadruple) goXdr(valPtr string) string { panic(""x"") }";
  "";
  "type typeBool struct{}";
  "";
  "func (t typeBool) goType() string { return ""bool"" }";
  "func (t typeBool) goXdr(valPtr string) string {";
  "	return fmt.Sprintf(""xdr.XdrBool(xs, (*bool)(%s));\n"", valPtr)";
  "}";
  "";
  "type typeEnum struct {";
  "	items []enumItem";
  "}";
  "";
  "func (t typeEnum) goType() string             { return ""int32"" }";
  "func (t typeEnum) goXdr(valPtr string) string { panic(""x"") }";
  "";
  "func declToNameGotype(d decl) string {";
  "	switch v := d.(type) {";
  "	case declName:";
  "		return fmt.Sprintf(""%s %s;"", i(v.n), v.t.goType())";
  "	}";
  "";
  "	return """"";
  "}";
  "";
  "type typeStruct struct {";
  "	items []decl";
  "}";
  "";
  "func (t typeStruct) goType() string {";
  "	res := ""struct { """;
  "	for _, i := range t.items {";
  "		res += declToNameGotype(i)";
  "	}";
  "	res += ""}""";
  "	return res";
  "}";
  "";
  "func (t typeStruct) goXdr(valPtr string) string {";
  "	var res string";
  "	for _, v := range t.items {";
  "		switch v := v.(type) {";
  "		case declName:";
  "			res += v.t.goXdr(fmt.Sprintf(""&((%s).%s)"", valPtr, i(v.n)))";
  "		}";
  "	}";
  "	return res";
  "}";
  "";
  "type typeUnion struct {";
  "	switchDecl decl";
  "	cases      unionCasesDef";
  "}";
  "";
  "func (t typeUnion) goType() string {";
  "	res := ""struct { """;
  "	res += declToNameGotype(t.switchDecl)";
  "	for _, i := range t.cases.cases {";
  "		res += declToNameGotype(i.body)";
  "	}";
  "	if t.cases.def != nil {";
  "		res += declToNameGotype(t.cases.def)";
  "	}";
  "	res += ""}""";
  "	return res";
  "}";
  "";
  "func (t typeUnion) goXdr(valPtr string) string {";
  "	var res string";
  "	var switchName string";
  "	switch v := t.switchDecl.(type) {";
  "	case declVoid:";
  "		panic(""void union switch"")";
  "	case declName:";
  "		switchName = fmt.Sprintf(""(%s).%s"", valPtr, i(v.n))";
  "		res += v.t.goXdr(fmt.Sprintf(""&(%s)"", switchName))";
  "	}";
  "	res += fmt.Sprintf(""switch %s {\n"", switchName)";
  "	for _, c := range t.cases.cases {";
  "		for idx, cval := range c.cases {";
  "			res += fmt.Sprintf(""case %s:\n"", i(cval))";
  "			if idx != len(c.cases)-1 {";
  "				res += ""fallthrough\n""";
  "			}";
  "		}";
  "		switch v := c.body.(type) {";
  "		case declName:";
  "			res += v.t.goXdr(fmt.Sprintf(""&((%s).%s)"", valPtr, i(v.n)))";
  "		}";
  "	}";
  "	if t.cases.def != nil {";
  "		res += ""default:\n""";
  "		switch v := t.cases.def.(type) {";
  "		case declName:";
  "			res += v.t.goXdr(fmt.Sprintf(""&((%s).%s)"", valPtr, i(v.n)))";
  "		}";
  "	}";
  "	res += ""}\n""";
  "	return res";
  "}";
  "";
  "type typeIdent struct {";
  "	n string";
  "}";
  "";
  "func (t typeIdent) goType() string { return i(t.n) }";
  "func (t typeIdent) goXdr(valPtr string) string {";
  "	return fmt.Sprintf(""(*%s)(%s).Xdr(xs);\n"", i(t.n), valPtr)";
  "}";
  "";
  "type enumItem struct {";
  "	name string";
  "	val  string";
  "}";
  "";
  "type unionCasesDef struct {";
  "	cases []unionCaseDecl";
  "	def   decl";
  "}";
  "";
  "type unionCaseDecl struct {";
  "	cases []string";
  "	body  decl";
  "}";
  "";
  "type progCall struct {";
  "	name string";
  "	arg  typespecOpt";
  "	res  typespecOpt";
  "	id   string";
  "}";
  "";
  "type progVer struct {";
  "	name  string";
  "	calls []progCall";
  "	id    string";
  "}";
  "";
  "type progDef struct {";
  "	name string";
  "	vers []progVer";
  "	id   string";
  "}";
  "";
  "func emitProg(d progDef) {";
  "	fmt.Fprintf(tout, ""const %s uint32 = %s\n"", i(d.name), d.id)";
  "	for _, v := range d.vers {";
  "		fmt.Fprintf(tout, ""const %s uint32 = %s\n"", i(v.name), v.id)";
  "";
  "		for _, c := range v.calls {";
  "			fmt.Fprintf(tout, ""const %s uint32 = %s\n"", i(c.name), c.id)";
  "		}";
  "";
  "		fmt.Fprintf(out, ""type %s_%s_handler interface {\n"", i(d.name), i(v.name))";
  "		for _, c := range v.calls {";
  "			fmt.Fprintf(out, ""%s(%s) %s\n"", i(c.name), c.arg.maybeGoType(), c.res.maybeGoType())";
  "		}";
  "		fmt.Fprintf(out, ""}\n"")";
  "";
  "		fmt.Fprintf(out, ""type %s_%s_handler_wrapper struct {\n"", i(d.name), i(v.name))";
  "		fmt.Fprintf(out, ""h %s_%s_handler\n"", i(d.name), i(v.name))";
  "		fmt.Fprintf(out, ""}\n"")";
  "";
  "		for _, c := range v.calls {";
  "			fmt.Fprintf(out, ""func (w *%s_%s_handler_wrapper) %s(args *xdr.XdrState) (res xdr.Xdrable, err error) {\n"",";
  "				i(d.name), i(v.name), i(c.name))";
  "			if !c.arg.isVoid {";
  "				fmt.Fprintf(out, ""var in %s\n"", c.arg.t.goType())";
  "				fmt.Fprintf(out, ""in.Xdr(args)\n"")";
  "				fmt.Fprintf(out, ""err = args.Error()\n"")";
  "				fmt.Fprintf(out, ""if err != nil { return }\n"")";
  "			}";
  "";
  "			if !c.res.isVoid {";
  "				fmt.Fprintf(out, ""var out %s\n"", c.res.t.goType())";
  "			} else {";
  "				fmt.Fprintf(out, ""var out xdr.Void\n"")";
  "			}";
  "";
  "			if !c.res.isVoid {";
  "				fmt.Fprintf(out, ""out = "")";
  "			}";
  "			fmt.Fprintf(out, ""w.h.%s("", i(c.name))";
  "			if !c.arg.isVoid {";
  "				fmt.Fprintf(out, ""in"")";
  "			}";
  "			fmt.Fprintf(out, "")\n"")";
  "";
  "			fmt.Fprintf(out, ""return &out, nil"")";
  "			fmt.Fprintf(out, ""}\n"")";
  "		}";
  "";
  "		fmt.Fprintf(out, ""func %s_%s_regs(h %s_%s_handler) []xdr.ProcRegistration {\n"", i(d.name), i(v.name), i(d.name), i(v.name))";
  "		fmt.Fprintf(out, ""w := &%s_%s_handler_wrapper{h}\n"", i(d.name), i(v.name))";
  "		fmt.Fprintf(out, ""return []xdr.ProcRegistration{\n"")";
  "		for _, c := range v.calls {";
  "			fmt.Fprintf(out, ""xdr.ProcRegistration{\n"")";
  "			fmt.Fprintf(out, ""Prog: %s,\n"", i(d.name))";
  "			fmt.Fprintf(out, ""Vers: %s,\n"", i(v.name))";
  "			fmt.Fprintf(out, ""Proc: %s,\n"", i(c.name))";
  "			fmt.Fprintf(out, ""Handler: w.%s,\n"", i(c.name))";
  "			fmt.Fprintf(out, ""},\n"")";
  "		}";
  "		fmt.Fprintf(out, ""}\n"")";
  "		fmt.Fprintf(out, ""}\n"")";
  "	}";
  "}";
  "";
  "func emitConst(ident string, val string) {";
  "	fmt.Fprintf(tout, ""const %s %s = %s\n"", ident, *constTypeFlag, val)";
  "}";
  "";
  "func emitTypedef(val decl) {";
  "	switch v := val.(type) {";
  "	case declName:";
  "		// Pointers get wrapped in an extra level of struct at";
  "		// the top level, so that we can define a pointer receiver";
  "		// on them.";
  "		goType := v.t.goType()";
  "		goRef := ""v""";
  "		switch v.t.(type) {";
  "		case declTypePtr:";
  "			goType = fmt.Sprintf(""struct { P %s }"", goType)";
  "			goRef = ""&v.P""";
  "		}";
  "";
  "		fmt.Fprintf(tout, ""type %s %s\n"", i(v.n), goType)";
  "";
  "		fmt.Fprintf(out, ""func (v *%s) Xdr(xs *xdr.XdrState) {\n"", i(v.n))";
  "		fmt.Fprintf(out, ""%s"", v.t.goXdr(goRef))";
  "		fmt.Fprintf(out, ""}\n"")";
  "	}";
  "}";
  "";
  "func emitEnum(ident string, val []enumItem) {";
  "	t := ""int32""";
  "	if *unsignedEnumFlag {";
  "		t = ""uint32""";
  "	}";
  "";
  "	fmt.Fprintf(tout, ""type %s %s\n"", i(ident), t)";
  "";
  "	fmt.Fprintf(out, ""func (v *%s) Xdr(xs *xdr.XdrState) {\n"", i(ident))";
  "	fmt.Fprintf(out, ""%s"", typeInt{*unsignedEnumFlag}.goXdr(""v""))";
  "	fmt.Fprintf(out, ""}\n"")";
  "";
  "	for _, v := range val {";
  "		fmt.Fprintf(tout, ""const %s %s = %s\n"", i(v.name), i(ident), v.val)";
  "	}";
  "}";
  "";
  "func emitStruct(ident string, val []decl) {";
  "	fmt.Fprintf(tout, ""type %s struct {\n"", i(ident))";
  "	for _, v := range val {";
  "		switch v := v.(type) {";
  "		case declName:";
  "			fmt.Fprintf(tout, ""  %s %s;\n"", i(v.n), v.t.goType())";
  "		}";
  "	}";
  "	fmt.Fprintf(tout, ""}\n"")";
  "";
  "	fmt.Fprintf(out, ""func (v *%s) Xdr(xs *xdr.XdrState) {\n"", i(ident))";
  "	fmt.Fprintf(out, ""%s"", typeStruct{val}.goXdr(""v""))";
  "	fmt.Fprintf(out, ""}\n"")";
  "}";
  "";
  "func emitUnion(ident string, val typeUnion) {";
  "	fmt.Fprintf(tout, ""type %s %s\n"", i(ident), val.goType())";
  "";
  "	fmt.Fprintf(out, ""func (v *%s) Xdr(xs *xdr.XdrState) {\n"", i(ident))";
  "	fmt.Fprintf(out, ""%s"", val.goXdr(""v""))";
  "	fmt.Fprintf(out, ""}\n"")";
  "}"
].

(** /repo/scan.go *)
Definition scan_go : string := text [
  "package main";
  "";
  "//go:generate goyacc -o xdr.go -p xdr xdr.y";
  "";
  "import (";
  "	""fmt""";
  "	""go/scanner""";
  "	""go/token""";
  ")";
  "";
  "type lexer struct {";
  "	s scanner.Scanner";
  "}";
  "";
  "const eof = 0";
  "";
  "func (l *lexer) Lex(lval *xdrSymType) int {";
  "	pos, tok, lit := l.s.Scan()";
  "	if tok == token.EOF {";
  "		return eof";
  "	}";
  "";
  "	if *debugFlag {";
  "		fmt.Printf(""pos=%v, tok=%v, lit=%v\n"", pos, tok, lit)";
  "	}";
  "";
  "	switch tok {";
  "	case token.CONST:";
  "		return KWCONST";
  "";
  "	case token.STRUCT:";
  "		return KWSTRUCT";
  "";
  "	case token.TYPE:";
  "		lval.str = ""type""";
  "		return IDENT";
  "";
  "	case token.SWITCH:";
  "		return KWSWITCH";
  "";
  "	case token.CASE:";
  "		return KWCASE";
  "";
  "	case token.DEFAULT:";
  "		return KWDEFAULT";
  "";
  "	case token.MAP:";
  "		lval.str = ""map""";
  "		return IDENT";
  "";
  "	case token.IDENT:";
  "		switch lit {";
  "		case ""typedef"":";
  "			return KWTYPEDEF";
  "";
  "		case ""enum"":";
  "			return KWENUM";
  "";
  "		case ""union"":";
  "			return KWUNION";
  "";
  "		case ""void"":";
  "			return KWVOID";
  "";
  "		case ""string"":";
  "			return KWSTRING";
  "";
  "		case ""opaque"":";
  "			return KWOPAQUE";
  "";
  "		case ""unsigned"":";
  "			return KWUNSIGNED";
  "";
  "		case ""int"":";
  "			return KWINT";
  "";
  "		case ""hyper"":";
  "			return KWHYPER";
  "";
  "		case ""float"":";
  "			return KWFLOAT";
  "";
  "		case ""double"":";
  "			return KWDOUBLE";
  "";
  "		case ""quadruple"":";
  "			return KWQUADRUPLE";
  "";
  "		case ""bool"":";
  "			return KWBOOL";
  "";
  "		case ""program"":";
  "			return KWPROGRAM";
  "";
  "		case ""version"":";
  "			return KWVERSION";
  "";
  "		default:";
  "			lval.str = lit";
  "			return IDENT";
  "		}";
  "";
  "	case token.ASSIGN:";
  "		return '='";
  "";
  "	case token.SEMICOLON:";
  "		return ';'";
  "";
  "	case token.COLON:";
  "		return ':'";
  "";
  "	case token.LSS:";
  "		return '<'";
  "";
  "	case token.GTR:";
  "		return '>'";
  "";
  "	case token.LBRACK:";
  "		return '['";
  "";
  "	case token.RBRACK:";
  "		return ']'";
  "";
  "	case token.LBRACE:";
  "		return '{'";
  "";
  "	case token.RBRACE:";
  "		return '}'";
  "";
  "	case token.COMMA:";
  "		return ','";
  "";
  "	case token.LPAREN:";
  "		return '('";
  "";
  "	case token.RPAREN:";
  "		return ')'";
  "";
  "	case token.MUL:";
  "		return '*'";
  "";
  "	case token.INT:";
  "		lval.str = lit";
  "		return CONST";
  "";
  "	default:";
  "		fmt.Printf(""NOT HANDLED: pos=%v, tok=%v, lit=%v\n"", pos, tok, lit)";
  "		panic(""token not handled"")";
  "	}";
  "}";
  "";
  "func (l *lexer) Error(e string) {";
  "	panic(e)";
  "}"
].

(** /repo/main.go *)
Definition main_go : string := text [
  "package main";
  "";
  "import (";
  "	""flag""";
  "	""fmt""";
  "	""go/format""";
  "	""go/token""";
  "	""io""";
  "	""io/ioutil""";
  "	""os""";
  ")";
  "";
  "var inputFile = flag.String(""i"", """", ""Input file (.x)"")";
  "var outputFile = flag.String(""o"", """", ""Output file (.go)"")";
  "var outputPackage = flag.String(""p"", ""main"", ""Output package name"")";
  "var typesFile = flag.String(""t"", """", ""Output file for separate type definitions (optional"")";
  "var debugFlag = flag.Bool(""d"", false, ""Debug parsing"")";
  "var unsignedEnumFlag = flag.Bool(""unsigned-enum"", false, ""Unsigned integer enum types"")";
  "var constTypeFlag = flag.String(""const-type"", """", ""Optional type for const definitions"")";
  "";
  "var out io.Writer";
  "var tout io.Writer";
  "";
  "func main() {";
  "	flag.Parse()";
  "";
  "	if *inputFile == """" {";
  "		fmt.Fprintf(os.Stderr, ""Must specify input file (-i)\n"")";
  "		os.Exit(1)";
  "	}";
  "";
  "	if *outputFile == """" {";
  "		fmt.Fprintf(os.Stderr, ""Must specify output file (-o)\n"")";
  "		os.Exit(1)";
  "	}";
  "";
  "	src, err := ioutil.ReadFile(*inputFile)";
  "	if err != nil {";
  "		panic(err)";
  "	}";
  "";
  "	fset := token.NewFileSet()";
  "	f := fset.AddFile(*inputFile, -1, len(src))";
  "";
  "	var l lexer";
  "	l.s.Init(f, src, nil, 0)";
  "";
  "	outTmp := *outputFile + "".tmp""";
  "	outf, err := os.OpenFile(outTmp, os.O_WRONLY|os.O_EXCL|os.O_CREATE|os.O_TRUNC, 0666)";
  "	if err != nil {";
  "		panic(err)";
  "	}";
  "";
  "	defer os.Remove(outTmp)";
  "	out = outf";
  "";
  "	fmt.Fprintf(out, ""package %s\n"", *outputPackage)";
  "	fmt.Fprintf(out, ""import \""github.com/zeldovich/go-rpcgen/xdr\""\n"")";
  "";
  "	var toutTmp string";
  "	var toutf *os.File";
  "	if *typesFile != """" {";
  "		toutTmp = *typesFile + "".tmp""";
  "		toutf, err = os.OpenFile(toutTmp, os.O_WRONLY|os.O_EXCL|os.O_CREATE|os.O_TRUNC, 0666)";
  "		if err != nil {";
  "			panic(err)";
  "		}";
  "";
  "		defer os.Remove(toutTmp)";
  "		tout = toutf";
  "";
  "		fmt.Fprintf(tout, ""package %s\n"", *outputPackage)";
  "	} else {";
  "		tout = outf";
  "	}";
  "";
  "	xdrParse(&l)";
  "	outf.Close()";
  "	refmt(outTmp, *outputFile)";
  "";
  "	if *typesFile != """" {";
  "		toutf.Close()";
  "		refmt(toutTmp, *typesFile)";
  "	}";
  "}";
  "";
  "func refmt(infile string, outfile string) {";
  "	buf, err := ioutil.ReadFile(infile)";
  "	if err != nil {";
  "		panic(err)";
  "	}";
  "";
  "	buf, err = format.Source(buf)";
  "	if err != nil {";
  "		panic(err)";
  "	}";
  "";
  "	err = ioutil.WriteFile(outfile, buf, 0666)";
  "	if err != nil {";
  "		panic(err)";
  "	}";
  "}"
].

(** /repo/xdr.y *)
Definition xdr_y : string := text [
  "%{";
  "package main";
  "%}";
  "";
  "%union {";
  "  decl decl;";
  "  typespec typespec;";
  "  str string;";
  "  bool bool;";
  "  enumItem enumItem;";
  "  enumItems []enumItem;";
  "  decls []decl;";
  "  typeUnion typeUnion;";
  "  unionCasesDef unionCasesDef;";
  "  unionCaseDecls []unionCaseDecl;";
  "  unionCaseDecl unionCaseDecl;";
  "  strs []string;";
  "  progCall progCall;";
  "  progCalls []progCall;";
  "  progVer progVer;";
  "  progVers []progVer;";
  "  typespecOpt typespecOpt;";
  "}";
  "";
  "%token KWCONST";
  "%token KWTYPEDEF";
  "%token KWENUM";
  "%token KWSTRUCT";
  "%token KWUNION";
  "%token KWSWITCH";
  "%token KWCASE";
  "%token KWDEFAULT";
  "%token KWVOID";
  "%token KWOPAQUE";
  "%token KWSTRING";
  "%token KWUNSIGNED";
  "%token KWINT";
  "%token KWHYPER";
  "%token KWFLOAT";
  "%token KWDOUBLE";
  "%token KWQUADRUPLE";
  "%token KWBOOL";
  "%token KWPROGRAM";
  "%token KWVERSION";
  "%token <str> CONST";
  "%token <str> IDENT";
  "%token '='";
  "%token ';'";
  "%token '<'";
  "%token '>'";
  "%token '['";
  "%token ']'";
  "%token '{'";
  "%token '}'";
  "%token ','";
  "%token ':'";
  "%token '*'";
  "";
  "%type <decl> decl";
  "%type <typespec> typespec enumtypespec structtypespec uniontypespec";
  "%type <str> val varlen";
  "%type <bool> maybeunsig";
  "%type <enumItem> enumitem";
  "%type <enumItems> enumbody enumitems";
  "%type <decls> structbody structdecls";
  "%type <typeUnion> unionbody";
  "%type <unionCasesDef> unioncasesdef";
  "%type <unionCaseDecls> unioncases";
  "%type <unionCaseDecl> unioncase";
  "%type <strs> caselist";
  "%type <progCall> progcall";
  "%type <progCalls> progcalls";
  "%type <progVers> progvers";
  "%type <progVer> progver";
  "%type <typespecOpt> typespecopt";
  "";
  "%%";
  "";
  "spec: | spec defn";
  "";
  "defn: typedef | constdef | progdef";
  "";
  "decl: typespec IDENT";
  "  { $$ = declName{declTypeTypespec{$1}, $2} }";
  "| typespec IDENT '[' val ']'";
  "  { $$ = declName{declTypeArray{$1, $4}, $2} }";
  "| typespec IDENT varlen";
  "  { $$ = declName{declTypeVarArray{$1, $3}, $2} }";
  "| KWOPAQUE IDENT '[' val ']'";
  "  { $$ = declName{declTypeOpaqueArray{$4}, $2} }";
  "| KWOPAQUE IDENT varlen";
  "  { $$ = declName{declTypeOpaqueVarArray{$3}, $2} }";
  "| KWSTRING IDENT varlen";
  "  { $$ = declName{declTypeString{$3}, $2} }";
  "| typespec '*' IDENT";
  "  { $$ = declName{declTypePtr{$1}, $3} }";
  "| KWVOID";
  "  { $$ = declVoid{} }";
  "";
  "varlen: '<' '>'";
  "  { $$ = """" }";
  "| '<' val '>'";
  "  { $$ = $2 }";
  "";
  "val: CONST";
  "  { $$ = $1 }";
  "| IDENT";
  "  { $$ = $1 }";
  "";
  "typespec: maybeunsig KWINT";
  "  { $$ = typeInt{$1} }";
  "| maybeunsig KWHYPER";
  "  { $$ = typeHyper{$1} }";
  "| KWFLOAT";
  "  { $$ = typeFloat{} }";
  "| KWDOUBLE";
  "  { $$ = typeDouble{} }";
  "| KWQUADRUPLE";
  "  { $$ = typeQuadruple{} }";
  "| KWBOOL";
  "  { $$ = typeBool{} }";
  "| enumtypespec";
  "  { $$ = $1 }";
  "| structtypespec";
  "  { $$ = $1 }";
  "| uniontypespec";
  "  { $$ = $1 }";
  "| IDENT";
  "  { $$ = typeIdent{$1} }";
  "";
  "maybeunsig: { $$ = false } | KWUNSIGNED { $$ = true }";
  "";
  "enumtypespec: KWENUM enumbody";
  "  { $$ = typeEnum{$2} }";
  "";
  "enumbody: '{' enumitems '}'";
  "  { $$ = $2 }";
  "";
  "enumitems: enumitem";
  "  { $$ = []enumItem{$1} }";
  "| enumitems ',' enumitem";
  "  { $$ = append($1, $3) }";
  "";
  "enumitem: IDENT '=' val";
  "  { $$ = enumItem{$1, $3} }";
  "";
  "structtypespec: KWSTRUCT structbody";
  "  { $$ = typeStruct{$2} }";
  "";
  "structbody: '{' structdecls '}'";
  "  { $$ = $2 }";
  "";
  "structdecls: { $$ = nil } | structdecls decl ';'";
  "  { $$ = append($1, $2) }";
  "";
  "uniontypespec: KWUNION unionbody";
  "  { $$ = $2 }";
  "";
  "unionbody: KWSWITCH '(' decl ')' '{' unioncasesdef '}'";
  "  { $$ = typeUnion{switchDecl: $3, cases: $6} }";
  "";
  "unioncasesdef: unioncases";
  "  { $$ = unionCasesDef{$1, nil} }";
  "| unioncases KWDEFAULT ':' decl ';'";
  "  { $$ = unionCasesDef{$1, $4} }";
  "";
  "unioncases: { $$ = nil } | unioncases unioncase";
  "  { $$ = append($1, $2) }";
  "";
  "unioncase: caselist decl ';'";
  "  { $$ = unionCaseDecl{$1, $2} }";
  "";
  "caselist: KWCASE val ':'";
  "  { $$ = []string{$2} }";
  "| caselist KWCASE val ':'";
  "  { $$ = append($1, $3) }";
  "";
  "constdef: KWCONST IDENT '=' CONST ';'";
  "  { emitConst($2, $4) }";
  "";
  "typedef: KWTYPEDEF decl ';'";
  "  { emitTypedef($2) }";
  "| KWENUM IDENT enumbody ';'";
  "  { emitEnum($2, $3) }";
  "| KWSTRUCT IDENT structbody ';'";
  "  { emitStruct($2, $3) }";
  "| KWUNION IDENT unionbody ';'";
  "  { emitUnion($2, $3) }";
  "";
  "progdef: KWPROGRAM IDENT '{' progvers '}' '=' CONST ';'";
  "  { emitProg(progDef{$2, $4, $7}) }";
  "";
  "progvers: { $$ = nil } | progvers progver";
  "  { $$ = append($1, $2) }";
  "";
  "progver: KWVERSION IDENT '{' progcalls '}' '=' CONST ';'";
  "  { $$ = progVer{$2, $4, $7} }";
  "";
  "progcalls: { $$ = nil } | progcalls progcall";
  "  { $$ = append($1, $2) }";
  "";
  "progcall: typespecopt IDENT '(' typespecopt ')' '=' CONST ';'";
  "  { $$ = progCall{$2, $4, $1, $7} }";
  "";
  "typespecopt: KWVOID";
  "  { $$ = typespecOpt{ isVoid: true } }";
  "| typespec";
  "  { $$ = typespecOpt{ isVoid: false, t: $1 } }";
  "";
  "%%";
  ""
].
