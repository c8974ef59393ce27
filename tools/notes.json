{
 "C55": {
  "status": "proved",
  "note": "Formatting is per file: the types file is formatted after the output file was written; the joint reading is refuted in C55_both_formatted_refuted."
 },
 "C48": {
  "status": "proved",
  "note": "Supported specifications as defined by GElab.supported (names resolve without clashes or shadowing, no nested inline arrays, no fixed arrays other than opaque). The Go subset has the semantics of GoSem.v. The C48_text theorems carry this from the AST to the text written by the generator, read by a model of Go's scanner and grammar (GoLex, GoCst, GoRes)."
 },
 "C49": {
  "status": "proved",
  "note": "C49_every_nesting and C49_text hold for every specification that meets the conditions of C48 except the one on nesting; C49_boundary shows that this condition is the only difference. Bounds (1,1) are excluded, where the code happens to be right, and so are inner elements made of voids only. C49_nested_inline gives a witness that is also encoded and decoded wrongly without a panic."
 },
 "C57": {
  "status": "proved",
  "note": "Computed from the committed prot.x texts. The C57_*_files and _effect theorems are about the committed xdr.go and types.go texts themselves."
 },
 "C56": {
  "status": "proved",
  "note": "Stubs and registration functions as read from the generated (and committed) texts, run with the Go semantics of GoStub.v. Numbers outside uint32 do not compile and are excluded; argument and result types are named types (others do not compile)."
 },
 "C50": {
  "status": "proved",
  "note": "Fixed-size arrays of anything but member-less structs are rejected; for all other declarations C50_typed says exactly which generated packages compile (programs included). Read literally both halves fail in corner cases: C50_every_element_refuted, C50_all_other_refuted give the witnesses."
 },
 "C52": {
  "status": "proved",
  "note": "Over the generated texts read back as Go. TRUE and FALSE are the exception to capitalisation (they become true and false), so e.g. tRUE and TRUE do not collide. A lower-case label or bound is undeclared only if nothing else happens to have the emitted name, which C52_label and C52_bound assume."
 },
 "C58": {
  "status": "proved",
  "note": "The targets run the committed Go text with the semantics of GoSem.v; reflect.DeepEqual is equality of model values (nil and empty slices differ). Types outside the package environments do not occur."
 },
 "C59": {
  "status": "proved",
  "note": "Composition of C56 and C39: handlers are the generated stubs as run by GoStub.v; requests and replies below 2 GiB, arguments and results within their bounds, result variables without pointers; one call at a time per client (concurrent calls are C32)."
 },
 "C60": {
  "status": "proved",
  "note": "The goroutine model of Conc.v (its readings of sync.Pool, Write and Read apply); handlers return for every argument and state, none is nil. Peers whose input ends (EOF or error); a peer that stalls forever is a reader that takes no further action, which C60_ends does not call the end."
 },
 "C61": {
  "status": "proved",
  "note": "The wrapper methods are read as calls of the primitives on the converted receiver."
 },
 "C62": {
  "status": "proved",
  "note": "Net.v joins the client steps of CliConc.v and the server's goroutines of Conc.v by byte queues; one call at a time per client (two on one Client: C32). Messages below 2 GiB (C31). The client's writes do not fail; the server's may, after which its client may wait for ever. Handlers update the shared state in one action (C40 has handlers of many). C62_bounded, C62_returns: no fairness is assumed; every sequence of steps without new calls is finite and ends in returned calls."
 },
 "C63": {
  "status": "proved",
  "note": "ReplySpec.v states messages, verdicts and the ways of a call without reference to the model's decoder. Which XDR error a garbled message gives is left open (C02 lists the decoder's errors). GARBAGE_ARGS covers handlers that behave like generated stubs. Error texts are not modelled, only the numbers in them."
 },
 "C64": {
  "status": "proved",
  "note": "Sequential programs: one client program at a time against the servers (concurrent clients are C62). direct is given as a weakest precondition, so that it covers every representation of an answer. net.Dial succeeds exactly when something listens. The serving loop of the example server is C33, C60 and C62; here it is the end of the program."
 },
 "C65": {
  "status": "proved",
  "note": "The trees run are checked to be the files (tokens and operator grouping). The rules of Go are those of SrcSem.v: int has 64 bits, evaluation left to right, numbers wrap at the width of their type, slices are bounds-checked against the capacity. Slices given to xdrRW and XdrArray must not overlap the buffer of the state (clear). Xdr methods of other packages, called by helper.go, are a parameter."
 },
 "C66": {
  "status": "proved",
  "note": "Run by SrcSem.v like C65. Assumed of functions elsewhere (record meets, SrcRpc.v): package xdr by its text; generated Xdr methods, the connection, io.ReadFull and handlers by the models of Interp.v, Io.v and Server.v; C66_assumptions shows that such functions exist. Arguments and result are different variables."
 },
 "C67": {
  "status": "proved",
  "note": "Run by SrcSem.v like C65 and C66, with the same assumptions (meets) on functions elsewhere. A go statement is recorded as an event; each goroutine is run by itself (C67_handleReq). Interleaving of goroutines is Conc.v (C40, C42). The pool may hand out any buffer or none. The handlers are pure functions from user state and arguments to user state and results, as in Server.v."
 },
 "C68": {
  "status": "proved",
  "note": "The trees run are checked to be the files. The values are those of the actions of xdr.y (uspec, udecl, emit_call) (C70). Writers are a parameter; in C68_generate they append to files. fmt.Fprintf does not fail (failing writes are C55)."
 },
 "C69": {
  "status": "proved",
  "note": "The trees run are checked to be the files (C68_text, C70_text). Functions of flag, os, ioutil, go/format, go/scanner are specified (os_ext, scans); a command line flag.Parse rejects is not modelled. xdrParse is the driver of C72 with any tables that pass lr_ok."
 },
 "C70": {
  "status": "proved",
  "note": "The tree is checked to be the file, token by token but for line ends. Actions are evaluated by MainSem.v; the value of a reduction without $$ = is $1, which nothing reads. Actions of a tree run in the order a bottom-up parser reduces."
 },
 "C71": {
  "status": "proved",
  "note": "The tables shown are made by tools/lalr.py, not goyacc's own; the theorems hold for all tables with items behind them that pass lr_ok. The driver is goyacc's without error recovery (lexer.Error panics)."
 },
 "C72": {
  "status": "proved",
  "note": "goyacc itself is not read: its driver is xdr_parse (tokens on demand, default reductions with or without lookahead, lval as a variable, error recovery left out because lexer.Error panics), its tables any that pass lr_ok. Lex and Error are the text of scan.go, the actions those of xdr.y, run with the text of out.go."
 },
 "C73": {
  "status": "proved",
  "note": "The trees run are checked to be the files. ExSem.v is the meaning of the Go these two files use; net.Dial, Accept, Listen, Call and Printf are what the program asks of the outside. Prog.v keeps the values printed, not the formats. Addresses must be on localhost; xdr.Uint32 and xdr.Bool have the methods of rfc1057.Uint32 and Xbool. Static types are not checked."
 },
 "C74": {
  "status": "proved",
  "note": "GoSemH.v is the interpreter of GoSem.v with Heap.v's library; a method gets its pointee and puts it back, so aliasing is only that of byte slices. Objects behind the interface xdr.Xdrable (arguments and results of Call) are still run by the interpreter of types, in memory (hxdr). Rpc_msg.Xdr runs with fuel 30, shown to be always enough."
 },
 "C75": {
  "status": "proved",
  "note": "GSimK.v repeats the proof of C48 (GSimA-C) over pairs of memory and state, GSimH.v equates its interpreters with GoSemH.v and Heap.v. The fuel is some fuel and all larger ones; that every method returns is C48 and C74."
 },
 "C76": {
  "status": "proved",
  "note": "Composes C66, C67, C74 with C39 and C59. Each goroutine runs with the bytes its buffer had when it was started, in a block of its own (C40 is about the pool and other schedules); the values behind interfaces, the handlers and io.ReadFull are those of C66 and C67. Fuel: some for the server, then some for the client, and all larger ones."
 },
 "C77": {
  "status": "proved",
  "note": "TestAst.v: the trees are those of C65-C67 with composite literals, & of them and function literals added; package xdr is called as the functions of XdrLib.v (tied to their text by C65) and the Xdr methods as in C48 and C58. Not modelled: the testing package itself (scheduling of the targets, mutation of inputs), the messages given to panic, slicing past the length. Go's type checking is not repeated. The second seed of rfc1057 is 8 bytes long: its message type is 2, so the credentials set before it never reach the wire."
 },
 "C78": {
  "status": "proved",
  "note": "NumLit.v states the two grammars as inductive relations; num_val (GoSem.v) is proved to decide the first on digit-headed texts. NumLitC.v: the meaning of a name by the definitions of the specification, proved equal to cval, whose fuel is the number of constants (a chain without repetition is no longer). Whether a value fits its Go type is part of compiles (P_GoType.v). NumLitX.v: the same for the names as a specification has them, up to the types of GElab.v."
 },
 "C79": {
  "status": "proved",
  "note": "Make.v: a reader for the forms of rule the Makefile has, pattern rules, the automatic variables it uses, and FlagSet.Parse; MakeText.v is the file (tools/embed.py). Not modelled: which targets are out of date, the rule that builds the generator, go vet, quoting by the shell. That types.go cannot be made is a defect of the rule: -o $@ should be -o $(@D)/xdr.go."
 }
}