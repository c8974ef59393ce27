# Formal model of zeldovich/go-rpcgen in Rocq (Coq 8.16.1)

`properties.jsonl` states the properties, `rocq/theories` holds model and proofs,
`MANIFEST.json` lists the theorems of each property, `seeded/LOG.jsonl` the wrong programs the
theorems were tested against.  Property theorems are in the `P_*.v` files, each closed by
`exact` of a lemma and followed by `Print Assumptions`, with an `Example` meeting the
hypotheses beside it.

## 1. What is modelled

| part of /repo | model | remarks |
| --- | --- | --- |
| `xdr/lib.go` (all functions) | `XdrLib.v`; again with Go's memory in `Heap.v` | `HeapX.v` proves the two agree; `SrcLib*.v` prove it of the text of the file |
| `xdr/helper.go` (EncodeBuf, DecodeBuf) | `Runs.v` (Encode, Decode) | |
| `xdr/types.go` (wrapper types Void, Bool, Uint32, ...) | `XdrTypes.v` | and the tests of `xdr_test.go` for all values; their text: `TestAst.v`, `TestTree.v` |
| what generated `Xdr` methods do | `Types.v`, `Interp.v`, `hxdr` in `Heap.v` | `GSimC.v` proves it of the emitted Go statements, `GoSemHP.v` in a memory with byte slices |
| `scan.go` | `GoLex.v` (go/scanner), `XLex.v` | `MainScan.v` runs the file |
| `xdr.y` | `Gram.v` (grammar and actions as relations), `GParse.v` (a parser) | `GParseP.v`: parser = grammar; `Yacc*.v`: the text of the file |
| `out.go` | `Emit.v` (exact text), `GoAst.v` (syntax trees); `MainText.v`, `MainProg.v` (the file itself) | `GoText.v`, `GoTop.v`: the emitted text has these trees; `MainSem.v` runs the file |
| `main.go` | `Emit.v` (flags, headers), `FileSys.v` (files, failures, kill at any point) | `MainRun.v` runs the file |
| `rfc1057/client.go` | `Client.v`; cut into steps in `CliConc.v` | |
| `rfc1057/server.go` | `Server.v` (one request), `Conc.v` (goroutines, buffer pool, all connections) | |
| `rfc1057/prot.x`, `rfc1813/prot.x`, both `xdr.go` and `types.go` | `RepoText.v` (verbatim, made by `tools/embed.py`) | read by the scanner, parser and Go grammar models |
| `rfc1057/fuzz_test.go`, `rfc1813/fuzz_test.go` | `GenFuzz.v`; text: `TestAst.v`, `TestTree.v` | |
| `example/client/main.go`, `example/server/main.go` | `ExProg.v` on `Prog.v` (programs that dial, call, print); the text: `ExTree.v`, `ExSem.v` (C73) | net.Dial finds a listener or fails; what is printed is the values, not the format; one program at a time |
| `Makefile` | `MakeText.v`, `Make.v` | the rule that runs the generator and its options |
| Go itself, for the emitted subset | `GoLex.v` (tokens), `GoCst.v` (grammar), `GoRes.v`, `GoPkg.v` (names, packages), `GoSem.v`, `GoStub.v` (execution), `GoType.v`, `GoTypeG.v` (typing) | |

Not modelled: the printing of error messages, the parts of the
`Makefile` that build the generator, the internal workings of goyacc and gofmt (see the trusted base), time-outs and
closing of connections by the operating system other than as an error or end of input.

## 2. Specifications the theorems refer to

| file | content |
| --- | --- |
| `Spec.v` | RFC 4506 as an inductive relation `Wire` between values and bytes, with the policies RFC (the standard), ENC (what encoders may emit), DEC (what decoders accept); `same`, `canon`, `bounded` |
| `RpcSpec.v` | RFC 1057 message layouts byte by byte |
| `ReplySpec.v` | kinds of messages, what each means to a waiting client |
| `CallSpec.v`, `ServSpec.v` | observable behaviour of client and server: requests, replies, record marks, registrations |
| `Gram.v`, `GoCst.v` | grammars of .x files and of the Go subset |
| `GElab.v` | the XDR types a specification stands for; which specifications are supported |

## 3. Per-property plan and outcome

* **C01, C02, C13, C20** (primitives): equations for every primitive on reader and writer states (`Prim.v`); the specification is the base-256 value of bytes and explicit padding.  C13 for arrays goes through the interpreter.
* **C03** encoder = `Wire`: soundness by induction on fuel, completeness by induction on `Wire` (`Enc.v`).
* **C04-C08, C11, C19, C21-C23** decoder = `Wire` under the lenient policy (`Dec.v`, `Local.v`, `Canon.v`), corollaries by determinism.  C22 also for the generated text (`GenFuzz.v`).
* **C09** induction on `Wire`.  **C10, C12** induction on fuel.
* **C14-C16** termination without panic: a fuel bound in terms of the input (decode) or the value (encode) (`Total.v`).
* **C17** the interpreter instrumented with a log of allocations (`Alloc.v`).
* **C18** relational induction; the second half is a witness.
* **C24, C25** slices over heap blocks, refinement to the list model, frame lemmas (`HeapP.v`, `HeapX.v`, `HeapS.v`).
* **C26-C31, C45** client over an arbitrary `io.ReadWriter` (`ClientP.v`).  **C32** Call cut into steps; the failure is a concrete schedule.
* **C33-C38, C43, C44, C46** server functions (`ServerP.v`, `ServerQ.v`, `ServerX.v`).  **C39** client and server joined (`E2E.v`).
* **C40-C42** transition system of the whole process; invariants of all reachable states (`ConcP.v`, `ConcQ.v`, `ConcR.v`).  C41's second half is a schedule.
* **C47** scanner, parser and emitter run on the committed files inside Coq (finite domain, exact).
* **C48** simulation: executing the emitted Go (block scoping, addressability, pointers, panics) gives what `Interp.v` says, for every supported specification; then lifted from trees to the text.  **C49** outside the supported class: run of the emitted code by induction on the type, first that indexing past the end is never passed without a panic (`NestC.v`, `NestD.v`), then that a run on values within bounds panics or succeeds (`NestE.v`), then a value built along the path to the arrays (`NestF.v`); `NestG.v` shows the class is exactly the complement; lifted to the text (`NestT.v`).  A witness for silent corruption (`GSimD.v`).
* **C50** typing rules as a checker; `check_spec` shows the emitted package is accepted exactly under explicit conditions on the specification.  Both halves of the plain English claim have corner cases, recorded as `C50_every_element_refuted` and `C50_all_other_refuted`; the property text states what holds.
* **C51, C53, C54** emission as a partial function; parser equals grammar, unique readings; scanner lemmas.
* **C52** over the texts read back as Go (`GoCap.v`).
* **C55** file-system steps with failures and a kill at any point (`FileSysP.v`); the writes of a parse come in any pieces that add up to the texts of `Emit.v`.  That both files are formatted before either is written is false: `C55_both_formatted_refuted`.
* **C56, C59** semantics of stubs and registration functions (`GoStub.v`), composed with the server and client (`GenStub.v`, `E2EGen.v`).
* **C57** the committed packages are instances of the general theorems.
* **C58** the fuzz targets run on the committed texts (`GenFuzz.v`).
* **C60** a measure that every action decreases; handlers that return never make the process crash (`ServerL.v`, `ConcL.v`, `ConcM.v`).
* **C61** the types of xdr/types.go and the statements of xdr_test.go for all values (`XdrTypes.v`).
* **C62** every network state's server half is a reachable configuration of `Conc.v` on the input sent so far, so C40-C42 and C60 apply to it; the order of the calls is the history of `Conc.v` (`Net.v`, `NetP.v`, `NetQ.v`, `NetR.v`); a progress lemma and a decreasing measure (`NetL.v`).
* **C63** the decoded message determines its head and conversely (`ReplyP.v`, from `RpcWire.v`, `RpcDec.v`); the steps of Call are read off its definition; refusals go through the server's decision table and the link of C39 (`ReplyQ.v`).
* **C64** a program's run over connections is simulated by its direct run, call by call, with C63's fates (`ProgP.v`); each request of the examples is checked to be encodable and small, each handle in a decoded result to be short enough to be sent again (`ExProgP.v`); an RFC 1057 portmapper and a file system as instances (`ExProgX.v`).
* **C65** the verbatim text (`SrcText.v`) is scanned to the tokens of a syntax tree (`SrcProg.v`, `SrcTextP.v`); the tree is run by an interpreter for Go (`SrcSem.v`), symbolically, one statement at a time, for each function (`SrcLib.v`, `SrcLibB.v`, `SrcLibC.v`).
* **C66** the same for `rfc1057/client.go`: `SrcRpc.v` states what is assumed of functions elsewhere (record `meets`), `SrcEnv.v` shows that the models meet it, `SrcCli.v` and `SrcCliB.v` run the text in phases.
* **C67** the same for `rfc1057/server.go`: `SrcReg.v` (tables: Go maps of maps of maps against `Server.v`'s association lists), `SrcSrv.v` (the nested lookup with its `goto`), `SrcSrvB.v` (the reply, `handleReqErr`), `SrcRun.v` (buffers, `defer`, the read loop with `go`); `SrcSrvE.v` runs a session.
* **C68** the same for `out.go` with a second, smaller interpreter (`MainSem.v`: values, interfaces, type switches, `defer`, panics, `%s` formats): `MainOut.v` (`goType` and `goXdr` of every type, by induction on the declaration), `MainEmit.v` (the six emit functions), `MainGen.v` (all actions of a source text; `front` only reads names that `i` can capitalise).
* **C69** the same for `scan.go` (`MainScan.v`: the switches of `Lex` as table lookups, one token, then all) and `main.go` (`MainRun.v`: results of system calls are any sequence; statement by statement the history of calls is that of the command of `FileSys.v`; `effs` connects histories with C55).
* **C70** the file as tree (`YaccAst.v`, `YaccProg.v` from `tools/mainast.py`); `YaccSem.v`: each production with its action preserves the meaning of its symbols in terms of `Gram.v` (`good`, `all_good`), and each rule of `Gram.v` has a tree.
* **C71** `YaccLR.v`: tables, driver, check; `YaccLRP.v`: complete by induction on the tree (items with lookahead travel along), sound by an invariant of the stack, ending by ranks; `YaccTab.v` from `tools/lalr.py`.
* **C72** `YaccRun.v`: the driver reads a token when it needs one, through the text of `Lex`; each step of it is a step of the automaton of C71 (`sim`), a reduction of a definition makes the writes of C68 at once; an error stops it after the writes of the definitions reduced before.  C69 uses it.
* **C73** `ExText.v`, `ExTree.v` (from `tools/goast.py`), `ExSem.v`: an interpreter with continuations that yields the tree of requests to the outside; `ExRunC.v`, `ExRunS.v` step it (by head normal form) beside the programs of `ExProg.v`, the loops by induction; `reads_remote`: what a text is read as is unique up to runs.
* **C74** `GoSemH.v`: the interpreter of `GoSem.v` over the memory of `Heap.v`; `GoSemHP.v`: it simulates `GoSem.v` step by step, with the frame conditions of `HeapP.v` (`hstep`, `safe`); `GoSemHM.v`: more fuel, same result; `GoFit.v`, `FlatT.v`: a method without loops ends within a fuel read off the text; `MsgText.v`: the record `meets` of C66 with the committed text in the place of the model; `MsgTextE.v`: examples.
* **C75** `GSimK.v`: the proof of C48 (`GSimA.v`–`GSimC.v`) once more, with pairs of memory and state in the place of states; `GSimH.v`: its interpreters are those of `GoSemH.v` and `Heap.v`; `SliceText.v`: C24 and C25 for the texts; `SliceTextE.v`: examples.
* **C76** `TextE2E.v`: `server_text` (the server program as text, from the bytes that came in) does what `link_conn` of C39 does with the model server, by C67 and induction over the requests; the text of Call over `text_conn` then does what Call does there, by C74. `TextE2EX.v`: generated registrations (from C59) and an example.
* **C77** `TestText.v`, `TestTree.v`: the three test files and their trees, equal token for token. `TestAst.v`: an interpreter for them (variables and blocks, assertions, f.Add, f.Fuzz). `TestP.v`: more fuel changes no run that ended; the function given to f.Fuzz does the steps of C58, whose proof is repeated with the value the encoder left (C10: it is the one passed); the unit tests by C61, with any literal. `TestQ.v`: which calls are assertions, by cases on the call.
* **C78** `NumLit.v`: integer literals by the grammar of the Go specification and the constants of RFC 4506, as inductive relations; `num_val` of `GoSem.v` decides the first. `NumLitC.v`: what a name means by the definitions of a specification; induction on the chain of constants, shortened where a name repeats, shows that `cval` computes it. `NumLitX.v`: the same for names as the specification has them, with the limits and labels of `GElab.v`.
* **C79** `MakeText.v`, `Make.v`: the Makefile as text, its rules, the words of a command and how package flag reads them. Expansion and cutting into words are proved for all plain directory names by induction; with C69 and C47 this gives the files make leaves, for one directory and for the default target, which runs the generator twice. When output and types file are one, every run of `main` ends at the second creation of the temporary file.

Findings about the code made on the way are section 5.

## 4. Trusted base

**Kernel.**  Coq 8.16.1's kernel, including its `vm_compute` evaluator.  `Print Assumptions`
reports "Closed under the global context" for every theorem in every `P_*.v` file: no axioms
are used.  `coqchk -o` lists axioms of loaded library files that no theorem depends on
(`Coq.ssr.ssrunder.*`, opaque fields of ssreflect's module `Under_rel`).

**The reading of the code.**  Each definition cites the lines it models.  In particular:

* Go's `int` is 64 bits (lib.go compares an `int` with MaxUint32, which does not compile on 32 bits).
* Go values are trees; sharing matters only for `[]byte`, which `Heap.v` treats (`append`'s growth is an arbitrary function that gives enough room).  `GoSem.v`: a method gets its pointee and puts it back.
* Connections are arbitrary functions from states to read/write results; `io.ReadFull` as documented.  In `Conc.v` a Write is one indivisible action (as for `net.Conn`) that delivers all, or a prefix and an error after which nothing more is delivered; a Read returns any non-empty prefix of what is there.
* `sync.Pool`: Get returns some stored item or nil; items may vanish at any time.
* A panic ends the process.  Handlers are arbitrary functions (or arbitrary steps in C40) of the request bytes and a shared state.  Memory is sequentially consistent at the granularity of `Conc.v`'s actions.
* go/scanner: modelled in `GoLex.v`; bytes outside ASCII are not letters; comments, literals and automatic semicolons as documented.
* goyacc: the generated LALR parser is an automaton for the grammar of `xdr.y` (that `Gram.v` is this grammar is C70, that all such automata parse alike C71).
* gofmt: formats exactly the texts that are Go files by the grammar, and does not change tokens; where the model needs more (what happens on failure) it is a parameter.
* File system (`FileSys.v`): one run at a time; a path names one file; each system call succeeds or fails atomically; a kill happens between calls.
* The embedded files of `RepoText.v` and `SrcText.v` are the committed ones (`tools/embed.py` and `tools/goast.py` make them from /repo).
* `SrcSem.v` is the meaning of the Go statements that the hand-written files use (C65, C66, C67): evaluation left to right, arithmetic at the width of the type, bounds checks, `append`, `copy` and `make` on blocks of bytes, variables that pointers refer to.  Static types are not checked; a program that does not compile has no meaning there.  That a tree with the file's tokens, grouped by precedence, is the one Go reads is by inspection of `SrcAst.v`.
* `MainSem.v` is the same for package main (C68, C69): values are immutable, slices are values (package main never writes to an element), integers do not overflow, formats have `%s` only, `strings.ToUpper` is defined on ASCII.  That the actions of `xdr.y` make the calls of `emit_call` is C70: the file is read (by the token rules of Go, line ends dropped) as a grammar with actions, a derivation is a tree, `$n` is the value of the n-th part.  What goyacc itself does is not read: C71 speaks about all automata that pass `lr_ok`, with goyacc's driver.  In C69 the functions of `flag`, `os`, `ioutil`, `go/format` and `go/scanner` are `os_ext` and `scans`, and the goyacc parser is the driver `xdr_parse` of C72; a command line that `flag.Parse` rejects is not modelled.
* `ExSem.v` is the same for the example programs (C73): values are immutable but for variables whose address a call is given, `:=` declares anew, deferred calls run latest first on return and on panic, `go srv.Run(conn)` is a request to serve.  What net, fmt and package rfc1057 do with the requests is `Prog.v` (C64).
* Typing (`GoType.v`, `GoTypeG.v`): the Go specification's rules for the emitted forms; integer constants are not accepted for floating-point types; repeated bool labels are accepted, repeated integer labels are not (the gc compiler's choice); an interface is assignable only to itself; a type of the specification is never one of the generated interfaces or wrappers (name clashes are reported as errors).
* `reflect.DeepEqual` on codec values is equality of model values (nil and empty slices differ), as documented.

**What theorems do not say.**  Nothing about speed, memory use beyond C17, fairness of the
scheduler (C60 bounds the number of actions under any schedule), or behaviour after a panic.

## 5. Findings

* A fixed-size array of anything but opaque bytes is emitted as `&(*(P)[i])`, which does not compile unless the element has no encoding (C50).  Nested inline variable arrays compile but panic or corrupt data (C49).
* An absent optional leaves the old pointer of a reused variable in place (C18); a decoder allocates 2^32-1 elements for a short input (C17).
* Messages of 2 GiB or more get a wrong record mark, on both sides (C31).
* Two concurrent calls on one Client can exchange results (C32); a handler that keeps argument bytes sees them change (C41).
* A nil handler crashes the process (C34); a result that cannot be encoded gives no reply at all (C35).  Version mismatch replies say 0..0 (C38).  A handler that returns a result and an error sends GARBAGE_ARGS followed by the result (C46).  A reply_stat that is neither accepted nor denied is reported as "MSG_DENIED stat 0" (C63).  The example client and server do not work together: the server registers no procedure, so the client panics at its first call (C64).
* `const X = 09;` is accepted by the .x scanner, but gofmt fails on types.go after xdr.go has been overwritten (C55).  Errors of `Fprintf` to the temporary files are ignored.
* Lower-case constants as case labels and lower-case enumerators as bounds refer to undeclared names; names that differ in the case of the first letter collide (C52).
* Specifications the generator accepts whose output does not compile: primitive or inline types as program arguments or results; a program with two versions sharing a procedure name; a version without procedures; only constants in a specification (unused import); program, version or procedure numbers above 2^32-1; repeated labels; a member named `xdr` or `_`; `const type = ...`; enumerators as array bounds (C50_typed gives the exact conditions).  `quadruple` makes the generator panic (C51).
