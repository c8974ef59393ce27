{"id": "C01", "title": "Primitive codecs round-trip in context", "statement": "For every bool, int32, uint32, int64, uint64, fixed opaque, variable opaque and string value within its length limit, writing it with the Xdr* primitive and reading the bytes back with the same primitive yields the same value, reports no error, and leaves exactly the bytes that followed it in the buffer unread.", "quantifier": "every value of each primitive type, every maxlen, every buffer already written before it and every byte string following it", "why_tests_cant": "2^32/2^64 values and unboundedly many strings, contexts and limits", "anchors": ["xdr/lib.go: XdrBool, XdrS32, XdrU32, XdrS64, XdrU64, XdrVarArray, XdrArray, XdrString", "xdr/types.go"]}
{"id": "C02", "title": "Primitive wire format is RFC 4506", "statement": "The bytes appended by each primitive are exactly those RFC 4506 prescribes: 4- or 8-byte big-endian two's complement integers, booleans as 0/1, opaque data as its bytes followed by the 0-3 zero bytes that reach a multiple of four, and variable-length data preceded by its 4-byte length.", "quantifier": "every value of every primitive type", "why_tests_cant": "needs every integer and every length residue, not a sample", "anchors": ["xdr/lib.go: XdrBool..XdrString"]}
{"id": "C03", "title": "Generated encoders implement RFC 4506", "statement": "For every XDR type the generator supports (structs, discriminated unions, optionals, variable arrays, opaques, strings, typedefs, recursive types) and every Go value of that type, EncodeBuf returns a nil error iff every length in the wire-visible part of the value is within its declared bound (and below 2^32), and then returns exactly the RFC 4506 encoding of the value.", "quantifier": "every type declaration environment, every type in it, every value of that type, of any size and nesting depth", "why_tests_cant": "the space of types, values and depths is infinite", "anchors": ["xdr/helper.go: EncodeBuf", "out.go: goXdr methods", "rfc1057/xdr.go", "rfc1813/xdr.go"]}
{"id": "C04", "title": "Round trip for every generated type", "statement": "If EncodeBuf(v) succeeds with bytes b, then DecodeBuf(b ++ rest) into a fresh variable succeeds, consumes exactly b, and yields the same data as v: equal in every wire-visible component, with unselected union arms zero and nil slices read back as empty. If v has no such invisible data the decoded value is equal to v.", "quantifier": "every supported type, every encodable value, every trailing byte string", "why_tests_cant": "unbounded types, values, recursion depth", "anchors": ["xdr/helper.go: EncodeBuf, DecodeBuf", "out.go: goXdr methods"]}
{"id": "C05", "title": "Decode-encode-decode is stable on arbitrary input", "statement": "For every byte string: if DecodeBuf succeeds with x, then EncodeBuf(x) succeeds, and DecodeBuf of that result succeeds and yields a value identical to x (DeepEqual, including nil-ness). This is the property the repository's fuzz tests sample.", "quantifier": "every type, every byte string of any length", "why_tests_cant": "the fuzz targets only sample byte strings, for two types", "anchors": ["rfc1057/fuzz_test.go: FuzzDecodeEncode", "rfc1813/fuzz_test.go: FuzzDecodeEncode"]}
{"id": "C06", "title": "Exact set of inputs the decoders accept", "statement": "DecodeBuf into a fresh variable succeeds on input b with value x iff some prefix of b is an RFC 4506 encoding of x up to three documented leniencies (padding bytes arbitrary, any non-zero word reads as true, a union without default accepts an unlisted discriminant as an empty arm); on every other input it returns an error.", "quantifier": "every type, every byte string, every value", "why_tests_cant": "a full iff over infinite input space", "anchors": ["xdr/helper.go: DecodeBuf", "xdr/lib.go: xdrRW, xdrR", "out.go: goXdr methods"]}
{"id": "C07", "title": "Truncated messages are always rejected", "statement": "For every value and every strict prefix of its encoding, decoding that prefix returns an error.", "quantifier": "every type, every encodable value, every truncation point", "why_tests_cant": "TestLarge*Length check two truncations; the claim is over all", "anchors": ["xdr/xdr_test.go: TestLargeStringLength", "xdr/lib.go: xdrRW, xdrR"]}
{"id": "C08", "title": "Encodings are self-delimiting", "statement": "Any sequence of values of any types written one after another to one writer is read back as the same sequence by one reader calling the same decoders in the same order, with nothing left over.", "quantifier": "every finite sequence of (type, value) pairs", "why_tests_cant": "unbounded sequences", "anchors": ["xdr/lib.go: MakeWriter, MakeReader, WriteBuf", "rfc1057/client.go: Call (header then args on one writer)"]}
{"id": "C09", "title": "Every encoding is a multiple of four bytes", "statement": "The number of bytes a successful encode appends is a multiple of 4 for every type and value, provided fixed opaques are padded; so any field starts 4-byte aligned relative to the message start.", "quantifier": "every type and value", "why_tests_cant": "all lengths and nestings", "anchors": ["xdr/lib.go: XdrVarArray, XdrArray, XdrString"]}
{"id": "C10", "title": "Encoding appends and never modifies the value", "statement": "Encoding a value leaves the value unchanged, whether or not it fails, and leaves every byte already in the writer in place: WriteBuf is always the previous contents followed by new bytes.", "quantifier": "every type, value, prior buffer, including failing encodes", "why_tests_cant": "covers all failure points inside a nested value", "anchors": ["xdr/lib.go: xdrRW, EncodingSetSize", "out.go: goXdr methods"]}
{"id": "C11", "title": "Decoding only consumes a prefix", "statement": "After any decode, successful or failed, of any input, the unread bytes are a suffix of the input; a successful decode of x consumes a number of bytes that depends only on the consumed bytes themselves: changing the bytes after them changes neither the value nor the consumption.", "quantifier": "every type, every input, every continuation", "why_tests_cant": "universal over inputs and continuations", "anchors": ["xdr/lib.go: xdrRW, xdrR"]}
{"id": "C12", "title": "Errors are sticky", "statement": "Once a reader or writer is in the error state, every further codec call on it (any primitive, any generated Xdr method, EncodingSetSize) leaves the error, the buffer and the target value unchanged, so checking Error() once at the end of a sequence is sufficient: no sequence of codec calls can ever return Error() to nil.", "quantifier": "every type, every value, every error state, every finite sequence of codec calls", "why_tests_cant": "unbounded sequences and nested generated code", "anchors": ["xdr/lib.go: SetError, Error, Encoding, Decoding, all Xdr*", "out.go: goXdr methods"]}
{"id": "C13", "title": "Length limits are enforced at the exact boundary, both ways", "statement": "For a field with declared bound n, lengths 0..n are accepted and lengths above n are rejected with an error both when encoding and when decoding; an oversized length on input is rejected without consuming or allocating the payload, and with no bound every length below 2^32 is accepted.", "quantifier": "every bound, every length, both directions, opaque, string and array fields", "why_tests_cant": "the boundary must hold for each bound and length", "anchors": ["xdr/lib.go: XdrVarArray, XdrString", "out.go: declTypeVarArray.goXdr"]}
{"id": "C14", "title": "Decoding never panics and always terminates", "statement": "For every type and every byte string (however malformed) and every prior content of the target, running the decoder terminates without an out-of-range index, nil dereference or endless recursion.", "quantifier": "every well-formed type environment, every input, every initial target value", "why_tests_cant": "termination and absence of panics over all malformed inputs", "anchors": ["out.go: declTypePtr.goXdr, declTypeVarArray.goXdr", "xdr/lib.go: xdrR"]}
{"id": "C15", "title": "Encoding never panics and always terminates", "statement": "For every finite Go value of a generated type, including nil slices, nil optionals and unselected arms with arbitrary content, the encoder terminates without panic.", "quantifier": "every type and every value", "why_tests_cant": "all shapes of values", "anchors": ["out.go: goXdr methods"]}
{"id": "C16", "title": "Decoder recursion depth is bounded by the input length", "statement": "The nesting depth reached while decoding is at most proportional to the number of input bytes (each recursive step consumes at least 4 bytes), with a constant fixed by the type declarations; and lists are really decoded recursively, so depth is not bounded by a constant.", "quantifier": "every recursive type and every input", "why_tests_cant": "bound must hold for all inputs", "anchors": ["out.go: declTypePtr.goXdr", "rfc1057/xdr.go: Pmaplist.Xdr"]}
{"id": "C17", "title": "Allocation while decoding", "statement": "While decoding, the number of slice elements allocated is bounded by the declared bounds and, for opaque data, by the input size; for an unbounded array of non-opaque elements it is not: a fixed-size input makes the decoder allocate 2^32-1 elements before any element is read.", "quantifier": "every type and every input", "why_tests_cant": "needs the worst case over inputs", "anchors": ["out.go: declTypeVarArray.goXdr", "rfc1813/xdr.go: Mountres3_ok.Xdr"]}
{"id": "C18", "title": "Decoding into a reused variable", "statement": "For types without optional (pointer) fields the decoded data does not depend on what the target held before. For types with optionals it does: an absent optional leaves the target's old pointer in place, so a reused target can show stale data after a successful decode.", "quantifier": "every type, every input, every pair of prior target values", "why_tests_cant": "relational property over pairs of initial states", "anchors": ["out.go: declTypePtr.goXdr", "rfc1057/xdr.go: Pmaplist.Xdr"]}
{"id": "C19", "title": "Padding bytes are ignored on input and zero on output", "statement": "Encoders always write zero padding; decoders accept any padding bytes and the decoded value does not depend on them (so decoding is not injective, deviating from RFC 4506's canonical form).", "quantifier": "every value, every padding content", "why_tests_cant": "all lengths and padding contents", "anchors": ["xdr/lib.go: XdrVarArray, XdrArray, XdrString"]}
{"id": "C20", "title": "Booleans: any non-zero word reads as true", "statement": "The bool decoder accepts every 32-bit word, reading 0 as false and everything else as true; the bool encoder writes only 0 or 1.", "quantifier": "all 2^32 words", "why_tests_cant": "2^32 words in any context", "anchors": ["xdr/lib.go: XdrBool"]}
{"id": "C21", "title": "Unions select exactly the declared arm", "statement": "For every discriminated union and every discriminant: exactly the arm whose case labels contain the discriminant (else the default arm, else nothing) is encoded/decoded after the discriminant, no other arm is read or written, and an unlisted discriminant of a union without default is silently accepted with an empty body.", "quantifier": "every union declaration, every discriminant value, every arm content", "why_tests_cant": "all declarations and all 2^32 discriminants", "anchors": ["out.go: typeUnion.goXdr", "rfc1813/xdr.go: Createhow3.Xdr, Mknoddata3.Xdr"]}
{"id": "C22", "title": "Enum values are passed through unvalidated", "statement": "Every 32-bit value of an enum type encodes and decodes to itself without error whether or not it is a declared enumerator.", "quantifier": "all enum types and all 32-bit values", "why_tests_cant": "2^32 values per enum", "anchors": ["out.go: emitEnum", "README.md: TODO"]}
{"id": "C23", "title": "Encoding is injective on data", "statement": "Two values of a type that encode to the same bytes are the same data (equal in every wire-visible component); equivalently different data never collide on the wire, even when followed by other bytes.", "quantifier": "every type, every pair of values, every pair of continuations", "why_tests_cant": "pairs over infinite domains", "anchors": ["xdr/helper.go: EncodeBuf"]}
{"id": "C24", "title": "Decoded opaque data aliases the input; strings do not", "statement": "A variable opaque decoded from a buffer shares memory with exactly its own bytes of that buffer, with capacity clipped so that appending to it never modifies the buffer; later writes to the buffer show through it; decoded strings and fixed opaques are unaffected by later writes.", "quantifier": "every heap, every input buffer, every later write or append", "why_tests_cant": "aliasing must hold for every later mutation", "anchors": ["xdr/lib.go: xdrR (3-index slice), XdrVarArray, XdrString"]}
{"id": "C25", "title": "MakeWriter extends the caller's buffer", "statement": "A writer created over any existing slice returns from WriteBuf that slice's bytes followed by the encoding, provided the encoded value's own data does not lie in the slice's spare capacity (if it does, wrong bytes can be written: witness); the bytes visible through the caller's own slice are never modified; only spare capacity beyond its length may be overwritten, and with no spare capacity no caller memory is touched.", "quantifier": "every slice (length, capacity, offset), every sequence of writes", "why_tests_cant": "append reallocation points vary with capacity", "anchors": ["xdr/lib.go: MakeWriter, WriteBuf, xdrRW", "rfc1057/server.go: handleReqErr (reserveLen)"]}
{"id": "C26", "title": "Client request bytes", "statement": "A Call writes exactly one record: a 4-byte mark with the last-fragment bit and the message length, then xid, CALL, RPC version 2, the client's program and version, the procedure, credential and verifier, then the RFC 4506 encoding of the arguments. If credential, verifier or arguments cannot be encoded nothing is written and an error is returned.", "quantifier": "every program, version, procedure, credential, verifier, argument value", "why_tests_cant": "all values of all argument types", "anchors": ["rfc1057/client.go: Call", "rfc1057/xdr.go: Rpc_msg.Xdr"]}
{"id": "C27", "title": "Transaction ids", "statement": "The k-th Call on a client uses xid k mod 2^32, whatever the outcome of earlier calls; so any 2^32 consecutive calls use pairwise distinct xids.", "quantifier": "every history of calls and outcomes of any length", "why_tests_cant": "wrap-around only after 2^32 calls", "anchors": ["rfc1057/client.go: MakeClient, Call"]}
{"id": "C28", "title": "Call succeeds only on a matching accepted reply", "statement": "Call returns nil iff the write succeeded, one complete last-fragment record was read, and its contents decode as a reply message with the same xid, status MSG_ACCEPTED and SUCCESS, followed by a decodable result; the result is then decoded from the bytes right after the header. In all other cases it returns an error.", "quantifier": "every request, every byte stream the peer may send, every I/O failure", "why_tests_cant": "adversarial peer: all byte streams", "anchors": ["rfc1057/client.go: Call"]}
{"id": "C29", "title": "A failed Call does not touch the result before the header is validated", "statement": "If Call fails in encoding, I/O, framing, reply decoding, xid, message type, reply status or accept status, the caller's result variable is unchanged.", "quantifier": "every failure point and peer behaviour", "why_tests_cant": "all failure points", "anchors": ["rfc1057/client.go: Call"]}
{"id": "C30", "title": "The client stays in step with the record stream", "statement": "A Call that gets as far as reading a complete last-fragment record consumes exactly that record, whatever its content, so the next Call starts reading at a record boundary; over any history of such calls the k-th reply is taken from the k-th record.", "quantifier": "every history of calls and every record contents", "why_tests_cant": "unbounded histories", "anchors": ["rfc1057/client.go: Call"]}
{"id": "C31", "title": "Record marks on both sides are correct below 2 GiB and corrupt beyond", "statement": "For messages shorter than 2^31 bytes the record mark carries the last-fragment bit and the exact length; at 2^31 bytes and beyond the 31-bit length field is silently wrong (length mod 2^31).", "quantifier": "every message length", "why_tests_cant": "needs multi-GiB messages to test", "anchors": ["rfc1057/client.go: Call", "rfc1057/server.go: handleReqErr"]}
{"id": "C32", "title": "Concurrent use of one Client", "statement": "If calls on a client are made one after another, no call can return another call's result. With two concurrent calls on one client this fails: there is a schedule in which a call returns nil with the other call's result.", "quantifier": "every sequential history; every interleaving of two calls", "why_tests_cant": "schedule-dependent", "anchors": ["rfc1057/client.go: Client, Call"]}
{"id": "C33", "title": "Registration behaves like a map", "statement": "After any sequence of Register/RegisterMany calls, the handler for (prog, vers, proc) is the last one registered for exactly that triple, and program/version are known iff something was registered under them.", "quantifier": "every sequence of registrations, every key", "why_tests_cant": "unbounded histories", "anchors": ["rfc1057/server.go: Register, RegisterMany, MakeServer"]}
{"id": "C34", "title": "Dispatch decision table", "statement": "For every decodable CALL: RPC version other than 2 gives MSG_DENIED/RPC_MISMATCH; otherwise unknown program gives PROG_UNAVAIL, unknown version PROG_MISMATCH, unknown procedure PROC_UNAVAIL, a handler error GARBAGE_ARGS, else SUCCESS followed by the handler's result - and the handler is called in the last two cases only, exactly once.", "quantifier": "every request message, every registration history, every handler", "why_tests_cant": "all requests and tables", "anchors": ["rfc1057/server.go: handleReqErr"]}
{"id": "C35", "title": "Every reply carries the request's xid; one reply per call", "statement": "Each decodable CALL whose result can be encoded produces exactly one reply record with the same xid; undecodable messages and non-CALL messages produce none. A result that cannot be encoded (over its bound) produces no reply at all, so the caller is left waiting.", "quantifier": "every request byte string and handler behaviour", "why_tests_cant": "all byte strings", "anchors": ["rfc1057/server.go: handleReqErr, handleReq"]}
{"id": "C36", "title": "User handlers run only on well-formed arguments", "statement": "A generated server stub invokes the user's procedure iff the argument bytes decode, exactly once, with precisely the decoded value; if they do not decode the reply is GARBAGE_ARGS and the procedure is not run. Procedures without arguments are always run.", "quantifier": "every procedure, every argument byte string", "why_tests_cant": "all malformed argument strings", "anchors": ["out.go: emitProg", "rfc1057/xdr.go: PMAP_PROG_PMAP_VERS_handler_wrapper", "rfc1813/xdr.go wrappers"]}
{"id": "C37", "title": "Server reply bytes", "statement": "The single Write for a reply is: 4-byte mark (last fragment, exact length), xid, REPLY, then the RFC 1057 reply body, then (for SUCCESS) the RFC 4506 encoding of the result.", "quantifier": "every request and handler result", "why_tests_cant": "all values", "anchors": ["rfc1057/server.go: handleReqErr", "rfc1057/xdr.go: Reply_body.Xdr, Accepted_reply.Xdr, Rejected_reply.Xdr"]}
{"id": "C38", "title": "Version mismatch replies carry range 0..0", "statement": "RPC_MISMATCH and PROG_MISMATCH replies always report low=0 and high=0, whatever versions are registered (RFC 1057 asks for the supported range, here 2..2 and the registered versions).", "quantifier": "every registration history and request", "why_tests_cant": "all tables", "anchors": ["rfc1057/server.go: handleReqErr"]}
{"id": "C39", "title": "End to end: a call returns what the handler computed", "statement": "For any program with generated stubs registered on a server and a client bound to it, Call(proc, args) with encodable credentials, arguments and results returns nil with the result of applying the registered procedure to those arguments (same data), for any sequence of calls on one connection.", "quantifier": "every procedure, argument value, handler function, sequence of calls", "why_tests_cant": "composition over all values and histories", "anchors": ["rfc1057/client.go: Call", "rfc1057/server.go: Run, handleReqErr", "out.go: emitProg"]}
{"id": "C40", "title": "Each request is processed on its own bytes under every schedule", "statement": "With the shared buffer pool, any number of connections and any interleaving of readers and handler goroutines (including the pool dropping entries), while a request is being handled the buffer it reads holds exactly the bytes of that request; no two in-flight requests share a buffer.", "quantifier": "every schedule, number of connections, request sizes, pool behaviour", "why_tests_cant": "data-race style property over all interleavings", "anchors": ["rfc1057/server.go: getReqBuf, putReqBuf, Run, handleReq"]}
{"id": "C41", "title": "Argument data must not be retained after the handler returns", "statement": "Opaque argument data is valid until the reply has been written; afterwards a later request can overwrite it: there is a schedule in which a retained argument slice changes content.", "quantifier": "every schedule (safety until reply), existence of a bad schedule (after)", "why_tests_cant": "depends on pool reuse and scheduling", "anchors": ["rfc1057/server.go: handleReq (defer putReqBuf)", "xdr/lib.go: xdrR"]}
{"id": "C42", "title": "Replies are whole records, in some order, each once", "statement": "Under every schedule, what a connection's peer receives is a concatenation of complete reply records, one for each handled call that replies, never interleaved, duplicated or sent to another connection; at quiescence exactly the replies of all requests received on it.", "quantifier": "every schedule and request sequence", "why_tests_cant": "all interleavings", "anchors": ["rfc1057/server.go: Run, handleReq, handleReqErr"]}
{"id": "C43", "title": "Server record framing", "statement": "Run hands over to handlers exactly the maximal sequence of complete last-fragment records at the front of the byte stream, in order, and returns an error at the first record that is short or not marked last-fragment; nothing after that point is processed.", "quantifier": "every byte stream", "why_tests_cant": "all streams", "anchors": ["rfc1057/server.go: Run"]}
{"id": "C44", "title": "Credentials are ignored", "statement": "The server's reply and handler invocation do not depend on the contents of credential and verifier (any flavor, any body up to 400 bytes); it never answers AUTH_ERROR. Bodies over 400 bytes make the request undecodable.", "quantifier": "every pair of credentials, every request", "why_tests_cant": "relational over pairs", "anchors": ["rfc1057/server.go: handleReqErr", "rfc1057/xdr.go: Opaque_auth.Xdr"]}
{"id": "C45", "title": "Trailing bytes are ignored", "statement": "Bytes after the arguments in a request, and after the result in a reply, affect neither the outcome nor the decoded values.", "quantifier": "every message and every suffix", "why_tests_cant": "all suffixes", "anchors": ["rfc1057/server.go: handleReqErr", "rfc1057/client.go: Call"]}
{"id": "C46", "title": "Handler returning both a result and an error", "statement": "With a handler that returns a non-nil result together with an error, the GARBAGE_ARGS reply is followed by the encoding of that result (bytes RFC 1057 does not allow); generated stubs never do this.", "quantifier": "every handler and request", "why_tests_cant": "all handlers", "anchors": ["rfc1057/server.go: handleReqErr"]}
{"id": "C47", "title": "Committed codecs are in sync with their specs", "statement": "Running the generator's scanner, grammar and emitter on the committed rfc1057/prot.x and rfc1813/prot.x (with the Makefile's flags) yields, token for token, the committed xdr.go and types.go.", "quantifier": "all declarations of the two committed specs", "why_tests_cant": "a CI diff checks text once; here it ties the model to the code and is re-proved with it", "anchors": ["Makefile", "rfc1057/prot.x", "rfc1057/xdr.go", "rfc1057/types.go", "rfc1813/prot.x", "rfc1813/xdr.go", "rfc1813/types.go"]}
{"id": "C48", "title": "Generated Go code means what the spec says", "statement": "For every specification whose variable arrays are not nested inline, executing the Go statements the generator emits for a type (with Go's scoping, switch/fallthrough, pointer and slice semantics) has exactly the effect of the type's XDR meaning, on every state and value.", "quantifier": "every specification in the supported subset, every state and value", "why_tests_cant": "quantifies over all specifications (programs) and runs", "anchors": ["out.go: goXdr methods, emitTypedef, emitEnum, emitStruct, emitUnion"]}
{"id": "C49", "title": "Nested inline arrays are miscompiled", "statement": "For a variable array whose element is an anonymous struct/union containing another variable array (at any depth of members, arms and optionals), the emitted inner loop variable captures the outer index, so the emitted code does not implement the type: whenever the bounds admit one array of two elements or two of one, there is a value of the type that its meaning encodes and on which the emitted method panics. Such nesting is the only thing that separates these specifications from those for which the emitted code is right.", "quantifier": "every specification with such arrays (names unambiguous as in C48)", "why_tests_cant": "needs semantics of generated code, no test generates such code", "anchors": ["out.go: declTypeVarArray.goXdr"]}
{"id": "C50", "title": "Fixed-size arrays of non-opaque elements do not compile", "statement": "For a fixed-size array of any element type other than a structure without members, the emitted code dereferences a non-pointer and is rejected by Go's typing rules. For specifications without such arrays, the generated package is well typed exactly when explicit conditions on its names, constants, bounds, labels and program signatures hold (the committed specifications satisfy them); neither \"every element type\" nor \"every other declaration\" holds without these exceptions.", "quantifier": "every element type and bound; every supported spec", "why_tests_cant": "quantifies over specifications", "anchors": ["out.go: declTypeArray.goXdr"]}
{"id": "C51", "title": "The generator fails exactly on unsupported types", "statement": "Code emission panics iff a declaration contains float, double, quadruple, an anonymous enum or a void-switched union in an encoded position; otherwise it completes.", "quantifier": "every declaration", "why_tests_cant": "all ASTs", "anchors": ["out.go: typeFloat, typeDouble, typeQuadruple, typeEnum, typeUnion goXdr"]}
{"id": "C52", "title": "Identifier capitalisation", "statement": "Every type, field, enumerator and procedure name is emitted with its first letter upper-cased at every definition and use, so references resolve; constants are emitted verbatim but capitalised in case labels, and enumerators are verbatim in bounds, so a lower-case constant used as a case label (or lower-case enumerator used as a bound) refers to an undeclared name; two names differing only in the case of the first letter collide.", "quantifier": "every identifier and specification", "why_tests_cant": "all identifiers", "anchors": ["out.go: i, emitConst, emitEnum, typeUnion.goXdr"]}
{"id": "C53", "title": "The parser accepts exactly the grammar, with a unique reading", "statement": "A token sequence is accepted iff it derives from the grammar in xdr.y, and every accepted sequence has exactly one abstract syntax; any other sequence makes the generator fail without output.", "quantifier": "every token sequence", "why_tests_cant": "all token sequences", "anchors": ["xdr.y"]}
{"id": "C54", "title": "The scanner's automatic semicolons make newlines significant", "statement": "Because the Go scanner is used, a newline after an identifier, literal or closing bracket inserts a semicolon: two files differing only in white space can differ in acceptance, and an enum whose last item is followed by a newline is rejected. White space without newlines is never significant.", "quantifier": "every source text", "why_tests_cant": "all texts", "anchors": ["scan.go: Lex"]}
{"id": "C55", "title": "Generator output files", "statement": "Each output file is only written after the whole input has parsed and its own text has been formatted (not after both texts have: the main output is written before the types text is formatted); on any parse or emission failure no output file changes and the temporary files created by the run are removed; a temporary file left by a killed run makes every later run fail without touching anything until it is removed.", "quantifier": "every failure or crash point", "why_tests_cant": "crash points", "anchors": ["main.go: main, refmt"]}
{"id": "C56", "title": "Generated registrations match the program declaration", "statement": "For every program/version declaration, the generated registration list has one entry per procedure in order, with the program, version and procedure numbers of the declaration and the stub of that procedure; after registering it a call to each number reaches that procedure (numbers being distinct).", "quantifier": "every program declaration", "why_tests_cant": "all declarations", "anchors": ["out.go: emitProg", "rfc1057/xdr.go: PMAP_PROG_PMAP_VERS_regs", "rfc1813/xdr.go: NFS_PROGRAM_NFS_V3_regs, MOUNT_PROGRAM_MOUNT_V3_regs"]}
{"id": "C57", "title": "The committed RPC, portmap, NFSv3 and MOUNT types are all covered", "statement": "Every type of rfc1057 and rfc1813 is well-formed (all names resolve, recursion is guarded), so all codec properties above hold for each of them.", "quantifier": "every type in the two packages", "why_tests_cant": "instantiates universal theorems at all ~150 types", "anchors": ["rfc1057/types.go", "rfc1813/types.go"]}
{"id": "C58", "title": "The repository's fuzz targets cannot fail", "statement": "For every byte sequence, FuzzDecodeEncode of rfc1057 and rfc1813 (decode into a zero variable, encode, decode again, compare with reflect.DeepEqual) neither panics nor reports a difference, and it gets past the first decode exactly when the input starts with an encoding of the type; the same holds for every type of every package generated from a supported specification.", "quantifier": "every input, every type", "why_tests_cant": "the fuzzer samples inputs; the theorem covers all", "anchors": ["rfc1057/fuzz_test.go: FuzzDecodeEncode", "rfc1813/fuzz_test.go: FuzzDecodeEncode", "xdr/helper.go"]}
{"id": "C59", "title": "Generated client/server round trip", "statement": "For every version of every program of a supported specification (in particular the committed portmapper, NFSv3 and MOUNT): when the list returned by the generated registration function for an object is registered on a server, any sequence of calls of its procedures through a client returns, each time, nil and what the object's method of that procedure computed from the arguments, and leaves the object in the state the methods left it in, however the network cuts the streams and whatever else is registered for other programs or versions.", "quantifier": "every specification, object, server, call sequence", "why_tests_cant": "all programs and all call sequences", "anchors": ["out.go: emitProg", "rfc1057/client.go: Call", "rfc1057/server.go", "rfc1057/xdr.go", "rfc1813/xdr.go"]}
{"id": "C60", "title": "The server always gets to the end of its input", "statement": "With handlers that return, no input crashes the server process; the number of actions it performs on K connections is at most 1 + K + 7 times the number of input bytes; under every schedule it stops only when every reader has returned and every goroutine is gone; and then, on each connection without a failed write, the requests are exactly those Run finds in the input, each is dealt with exactly once, and each call whose result can be encoded has been answered under its own xid.", "quantifier": "every input, chunking, schedule, buffer-pool behaviour, handler state", "why_tests_cant": "termination and completeness over all interleavings and all inputs", "anchors": ["rfc1057/server.go: Run, handleReq, handleReqErr, getReqBuf, putReqBuf"]}
{"id": "C61", "title": "Types of package xdr; the unit tests hold for all values", "statement": "The types Bool, Uint32, Int32, Uint64, Int64 and Void of package xdr encode to exactly their RFC 4506 form and decode back to the same value from the front of any longer input. What the unit tests of package xdr check for single values holds for every string and byte slice within the limit: it round-trips with nothing left over, and every proper prefix of its encoding is rejected.", "quantifier": "every value, limit, cut", "why_tests_cant": "the tests check one value each", "anchors": ["xdr/types.go: Bool, Uint32, Int32, Uint64, Int64, Void", "xdr/xdr_test.go", "xdr/lib.go: XdrString, XdrVarArray"]}
{"id": "C62", "title": "Whole system: calls are atomic and return", "statement": "Any number of clients, each making calls one after another on its own connection to a server process whose connections share one state, under every interleaving of clients, readers, handler goroutines and network deliveries: there is one order of the calls, consistent with real time and only ever extended, in which handling them one at a time explains the state and every result returned; if the procedures called are registered and do what a given specification says, every call that has returned has returned nil and what the specification says at its place in that order. After finitely many steps without new calls nothing more can happen, and then every call on a connection on which no write of the server failed has returned.", "quantifier": "every number of clients, call program, handler, interleaving, chunking, buffer-pool behaviour", "why_tests_cant": "linearizability over all interleavings and call programs", "anchors": ["rfc1057/client.go: Call", "rfc1057/server.go: Run, handleReq, handleReqErr", "rfc1057/server.go: getReqBuf, putReqBuf"]}
{"id": "C63", "title": "Which error a call returns", "statement": "A call that returns went one of six ways: request not encodable; write failed; reading the record mark failed; record mark without the last-fragment bit; reading the body failed; reply read. The error and the result variable are those of that way, and a reply decides them by what it is (RFC 1057): no message, another transaction id, a call, another message type, denied, an accept_stat, a result. Bytes are a message in one way only. Against a server with generated stubs, a call to an unknown program, version or procedure, or with arguments that do not decode, returns accept_stat 1, 2, 3, 4, leaves the server's state and the caller's variable untouched and the connection usable; so any sequence of calls, answered and turned down, goes as it should.", "quantifier": "every connection, client, request, reply, server table, user procedure, chunking", "why_tests_cant": "quantifies over all replies and connections", "anchors": ["rfc1057/client.go: Call", "rfc1057/server.go: handleReqErr", "example/server/main.go: main"]}
{"id": "C64", "title": "Programs that make calls; the example programs", "statement": "A program that dials, makes clients, calls and prints, run over connections against servers with generated stubs, comes to an end in a state that running it with direct procedure calls can reach: same server state, same values printed, same ending, same open connections. The example client is the chain GETPORT, MNT, GETPORT, LOOKUP foo, LOOKUP bar, RENAME with what each result passes to the next, panicking exactly where a port is dead, a call is refused or a status is not OK, and always closing its portmapper connections; the example server is UNSET, SET, UNSET, SET, with the deferred UNSET on failure. Run together with an RFC 1057 portmapper, the server registers itself whatever was registered before, and the client panics at its first call to it, printing nothing.", "quantifier": "every program, server table, objects behind portmapper, mount and nfs, server state, port, chunking of every connection", "why_tests_cant": "quantifies over all programs, objects and chunkings", "anchors": ["example/client/main.go", "example/server/main.go", "rfc1057/client.go: Call", "rfc1057/server.go: Run"]}
{"id": "C65", "title": "The text of package xdr computes what the model says", "statement": "The files xdr/lib.go, xdr/helper.go and xdr/types.go, read token by token and run by the rules of Go on memory with shared byte slices, compute for every function exactly what the model of the library says: every call returns (no panic, no out-of-range slice), the new state, value and error are the model's, and of the memory there before only the spare capacity of a writer's buffer (or, when decoding into a given slice, that slice) changes; a decoded byte slice shares the reader's buffer with its capacity clipped.", "quantifier": "every function of the three files, every state, value, memory, growth strategy of append, declared maximum", "why_tests_cant": "quantifies over all states, memories and values, and over the growth strategy of append", "anchors": ["xdr/lib.go", "xdr/helper.go", "xdr/types.go"]}
{"id": "C66", "title": "The text of the client computes what the model says", "statement": "The file rfc1057/client.go, read token by token and run by the rules of Go on memory with shared byte slices, computes what the model of the client says: MakeClient makes the client with transaction id 0; Call ends with the model's client state, connection state, result value and error (same format string and operands), panics or does not end exactly when the model does, and changes no memory there before, nor any variable but the client's. What it uses from elsewhere is the text of package xdr for readers and writers, and the models of the generated codecs, of the connection and of io.ReadFull; functions that fit exist for every connection and all handlers.", "quantifier": "every client state, procedure number, credentials, argument and result types and values, memory, connection, growth strategy of append", "why_tests_cant": "quantifies over all states, memories, values, connections and growth strategies", "anchors": ["rfc1057/client.go: MakeClient, Call", "rfc1057/types.go: Rpc_msg"]}
{"id": "C67", "title": "The text of the server computes what the model says", "statement": "The file rfc1057/server.go, read token by token and run by the rules of Go on memory with shared byte slices and maps, computes what the model of the server says. MakeServer makes an empty table; Register and RegisterMany add the procedures, the last registration of a number winning. handleReqErr decodes the request, looks the procedure up, runs it and writes the reply with the model's connection state, user state and error; it panics or does not end exactly when the model does, and changes nothing of the Server or of other variables. handleReq does the same, prints an error and puts the buffer back in the pool last. Run reads the record stream and starts one goroutine handleReq per request, in order, on a slice with the request's bytes, and ends with the model's error.", "quantifier": "every table of procedures, request bytes, memory, connection, handlers, content of the buffer pool and growth strategy of append", "why_tests_cant": "quantifies over all tables, requests, memories, connections, handlers and growth strategies", "anchors": ["rfc1057/server.go: MakeServer, Register, RegisterMany, Run, handleReq, handleReqErr, getReqBuf, putReqBuf", "rfc1057/types.go: Rpc_msg"]}
{"id": "C68", "title": "The text of the code emitter computes what the model says", "statement": "The file out.go, read token by token and run by the rules of Go, emits what the model of the generator says. For every type, goType and goXdr on the value the grammar builds return the model's text and change nothing, and panic exactly when the model has none. For every definition the call in its action writes the model's text, to out and to tout, and panics exactly when the model does. For every source text the grammar accepts, all actions together turn the headers into the two files of the model, touching no other file, or panic if the model says so.", "quantifier": "every type, declaration and definition whose names do not start outside ASCII (which holds for every source text), all flags, one or two files", "why_tests_cant": "quantifies over all definitions and source texts", "anchors": ["out.go"]}
{"id": "C69", "title": "The texts of the scanner and of the generator's main program do what the model says", "statement": "scan.go and main.go, read token by token and run by the rules of Go, do what the model says. Lex returns 0 at the end, the model's token with its text in lval.str, or panics if the model does not handle the token; called repeatedly it delivers the token list of the model. The whole program - package variables, flag parsing, main, refmt, deferred removals - always ends, with the usage status, a panic or success, having made exactly the system calls of the model in its order, whatever the options, the results of the system calls and the formatter. Hence whatever C55 says of runs of the model, stopped anywhere, holds of runs of the text.", "quantifier": "all token streams, all command lines, all sequences of results of system calls, all formatters, all source texts, every prefix of a run", "why_tests_cant": "quantifies over failures of every system call and kills at every point", "anchors": ["scan.go", "main.go"]}
{"id": "C70", "title": "The text of the grammar file has the grammar and the actions of the model", "statement": "The file xdr.y, read token by token, has as its start symbol's language exactly the token lists the model's grammar derives. The actions of any derivation, evaluated by the rules of Go, parts before wholes and left to right, make exactly the calls of the emit functions for the definitions the model parses, in order, on values built for these definitions. The tokens declared are those the scanner returns, and every $n used in an action has a declared type.", "quantifier": "all token lists, all derivations, all memories and external functions", "why_tests_cant": "quantifies over all derivations of the grammar", "anchors": ["xdr.y"]}
{"id": "C71", "title": "The grammar is unambiguous and LALR(1), and every correct automaton parses as the model", "statement": "The grammar of xdr.y has conflict-free LALR(1) tables. For any tables that pass a check (items, closure, lookaheads, reductions, ranks), the shift-reduce driver stops after a number of steps linear in the input, accepts with a derivation exactly the token lists that the model parses, stops with an error on all others, and the derivation found makes the emit calls of the model. A grammar with such tables is unambiguous.", "quantifier": "all tables that pass the check, all token lists; unambiguity for all grammars", "why_tests_cant": "quantifies over all token lists and all parser tables", "anchors": ["xdr.y"]}
{"id": "C72", "title": "The generated parser, reading tokens on demand and running its actions, writes what the model says or panics", "statement": "The LR driver with any correct tables for the grammar of xdr.y, calling Lex of scan.go for each token when it is needed and running the actions of xdr.y by the text of out.go at each reduction, ends on every list of tokens. If the model parses the list and emits all its definitions the driver returns 0 and the two buffers have received exactly the model's texts; in all other cases (a token Lex does not handle, a syntax error, a definition out.go refuses) it panics. Whether the tables look ahead where they need not makes no difference. Every source text has a token list.", "quantifier": "all token lists, all source texts, all tables that pass the check, all lookahead strategies, all scanners and writers that do not interfere", "why_tests_cant": "quantifies over all texts, parser tables and lookahead strategies", "anchors": ["xdr.y", "scan.go", "out.go"]}
{"id": "C73", "title": "The texts of the example programs are the programs of C64", "statement": "The files example/client/main.go and example/server/main.go, run by the rules of Go with the constants of the committed packages, are the programs ex_client and ex_server: the same dials, clients, calls (procedure, credentials, arguments), closes, prints and panics, whatever each of them answers, deferred calls included. After its start-up the server serves each accepted connection until Accept fails, then takes back both mappings and panics. A text is only one program, so all runs over the network that C64 describes are runs of the texts.", "quantifier": "all answers from outside, all ports net.Listen may give, all worlds, servers and ways of cutting the streams, any number of accepted connections", "why_tests_cant": "quantifies over all answers of remote servers and network failures at each point", "anchors": ["example/client/main.go", "example/server/main.go"]}
{"id": "C74", "title": "The emitted methods run in a memory with byte slices, and serve the client and the server as text", "statement": "Run by the rules of Go in a memory where byte slices are references (blocks, offset, length, capacity), every method of every package of the emitted shape ends exactly as its run over values does: return, panic, stuck or out of fuel, with the same bytes and values. Decoding writes no memory; encoding writes only in the spare capacity of the buffer or in new blocks, so no other byte slice changes. For every supported specification, and for the committed files of rfc1057 and rfc1813, the methods so run do what the types say. The committed text of Rpc_msg.Xdr and the methods it calls thus has every property that C66 and C67 assume of it, so Client.Call and the server's handling of a request, run as text down to the library, do what the models say.", "quantifier": "all packages, methods, fuels, memories, buffers, values, growth strategies of append; all supported specifications; all connections, handlers, arguments", "why_tests_cant": "aliasing between buffer and values and the growth of append cannot be enumerated; all specifications", "anchors": ["rfc1057/xdr.go", "rfc1813/xdr.go", "xdr/lib.go", "out.go", "rfc1057/client.go", "rfc1057/server.go"]}
{"id": "C75", "title": "The emitted methods leave in memory exactly what the types say, references included", "statement": "For every supported specification the text the generator writes, run in a memory where byte slices are references, returns exactly what the interpreter of types in memory returns: the same memory, the same state, the same value with the same slices. So decoding into a value without byte slices changes no memory; every byte slice of the result is the part of the buffer right after its length word, has no spare capacity, and no two overlap. Encoding several values one after another extends the buffer by their encodings however append allocates, writes existing memory only in the spare capacity of the buffer, and the old buffer reads as before. The same holds of the committed files of rfc1057 and rfc1813, for every type they declare.", "quantifier": "all supported specifications; all types, memories, buffers, states, values; all growth strategies of append", "why_tests_cant": "which bytes two slices share, and where append allocates, is not visible in the bytes a test compares; all specifications", "anchors": ["out.go", "rfc1057/xdr.go", "rfc1813/xdr.go", "xdr/lib.go"]}
{"id": "C76", "title": "End to end as text: the calls of client.go to a server made of server.go return what the procedures computed", "statement": "A program runs s := MakeServer(), s.RegisterMany(regs), s.Run(rw) and the goroutines Run starts, all by the text of rfc1057/server.go, over the text of package xdr and the committed Xdr method of Rpc_msg. At the other end of the connection another program makes calls, one after another, by the text of Client.Call of rfc1057/client.go, in whatever memory holds client, credentials, arguments and result variable. However the network cuts the two byte streams, every call returns nil, the result variable holds the data the user's procedure computed from the data that was passed, the procedures have run once each in that order, no memory the caller had is changed, and afterwards client and connection are ready for the next call. The same with registrations generated from any supported specification, and with those of the committed portmapper, NFS and MOUNT programs.", "quantifier": "all registrations, procedures and their worlds; all sequences of encodable calls below 2 GiB; all memories the calls are made in; all ways to cut the streams; all growth strategies of append; all supported specifications", "why_tests_cant": "the example programs make a handful of calls over one kernel's TCP; no test runs the client against the server", "anchors": ["rfc1057/client.go", "rfc1057/server.go", "rfc1057/types.go", "rfc1057/xdr.go", "xdr/lib.go", "out.go"]}
{"id": "C77", "title": "The tests of the repository, as text: they pass, and pass with other data; the fuzz targets panic on no input", "statement": "Read as the Go they are, the four tests of xdr/xdr_test.go run to their end with every assertion true, and would with any other string or byte slice of at most 100 bytes in place of their literals (at least one byte for the two that cut the buffer at 6 bytes). FuzzDecodeEncode of rfc1057/fuzz_test.go and rfc1813/fuzz_test.go, run with the committed generated code, ends without panic and hands three known seeds to f.Add. The function literal it gives to f.Fuzz panics on no input, changes no variable outside it, and runs to its end on exactly the inputs that start with an encoding of the type; on all others it returns at its first check.", "quantifier": "all strings and slices of the lengths named; all inputs of the fuzz targets", "why_tests_cant": "these are the tests; each unit test tries one value, and a fuzzing run tries finitely many inputs", "anchors": ["xdr/xdr_test.go:9-65", "rfc1057/fuzz_test.go:11-52", "rfc1813/fuzz_test.go:11-47"]}
{"id": "C78", "title": "Integer literals and constants have the value the Go specification and RFC 4506 give them", "statement": "The literals the model reads in generated code are the integer literals of the Go specification (decimal, octal with 0 or 0o, hexadecimal, binary, underscores between digits) with the values it gives them, and no other digit-headed text is one; the non-negative constants of RFC 4506 are among them and have the values the RFC gives them. In every generated package that compiles, the value of every constant - const definitions, enumeration members, program, version and procedure numbers - is that of its text in the specification, directly or through a chain of other constants, and names without such a meaning have no value. The generator stops at a minus sign, which RFC 4506 allows, so no generated constant is negative. In a specification that gives no name two values, the limits of strings, opaque data and arrays and the labels of unions are the numbers the specification writes, literally or through names; so the types C48 speaks about have them.", "quantifier": "all strings; all specifications, flags and generated packages that compile; all names and values", "why_tests_cant": "no test evaluates a constant; infinitely many literals and chains", "anchors": ["scan.go:142-148", "out.go:381-387", "out.go:444-446", "out.go:482-484", "xdr.y:144-145", "xdr.y:178-179"]}
{"id": "C79", "title": "The Makefile: make regenerates the committed files; asked for types.go it always fails", "statement": "Read by the rules of GNU make, the Makefile asks for rfc1813/xdr.go and rfc1057/xdr.go by default; for every directory name the pattern rule needs prot.x and the generator, and its command, cut into words and read by package flag with the flags main.go declares, makes the generator read prot.x, write the target and types.go, with the package name, unsigned enumerations and constants of type uint32. Run that way by its text on the committed specifications, without I/O errors, the generator ends successfully, leaves xdr.go and types.go with the tokens of the committed files and changes no other file; run for both directories in turn, as make without a target does, it leaves all four committed files so. The rule also has types.go as a target: asked for that, make names the same file twice, and the generator fails in every run, changing at most its temporary file. The options may be written in all the ways package flag documents (one dash or two, value after = or as the next word, the twelve spellings of Booleans), and reading stops at the first word that is no option.", "quantifier": "all directory names of letters, digits and underscores; all formatters that change no token, all results of system calls, all parser tables for the grammar; all file systems", "why_tests_cant": "CI runs make for the default targets only, on one file system; no test asks for types.go", "anchors": ["Makefile:4", "Makefile:10-11", "main.go:13-19", "main.go:46-76", ".github/workflows/build.yml:28-31"]}
