{
 "claims": [
  {
   "property": "C01",
   "status": "proved",
   "theorems": [
    "C01_primitive_roundtrip"
   ],
   "note": ""
  },
  {
   "property": "C02",
   "status": "proved",
   "theorems": [
    "C02_primitive_wire_format"
   ],
   "note": ""
  },
  {
   "property": "C03",
   "status": "proved",
   "theorems": [
    "C03_encode_is_rfc4506"
   ],
   "note": ""
  },
  {
   "property": "C04",
   "status": "proved",
   "theorems": [
    "C04_roundtrip"
   ],
   "note": ""
  },
  {
   "property": "C05",
   "status": "proved",
   "theorems": [
    "C05_decode_encode_decode"
   ],
   "note": ""
  },
  {
   "property": "C06",
   "status": "proved",
   "theorems": [
    "C06_accepted_inputs"
   ],
   "note": ""
  },
  {
   "property": "C07",
   "status": "proved",
   "theorems": [
    "C07_truncation"
   ],
   "note": ""
  },
  {
   "property": "C08",
   "status": "proved",
   "theorems": [
    "C08_sequences"
   ],
   "note": ""
  },
  {
   "property": "C09",
   "status": "proved",
   "theorems": [
    "C09_multiple_of_four"
   ],
   "note": ""
  },
  {
   "property": "C10",
   "status": "proved",
   "theorems": [
    "C10_encode_appends"
   ],
   "note": ""
  },
  {
   "property": "C11",
   "status": "proved",
   "theorems": [
    "C11_decode_consumes_prefix",
    "C11_decode_local"
   ],
   "note": ""
  },
  {
   "property": "C12",
   "status": "proved",
   "theorems": [
    "C12_errors_sticky"
   ],
   "note": ""
  },
  {
   "property": "C13",
   "status": "proved",
   "theorems": [
    "C13_bound_opaque_encode",
    "C13_bound_string_encode",
    "C13_bound_opaque_decode",
    "C13_bound_string_decode",
    "C13_bound_array_encode",
    "C13_bound_array_decode",
    "C13_bound_array_decode_ok"
   ],
   "note": ""
  },
  {
   "property": "C14",
   "status": "proved",
   "theorems": [
    "C14_decode_total"
   ],
   "note": ""
  },
  {
   "property": "C15",
   "status": "proved",
   "theorems": [
    "C15_encode_total"
   ],
   "note": ""
  },
  {
   "property": "C16",
   "status": "proved",
   "theorems": [
    "C16_depth_bounded",
    "C16_depth_needed"
   ],
   "note": ""
  },
  {
   "property": "C17",
   "status": "proved",
   "theorems": [
    "C17_allocation_bounds",
    "C17_allocation_defined",
    "C17_unbounded_array_allocation"
   ],
   "note": ""
  },
  {
   "property": "C18",
   "status": "proved",
   "theorems": [
    "C18_reuse_without_optionals",
    "C18_reuse_nil_pointers",
    "C18_stale_optional"
   ],
   "note": ""
  },
  {
   "property": "C19",
   "status": "proved",
   "theorems": [
    "C19_padding_zero",
    "C19_padding_ignored",
    "C19_padding_ignored_fixed"
   ],
   "note": ""
  },
  {
   "property": "C20",
   "status": "proved",
   "theorems": [
    "C20_bool_decode",
    "C20_bool_encode"
   ],
   "note": ""
  },
  {
   "property": "C21",
   "status": "proved",
   "theorems": [
    "C21_union_arm",
    "C21_union_arm_runs",
    "C21_union_void_runs"
   ],
   "note": ""
  },
  {
   "property": "C22",
   "status": "proved",
   "theorems": [
    "C22_enum_passthrough",
    "C22_enum_passthrough_signed",
    "C22_generated_words",
    "C22_generated_values"
   ],
   "note": ""
  },
  {
   "property": "C23",
   "status": "proved",
   "theorems": [
    "C23_injective"
   ],
   "note": ""
  },
  {
   "property": "C24",
   "status": "proved",
   "theorems": [
    "C24_decoded_slices",
    "C24_shows_through",
    "C24_rest_unaffected",
    "C24_append"
   ],
   "note": ""
  },
  {
   "property": "C25",
   "status": "proved",
   "theorems": [
    "C25_writer_extends",
    "C25_frame",
    "C25_overlap_corrupts"
   ],
   "note": ""
  },
  {
   "property": "C26",
   "status": "proved",
   "theorems": [
    "C26_request_bytes",
    "C26_call_returns"
   ],
   "note": ""
  },
  {
   "property": "C27",
   "status": "proved",
   "theorems": [
    "C27_transaction_ids",
    "C27_distinct"
   ],
   "note": ""
  },
  {
   "property": "C28",
   "status": "proved",
   "theorems": [
    "C28_success_iff"
   ],
   "note": ""
  },
  {
   "property": "C29",
   "status": "proved",
   "theorems": [
    "C29_result_untouched"
   ],
   "note": ""
  },
  {
   "property": "C30",
   "status": "proved",
   "theorems": [
    "C30_one_record_per_call",
    "C30_in_step"
   ],
   "note": ""
  },
  {
   "property": "C31",
   "status": "proved",
   "theorems": [
    "C31_client_marks",
    "C31_server_marks"
   ],
   "note": ""
  },
  {
   "property": "C32",
   "status": "proved",
   "theorems": [
    "C32_call_steps",
    "C32_sequential",
    "C32_concurrent_mixed_up",
    "C32_concurrent_mixed_up_xids"
   ],
   "note": ""
  },
  {
   "property": "C33",
   "status": "proved",
   "theorems": [
    "C33_registration"
   ],
   "note": ""
  },
  {
   "property": "C34",
   "status": "proved",
   "theorems": [
    "C34_dispatch",
    "C34_nil_handler"
   ],
   "note": ""
  },
  {
   "property": "C35",
   "status": "proved",
   "theorems": [
    "C35_one_reply",
    "C35_no_reply",
    "C35_unencodable"
   ],
   "note": ""
  },
  {
   "property": "C36",
   "status": "proved",
   "theorems": [
    "C36_runs_on_decoded",
    "C36_garbage_args",
    "C36_iff",
    "C36_argument_unique"
   ],
   "note": ""
  },
  {
   "property": "C37",
   "status": "proved",
   "theorems": [
    "C37_reply_bytes"
   ],
   "note": ""
  },
  {
   "property": "C38",
   "status": "proved",
   "theorems": [
    "C38_mismatch_range"
   ],
   "note": ""
  },
  {
   "property": "C39",
   "status": "proved",
   "theorems": [
    "C39_end_to_end"
   ],
   "note": ""
  },
  {
   "property": "C40",
   "status": "proved",
   "theorems": [
    "C40_not_shared",
    "C40_request_bytes",
    "C40_private",
    "C40_requests_are_records"
   ],
   "note": ""
  },
  {
   "property": "C41",
   "status": "proved",
   "theorems": [
    "C41_valid_until_reply",
    "C41_reuse",
    "C41_retained_changes"
   ],
   "note": ""
  },
  {
   "property": "C42",
   "status": "proved",
   "theorems": [
    "C42_account",
    "C42_whole_replies",
    "C42_serial",
    "C42_quiescent",
    "C42_progress"
   ],
   "note": ""
  },
  {
   "property": "C43",
   "status": "proved",
   "theorems": [
    "C43_framing",
    "C43_every_stream"
   ],
   "note": ""
  },
  {
   "property": "C44",
   "status": "proved",
   "theorems": [
    "C44_credentials_ignored",
    "C44_never_auth_error",
    "C44_long_credential",
    "C44_long_verifier"
   ],
   "note": ""
  },
  {
   "property": "C45",
   "status": "proved",
   "theorems": [
    "C45_server",
    "C45_client"
   ],
   "note": ""
  },
  {
   "property": "C46",
   "status": "proved",
   "theorems": [
    "C46_result_and_error",
    "C46_stubs_never"
   ],
   "note": ""
  },
  {
   "property": "C47",
   "status": "proved",
   "theorems": [
    "C47_rfc1057_in_sync",
    "C47_rfc1813_in_sync"
   ],
   "note": ""
  },
  {
   "property": "C48",
   "status": "proved",
   "theorems": [
    "C48_same_effect",
    "C48_total",
    "C48_encodes",
    "C48_decodes",
    "C48_text",
    "C48_text_unique",
    "C48_text_effect"
   ],
   "note": "Supported specifications as defined by GElab.supported (names resolve without clashes or shadowing, no nested inline arrays, no fixed arrays other than opaque). The Go subset has the semantics of GoSem.v. The C48_text theorems carry this from the AST to the text written by the generator, read by a model of Go's scanner and grammar (GoLex, GoCst, GoRes)."
  },
  {
   "property": "C49",
   "status": "proved",
   "theorems": [
    "C49_nested_inline",
    "C49_every_nesting",
    "C49_values",
    "C49_boundary",
    "C49_text"
   ],
   "note": "C49_every_nesting and C49_text hold for every specification that meets the conditions of C48 except the one on nesting; C49_boundary shows that this condition is the only difference. Bounds (1,1) are excluded, where the code happens to be right, and so are inner elements made of voids only. C49_nested_inline gives a witness that is also encoded and decoded wrongly without a panic."
  },
  {
   "property": "C50",
   "status": "proved",
   "theorems": [
    "C50_fixed",
    "C50_deref",
    "C50_typed",
    "C50_every_element_refuted",
    "C50_all_other_refuted",
    "C50_rfc1057",
    "C50_rfc1813"
   ],
   "note": "Fixed-size arrays of anything but member-less structs are rejected; for all other declarations C50_typed says exactly which generated packages compile (programs included). Read literally both halves fail in corner cases: C50_every_element_refuted, C50_all_other_refuted give the witnesses."
  },
  {
   "property": "C51",
   "status": "proved",
   "theorems": [
    "C51_emission_panics",
    "C51_generator_fails"
   ],
   "note": ""
  },
  {
   "property": "C52",
   "status": "proved",
   "theorems": [
    "C52_cap",
    "C52_cap_collide",
    "C52_declared",
    "C52_members",
    "C52_uses",
    "C52_same",
    "C52_resolve",
    "C52_label",
    "C52_bound",
    "C52_collision"
   ],
   "note": "Over the generated texts read back as Go. TRUE and FALSE are the exception to capitalisation (they become true and false), so e.g. tRUE and TRUE do not collide. A lower-case label or bound is undeclared only if nothing else happens to have the emitted name, which C52_label and C52_bound assume."
  },
  {
   "property": "C53",
   "status": "proved",
   "theorems": [
    "C53_accepts",
    "C53_unique",
    "C53_rejects"
   ],
   "note": ""
  },
  {
   "property": "C54",
   "status": "proved",
   "theorems": [
    "C54_blanks",
    "C54_newline",
    "C54_enum_no_semicolon",
    "C54_enum_newline"
   ],
   "note": ""
  },
  {
   "property": "C55",
   "status": "proved",
   "theorems": [
    "C55_order",
    "C55_contents",
    "C55_failure",
    "C55_failure_cleans_up",
    "C55_unformatted_cleans_up",
    "C55_success",
    "C55_runs_end",
    "C55_stale_output",
    "C55_stale_types",
    "C55_killed",
    "C55_half_written",
    "C55_both_formatted_refuted"
   ],
   "note": "Formatting is per file: the types file is formatted after the output file was written; the joint reading is refuted in C55_both_formatted_refuted."
  },
  {
   "property": "C56",
   "status": "proved",
   "theorems": [
    "C56_registrations",
    "C56_served",
    "C56_scopes",
    "C56_rfc1057",
    "C56_rfc1813"
   ],
   "note": "Stubs and registration functions as read from the generated (and committed) texts, run with the Go semantics of GoStub.v. Numbers outside uint32 do not compile and are excluded; argument and result types are named types (others do not compile)."
  },
  {
   "property": "C57",
   "status": "proved",
   "theorems": [
    "C57_rfc1057",
    "C57_rfc1813",
    "C57_rfc1057_files",
    "C57_rfc1813_files",
    "C57_rfc1057_effect",
    "C57_rfc1813_effect"
   ],
   "note": "Computed from the committed prot.x texts. The C57_*_files and _effect theorems are about the committed xdr.go and types.go texts themselves."
  },
  {
   "property": "C58",
   "status": "proved",
   "theorems": [
    "C58_generated",
    "C58_rfc1057",
    "C58_rfc1813",
    "C58_deep_equal"
   ],
   "note": "The targets run the committed Go text with the semantics of GoSem.v; reflect.DeepEqual is equality of model values (nil and empty slices differ). Types outside the package environments do not occur."
  },
  {
   "property": "C59",
   "status": "proved",
   "theorems": [
    "C59_generated",
    "C59_portmap",
    "C59_nfs",
    "C59_mount"
   ],
   "note": "Composition of C56 and C39: handlers are the generated stubs as run by GoStub.v; requests and replies below 2 GiB, arguments and results within their bounds, result variables without pointers; one call at a time per client (concurrent calls are C32)."
  },
  {
   "property": "C60",
   "status": "proved",
   "theorems": [
    "C60_bounded",
    "C60_generated_handlers",
    "C60_no_crash",
    "C60_ends",
    "C60_complete",
    "C60_calls_answered"
   ],
   "note": "The goroutine model of Conc.v (its readings of sync.Pool, Write and Read apply); handlers return for every argument and state, none is nil. Peers whose input ends (EOF or error); a peer that stalls forever is a reader that takes no further action, which C60_ends does not call the end."
  },
  {
   "property": "C61",
   "status": "proved",
   "theorems": [
    "C61_wire",
    "C61_roundtrip",
    "C61_test_strings",
    "C61_test_vararrays"
   ],
   "note": "The wrapper methods are read as calls of the primitives on the converted receiver."
  },
  {
   "property": "C62",
   "status": "proved",
   "theorems": [
    "C62_linearizable",
    "C62_program",
    "C62_atomic",
    "C62_sequence",
    "C62_sequence_bytes",
    "C62_bounded",
    "C62_returns",
    "C62_can_return"
   ],
   "note": "Net.v joins the client steps of CliConc.v and the server's goroutines of Conc.v by byte queues; one call at a time per client (two on one Client: C32). Messages below 2 GiB (C31). The client's writes do not fail; the server's may, after which its client may wait for ever. Handlers update the shared state in one action (C40 has handlers of many). C62_bounded, C62_returns: no fairness is assumed; every sequence of steps without new calls is finite and ends in returned calls."
  },
  {
   "property": "C63",
   "status": "proved",
   "theorems": [
    "C63_one_message",
    "C63_one_verdict",
    "C63_call",
    "C63_stream",
    "C63_turned_down",
    "C63_any_calls",
    "C63_empty_server"
   ],
   "note": "ReplySpec.v states messages, verdicts and the ways of a call without reference to the model's decoder. Which XDR error a garbled message gives is left open (C02 lists the decoder's errors). GARBAGE_ARGS covers handlers that behave like generated stubs. Error texts are not modelled, only the numbers in them."
  },
  {
   "property": "C64",
   "status": "proved",
   "theorems": [
    "C64_programs",
    "C64_deterministic",
    "C64_example_client",
    "C64_example_server",
    "C64_examples_together"
   ],
   "note": "Sequential programs: one client program at a time against the servers (concurrent clients are C62). direct is given as a weakest precondition, so that it covers every representation of an answer. net.Dial succeeds exactly when something listens. The serving loop of the example server is C33, C60 and C62; here it is the end of the program."
  },
  {
   "property": "C65",
   "status": "proved",
   "theorems": [
    "C65_text",
    "C65_xdrRW",
    "C65_xdrR",
    "C65_numbers",
    "C65_var_array",
    "C65_array",
    "C65_string",
    "C65_state",
    "C65_helper"
   ],
   "note": "The trees run are checked to be the files (tokens and operator grouping). The rules of Go are those of SrcSem.v: int has 64 bits, evaluation left to right, numbers wrap at the width of their type, slices are bounds-checked against the capacity. Slices given to xdrRW and XdrArray must not overlap the buffer of the state (clear). Xdr methods of other packages, called by helper.go, are a parameter."
  },
  {
   "property": "C66",
   "status": "proved",
   "theorems": [
    "C66_text",
    "C66_assumptions",
    "C66_MakeClient",
    "C66_Call"
   ],
   "note": "Run by SrcSem.v like C65. Assumed of functions elsewhere (record meets, SrcRpc.v): package xdr by its text; generated Xdr methods, the connection, io.ReadFull and handlers by the models of Interp.v, Io.v and Server.v; C66_assumptions shows that such functions exist. Arguments and result are different variables."
  },
  {
   "property": "C67",
   "status": "proved",
   "theorems": [
    "C67_text",
    "C67_MakeServer",
    "C67_Register",
    "C67_RegisterMany",
    "C67_handleReqErr",
    "C67_handleReq",
    "C67_getReqBuf",
    "C67_Run"
   ],
   "note": "Run by SrcSem.v like C65 and C66, with the same assumptions (meets) on functions elsewhere. A go statement is recorded as an event; each goroutine is run by itself (C67_handleReq). Interleaving of goroutines is Conc.v (C40, C42). The pool may hand out any buffer or none. The handlers are pure functions from user state and arguments to user state and results, as in Server.v."
  },
  {
   "property": "C68",
   "status": "proved",
   "theorems": [
    "C68_text",
    "C68_types",
    "C68_emit",
    "C68_generate"
   ],
   "note": "The trees run are checked to be the files. The values are those of the actions of xdr.y (uspec, udecl, emit_call) (C70). Writers are a parameter; in C68_generate they append to files. fmt.Fprintf does not fail (failing writes are C55)."
  },
  {
   "property": "C69",
   "status": "proved",
   "theorems": [
    "C69_lex",
    "C69_tokens",
    "C69_codes",
    "C69_main",
    "C69_runs",
    "C69_order",
    "C69_success"
   ],
   "note": "The trees run are checked to be the files (C68_text, C70_text). Functions of flag, os, ioutil, go/format, go/scanner are specified (os_ext, scans); a command line flag.Parse rejects is not modelled. xdrParse is the driver of C72 with any tables that pass lr_ok."
  },
  {
   "property": "C70",
   "status": "proved",
   "theorems": [
    "C70_text",
    "C70_tokens",
    "C70_grammar",
    "C70_actions"
   ],
   "note": "The tree is checked to be the file, token by token but for line ends. Actions are evaluated by MainSem.v; the value of a reduction without $$ = is $1, which nothing reads. Actions of a tree run in the order a bottom-up parser reduces."
  },
  {
   "property": "C71",
   "status": "proved",
   "theorems": [
    "C71_tables",
    "C71_parse",
    "C71_actions",
    "C71_unambiguous"
   ],
   "note": "The tables shown are made by tools/lalr.py, not goyacc's own; the theorems hold for all tables with items behind them that pass lr_ok. The driver is goyacc's without error recovery (lexer.Error panics)."
  },
  {
   "property": "C72",
   "status": "proved",
   "theorems": [
    "C72_parse",
    "C72_total"
   ],
   "note": "goyacc itself is not read: its driver is xdr_parse (tokens on demand, default reductions with or without lookahead, lval as a variable, error recovery left out because lexer.Error panics), its tables any that pass lr_ok. Lex and Error are the text of scan.go, the actions those of xdr.y, run with the text of out.go."
  },
  {
   "property": "C73",
   "status": "proved",
   "theorems": [
    "C73_text",
    "C73_client",
    "C73_server",
    "C73_unique",
    "C73_client_runs",
    "C73_server_runs"
   ],
   "note": "The trees run are checked to be the files. ExSem.v is the meaning of the Go these two files use; net.Dial, Accept, Listen, Call and Printf are what the program asks of the outside. Prog.v keeps the values printed, not the formats. Addresses must be on localhost; xdr.Uint32 and xdr.Bool have the methods of rfc1057.Uint32 and Xbool. Static types are not checked."
  },
  {
   "property": "C74",
   "status": "proved",
   "theorems": [
    "C74_same",
    "C74_memory",
    "C74_text",
    "C74_rfc1057",
    "C74_rfc1813",
    "C74_assumption",
    "C74_Call",
    "C74_handleReqErr"
   ],
   "note": "GoSemH.v is the interpreter of GoSem.v with Heap.v's library; a method gets its pointee and puts it back, so aliasing is only that of byte slices. Objects behind the interface xdr.Xdrable (arguments and results of Call) are still run by the interpreter of types, in memory (hxdr). Rpc_msg.Xdr runs with fuel 30, shown to be always enough."
  },
  {
   "property": "C75",
   "status": "proved",
   "theorems": [
    "C75_exact",
    "C75_rfc1057",
    "C75_rfc1813",
    "C75_decoded",
    "C75_decoded_rfc1057",
    "C75_decoded_rfc1813",
    "C75_encoded"
   ],
   "note": "GSimK.v repeats the proof of C48 (GSimA-C) over pairs of memory and state, GSimH.v equates its interpreters with GoSemH.v and Heap.v. The fuel is some fuel and all larger ones; that every method returns is C48 and C74."
  },
  {
   "property": "C76",
   "status": "proved",
   "theorems": [
    "C76_end_to_end",
    "C76_registrations",
    "C76_ready",
    "C76_generated",
    "C76_portmap",
    "C76_nfs",
    "C76_mount"
   ],
   "note": "Composes C66, C67, C74 with C39 and C59. Each goroutine runs with the bytes its buffer had when it was started, in a block of its own (C40 is about the pool and other schedules); the values behind interfaces, the handlers and io.ReadFull are those of C66 and C67. Fuel: some for the server, then some for the client, and all larger ones."
  },
  {
   "property": "C77",
   "status": "proved",
   "theorems": [
    "C77_texts",
    "C77_xdr_tests",
    "C77_any_string",
    "C77_any_large_string",
    "C77_any_array",
    "C77_any_large_array",
    "C77_rfc1057",
    "C77_rfc1813",
    "C77_asserts"
   ],
   "note": "TestAst.v: the trees are those of C65-C67 with composite literals, & of them and function literals added; package xdr is called as the functions of XdrLib.v (tied to their text by C65) and the Xdr methods as in C48 and C58. Not modelled: the testing package itself (scheduling of the targets, mutation of inputs), the messages given to panic, slicing past the length. Go's type checking is not repeated. The second seed of rfc1057 is 8 bytes long: its message type is 2, so the credentials set before it never reach the wire."
  },
  {
   "property": "C78",
   "status": "proved",
   "theorems": [
    "C78_go",
    "C78_unique",
    "C78_xdr",
    "C78_xdr_go",
    "C78_constants",
    "C78_sizes",
    "C78_values",
    "C78_limits",
    "C78_labels",
    "C78_no_minus",
    "C78_nonneg"
   ],
   "note": "NumLit.v states the two grammars as inductive relations; num_val (GoSem.v) is proved to decide the first on digit-headed texts. NumLitC.v: the meaning of a name by the definitions of the specification, proved equal to cval, whose fuel is the number of constants (a chain without repetition is no longer). Whether a value fits its Go type is part of compiles (P_GoType.v). NumLitX.v: the same for the names as a specification has them, up to the types of GElab.v."
  },
  {
   "property": "C79",
   "status": "proved",
   "theorems": [
    "C79_all",
    "C79_needs",
    "C79_options",
    "C79_asks",
    "C79_string_options",
    "C79_boolean_options",
    "C79_stop",
    "C79_committed",
    "C79_make",
    "C79_types_fails"
   ],
   "note": "Make.v: a reader for the forms of rule the Makefile has, pattern rules, the automatic variables it uses, and FlagSet.Parse; MakeText.v is the file (tools/embed.py). Not modelled: which targets are out of date, the rule that builds the generator, go vet, quoting by the shell. That types.go cannot be made is a defect of the rule: -o $@ should be -o $(@D)/xdr.go."
  }
 ]
}