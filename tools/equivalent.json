{
 "Server.dispatch|string changed at 2782: \"Stat\" -> \"Stat_\"": "setting a field that does not exist leaves the zero value, which is the value being set",
 "E2E.link_conn|string changed at 2160: \"server crashed\" -> \"server crashed_\"": "only the text of an error that no theorem names; the connection fails either way",
 "Client.req_msg|string changed at 1694: \"Body\" -> \"Body_\"": "setting a field that does not exist leaves Mtype zero, which is CALL",
 "example/client/main.go:main|string in line 112: \"res = %v\\n\" -> \"res = %v\\n_\"": "only the format of a line printed for the user, which no theorem is about",
 "example/client/main.go:main|string in line 99: \"bar = %v\\n\" -> \"bar = %v\\n_\"": "only the format of a line printed for the user, which no theorem is about",
 "example/client/main.go:main|string in line 89: \"flavor %d\\n\" -> \"flavor %d\\n_\"": "only the format of a line printed for the user, which no theorem is about",
 "example/client/main.go:main|string in line 92: \"root fh %v\\n\" -> \"root fh %v\\n_\"": "only the format of a line printed for the user, which no theorem is about",
 "example/client/main.go:main|string in line 82: \"mount status %d\" -> \"mount status %d_\"": "only the message of a panic; the program ends either way",
 "example/client/main.go:lookup|string in line 52: \"lookup status %d\" -> \"lookup status %d_\"": "only the message of a panic; the program ends either way",
 "example/server/main.go:main|string in line 56: \"Could not set pmap mapping for mount\" -> \"Could not set pmap mapping for mount_\"": "only the message of a panic; the program ends either way",
 "example/server/main.go:main|string in line 63: \"Could not set pmap mapping for NFS\" -> \"Could not set pmap mapping for NFS_\"": "only the message of a panic; the program ends either way",
 "example/client/main.go:main|line dropped in line 70: cred_none.Flavor = rfc1057.AUTH_NONE -> ": "AUTH_NONE is 0, the value the field has already",
 "example/client/main.go:pmap_client|line dropped in line 14: cred.Flavor = rfc1057.AUTH_NONE -> ": "AUTH_NONE is 0, the value the field has already",
 "example/server/main.go:pmap_set_unset|line dropped in line 14: cred.Flavor = rfc1057.AUTH_NONE -> ": "AUTH_NONE is 0, the value the field has already",
 "example/client/main.go:main|line dropped in line 66: panic(err) -> ": "encoding the credential of the program cannot fail, so the branch is never taken",
 "xdr.y:KWFLOAT|token not declared in line 39: %token KWFLOAT -> ": "not equivalent: this run recompiled YaccSem only; token_names (C70_tokens, in YaccParse) fails, there being one name fewer than y_names has",
 "xdr.y:KWCASE|token not declared in line 31: %token KWCASE -> ": "not equivalent: this run recompiled YaccSem only; token_names (C70_tokens, in YaccParse) fails, there being one name fewer than y_names has",
 "xdr.y:KWSTRUCT|token not declared in line 28: %token KWSTRUCT -> ": "not equivalent: this run recompiled YaccSem only; token_names (C70_tokens, in YaccParse) fails, there being one name fewer than y_names has",
 "xdr.y:KWUNSIGNED|token not declared in line 36: %token KWUNSIGNED -> ": "not equivalent: this run recompiled YaccSem only; token_names (C70_tokens, in YaccParse) fails, there being one name fewer than y_names has",
 "xdr.y:typespec|action dropped in line 125: { $$ = $1 } -> ": "the default action of yacc is the same",
 "GenFuzz.fx_res|string changed at 17711: \"Entryplus3\" -> \"Entryplus3_\"": "data of an example: the example of the fuzz target still holds, and C77 now runs the text of the target itself; no theorem uses it",
 "GenFuzz.fx_msg|number plus one at 17326: 3 -> 4": "data of an example: the example of the fuzz target still holds, and C77 now runs the text of the target itself; no theorem uses it",
 "GenFuzz.fx_msg|string changed at 17361: \"Cbody\" -> \"Cbody_\"": "data of an example: the example of the fuzz target still holds, and C77 now runs the text of the target itself; no theorem uses it",
 "GenFuzz.fx_msg|string changed at 17309: \"Rpcvers\" -> \"Rpcvers_\"": "data of an example: the example of the fuzz target still holds, and C77 now runs the text of the target itself; no theorem uses it",
 "YaccParse.ex_toks|string changed at 2369: \"A\" -> \"A_\"": "data of an example of the parser; no theorem uses it",
 "YaccParse.ex_tree|number plus one at 2431: 1 -> 2": "data of an example of the parser; no theorem uses it",
 "YaccParse.ex_tree|number plus one at 2440: 0 -> 1": "data of an example of the parser; no theorem uses it",
 "GoSem.num_val|true to false at 2341: true -> false": "concerns texts that start with a minus sign only; num_val is applied to texts with a leading digit only, and C78_go fixes the value of those",
 "ExSem.program1|number plus one at 18196: 3 -> 4": "fuel for calls: more of it changes no run that ended",
 "GElab.reserved|string changed at 5041: \"main\" -> \"main_\"": "a hypothesis of the theorems becomes weaker; they still hold",
 "main.go:main|string in line 33: \"Must specify output file (-o)\\n\" -> \"Must specify output file (-o)\\n_\"": "text of a message on standard error; the claim is that the run stops without writing",
 "main.go:main|string in line 28: \"Must specify input file (-i)\\n\" -> \"Must specify input file (-i)\\n_\"": "text of a message on standard error; the claim is that the run stops without writing"
}