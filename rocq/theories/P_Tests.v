(** C77: the tests of the repository, as text.

    [is_test text f]: the scanner reads [text] as exactly the tokens of the tree [f], and the tree
    groups as Go's precedences say.  [run_test f Z0 K X x]: function [x] of the test file [f], run
    from its start ([Z0], [K], [X]: zero values, constants and Xdr methods of the package under
    test; xdr_test.go uses none of them); [asserts]: whether each assertion held, in order;
    [seeds]: what was given to f.Add.  [test_in f G m], [fuzz_in f G m]: with the generated package
    [G], at most [m] nested calls; [fuzz_in f G m st data] runs the function literal given to f.Fuzz
    on [data], in the variables [st] FuzzDecodeEncode left, and yields what it leaves and whether
    it returned before its end; calling panic, or a run-time panic, would be [GPanic].
    [relit_in lit f]: the tests with [lit] in place of their literal; [literal lit v]: it is a
    literal, with the value [v]. *)
From Coq Require Import String List ZArith.
From Verif Require Import GoLex GoAst GoPkg RepoText Bytes XdrLib Types Interp Spec Runs GoSem RpcTypes GenCommitted GenFuzz.
From Verif Require Import TestText SrcAst TestAst TestTree TestP TestQ.
Import ListNotations.
Open Scope string_scope.
Open Scope Z_scope.
Open Scope list_scope.

(** The trees are the files. *)
Theorem C77_texts : is_test xdr_test_go xdr_tests /\ is_test rfc1057_fuzz_go rpc_fuzz /\ is_test rfc1813_fuzz_go nfs_fuzz.
Proof. exact (conj xdr_tests_text (conj rpc_fuzz_text nfs_fuzz_text)). Qed.
Print Assumptions C77_texts.

(** The four tests of package xdr pass. *)
Theorem C77_xdr_tests : forall Z0 K X, map (fun d => match run_test xdr_tests Z0 K X (fst d) with GRet st => Some (fst d, asserts st) | _ => None end) (t_funcs xdr_tests) =
  [Some ("TestXdrString", [true; true; true]); Some ("TestLargeStringLength", [true]); Some ("TestXdrVarArray", [true; true; true]); Some ("TestLargeVarArrayLength", [true])].
Proof. exact xdr_tests_pass. Qed.
Print Assumptions C77_xdr_tests.

(** They would pass with any other string or slice of at most 100 bytes in them; the two that cut the buffer at 6 bytes need one byte at least. *)
Theorem C77_any_string : forall Z0 K X lit bs, literal lit (VStr bs) -> zlen bs <= 100 -> exists st,
  run_test (relit_in lit xdr_tests) Z0 K X "TestXdrString" = GRet st /\ asserts st = [true; true; true].
Proof. exact any_string. Qed.
Print Assumptions C77_any_string.
Theorem C77_any_large_string : forall Z0 K X lit bs, literal lit (VStr bs) -> 1 <= zlen bs <= 100 -> exists st,
  run_test (relit_in lit xdr_tests) Z0 K X "TestLargeStringLength" = GRet st /\ asserts st = [true].
Proof. exact any_large_string. Qed.
Print Assumptions C77_any_large_string.
Theorem C77_any_array : forall Z0 K X lit bs, literal lit (VBytes (Some bs)) -> zlen bs <= 100 -> exists st,
  run_test (relit_in lit xdr_tests) Z0 K X "TestXdrVarArray" = GRet st /\ asserts st = [true; true; true].
Proof. exact any_array. Qed.
Print Assumptions C77_any_array.
Theorem C77_any_large_array : forall Z0 K X lit bs, literal lit (VBytes (Some bs)) -> 1 <= zlen bs <= 100 -> exists st,
  run_test (relit_in lit xdr_tests) Z0 K X "TestLargeVarArrayLength" = GRet st /\ asserts st = [true].
Proof. exact any_large_array. Qed.
Print Assumptions C77_any_large_array.
(** Literals; and a string of 101 bytes, with which the test would fail. *)
Example C77_literal_ex : literal (TX (EStr """two words""")) (VStr (list_byte_of_string "two words")) /\ literal (TLit bytes_t [EInt "0xff"; EInt "7"]) (VBytes (Some [xff; x07])) /\
  forall Z0 K X, match run_test (relit_in (TLit bytes_t (repeat (EInt "7") 101)) xdr_tests) Z0 K X "TestXdrVarArray" with GRet st => asserts st | _ => [] end = [false; false; false].
Proof. split; [apply string_literal; reflexivity|]. split; [apply bytes_literal; reflexivity|]. intros. vm_compute. reflexivity. Qed.

(** FuzzDecodeEncode of the two packages, with the committed generated files: it ends without panic and hands over the seeds shown;
    the function given to f.Fuzz panics on no input, leaves every variable outside it as it was, and runs to its end on exactly the inputs that start with an encoding. *)
Theorem C77_rfc1057 : forall P, declares "rfc1057" [rfc1057_xdr_go; rfc1057_types_go] P -> exists st,
  (forall m, (60 <= m)%nat -> test_in rpc_fuzz (gp_pkg P) m "FuzzDecodeEncode" = GRet st) /\
  seeds st = [repeat x00 40; [x00; x00; x00; x01; x00; x00; x00; x02]; []] /\
  forall data, exists early, (early = false <-> exists w rest y, data = w ++ rest /\ Wire DEC rpc_env (CIdent "Rpc_msg") y w /\ has_ty rpc_env (CIdent "Rpc_msg") y) /\
  exists M, forall m, (M <= m)%nat -> fuzz_in rpc_fuzz (gp_pkg P) m st data = GRet (st, early).
Proof. exact rpc_fuzz_runs. Qed.
Print Assumptions C77_rfc1057.
Theorem C77_rfc1813 : forall P, declares "rfc1813" [rfc1813_xdr_go; rfc1813_types_go] P -> exists st,
  (forall m, (60 <= m)%nat -> test_in nfs_fuzz (gp_pkg P) m "FuzzDecodeEncode" = GRet st) /\
  seeds st = [repeat x00 24; repeat x00 19 ++ [x01] ++ repeat x00 31 ++ [x01] ++ repeat x00 36; []] /\
  forall data, exists early, (early = false <-> exists w rest y, data = w ++ rest /\ Wire DEC rfc1813_env (CIdent "READDIRPLUS3res") y w /\ has_ty rfc1813_env (CIdent "READDIRPLUS3res") y) /\
  exists M, forall m, (M <= m)%nat -> fuzz_in nfs_fuzz (gp_pkg P) m st data = GRet (st, early).
Proof. exact nfs_fuzz_runs. Qed.
Print Assumptions C77_rfc1813.
(** The packages; the seeds run through the function; and a package whose encoder writes a zero byte for everything, with which it panics. *)
Example C77_ex : declares "rfc1057" [rfc1057_xdr_go; rfc1057_types_go] fx_rpc /\ declares "rfc1813" [rfc1813_xdr_go; rfc1813_types_go] fx_nfs /\
  map (fuzz_in rpc_fuzz (gp_pkg fx_rpc) 60 rpc_left) (seeds rpc_left) = map (fun e => GRet (rpc_left, e)) [false; false; true] /\
  map (fuzz_in nfs_fuzz (gp_pkg fx_nfs) 60 nfs_left) (seeds nfs_left) = map (fun e => GRet (nfs_left, e)) [false; false; true] /\
  run_fuzz "rfc1057" fuzz_imports (fun _ => GRet (VStr [])) (fun _ => None) bad_X rpc_left [x01] = GPanic /\
  run_fuzz "rfc1057" fuzz_imports (fun _ => GRet (VStr [])) (fun _ => None) bad_X rpc_left [x00] = GRet (rpc_left, false).
Proof. split; [exact fx_rpc_declared|]. split; [exact fx_nfs_declared|]. repeat split; vm_compute; reflexivity. Qed.

(** Which calls are assertions, for every call in every state: an outcome is recorded only by assert.NoError, assert.Error and assert.Equal of
    the package the file imports under that name, called with the test's t; the outcome is whether the error is nil, is not nil, the values are deeply equal. *)
Theorem C77_asserts : forall pkg imports Z0 K X st f args st' r, tcall pkg imports Z0 K X st f args = GRet (st', r) ->
  asserts st' = asserts st \/
  exists g t rest b, f = ESel (EId "assert") g /\ args = TX (EId t) :: rest /\ imported imports st "assert" assert_path = true /\ testing st t "T" = true /\ holds pkg K st g rest b /\ asserts st' = (asserts st ++ [b])%list.
Proof. exact asserted. Qed.
Print Assumptions C77_asserts.
Definition c77_st : tst := mkTst [("t", ("T", OTest)); ("err", ("error", OErr None)); ("s", ("string", OVal (VStr [x61])))] 3 [] None [].
Example C77_asserts_ex : let call imports p g args := match tcall "p" imports (fun _ => GStuck) (fun _ => None) bad_X c77_st (ESel (EId p) g) args with GRet (st, _) => Some (asserts st) | _ => None end in
  call [assert_path] "assert" "NoError" [TX (EId "t"); TX (EId "err")] = Some [true] /\ call [assert_path] "assert" "Error" [TX (EId "t"); TX (EId "err")] = Some [false] /\
  call [assert_path] "assert" "Equal" [TX (EId "t"); TX (EId "s"); TX (EId "s")] = Some [true] /\
  call [] "assert" "NoError" [TX (EId "t"); TX (EId "err")] = None /\ call [assert_path] "require" "NoError" [TX (EId "t"); TX (EId "err")] = None /\ call [assert_path] "assert" "NoError" [TX (EId "s"); TX (EId "err")] = None.
Proof. repeat split; vm_compute; reflexivity. Qed.
