(** C22 at the level of the generated text, and C58: the fuzz targets of the repository.

    [spec_prog], [generate], [declares]: as in P_GenText.v; [call (gp_pkg P) m (cap n)]: the method
    Xdr of the type generated for [n], with [m] nested calls at most.  [fuzz]: the body of
    FuzzDecodeEncode for one input (decode, encode, decode again, compare with
    reflect.DeepEqual, which is [deep_equal]); its verdicts other than [Skipped] and [Passed] are
    the two calls of panic, and [GPanic] would be a run-time panic. *)
From Verif Require Import GoLex XLex Gram GParse Emit GoAst GoRes GoPkg GoWf RepoText.
From Verif Require Import Bytes XdrLib Types Interp Spec Runs GoSem RpcTypes GenCommitted GenText GenFuzz Check.
Open Scope string_scope.
Open Scope Z_scope.
Open Scope list_scope.

(** The generated method of an enum accepts and reproduces every 4-byte word, whatever items the enum declares. *)
Theorem C22_generated_words : forall fl src ds E P o P' p n items, ok_flags fl = true -> front src = Some ds -> spec_prog fl src = Some (E, P) ->
  generate fl src = Some o -> declares p (files_of o) P' -> In (defEnum n items) ds ->
  forall w, List.length w = 4%nat -> exists z, enum_range (fl_unsigned fl) z /\ is_be 4 (z mod 2 ^ 32) w /\
  (forall a, exists M, forall m, (M <= m)%nat -> call (gp_pkg P') m (cap n) (MakeWriter a) (VInt z) = GRet (MakeWriter (a ++ w), VInt z)) /\
  (forall rest v0, exists M, forall m, (M <= m)%nat -> call (gp_pkg P') m (cap n) (MakeReader (w ++ rest)) (VInt v0) = GRet (MakeReader rest, VInt z)).
Proof. exact text_enum. Qed.
Print Assumptions C22_generated_words.
(** And it writes and reads back every integer of the Go type. *)
Theorem C22_generated_values : forall fl src ds E P o P' p n items, ok_flags fl = true -> front src = Some ds -> spec_prog fl src = Some (E, P) ->
  generate fl src = Some o -> declares p (files_of o) P' -> In (defEnum n items) ds ->
  forall z, enum_range (fl_unsigned fl) z -> exists w, is_be 4 (z mod 2 ^ 32) w /\
  (forall a, exists M, forall m, (M <= m)%nat -> call (gp_pkg P') m (cap n) (MakeWriter a) (VInt z) = GRet (MakeWriter (a ++ w), VInt z)) /\
  (forall rest v0, exists M, forall m, (M <= m)%nat -> call (gp_pkg P') m (cap n) (MakeReader (w ++ rest)) (VInt v0) = GRet (MakeReader rest, VInt z)).
Proof. exact text_enum_all. Qed.
Print Assumptions C22_generated_values.
(** The reply statuses of RFC 1057: 77 is none of them. *)
Example C22_generated_ex : exists ds items, ok_flags (make_flags "rfc1057") = true /\ front rfc1057_prot_x = Some ds /\ In (defEnum "accept_stat" items) ds /\ List.length items = 5%nat /\
  declares "rfc1057" [rfc1057_xdr_go; rfc1057_types_go] fx_rpc /\
  call (gp_pkg fx_rpc) 9 "Accept_stat" (MakeReader [x00; x00; x00; x4d; x01]) (VInt 0) = GRet (MakeReader [x01], VInt 77).
Proof.
  eexists. eexists. split; [reflexivity|]. split; [vm_compute; reflexivity|]. split; [do 8 (try (left; reflexivity); right); left; reflexivity|]. split; [reflexivity|].
  split; [exact fx_rpc_declared|]. vm_compute. reflexivity.
Qed.

(** No input makes the fuzz target of any generated type fail, and exactly the inputs that start with an encoding get past the first step. *)
Theorem C58_generated : forall fl src E P o P' p D t data, ok_flags fl = true -> spec_prog fl src = Some (E, P) -> generate fl src = Some o -> declares p (files_of o) P' ->
  good D E (CIdent (cap t)) -> exists r, (r = Skipped \/ r = Passed) /\
  (r = Passed <-> exists w rest y, data = w ++ rest /\ Wire DEC E (CIdent (cap t)) y w /\ has_ty E (CIdent (cap t)) y) /\
  exists M, forall m, (M <= m)%nat -> fuzz (gp_pkg P') m (cap t) data = GRet r.
Proof. exact text_fuzz. Qed.
Print Assumptions C58_generated.
(** The two targets of the repository, on the committed files (Rpc_msg, READDIRPLUS3res; and every other type of the packages). *)
Theorem C58_rfc1057 : forall P, declares "rfc1057" [rfc1057_xdr_go; rfc1057_types_go] P -> forall t data, In (cap t) (map fst rpc_env) -> exists r, (r = Skipped \/ r = Passed) /\
  (r = Passed <-> exists w rest y, data = w ++ rest /\ Wire DEC rpc_env (CIdent (cap t)) y w /\ has_ty rpc_env (CIdent (cap t)) y) /\
  exists M, forall m, (M <= m)%nat -> fuzz (gp_pkg P) m (cap t) data = GRet r.
Proof. exact fuzz_1057. Qed.
Print Assumptions C58_rfc1057.
Theorem C58_rfc1813 : forall P, declares "rfc1813" [rfc1813_xdr_go; rfc1813_types_go] P -> forall t data, In (cap t) (map fst rfc1813_env) -> exists r, (r = Skipped \/ r = Passed) /\
  (r = Passed <-> exists w rest y, data = w ++ rest /\ Wire DEC rfc1813_env (CIdent (cap t)) y w /\ has_ty rfc1813_env (CIdent (cap t)) y) /\
  exists M, forall m, (M <= m)%nat -> fuzz (gp_pkg P) m (cap t) data = GRet r.
Proof. exact fuzz_1813. Qed.
Print Assumptions C58_rfc1813.
(** [deep_equal] is the strictest comparison there is, so the second panic is not avoided by a loose one. *)
Theorem C58_deep_equal : forall a b, deep_equal a b = true <-> a = b.
Proof. exact deep_equal_iff. Qed.
Print Assumptions C58_deep_equal.
(** The types of the targets, their seeds (fuzz_test.go; the encodings do not fail), and what becomes of them. *)
Example C58_ex : In (cap "rpc_msg") (map fst rpc_env) /\ In (cap "READDIRPLUS3res") (map fst rfc1813_env) /\
  declares "rfc1057" [rfc1057_xdr_go; rfc1057_types_go] fx_rpc /\ declares "rfc1813" [rfc1813_xdr_go; rfc1813_types_go] fx_nfs /\
  encode_buf (gp_pkg fx_rpc) 60 "Rpc_msg" (fx_var fx_rpc "Rpc_msg") = GRet (repeat x00 40, None) /\ fuzz (gp_pkg fx_rpc) 60 "Rpc_msg" (repeat x00 40) = GRet Passed /\
  encode_buf (gp_pkg fx_rpc) 60 "Rpc_msg" fx_msg = GRet ([x00; x00; x00; x01; x00; x00; x00; x02], None) /\
  fuzz (gp_pkg fx_rpc) 60 "Rpc_msg" [x00; x00; x00; x01; x00; x00; x00; x02] = GRet Passed /\
  fuzz (gp_pkg fx_rpc) 60 "Rpc_msg" (repeat x00 39) = GRet Skipped /\ fuzz (gp_pkg fx_rpc) 60 "Rpc_msg" [] = GRet Skipped /\
  encode_buf (gp_pkg fx_nfs) 60 "READDIRPLUS3res" fx_res = GRet (repeat x00 19 ++ [x01] ++ repeat x00 31 ++ [x01] ++ repeat x00 36, None) /\
  fuzz (gp_pkg fx_nfs) 60 "READDIRPLUS3res" (repeat x00 19 ++ [x01] ++ repeat x00 31 ++ [x01] ++ repeat x00 36) = GRet Passed /\
  deep_equal (VSlice None) (VSlice (Some [])) = false.
Proof. split; [vm_compute; tauto|]. split; [vm_compute; tauto|]. split; [exact fx_rpc_declared|]. split; [exact fx_nfs_declared|]. repeat split; vm_compute; reflexivity. Qed.
