(** C32, C39: several calls on one client, and client and server together.  Vocabulary:
    E2E.v ([link_conn], [chunker], [idle], [invokes_all], [delivered]), CliConc.v ([alone],
    [run_sched]: Call cut into steps), CallSpec.v, ServSpec.v, RpcSpec.v. *)
From Verif Require Import Bytes XdrLib Types Interp Spec Runs RpcTypes RpcSpec Io Client RpcDec CallSpec ClientP ClientQ Server ServSpec
  ServerX ExRpc ServerEx E2E CliConc CliEx.
Open Scope string_scope.
Open Scope Z_scope.
Open Scope list_scope.

(** The steps of CliConc.v, taken without interruption, are Call. *)
Theorem C32_call_steps : forall S (C : conn S) c s q c' s' v e,
  Calls C c s q c' s' v e <-> exists k n, alone k n C (c, s, TStart q) = (c', s', TDone v e).
Proof. exact @c32_alone. Qed.
Print Assumptions C32_call_steps.

(** One call after another, with any replies: call [k] returns nil only on a SUCCESS reply
    with its own transaction id, and then what that reply holds; such a reply is not a reply
    to any other call within 2^32 calls. *)
Theorem C32_sequential : forall qs c cs en out ms rest c' s' rs,
  client_ok c -> Forall req_ok qs -> Forall encodable qs ->
  chunks_ok cs -> List.length ms = List.length qs ->
  List.concat cs = List.concat (map record ms) ++ rest -> Forall (fun m => zlen m < 2 ^ 31) ms ->
  CallSeq stream_conn c (mkStream cs en out) qs c' s' rs ->
  forall j k m v, nth_error ms k = Some m -> nth_error rs k = Some (v, None) ->
  (forall q, nth_error qs k = Some q -> exists res, is_success m ((cl_xid c + (1 + Z.of_nat k)) mod 2 ^ 32) res /\
     Decode (xv_env (rq_resp q)) (xv_ty (rq_resp q)) res (xv_val (rq_resp q)) None v) /\
  (j <> k -> Z.abs (Z.of_nat j - Z.of_nat k) < 2 ^ 32 ->
     forall res, ~ is_success m ((cl_xid c + (1 + Z.of_nat j)) mod 2 ^ 32) res).
Proof. exact c32_seq. Qed.
Print Assumptions C32_sequential.
Example C32_ex : client_ok exr_c /\ Forall req_ok [exr_q; exr_q] /\ Forall encodable [exr_q; exr_q] /\ chunks_ok exr_in /\
  List.concat exr_in = List.concat (map record [exr_reply; exr_reply2]) ++ [xff] /\
  Forall (fun m => zlen m < 2 ^ 31) [exr_reply; exr_reply2] /\
  exists c' s', CallSeq stream_conn exr_c exr_s [exr_q; exr_q] c' s' [(VInt 2049, None); (VInt 99, Some (CAccept 3))].
Proof. exact c32_ex. Qed.

(** Two calls at once, arguments 10 and 20 to a procedure that adds one, on a working server:
    the first returns nil with 21 and the second nil with 11. *)
Theorem C32_concurrent_mixed_up :
  reach exc_srv exc_regs /\ regs_ok exc_regs /\ chunker bytewise /\ chunker whole /\ client_ok exc_c /\ idle exc_s /\
  req_ok (exc_q 10) /\ req_ok (exc_q 20) /\
  exists sched c' s',
  run_sched 40 (link_conn 100 bytewise whole exc_srv) sched (exc_c, exc_s, [TStart (exc_q 10); TStart (exc_q 20)])
  = (c', s', [TDone (VInt 21) None; TDone (VInt 11) None]).
Proof. exact c32_mixed_up. Qed.
Print Assumptions C32_concurrent_mixed_up.

(** The same with requests that carried different transaction ids. *)
Theorem C32_concurrent_mixed_up_xids : exists sched c' s' e,
  run_sched 40 (link_conn 100 bytewise whole exc_srv) sched (exc_c, exc_s, [TStart (exc_q 10); TStart (exc_q 20)])
  = (c', s', [TDone (VInt 21) None; TDone (VInt 0) (Some e)]) /\
  lk_sent s' = record (call_hdr 1 2 300000 1 1 null_auth null_auth ++ be4 10)
            ++ record (call_hdr 2 2 300000 1 1 null_auth null_auth ++ be4 20).
Proof. exact c32_other_xid. Qed.
Print Assumptions C32_concurrent_mixed_up_xids.

(** Any sequence of calls through a client on a connection to a server with generated stubs,
    however the network cuts the streams: every call returns nil, with the data the user's
    procedure computed from the data that was passed. *)
Theorem C39_end_to_end : forall W (srv : server W) l ch1 ch2, reach srv l -> regs_ok l -> chunker ch1 -> chunker ch2 ->
  forall qs c s w' rs, client_ok c -> Forall req_ok qs -> Forall encodable qs -> idle s ->
  invokes_all l (cl_prog c) (cl_vers c) (next_xid c) qs (lk_w s) w' rs ->
  exists N c' s' vs, idle s' /\ lk_w s' = w' /\ Forall2 delivered rs vs /\
    forall n, (N <= n)%nat ->
      CallSeq (link_conn n ch1 ch2 srv) c s qs c' s' (map (fun v => (v, None)) vs).
Proof. exact @e2e. Qed.
Print Assumptions C39_end_to_end.
Example C39_ex : reach exc_srv exc_regs /\ regs_ok exc_regs /\ chunker bytewise /\ chunker whole /\ client_ok exc_c /\
  Forall req_ok [exc_q 10; exc_q 20] /\ Forall encodable [exc_q 10; exc_q 20] /\ idle exc_s /\
  invokes_all exc_regs 300000 1 1 [exc_q 10; exc_q 20] 7 9
    [mkAns rpc_env (Some (CIdent "Uint32")) (Some (VInt 11)); mkAns rpc_env (Some (CIdent "Uint32")) (Some (VInt 21))].
Proof. exact c39_ex. Qed.
