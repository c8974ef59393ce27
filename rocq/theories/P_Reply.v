(** C63: which error a call returns.  [msg_head m x k rest]: message [m] has transaction id [x], is of kind [k] and is
    followed by [rest]; [verdict]: what the caller finds in the result variable and which error it gets, given the reply;
    [call_goes]: the ways a call can go, from encoding the request to the reply; [turned_down]: calls the server
    has to refuse, with the accept_stat of RFC 1057; [meets_all]: the fates of a sequence of calls, answered or turned down. *)
From Verif Require Import Bytes XdrLib Types Interp Spec Runs RpcTypes RpcSpec RpcDec Io Client CallSpec ClientP Server ServSpec ServerX ExRpc ServerEx
  E2E CliEx ReplySpec ReplyP ReplyQ ReplyEx.
Open Scope string_scope.
Open Scope Z_scope.
Open Scope list_scope.

(** Bytes are a message in one way only. *)
Theorem C63_one_message : forall m x k rest x' k' rest', msg_head m x k rest -> msg_head m x' k' rest' -> x = x' /\ k = k' /\ rest = rest'.
Proof. exact head_unique. Qed.
Print Assumptions C63_one_message.
Theorem C63_one_verdict : forall xid m resp v e v' e', verdict xid m resp v e -> verdict xid m resp v' e' ->
  v = v' /\ (e = e' \/ exists a b, e = Some (CXdr a) /\ e' = Some (CXdr b) /\ forall x k rest, ~ msg_head m x k rest).
Proof. exact verdict_unique. Qed.
Print Assumptions C63_one_verdict.
Example C63_messages_ex :
  msg_head exv_success 5 (KAccepted 0) [x00;x00;x00;x2a] /\ msg_head exv_mismatch 5 (KAccepted 2) [] /\
  msg_head exv_denied 5 (KDenied 0) [] /\ msg_head exv_auth 5 (KDenied 1) [] /\ msg_head exv_stat 5 (KStat 7) [] /\
  msg_head exv_other 5 (KOther 9) [] /\ msg_head exv_call 1 KCall exs_args.
Proof. exact exv_heads. Qed.
Example C63_verdicts_ex :
  verdict 5 exv_success exv_resp (VInt 42) None /\
  verdict 6 exv_success exv_resp (VInt 99) (Some (CXidMismatch 5 6)) /\
  verdict 5 exv_mismatch exv_resp (VInt 99) (Some (CAccept 2)) /\
  verdict 5 exv_denied exv_resp (VInt 99) (Some (CDenied 0)) /\
  verdict 5 exv_auth exv_resp (VInt 99) (Some (CDenied 1)) /\
  verdict 5 exv_stat exv_resp (VInt 99) (Some (CDenied 0)) /\
  verdict 5 exv_other exv_resp (VInt 99) (Some (CNotReply 9)) /\
  verdict 1 exv_call exv_resp (VInt 99) (Some (CNotReply 0)).
Proof. exact exv_verdicts. Qed.

(** Whatever the connection does, a call that returns went one of these ways. *)
Theorem C63_call : forall S (C : conn S) c s q c' s' v e, client_ok c -> req_ok q -> Calls C c s q c' s' v e ->
  c' = incr_xid c /\ call_goes C (next_xid c) (cl_prog c) (cl_vers c) s q s' v e.
Proof. exact @calls_go. Qed.
Print Assumptions C63_call.

(** On a byte stream that starts with a record, however cut: the reply in the record decides. *)
Theorem C63_stream : forall c q cs en out m rest, client_ok c -> req_ok q -> encodable q ->
  chunks_ok cs -> List.concat cs = record m ++ rest -> zlen m < 2 ^ 31 ->
  exists msg cs' v e,
    Calls stream_conn c (mkStream cs en out) q (incr_xid c) (mkStream cs' en (out ++ [mark (zlen msg) ++ msg])) v e /\
    request (next_xid c) (cl_prog c) (cl_vers c) q msg /\
    chunks_ok cs' /\ List.concat cs' = rest /\ verdict (next_xid c) m (rq_resp q) v e.
Proof. exact stream_verdict. Qed.
Print Assumptions C63_stream.
Example C63_stream_ex : client_ok exr_c /\ Forall req_ok [exr_q; exr_q] /\ Forall encodable [exr_q; exr_q] /\ chunks_ok exr_in /\
  List.concat exr_in = List.concat (map record [exr_reply; exr_reply2]) ++ [xff] /\
  Forall (fun m => zlen m < 2 ^ 31) [exr_reply; exr_reply2] /\
  exists c' s', CallSeq stream_conn exr_c exr_s [exr_q; exr_q] c' s' [(VInt 2049, None); (VInt 99, Some (CAccept 3))].
Proof. exact c32_ex. Qed.

(** A call the server has to turn down: no handler runs or changes anything, the caller gets the accept_stat as its error and its
    variable back untouched, and the connection is ready for the next call. *)
Theorem C63_turned_down : forall W (srv : server W) l ch1 ch2, reach srv l -> regs_ok l -> chunker ch1 -> chunker ch2 ->
  forall c q s stat, client_ok c -> req_ok q -> encodable q -> idle s ->
  turned_down l (cl_prog c) (cl_vers c) q stat ->
  (forall m, request (next_xid c) (cl_prog c) (cl_vers c) q m -> zlen m < 2 ^ 31) ->
  exists N s', idle s' /\ lk_w s' = lk_w s /\
    forall n, (N <= n)%nat ->
      Calls (link_conn n ch1 ch2 srv) c s q (incr_xid c) s' (xv_val (rq_resp q)) (Some (CAccept stat)).
Proof. exact @down_one. Qed.
Print Assumptions C63_turned_down.
Example C63_turned_down_ex : turned_down exc_regs 300001 1 exd_proc 1 /\ turned_down exc_regs 300000 2 exd_proc 2.
Proof. exact exd_down. Qed.

(** Any sequence of such calls and of calls that are carried out. *)
Theorem C63_any_calls : forall W (srv : server W) l ch1 ch2, reach srv l -> regs_ok l -> chunker ch1 -> chunker ch2 ->
  forall qs c s w' fs, client_ok c -> Forall req_ok qs -> Forall encodable qs -> idle s ->
  meets_all l (cl_prog c) (cl_vers c) (next_xid c) qs (lk_w s) w' fs ->
  exists N c' s' rs, idle s' /\ lk_w s' = w' /\ Forall2 (fun qf r => sees (fst qf) (snd qf) r) (combine qs fs) rs /\
    forall n, (N <= n)%nat -> CallSeq (link_conn n ch1 ch2 srv) c s qs c' s' rs.
Proof. exact @meets_seq. Qed.
Print Assumptions C63_any_calls.
(** Answered, PROC_UNAVAIL, GARBAGE_ARGS, answered. *)
Example C63_any_calls_ex : reach exc_srv exc_regs /\ regs_ok exc_regs /\ chunker bytewise /\ chunker whole /\ client_ok exc_c /\
  Forall req_ok exd_qs /\ Forall encodable exd_qs /\ idle exc_s /\ meets_all exc_regs 300000 1 1 exd_qs 7 9 exd_fates.
Proof. exact exd. Qed.

(** A server on which nothing is registered (as in example/server/main.go:67-69) answers PROG_UNAVAIL, whatever is called. *)
Theorem C63_empty_server : forall W ch1 ch2, chunker ch1 -> chunker ch2 ->
  forall c q (s : link W), client_ok c -> req_ok q -> encodable q -> idle s ->
  (forall m, request (next_xid c) (cl_prog c) (cl_vers c) q m -> zlen m < 2 ^ 31) ->
  exists N s', idle s' /\ lk_w s' = lk_w s /\ forall n, (N <= n)%nat ->
    Calls (link_conn n ch1 ch2 MakeServer) c s q (incr_xid c) s' (xv_val (rq_resp q)) (Some (CAccept 1)).
Proof. exact empty_server. Qed.
Print Assumptions C63_empty_server.
Example C63_empty_server_ex : client_ok exc_c /\ req_ok (exc_q 10) /\ encodable (exc_q 10) /\ idle exc_s.
Proof. exact (conj exc_c_ok (conj (exc_q_ok 10 ltac:(lia)) (conj (exc_q_enc 10) exc_idle))). Qed.
