(** C26-C30: the RPC client (/repo/rfc1057/client.go).  Vocabulary: CallSpec.v (relations
    [Calls], [CallSeq], [ReadFull], [request], [encodable], [reply_outcome], [mark]),
    RpcSpec.v (message layouts), Io.v (connections).  Connections [C] are arbitrary. *)
From Verif Require Import Bytes XdrLib Types Interp Spec Runs RpcTypes RpcSpec RpcWire RpcDec Io Client CallSpec ClientP ClientQ ExRpc.
Open Scope string_scope.
Open Scope Z_scope.
Open Scope list_scope.

Theorem C26_request_bytes : forall S (C : conn S) c s q c' s' log v e, client_ok c -> req_ok q ->
  Calls (logged C) c (s, []) q c' (s', log) v e ->
  (encodable q -> exists msg,
     request ((cl_xid c + 1) mod 2 ^ 32) (cl_prog c) (cl_vers c) q msg /\
     log = [be4 (2 ^ 31 + zlen msg mod 2 ^ 31) ++ msg] /\
     (zlen msg < 2 ^ 31 -> log = [record msg])) /\
  (~ encodable q -> log = [] /\ s' = s /\ e <> None).
Proof. exact (@c26). Qed.
Print Assumptions C26_request_bytes.
Example C26_ex : client_ok exr_c /\ req_ok exr_q /\ encodable exr_q /\
  Calls (logged stream_conn) exr_c (exr_s, []) exr_q (mkClient 1 100000 2)
    (mkStream ([x80;x00;x00;x18] :: skipn 3 exr_in) EOF [record exr_msg], [record exr_msg]) (VInt 2049) None /\
  req_ok exr_bad /\ ~ encodable exr_bad.
Proof. exact c26_ex. Qed.

Theorem C26_call_returns : forall S (C : conn S) c s q, client_ok c -> req_ok q ->
  (~ encodable q \/ forall s k, exists s' d e, ReadFull C s k s' d e) ->
  exists c' s' v e, Calls C c s q c' s' v e.
Proof. exact (@c26_returns). Qed.
Print Assumptions C26_call_returns.
Example C26_returns_ex : forall s k, exists s' d e, ReadFull stream_conn s k s' d e.
Proof. exact c26_stream_returns. Qed.

Theorem C27_transaction_ids : forall S (C : conn S) prog vers qs s c' s' log rs,
  u32 prog -> u32 vers -> Forall req_ok qs ->
  CallSeq (logged C) (MakeClient prog vers) (s, []) qs c' (s', log) rs ->
  cl_xid c' = zlen qs mod 2 ^ 32 /\
  exists recs, List.length recs = List.length qs /\ log = flat_map opt_list recs /\
    forall k q r, nth_error qs k = Some q -> nth_error recs k = Some r ->
      match r with
      | Some w => exists msg, w = mark (zlen msg) ++ msg /\
          request ((1 + Z.of_nat k) mod 2 ^ 32) prog vers q msg
      | None => ~ encodable q
      end.
Proof. exact (@c27_fresh). Qed.
Print Assumptions C27_transaction_ids.
Theorem C27_distinct : forall j k, 0 <= j -> j < k -> k - j < 2 ^ 32 -> (1 + j) mod 2 ^ 32 <> (1 + k) mod 2 ^ 32.
Proof. exact c27_distinct. Qed.
Print Assumptions C27_distinct.
Example C27_ex : Forall req_ok [exr_q; exr_bad; exr_q] /\
  exists s' log rs, CallSeq (logged stream_conn) (MakeClient 100000 2) (exr_s, []) [exr_q; exr_bad; exr_q]
    (mkClient 3 100000 2) (s', log) rs /\
    log = [record exr_msg; record ([x00; x00; x00; x03] ++ skipn 4 exr_msg)].
Proof. exact c27_ex. Qed.

Theorem C28_success_iff : forall S (C : conn S) c s q c' s' v e, client_ok c -> req_ok q ->
  Calls C c s q c' s' v e ->
  (e = None <-> exists msg s1 s2 hdr m res rest,
     request (next_xid c) (cl_prog c) (cl_vers c) q msg /\
     c_write C s (mark (zlen msg) ++ msg) = (s1, None) /\
     ReadFull C s1 4 s2 hdr None /\ 2 ^ 31 <= be_val hdr /\
     ReadFull C s2 (be_val hdr - 2 ^ 31) s' m None /\
     is_success m (next_xid c) res /\
     DecodeRest (xv_env (rq_resp q)) (xv_ty (rq_resp q)) res (xv_val (rq_resp q)) rest v).
Proof. exact (@c28). Qed.
Print Assumptions C28_success_iff.
Example C28_ex : CallSeq stream_conn exr_c exr_s [exr_q; exr_q]
  (mkClient 2 100000 2)
  (mkStream [[xff]] EOF
     [[x80;x00;x00;x40] ++ exr_msg; [x80;x00;x00;x40] ++ [x00;x00;x00;x02] ++ skipn 4 exr_msg])
  [(VInt 2049, None); (VInt 99, Some (CAccept 3))] /\
  is_success exr_reply 1 [x00; x00; x08; x01] /\
  DecodeRest rpc_env (CIdent "Uint32") [x00; x00; x08; x01] (VInt 99) [] (VInt 2049).
Proof. exact c28_ex. Qed.

Theorem C29_result_untouched : forall S (C : conn S) c s q c' s' v e, client_ok c -> req_ok q ->
  Calls C c s q c' s' v e ->
  v = xv_val (rq_resp q) \/
  exists s1 s2 w hdr m res e',
    c_write C s w = (s1, None) /\ ReadFull C s1 4 s2 hdr None /\
    2 ^ 31 <= be_val hdr /\ ReadFull C s2 (be_val hdr - 2 ^ 31) s' m None /\
    is_success m (next_xid c) res /\
    Decode (xv_env (rq_resp q)) (xv_ty (rq_resp q)) res (xv_val (rq_resp q)) e' v.
Proof. exact (@c29). Qed.
Print Assumptions C29_result_untouched.
Example C29_ex : exists s', Calls stream_conn (mkClient 1 100000 2)
    (mkStream [[x80; x00; x00; x18]; exr_reply2] EOF []) exr_q (mkClient 2 100000 2) s' (VInt 99) (Some (CAccept 3)).
Proof. exact c29_ex. Qed.

Theorem C30_one_record_per_call : forall c q cs en out m rest, client_ok c -> req_ok q -> encodable q ->
  chunks_ok cs -> List.concat cs = record m ++ rest -> zlen m < 2 ^ 31 ->
  exists msg cs' v e,
    Calls stream_conn c (mkStream cs en out) q (incr_xid c)
      (mkStream cs' en (out ++ [mark (zlen msg) ++ msg])) v e /\
    request (next_xid c) (cl_prog c) (cl_vers c) q msg /\
    chunks_ok cs' /\ List.concat cs' = rest /\ reply_outcome (next_xid c) m (rq_resp q) v e.
Proof. exact c30_one. Qed.
Print Assumptions C30_one_record_per_call.

Theorem C30_in_step : forall qs c cs en out ms rest,
  client_ok c -> Forall req_ok qs -> Forall encodable qs ->
  chunks_ok cs -> List.length ms = List.length qs ->
  List.concat cs = List.concat (map record ms) ++ rest -> Forall (fun m => zlen m < 2 ^ 31) ms ->
  exists c' cs' out' rs,
    CallSeq stream_conn c (mkStream cs en out) qs c' (mkStream cs' en out') rs /\
    chunks_ok cs' /\ List.concat cs' = rest /\ List.length rs = List.length qs /\
    forall k q m v e, nth_error qs k = Some q -> nth_error ms k = Some m -> nth_error rs k = Some (v, e) ->
      reply_outcome ((cl_xid c + (1 + Z.of_nat k)) mod 2 ^ 32) m (rq_resp q) v e.
Proof. exact c30. Qed.
Print Assumptions C30_in_step.
Example C30_ex : Forall req_ok [exr_q; exr_q] /\ Forall encodable [exr_q; exr_q] /\ chunks_ok exr_in /\
  List.concat exr_in = List.concat (map record [exr_reply; exr_reply2]) ++ [xff] /\
  Forall (fun m => zlen m < 2 ^ 31) [exr_reply; exr_reply2].
Proof. exact c30_ex. Qed.
