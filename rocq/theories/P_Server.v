(** C31, C33-C38, C43-C46: the RPC server (/repo/rfc1057/server.go), record marks and the
    generated handler wrappers.  Vocabulary: ServSpec.v ([reach], [last_for], [known_*],
    [Handles], [sends], [silent], [user_ok], [arg_decodes]), RpcSpec.v (message layouts),
    Io.v (connections).  [W] is the user's state, [C] an arbitrary connection. *)
From Verif Require Import Bytes XdrLib Types Interp Spec Runs RpcTypes RpcSpec RpcDec Io Client CallSpec Server ServSpec
  ServerP ServerQ ServerX ExRpc ServerEx.
Open Scope string_scope.
Open Scope Z_scope.
Open Scope list_scope.

Theorem C31_client_marks : forall S (C : conn S) c s q c' s' log v e, client_ok c -> req_ok q ->
  Calls (logged C) c (s, []) q c' (s', log) v e ->
  log = [] \/ exists hdr msg, log = [hdr ++ msg] /\ List.length hdr = 4%nat /\
    request ((cl_xid c + 1) mod 2 ^ 32) (cl_prog c) (cl_vers c) q msg /\
    be_val hdr = 2 ^ 31 + zlen msg mod 2 ^ 31 /\
    (zlen msg < 2 ^ 31 -> be_val hdr - 2 ^ 31 = zlen msg) /\
    (2 ^ 31 <= zlen msg -> be_val hdr - 2 ^ 31 < zlen msg).
Proof. exact c31_client. Qed.
Print Assumptions C31_client_marks.
Theorem C31_server_marks : forall W (srv : server W) l S (C : conn S) s w buf s' log w' e,
  reach srv l -> regs_ok l ->
  Handles (logged C) srv (s, []) w buf (s', log) w' e ->
  log = [] \/ exists hdr rep, log = [hdr ++ rep] /\ List.length hdr = 4%nat /\
    be_val hdr = 2 ^ 31 + zlen rep mod 2 ^ 31 /\
    (zlen rep < 2 ^ 31 -> be_val hdr - 2 ^ 31 = zlen rep) /\
    (2 ^ 31 <= zlen rep -> be_val hdr - 2 ^ 31 < zlen rep).
Proof. exact c31_server. Qed.
Print Assumptions C31_server_marks.
Example C31_ex : exists q, req_ok q /\ encodable q /\
  forall xid prog vers msg, request xid prog vers q msg -> 2 ^ 31 <= zlen msg.
Proof. exact exb_big. Qed.

Theorem C33_registration : forall W (srv : server W) l, reach srv l -> forall p v c,
  (srv p <> None <-> known_prog l p) /\
  ((exists vm, srv p = Some vm /\ vm v <> None) <-> known_vers l p v) /\
  (forall h, (exists vm pm, srv p = Some vm /\ vm v = Some pm /\ pm c = Some h) <-> last_for l p v c h) /\
  ((exists h, last_for l p v c h) <-> known_proc l p v c).
Proof. exact @c33. Qed.
Print Assumptions C33_registration.
Example C33_ex : reach exs_srv exs_regs /\ last_for exs_regs 100000 2 3 (Some exs_stub1) /\
  nth_error exs_regs 0 = Some (mkReg 100000 2 3 (Some exs_both)).
Proof. exact (conj exs_reach (conj exs_last1 eq_refl)). Qed.

Theorem C34_dispatch : forall W (srv : server W) l w buf xid rv prog vers proc f1 b1 f2 b2 args,
  reach srv l -> regs_ok l -> is_call DEC buf xid rv prog vers proc f1 b1 f2 b2 args ->
  (rv <> 2 -> sends srv w buf w (reply_denied_mismatch xid 0 0)) /\
  (rv = 2 -> ~ known_prog l prog -> sends srv w buf w (reply_accepted xid null_auth 1)) /\
  (rv = 2 -> known_prog l prog -> ~ known_vers l prog vers ->
     sends srv w buf w (reply_accepted xid null_auth 2 ++ be4 0 ++ be4 0)) /\
  (rv = 2 -> known_vers l prog vers -> ~ known_proc l prog vers proc ->
     sends srv w buf w (reply_accepted xid null_auth 3)) /\
  (forall h w' res e b, rv = 2 -> last_for l prog vers proc (Some h) ->
     HRuns h (MakeReader args) w (w', res, Some e) -> res_wire res b ->
     sends srv w buf w' (reply_accepted xid null_auth 4 ++ b)) /\
  (forall h w' res b, rv = 2 -> last_for l prog vers proc (Some h) ->
     HRuns h (MakeReader args) w (w', res, None) -> res_wire res b ->
     sends srv w buf w' (reply_accepted xid null_auth 0 ++ b)).
Proof. exact @c34. Qed.
Print Assumptions C34_dispatch.
Example C34_ex :
  exs_run 7 exr_msg 8 [record exr_reply] /\
  exs_run 7 (exr_msg ++ [xff]) 8 [record exr_reply] /\
  exs_run 7 (exs_req 3 100000 2 3 exs_args) 7 [record (be4 1 ++ be4 1 ++ be4 1 ++ be4 0 ++ be4 0 ++ be4 0)] /\
  exs_run 7 (exs_req 2 100001 2 3 exs_args) 7 [record (be4 1 ++ be4 1 ++ be4 0 ++ be4 0 ++ be4 0 ++ be4 1)] /\
  exs_run 7 (exs_req 2 100000 3 3 exs_args) 7
    [record (be4 1 ++ be4 1 ++ be4 0 ++ be4 0 ++ be4 0 ++ be4 2 ++ be4 0 ++ be4 0)] /\
  exs_run 7 (exs_req 2 100000 2 4 exs_args) 7 [record (be4 1 ++ be4 1 ++ be4 0 ++ be4 0 ++ be4 0 ++ be4 3)] /\
  exs_run 7 (exs_req 2 100000 2 3 [x00;x01]) 7 [record (be4 1 ++ be4 1 ++ be4 0 ++ be4 0 ++ be4 0 ++ be4 4)] /\
  exs_run 7 (exs_req 2 100000 2 0 []) 8 [record (be4 1 ++ be4 1 ++ be4 0 ++ be4 0 ++ be4 0 ++ be4 0)] /\
  exs_run 7 (exs_req 2 100000 2 8 []) 8 [] /\
  exs_run 7 (exs_req 2 100000 2 9 []) 8 [record (be4 1 ++ be4 1 ++ be4 0 ++ be4 0 ++ be4 0 ++ be4 4 ++ be4 99)] /\
  exs_run 7 exr_reply 7 [] /\ exs_run 7 (firstn 30 exr_msg) 7 [].
Proof. exact exs_rows. Qed.

(** A registered nil handler brings the process down. *)
Theorem C34_nil_handler : forall W (srv : server W) l w buf xid rv prog vers proc f1 b1 f2 b2 args,
  reach srv l -> is_call DEC buf xid rv prog vers proc f1 b1 f2 b2 args ->
  forall S (C : conn S) s, rv = 2 -> last_for l prog vers proc None ->
  exists N, forall n, (N <= n)%nat -> handleReqErr n C srv s w buf = Panic.
Proof. exact @c34_nil. Qed.
Print Assumptions C34_nil_handler.
Example C34_nil_ex : last_for exs_regs 100000 2 10 None. Proof. exact exs_last10. Qed.

Theorem C35_one_reply : forall W (srv : server W) l S (C : conn S) s w buf
    xid rv prog vers proc f1 b1 f2 b2 args s' log w' e,
  reach srv l -> regs_ok l -> is_call DEC buf xid rv prog vers proc f1 b1 f2 b2 args ->
  Handles (logged C) srv (s, []) w buf (s', log) w' e ->
  (exists rep t, rep = be4 xid ++ be4 1 ++ t /\ log = [mark (zlen rep) ++ rep]) \/
  (log = [] /\ e <> None /\ rv = 2 /\ exists h res e', last_for l prog vers proc (Some h) /\
     HRuns h (MakeReader args) w (w', res, e') /\ ~ res_bounded res).
Proof. exact @c35_one. Qed.
Print Assumptions C35_one_reply.
Theorem C35_no_reply : forall W (srv : server W) w buf, no_call buf -> silent srv w buf w.
Proof. exact @c35_none. Qed.
Print Assumptions C35_no_reply.
Theorem C35_unencodable : forall W (srv : server W) l w buf xid rv prog vers proc f1 b1 f2 b2 args,
  reach srv l -> regs_ok l -> is_call DEC buf xid rv prog vers proc f1 b1 f2 b2 args ->
  forall h w' res e, rv = 2 -> last_for l prog vers proc (Some h) ->
  HRuns h (MakeReader args) w (w', res, e) -> ~ res_bounded res -> silent srv w buf w'.
Proof. exact @c34_unencodable. Qed.
Print Assumptions C35_unencodable.
Example C35_ex : last_for exs_regs 100000 2 8 (Some exs_stub2) /\ exs_run 7 (exs_req 2 100000 2 8 []) 8 [].
Proof. exact (conj exs_last8 (proj1 (proj2 (proj2 (proj2 (proj2 (proj2 (proj2 (proj2 (proj2 exs_rows)))))))))). Qed.

Theorem C36_runs_on_decoded : forall W E targ tres (user : option val -> W -> outcome (W * option val)),
  user_ok E targ tres user ->
  forall (srv : server W) l w buf xid prog vers proc f1 b1 f2 b2 args,
  reach srv l -> regs_ok l -> is_call DEC buf xid 2 prog vers proc f1 b1 f2 b2 args ->
  last_for l prog vers proc (Some (stub E targ tres user)) ->
  forall x w' y b, arg_decodes E targ args x -> user x w = Ret (w', y) ->
  res_wire (Some (stub_res E tres y)) b -> sends srv w buf w' (reply_accepted xid null_auth 0 ++ b).
Proof. exact @c36_good. Qed.
Print Assumptions C36_runs_on_decoded.
Theorem C36_garbage_args : forall W E targ tres (user : option val -> W -> outcome (W * option val)),
  user_ok E targ tres user ->
  forall (srv : server W) l w buf xid prog vers proc f1 b1 f2 b2 args,
  reach srv l -> regs_ok l -> is_call DEC buf xid 2 prog vers proc f1 b1 f2 b2 args ->
  last_for l prog vers proc (Some (stub E targ tres user)) ->
  (forall x, ~ arg_decodes E targ args x) -> sends srv w buf w (reply_accepted xid null_auth 4).
Proof. exact @c36_garbage. Qed.
Print Assumptions C36_garbage_args.
Theorem C36_iff : forall W E targ tres (user : option val -> W -> outcome (W * option val)),
  user_ok E targ tres user ->
  forall (srv : server W) l w buf xid prog vers proc f1 b1 f2 b2 args,
  reach srv l -> regs_ok l -> is_call DEC buf xid 2 prog vers proc f1 b1 f2 b2 args ->
  last_for l prog vers proc (Some (stub E targ tres user)) ->
  forall S (C : conn S) s s' w' e, Handles C srv s w buf s' w' e ->
  (exists x y, arg_decodes E targ args x /\ user x w = Ret (w', y)) \/
  (w' = w /\ forall x, ~ arg_decodes E targ args x).
Proof. exact @c36_only. Qed.
Print Assumptions C36_iff.
Theorem C36_argument_unique : forall E targ args x y,
  arg_decodes E targ args x -> arg_decodes E targ args y -> x = y.
Proof. exact arg_det. Qed.
Print Assumptions C36_argument_unique.
Example C36_ex : reach exs_srv exs_regs /\ regs_ok exs_regs /\
  is_call DEC exr_msg 1 2 100000 2 3 1 [x01;x02;x03;x04;x05] 0 [] exs_args /\
  last_for exs_regs 100000 2 3 (Some (stub rpc_env (Some (CIdent "Mapping")) (Some (CIdent "Uint32")) exs_port)) /\
  user_ok rpc_env (Some (CIdent "Mapping")) (Some (CIdent "Uint32")) exs_port /\
  arg_decodes rpc_env (Some (CIdent "Mapping")) exs_args (Some exr_map) /\
  (forall x, ~ arg_decodes rpc_env (Some (CIdent "Mapping")) [x00; x01] x).
Proof. exact c36_ex. Qed.

Theorem C37_reply_bytes : forall W (srv : server W) l S (C : conn S) s w buf s' log w' e,
  reach srv l -> regs_ok l ->
  Handles (logged C) srv (s, []) w buf (s', log) w' e ->
  log = [] \/
  exists xid rep, u32 xid /\ log = [be4 (2 ^ 31 + zlen rep mod 2 ^ 31) ++ rep] /\
    (zlen rep < 2 ^ 31 -> log = [record rep]) /\
    (rep = reply_denied_mismatch xid 0 0 \/
     (exists stat, (stat = 1 \/ stat = 3) /\ rep = reply_accepted xid null_auth stat) \/
     rep = reply_accepted xid null_auth 2 ++ be4 0 ++ be4 0 \/
     exists stat h args res e' b, (stat = 0 /\ e' = None \/ stat = 4 /\ e' <> None) /\
       HRuns h (MakeReader args) w (w', res, e') /\ res_wire res b /\
       rep = reply_accepted xid null_auth stat ++ b).
Proof. exact @c37. Qed.
Print Assumptions C37_reply_bytes.
Example C37_ex : exs_run 7 exr_msg 8 [record exr_reply]. Proof. exact (proj1 exs_rows). Qed.

Theorem C38_mismatch_range : forall W (srv : server W) l w buf xid rv prog vers proc f1 b1 f2 b2 args,
  reach srv l -> regs_ok l -> is_call DEC buf xid rv prog vers proc f1 b1 f2 b2 args ->
  (rv <> 2 -> sends srv w buf w (be4 xid ++ be4 1 ++ be4 1 ++ be4 0 ++ be4 0 ++ be4 0)) /\
  (rv = 2 -> known_prog l prog -> ~ known_vers l prog vers ->
     sends srv w buf w (be4 xid ++ be4 1 ++ be4 0 ++ be4 0 ++ be4 0 ++ be4 2 ++ be4 0 ++ be4 0)).
Proof. exact c38. Qed.
Print Assumptions C38_mismatch_range.
Example C38_ex : known_prog exs_regs 100000 /\ known_vers exs_regs 100000 2 /\ ~ known_vers exs_regs 100000 3.
Proof. exact c38_ex. Qed.

Theorem C43_framing : forall ms cs en out rest, chunks_ok cs ->
  List.concat cs = List.concat (map record ms) ++ rest -> Forall (fun m => zlen m < 2 ^ 31) ms -> no_record rest ->
  exists N s' e, forall n, (N <= n)%nat -> run_loop n stream_conn (mkStream cs en out) [] = Ret (s', ms, e) /\
    si_out s' = out /\
    (e = RFragments <-> exists hdr t, rest = hdr ++ t /\ List.length hdr = 4%nat /\ be_val hdr < 2 ^ 31).
Proof. exact c43. Qed.
Print Assumptions C43_framing.
Theorem C43_every_stream : forall b, exists ms rest, b = List.concat (map record ms) ++ rest /\
  Forall (fun m => zlen m < 2 ^ 31) ms /\ no_record rest.
Proof. exact c43_split. Qed.
Print Assumptions C43_every_stream.
Example C43_ex : run_loop 20 stream_conn (mkStream exr_in EOF []) []
  = Ret (mkStream [] EOF [], [exr_reply; exr_reply2], RIo ErrUnexpectedEOF).
Proof. vm_compute. reflexivity. Qed.

Theorem C44_credentials_ignored : forall W (srv : server W) l w buf buf' xid rv prog vers proc
    f1 b1 f2 b2 f1' b1' f2' b2' args, reach srv l -> regs_ok l ->
  is_call DEC buf xid rv prog vers proc f1 b1 f2 b2 args ->
  is_call DEC buf' xid rv prog vers proc f1' b1' f2' b2' args ->
  forall S (C : conn S) s s' w' e, Handles C srv s w buf s' w' e -> Handles C srv s w buf' s' w' e.
Proof. exact @c44. Qed.
Print Assumptions C44_credentials_ignored.
Theorem C44_never_auth_error : forall W (srv : server W) l S (C : conn S) s w buf s' log w' e,
  reach srv l -> regs_ok l -> Handles (logged C) srv (s, []) w buf (s', log) w' e ->
  forall rep x t, In (mark (zlen rep) ++ rep) log -> u32 x -> rep <> be4 x ++ be4 1 ++ be4 1 ++ be4 1 ++ t.
Proof. exact @c44_no_auth_error. Qed.
Print Assumptions C44_never_auth_error.
Theorem C44_long_credential : forall xid rv prog vers proc f len rest, u32 len -> 400 < len ->
  no_call (be4 xid ++ be4 0 ++ be4 rv ++ be4 prog ++ be4 vers ++ be4 proc ++ be4 f ++ be4 len ++ rest).
Proof. exact c44_cred. Qed.
Print Assumptions C44_long_credential.
Theorem C44_long_verifier : forall xid rv prog vers proc f1 b1 cred f len rest,
  auth DEC f1 b1 cred -> u32 len -> 400 < len ->
  no_call (be4 xid ++ be4 0 ++ be4 rv ++ be4 prog ++ be4 vers ++ be4 proc ++ cred ++ be4 f ++ be4 len ++ rest).
Proof. exact c44_verf. Qed.
Print Assumptions C44_long_verifier.
Example C44_ex : is_call DEC exr_msg 1 2 100000 2 3 1 [x01;x02;x03;x04;x05] 0 [] exs_args /\
  is_call DEC (call_hdr 1 2 100000 2 3 null_auth null_auth ++ exs_args) 1 2 100000 2 3 0 [] 0 [] exs_args.
Proof. exact c44_ex. Qed.

Theorem C45_server : forall W (srv : server W) l w buf xid rv prog vers proc f1 b1 f2 b2 args extra,
  reach srv l -> regs_ok l -> is_call DEC buf xid rv prog vers proc f1 b1 f2 b2 args ->
  (forall h, rv = 2 -> last_for l prog vers proc (Some h) ->
     exists E targ tres user x, user_ok E targ tres user /\ h = stub E targ tres user /\ arg_decodes E targ args x) ->
  forall S (C : conn S) s s' w' e,
    Handles C srv s w buf s' w' e <-> Handles C srv s w (buf ++ extra) s' w' e.
Proof. exact @c45_server. Qed.
Print Assumptions C45_server.
Theorem C45_client : forall c q m extra cs en out rest cs2 en2 out2 rest2 c' s' v,
  client_ok c -> req_ok q ->
  chunks_ok cs -> List.concat cs = record m ++ rest ->
  chunks_ok cs2 -> List.concat cs2 = record (m ++ extra) ++ rest2 -> zlen (m ++ extra) < 2 ^ 31 ->
  Calls stream_conn c (mkStream cs en out) q c' s' v None ->
  exists s2, Calls stream_conn c (mkStream cs2 en2 out2) q c' s2 v None.
Proof. exact c45_client. Qed.
Print Assumptions C45_client.
Example C45_ex : exs_run 7 (exr_msg ++ [xff]) 8 [record exr_reply]. Proof. exact (proj1 (proj2 exs_rows)). Qed.

Theorem C46_result_and_error : forall W (srv : server W) l w buf xid rv prog vers proc f1 b1 f2 b2 args,
  reach srv l -> regs_ok l -> is_call DEC buf xid rv prog vers proc f1 b1 f2 b2 args ->
  forall h w' res e b, rv = 2 -> last_for l prog vers proc (Some h) ->
  HRuns h (MakeReader args) w (w', res, Some e) -> res_wire res b ->
  sends srv w buf w' (reply_accepted xid null_auth 4 ++ b).
Proof. exact @c34_garbage. Qed.
Print Assumptions C46_result_and_error.
Theorem C46_stubs_never : forall W E targ tres (user : option val -> W -> outcome (W * option val)),
  user_ok E targ tres user ->
  forall s w w' o e, HRuns (stub E targ tres user) s w (w', o, Some e) -> o = None.
Proof. exact @c46_stub. Qed.
Print Assumptions C46_stubs_never.
Example C46_ex : last_for exs_regs 100000 2 9 (Some exs_both) /\
  exs_run 7 (exs_req 2 100000 2 9 []) 8 [record (be4 1 ++ be4 1 ++ be4 0 ++ be4 0 ++ be4 0 ++ be4 4 ++ be4 99)].
Proof. exact (conj exs_last9 (proj1 (proj2 (proj2 (proj2 (proj2 (proj2 (proj2 (proj2 (proj2 (proj2 exs_rows))))))))))). Qed.
