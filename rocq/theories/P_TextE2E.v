(** C76: client and server as text, joined by a connection.

    [text_conn grow P hs vs ch1 ch2 rw n] (TextE2E.v): a connection at whose other end the server program
    s := MakeServer(); s.RegisterMany(vs); s.Run(rw) runs as text: what is written is handed to it in the pieces [ch1], and the
    goroutines it starts for the new requests are run; their replies come back in the pieces [ch2].  [vs] are the registrations
    [regs], whose handlers are the functions [hs] ([greg]).  [text_calls ... n K c s qs c' s' vals]: the calls [qs], each made by the text of
    Call in any memory [ready] for it, all return nil, with [vals] in the result variables; client and connection go from [c] and
    [s] to [c'] and [s'].  The texts are those of C66 and C67, the text of package xdr (C65) and, as P, the committed method of Rpc_msg (C74);
    [n] and [K] are fuel.  The vocabulary of the calls is that of C39 and C59 (P_E2E.v, P_E2EGen.v). *)
From Verif Require Import GoLex XLex Gram GParse Emit RepoText GoAst GoText GoTop GoRes GoPkg GoWf GoSem GenCommitted GenText GoStub GenStub.
From Verif Require Import Bytes XdrLib Types Interp Spec Runs RpcTypes RpcSpec Client CallSpec ServSpec ExRpc ServerEx E2E CliEx E2EGen.
From Verif Require Import Heap HeapP Io Server SrcAst SrcSem SrcLib SrcLibC SrcRpc SrcCli SrcReg MsgText TextE2E TextE2EX.
Open Scope string_scope.
Open Scope Z_scope.
Open Scope list_scope.

(** Every call returns nil, with the data the user's procedure computed from the data that was passed. *)
Theorem C76_end_to_end : forall U grow P (hs : nat -> handler U) vs ch1 ch2 rw regs, grows grow -> declares "rfc1057" [rfc1057_xdr_go; rfc1057_types_go] P ->
  Forall2 (greg hs) regs vs -> regs_ok regs -> chunker ch1 -> chunker ch2 ->
  forall qs c s w' rs, client_ok c -> Forall req_ok qs -> Forall encodable qs -> idle s ->
  invokes_all regs (cl_prog c) (cl_vers c) (next_xid c) qs (lk_w s) w' rs ->
  exists N c' s' vals, (idle s' /\ lk_w s' = w' /\ Forall2 delivered rs vals) /\
    forall n, (N <= n)%nat -> exists K0, forall K, (K0 <= K)%nat -> text_calls grow P hs vs ch1 ch2 rw n K c s qs c' s' vals.
Proof. exact text_e2e. Qed.
Print Assumptions C76_end_to_end.

(** There are such values for all registrations, and such a memory for every call. *)
Theorem C76_registrations : forall U (regs : list (registration U)), exists hs vs, Forall2 (greg hs) regs vs.
Proof. exact @regs_as_values. Qed.
Print Assumptions C76_registrations.
Theorem C76_ready : forall U V rw c (s : @link U) q (u : V), encodable q -> exists m f1 b1 f2 b2, ready rw m 0 c s q f1 b1 f2 b2 0 1 /\ w_user (m_world m) = u.
Proof. exact @ready_exists. Qed.
Print Assumptions C76_ready.

(** The same with generated registrations: for every version of every program of every supported specification. *)
Theorem C76_generated : forall grow P0 fl src ds E P o Q pkg, grows grow -> declares "rfc1057" [rfc1057_xdr_go; rfc1057_types_go] P0 ->
  ok_flags fl = true -> front src = Some ds -> spec_prog fl src = Some (E, P) -> generate fl src = Some o -> declares pkg (files_of o) Q ->
  forall p pv, In (defProg p) ds -> In pv (pd_vers p) ->
  exists r, In r (gp_regs Q) /\ rd_name r = cap (pd_name p) +++ "_" +++ cap (pv_name pv) +++ "_regs" /\
  forall W (obj : object W) a b t, u32_lit (pd_id p) a -> u32_lit (pv_id pv) b -> omap row (pv_calls pv) = Some t -> Forall (fun p => 0 <= proc_no p <= MaxUint32) t ->
  NoDup (map proc_no t) -> obj_ok E obj t ->
  exists regs, run_regs Q obj E r = Some regs /\ text_answers grow P0 E obj a b t regs.
Proof. exact text_generated. Qed.
Print Assumptions C76_generated.
(** The committed packages. *)
Theorem C76_portmap : forall grow P0, grows grow -> declares "rfc1057" [rfc1057_xdr_go; rfc1057_types_go] P0 ->
  exists r, In r (gp_regs P0) /\ rd_name r = "PMAP_PROG_PMAP_VERS_regs" /\ forall W (obj : object W), obj_ok rpc_env obj pmap_table ->
  exists regs, run_regs P0 obj rpc_env r = Some regs /\ text_answers grow P0 rpc_env obj 100000 2 pmap_table regs.
Proof. exact (fun grow P0 G D => committed_text grow P0 P0 _ _ _ _ _ G D (pmap_answers P0 D)). Qed.
Print Assumptions C76_portmap.
Theorem C76_nfs : forall grow P0 Q, grows grow -> declares "rfc1057" [rfc1057_xdr_go; rfc1057_types_go] P0 -> declares "rfc1813" [rfc1813_xdr_go; rfc1813_types_go] Q ->
  exists r, In r (gp_regs Q) /\ rd_name r = "NFS_PROGRAM_NFS_V3_regs" /\ forall W (obj : object W), obj_ok rfc1813_env obj nfs_table ->
  exists regs, run_regs Q obj rfc1813_env r = Some regs /\ text_answers grow P0 rfc1813_env obj 100003 3 nfs_table regs.
Proof. exact (fun grow P0 Q G D D' => committed_text grow P0 Q _ _ _ _ _ G D (nfs_answers Q D')). Qed.
Print Assumptions C76_nfs.
Theorem C76_mount : forall grow P0 Q, grows grow -> declares "rfc1057" [rfc1057_xdr_go; rfc1057_types_go] P0 -> declares "rfc1813" [rfc1813_xdr_go; rfc1813_types_go] Q ->
  exists r, In r (gp_regs Q) /\ rd_name r = "MOUNT_PROGRAM_MOUNT_V3_regs" /\ forall W (obj : object W), obj_ok rfc1813_env obj mount_table ->
  exists regs, run_regs Q obj rfc1813_env r = Some regs /\ text_answers grow P0 rfc1813_env obj 100005 3 mount_table regs.
Proof. exact (fun grow P0 Q G D D' => committed_text grow P0 Q _ _ _ _ _ G D (mount_answers Q D')). Qed.
Print Assumptions C76_mount.

(** The portmapper of C59_ex meets all this; and its GETPORT, by running the texts of client and server, the request arriving byte by byte:
    nil, 2049 in the result variable, one procedure run, one request dealt with. *)
Example C76_ex : declares "rfc1057" [rfc1057_xdr_go; rfc1057_types_go] pmx_P /\ grows exact_grow /\ Forall2 (greg te_hs) pmx_regs te_vs /\
  obj_ok rpc_env pmx_obj pmap_table /\ registered_on (RegisterMany MakeServer pmx_regs) 100000 2 pmx_regs /\ chunker bytewise /\ chunker whole /\
  client_ok exr_c /\ Forall req_ok [exr_q; e2x_null] /\ Forall encodable [exr_q; e2x_null] /\ idle exc_s /\
  obj_calls rpc_env pmx_obj pmap_table 100000 2 (next_xid exr_c) [exr_q; e2x_null] (lk_w exc_s) 9
    [mkAns rpc_env (Some (CIdent "Uint32")) (Some (VInt 2049)); mkAns rpc_env None None] /\
  ready 7 te_mem 0 exr_c exc_s exr_q 1 (Some (mkSl 0 0 5 5)) 0 None 0 1 /\
  match rpc_run exact_grow (text_ext exact_grow 50 (text_conn exact_grow pmx_P te_hs te_vs bytewise whole 7 120) (fun _ _ _ u => Ret (u, None, None)) pmx_P) 3 "Client.Call"
    [WPtr 0; WNum "uint32" 3; gauth 1 (Some (mkSl 0 0 5 5)); gauth 0 None; WObj 0; WObj 1] te_mem with
  | Ret (m, r) => r = [WNil] /\ map (fun o => snd o) (w_objs (m_world m)) = [HStruct [("Prog", HInt 100003); ("Vers", HInt 3); ("Prot", HInt 6); ("Port", HInt 0)]; HInt 2049] /\ lk_w (w_conn (m_world m)) = 8 /\
      nth_error (m_cells m) 0 = Some (gclient 7 (mkClient 1 100000 2)) /\ lk_done (w_conn (m_world m)) = 1%nat
  | _ => False
  end.
Proof.
  split; [exact pmx_declared|]. split; [intros c n; apply Nat.le_refl|]. split; [exact te_values|]. split; [exact pmx_user|]. split; [exact e2x_on|]. split; [exact bytewise_ok|]. split; [exact whole_ok|]. split; [exact exr_c_ok|].
  split; [exact (Forall_cons _ exr_q_ok (Forall_cons _ e2x_null_ok (Forall_nil _)))|]. split; [exact (Forall_cons _ exr_q_enc (Forall_cons _ e2x_null_enc (Forall_nil _)))|].
  split; [exact exc_idle|]. split; [exact e2x_calls|]. split; [exact te_ready|]. exact te_runs.
Qed.
