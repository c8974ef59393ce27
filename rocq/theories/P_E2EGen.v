(** C59: client and server made of generated code.

    [spec_prog], [generate], [declares], [run_regs], [u32_lit]: as in P_GenStub.v; [row c]: number,
    method name, argument and result type of the declared procedure [c].  [obj_ok]: the methods of
    [obj] have those types.  [answers E obj a b t regs] (E2EGen.v): on any server on which [regs] were
    registered (among other things, later ones being for other programs or versions), every sequence
    of calls [obj_calls] of the procedures in [t] through a client of program [a], version [b], made
    with encodable arguments, returns nil each time with the data that the method of that
    procedure returned, applied to the arguments, and leaves the object in the state the methods left it in.  The vocabulary of [answers]
    is that of C39 (P_E2E.v). *)
From Verif Require Import GoLex XLex Gram GParse Emit RepoText GoAst GoText GoTop GoRes GoPkg GoWf.
From Verif Require Import Bytes XdrLib Types Interp Spec Runs RpcTypes RpcSpec Io Client CallSpec Server ServSpec ExRpc ServerEx E2E CliEx GoSem GenCommitted GenText GoStub GenStub E2EGen.
Open Scope string_scope.
Open Scope Z_scope.
Open Scope list_scope.

(** For every version of every program of every supported specification. *)
Theorem C59_generated : forall fl src ds E P o Q pkg, ok_flags fl = true -> front src = Some ds -> spec_prog fl src = Some (E, P) ->
  generate fl src = Some o -> declares pkg (files_of o) Q ->
  forall p pv, In (defProg p) ds -> In pv (pd_vers p) ->
  exists r, In r (gp_regs Q) /\ rd_name r = cap (pd_name p) +++ "_" +++ cap (pv_name pv) +++ "_regs" /\
  forall W (obj : object W) a b t, u32_lit (pd_id p) a -> u32_lit (pv_id pv) b -> omap row (pv_calls pv) = Some t -> Forall (fun p => 0 <= proc_no p <= MaxUint32) t ->
  NoDup (map proc_no t) -> obj_ok E obj t ->
  exists regs, run_regs Q obj E r = Some regs /\ answers E obj a b t regs.
Proof. exact text_answers. Qed.
Print Assumptions C59_generated.

(** The committed packages. *)
Theorem C59_portmap : forall P, declares "rfc1057" [rfc1057_xdr_go; rfc1057_types_go] P ->
  exists r, In r (gp_regs P) /\ rd_name r = "PMAP_PROG_PMAP_VERS_regs" /\ forall W (obj : object W), obj_ok rpc_env obj pmap_table ->
  exists regs, run_regs P obj rpc_env r = Some regs /\ answers rpc_env obj 100000 2 pmap_table regs.
Proof. exact pmap_answers. Qed.
Print Assumptions C59_portmap.
Theorem C59_nfs : forall P, declares "rfc1813" [rfc1813_xdr_go; rfc1813_types_go] P ->
  exists r, In r (gp_regs P) /\ rd_name r = "NFS_PROGRAM_NFS_V3_regs" /\ forall W (obj : object W), obj_ok rfc1813_env obj nfs_table ->
  exists regs, run_regs P obj rfc1813_env r = Some regs /\ answers rfc1813_env obj 100003 3 nfs_table regs.
Proof. exact nfs_answers. Qed.
Print Assumptions C59_nfs.
Theorem C59_mount : forall P, declares "rfc1813" [rfc1813_xdr_go; rfc1813_types_go] P ->
  exists r, In r (gp_regs P) /\ rd_name r = "MOUNT_PROGRAM_MOUNT_V3_regs" /\ forall W (obj : object W), obj_ok rfc1813_env obj mount_table ->
  exists regs, run_regs P obj rfc1813_env r = Some regs /\ answers rfc1813_env obj 100005 3 mount_table regs.
Proof. exact mount_answers. Qed.
Print Assumptions C59_mount.

(** The portmapper of C56_ex: GETPORT and NULL through a client, bytes arriving one by one. *)
Example C59_ex : declares "rfc1057" [rfc1057_xdr_go; rfc1057_types_go] pmx_P /\ obj_ok rpc_env pmx_obj pmap_table /\
  registered_on e2x_srv 100000 2 pmx_regs /\ chunker bytewise /\ chunker whole /\ client_ok exr_c /\ cl_prog exr_c = 100000 /\ cl_vers exr_c = 2 /\
  Forall req_ok [exr_q; e2x_null] /\ Forall encodable [exr_q; e2x_null] /\ idle exc_s /\
  obj_calls rpc_env pmx_obj pmap_table 100000 2 (next_xid exr_c) [exr_q; e2x_null] (lk_w exc_s) 9
    [mkAns rpc_env (Some (CIdent "Uint32")) (Some (VInt 2049)); mkAns rpc_env None None] /\
  exists c' s', CallSeq (link_conn 100 bytewise whole e2x_srv) exr_c exc_s [exr_q; e2x_null] c' s' [(VInt 2049, None); (VStruct [], None)] /\ lk_w s' = 9.
Proof.
  split; [exact pmx_declared|]. split; [exact pmx_user|]. split; [exact e2x_on|]. split; [exact bytewise_ok|]. split; [exact whole_ok|]. split; [exact exr_c_ok|].
  split; [reflexivity|]. split; [reflexivity|]. split; [exact (Forall_cons _ exr_q_ok (Forall_cons _ e2x_null_ok (Forall_nil _)))|]. split; [exact (Forall_cons _ exr_q_enc (Forall_cons _ e2x_null_enc (Forall_nil _)))|].
  split; [exact exc_idle|]. split; [exact e2x_calls|].
  eexists. eexists. split; [econstructor; [exists 100%nat; vm_compute; reflexivity|econstructor; [exists 100%nat; vm_compute; reflexivity|constructor]]|reflexivity].
Qed.
