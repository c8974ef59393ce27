(** C56: the generated handler wrappers and registration functions.

    [spec_prog], [generate], [declares]: as in P_GenText.v; [Q] is what the generated texts declare.
    [obj m x w]: the user's method [m] called with [x] in state [w] (GoStub.v); [run_regs Q obj E r]:
    the list that the registration function [r] returns for [obj], with Go's semantics;
    [u32_lit s z]: the literal [s] is the uint32 [z] (with another number the file
    does not compile).  [entry_ok E obj a b c]: an entry with numbers [a], [b] and that of
    the procedure [c], and a handler that does what [stub] of Server.v does with the argument and
    result types of [c] and the method of that name ([agrees]: same results
    in all states).  [reach], [sends], [Handles], [arg_decodes]: as in P_Server.v. *)
From Verif Require Import GoLex XLex Gram GParse Emit RepoText GoAst GoRes GoPkg GoWf.
From Verif Require Import Bytes XdrLib Types Interp Spec Runs RpcTypes RpcSpec Io Client CallSpec Server ServSpec ExRpc ServerEx GoSem GenCommitted GenText GoStub GenStub.
Open Scope string_scope.
Open Scope Z_scope.
Open Scope list_scope.

(** One entry per procedure, in order, with the declared numbers and that procedure's stub. *)
Theorem C56_registrations : forall fl src ds E P Q o pkg, ok_flags fl = true -> front src = Some ds -> spec_prog fl src = Some (E, P) ->
  generate fl src = Some o -> declares pkg (files_of o) Q ->
  forall p pv, In (defProg p) ds -> In pv (pd_vers p) ->
  exists r, In r (gp_regs Q) /\ rd_name r = cap (pd_name p) +++ "_" +++ cap (pv_name pv) +++ "_regs" /\
  forall W (obj : object W) a b, u32_lit (pd_id p) a -> u32_lit (pv_id pv) b -> (forall c, In c (pv_calls pv) -> exists z, u32_lit (pc_id c) z) ->
  exists regs, run_regs Q obj E r = Some regs /\ Forall2 (entry_ok E obj a b) (pv_calls pv) regs.
Proof. exact text_regs. Qed.
Print Assumptions C56_registrations.

(** Registered on any server, with distinct numbers, a call to each number reaches that procedure. *)
Theorem C56_served : forall W E (obj : object W) a b cs regs, Forall2 (entry_ok E obj a b) cs regs ->
  (forall c, In c cs -> user_ok E (op_ty (pc_arg c)) (op_ty (pc_res c)) (obj (cap (pc_name c)))) -> NoDup (map (fun c => num_val (pc_id c)) cs) ->
  forall (srv : server W) l w, reach srv l -> regs_ok l -> forall c k, In c cs -> u32_lit (pc_id c) k ->
  forall buf xid f1 b1 f2 b2 args, is_call DEC buf xid 2 a b k f1 b1 f2 b2 args ->
  (forall x w' y bs, arg_decodes E (op_ty (pc_arg c)) args x -> obj (cap (pc_name c)) x w = Ret (w', y) -> res_wire (Some (stub_res E (op_ty (pc_res c)) y)) bs ->
     sends (RegisterMany srv regs) w buf w' (reply_accepted xid null_auth 0 ++ bs)) /\
  ((forall x, ~ arg_decodes E (op_ty (pc_arg c)) args x) -> sends (RegisterMany srv regs) w buf w (reply_accepted xid null_auth 4)) /\
  (forall S (C : conn S) s s' w' e, Handles C (RegisterMany srv regs) s w buf s' w' e ->
     (exists x y, arg_decodes E (op_ty (pc_arg c)) args x /\ obj (cap (pc_name c)) x w = Ret (w', y)) \/ (w' = w /\ forall x, ~ arg_decodes E (op_ty (pc_arg c)) args x)).
Proof. exact @served. Qed.
Print Assumptions C56_served.

(** The semantics behind [run_regs] does not run a wrapper in which a variable is declared twice or hides the type or package it is declared with. *)
Theorem C56_scopes : forall W P (obj : object W) sb n fr l x,
  let names := [sb_w sb; sb_args sb; sb_res sb; sb_err sb] ++ map fst (sf_vars fr) in
  (forall t, In x names -> run_body P obj sb n fr (PVar x t :: l) = GStuck) /\
  (In "xdr" names -> run_body P obj sb n fr (PVar x None :: l) = GStuck) /\
  (forall y, In y names -> run_body P obj sb n fr (PVar x (Some (GNamed y)) :: l) = GStuck).
Proof. exact stub_scopes. Qed.
Print Assumptions C56_scopes.

(** The committed packages: the portmapper, NFS and MOUNT ([registers]: the function of that name
    returns, for every object, the entries of the table in order). *)
Theorem C56_rfc1057 : forall P, declares "rfc1057" [rfc1057_xdr_go; rfc1057_types_go] P -> registers P rpc_env "PMAP_PROG_PMAP_VERS_regs" 100000 2 pmap_table.
Proof. exact pmap_regs. Qed.
Print Assumptions C56_rfc1057.
Theorem C56_rfc1813 : forall P, declares "rfc1813" [rfc1813_xdr_go; rfc1813_types_go] P ->
  registers P rfc1813_env "NFS_PROGRAM_NFS_V3_regs" 100003 3 nfs_table /\ registers P rfc1813_env "MOUNT_PROGRAM_MOUNT_V3_regs" 100005 3 mount_table.
Proof. exact nfs_regs. Qed.
Print Assumptions C56_rfc1813.

(** A portmapper made of the committed rfc1057 files, with its methods of the declared types: calls of
    GETPORT, SET, NULL and DUMP reach them, garbage arguments and number 6 do not reach any. *)
Example C56_ex : declares "rfc1057" [rfc1057_xdr_go; rfc1057_types_go] pmx_P /\
  Forall (fun p => match p with (_, m, ta, tr) => user_ok rpc_env ta tr (pmx_obj m) end) pmap_table /\
  pmx_run pmx_regs 7 exr_msg 8 [record exr_reply] /\
  pmx_run pmx_regs 7 (exs_req 2 100000 2 1 exs_args) 8 [record (be4 1 ++ be4 1 ++ be4 0 ++ be4 0 ++ be4 0 ++ be4 0 ++ be4 1)] /\
  pmx_run pmx_regs 7 (exs_req 2 100000 2 3 [x00; x01]) 7 [record (be4 1 ++ be4 1 ++ be4 0 ++ be4 0 ++ be4 0 ++ be4 4)] /\
  pmx_run pmx_regs 7 (exs_req 2 100000 2 0 []) 8 [record (be4 1 ++ be4 1 ++ be4 0 ++ be4 0 ++ be4 0 ++ be4 0)] /\
  pmx_run pmx_regs 7 (exs_req 2 100000 2 4 []) 8 [record (be4 1 ++ be4 1 ++ be4 0 ++ be4 0 ++ be4 0 ++ be4 0 ++ be4 0)] /\
  pmx_run pmx_regs 7 (exs_req 2 100000 2 6 []) 7 [record (be4 1 ++ be4 1 ++ be4 0 ++ be4 0 ++ be4 0 ++ be4 3)].
Proof. exact (conj pmx_declared (conj pmx_user pmx_rows)). Qed.
