(** Concrete RPC values used by the examples beside the property theorems: a portmapper
    GETPORT call with AUTH_UNIX credentials. *)
From Verif Require Import Bytes XdrLib Types Interp Spec Prim Runs Check RpcTypes RpcSpec RpcWire RpcDec Io Client CallSpec.
Open Scope string_scope.
Open Scope Z_scope.
Open Scope list_scope.

Definition exr_c : client := MakeClient 100000 2.
Definition exr_cred : val := auth_val 1 (Some [x01; x02; x03; x04; x05]).
Definition exr_verf : val := auth_val 0 None.
Definition exr_map : val :=
  VStruct [("Prog", VInt 100003); ("Vers", VInt 3); ("Prot", VInt 6); ("Port", VInt 0)].
Definition exr_args : xdrable := mkXv rpc_env (CIdent "Mapping") exr_map.
Definition exr_resp : xdrable := mkXv rpc_env (CIdent "Uint32") (VInt 99).
Definition exr_q : callreq := mkReq 3 exr_cred exr_verf exr_args exr_resp.

(** Credential over 400 bytes. *)
Definition exr_bad : callreq := mkReq 3 (auth_val 1 (Some (repeat x07 401))) exr_verf exr_args exr_resp.

Definition exr_msg : list byte :=
  [x00;x00;x00;x01; x00;x00;x00;x00; x00;x00;x00;x02; x00;x01;x86;xa0; x00;x00;x00;x02; x00;x00;x00;x03;
   x00;x00;x00;x01; x00;x00;x00;x05; x01;x02;x03;x04;x05;x00;x00;x00;  x00;x00;x00;x00; x00;x00;x00;x00;
   x00;x01;x86;xa3; x00;x00;x00;x03; x00;x00;x00;x06; x00;x00;x00;x00].

(** A successful reply to xid 1: port 2049. *)
Definition exr_reply : list byte :=
  [x00;x00;x00;x01; x00;x00;x00;x01; x00;x00;x00;x00; x00;x00;x00;x00; x00;x00;x00;x00;
   x00;x00;x00;x00; x00;x00;x08;x01].
(** PROC_UNAVAIL in reply to xid 2. *)
Definition exr_reply2 : list byte :=
  [x00;x00;x00;x02; x00;x00;x00;x01; x00;x00;x00;x00; x00;x00;x00;x00; x00;x00;x00;x00;
   x00;x00;x00;x03].

Definition exr_in : list (list byte) :=
  [[x80;x00]; [x00;x1c;x00;x00;x00;x01] ; skipn 4 exr_reply ++ [x80;x00;x00;x18]; exr_reply2 ++ [xff]].
Definition exr_s : stream := mkStream exr_in EOF [].

Lemma exr_c_ok : client_ok exr_c. Proof. repeat split; vm_compute; congruence. Qed.
Lemma exr_xv x : xv_env x = rpc_env -> goodb 12 12 rpc_env (xv_ty x) = true ->
  has_ty rpc_env (xv_ty x) (xv_val x) -> xv_ok x.
Proof. intros E H K. split; rewrite E; [|exact K]. exists 12%nat. apply (goodb_sound 12). exact H. Qed.

Lemma exr_args_ok : xv_ok exr_args.
Proof.
  apply exr_xv; [reflexivity|vm_compute; reflexivity|].
  econstructor; [reflexivity|]. constructor.
  repeat (constructor; [constructor; lia|]). constructor.
Qed.
Lemma exr_resp_ok : xv_ok exr_resp.
Proof.
  apply exr_xv; [reflexivity|vm_compute; reflexivity|].
  econstructor; [reflexivity|]. constructor. lia.
Qed.

Lemma exr_q_ok : req_ok exr_q.
Proof.
  split; [vm_compute; intuition congruence|]. split; [apply auth_ty; apply u32_1|].
  split; [apply auth_ty; apply u32_0|]. split; [apply exr_args_ok|apply exr_resp_ok].
Qed.
Lemma exr_bad_ok : req_ok exr_bad.
Proof.
  split; [vm_compute; intuition congruence|]. split; [apply auth_ty; apply u32_1|].
  split; [apply auth_ty; apply u32_0|]. split; [apply exr_args_ok|apply exr_resp_ok].
Qed.
Lemma exr_q_enc : encodable exr_q.
Proof.
  split; [do 2 eexists; split; [reflexivity|vm_compute; congruence]|].
  split; [do 2 eexists; split; [reflexivity|vm_compute; congruence]|].
  econstructor; [reflexivity|]. constructor.
  repeat (econstructor; [reflexivity|constructor|]). constructor.
Qed.
Lemma exr_bad_enc : ~ encodable exr_bad.
Proof.
  intros ((f & o & E & H) & _). injection E as <- <-. vm_compute in H. congruence.
Qed.

(** Two calls over a stream that splits the records arbitrarily: the first succeeds, the
    second is refused; one byte is left over. *)
Lemma exr_run : CallSeq stream_conn exr_c exr_s [exr_q; exr_q]
  (mkClient 2 100000 2)
  (mkStream [[xff]] EOF
     [[x80;x00;x00;x40] ++ exr_msg; [x80;x00;x00;x40] ++ [x00;x00;x00;x02] ++ skipn 4 exr_msg])
  [(VInt 2049, None); (VInt 99, Some (CAccept 3))].
Proof.
  econstructor; [exists 30%nat; vm_compute; reflexivity|].
  econstructor; [exists 30%nat; vm_compute; reflexivity|].
  constructor.
Qed.

Lemma exr_success : is_success exr_reply 1 [x00; x00; x08; x01].
Proof.
  split; [apply u32_1|]. exists 0, [], null_auth. split; [|vm_compute; reflexivity].
  change null_auth with (be4 0 ++ be4 (zlen (@nil byte)) ++ [] ++ []).
  constructor; [apply u32_0|vm_compute; congruence|apply is_pad_nil].
Qed.
