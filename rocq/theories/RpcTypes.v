(** The types of /repo/rfc1057/types.go (from prot.x) as resolved declarations, in file
    order.  GenCommitted.v proves that this list is what the generator's front end makes
    of the committed prot.x. *)
From Verif Require Import Bytes XdrLib Types Interp Spec Check.
Open Scope string_scope.
Open Scope Z_scope.
Open Scope list_scope.

Definition rpc_env : env :=
  [ ("Auth_flavor", CU32);                                             (* types.go:3 *)
    ("Opaque_auth", CStruct [("Flavor", CIdent "Auth_flavor"); ("Body", CVarOpaque (Some 400))]);
                                                                       (* types.go:10-13 *)
    ("Msg_type", CU32);                                                (* types.go:14 *)
    ("Reply_stat", CU32);                                              (* types.go:19 *)
    ("Accept_stat", CU32);                                             (* types.go:24 *)
    ("Reject_stat", CU32);                                             (* types.go:32 *)
    ("Auth_stat", CU32);                                               (* types.go:37 *)
    ("Rpc_msg", CStruct                                                (* types.go:45-52 *)
       [("Xid", CU32);
        ("Body", CUnion "Mtype" (CIdent "Msg_type")
           [([0], Some ("Cbody", CIdent "Call_body")); ([1], Some ("Rbody", CIdent "Reply_body"))]
           None)]);
    ("Call_body", CStruct                                              (* types.go:53-60 *)
       [("Rpcvers", CU32); ("Prog", CU32); ("Vers", CU32); ("Proc", CU32);
        ("Cred", CIdent "Opaque_auth"); ("Verf", CIdent "Opaque_auth")]);
    ("Reply_body", CUnion "Stat" (CIdent "Reply_stat")                 (* types.go:61-65 *)
       [([0], Some ("Areply", CIdent "Accepted_reply"));
        ([1], Some ("Rreply", CIdent "Rejected_reply"))] None);
    ("Accepted_reply", CStruct                                         (* types.go:66-76 *)
       [("Verf", CIdent "Opaque_auth");
        ("Reply_data", CUnion "Stat" (CIdent "Accept_stat")
           [([0], Some ("Results", COpaque 0));
            ([2], Some ("Mismatch_info", CStruct [("Low", CU32); ("High", CU32)]))]
           (Some None))]);
    ("Rejected_reply", CUnion "Stat" (CIdent "Reject_stat")            (* types.go:77-84 *)
       [([0], Some ("Mismatch_info", CStruct [("Low", CU32); ("High", CU32)]));
        ([1], Some ("Astat", CIdent "Auth_stat"))] None);
    ("Auth_unix", CStruct                                              (* types.go:85-91 *)
       [("Stamp", CU32); ("Machinename", CString (Some 255)); ("Uid", CU32); ("Gid", CU32);
        ("Gids", CVarArray (Some 16) CU32)]);
    ("Mapping", CStruct                                                (* types.go:95-100 *)
       [("Prog", CU32); ("Vers", CU32); ("Prot", CU32); ("Port", CU32)]);
    ("Pmaplist", CStruct [("P", CPtr (CIdent "Pmaplistelem"))]);       (* types.go:105 *)
    ("Pmaplistelem", CStruct                                           (* types.go:106-109 *)
       [("Map", CIdent "Mapping"); ("Next", CIdent "Pmaplist")]);
    ("Call_args", CStruct                                              (* types.go:110-115 *)
       [("Prog", CU32); ("Vers", CU32); ("Proc", CU32); ("Args", CVarOpaque None)]);
    ("Call_result", CStruct [("Port", CU32); ("Res", CVarOpaque None)]); (* types.go:116-119 *)
    ("Uint32", CU32);                                                  (* types.go:120 *)
    ("Xbool", CBool) ].                                                (* types.go:121 *)

Definition rpc_D : nat := 12.

Lemma rpc_wf : wf_env rpc_D rpc_env.
Proof. apply (wf_envb_sound rpc_D). vm_compute. reflexivity. Qed.

Definition msg_t : cty := CIdent "Rpc_msg".

Lemma msg_good : good rpc_D rpc_env msg_t.
Proof. apply (goodb_sound rpc_D). vm_compute. reflexivity. Qed.

(** types.go:14-43 *)
Definition CALL : Z := 0.
Definition REPLY : Z := 1.
Definition MSG_ACCEPTED : Z := 0.
Definition MSG_DENIED : Z := 1.
Definition SUCCESS : Z := 0.
Definition PROG_UNAVAIL : Z := 1.
Definition PROG_MISMATCH : Z := 2.
Definition PROC_UNAVAIL : Z := 3.
Definition GARBAGE_ARGS : Z := 4.
Definition RPC_MISMATCH : Z := 0.
Definition AUTH_ERROR : Z := 1.

(** [v.A.B = x] and reading [v.A.B]. *)
Fixpoint set_path (p : list string) (x : val) (v : val) : val :=
  match p with
  | [] => x
  | f :: p =>
      match v with
      | VStruct l =>
          match lookup f l with
          | Some w => VStruct (update f (set_path p x w) l)
          | None => v
          end
      | _ => v
      end
  end.

Fixpoint get_path (p : list string) (v : val) : option val :=
  match p with
  | [] => Some v
  | f :: p =>
      match v with
      | VStruct l => match lookup f l with Some w => get_path p w | None => None end
      | _ => None
      end
  end.

Definition get_int (p : list string) (v : val) : Z :=
  match get_path p v with Some (VInt z) => z | _ => -1 end.

(** [var x Rpc_msg]. *)
Definition zero_auth : val := VStruct [("Flavor", VInt 0); ("Body", VBytes None)].
Definition zero_mismatch : val := VStruct [("Low", VInt 0); ("High", VInt 0)].
Definition zero_cbody : val :=
  VStruct [("Rpcvers", VInt 0); ("Prog", VInt 0); ("Vers", VInt 0); ("Proc", VInt 0);
           ("Cred", zero_auth); ("Verf", zero_auth)].
Definition zero_areply : val :=
  VStruct [("Verf", zero_auth);
           ("Reply_data", VStruct [("Stat", VInt 0); ("Results", VArr []);
                                   ("Mismatch_info", zero_mismatch)])].
Definition zero_rreply : val :=
  VStruct [("Stat", VInt 0); ("Mismatch_info", zero_mismatch); ("Astat", VInt 0)].
Definition zero_rbody : val :=
  VStruct [("Stat", VInt 0); ("Areply", zero_areply); ("Rreply", zero_rreply)].
Definition zero_msg : val :=
  VStruct [("Xid", VInt 0);
           ("Body", VStruct [("Mtype", VInt 0); ("Cbody", zero_cbody); ("Rbody", zero_rbody)])].

Lemma zero_msg_ok : zero rpc_D rpc_env msg_t = Some zero_msg.
Proof. reflexivity. Qed.

(** A Go [Opaque_auth] value. *)
Definition auth_val (flavor : Z) (body : option (list byte)) : val :=
  VStruct [("Flavor", VInt flavor); ("Body", VBytes body)].
