(** What a client can find in a reply (RFC 1057, 8), and what it makes of it. *)
From Verif Require Import Bytes XdrLib Types Interp Spec Runs RpcTypes RpcSpec RpcWire RpcDec Io Client CallSpec.
Open Scope string_scope.
Open Scope Z_scope.
Open Scope list_scope.

(** Kinds of messages: a call; a message type that is neither CALL nor REPLY; an accepted reply with its accept_stat; a
    denied reply with its reject_stat; a reply_stat that is neither. *)
Inductive msg_kind : Type :=
| KCall | KOther (mtype : Z) | KAccepted (stat : Z) | KDenied (stat : Z) | KStat (stat : Z).

(** [m] starts with a message with transaction id [xid] of kind [k]; [rest] follows it. *)
Inductive msg_head : list byte -> Z -> msg_kind -> list byte -> Prop :=
| H_call m xid rv prog vers proc f1 b1 f2 b2 rest : is_call DEC m xid rv prog vers proc f1 b1 f2 b2 rest -> msg_head m xid KCall rest
| H_other xid mt rest : u32 xid -> u32 mt -> mt <> 0 -> mt <> 1 -> msg_head (be4 xid ++ be4 mt ++ rest) xid (KOther mt) rest
| H_accepted xid f b verf stat rest : u32 xid -> auth DEC f b verf -> u32 stat -> stat <> 2 ->
    msg_head (reply_accepted xid verf stat ++ rest) xid (KAccepted stat) rest
| H_prog_mismatch xid f b verf lo hi rest : u32 xid -> auth DEC f b verf -> u32 lo -> u32 hi ->
    msg_head (reply_accepted xid verf 2 ++ be4 lo ++ be4 hi ++ rest) xid (KAccepted 2) rest
| H_rpc_mismatch xid lo hi rest : u32 xid -> u32 lo -> u32 hi -> msg_head (reply_denied_mismatch xid lo hi ++ rest) xid (KDenied 0) rest
| H_auth_error xid why rest : u32 xid -> u32 why -> msg_head (be4 xid ++ be4 1 ++ be4 1 ++ be4 1 ++ be4 why ++ rest) xid (KDenied 1) rest
| H_denied xid r rest : u32 xid -> u32 r -> r <> 0 -> r <> 1 -> msg_head (be4 xid ++ be4 1 ++ be4 1 ++ be4 r ++ rest) xid (KDenied r) rest
| H_stat xid s rest : u32 xid -> u32 s -> s <> 0 -> s <> 1 -> msg_head (be4 xid ++ be4 1 ++ be4 s ++ rest) xid (KStat s) rest.

(** The error returned for a message that is not a successful reply to [xid]. *)
Definition refusal (xid x : Z) (k : msg_kind) : option cerr :=
  if x =? xid then
    match k with
    | KCall => Some (CNotReply 0)
    | KOther mt => Some (CNotReply mt)
    | KDenied s => Some (CDenied s)
    | KStat _ => Some (CDenied 0)
    | KAccepted s => if s =? 0 then None else Some (CAccept s)
    end
  else Some (CXidMismatch x xid).

(** A client waiting for [xid] with result variable [resp], having received [m]: the variable becomes [v], Call returns [e]. *)
Inductive verdict (xid : Z) (m : list byte) (resp : xdrable) : val -> option cerr -> Prop :=
| V_garbled e : (forall x k rest, ~ msg_head m x k rest) -> verdict xid m resp (xv_val resp) (Some (CXdr e))
| V_refused x k rest e : msg_head m x k rest -> refusal xid x k = Some e -> verdict xid m resp (xv_val resp) (Some e)
| V_result rest v e : msg_head m xid (KAccepted 0) rest -> Decode (xv_env resp) (xv_ty resp) rest (xv_val resp) e v ->
    verdict xid m resp v (option_map CXdr e).

(** How a Call of [q] with transaction id [xid] on connection [C] in state [s] can go: connection state, result variable
    and error afterwards. *)
Inductive call_goes {S} (C : conn S) (xid prog vers : Z) (s : S) (q : callreq) : S -> val -> option cerr -> Prop :=
| G_unencodable e : ~ encodable q -> call_goes C xid prog vers s q s (xv_val (rq_resp q)) (Some (CXdr e))
| G_write msg s1 e : request xid prog vers q msg -> c_write C s (mark (zlen msg) ++ msg) = (s1, Some e) ->
    call_goes C xid prog vers s q s1 (xv_val (rq_resp q)) (Some (CIo e))
| G_header msg s1 s2 d e : request xid prog vers q msg -> c_write C s (mark (zlen msg) ++ msg) = (s1, None) ->
    ReadFull C s1 4 s2 d (Some e) ->
    call_goes C xid prog vers s q s2 (xv_val (rq_resp q)) (Some (CIo e))
| G_fragment msg s1 s2 hdr : request xid prog vers q msg -> c_write C s (mark (zlen msg) ++ msg) = (s1, None) ->
    ReadFull C s1 4 s2 hdr None -> be_val hdr < 2 ^ 31 ->
    call_goes C xid prog vers s q s2 (xv_val (rq_resp q)) (Some CFragments)
| G_body msg s1 s2 s3 hdr d e : request xid prog vers q msg -> c_write C s (mark (zlen msg) ++ msg) = (s1, None) ->
    ReadFull C s1 4 s2 hdr None -> 2 ^ 31 <= be_val hdr -> ReadFull C s2 (be_val hdr - 2 ^ 31) s3 d (Some e) ->
    call_goes C xid prog vers s q s3 (xv_val (rq_resp q)) (Some (CIo e))
| G_reply msg s1 s2 s3 hdr m v e : request xid prog vers q msg -> c_write C s (mark (zlen msg) ++ msg) = (s1, None) ->
    ReadFull C s1 4 s2 hdr None -> 2 ^ 31 <= be_val hdr -> ReadFull C s2 (be_val hdr - 2 ^ 31) s3 m None ->
    verdict xid m (rq_resp q) v e -> call_goes C xid prog vers s q s3 v e.
