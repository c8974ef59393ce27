(** Model of /repo/rfc1057/client.go. *)
From Verif Require Import Bytes XdrLib Types Interp RpcTypes Io.
Open Scope string_scope.
Open Scope Z_scope.
Open Scope list_scope.

(** A value of interface type xdr.Xdrable (/repo/xdr/types.go:3-5): a pointer to a variable
    of a generated type.  Hand-written implementations of the interface are not modelled.
    xdr.Void (types.go:12,22) is the struct without fields. *)
Record xdrable : Type := mkXv { xv_env : env; xv_ty : cty; xv_val : val }.
Definition xv_void : xdrable := mkXv [] (CStruct []) (VStruct []).

(** client.go:11-16; the connection [rw] is passed separately. *)
Record client : Type := mkClient { cl_xid : Z; cl_prog : Z; cl_vers : Z }.

(** client.go:18-25 *)
Definition MakeClient (prog vers : Z) : client := mkClient 0 prog vers.

(** Errors returned by Call. *)
Inductive cerr : Type :=
| CXdr (e : xerr)              (* client.go:44,50,82,104 *)
| CIo (e : ioerr)              (* client.go:58,63,74 *)
| CFragments                   (* client.go:68 *)
| CXidMismatch (got want : Z)  (* client.go:86 *)
| CNotReply (mtype : Z)        (* client.go:90 *)
| CDenied (stat : Z)           (* client.go:94 *)
| CAccept (stat : Z).          (* client.go:98 *)

(** [(1<<31)|uint32(n)]: client.go:55, server.go:178. *)
Definition rec_mark (n : Z) : Z := Z.lor (2 ^ 31) (to_u32 n).

(** client.go:28 [c.xid++] on a uint32. *)
Definition incr_xid (c : client) : client :=
  mkClient ((cl_xid c + 1) mod 2 ^ 32) (cl_prog c) (cl_vers c).

(** client.go:30-38 *)
Definition req_msg (c : client) (proc : Z) (cred verf : val) : val :=
  let req := zero_msg in
  let req := set_path ["Xid"] (VInt (cl_xid c)) req in
  let req := set_path ["Body"; "Mtype"] (VInt CALL) req in
  let req := set_path ["Body"; "Cbody"; "Rpcvers"] (VInt 2) req in
  let req := set_path ["Body"; "Cbody"; "Prog"] (VInt (cl_prog c)) req in
  let req := set_path ["Body"; "Cbody"; "Vers"] (VInt (cl_vers c)) req in
  let req := set_path ["Body"; "Cbody"; "Proc"] (VInt proc) req in
  let req := set_path ["Body"; "Cbody"; "Cred"] cred req in
  set_path ["Body"; "Cbody"; "Verf"] verf req.

(** client.go:40-53: the encoded message, or the encoding error. *)
Definition call_request (n : nat) (c : client) (proc : Z) (cred verf : val) (args : xdrable)
  : outcome (xerr + list byte) :=
  '(wr, _) <- xdr n rpc_env msg_t (MakeWriter []) (req_msg c proc cred verf) ;;
  match Error wr with
  | Some e => Ret (inl e)
  | None =>
      '(wr, _) <- xdr n (xv_env args) (xv_ty args) wr (xv_val args) ;;
      match Error wr with
      | Some e => Ret (inl e)
      | None => Ret (inr (WriteBuf wr))
      end
  end.

(** client.go:77-107: the new value of the result variable and the returned error. *)
Definition call_reply (n : nat) (xid : Z) (buf : list byte) (resp : xdrable)
  : outcome (val * option cerr) :=
  '(rd, res) <- xdr n rpc_env msg_t (MakeReader buf) zero_msg ;;
  match Error rd with
  | Some e => Ret (xv_val resp, Some (CXdr e))
  | None =>
      if negb (get_int ["Xid"] res =? xid)
      then Ret (xv_val resp, Some (CXidMismatch (get_int ["Xid"] res) xid))
      else if negb (get_int ["Body"; "Mtype"] res =? REPLY)
      then Ret (xv_val resp, Some (CNotReply (get_int ["Body"; "Mtype"] res)))
      else if negb (get_int ["Body"; "Rbody"; "Stat"] res =? MSG_ACCEPTED)
      then Ret (xv_val resp, Some (CDenied (get_int ["Body"; "Rbody"; "Rreply"; "Stat"] res)))
      else if negb (get_int ["Body"; "Rbody"; "Areply"; "Reply_data"; "Stat"] res =? SUCCESS)
      then Ret (xv_val resp,
                Some (CAccept (get_int ["Body"; "Rbody"; "Areply"; "Reply_data"; "Stat"] res)))
      else
        '(rd, v) <- xdr n (xv_env resp) (xv_ty resp) rd (xv_val resp) ;;
        match Error rd with
        | Some e => Ret (v, Some (CXdr e))
        | None => Ret (v, None)
        end
  end.

(** client.go:27-108.  Returns the client, the connection state, the value of the result
    variable and the returned error. *)
Definition Call {S} (n : nat) (C : conn S) (c : client) (s : S) (proc : Z) (cred verf : val)
    (args resp : xdrable) : outcome (client * S * val * option cerr) :=
  let c := incr_xid c in
  'r <- call_request n c proc cred verf args ;;
  match r with
  | inl e => Ret (c, s, xv_val resp, Some (CXdr e))
  | inr wbuf =>
      let '(s1, e1) := c_write C s (put_u32 (rec_mark (zlen wbuf)) ++ wbuf) in
      match e1 with
      | Some e => Ret (c, s1, xv_val resp, Some (CIo e))
      | None =>
          '(s2, hdr, e2) <- read_full n C s1 4 [] ;;
          match e2 with
          | Some e => Ret (c, s2, xv_val resp, Some (CIo e))
          | None =>
              let hlen := get_u32 hdr in
              if Z.land hlen (2 ^ 31) =? 0
              then Ret (c, s2, xv_val resp, Some CFragments)
              else
                '(s3, buf, e3) <- read_full n C s2 (Z.to_nat (Z.land hlen 2147483647)) [] ;;
                match e3 with
                | Some e => Ret (c, s3, xv_val resp, Some (CIo e))
                | None =>
                    '(v, e) <- call_reply n (cl_xid c) buf resp ;;
                    Ret (c, s3, v, e)
                end
          end
      end
  end.
