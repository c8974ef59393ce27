(** Vocabulary for statements about RPC clients. *)
From Verif Require Import Bytes XdrLib Types Interp Spec Runs RpcTypes RpcSpec RpcWire RpcDec Io Client.
Open Scope string_scope.
Open Scope Z_scope.
Open Scope list_scope.

(** A variable of a well-formed type, holding a value of that type. *)
Definition xv_ok (x : xdrable) : Prop :=
  (exists D, good D (xv_env x) (xv_ty x)) /\ has_ty (xv_env x) (xv_ty x) (xv_val x).

Definition client_ok (c : client) : Prop := u32 (cl_xid c) /\ u32 (cl_prog c) /\ u32 (cl_vers c).

(** The parameters of one Call. *)
Record callreq : Type := mkReq {
  rq_proc : Z; rq_cred : val; rq_verf : val; rq_args : xdrable; rq_resp : xdrable
}.
Definition auth_ok (v : val) : Prop := has_ty rpc_env (CIdent "Opaque_auth") v.
Definition req_ok (q : callreq) : Prop :=
  u32 (rq_proc q) /\ auth_ok (rq_cred q) /\ auth_ok (rq_verf q) /\
  xv_ok (rq_args q) /\ xv_ok (rq_resp q).

(** The call [q] on connection [C] in state [s] returns error [e] with client [c'],
    connection state [s'] and [v] in the result variable. *)
Definition Calls {S} (C : conn S) (c : client) (s : S) (q : callreq)
    (c' : client) (s' : S) (v : val) (e : option cerr) : Prop :=
  exists n, Call n C c s (rq_proc q) (rq_cred q) (rq_verf q) (rq_args q) (rq_resp q) = Ret (c', s', v, e).

(** One call after another. *)
Inductive CallSeq {S} (C : conn S) : client -> S -> list callreq -> client -> S -> list (val * option cerr) -> Prop :=
| CS_nil c s : CallSeq C c s [] c s []
| CS_cons c s q c1 s1 v e qs c2 s2 rs :
    Calls C c s q c1 s1 v e -> CallSeq C c1 s1 qs c2 s2 rs ->
    CallSeq C c s (q :: qs) c2 s2 ((v, e) :: rs).

Definition ReadFull {S} (C : conn S) (s : S) (k : Z) (s' : S) (d : list byte) (e : option ioerr) : Prop :=
  exists n, read_full n C s (Z.to_nat k) [] = Ret (s', d, e).

(** [msg] is the RFC 1057 call message with these fields. *)
Definition request (xid prog vers : Z) (q : callreq) (msg : list byte) : Prop :=
  exists f1 o1 f2 o2 w1 w2 wargs,
    rq_cred q = auth_val f1 o1 /\ rq_verf q = auth_val f2 o2 /\
    auth RFC f1 (bytes_of o1) w1 /\ auth RFC f2 (bytes_of o2) w2 /\
    Wire ENC (xv_env (rq_args q)) (xv_ty (rq_args q)) (xv_val (rq_args q)) wargs /\
    msg = call_hdr xid 2 prog vers (rq_proc q) w1 w2 ++ wargs.

(** Credential and verifier have at most 400 bytes, the arguments respect their bounds. *)
Definition encodable (q : callreq) : Prop :=
  (exists f o, rq_cred q = auth_val f o /\ zlen (bytes_of o) <= 400) /\
  (exists f o, rq_verf q = auth_val f o /\ zlen (bytes_of o) <= 400) /\
  bounded ENC (xv_env (rq_args q)) (xv_ty (rq_args q)) (xv_val (rq_args q)).

(** What a client waiting for [xid] makes of the message [m]. *)
Definition reply_outcome (xid : Z) (m : list byte) (resp : xdrable) (v : val) (e : option cerr) : Prop :=
  (exists res e', is_success m xid res /\
     Decode (xv_env resp) (xv_ty resp) res (xv_val resp) e' v /\ (e = None <-> e' = None)) \/
  ((forall res, ~ is_success m xid res) /\ v = xv_val resp /\ e <> None).

(** Record mark as written by the code (RFC 1057: [2^31 + n]). *)
Definition mark (n : Z) : list byte := be4 (2 ^ 31 + n mod 2 ^ 31).
Definition next_xid (c : client) : Z := (cl_xid c + 1) mod 2 ^ 32.
