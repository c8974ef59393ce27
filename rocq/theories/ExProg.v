(** The programs of example/client/main.go and example/server/main.go. *)
From Verif Require Import GoLex XLex Gram GParse Emit RepoText GoAst GoText GoTop GoRes GoPkg GoWf.
From Verif Require Import Bytes XdrLib Types Interp Spec Runs RpcTypes RpcSpec RpcWire Io Client CallSpec Server ServSpec E2E ReplyQ GoSem GenCommitted GoStub GenStub E2EGen Prog.
Open Scope string_scope.
Open Scope Z_scope.
Open Scope list_scope.

(** v.f *)
Definition fld (f : string) (v : val) : val :=
  match v with VStruct l => match lookup f l with Some x => x | None => VStruct [] end | _ => VStruct [] end.
Definition int_of (v : val) : Z := match v with VInt z => z | _ => 0 end.
Definition bool_of (v : val) : bool := match v with VBool b => b | _ => false end.
Definition slice_of (v : val) : list val := match v with VSlice o => elems o | _ => [] end.
(** var x T *)
Definition var1813 (T : string) : xdrable :=
  mkXv rfc1813_env (CIdent T) (match zero rfc1813_D rfc1813_env (CIdent T) with Some z => z | None => VStruct [] end).
Definition var1057 (T : string) : xdrable :=
  mkXv rpc_env (CIdent T) (match zero 16 rpc_env (CIdent T) with Some z => z | None => VStruct [] end).
Definition str (s : string) : val := VStr (list_byte_of_string s).

(** client/main.go:13-14, 69-70; server/main.go:13-14 *)
Definition cred_none : val := auth_val 0 None.
(** client/main.go:61-67; [zeros 20] is what EncodeBuf gives for the zero Auth_unix (ExProgP.v, unix_body). *)
Definition cred_unix : val := auth_val 1 (Some (zeros 20)).

(** client/main.go:23-27, server/main.go:23-28: rfc1057.Mapping *)
Definition mapping (prog vers port : Z) : val :=
  VStruct [("Prog", VInt prog); ("Vers", VInt vers); ("Prot", VInt 6); ("Port", VInt port)].
(** The results are of type xdr.Uint32 and xdr.Bool, which have the methods of rfc1057.Uint32 and rfc1057.Xbool. *)
Definition pmap_req (proc : Z) (a : val) (T : string) : callreq :=
  mkReq proc cred_none cred_none (mkXv rpc_env (CIdent "Mapping") a) (var1057 T).

(** client/main.go:12-39: [k] is given the client.  [defer pmapc.Close()] runs on return and on panic. *)
Definition pmap_client (prog vers : Z) (k : nat -> cprog) : cprog :=
  PDial 111 (fun o =>
  match o with
  | None => PPanic
  | Some pmapc =>
      PMake pmapc 100000 2 (fun pmap =>
      PCall pmap (pmap_req 3 (mapping prog vers 0) "Uint32") (fun res err =>
      match err with
      | Some _ => PClose pmapc PPanic
      | None =>
          PDial (int_of res) (fun o =>
          match o with
          | None => PClose pmapc PPanic
          | Some svcc => PMake svcc prog vers (fun c => PClose pmapc (k c))
          end)
      end))
  end).

(** client/main.go:41-56 *)
Definition dirop (fh : val) (name : string) : val := VStruct [("Dir", fh); ("Name", str name)].
Definition lookup_args (fh : val) (name : string) : val := VStruct [("What", dirop fh name)].
Definition lookup_req (fh : val) (name : string) : callreq :=
  mkReq 3 cred_unix cred_none (mkXv rfc1813_env (CIdent "LOOKUP3args") (lookup_args fh name)) (var1813 "LOOKUP3res").
Definition lookup3 (c : nat) (fh : val) (name : string) (k : val -> cprog) : cprog :=
  PCall c (lookup_req fh name) (fun res err =>
  match err with
  | Some _ => PPanic
  | None => if int_of (fld "Status" res) =? 0 then k (fld "Object" (fld "Resok" res)) else PPanic
  end).

Fixpoint print_all (l : list val) (k : cprog) : cprog :=
  match l with [] => k | v :: l => PPrint v (print_all l k) end.

(** client/main.go:74-77 *)
Definition mnt_req : callreq :=
  mkReq 1 cred_none cred_none (mkXv rfc1813_env (CIdent "Dirpath3") (str "/")) (var1813 "Mountres3").
(** client/main.go:102-108 *)
Definition rename_args (from : val) (fname : string) (to : val) (tname : string) : val :=
  VStruct [("From", dirop from fname); ("To", dirop to tname)].
Definition rename_req (root bar : val) : callreq :=
  mkReq 14 cred_unix cred_none (mkXv rfc1813_env (CIdent "RENAME3args") (rename_args root "foo" bar "foonew")) (var1813 "RENAME3res").
(** client/main.go:85-86 *)
Definition root_fh (res : val) : val := VStruct [("Data", fld "Fhandle" (fld "Mountinfo" res))].

(** client/main.go:58-115 *)
Definition ex_client : cprog :=
  pmap_client 100005 3 (fun mnt =>
  PCall mnt mnt_req (fun res err =>
  match err with
  | Some _ => PPanic
  | None =>
      if int_of (fld "Fhs_status" res) =? 0 then
        let root := root_fh res in
        print_all (slice_of (fld "Auth_flavors" (fld "Mountinfo" res)))
        (PPrint root
        (pmap_client 100003 3 (fun nfs =>
        lookup3 nfs root "foo" (fun foo =>
        lookup3 nfs foo "bar" (fun bar =>
        PPrint bar
        (PCall nfs (rename_req root bar) (fun res1 err =>
        match err with
        | Some _ => PPanic
        | None => PPrint res1 PStop
        end)))))))
      else PPanic
  end)).

(** server/main.go:12-43; [fail] is what the caller's deferred calls do when this panics. *)
Definition pmap_set_unset (prog vers port : Z) (setit : bool) (fail : cprog) (k : bool -> cprog) : cprog :=
  PDial 111 (fun o =>
  match o with
  | None => fail
  | Some pmapc =>
      PMake pmapc 100000 2 (fun pmap =>
      PCall pmap (pmap_req (if setit then 1 else 2) (mapping prog vers port) "Xbool") (fun res err =>
      match err with
      | Some _ => PClose pmapc fail
      | None => PClose pmapc (k (bool_of res))
      end))
  end).

(** server/main.go:46-69, up to the loop that serves connections: [PStop] stands for entering it.  A panic after the first
    mapping has been set runs the deferred call of line 58. *)
Definition ex_server (port : Z) : cprog :=
  pmap_set_unset 100005 3 0 false PPanic (fun _ =>
  pmap_set_unset 100005 3 port true PPanic (fun ok =>
  if ok then
    let deferred := pmap_set_unset 100005 3 port false PPanic (fun _ => PPanic) in
    pmap_set_unset 100003 3 0 false deferred (fun _ =>
    pmap_set_unset 100003 3 port true deferred (fun ok =>
    if ok then PStop else deferred))
  else PPanic)).

(** ** What the programs amount to *)
Section Spec.
Context {W : Type}.
Variables (ls : listeners W) (regs : Z -> list (registration W)).

(** At this port, the procedures of table [t] of version [b] of program [a] are registered, by generated code, with object [obj]. *)
Definition offers (port : Z) (E : env) (obj : object W) (a b : Z) (t : list proc) : Prop :=
  ls port <> None /\ obj_ok E obj t /\ NoDup (map proc_no t) /\
  exists pre rs post, regs port = pre ++ rs ++ post /\ Forall2 (entry E obj a b) t rs /\
    forall r, In r post -> ~ (rg_prog r = a /\ rg_vers r = b).

(** Procedure [k] of the table applied to [args] takes [w] to [w'] and returns [res] (in canonical form), which can be
    encoded, in less than 2 GiB. *)
Inductive applies (E : env) (obj : object W) (t : list proc) (k : Z) (args : val) (w w' : W) (res : val) : Prop :=
| Applies m ta tr y : In (k, m, Some ta, Some tr) t -> obj m (Some args) w = Ret (w', Some y) ->
    bounded ENC E tr y -> (forall b, Wire ENC E tr y b -> 24 + zlen b < 2 ^ 31) ->
    same E tr y res -> canon E tr res -> has_ty E tr res -> applies E obj t k args w w' res.

Variables (pm mnt nfs : object W).

(** client/main.go:12-39: the port the portmapper knows, if something listens there. *)
Inductive finds (prog vers : Z) (w w' : W) : option Z -> Prop :=
| F_found p : applies rpc_env pm pmap_table 3 (mapping prog vers 0) w w' (VInt p) -> ls p <> None -> finds prog vers w w' (Some p)
| F_dead p : applies rpc_env pm pmap_table 3 (mapping prog vers 0) w w' (VInt p) -> ls p = None -> finds prog vers w w' None.

Definition looks_up (fh : val) (name : string) (w w' : W) (res : val) : Prop :=
  applies rfc1813_env nfs nfs_table 3 (lookup_args fh name) w w' res.
Definition status (res : val) : Z := int_of (fld "Status" res).
Definition object_fh (res : val) : val := fld "Object" (fld "Resok" res).

(** client/main.go:58-115: the procedures called, in order, with what is passed from one to the next; the world afterwards, how
    it ends, what is printed, and the port at the other end of each connection opened ([None]: closed again; a connection to
    the portmapper always is).  From line 93 on: *)
Inductive mounted_run (root : val) (w : W) : W -> ending -> list val -> list (option Z) -> Prop :=
| MR_no_nfs w1 : finds 100003 3 w w1 None -> mounted_run root w w1 Panicked [] [None]
| MR_not_served w1 p2 stat : finds 100003 3 w w1 (Some p2) -> turned_down (regs p2) 100003 3 (lookup_req root "foo") stat ->
    mounted_run root w w1 Panicked [] [None; Some p2]
| MR_no_foo w1 p2 w2 r1 : finds 100003 3 w w1 (Some p2) -> offers p2 rfc1813_env nfs 100003 3 nfs_table ->
    looks_up root "foo" w1 w2 r1 -> status r1 <> 0 -> mounted_run root w w2 Panicked [] [None; Some p2]
| MR_no_bar w1 p2 w2 r1 w3 r2 : finds 100003 3 w w1 (Some p2) -> offers p2 rfc1813_env nfs 100003 3 nfs_table ->
    looks_up root "foo" w1 w2 r1 -> status r1 = 0 -> looks_up (object_fh r1) "bar" w2 w3 r2 -> status r2 <> 0 ->
    mounted_run root w w3 Panicked [] [None; Some p2]
| MR_renamed w1 p2 w2 r1 w3 r2 w4 r3 : finds 100003 3 w w1 (Some p2) -> offers p2 rfc1813_env nfs 100003 3 nfs_table ->
    looks_up root "foo" w1 w2 r1 -> status r1 = 0 -> looks_up (object_fh r1) "bar" w2 w3 r2 -> status r2 = 0 ->
    applies rfc1813_env nfs nfs_table 14 (rename_args root "foo" (object_fh r2) "foonew") w3 w4 r3 ->
    mounted_run root w w4 Stopped [object_fh r2; r3] [None; Some p2].
Inductive client_run (w : W) : W -> ending -> list val -> list (option Z) -> Prop :=
| CR_no_mount w1 : finds 100005 3 w w1 None -> client_run w w1 Panicked [] [None]
| CR_not_served w1 p1 stat : finds 100005 3 w w1 (Some p1) -> turned_down (regs p1) 100005 3 mnt_req stat ->
    client_run w w1 Panicked [] [None; Some p1]
| CR_not_mounted w1 p1 w2 res : finds 100005 3 w w1 (Some p1) -> offers p1 rfc1813_env mnt 100005 3 mount_table ->
    applies rfc1813_env mnt mount_table 1 (str "/") w1 w2 res -> int_of (fld "Fhs_status" res) <> 0 ->
    client_run w w2 Panicked [] [None; Some p1]
| CR_mounted w1 p1 w2 res w3 r out cs : finds 100005 3 w w1 (Some p1) -> offers p1 rfc1813_env mnt 100005 3 mount_table ->
    applies rfc1813_env mnt mount_table 1 (str "/") w1 w2 res -> int_of (fld "Fhs_status" res) = 0 ->
    mounted_run (root_fh res) w2 w3 r out cs ->
    client_run w w3 r (slice_of (fld "Auth_flavors" (fld "Mountinfo" res)) ++ root_fh res :: out) (None :: Some p1 :: cs).

(** server/main.go:46-69 *)
Definition sets (on : bool) (prog port : Z) (w w' : W) (b : bool) : Prop :=
  applies rpc_env pm pmap_table (if on then 1 else 2) (mapping prog 3 port) w w' (VBool b).
Inductive server_run (port : Z) (w : W) : W -> ending -> Prop :=
| SR_no_mount w1 b1 w2 : sets false 100005 0 w w1 b1 -> sets true 100005 port w1 w2 false -> server_run port w w2 Panicked
| SR_no_nfs w1 b1 w2 w3 b3 w4 w5 b5 : sets false 100005 0 w w1 b1 -> sets true 100005 port w1 w2 true ->
    sets false 100003 0 w2 w3 b3 -> sets true 100003 port w3 w4 false -> sets false 100005 port w4 w5 b5 -> server_run port w w5 Panicked
| SR_serves w1 b1 w2 w3 b3 w4 : sets false 100005 0 w w1 b1 -> sets true 100005 port w1 w2 true ->
    sets false 100003 0 w2 w3 b3 -> sets true 100003 port w3 w4 true -> server_run port w w4 Stopped.
End Spec.
