(** C64: programs that make calls, and the two example programs.  [cprog]: a Go program that dials, makes clients, calls and
    prints; [remote]: it run against servers over connections; [direct]: it run with every call replaced by the procedure
    registered at the other end; [client_run], [server_run]: what example/client/main.go and example/server/main.go amount to;
    [offers]: a table of procedures registered with an object by generated code. *)
From Verif Require Import GoLex XLex Gram GParse Emit RepoText GoAst GoText GoTop GoRes GoPkg GoWf.
From Verif Require Import Bytes XdrLib Types Interp Spec RpcTypes RpcSpec Io Client CallSpec Server ServSpec E2E CliEx ReplyQ GoSem GenCommitted GoStub GenStub
  E2EGen Prog ProgP ExProg ExProgP ExProgX.
Open Scope string_scope.
Open Scope Z_scope.
Open Scope list_scope.

(** However the network cuts the streams: what is so at the end when the calls are made directly is so when they are made over
    the network, and the program does come to an end. *)
Theorem C64_programs : forall W (ls : listeners W) regs ch1 ch2, listening ls regs -> (forall i, chunker (ch1 i)) -> (forall i, chunker (ch2 i)) ->
  forall p w (Q : dsys W -> ending -> Prop), direct ls regs p (dsys0 w) Q ->
  exists N y' r, Q (forget y') r /\ forall n, (N <= n)%nat -> remote n ls ch1 ch2 p (sys0 w) y' r.
Proof. exact @transparent0. Qed.
Print Assumptions C64_programs.
Theorem C64_deterministic : forall W n (ls : listeners W) ch1 ch2 p y y1 r1, remote n ls ch1 ch2 p y y1 r1 ->
  forall y2 r2, remote n ls ch1 ch2 p y y2 r2 -> y1 = y2 /\ r1 = r2.
Proof. exact @remote_det. Qed.
Print Assumptions C64_deterministic.

(** example/client/main.go *)
Theorem C64_example_client : forall W (ls : listeners W) regs pm mnt nfs ch1 ch2, listening ls regs ->
  (forall i, chunker (ch1 i)) -> (forall i, chunker (ch2 i)) -> offers ls regs 111 rpc_env pm 100000 2 pmap_table ->
  forall w w' r out cs, client_run ls regs pm mnt nfs w w' r out cs ->
  exists N y', (y_w y' = w' /\ y_out y' = out /\ map (option_map fst) (y_conns y') = cs) /\
    forall n, (N <= n)%nat -> remote n ls ch1 ch2 ex_client (sys0 w) y' r.
Proof. exact @client_remote. Qed.
Print Assumptions C64_example_client.
(** example/server/main.go, up to the loop that serves; the portmapper connections are closed. *)
Theorem C64_example_server : forall W (ls : listeners W) regs pm ch1 ch2, listening ls regs ->
  (forall i, chunker (ch1 i)) -> (forall i, chunker (ch2 i)) -> offers ls regs 111 rpc_env pm 100000 2 pmap_table ->
  forall port w w' r, u32 port -> server_run pm port w w' r ->
  exists N y', (y_w y' = w' /\ y_out y' = [] /\ Forall (fun c => c = None) (y_conns y')) /\
    forall n, (N <= n)%nat -> remote n ls ch1 ch2 (ex_server port) (sys0 w) y' r.
Proof. exact @server_remote. Qed.
Print Assumptions C64_example_server.
(** The two together, with the portmapper of RFC 1057: the server registers both programs whatever was registered before; as it
    has no procedures (main.go:70), the client's first call to it is refused, and the client panics without printing. *)
Theorem C64_examples_together : forall (ls : listeners xw) regs ch1 ch2 port w, listening ls regs ->
  (forall i, chunker (ch1 i)) -> (forall i, chunker (ch2 i)) ->
  offers ls regs 111 rpc_env pmo 100000 2 pmap_table -> u32 port -> ls port = Some MakeServer -> regs port = [] ->
  exists N y1 y2, forall n, (N <= n)%nat ->
    remote n ls ch1 ch2 (ex_server port) (sys0 w) y1 Stopped /\ y_w y1 = served port w /\
    remote n ls ch1 ch2 ex_client (sys0 (y_w y1)) y2 Panicked /\ y_w y2 = y_w y1 /\ y_out y2 = [].
Proof. exact examples_together. Qed.
Print Assumptions C64_examples_together.

(** Servers as the theorems ask for: the portmapper at 111, the file system at 2049, an empty server at 700. *)
Example C64_system_ex : exists prs srs, let ls := ex_ls prs srs in let regs := ex_regs prs srs in
  listening ls regs /\ offers ls regs 111 rpc_env pmo 100000 2 pmap_table /\
  offers ls regs 2049 rfc1813_env mnto 100005 3 mount_table /\ offers ls regs 2049 rfc1813_env nfso 100003 3 nfs_table /\
  ls 700 = Some MakeServer /\ regs 700 = [] /\ ls 2049 <> None /\ chunker bytewise.
Proof. exact ex_system'. Qed.
(** There the client finds foo in the root and bar in foo, moves foo into bar, and prints the flavor, the two handles and the result. *)
Example C64_client_ex : forall ls regs, ls 2049 <> None -> offers ls regs 2049 rfc1813_env mnto 100005 3 mount_table ->
  offers ls regs 2049 rfc1813_env nfso 100003 3 nfs_table ->
  client_run ls regs pmo mnto nfso fs0 fs1 Stopped [VInt 1; fh [x01]; fh [x03]; zero1813 "RENAME3res"] [None; Some 2049; None; Some 2049].
Proof. exact fs_client. Qed.
Example C64_server_ex : server_run pmo 700 fs0 (served 700 fs0) Stopped /\
  x_map (served 700 fs0) = [(100003, 3, 6, 700); (100005, 3, 6, 700)].
Proof. split; [exact (server_starts 700 fs0)|reflexivity]. Qed.
