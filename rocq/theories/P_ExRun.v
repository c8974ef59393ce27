(** C73: the texts of example/client/main.go and example/server/main.go, run by the rules of Go (ExSem.v), are the programs of C64.
    [reads port loop x p]: the tree [x] of what a text asks of the outside, and does with each answer, is the program [p] where net.Listen gives [port];
    [loop] is what is left of the text where the program of Prog.v ends.  [consts_of]: the constants a package declares. *)
From Verif Require Import GoAst GoSem GoPkg RepoText GenText GenFuzz.
From Verif Require Import Bytes XdrLib Types Interp Spec Runs RpcTypes RpcSpec Io Client CallSpec Server ServSpec E2E CliEx ReplyQ GoStub GenCommitted GenStub E2EGen Prog ProgP ExProg ExProgP ExProgX.
From Verif Require Import GoLex SrcAst SrcTextP SrcSem ExText ExTree ExTextP ExSem ExRun ExRunC ExRunS ExRunP.
Open Scope string_scope.
Open Scope Z_scope.
Open Scope list_scope.

(** The trees run are those of the files. *)
Theorem C73_text : is_source excli_go excli_prog /\ is_source exsrv_go exsrv_prog.
Proof. exact (conj excli_source exsrv_source). Qed.
Print Assumptions C73_text.

(** [m]: the iterations a for loop may have.  The constants are those of the committed files of rfc1057 and rfc1813. *)
Theorem C73_client : forall P Q, declares "rfc1057" [rfc1057_xdr_go; rfc1057_types_go] P -> declares "rfc1813" [rfc1813_xdr_go; rfc1813_types_go] Q ->
  forall m port, reads port (fun _ => False) (program1 (consts_of P) (consts_of Q) (f_decls excli_prog) m) ex_client.
Proof. exact client_text'. Qed.
Print Assumptions C73_client.
(** Then each connection accepted is served, until Accept fails; then the deferred calls take back both mappings and the program panics. *)
Theorem C73_server : forall P Q, declares "rfc1057" [rfc1057_xdr_go; rfc1057_types_go] P -> declares "rfc1813" [rfc1813_xdr_go; rfc1813_types_go] Q ->
  forall m port, u32 port -> reads port (serving port (ex_shutdown port) m) (program1 (consts_of P) (consts_of Q) (f_decls exsrv_prog) m) (ex_server port).
Proof. exact server_text'. Qed.
Print Assumptions C73_server.

(** A text is only one program, whatever its loop: programs it is read as have the same runs. *)
Theorem C73_unique : forall port x p p', (reads port (fun _ => False) x p /\ reads port (fun _ => False) x p' \/
    exists c m, reads port (serving port c m) x p /\ reads port (serving port c m) x p') ->
  forall W n (ls : listeners W) ch1 ch2 y y' r, remote n ls ch1 ch2 p y y' r <-> remote n ls ch1 ch2 p' y y' r.
Proof. exact reads_unique. Qed.
Print Assumptions C73_unique.

(** So what C64 says is so for whatever the texts are read as. *)
Theorem C73_client_runs : forall P Q, declares "rfc1057" [rfc1057_xdr_go; rfc1057_types_go] P -> declares "rfc1813" [rfc1813_xdr_go; rfc1813_types_go] Q ->
  forall m port p, reads port (fun _ => False) (program1 (consts_of P) (consts_of Q) (f_decls excli_prog) m) p ->
  forall W (ls : listeners W) regs pm mnt nfs ch1 ch2, listening ls regs ->
  (forall i, chunker (ch1 i)) -> (forall i, chunker (ch2 i)) -> offers ls regs 111 rpc_env pm 100000 2 pmap_table ->
  forall w w' r out cs, client_run ls regs pm mnt nfs w w' r out cs ->
  exists N y', (y_w y' = w' /\ y_out y' = out /\ map (option_map fst) (y_conns y') = cs) /\
    forall n, (N <= n)%nat -> remote n ls ch1 ch2 p (sys0 w) y' r.
Proof. exact client_text_runs. Qed.
Print Assumptions C73_client_runs.
Theorem C73_server_runs : forall P Q, declares "rfc1057" [rfc1057_xdr_go; rfc1057_types_go] P -> declares "rfc1813" [rfc1813_xdr_go; rfc1813_types_go] Q ->
  forall m port p, u32 port -> reads port (serving port (ex_shutdown port) m) (program1 (consts_of P) (consts_of Q) (f_decls exsrv_prog) m) p ->
  forall W (ls : listeners W) regs pm ch1 ch2, listening ls regs ->
  (forall i, chunker (ch1 i)) -> (forall i, chunker (ch2 i)) -> offers ls regs 111 rpc_env pm 100000 2 pmap_table ->
  forall w w' r, server_run pm port w w' r ->
  exists N y', (y_w y' = w' /\ y_out y' = [] /\ Forall (fun c => c = None) (y_conns y')) /\
    forall n, (N <= n)%nat -> remote n ls ch1 ch2 p (sys0 w) y' r.
Proof. exact server_text_runs. Qed.
Print Assumptions C73_server_runs.

(** Packages as asked for. *)
Example C73_ex_consts : declares "rfc1057" [rfc1057_xdr_go; rfc1057_types_go] fx_rpc /\ declares "rfc1813" [rfc1813_xdr_go; rfc1813_types_go] fx_nfs /\
  assoc "PMAP_PORT" (consts_of fx_rpc) = Some 111 /\ assoc "NFS_PROGRAM" (consts_of fx_nfs) = Some 100003.
Proof. exact (conj fx_rpc_declared (conj fx_nfs_declared (conj eq_refl eq_refl))). Qed.
(** C64_system_ex has the servers; there the run of the text is this one (C64_client_ex). *)
Example C73_ex_client : forall ls regs, listening ls regs -> offers ls regs 111 rpc_env pmo 100000 2 pmap_table ->
  ls 2049 <> None -> offers ls regs 2049 rfc1813_env mnto 100005 3 mount_table -> offers ls regs 2049 rfc1813_env nfso 100003 3 nfs_table ->
  exists N y', y_out y' = [VInt 1; fh [x01]; fh [x03]; zero1813 "RENAME3res"] /\
  forall p, reads 0 (fun _ => False) (program1 (consts_of fx_rpc) (consts_of fx_nfs) (f_decls excli_prog) 0) p ->
  forall n, (N <= n)%nat -> remote n ls (fun _ => bytewise) (fun _ => bytewise) p (sys0 fs0) y' Stopped.
Proof. exact ex_client_text. Qed.
(** The first thing the client does: dial localhost:111. *)
Example C73_ex_first : exists k, program1 (consts_of fx_rpc) (consts_of fx_nfs) (f_decls excli_prog) 0 =
  XDial (str_bytes "tcp") (VFmt (str_bytes "%s:%d") [VS (str_bytes "localhost"); VK 111]) k.
Proof. exact client_first. Qed.
(** Another program is not read as the client: one that panics at once, one that dials another port. *)
Example C73_ex_not : ~ reads 0 (fun _ => False) XPanic ex_client /\
  ~ reads 0 (fun _ => False) (XDial (str_bytes "tcp") (VFmt (str_bytes "%s:%d") [VS (str_bytes "localhost"); VK 112]) (fun _ => XPanic)) ex_client.
Proof. exact not_client. Qed.
