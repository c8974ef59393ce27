(** The texts of the example programs run as C64 says. *)
From Verif Require Import GoAst GoSem GoPkg RepoText GenText GenFuzz.
From Verif Require Import Bytes XdrLib Types Interp Spec Runs RpcTypes RpcSpec Io Client CallSpec Server ServSpec E2E CliEx ReplyQ GoStub GenCommitted GenStub E2EGen Prog ProgP ExProg ExProgP ExProgX.
From Verif Require Import GoLex SrcAst SrcSem ExTree ExSem ExRun ExRunC ExRunS.
Open Scope string_scope.
Open Scope Z_scope.
Open Scope list_scope.

Lemma client_text' P Q : declares "rfc1057" [rfc1057_xdr_go; rfc1057_types_go] P -> declares "rfc1813" [rfc1813_xdr_go; rfc1813_types_go] Q ->
  forall m port, reads port (fun _ => False) (program1 (consts_of P) (consts_of Q) (f_decls excli_prog) m) ex_client.
Proof. intros D E m port. rewrite (K1057_ok _ D), (K1813_ok _ E). apply client_text. Qed.
Lemma server_text' P Q : declares "rfc1057" [rfc1057_xdr_go; rfc1057_types_go] P -> declares "rfc1813" [rfc1813_xdr_go; rfc1813_types_go] Q ->
  forall m port, u32 port -> reads port (serving port (ex_shutdown port) m) (program1 (consts_of P) (consts_of Q) (f_decls exsrv_prog) m) (ex_server port).
Proof.
  intros D E m port H. rewrite (K1057_ok _ D), (K1813_ok _ E). assert (X := server_text m port). assert (U : to_u32 port = port) by (apply Z.mod_small; exact H). rewrite U in X. exact X.
Qed.
Lemma reads_unique port x p p' : (reads port (fun _ => False) x p /\ reads port (fun _ => False) x p' \/
    exists c m, reads port (serving port c m) x p /\ reads port (serving port c m) x p') ->
  forall W n (ls : listeners W) ch1 ch2 y y' r, remote n ls ch1 ch2 p y y' r <-> remote n ls ch1 ch2 p' y y' r.
Proof.
  intros [[A B]|(c & m & A & B)] W n ls ch1 ch2 y y' r; split; intros X.
  - exact (reads_remote _ _ _ _ A (closed_none port) _ B _ _ _ _ _ _ _ _ X).
  - exact (reads_remote _ _ _ _ B (closed_none port) _ A _ _ _ _ _ _ _ _ X).
  - exact (reads_remote _ _ _ _ A (closed_serving port c m) _ B _ _ _ _ _ _ _ _ X).
  - exact (reads_remote _ _ _ _ B (closed_serving port c m) _ A _ _ _ _ _ _ _ _ X).
Qed.
Lemma client_text_runs P Q : declares "rfc1057" [rfc1057_xdr_go; rfc1057_types_go] P -> declares "rfc1813" [rfc1813_xdr_go; rfc1813_types_go] Q ->
  forall m port p, reads port (fun _ => False) (program1 (consts_of P) (consts_of Q) (f_decls excli_prog) m) p ->
  forall W (ls : listeners W) regs pm mnt nfs ch1 ch2, listening ls regs ->
  (forall i, chunker (ch1 i)) -> (forall i, chunker (ch2 i)) -> offers ls regs 111 rpc_env pm 100000 2 pmap_table ->
  forall w w' r out cs, client_run ls regs pm mnt nfs w w' r out cs ->
  exists N y', (y_w y' = w' /\ y_out y' = out /\ map (option_map fst) (y_conns y') = cs) /\
    forall n, (N <= n)%nat -> remote n ls ch1 ch2 p (sys0 w) y' r.
Proof.
  intros D E m port p Rd W ls regs pm mnt nfs ch1 ch2 L C1 C2 O w w' r out cs X.
  destruct (client_remote (W:=W) ls regs pm mnt nfs ch1 ch2 L C1 C2 O w w' r out cs X) as (N & y' & Y & F).
  exists N, y'. split; [exact Y|]. intros n Hn. apply (reads_unique port _ ex_client p) with (1 := or_introl (conj (client_text' P Q D E m port) Rd)). exact (F n Hn).
Qed.
Lemma server_text_runs P Q : declares "rfc1057" [rfc1057_xdr_go; rfc1057_types_go] P -> declares "rfc1813" [rfc1813_xdr_go; rfc1813_types_go] Q ->
  forall m port p, u32 port -> reads port (serving port (ex_shutdown port) m) (program1 (consts_of P) (consts_of Q) (f_decls exsrv_prog) m) p ->
  forall W (ls : listeners W) regs pm ch1 ch2, listening ls regs ->
  (forall i, chunker (ch1 i)) -> (forall i, chunker (ch2 i)) -> offers ls regs 111 rpc_env pm 100000 2 pmap_table ->
  forall w w' r, server_run pm port w w' r ->
  exists N y', (y_w y' = w' /\ y_out y' = [] /\ Forall (fun c => c = None) (y_conns y')) /\
    forall n, (N <= n)%nat -> remote n ls ch1 ch2 p (sys0 w) y' r.
Proof.
  intros D E m port p Hp Rd W ls regs pm ch1 ch2 L C1 C2 O w w' r X.
  destruct (server_remote (W:=W) ls regs pm ch1 ch2 L C1 C2 O port w w' r Hp X) as (N & y' & Y & F).
  exists N, y'. split; [exact Y|]. intros n Hn.
  refine (reads_remote _ _ _ _ (server_text' P Q D E m port Hp) (closed_serving _ _ _) _ Rd _ _ _ _ _ _ _ _ (F n Hn)).
Qed.

(** ** Examples *)
Lemma ex_client_text ls regs : listening ls regs -> offers ls regs 111 rpc_env pmo 100000 2 pmap_table ->
  ls 2049 <> None -> offers ls regs 2049 rfc1813_env mnto 100005 3 mount_table -> offers ls regs 2049 rfc1813_env nfso 100003 3 nfs_table ->
  exists N y', y_out y' = [VInt 1; fh [x01]; fh [x03]; zero1813 "RENAME3res"] /\
  forall p, reads 0 (fun _ => False) (program1 (consts_of fx_rpc) (consts_of fx_nfs) (f_decls excli_prog) 0) p ->
  forall n, (N <= n)%nat -> remote n ls (fun _ => bytewise) (fun _ => bytewise) p (sys0 fs0) y' Stopped.
Proof.
  intros L O H M N.
  destruct (client_remote ls regs pmo mnto nfso _ _ L (fun _ => bytewise_ok) (fun _ => bytewise_ok) O _ _ _ _ _ (fs_client ls regs H M N)) as (k & y' & (_ & Y & _) & F).
  exists k, y'. split; [exact Y|]. intros p Rd n Hn.
  apply (reads_unique 0 _ ex_client p) with (1 := or_introl (conj (client_text' _ _ fx_rpc_declared fx_nfs_declared 0 0) Rd)). exact (F n Hn).
Qed.
Lemma client_first : exists k, program1 (consts_of fx_rpc) (consts_of fx_nfs) (f_decls excli_prog) 0 =
  XDial (str_bytes "tcp") (VFmt (str_bytes "%s:%d") [VS (str_bytes "localhost"); VK 111]) k.
Proof.
  rewrite (K1057_ok _ fx_rpc_declared), (K1813_ok _ fx_nfs_declared).
  match goal with |- exists k, ?x = ?y => let x' := eval hnf in x in change (exists k, x' = XDial (str_bytes "tcp") (VFmt (str_bytes "%s:%d") [VS (str_bytes "localhost"); VK 111]) k) end.
  eexists. reflexivity.
Qed.
Lemma not_client : ~ reads 0 (fun _ => False) XPanic ex_client /\
  ~ reads 0 (fun _ => False) (XDial (str_bytes "tcp") (VFmt (str_bytes "%s:%d") [VS (str_bytes "localhost"); VK 112]) (fun _ => XPanic)) ex_client.
Proof.
  split; intros R; inversion R; try discriminate; try contradiction.
Qed.
