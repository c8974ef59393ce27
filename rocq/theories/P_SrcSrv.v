(** C67: the text of rfc1057/server.go, run by the rules of Go, does what Server.v says. *)
From Verif Require Import GoLex RepoText SrcText SrcAst SrcProg SrcTextP.
From Verif Require Import Bytes XdrLib Types Interp Heap HeapP RpcTypes Io Client Server SrcSem SrcLib SrcLibC SrcRpc SrcCli SrcEnv SrcReg SrcSrv SrcSrvB SrcRun SrcSrvE.
Open Scope string_scope.
Open Scope Z_scope.
Open Scope list_scope.

(** The syntax trees that are run are the files /repo/rfc1057/{types,client,server}.go (also C66_text); [meets] as in C66. *)
Theorem C67_text : is_source server_go server_prog /\ rpc_pkg = f_decls rtypes_prog ++ f_decls client_prog ++ f_decls server_prog.
Proof. exact (conj server_source eq_refl). Qed.
Print Assumptions C67_text.

(** server.go:43-47.  [srv_at hs cs own top srv]: the Server in cell [top] and the maps it leads to hold the table [srv]. *)
Theorem C67_MakeServer : forall S U grow (hs : nat -> handler U) ext n h cs (w : world S U), exists cs' own,
  rpc_run grow ext (Datatypes.S n) "MakeServer" [] (mkMem h cs w) = Ret (mkMem h cs' w, [WPtr (Datatypes.S (List.length cs))]) /\
  srv_at hs cs' own (Datatypes.S (List.length cs)) MakeServer /\
  forall q, (q < List.length cs)%nat -> own q = None /\ nth_error cs' q = nth_error cs q.
Proof. exact (@MakeServer_text). Qed.
Print Assumptions C67_MakeServer.

(** server.go:49-61 *)
Theorem C67_Register : forall S U grow (hs : nat -> handler U) ext n h cs (w : world S U) own top srv prog vers proc hd hv,
  srv_at hs cs own top srv -> is_handler hs hd hv ->
  exists cs' own',
  rpc_run grow ext (Datatypes.S n) "Server.Register" [WPtr top; WNum "uint32" prog; WNum "uint32" vers; WNum "uint32" proc; hv] (mkMem h cs w) =
    Ret (mkMem h cs' w, []) /\
  srv_at hs cs' own' top (Register srv prog vers proc hd) /\ kept cs own cs' own'.
Proof. exact (@Register_text). Qed.
Print Assumptions C67_Register.

(** server.go:63-67 *)
Theorem C67_RegisterMany : forall S U grow (hs : nat -> handler U) ext n h cs (w : world S U) own top srv regs vs,
  srv_at hs cs own top srv -> Forall2 (greg hs) regs vs ->
  exists cs' own',
  rpc_run grow ext (Datatypes.S (Datatypes.S n)) "Server.RegisterMany" [WPtr top; WTup vs] (mkMem h cs w) = Ret (mkMem h cs' w, []) /\
  srv_at hs cs' own' top (RegisterMany srv regs) /\ kept cs own cs' own'.
Proof. exact (@RegisterMany_text). Qed.
Print Assumptions C67_RegisterMany.

(** server.go:107-182.  One request: the text ends as [handleReqErr] says, with its state of the connection and of the user's procedures
    and its error; the Server and all other variables that were there are as before. *)
Theorem C67_handleReqErr : forall S U grow N (C : conn S) rw (hs : nat -> handler U) ext, meets grow N C rw hs ext ->
  forall n h cs w own top srv p o,
  nth_error cs p = Some (gsconn rw top) -> srv_at hs cs own top srv -> gvalid h o ->
  agrees (fun x y => let '(s', u', e) := x in exists h' cs' w', y = (mkMem h' cs' w', [vserr e]) /\ w_conn w' = s' /\ w_user w' = u' /\ w_log w' = w_log w /\
      differs_at anywhere h h' /\ (forall i, (i < List.length cs)%nat -> nth_error cs' i = nth_error cs i))
    (handleReqErr N C srv (w_conn w) (w_user w) (gread h o))
    (rpc_run grow ext (Datatypes.S (Datatypes.S n)) "serverConn.handleReqErr" [WPtr p; WSl o] (mkMem h cs w)).
Proof. exact (@handleReqErr_text). Qed.
Print Assumptions C67_handleReqErr.

(** server.go:97-105.  The goroutine of a request: as [handleReqErr], then an error is printed, and last the buffer goes back to the pool. *)
Theorem C67_handleReq : forall S U grow N (C : conn S) rw (hs : nat -> handler U) ext, meets grow N C rw hs ext ->
  forall n h cs w own top srv p o,
  nth_error cs p = Some (gsconn rw top) -> srv_at hs cs own top srv -> gvalid h o ->
  agrees (fun x y => let '(s', u', e) := x in exists h' cs' w', y = (mkMem h' cs' w', []) /\ w_conn w' = s' /\ w_user w' = u' /\
      w_log w' = w_log w ++ printed e ++ [EPut (WSl o)] /\
      differs_at anywhere h h' /\ (forall i, (i < List.length cs)%nat -> nth_error cs' i = nth_error cs i))
    (handleReqErr N C srv (w_conn w) (w_user w) (gread h o))
    (rpc_run grow ext (Datatypes.S (Datatypes.S (Datatypes.S n))) "serverConn.handleReq" [WPtr p; WSl o] (mkMem h cs w)).
Proof. exact (@handleReq_text). Qed.
Print Assumptions C67_handleReq.

(** server.go:16-26.  A buffer of the length asked for, whatever the pool has. *)
Theorem C67_getReqBuf : forall S U grow N (C : conn S) rw (hs : nat -> handler U) ext, meets grow N C rw hs ext ->
  forall n h cs w k, exists h' o,
  rpc_run grow ext (Datatypes.S (Datatypes.S n)) "getReqBuf" [WNum "int" (Z.of_nat k)] (mkMem h cs w) = Ret (mkMem h' cs w, [WSl o]) /\
  differs_at anywhere h h' /\ gvalid h' o /\ glen o = k.
Proof. exact (@getReqBuf_text). Qed.
Print Assumptions C67_getReqBuf.

(** server.go:69-95.  [ran h cs w top x y]: result [y] of the text is result [x] of [run_loop]: the same error, the connection left in the
    same state, and one goroutine handleReq started per buffer of [x], in order, with a slice of its bytes.  Whatever [run_loop] ends with,
    Run ends with; whatever Run ends with, [run_loop] ends with; over a connection that keeps io.Reader's contract it does not panic. *)
Theorem C67_Run : forall S U grow N (C : conn S) rw (hs : nat -> handler U) ext, meets grow N C rw hs ext ->
  forall k h cs w top,
  let go := rpc_run grow ext (Datatypes.S (Datatypes.S (Datatypes.S k))) "Server.Run" [WPtr top; WObj rw] (mkMem h cs w) in
  (forall n x, (n <= N)%nat -> (n <= Datatypes.S (Datatypes.S k))%nat -> run_loop n C (w_conn w) [] = Ret x -> exists y, go = Ret y /\ ran rw h cs w top x y) /\
  (forall y, go = Ret y -> exists x, run_loop (Datatypes.S (Datatypes.S k) + N) C (w_conn w) [] = Ret x /\ ran rw h cs w top x y) /\
  (conn_ok C -> go <> Panic).
Proof. exact (@Run_text). Qed.
Print Assumptions C67_Run.

(** A server is made, a procedure registered, a request that arrives in two pieces read, and its goroutine run: the reply is written. *)
Example C67_ex : exists h' cs' w',
  ('(m, _) <- go "MakeServer" [] (mkMem [] [] ex_sworld) ;;
   '(m, _) <- go "Server.Register" [WPtr 1; WNum "uint32" 300; WNum "uint32" 2; WNum "uint32" 9; WObj 0] m ;;
   '(m, e) <- go "Server.Run" [WPtr 1; WObj 7] m ;;
   match w_log (m_world m) with
   | [EGo _ args _] => '(m, _) <- go "serverConn.handleReq" args m ;; Ret (m, e)
   | _ => Panic
   end) = Ret (mkMem h' cs' w', [vrerr (RIo EOF)]) /\
  si_out (w_conn w') = [ex_rep] /\ w_user w' = 1%nat /\ meets exact_grow 60 stream_conn 7 ex_hs ex_sext.
Proof. exact ex_serve. Qed.
