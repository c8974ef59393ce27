(** A server, run by its text: an example. *)
From Verif Require Import GoLex SrcAst SrcProg.
From Verif Require Import Bytes XdrLib Types Interp Heap HeapP RpcTypes Io Client Server SrcSem SrcLib SrcLibC SrcRpc SrcCli SrcEnv SrcReg SrcSrv SrcRun.

Open Scope string_scope.
Open Scope Z_scope.
Open Scope list_scope.

(** Handler 0 adds one to a number and counts the requests. *)
Definition ex_hs (k : nat) : handler nat :=
  stub [] (Some CU32) (Some CU32) (fun a u => Ret (Datatypes.S u, match a with Some (VInt z) => Some (VInt (z + 1)) | _ => Some (VInt 0) end)).
Definition ex_sext := the_ext exact_grow 60 stream_conn ex_hs.
(** A call of procedure 9 of version 2 of program 300, with the argument 65, after its record mark. *)
Definition ex_req : list byte :=
  [x80; x00; x00; x2c;  x00; x00; x00; x05;  x00; x00; x00; x00;  x00; x00; x00; x02;  x00; x00; x01; x2c;  x00; x00; x00; x02;
   x00; x00; x00; x09;  x00; x00; x00; x00;  x00; x00; x00; x00;  x00; x00; x00; x00;  x00; x00; x00; x00;  x00; x00; x00; x41].
Definition ex_sworld : world stream nat := mkWorld (mkStream [firstn 7 ex_req; skipn 7 ex_req] EOF []) [] O [].
(** The reply: accepted, success, 66. *)
Definition ex_rep : list byte :=
  [x80; x00; x00; x1c;  x00; x00; x00; x05;  x00; x00; x00; x01;  x00; x00; x00; x00;  x00; x00; x00; x00;  x00; x00; x00; x00;
   x00; x00; x00; x00;  x00; x00; x00; x42].
Notation go := (rpc_run exact_grow ex_sext 6).
Lemma ex_serve : exists h' cs' w',
  ('(m, _) <- go "MakeServer" [] (mkMem [] [] ex_sworld) ;;
   '(m, _) <- go "Server.Register" [WPtr 1; WNum "uint32" 300; WNum "uint32" 2; WNum "uint32" 9; WObj 0] m ;;
   '(m, e) <- go "Server.Run" [WPtr 1; WObj 7] m ;;
   match w_log (m_world m) with
   | [EGo _ args _] => '(m, _) <- go "serverConn.handleReq" args m ;; Ret (m, e)
   | _ => Panic
   end) = Ret (mkMem h' cs' w', [vrerr (RIo EOF)]) /\
  si_out (w_conn w') = [ex_rep] /\ w_user w' = 1%nat /\ meets exact_grow 60 stream_conn 7 ex_hs ex_sext.
Proof.
  match goal with |- exists _ _ _, ?r = _ /\ _ => let v := eval vm_compute in r in
    match v with Ret (mkMem ?h ?c ?w, _) => exists h, c, w end end.
  split; [vm_compute; reflexivity|]. split; [vm_compute; reflexivity|]. split; [reflexivity|].
  apply the_ext_meets. intros c n. apply Nat.le_refl.
Qed.
