(** C66: the text of rfc1057/client.go, run by the rules of Go, does what Client.v says. *)
From Verif Require Import GoLex RepoText SrcText SrcAst SrcProg SrcTextP.
From Verif Require Import Bytes XdrLib Types Interp Heap HeapP RpcTypes Io Client Server SrcSem SrcLib SrcLibC SrcRpc SrcCli SrcCliB SrcEnv.
Open Scope string_scope.
Open Scope Z_scope.
Open Scope list_scope.

(** The syntax trees that are run are the files /repo/rfc1057/{types,client,server}.go. *)
Theorem C66_text : is_source rfc1057_types_go rtypes_prog /\ is_source client_go client_prog /\ is_source server_go server_prog /\
  rpc_pkg = f_decls rtypes_prog ++ f_decls client_prog ++ f_decls server_prog.
Proof. exact (conj rtypes_source (conj client_source (conj server_source eq_refl))). Qed.
Print Assumptions C66_text.

(** Below, [ext] is the functions that the package uses from elsewhere: those of package xdr, the generated Xdr methods, the
    connection, io.ReadFull, handlers, goroutines, the pool, printing.  [meets grow N C rw hs ext] is what is assumed of them (SrcRpc.v);
    there are such functions for every connection [C], all handlers [hs] and all fuel [N] of codecs and io.ReadFull.
    [agrees R a b]: both return, with results related by [R], or both panic, or both run out of fuel. *)
Theorem C66_assumptions : forall S U grow N (C : conn S) rw (hs : nat -> handler U), grows grow -> exists ext, meets grow N C rw hs ext.
Proof. exact (fun S U grow N C rw hs G => ex_intro _ _ (the_ext_meets grow G N C rw hs)). Qed.
Print Assumptions C66_assumptions.

(** client.go:18-25 *)
Theorem C66_MakeClient : forall S U grow rw ext n h cs (w : world S U) prog vers,
  rpc_run grow ext (Datatypes.S n) "MakeClient" [WObj rw; WNum "uint32" prog; WNum "uint32" vers] (mkMem h cs w) =
  Ret (mkMem h (cs ++ [gclient rw (MakeClient prog vers)]) w, [WPtr (List.length cs)]).
Proof. exact (@MakeClient_text). Qed.
Print Assumptions C66_MakeClient.

(** client.go:27-109.  The client in a cell, the credentials by value, arguments and result variable behind interfaces: the call ends as
    [Call] says, with its client state, connection state, result value and error; no memory there before has changed. *)
Theorem C66_Call : forall S U grow, grows grow -> forall N (C : conn S) rw (hs : nat -> handler U) ext, meets grow N C rw hs ext ->
  forall n h cs w p c proc f1 b1 f2 b2 ia ir Ea ta va Er tr vr,
  nth_error cs p = Some (gclient rw c) ->
  nth_error (w_objs w) ia = Some (Ea, ta, va) -> nth_error (w_objs w) ir = Some (Er, tr, vr) -> ia <> ir ->
  gvalid h b1 -> gvalid h b2 -> valid_in h va -> valid_in h vr ->
  agrees (fun x r => let '(c', s', v', e) := x in exists h' cs' w' vr', r = (mkMem h' cs' w', [vcerr e]) /\
      nth_error cs' p = Some (gclient rw c') /\ w_conn w' = s' /\ nth_error (w_objs w') ir = Some (Er, tr, vr') /\ deref h' vr' = v' /\
      differs_at none h h' /\ forall q, q <> p -> (q < List.length cs)%nat -> nth_error cs' q = nth_error cs q)
    (Call N C c (w_conn w) proc (auth_val f1 (option_map (sread h) b1)) (auth_val f2 (option_map (sread h) b2))
       (mkXv Ea ta (deref h va)) (mkXv Er tr (deref h vr)))
    (rpc_run grow ext (Datatypes.S (Datatypes.S n)) "Client.Call"
       [WPtr p; WNum "uint32" proc; gauth f1 b1; gauth f2 b2; WObj ia; WObj ir] (mkMem h cs w)).
Proof. exact (@Call_text). Qed.
Print Assumptions C66_Call.

(** A call over a stream that breaks the reply in two: 48 bytes are sent, the result 7 arrives. *)
Example C66_ex : exists h' cs' w',
  rpc_run exact_grow ex_ext 3 "Client.Call" [WPtr 0; WNum "uint32" 3; gauth 0 None; gauth 0 None; WObj 0; WObj 1]
    (mkMem [] [gclient 7 (mkClient 4 100000 2)] ex_world) = Ret (mkMem h' cs' w', [WNil]) /\
  nth_error cs' 0 = Some (gclient 7 (mkClient 5 100000 2)) /\ w_objs w' = [([], CU32, HInt 258); ([], CU32, HInt 7)] /\
  si_in (w_conn w') = [] /\ map (@List.length byte) (si_out (w_conn w')) = [48%nat] /\
  meets exact_grow 50 stream_conn 7 (fun _ _ _ u => Ret (u, None, None)) ex_ext.
Proof. exact ex_call. Qed.
