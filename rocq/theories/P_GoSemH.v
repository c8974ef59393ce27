(** C74: the emitted methods in a memory with byte slices.

    [callH G grow m x h s v]: a call of the method Xdr of [*x] by the rules of GoSem.v, with byte
    slices as references into the memory [h] and the library of Heap.v (GoSemH.v).  [habs h s],
    [deref h v]: the state and the value as they read in [h].  [gvalid]: the buffer lies in its
    block; [safe h s v]: the byte slices of [v] do, and not in the buffer's spare capacity if the
    state is a writer.  [hstep]: what may happen to state and memory, spelled out in C74_memory. *)
From Verif Require Import GoLex XLex Gram GParse Emit RepoText Bytes XdrLib Types Interp GoAst GoSem GoSemH GoSemHP GElab GoPkg GoWf RpcTypes GoRes GenCommitted GenText.
From Verif Require Import Heap HeapP Io Client Server SrcAst SrcSem SrcLib SrcLibC SrcRpc SrcCli SrcCliB SrcEnv SrcReg SrcSrv SrcSrvB SrcSrvE MsgText MsgTextE Runs.
Open Scope string_scope.
Open Scope Z_scope.
Open Scope list_scope.

(** Any package, any method, any fuel: a run in memory ends as the run over values does. *)
Theorem C74_same : forall G grow, grows grow -> forall m x h s v, gvalid h (h_buf s) -> safe h s v ->
  match callH G grow m x h s v with
  | GRet (h', s', v') => GoSem.call G m x (habs h s) (deref h v) = GRet (habs h' s', deref h' v') /\ hstep h s h' s' /\ safe h' s' v'
  | GPanic => GoSem.call G m x (habs h s) (deref h v) = GPanic
  | GStuck => GoSem.call G m x (habs h s) (deref h v) = GStuck
  | GOut => GoSem.call G m x (habs h s) (deref h v) = GOut
  end.
Proof. exact call_sim. Qed.
Print Assumptions C74_same.

(** Decoding writes no memory.  Encoding writes only beyond the end of the buffer, in its spare
    capacity or in new blocks, so no byte slice that is safe changes. *)
Theorem C74_memory : forall G grow, grows grow -> forall m x h s v h' s' v', gvalid h (h_buf s) -> safe h s v ->
  callH G grow m x h s v = GRet (h', s', v') ->
  h_reader s' = h_reader s /\ gvalid h' (h_buf s') /\ (h_reader s = true -> h' = h) /\
  (h_reader s = false -> differs_at (in_spare (h_buf s)) h h') /\
  forall w, safe h s w -> deref h' w = deref h w.
Proof. exact call_memory. Qed.
Print Assumptions C74_memory.

(** The files generated from a supported specification, and the committed ones: in memory too
    their methods do what the types say. *)
Theorem C74_text : forall fl src E P o P' p, ok_flags fl = true -> spec_prog fl src = Some (E, P) -> generate fl src = Some o -> declares p (files_of o) P' ->
  forall grow, grows grow -> forall x c h s v s' v', lookup x E = Some c -> gvalid h (h_buf s) -> safe h s v ->
  runs E (CIdent x) (habs h s) (deref h v) s' v' ->
  exists h1 s1 v1, habs h1 s1 = s' /\ deref h1 v1 = v' /\ hstep h s h1 s1 /\ safe h1 s1 v1 /\
    exists M, forall m, (M <= m)%nat -> callH (gp_pkg P') grow m x h s v = GRet (h1, s1, v1).
Proof. exact text_heap. Qed.
Print Assumptions C74_text.
Theorem C74_rfc1057 : forall P, declares "rfc1057" [rfc1057_xdr_go; rfc1057_types_go] P -> forall grow, grows grow ->
  forall x h s v, In x (map fst rpc_env) -> has_ty rpc_env (CIdent x) (deref h v) -> gvalid h (h_buf s) -> safe h s v ->
  exists h1 s1 v1, runs rpc_env (CIdent x) (habs h s) (deref h v) (habs h1 s1) (deref h1 v1) /\ hstep h s h1 s1 /\ safe h1 s1 v1 /\
    exists M, forall m, (M <= m)%nat -> callH (gp_pkg P) grow m x h s v = GRet (h1, s1, v1).
Proof. exact rfc1057_heap. Qed.
Print Assumptions C74_rfc1057.
Theorem C74_rfc1813 : forall P, declares "rfc1813" [rfc1813_xdr_go; rfc1813_types_go] P -> forall grow, grows grow ->
  forall x h s v, In x (map fst rfc1813_env) -> has_ty rfc1813_env (CIdent x) (deref h v) -> gvalid h (h_buf s) -> safe h s v ->
  exists h1 s1 v1, runs rfc1813_env (CIdent x) (habs h s) (deref h v) (habs h1 s1) (deref h1 v1) /\ hstep h s h1 s1 /\ safe h1 s1 v1 /\
    exists M, forall m, (M <= m)%nat -> callH (gp_pkg P) grow m x h s v = GRet (h1, s1, v1).
Proof. exact rfc1813_heap. Qed.
Print Assumptions C74_rfc1813.

(** So what C66 and C67 assume of the generated method of Rpc_msg holds of its committed text:
    [text_ext] is the environment of C66_assumptions with that method run by [callH]. *)
Theorem C74_assumption : forall S U grow N (C : conn S) rw (hs : nat -> handler U) P, grows grow ->
  declares "rfc1057" [rfc1057_xdr_go; rfc1057_types_go] P -> (30 <= N)%nat ->
  meets grow N C rw hs (text_ext grow N C hs P) /\
  forall p q m, text_ext grow N C hs P "Rpc_msg.Xdr" [WPtr q; WPtr p] m =
    match of_state (nth_error (m_cells m) p), nth_error (m_cells m) q with
    | Some s, Some g =>
        match callH (gp_pkg P) grow 30 "Rpc_msg" (m_heap m) s (to_h g) with
        | GRet (h', s', v') => Ret (mkMem h' (SrcSem.set_nth (SrcSem.set_nth (m_cells m) p (vstate s')) q (fill g v')) (m_world m), [])
        | GOut => NoFuel
        | _ => Panic
        end
    | _, _ => Panic
    end.
Proof. exact (fun S U grow N C rw hs P G D H => conj (text_ext_meets grow G N C rw hs P D H) (fun p q m => eq_refl)). Qed.
Print Assumptions C74_assumption.
(** The client and one request at the server, as texts down to the library. *)
Theorem C74_Call : forall S U grow, grows grow -> forall P, declares "rfc1057" [rfc1057_xdr_go; rfc1057_types_go] P ->
  forall N (C : conn S) rw (hs : nat -> handler U), (30 <= N)%nat ->
  forall n h cs w p c proc f1 b1 f2 b2 ia ir Ea ta va Er tr vr,
  nth_error cs p = Some (gclient rw c) ->
  nth_error (w_objs w) ia = Some (Ea, ta, va) -> nth_error (w_objs w) ir = Some (Er, tr, vr) -> ia <> ir ->
  gvalid h b1 -> gvalid h b2 -> valid_in h va -> valid_in h vr ->
  agrees (fun x r => let '(c', s', v', e) := x in exists h' cs' w' vr', r = (mkMem h' cs' w', [vcerr e]) /\
      nth_error cs' p = Some (gclient rw c') /\ w_conn w' = s' /\ nth_error (w_objs w') ir = Some (Er, tr, vr') /\ deref h' vr' = v' /\
      differs_at none h h' /\ forall q, q <> p -> (q < List.length cs)%nat -> nth_error cs' q = nth_error cs q)
    (Call N C c (w_conn w) proc (auth_val f1 (option_map (sread h) b1)) (auth_val f2 (option_map (sread h) b2))
       (mkXv Ea ta (deref h va)) (mkXv Er tr (deref h vr)))
    (rpc_run grow (text_ext grow N C hs P) (Datatypes.S (Datatypes.S n)) "Client.Call"
       [WPtr p; WNum "uint32" proc; gauth f1 b1; gauth f2 b2; WObj ia; WObj ir] (mkMem h cs w)).
Proof. exact (@call_by_text). Qed.
Print Assumptions C74_Call.
Theorem C74_handleReqErr : forall S U grow, grows grow -> forall P, declares "rfc1057" [rfc1057_xdr_go; rfc1057_types_go] P ->
  forall N (C : conn S) rw (hs : nat -> handler U), (30 <= N)%nat ->
  forall n h cs w own top srv p o,
  nth_error cs p = Some (gsconn rw top) -> srv_at hs cs own top srv -> gvalid h o ->
  agrees (fun x y => let '(s', u', e) := x in exists h' cs' w', y = (mkMem h' cs' w', [vserr e]) /\ w_conn w' = s' /\ w_user w' = u' /\ w_log w' = w_log w /\
      differs_at anywhere h h' /\ (forall i, (i < List.length cs)%nat -> nth_error cs' i = nth_error cs i))
    (handleReqErr N C srv (w_conn w) (w_user w) (gread h o))
    (rpc_run grow (text_ext grow N C hs P) (Datatypes.S (Datatypes.S n)) "serverConn.handleReqErr" [WPtr p; WSl o] (mkMem h cs w)).
Proof. exact (@req_by_text). Qed.
Print Assumptions C74_handleReqErr.

(** An Opaque_auth decoded by the committed text: its body is a slice of the receive buffer. *)
Example C74_ex_decode : exists P, declares "rfc1057" [rfc1057_xdr_go; rfc1057_types_go] P /\
  gvalid [ex_abuf] (Some (mkSl 0 2 13 14)) /\ safe [ex_abuf] (mkHst None true (Some (mkSl 0 2 13 14))) ex_azero /\
  has_ty rpc_env (CIdent "Opaque_auth") (deref [ex_abuf] ex_azero) /\
  callH (gp_pkg P) exact_grow 30 "Opaque_auth" [ex_abuf] (mkHst None true (Some (mkSl 0 2 13 14))) ex_azero =
  GRet ([ex_abuf], mkHst None true (Some (mkSl 0 14 1 2)), HStruct [("Flavor", HInt 5); ("Body", HBytes (Some (mkSl 0 10 3 3)))]).
Proof. exact ex_auth_decode. Qed.
(** And encoded: into the spare capacity of the buffer. *)
Example C74_ex_encode : exists P, declares "rfc1057" [rfc1057_xdr_go; rfc1057_types_go] P /\
  safe ex_amem (mkHst None false (Some (mkSl 0 0 1 13))) ex_aval /\
  callH (gp_pkg P) exact_grow 30 "Opaque_auth" ex_amem (mkHst None false (Some (mkSl 0 0 1 13))) ex_aval =
  GRet ([[x11; x00; x00; x00; x05; x00; x00; x00; x03; x61; x62; x63; x00]; [x61; x62; x63]], mkHst None false (Some (mkSl 0 0 13 13)), ex_aval).
Proof. exact ex_auth_encode. Qed.
(** The call of C66_ex with the text of the generated method. *)
Example C74_ex_call : exists P h' cs' w', declares "rfc1057" [rfc1057_xdr_go; rfc1057_types_go] P /\
  rpc_run exact_grow (text_ext exact_grow 50 stream_conn (fun _ _ _ u => Ret (u, None, None)) P) 3 "Client.Call"
    [WPtr 0; WNum "uint32" 3; gauth 0 None; gauth 0 None; WObj 0; WObj 1]
    (mkMem [] [gclient 7 (mkClient 4 100000 2)] ex_world) = Ret (mkMem h' cs' w', [WNil]) /\
  nth_error cs' 0 = Some (gclient 7 (mkClient 5 100000 2)) /\ w_objs w' = [([], CU32, HInt 258); ([], CU32, HInt 7)] /\
  si_in (w_conn w') = [] /\ map (@List.length byte) (si_out (w_conn w')) = [48%nat].
Proof. exact ex_call_text. Qed.
