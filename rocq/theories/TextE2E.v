(** Client and server as text, joined by a connection: the texts of rfc1057/client.go and
    rfc1057/server.go, over the text of package xdr and the committed method of Rpc_msg. *)
From Verif Require Import GoLex RepoText GoPkg.
From Verif Require Import Bytes XdrLib Types Interp Spec Runs Meta RpcTypes RpcSpec Client CallSpec ClientP ServSpec ServerX E2E.
From Verif Require Import Heap HeapP Io Server SrcAst SrcSem SrcLib SrcLibC SrcRpc SrcCli SrcCliB SrcEnv SrcReg SrcSrv SrcSrvB SrcRun MsgText MsgTextE.
Open Scope string_scope.
Open Scope Z_scope.
Open Scope list_scope.

Section Text.
Context {U : Type}.
Variable grow : nat -> nat -> nat.
Variable P : gprog.
Variable hs : nat -> handler U.                     (* the functions registered as handlers, by number *)
Variable vs : list gv.                              (* the []xdr.ProcRegistration given to RegisterMany *)
Variables ch1 ch2 : list byte -> list (list byte).  (* how the network cuts the streams *)
Variable rw : nat.

(** ** The server *)
Section Server.
Variable N : nat.
(** A function of package rfc1057 on the server's side. *)
Definition sgo (f : string) (args : list gv) (m : mem (world stream U)) : outcome (mem (world stream U) * list gv) :=
  rpc_run grow (text_ext grow N stream_conn hs P) (N + 3) f args m.
(** The goroutines of server.go:94, one after another (the client of this connection waits for the reply before it sends
    again), in the memory [h] and variables [cs] that Run has left.  Each finds in its buffer, put into a new block, the bytes
    that were there when it was started (C40 is about other goroutines and the buffer pool). *)
Fixpoint goroutines (h : heap) (cs : list gv) (evs : list event) (u : U) : outcome (U * list (list byte)) :=
  match evs with
  | [] => Ret (u, [])
  | EGo f [v; _] bs :: evs =>
      '(m, _) <- sgo (bytes_str f) [v; WSl (arr h (List.length bs))] (mkMem (h ++ [bs]) cs (mkWorld (mkStream [] EOF []) [] u [])) ;;
      '(u2, out) <- goroutines h cs evs (w_user (m_world m)) ;;
      Ret (u2, si_out (w_conn (m_world m)) ++ out)
  | _ :: _ => Panic
  end.
(** A server program: s := MakeServer(); s.RegisterMany(vs); s.Run(rw), on a connection over which [sent] comes in; then the goroutines, without
    the first [k] that have had their turn.  Returns their number, the world of the user's procedures and the replies. *)
Definition server_text (sent : list byte) (k : nat) (u : U) : outcome (nat * U * list (list byte)) :=
  '(m, s) <- sgo "MakeServer" [] (mkMem [] [] (mkWorld (mkStream (ch1 sent) EOF []) [] u [])) ;;
  '(m, _) <- sgo "Server.RegisterMany" (s ++ [WTup vs]) m ;;
  '(m, _) <- sgo "Server.Run" (s ++ [WObj rw]) m ;;
  '(u, out) <- goroutines (m_heap m) (m_cells m) (skipn k (w_log (m_world m))) u ;;
  Ret (List.length (w_log (m_world m)), u, out).
(** The connection to it ([link], [idle]: E2E.v, where the server is the model of Server.v). *)
Definition text_conn : conn (@link U) :=
  mkConn (@link U)
    (fun s b =>
       let sent := lk_sent s ++ b in
       match server_text sent (lk_done s) (lk_w s) with
       | Ret (k, w', out) =>
           let st := lk_str s in
           (mkLink sent k w' (mkStream (si_in st ++ flat_map ch2 out) (si_end st) (si_out st)), None)
       | _ => (s, Some (EIo "server crashed"))
       end)
    (fun s k =>
       let '(st, d, e) := stream_read (lk_str s) k in (mkLink (lk_sent s) (lk_done s) (lk_w s) st, d, e)).
End Server.

Variable regs : list (registration U).
Hypothesis G : grows grow.
Hypothesis D : declares "rfc1057" [rfc1057_xdr_go; rfc1057_types_go] P.
Hypothesis HR : Forall2 (greg hs) regs vs.
Notation srv := (RegisterMany MakeServer regs).

Section Fuel.
Variable N : nat.
Hypothesis HN : (30 <= N)%nat.
Let M := text_ext_meets grow G N stream_conn rw hs P D HN.

Lemma goroutines_ok h cs own top sc : nth_error cs sc = Some (gsconn rw top) -> srv_at hs cs own top srv ->
  forall bufs evs, Forall2 (started sc) bufs evs -> forall u u' out, serve N srv bufs u = Ret (u', out) -> goroutines N h cs evs u = Ret (u', out).
Proof.
  intros Hc Hs bufs evs F. induction F as [|b ev bufs evs (o & _ & ->) F IH]; intros u u' out H; cbn [serve] in H; [exact H|].
  destruct (handleReqErr N stream_conn srv (mkStream [] EOF []) u b) as [[[st w1] e]| |] eqn:E1; cbn [obind] in H; try discriminate H.
  destruct (serve N srv bufs w1) as [[w2 out2]| |] eqn:E2; cbn [obind] in H; try discriminate H. injection H as <- <-.
  cbn [goroutines]. rewrite bytes_str_inv. unfold sgo.
  replace (N + 3)%nat with (Datatypes.S (Datatypes.S (Datatypes.S N))) by lia.
  pose proof (handleReq_text grow N stream_conn rw hs _ M N (h ++ [b]) cs (mkWorld (mkStream [] EOF []) [] u []) own top srv sc (arr h (List.length b)) Hc Hs (arr_valid h b _ eq_refl)) as Z.
  cbn [w_conn w_user w_log] in Z. rewrite (arr_read h b _ eq_refl), E1 in Z. apply agrees_ret in Z. destruct Z as (y & -> & h1 & c1 & w3 & -> & Z1 & Z2 & _).
  cbn [obind m_world]. rewrite Z2, (IH _ _ _ E2), Z1. reflexivity.
Qed.
Lemma server_ok sent k u x bufs e u' out : run_loop N stream_conn (mkStream (ch1 sent) EOF []) [] = Ret (x, bufs, e) ->
  serve N srv (skipn k bufs) u = Ret (u', out) -> server_text N sent k u = Ret (List.length bufs, u', out).
Proof.
  intros R V. unfold server_text.
  destruct (MakeServer_text (S := stream) grow hs (text_ext grow N stream_conn hs P) (N + 2) [] [] (mkWorld (mkStream (ch1 sent) EOF []) [] u [])) as (c1 & own1 & E1 & S1 & _).
  unfold sgo at 1. replace (N + 3)%nat with (Datatypes.S (N + 2)) by lia. rewrite E1. cbn [obind app List.length] in *.
  destruct (RegisterMany_text grow hs (text_ext grow N stream_conn hs P) (N + 1) [] c1 (mkWorld (mkStream (ch1 sent) EOF []) [] u []) own1 1 MakeServer regs vs S1 HR) as (c2 & own2 & E2 & S2 & _).
  unfold sgo at 1. replace (N + 3)%nat with (Datatypes.S (Datatypes.S (N + 1))) by lia. rewrite E2. cbn [obind].
  pose proof (Run_text grow N stream_conn rw hs _ M N [] c2 (mkWorld (mkStream (ch1 sent) EOF []) [] u []) 1) as (Z & _). cbn [w_conn] in Z.
  destruct (Z N _ ltac:(lia) ltac:(lia) R) as (y & E3 & h3 & c3 & w3 & evs & -> & Y1 & Y2 & Y3 & Y4 & Y5 & Y6 & Y7 & Y8).
  unfold sgo at 1. replace (N + 3)%nat with (Datatypes.S (Datatypes.S (Datatypes.S N))) by lia. rewrite E3. cbn [obind m_heap m_cells m_world fst snd w_log w_user] in *.
  rewrite Y5. cbn [app].
  assert (S3 : srv_at hs c3 own2 1 srv).
  { destruct S2 as (m0 & A & B & S2). exists m0, A, B. eapply srv_rep_frame; [| |exact S2]; [|reflexivity].
    intros q _ Hq. apply Y8. exact Hq. }
  assert (F : Forall2 (started (List.length c2)) (skipn k bufs) (skipn k evs)).
  { clear - Y6. revert k. induction Y6; intros [|k]; cbn [skipn]; [constructor..|constructor; assumption|apply IHY6]. }
  rewrite (goroutines_ok h3 c3 own2 1 _ Y1 S3 _ _ F _ _ _ V). cbn [obind].
  assert (L : List.length evs = List.length bufs) by (clear - Y6; induction Y6; cbn; congruence). rewrite L. reflexivity.
Qed.
(** When the model of the server does not crash, the text does the same. *)
Lemma conn_same s b : snd (c_write (link_conn N ch1 ch2 srv) s b) = None -> c_write (text_conn N) s b = c_write (link_conn N ch1 ch2 srv) s b.
Proof.
  cbn [link_conn text_conn c_write]. cbv zeta.
  destruct (run_loop N stream_conn (mkStream (ch1 (lk_sent s ++ b)) EOF []) []) as [[[x bufs] e]| |] eqn:R; try (cbn; discriminate).
  destruct (serve N srv (skipn (lk_done s) bufs) (lk_w s)) as [[w' out]| |] eqn:V; try (cbn; discriminate).
  rewrite (server_ok _ _ _ _ _ _ _ _ R V). reflexivity.
Qed.
Lemma text_read n s k acc : read_full n (text_conn N) s k acc = read_full n (link_conn N ch1 ch2 srv) s k acc.
Proof.
  revert s k acc. induction n as [|n IH]; intros s k acc; [reflexivity|]. cbn [read_full]. destruct k as [|k]; [reflexivity|].
  change (c_read (text_conn N) s (Datatypes.S k)) with (c_read (link_conn N ch1 ch2 srv) s (Datatypes.S k)).
  destruct (c_read (link_conn N ch1 ch2 srv) s (Datatypes.S k)) as [[s1 d] e]. destruct (Nat.ltb _ _); [reflexivity|]. cbv zeta. destruct e; [reflexivity|apply IH].
Qed.
Lemma call_same n c s proc cred verf args resp c' s' v : Call n (link_conn N ch1 ch2 srv) c s proc cred verf args resp = Ret (c', s', v, None) ->
  Call n (text_conn N) c s proc cred verf args resp = Ret (c', s', v, None).
Proof.
  unfold Call. intros H. destruct (call_request n (incr_xid c) proc cred verf args) as [[e|wbuf]| |]; cbn [obind] in *; try discriminate H.
  set (b := put_u32 (rec_mark (zlen wbuf)) ++ wbuf) in *.
  pose proof (conn_same s b) as K. destruct (c_write (link_conn N ch1 ch2 srv) s b) as [s1 [e1|]]; [discriminate H|]. rewrite K by reflexivity. clear K.
  rewrite text_read. destruct (read_full n (link_conn N ch1 ch2 srv) s1 4 []) as [[[s2 hdr] [e2|]]| |]; cbn [obind] in *; try exact H.
  cbv zeta in *. destruct (_ =? 0); [exact H|]. rewrite text_read. exact H.
Qed.
End Fuel.

(** ** The client *)
(** Memory [m] is ready for the call [q] by client [c] in cell [p] over the connection, which is in state [s]: the credentials and the verifier are
    [gauth f1 b1] and [gauth f2 b2], and arguments and result variable are behind the interfaces [ia] and [ir]. *)
Definition ready {V} (m : mem (world (@link U) V)) (p : nat) (c : client) (s : @link U) (q : callreq) (f1 : Z) (b1 : option slice) (f2 : Z) (b2 : option slice) (ia ir : nat) : Prop :=
  nth_error (m_cells m) p = Some (gclient rw c) /\ w_conn (m_world m) = s /\
  gvalid (m_heap m) b1 /\ auth_val f1 (option_map (sread (m_heap m)) b1) = rq_cred q /\
  gvalid (m_heap m) b2 /\ auth_val f2 (option_map (sread (m_heap m)) b2) = rq_verf q /\ ia <> ir /\
  (exists va, nth_error (w_objs (m_world m)) ia = Some (xv_env (rq_args q), xv_ty (rq_args q), va) /\ valid_in (m_heap m) va /\ deref (m_heap m) va = xv_val (rq_args q)) /\
  (exists vr, nth_error (w_objs (m_world m)) ir = Some (xv_env (rq_resp q), xv_ty (rq_resp q), vr) /\ valid_in (m_heap m) vr /\ deref (m_heap m) vr = xv_val (rq_resp q)).
(** The text of Call, run in any memory ready for [q], returns nil; then the client is [c'], the connection is in state [s'], and the result
    variable has the value [v].  Memory that was there before has not changed, nor any other variable.  [N] and [K]: fuel on the side of the server and of the client. *)
Definition returns (N K : nat) (c : client) (s : @link U) (q : callreq) (c' : client) (s' : @link U) (v : val) : Prop :=
  forall V (hs' : nat -> handler V) n m p f1 b1 f2 b2 ia ir, ready m p c s q f1 b1 f2 b2 ia ir ->
  exists m' vr, rpc_run grow (text_ext grow K (text_conn N) hs' P) (n + 2) "Client.Call"
      [WPtr p; WNum "uint32" (rq_proc q); gauth f1 b1; gauth f2 b2; WObj ia; WObj ir] m = Ret (m', [WNil]) /\
    nth_error (m_cells m') p = Some (gclient rw c') /\ w_conn (m_world m') = s' /\
    nth_error (w_objs (m_world m')) ir = Some (xv_env (rq_resp q), xv_ty (rq_resp q), vr) /\ deref (m_heap m') vr = v /\
    differs_at none (m_heap m) (m_heap m') /\ (forall i, i <> p -> (i < List.length (m_cells m))%nat -> nth_error (m_cells m') i = nth_error (m_cells m) i).
(** One call after another; between them the program may do anything but touch the client and the connection. *)
Inductive text_calls (N K : nat) : client -> @link U -> list callreq -> client -> @link U -> list val -> Prop :=
| TC_nil c s : text_calls N K c s [] c s []
| TC_cons c s q c1 s1 v qs c2 s2 vals : returns N K c s q c1 s1 v -> text_calls N K c1 s1 qs c2 s2 vals -> text_calls N K c s (q :: qs) c2 s2 (v :: vals).

Lemma text_call N K c s q c' s' v : (30 <= N)%nat -> (30 <= K)%nat ->
  Call K (link_conn N ch1 ch2 srv) c s (rq_proc q) (rq_cred q) (rq_verf q) (rq_args q) (rq_resp q) = Ret (c', s', v, None) -> returns N K c s q c' s' v.
Proof.
  intros HN HK H V hs' n [h cs w] p f1 b1 f2 b2 ia ir. unfold ready. cbn [m_heap m_cells m_world].
  intros (Hp & Hw & V1 & A1 & V2 & A2 & Hi & (va & Ia & Va & Ra) & (vr & Ir & Vr & Rr)).
  apply (call_same N HN) in H.
  pose proof (call_by_text _ V grow G P D K (text_conn N) rw hs' HK n h cs w p c (rq_proc q) f1 b1 f2 b2 ia ir _ _ va _ _ vr Hp Ia Ir Hi V1 V2 Va Vr) as Z.
  rewrite A1, A2, Ra, Rr, Hw in Z. destruct (rq_args q) as [Ea ta xa], (rq_resp q) as [Er tr xr]. cbn [xv_env xv_ty xv_val] in *.
  rewrite H in Z. apply agrees_ret in Z. destruct Z as (y & E & h' & cs' & w' & vr' & -> & Z1 & Z2 & Z3 & Z4 & Z5 & Z6).
  replace (n + 2)%nat with (Datatypes.S (Datatypes.S n)) by lia. exists (mkMem h' cs' w'), vr'. cbn [m_heap m_cells m_world].
  repeat (split; [assumption|]). exact Z6.
Qed.
Lemma text_seq N qs : (30 <= N)%nat -> forall c s c' s' vals, CallSeq (link_conn N ch1 ch2 srv) c s qs c' s' (map (fun v => (v, None)) vals) ->
  exists K0, forall K, (K0 <= K)%nat -> text_calls N K c s qs c' s' vals.
Proof.
  intros HN. induction qs as [|q qs IH]; intros c s c' s' vals H; inversion H; subst.
  - destruct vals; [|discriminate]. exists O. intros. constructor.
  - destruct vals as [|v0 vals]; [discriminate|]. cbn [map] in *. match goal with Q : _ :: _ = _ :: _ |- _ => injection Q as -> -> -> end.
    match goal with Q : CallSeq _ _ _ qs _ _ _ |- _ => destruct (IH _ _ _ _ _ Q) as [K1 H1] end.
    match goal with Q : Calls _ _ _ _ _ _ _ _ |- _ => destruct Q as [K2 H2] end.
    exists (30 + K1 + K2)%nat. intros K L. econstructor; [|apply H1; lia]. apply text_call; [exact HN|lia|]. eapply Call_mono; [|exact H2]. lia.
Qed.
(** What holds of calls to the model of the server holds of the texts. *)
Lemma text_lift (Q : client -> @link U -> list val -> Prop) c s qs :
  (exists N c' s' vals, Q c' s' vals /\ forall n, (N <= n)%nat -> CallSeq (link_conn n ch1 ch2 srv) c s qs c' s' (map (fun v => (v, None)) vals)) ->
  exists N c' s' vals, Q c' s' vals /\ forall n, (N <= n)%nat -> exists K0, forall K, (K0 <= K)%nat -> text_calls n K c s qs c' s' vals.
Proof.
  intros (N & c' & s' & vals & H1 & H2). exists (30 + N)%nat, c', s', vals. split; [exact H1|]. intros n L. apply text_seq; [lia|]. apply H2. lia.
Qed.
End Text.

(** ** The assumptions can be met *)
(** Every list of registrations is the list of values of some Go slice. *)
Lemma regs_as_values {U} (regs : list (registration U)) : exists hs vs, Forall2 (greg hs) regs vs.
Proof.
  set (nop := (fun _ _ u => Ret (u, None, None)) : handler U).
  set (hs := fun k => match nth_error regs k with Some r => match rg_handler r with Some h => h | None => nop end | None => nop end).
  exists hs. assert (K : forall post pre, regs = pre ++ post -> exists vs, Forall2 (greg hs) post vs).
  { induction post as [|r post IH]; intros pre Q; [exists []; constructor|]. destruct (IH (pre ++ [r])) as [vs F]; [rewrite <- app_assoc; exact Q|].
    exists (WStruct "ProcRegistration" [("Prog", WNum "uint32" (rg_prog r)); ("Vers", WNum "uint32" (rg_vers r)); ("Proc", WNum "uint32" (rg_proc r));
      ("Handler", match rg_handler r with Some _ => WObj (List.length pre) | None => WNil end)] :: vs).
    constructor; [|exact F]. eexists. split; [|reflexivity]. unfold is_handler. destruct (rg_handler r) as [h|] eqn:Er; [|reflexivity].
    exists (List.length pre). split; [reflexivity|]. unfold hs. rewrite Q, nth_error_app2, Nat.sub_diag by lia. cbn. rewrite Er. reflexivity. }
  exact (K regs [] eq_refl).
Qed.
(** For every call there is a memory ready for it. *)
Lemma auth_put h o : exists h' b, differs_at none h h' /\ gvalid h' b /\ option_map (sread h') b = o.
Proof.
  destruct o as [bs|]; [|exists h, None; split; [apply differs_refl|split; [exact I|reflexivity]]].
  exists (h ++ [bs]), (arr h (List.length bs)). split; [apply differs_new|]. split; [apply arr_valid; reflexivity|].
  pose proof (arr_read h bs _ eq_refl) as K. unfold arr in *. cbn [gread option_map] in *. rewrite K. reflexivity.
Qed.
Lemma auth_keep h h' b : differs_at none h h' -> gvalid h b -> gvalid h' b /\ option_map (sread h') b = option_map (sread h) b.
Proof.
  intros Df Hv. split; [eapply gvalid_differs; eassumption|]. destruct b as [sl|]; [|reflexivity]. cbn [option_map]. f_equal.
  exact (gread_differs none h h' (Some sl) Df Hv (fun _ _ _ K => K)).
Qed.
Lemma ready_exists {U V} rw c (s : @link U) q (u : V) : encodable q -> exists m f1 b1 f2 b2, ready rw m 0 c s q f1 b1 f2 b2 0 1 /\ w_user (m_world m) = u.
Proof.
  intros ((f1 & o1 & C1 & _) & (f2 & o2 & C2 & _) & _).
  destruct (auth_put [] o1) as (h1 & b1 & D1 & V1 & R1). destruct (auth_put h1 o2) as (h2 & b2 & D2 & V2 & R2).
  destruct (auth_keep _ _ _ D2 V1) as [V1' R1']. 
  destruct (alloc_ok (xv_val (rq_args q)) h2) as (D3 & Va & Ra). destruct (alloc (xv_val (rq_args q)) h2) as [h3 va]. cbn [fst snd] in *.
  destruct (alloc_ok (xv_val (rq_resp q)) h3) as (D4 & Vr & Rr). destruct (alloc (xv_val (rq_resp q)) h3) as [h4 vr]. cbn [fst snd] in *.
  pose proof (differs_trans _ _ _ _ D3 D4) as D5. destruct (auth_keep _ _ _ D5 V1') as [W1 S1]. destruct (auth_keep _ _ _ D5 V2) as [W2 S2].
  exists (mkMem h4 [gclient rw c] (mkWorld s [(xv_env (rq_args q), xv_ty (rq_args q), va); (xv_env (rq_resp q), xv_ty (rq_resp q), vr)] u [])), f1, b1, f2, b2.
  split; [|reflexivity]. unfold ready. cbn [m_heap m_cells m_world w_conn w_objs nth_error].
  split; [reflexivity|]. split; [reflexivity|]. split; [exact W1|]. split; [congruence|]. split; [exact W2|]. split; [congruence|]. split; [discriminate|]. split.
  - exists va. split; [reflexivity|]. split; [exact (valid_differs none _ _ _ D4 Va)|]. rewrite (deref_differs h3 h4 va D4 Va). exact Ra.
  - exists vr. split; [reflexivity|]. split; assumption.
Qed.

(** ** End to end *)
Lemma text_e2e U grow P (hs : nat -> handler U) vs ch1 ch2 rw regs : grows grow -> declares "rfc1057" [rfc1057_xdr_go; rfc1057_types_go] P -> Forall2 (greg hs) regs vs ->
  regs_ok regs -> chunker ch1 -> chunker ch2 ->
  forall qs c s w' rs, client_ok c -> Forall req_ok qs -> Forall encodable qs -> idle s ->
  invokes_all regs (cl_prog c) (cl_vers c) (next_xid c) qs (lk_w s) w' rs ->
  exists N c' s' vals, (idle s' /\ lk_w s' = w' /\ Forall2 delivered rs vals) /\
    forall n, (N <= n)%nat -> exists K0, forall K, (K0 <= K)%nat -> text_calls grow P hs vs ch1 ch2 rw n K c s qs c' s' vals.
Proof.
  intros G D HR HO C1 C2 qs c s w' rs Hc Hq He Hi Hinv.
  apply (text_lift grow P hs vs ch1 ch2 rw regs G D HR (fun _ s' vals => idle s' /\ lk_w s' = w' /\ Forall2 delivered rs vals)).
  destruct (e2e (RegisterMany MakeServer regs) regs ch1 ch2 (R_many MakeServer [] regs R_make) HO C1 C2 qs c s w' rs Hc Hq He Hi Hinv) as (N & c' & s' & vals & A1 & A2 & A3 & A4).
  exists N, c', s', vals. auto.
Qed.
