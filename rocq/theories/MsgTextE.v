(** Consequences and examples of GoSemHP.v and MsgText.v. *)
From Verif Require Import GoLex XLex Gram GParse Emit RepoText Bytes XdrLib Types Interp Check GoAst GoSem GoSemH GoSemHP GElab GoPkg GoWf RpcTypes GoRes GenCommitted GenText.
From Verif Require Import Heap HeapP Io Client Server SrcAst SrcSem SrcLib SrcLibC SrcRpc SrcCli SrcCliB SrcEnv SrcReg SrcSrv SrcSrvB MsgText.
Open Scope string_scope.
Open Scope Z_scope.
Open Scope list_scope.

Lemma call_memory G grow : grows grow -> forall m x h s v h' s' v', gvalid h (h_buf s) -> safe h s v ->
  callH G grow m x h s v = GRet (h', s', v') ->
  h_reader s' = h_reader s /\ gvalid h' (h_buf s') /\ (h_reader s = true -> h' = h) /\
  (h_reader s = false -> differs_at (in_spare (h_buf s)) h h') /\
  forall w, safe h s w -> deref h' w = deref h w.
Proof.
  intros Gr m x h s v h' s' v' Hv Hs H. pose proof (call_sim G grow Gr m x h s v Hv Hs) as K. rewrite H in K.
  destruct K as (_ & K & _). pose proof K as (A1 & A2 & A3 & A4). split; [exact A1|]. split; [exact A2|].
  split; [intros Hr; apply (A3 Hr)|]. split; [intros Hr; apply (A4 Hr)|]. intros w Hw. eapply hstep_deref; eassumption.
Qed.
Lemma call_by_text S U grow (G : grows grow) P (D : declares "rfc1057" [rfc1057_xdr_go; rfc1057_types_go] P)
  N (C : conn S) rw (hs : nat -> handler U) (H : (30 <= N)%nat) n h cs w p c proc f1 b1 f2 b2 ia ir Ea ta va Er tr vr :
  nth_error cs p = Some (gclient rw c) ->
  nth_error (w_objs w) ia = Some (Ea, ta, va) -> nth_error (w_objs w) ir = Some (Er, tr, vr) -> ia <> ir ->
  gvalid h b1 -> gvalid h b2 -> valid_in h va -> valid_in h vr ->
  agrees (fun x r => let '(c', s', v', e) := x in exists h' cs' w' vr', r = (mkMem h' cs' w', [vcerr e]) /\
      nth_error cs' p = Some (gclient rw c') /\ w_conn w' = s' /\ nth_error (w_objs w') ir = Some (Er, tr, vr') /\ deref h' vr' = v' /\
      differs_at none h h' /\ forall q, q <> p -> (q < List.length cs)%nat -> nth_error cs' q = nth_error cs q)
    (Call N C c (w_conn w) proc (auth_val f1 (option_map (sread h) b1)) (auth_val f2 (option_map (sread h) b2))
       (mkXv Ea ta (deref h va)) (mkXv Er tr (deref h vr)))
    (rpc_run grow (text_ext grow N C hs P) (Datatypes.S (Datatypes.S n)) "Client.Call"
       [WPtr p; WNum "uint32" proc; gauth f1 b1; gauth f2 b2; WObj ia; WObj ir] (mkMem h cs w)).
Proof. exact (Call_text grow G N C rw hs _ (text_ext_meets grow G N C rw hs P D H) n h cs w p c proc f1 b1 f2 b2 ia ir Ea ta va Er tr vr). Qed.
Lemma req_by_text S U grow (G : grows grow) P (D : declares "rfc1057" [rfc1057_xdr_go; rfc1057_types_go] P)
  N (C : conn S) rw (hs : nat -> handler U) (H : (30 <= N)%nat) n h cs w own top srv p o :
  nth_error cs p = Some (gsconn rw top) -> srv_at hs cs own top srv -> gvalid h o ->
  agrees (fun x y => let '(s', u', e) := x in exists h' cs' w', y = (mkMem h' cs' w', [vserr e]) /\ w_conn w' = s' /\ w_user w' = u' /\ w_log w' = w_log w /\
      differs_at anywhere h h' /\ (forall i, (i < List.length cs)%nat -> nth_error cs' i = nth_error cs i))
    (handleReqErr N C srv (w_conn w) (w_user w) (gread h o))
    (rpc_run grow (text_ext grow N C hs P) (Datatypes.S (Datatypes.S n)) "serverConn.handleReqErr" [WPtr p; WSl o] (mkMem h cs w)).
Proof. exact (handleReqErr_text grow N C rw hs _ (text_ext_meets grow G N C rw hs P D H) n h cs w own top srv p o). Qed.

(** ** Examples *)
Definition with_P {A} (k : gprog -> A) (d : A) : A :=
  match spec_prog (make_flags "rfc1057") rfc1057_prot_x with Some (_, P) => k P | None => d end.
Lemma with_P_ok {A} (k : gprog -> A) d v : with_P k d = v -> exists P, declares "rfc1057" [rfc1057_xdr_go; rfc1057_types_go] P /\ k P = v.
Proof. unfold with_P. destruct rfc1057_committed as (P & S & D). rewrite S. intros H. exists P. auto. Qed.

(** Two bytes before the message, one after it, one of spare capacity. *)
Definition ex_abuf : list byte := [xff; xff; x00; x00; x00; x05; x00; x00; x00; x03; x61; x62; x63; x00; x77; xee].
Definition ex_azero : hval := HStruct [("Flavor", HInt 0); ("Body", HBytes None)].
Definition ex_amem : heap := [x11 :: zeros 12; [x61; x62; x63]].
Definition ex_aval : hval := HStruct [("Flavor", HInt 5); ("Body", HBytes (Some (mkSl 1 0 3 3)))].
Lemma ex_auth_decode : exists P, declares "rfc1057" [rfc1057_xdr_go; rfc1057_types_go] P /\
  gvalid [ex_abuf] (Some (mkSl 0 2 13 14)) /\ safe [ex_abuf] (mkHst None true (Some (mkSl 0 2 13 14))) ex_azero /\
  has_ty rpc_env (CIdent "Opaque_auth") (deref [ex_abuf] ex_azero) /\
  callH (gp_pkg P) exact_grow 30 "Opaque_auth" [ex_abuf] (mkHst None true (Some (mkSl 0 2 13 14))) ex_azero =
  GRet ([ex_abuf], mkHst None true (Some (mkSl 0 14 1 2)), HStruct [("Flavor", HInt 5); ("Body", HBytes (Some (mkSl 0 10 3 3)))]).
Proof.
  destruct (with_P_ok (fun P => callH (gp_pkg P) exact_grow 30 "Opaque_auth" [ex_abuf] (mkHst None true (Some (mkSl 0 2 13 14))) ex_azero) GStuck
    (GRet ([ex_abuf], mkHst None true (Some (mkSl 0 14 1 2)), HStruct [("Flavor", HInt 5); ("Body", HBytes (Some (mkSl 0 10 3 3)))]))) as (P & D & R).
  { vm_compute. reflexivity. }
  exists P. split; [exact D|]. split; [cbn; unfold svalid; cbn; lia|]. split; [constructor|]. split; [|exact R].
  apply (has_tyb_sound 20). vm_compute. reflexivity.
Qed.
Lemma ex_auth_encode : exists P, declares "rfc1057" [rfc1057_xdr_go; rfc1057_types_go] P /\
  safe ex_amem (mkHst None false (Some (mkSl 0 0 1 13))) ex_aval /\
  callH (gp_pkg P) exact_grow 30 "Opaque_auth" ex_amem (mkHst None false (Some (mkSl 0 0 1 13))) ex_aval =
  GRet ([[x11; x00; x00; x00; x05; x00; x00; x00; x03; x61; x62; x63; x00]; [x61; x62; x63]], mkHst None false (Some (mkSl 0 0 13 13)), ex_aval).
Proof.
  destruct (with_P_ok (fun P => callH (gp_pkg P) exact_grow 30 "Opaque_auth" ex_amem (mkHst None false (Some (mkSl 0 0 1 13))) ex_aval) GStuck
    (GRet ([[x11; x00; x00; x00; x05; x00; x00; x00; x03; x61; x62; x63; x00]; [x61; x62; x63]], mkHst None false (Some (mkSl 0 0 13 13)), ex_aval))) as (P & D & R).
  { vm_compute. reflexivity. }
  exists P. split; [exact D|]. split; [|exact R]. constructor; [|constructor]. split; [cbv; lia|]. intros _ i Hi [Hc _]. discriminate Hc.
Qed.
Lemma ex_call_text : exists P h' cs' w', declares "rfc1057" [rfc1057_xdr_go; rfc1057_types_go] P /\
  rpc_run exact_grow (text_ext exact_grow 50 stream_conn (fun _ _ _ u => Ret (u, None, None)) P) 3 "Client.Call"
    [WPtr 0; WNum "uint32" 3; gauth 0 None; gauth 0 None; WObj 0; WObj 1]
    (mkMem [] [gclient 7 (mkClient 4 100000 2)] ex_world) = Ret (mkMem h' cs' w', [WNil]) /\
  nth_error cs' 0 = Some (gclient 7 (mkClient 5 100000 2)) /\ w_objs w' = [([], CU32, HInt 258); ([], CU32, HInt 7)] /\
  si_in (w_conn w') = [] /\ map (@List.length byte) (si_out (w_conn w')) = [48%nat].
Proof.
  destruct ex_call as (h' & cs' & w' & R & A1 & A2 & A3 & A4 & _).
  destruct (with_P_ok (fun P => rpc_run exact_grow (text_ext exact_grow 50 stream_conn (fun _ _ _ u => Ret (u, None, None)) P) 3 "Client.Call"
    [WPtr 0; WNum "uint32" 3; gauth 0 None; gauth 0 None; WObj 0; WObj 1] (mkMem [] [gclient 7 (mkClient 4 100000 2)] ex_world)) Panic
    (rpc_run exact_grow ex_ext 3 "Client.Call" [WPtr 0; WNum "uint32" 3; gauth 0 None; gauth 0 None; WObj 0; WObj 1]
    (mkMem [] [gclient 7 (mkClient 4 100000 2)] ex_world))) as (P & D & RP).
  { vm_compute. reflexivity. }
  exists P, h', cs', w'. split; [exact D|]. split; [|auto]. cbv beta in RP. rewrite RP. exact R.
Qed.
