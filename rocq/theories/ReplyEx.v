(** Examples for C63. *)
From Verif Require Import Bytes XdrLib Types Interp Spec Meta Canon Runs Codec RpcTypes RpcSpec RpcDec Io Client CallSpec ClientP Server ServSpec ServerQ ServerX ExRpc ServerEx
  E2E CliEx ReplySpec ReplyP ReplyQ.
Open Scope string_scope.
Open Scope Z_scope.
Open Scope list_scope.

Lemma null_auth_ok : auth DEC 0 [] null_auth.
Proof.
  change null_auth with (be4 0 ++ be4 (zlen (@nil byte)) ++ [] ++ []). constructor; [apply u32_0|cbn; lia|].
  split; [cbn; lia|]. split; [reflexivity|]. discriminate.
Qed.

(** Messages of every kind. *)
Definition exv_success := [x00;x00;x00;x05; x00;x00;x00;x01; x00;x00;x00;x00; x00;x00;x00;x00; x00;x00;x00;x00; x00;x00;x00;x00; x00;x00;x00;x2a].
Definition exv_mismatch := [x00;x00;x00;x05; x00;x00;x00;x01; x00;x00;x00;x00; x00;x00;x00;x00; x00;x00;x00;x00; x00;x00;x00;x02; x00;x00;x00;x01; x00;x00;x00;x03].
Definition exv_denied := [x00;x00;x00;x05; x00;x00;x00;x01; x00;x00;x00;x01; x00;x00;x00;x00; x00;x00;x00;x02; x00;x00;x00;x02].
Definition exv_auth := [x00;x00;x00;x05; x00;x00;x00;x01; x00;x00;x00;x01; x00;x00;x00;x01; x00;x00;x00;x05].
Definition exv_stat := [x00;x00;x00;x05; x00;x00;x00;x01; x00;x00;x00;x07].
Definition exv_other := [x00;x00;x00;x05; x00;x00;x00;x09].
Definition exv_call := exr_msg.
Definition exv_resp : xdrable := mkXv rpc_env (CIdent "Uint32") (VInt 99).

Lemma exv_heads :
  msg_head exv_success 5 (KAccepted 0) [x00;x00;x00;x2a] /\ msg_head exv_mismatch 5 (KAccepted 2) [] /\
  msg_head exv_denied 5 (KDenied 0) [] /\ msg_head exv_auth 5 (KDenied 1) [] /\ msg_head exv_stat 5 (KStat 7) [] /\
  msg_head exv_other 5 (KOther 9) [] /\ msg_head exv_call 1 KCall exs_args.
Proof.
  assert (U : forall z, 0 <= z <= 9 -> u32 z) by (intros; apply u32_small; lia).
  split; [exact (H_accepted 5 0 [] null_auth 0 [x00;x00;x00;x2a] (U 5 ltac:(lia)) null_auth_ok (U 0 ltac:(lia)) ltac:(discriminate))|].
  split; [exact (H_prog_mismatch 5 0 [] null_auth 1 3 [] (U 5 ltac:(lia)) null_auth_ok (U 1 ltac:(lia)) (U 3 ltac:(lia)))|].
  split; [exact (H_rpc_mismatch 5 2 2 [] (U 5 ltac:(lia)) (U 2 ltac:(lia)) (U 2 ltac:(lia)))|].
  split; [exact (H_auth_error 5 5 [] (U 5 ltac:(lia)) (U 5 ltac:(lia)))|].
  split; [exact (H_stat 5 7 [] (U 5 ltac:(lia)) (U 7 ltac:(lia)) ltac:(discriminate) ltac:(discriminate))|].
  split; [exact (H_other 5 9 [] (U 5 ltac:(lia)) (U 9 ltac:(lia)) ltac:(discriminate) ltac:(discriminate))|].
  eapply H_call. exact (proj1 c44_ex).
Qed.
Lemma exv_verdicts :
  verdict 5 exv_success exv_resp (VInt 42) None /\
  verdict 6 exv_success exv_resp (VInt 99) (Some (CXidMismatch 5 6)) /\
  verdict 5 exv_mismatch exv_resp (VInt 99) (Some (CAccept 2)) /\
  verdict 5 exv_denied exv_resp (VInt 99) (Some (CDenied 0)) /\
  verdict 5 exv_auth exv_resp (VInt 99) (Some (CDenied 1)) /\
  verdict 5 exv_stat exv_resp (VInt 99) (Some (CDenied 0)) /\
  verdict 5 exv_other exv_resp (VInt 99) (Some (CNotReply 9)) /\
  verdict 1 exv_call exv_resp (VInt 99) (Some (CNotReply 0)).
Proof.
  destruct exv_heads as (H1 & H2 & H3 & H4 & H5 & H6 & H7).
  split.
  { apply (V_result 5 exv_success exv_resp _ (VInt 42) None H1). exists 20%nat. vm_compute. reflexivity. }
  split; [exact (V_refused 6 _ exv_resp _ _ _ (CXidMismatch 5 6) H1 eq_refl)|].
  split; [exact (V_refused 5 _ exv_resp _ _ _ (CAccept 2) H2 eq_refl)|].
  split; [exact (V_refused 5 _ exv_resp _ _ _ (CDenied 0) H3 eq_refl)|].
  split; [exact (V_refused 5 _ exv_resp _ _ _ (CDenied 1) H4 eq_refl)|].
  split; [exact (V_refused 5 _ exv_resp _ _ _ (CDenied 0) H5 eq_refl)|].
  split; [exact (V_refused 5 _ exv_resp _ _ _ (CNotReply 9) H6 eq_refl)|].
  exact (V_refused 1 _ exv_resp _ _ _ (CNotReply 0) H7 eq_refl).
Qed.

(** Calls answered and turned down, on one connection: 10, an unregistered procedure, no argument where one is wanted, 20. *)
Definition exd_proc : callreq := mkReq 7 exr_verf exr_verf xv_void (mkXv rpc_env (CIdent "Uint32") (VInt 99)).
Definition exd_args : callreq := mkReq 1 exr_verf exr_verf xv_void (mkXv rpc_env (CIdent "Uint32") (VInt 98)).
Definition exd_qs := [exc_q 10; exd_proc; exd_args; exc_q 20].
Definition exd_fates := [Answered (mkAns rpc_env (Some (CIdent "Uint32")) (Some (VInt 11))); TurnedDown 3; TurnedDown 4;
  Answered (mkAns rpc_env (Some (CIdent "Uint32")) (Some (VInt 21)))].

Lemma exd_ok p z : 0 <= p < 2 ^ 32 -> 0 <= z < 2 ^ 32 -> req_ok (mkReq p exr_verf exr_verf xv_void (mkXv rpc_env (CIdent "Uint32") (VInt z))).
Proof.
  intros Hp Hz. destruct (exc_q_ok 0 ltac:(lia)) as (_ & HA & _ & _ & _).
  split; [exact Hp|]. split; [exact HA|]. split; [exact HA|]. split; [apply void_ok|].
  split; [apply good_rpc; vm_compute; reflexivity|]. apply HT_ident with CU32; [reflexivity|]. constructor. exact Hz.
Qed.
Lemma exd_enc p z : encodable (mkReq p exr_verf exr_verf xv_void (mkXv rpc_env (CIdent "Uint32") (VInt z))).
Proof. destruct (exc_q_enc 0) as (H1 & H2 & _). split; [exact H1|]. split; [exact H2|]. constructor. constructor. Qed.
Lemma exd_request xid prog vers p z m : request xid prog vers (mkReq p exr_verf exr_verf xv_void (mkXv rpc_env (CIdent "Uint32") (VInt z))) m -> zlen m = 40.
Proof.
  intros (f1 & o1 & f2 & o2 & w1 & w2 & wa & E1 & E2 & H1 & H2 & Ha & ->).
  injection E1 as <- <-. injection E2 as <- <-.
  assert (HL : forall f w, auth RFC f (bytes_of None) w -> zlen w = 8).
  { intros f w [pad _ _ (P1 & P2 & _)]. cbn [bytes_of List.length] in *. cbn [app]. unfold zlen.
    rewrite !app_length, !be4_len. clear - P1 P2. rewrite Nat2Z.inj_add in P2. pose proof (Z.div_mod (Z.of_nat 0 + Z.of_nat (List.length pad)) 4 ltac:(lia)). lia. }
  apply void_wire in Ha. subst wa.
  specialize (HL _ _ H1) as L1. specialize (HL _ _ H2) as L2. unfold call_hdr, zlen in *.
  rewrite !app_length, !be4_len. cbn [List.length]. lia.
Qed.
Lemma exd_no_arg x : ~ arg_decodes rpc_env (Some (CIdent "Uint32")) [] x.
Proof.
  intros (z & rest & v & [n Hf] & Hd & _). destruct n as [|[|n]]; try discriminate Hf. injection Hf as <-.
  assert (R : exists s, runs rpc_env (CIdent "Uint32") (MakeReader []) (VInt 0) s (VInt 0) /\ x_err s <> None).
  { eexists. split; [exists 5%nat; vm_compute; reflexivity|]. discriminate. }
  destruct R as (s & R & Hs). destruct (runs_det _ _ _ _ _ _ _ _ Hd R) as [<- _]. apply Hs. reflexivity.
Qed.
Lemma exd_meets : meets_all exc_regs 300000 1 1 exd_qs 7 9 exd_fates.
Proof.
  econstructor; [apply M_answered, (exc_invokes 1 10 7); lia|].
  econstructor.
  { apply M_turned_down; [|intros m Hm; rewrite (exd_request _ _ _ _ _ _ Hm); lia]. apply T_proc.
    - eexists. split; [left; reflexivity|]. split; reflexivity.
    - intros (r & [<-|[]] & _ & _ & K). discriminate K. }
  econstructor.
  { apply M_turned_down; [|intros m Hm; rewrite (exd_request _ _ _ _ _ _ Hm); lia].
    eapply T_args; [exact exc_last|apply agrees_refl|exact exc_user|]. intros b x Hb. apply void_wire in Hb. subst b. apply exd_no_arg. }
  econstructor; [apply M_answered, (exc_invokes 4 20 8); lia|]. constructor.
Qed.
Lemma exd : reach exc_srv exc_regs /\ regs_ok exc_regs /\ chunker bytewise /\ chunker whole /\ client_ok exc_c /\
  Forall req_ok exd_qs /\ Forall encodable exd_qs /\ idle exc_s /\ meets_all exc_regs 300000 1 1 exd_qs 7 9 exd_fates.
Proof.
  split; [exact exc_reach|]. split; [exact exc_ok|]. split; [exact bytewise_ok|]. split; [exact whole_ok|].
  split; [exact exc_c_ok|].
  split; [constructor; [apply exc_q_ok; lia|]; constructor; [apply exd_ok; lia|]; constructor; [apply exd_ok; lia|]; constructor; [apply exc_q_ok; lia|]; constructor|].
  split; [constructor; [apply exc_q_enc|]; constructor; [apply exd_enc|]; constructor; [apply exd_enc|]; constructor; [apply exc_q_enc|]; constructor|].
  split; [exact exc_idle|]. exact exd_meets.
Qed.
(** Other program, other version: *)
Lemma exd_down : turned_down exc_regs 300001 1 exd_proc 1 /\ turned_down exc_regs 300000 2 exd_proc 2.
Proof.
  split.
  - apply T_prog. intros (r & [<-|[]] & K). discriminate K.
  - apply T_vers; [eexists; split; [left; reflexivity|reflexivity]|]. intros (r & [<-|[]] & _ & K). discriminate K.
Qed.
