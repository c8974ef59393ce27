(** Sequential and concurrent calls: facts and an execution. *)
From Verif Require Import Bytes XdrLib Types Interp Spec Check Meta Canon Runs Codec RpcTypes RpcSpec RpcWire RpcDec Io Client CallSpec ClientP ClientQ
  Server ServSpec ServerP ServerQ ServerX ExRpc ServerEx E2E CliConc.
Open Scope string_scope.
Open Scope Z_scope.
Open Scope list_scope.

(** ** One call after another: a reply is never taken for another call's *)
Lemma success_xid m x y rx ry : is_success m x rx -> is_success m y ry -> x = y.
Proof.
  intros (Hx & f & b & v & _ & ->) (Hy & f' & b' & v' & _ & E).
  unfold reply_accepted in E. rewrite <- !app_assoc in E.
  apply app4 in E; [|apply be4_len|apply be4_len]. destruct E as [E _]. apply be4_inj; assumption.
Qed.

Lemma CallSeq_det {S} (C : conn S) qs : forall c s c1 s1 r1 c2 s2 r2,
  CallSeq C c s qs c1 s1 r1 -> CallSeq C c s qs c2 s2 r2 -> c1 = c2 /\ s1 = s2 /\ r1 = r2.
Proof.
  induction qs as [|q qs IH]; intros c s c1 s1 r1 c2 s2 r2 H K; inversion H; inversion K; subst; [auto|].
  match goal with H1 : Calls C c s q _ _ _ _, H2 : Calls C c s q _ _ _ _ |- _ =>
    destruct (Calls_det _ _ _ _ _ _ _ _ _ _ _ _ H1 H2) as (<- & <- & <- & <-) end.
  match goal with H1 : CallSeq C _ _ qs _ _ _, H2 : CallSeq C _ _ qs _ _ _ |- _ =>
    destruct (IH _ _ _ _ _ _ _ _ H1 H2) as (<- & <- & <-) end. auto.
Qed.

Lemma c32_seq qs c cs en out ms rest c' s' rs : client_ok c -> Forall req_ok qs -> Forall encodable qs ->
  chunks_ok cs -> List.length ms = List.length qs ->
  List.concat cs = List.concat (map record ms) ++ rest -> Forall (fun m => zlen m < 2 ^ 31) ms ->
  CallSeq stream_conn c (mkStream cs en out) qs c' s' rs ->
  forall j k m v, nth_error ms k = Some m -> nth_error rs k = Some (v, None) ->
  (forall q, nth_error qs k = Some q -> exists res, is_success m ((cl_xid c + (1 + Z.of_nat k)) mod 2 ^ 32) res /\
     Decode (xv_env (rq_resp q)) (xv_ty (rq_resp q)) res (xv_val (rq_resp q)) None v) /\
  (j <> k -> Z.abs (Z.of_nat j - Z.of_nat k) < 2 ^ 32 ->
     forall res, ~ is_success m ((cl_xid c + (1 + Z.of_nat j)) mod 2 ^ 32) res).
Proof.
  intros Hc Hq He Hcs Hl Hcat Hms Hrun j k m v Hm Hv.
  destruct (c30 qs c cs en out ms rest Hc Hq He Hcs Hl Hcat Hms) as (c2 & cs2 & out2 & rs2 & Hrun2 & _ & _ & Hlen & Hall).
  destruct (CallSeq_det _ _ _ _ _ _ _ _ _ _ Hrun Hrun2) as (_ & _ & <-).
  assert (exists q, nth_error qs k = Some q) as [q0 Hq0].
  { destruct (nth_error qs k) eqn:E; [eauto|]. apply nth_error_None in E.
    assert (K : nth_error rs k <> None) by congruence. apply nth_error_Some in K. lia. }
  assert (HS : exists res, is_success m ((cl_xid c + (1 + Z.of_nat k)) mod 2 ^ 32) res /\
     Decode (xv_env (rq_resp q0)) (xv_ty (rq_resp q0)) res (xv_val (rq_resp q0)) None v).
  { destruct (Hall k q0 m v None Hq0 Hm Hv) as [(res & e' & Hs & Hd & He')|(_ & _ & Hn)]; [|congruence].
    exists res. split; [exact Hs|]. rewrite (proj1 He' eq_refl) in Hd. exact Hd. }
  split.
  - intros q Hq'. rewrite Hq0 in Hq'. injection Hq' as <-. exact HS.
  - intros Hjk Hdist res Hs. destruct HS as (res0 & Hs0 & _). pose proof (success_xid _ _ _ _ _ Hs0 Hs) as HX.
    clear - Hjk Hdist HX.
    pose proof (Z.div_mod (cl_xid c + (1 + Z.of_nat k)) (2 ^ 32) ltac:(lia)).
    pose proof (Z.div_mod (cl_xid c + (1 + Z.of_nat j)) (2 ^ 32) ltac:(lia)). lia.
Qed.

(** ** Two calls at once on one client *)
(** A procedure that adds one. *)
Definition exc_inc (x : option val) (w : Z) : outcome (Z * option val) :=
  Ret (w + 1, Some (VInt (match x with Some (VInt z) => (z + 1) mod 2 ^ 32 | _ => 0 end))).
Definition exc_regs : list (registration Z) :=
  [mkReg 300000 1 1 (Some (stub rpc_env (Some (CIdent "Uint32")) (Some (CIdent "Uint32")) exc_inc))].
Definition exc_srv : server Z := RegisterMany MakeServer exc_regs.
Definition exc_q (z : Z) : callreq :=
  mkReq 1 exr_verf exr_verf (mkXv rpc_env (CIdent "Uint32") (VInt z)) (mkXv rpc_env (CIdent "Uint32") (VInt 0)).
Definition exc_c : client := MakeClient 300000 1.
Definition exc_s : link Z := mkLink [] 0 7 (mkStream [] EOF []).
Definition bytewise (b : list byte) : list (list byte) := map (fun x => [x]) b.
Definition whole (b : list byte) : list (list byte) := match b with [] => [] | _ => [b] end.


Lemma bytewise_ok : chunker bytewise.
Proof.
  intros b. unfold bytewise. split.
  - induction b as [|x b IH]; [reflexivity|]. cbn. rewrite IH. reflexivity.
  - apply Forall_forall. intros c Hc. apply in_map_iff in Hc. destruct Hc as (x & <- & _). discriminate.
Qed.
Lemma whole_ok : chunker whole.
Proof.
  intros b. destruct b as [|x b]; split; try reflexivity; repeat constructor; [|discriminate].
  cbn. rewrite app_nil_r. reflexivity.
Qed.

Lemma exc_user : user_ok rpc_env (Some (CIdent "Uint32")) (Some (CIdent "Uint32")) exc_inc.
Proof.
  split; [|split].
  - intros t [= <-]. apply good_rpc. vm_compute. reflexivity.
  - intros t [= <-]. apply good_rpc. vm_compute. reflexivity.
  - intros x w w' y H. unfold exc_inc in H. injection H as _ <-. eexists. split; [reflexivity|].
    apply HT_ident with CU32; [reflexivity|]. constructor. destruct x as [[]|]; try lia. apply Z.mod_pos_bound. lia.
Qed.
Lemma exc_last : last_for exc_regs 300000 1 1 (Some (stub rpc_env (Some (CIdent "Uint32")) (Some (CIdent "Uint32")) exc_inc)).
Proof. exists [], []. split; [reflexivity|]. intros r []. Qed.
Lemma exc_reach : reach exc_srv exc_regs.
Proof. apply (R_many MakeServer [] exc_regs). constructor. Qed.
Lemma exc_ok : regs_ok exc_regs.
Proof. intros r h [<-|[]] [= <-]. apply u_ok. exact exc_user. Qed.
Lemma exc_idle : idle exc_s.
Proof. split; [|reflexivity]. exists []. repeat split. constructor. Qed.
Lemma exc_c_ok : client_ok exc_c. Proof. repeat split; vm_compute; congruence. Qed.
Lemma exc_q_ok z : 0 <= z < 2 ^ 32 -> req_ok (exc_q z).
Proof.
  intros Hz. split; [vm_compute; split; congruence|].
  assert (HA : auth_ok exr_verf). { apply (Check.has_tyb_sound 9). vm_compute. reflexivity. }
  split; [exact HA|]. split; [exact HA|].
  assert (G : forall z, 0 <= z < 2 ^ 32 -> xv_ok (mkXv rpc_env (CIdent "Uint32") (VInt z))).
  { intros y Hy. split; [apply good_rpc; vm_compute; reflexivity|]. apply HT_ident with CU32; [reflexivity|]. constructor. exact Hy. }
  split; apply G; lia.
Qed.
Lemma exc_q_enc z : encodable (exc_q z).
Proof.
  split; [|split].
  - exists 0, None. split; [reflexivity|cbn; lia].
  - exists 0, None. split; [reflexivity|cbn; lia].
  - apply B_ident with CU32; [reflexivity|constructor].
Qed.

(** Example for C39: two calls, arguments 10 and 20. *)
Lemma exc_request xid z m : request xid 300000 1 (exc_q z) m -> zlen m = 44.
Proof.
  intros (f1 & o1 & f2 & o2 & w1 & w2 & wa & E1 & E2 & H1 & H2 & Ha & ->).
  injection E1 as <- <-. injection E2 as <- <-.
  assert (HL : forall f w, auth RFC f (bytes_of None) w -> zlen w = 8).
  { intros f w [pad _ _ (P1 & P2 & _)]. cbn [bytes_of List.length] in *. cbn [app]. unfold zlen.
    rewrite !app_length, !be4_len. clear - P1 P2. rewrite Nat2Z.inj_add in P2. pose proof (Z.div_mod (Z.of_nat 0 + Z.of_nat (List.length pad)) 4 ltac:(lia)). lia. }
  assert (HW : zlen wa = 4).
  { cbn [rq_args exc_q xv_env xv_ty xv_val] in Ha. inversion Ha as [| | | | | | | | | | | | | | | |x t v b Hx Hw]; subst.
    injection Hx as <-. inversion Hw as [z' b' Hz Hb| | | | | | | | | | | | | | | |]; subst. unfold zlen. rewrite (proj1 Hb). reflexivity. }
  specialize (HL _ _ H1) as L1. specialize (HL _ _ H2) as L2. unfold call_hdr, zlen in *.
  rewrite !app_length, !be4_len. lia.
Qed.

Lemma exc_invokes xid z w : 0 <= z < 2 ^ 32 - 1 ->
  invokes exc_regs xid 300000 1 (exc_q z) w (w + 1) (mkAns rpc_env (Some (CIdent "Uint32")) (Some (VInt (z + 1)))).
Proof.
  intros Hz. eapply Invokes with (x := Some (VInt z)); [exact exc_last|apply agrees_refl|exact exc_user| | | | | |].
  - split; [reflexivity|]. split; [reflexivity|]. exists (VInt z). split; [reflexivity|]. split; [|split].
    + econstructor; [reflexivity|]. constructor.
    + econstructor; [reflexivity|]. constructor.
    + apply HT_ident with CU32; [reflexivity|]. constructor. lia.
  - unfold exc_inc. rewrite Z.mod_small by lia. reflexivity.
  - apply B_ident with CU32; [reflexivity|constructor].
  - intros m Hm. rewrite (exc_request _ _ _ Hm). lia.
  - intros b Hb. cbn [res_wire stub_res xv_env xv_ty xv_val] in Hb.
    inversion Hb as [| | | | | | | | | | | | | | | |x t v b' Hx Hw]; subst.
    injection Hx as <-. inversion Hw as [z' b' Hz' Hb'| | | | | | | | | | | | | | | |]; subst. unfold zlen. rewrite (proj1 Hb'). lia.
  - repeat split.
Qed.

Lemma c39_ex : reach exc_srv exc_regs /\ regs_ok exc_regs /\ chunker bytewise /\ chunker whole /\ client_ok exc_c /\
  Forall req_ok [exc_q 10; exc_q 20] /\ Forall encodable [exc_q 10; exc_q 20] /\ idle exc_s /\
  invokes_all exc_regs 300000 1 1 [exc_q 10; exc_q 20] 7 9
    [mkAns rpc_env (Some (CIdent "Uint32")) (Some (VInt 11)); mkAns rpc_env (Some (CIdent "Uint32")) (Some (VInt 21))].
Proof.
  split; [exact exc_reach|]. split; [exact exc_ok|]. split; [exact bytewise_ok|]. split; [exact whole_ok|].
  split; [exact exc_c_ok|]. split; [repeat constructor; try (apply exc_q_ok; lia)|].
  split; [repeat (constructor; [apply exc_q_enc|]); constructor|]. split; [exact exc_idle|].
  econstructor; [apply (exc_invokes 1 10 7); lia|]. econstructor; [apply (exc_invokes 2 20 8); lia|]. constructor.
Qed.

(** Example for C32: the schedules. *)
Lemma c32_same_xid : exists sched c' s',
  run_sched 40 (link_conn 100 bytewise whole exc_srv) sched (exc_c, exc_s, [TStart (exc_q 10); TStart (exc_q 20)])
  = (c', s', [TDone (VInt 21) None; TDone (VInt 11) None]).
Proof. exists [0;1;0;1;0;1; 1;1;1;1;1; 0;0;0;0;0]%nat. do 2 eexists. vm_compute. reflexivity. Qed.

(** Even when the two calls have sent different transaction ids. *)
Lemma c32_other_xid : exists sched c' s' e,
  run_sched 40 (link_conn 100 bytewise whole exc_srv) sched (exc_c, exc_s, [TStart (exc_q 10); TStart (exc_q 20)])
  = (c', s', [TDone (VInt 21) None; TDone (VInt 0) (Some e)]) /\
  lk_sent s' = record (call_hdr 1 2 300000 1 1 null_auth null_auth ++ be4 10)
            ++ record (call_hdr 2 2 300000 1 1 null_auth null_auth ++ be4 20).
Proof. exists [0;0;0; 1;1;1; 1;1;1;1;1; 0;0;0;0;0]%nat. do 3 eexists. split; vm_compute; reflexivity. Qed.
Lemma c32_mixed_up :
  reach exc_srv exc_regs /\ regs_ok exc_regs /\ chunker bytewise /\ chunker whole /\ client_ok exc_c /\ idle exc_s /\
  req_ok (exc_q 10) /\ req_ok (exc_q 20) /\
  exists sched c' s',
  run_sched 40 (link_conn 100 bytewise whole exc_srv) sched (exc_c, exc_s, [TStart (exc_q 10); TStart (exc_q 20)])
  = (c', s', [TDone (VInt 21) None; TDone (VInt 11) None]).
Proof.
  split; [exact exc_reach|]. split; [exact exc_ok|]. split; [exact bytewise_ok|]. split; [exact whole_ok|].
  split; [exact exc_c_ok|]. split; [exact exc_idle|]. split; [apply exc_q_ok; lia|]. split; [apply exc_q_ok; lia|].
  exact c32_same_xid.
Qed.

Lemma c32_ex : client_ok exr_c /\ Forall req_ok [exr_q; exr_q] /\ Forall encodable [exr_q; exr_q] /\ chunks_ok exr_in /\
  List.concat exr_in = List.concat (map record [exr_reply; exr_reply2]) ++ [xff] /\
  Forall (fun m => zlen m < 2 ^ 31) [exr_reply; exr_reply2] /\
  exists c' s', CallSeq stream_conn exr_c exr_s [exr_q; exr_q] c' s' [(VInt 2049, None); (VInt 99, Some (CAccept 3))].
Proof.
  split; [repeat split; vm_compute; congruence|]. destruct c30_ex as (A & B & C & D & F).
  split; [exact A|]. split; [exact B|]. split; [exact C|]. split; [exact D|]. split; [exact F|].
  do 2 eexists. exact exr_run.
Qed.
