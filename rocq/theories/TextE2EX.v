(** TextE2E.v with generated registrations, and an example. *)
From Verif Require Import GoLex XLex Gram GParse Emit RepoText GoAst GoText GoTop GoRes GoPkg GoWf GoSem GenCommitted GenText GoStub GenStub.
From Verif Require Import Bytes XdrLib Types Interp Spec Runs Meta RpcTypes RpcSpec Client CallSpec ClientP ServSpec ServerX ExRpc ServerEx E2E CliEx E2EGen.
From Verif Require Import Heap HeapP Io Server SrcAst SrcSem SrcLib SrcLibC SrcRpc SrcCli SrcCliB SrcEnv SrcReg SrcSrv SrcSrvB SrcRun MsgText MsgTextE TextE2E.
Open Scope string_scope.
Open Scope Z_scope.
Open Scope list_scope.

(** As [answers] (E2EGen.v), for the texts: the server program registers [all], among which [regs]. *)
Definition text_answers (grow : nat -> nat -> nat) (P : gprog) {W} (E : env) (obj : object W) (a b : Z) (t : list proc) (regs : list (registration W)) : Prop :=
  forall all hs vs ch1 ch2 rw c s qs w' rs, Forall2 (greg hs) all vs -> registered_on (RegisterMany MakeServer all) a b regs -> chunker ch1 -> chunker ch2 ->
  client_ok c -> cl_prog c = a -> cl_vers c = b -> Forall req_ok qs -> Forall encodable qs -> idle s ->
  obj_calls E obj t a b (next_xid c) qs (lk_w s) w' rs ->
  exists N c' s' vals, (idle s' /\ lk_w s' = w' /\ Forall2 delivered rs vals) /\
    forall n, (N <= n)%nat -> exists K0, forall K, (K0 <= K)%nat -> text_calls grow P hs vs ch1 ch2 rw n K c s qs c' s' vals.
Lemma answers_text grow P W E (obj : object W) a b t regs : grows grow -> declares "rfc1057" [rfc1057_xdr_go; rfc1057_types_go] P ->
  answers E obj a b t regs -> text_answers grow P E obj a b t regs.
Proof.
  intros G D A all hs vs ch1 ch2 rw c s qs w' rs HR On C1 C2 Hc Ha Hb Hq He Hi Ho.
  apply (text_lift grow P hs vs ch1 ch2 rw all G D HR (fun _ s' vals => idle s' /\ lk_w s' = w' /\ Forall2 delivered rs vals)).
  destruct (A _ ch1 ch2 c s qs w' rs On C1 C2 Hc Ha Hb Hq He Hi Ho) as (N & c' & s' & vals & A1 & A2 & A3 & A4). exists N, c', s', vals. auto.
Qed.
Lemma text_generated grow P0 fl src ds E P o Q pkg : grows grow -> declares "rfc1057" [rfc1057_xdr_go; rfc1057_types_go] P0 ->
  ok_flags fl = true -> front src = Some ds -> spec_prog fl src = Some (E, P) -> generate fl src = Some o -> declares pkg (files_of o) Q ->
  forall p pv, In (defProg p) ds -> In pv (pd_vers p) ->
  exists r, In r (gp_regs Q) /\ rd_name r = cap (pd_name p) +++ "_" +++ cap (pv_name pv) +++ "_regs" /\
  forall W (obj : object W) a b t, u32_lit (pd_id p) a -> u32_lit (pv_id pv) b -> omap row (pv_calls pv) = Some t -> Forall (fun p => 0 <= proc_no p <= MaxUint32) t ->
  NoDup (map proc_no t) -> obj_ok E obj t ->
  exists regs, run_regs Q obj E r = Some regs /\ text_answers grow P0 E obj a b t regs.
Proof.
  intros G D F Fr S Ge Dc p pv Ip Iv. destruct (E2EGen.text_answers fl src ds E P o Q pkg F Fr S Ge Dc p pv Ip Iv) as (r & I & Nm & H). exists r. split; [exact I|]. split; [exact Nm|].
  intros W obj a b t A B R K ND OK. destruct (H W obj a b t A B R K ND OK) as (regs & RR & An). exists regs. split; [exact RR|]. apply answers_text; assumption.
Qed.
Lemma committed_text grow P0 Q E a b t nm : grows grow -> declares "rfc1057" [rfc1057_xdr_go; rfc1057_types_go] P0 ->
  (exists r, In r (gp_regs Q) /\ rd_name r = nm /\ forall W (obj : object W), obj_ok E obj t -> exists regs, run_regs Q obj E r = Some regs /\ answers E obj a b t regs) ->
  exists r, In r (gp_regs Q) /\ rd_name r = nm /\ forall W (obj : object W), obj_ok E obj t -> exists regs, run_regs Q obj E r = Some regs /\ text_answers grow P0 E obj a b t regs.
Proof.
  intros G D (r & I & Nm & H). exists r. split; [exact I|]. split; [exact Nm|]. intros W obj OK. destruct (H W obj OK) as (regs & RR & A). exists regs. split; [exact RR|]. apply answers_text; assumption.
Qed.

(** ** The portmapper of C59_ex *)
Definition te_hs (k : nat) : handler Z := match nth_error pmx_regs k with Some (mkReg _ _ _ (Some h)) => h | _ => fun _ _ u => Ret (u, None, None) end.
Definition te_vs : list gv :=
  map (fun k => WStruct "ProcRegistration" [("Prog", WNum "uint32" 100000); ("Vers", WNum "uint32" 2); ("Proc", WNum "uint32" (Z.of_nat k)); ("Handler", WObj k)]) (seq 0 6).
Lemma te_regs : map (fun r => (rg_prog r, rg_vers r, rg_proc r)) pmx_regs = map (fun k => (100000, 2, Z.of_nat k)) (seq 0 6).
Proof. vm_compute. reflexivity. Qed.
Definition no_handler (r : registration Z) : bool := match rg_handler r with None => true | Some _ => false end.
Lemma te_values : Forall2 (greg te_hs) pmx_regs te_vs.
Proof.
  assert (H : forall post pre, pmx_regs = pre ++ post -> Forall (fun r => rg_handler r <> None) post ->
    map (fun r => (rg_prog r, rg_vers r, rg_proc r)) post = map (fun k => (100000, 2, Z.of_nat k)) (seq (List.length pre) (List.length post)) ->
    Forall2 (greg te_hs) post (map (fun k => WStruct "ProcRegistration" [("Prog", WNum "uint32" 100000); ("Vers", WNum "uint32" 2); ("Proc", WNum "uint32" (Z.of_nat k)); ("Handler", WObj k)]) (seq (List.length pre) (List.length post)))).
  { induction post as [|[pg ve pc ha] post IH]; intros pre Q F M; cbn [List.length seq map] in *; [constructor|]. injection M as -> -> -> M. inversion F as [|? ? F1 F2]; subst.
    constructor.
    - exists (WObj (List.length pre)). split; [|reflexivity]. cbn [rg_handler is_handler] in *. destruct ha as [ha|]; [|congruence]. exists (List.length pre). split; [reflexivity|].
      unfold te_hs. rewrite Q, nth_error_app2, Nat.sub_diag by lia. reflexivity.
    - specialize (IH (pre ++ [mkReg 100000 2 (Z.of_nat (List.length pre)) ha])). rewrite app_length in IH. cbn [List.length] in IH. rewrite Nat.add_1_r in IH. apply IH; [rewrite <- app_assoc; exact Q|exact F2|exact M]. }
  specialize (H pmx_regs [] eq_refl). change (List.length (@nil (registration Z))) with O in H.
  assert (L : List.length pmx_regs = 6%nat) by (rewrite <- (map_length (fun r => (rg_prog r, rg_vers r, rg_proc r))), te_regs; reflexivity). rewrite L in H. apply H; [|exact te_regs].
  clear H L. apply Forall_forall. intros r Ir Q.
  assert (B : existsb no_handler pmx_regs = false) by (vm_compute; reflexivity).
  assert (K : existsb no_handler pmx_regs = true) by (apply existsb_exists; exists r; split; [exact Ir|unfold no_handler; rewrite Q; reflexivity]).
  rewrite B in K. discriminate K.
Qed.
Definition te_mem : mem (world (@link Z) unit) :=
  mkMem [[x01; x02; x03; x04; x05]] [gclient 7 exr_c]
    (mkWorld exc_s [(rpc_env, CIdent "Mapping", HStruct [("Prog", HInt 100003); ("Vers", HInt 3); ("Prot", HInt 6); ("Port", HInt 0)]); (rpc_env, CIdent "Uint32", HInt 99)] tt []).
Lemma te_ready : ready 7 te_mem 0 exr_c exc_s exr_q 1 (Some (mkSl 0 0 5 5)) 0 None 0 1.
Proof.
  unfold ready, te_mem. cbn [m_heap m_cells m_world w_conn w_objs nth_error]. split; [reflexivity|]. split; [reflexivity|]. split; [cbn; unfold svalid; cbn; lia|]. split; [reflexivity|].
  split; [exact I|]. split; [reflexivity|]. split; [discriminate|]. split; eexists; (split; [reflexivity|]); (split; [constructor|reflexivity]).
Qed.
Lemma te_runs : match rpc_run exact_grow (text_ext exact_grow 50 (text_conn exact_grow pmx_P te_hs te_vs bytewise whole 7 120) (fun _ _ _ u => Ret (u, None, None)) pmx_P) 3 "Client.Call"
  [WPtr 0; WNum "uint32" 3; gauth 1 (Some (mkSl 0 0 5 5)); gauth 0 None; WObj 0; WObj 1] te_mem with
  | Ret (m, r) => r = [WNil] /\ map (fun o => snd o) (w_objs (m_world m)) = [HStruct [("Prog", HInt 100003); ("Vers", HInt 3); ("Prot", HInt 6); ("Port", HInt 0)]; HInt 2049] /\ lk_w (w_conn (m_world m)) = 8 /\
      nth_error (m_cells m) 0 = Some (gclient 7 (mkClient 1 100000 2)) /\ lk_done (w_conn (m_world m)) = 1%nat
  | _ => False
  end.
Proof. vm_compute. repeat split. Qed.
