(** A client and a server made of generated code: the registration function of a generated package
    registered on a server, and calls through a client to it. *)
From Verif Require Import GoLex XLex Gram GParse Emit RepoText GoAst GoText GoTop GoRes GoPkg GoWf.
From Verif Require Import Bytes XdrLib Types Interp Spec Meta Canon Runs RpcTypes RpcSpec Io Client CallSpec Server ServSpec ServerX ExRpc E2E CliEx RpcWire Check ClientP Codec GoSem GenCommitted GenText GoStub GenStub.
Open Scope string_scope.
Open Scope Z_scope.
Open Scope list_scope.

(** Call [q], made when the object's state is [w], of a procedure of the table [t]: its method returns
    [y] and leaves [w']; arguments and result can be encoded, request and reply are below 2 GiB. *)
Inductive obj_call {W} (E : env) (obj : object W) (t : list proc) (xid a b : Z) (q : callreq) (w w' : W) : answer -> Prop :=
| ObjCall m ta tr x y :
    In (rq_proc q, m, ta, tr) t -> received E ta (rq_args q) x -> obj m x w = Ret (w', y) ->
    res_bounded (Some (stub_res E tr y)) ->
    (forall msg, request xid a b q msg -> zlen msg < 2 ^ 31) ->
    (forall bs, res_wire (Some (stub_res E tr y)) bs -> 24 + zlen bs < 2 ^ 31) ->
    resp_fits E tr (rq_resp q) ->
    obj_call E obj t xid a b q w w' (mkAns E tr y).
Inductive obj_calls {W} (E : env) (obj : object W) (t : list proc) (a b : Z) : Z -> list callreq -> W -> W -> list answer -> Prop :=
| OC_nil xid w : obj_calls E obj t a b xid [] w w []
| OC_cons xid q qs w w1 w2 r rs :
    obj_call E obj t xid a b q w w1 r -> obj_calls E obj t a b ((xid + 1) mod 2 ^ 32) qs w1 w2 rs ->
    obj_calls E obj t a b xid (q :: qs) w w2 (r :: rs).
Definition proc_no (p : proc) : Z := match p with (k, _, _, _) => k end.
(** The methods of the object have the types of the table. *)
Definition obj_ok {W} (E : env) (obj : object W) (t : list proc) : Prop :=
  Forall (fun p => match p with (_, m, ta, tr) => user_ok E ta tr (obj m) end) t.
(** A server on which [regs] were registered, after [l] and before [l']; the latter does not concern version [b] of program [a]. *)
Definition registered_on {W} (srv : server W) (a b : Z) (regs : list (registration W)) : Prop :=
  exists l l', reach srv (l ++ regs ++ l') /\ regs_ok l /\ regs_ok l' /\ forall r, In r l' -> ~ (rg_prog r = a /\ rg_vers r = b).
(** Any calls of the table's procedures, in any number, through a client of that program and version on any connection to the server (however the
    network cuts the streams) return nil with what the methods returned. *)
Definition answers {W} (E : env) (obj : object W) (a b : Z) (t : list proc) (regs : list (registration W)) : Prop :=
  forall srv ch1 ch2 c s qs w' rs, registered_on srv a b regs -> chunker ch1 -> chunker ch2 ->
  client_ok c -> cl_prog c = a -> cl_vers c = b -> Forall req_ok qs -> Forall encodable qs -> idle s ->
  obj_calls E obj t a b (next_xid c) qs (lk_w s) w' rs ->
  exists N c' s' vs, idle s' /\ lk_w s' = w' /\ Forall2 delivered rs vs /\
    forall n, (N <= n)%nat -> CallSeq (link_conn n ch1 ch2 srv) c s qs c' s' (map (fun v => (v, None)) vs).

Section Table.
Context {W : Type}.
Variables (E : env) (obj : object W) (a b : Z) (t : list proc) (regs : list (registration W)).
Hypothesis HR : Forall2 (entry E obj a b) t regs.
Hypothesis Hu : obj_ok E obj t.
Hypothesis Hn : NoDup (map proc_no t).
Lemma table_regs_ok : regs_ok regs.
Proof.
  intros r h I Q. destruct (F2_in _ _ _ HR r I) as ([[[k m] ta] tr] & Ip & (_ & _ & _ & h' & Q' & K)). assert (h' = h) as -> by congruence.
  apply K. unfold obj_ok in Hu. rewrite Forall_forall in Hu. exact (Hu _ Ip).
Qed.
Lemma table_last l l' k m ta tr : (forall r, In r l' -> ~ (rg_prog r = a /\ rg_vers r = b)) -> In (k, m, ta, tr) t ->
  exists h, last_for (l ++ regs ++ l') a b k (Some h) /\ agrees h (stub E ta tr (obj m)) /\ user_ok E ta tr (obj m).
Proof.
  intros Hl I.
  assert (exists pre post h, regs = pre ++ mkReg a b k (Some h) :: post /\ (forall r, In r post -> ~ for_proc r a b k) /\ agrees h (stub E ta tr (obj m)) /\ user_ok E ta tr (obj m)) as (pre & post & h & -> & NP & AG).
  { revert I Hu Hn. clear -HR. induction HR as [|p r t' regs' H1 F IH]; intros I Hu Hn; [destruct I|]. cbn [map] in Hn. inversion Hn as [|? ? N1 N2]; subst. inversion Hu as [|? ? U1 U2]; subst. destruct I as [->|I].
    - destruct H1 as (A & B & K & h & Hh & KH). exists [], regs', h. split; [destruct r; cbn in *; subst; reflexivity|]. split; [|split; [apply KH, U1|exact U1]].
      intros r' Ir (_ & _ & Q). destruct (F2_in _ _ _ F r' Ir) as ([[[k2 m2] a2] t2] & I2 & (_ & _ & K2 & _)). apply N1. apply in_map_iff. exists (k2, m2, a2, t2). split; [cbn; congruence|exact I2].
    - destruct IH as (pre & post & h & -> & NP & AG); [exact F|exact I|exact U2|exact N2|]. exists (r :: pre), post, h. split; [reflexivity|]. split; assumption. }
  exists h. split; [|exact AG]. exists (l ++ pre), (post ++ l'). split; [rewrite <- !app_assoc; reflexivity|].
  intros r I' Q. apply in_app_iff in I'. destruct I' as [I'|I']; [exact (NP r I' Q)|]. destruct Q as (Q1 & Q2 & _). exact (Hl r I' (conj Q1 Q2)).
Qed.
Lemma table_invokes l l' : (forall r, In r l' -> ~ (rg_prog r = a /\ rg_vers r = b)) ->
  forall xid qs w w' rs, obj_calls E obj t a b xid qs w w' rs -> invokes_all (l ++ regs ++ l') a b xid qs w w' rs.
Proof.
  intros Hl. induction 1 as [|xid q qs w w1 w2 r rs H1 _ IH]; econstructor; [|exact IH]. destruct H1 as [m ta tr x y I R O B S1 S2 F].
  destruct (table_last l l' _ _ _ _ Hl I) as (h & L & A & U). eapply Invokes; eassumption.
Qed.
Lemma table_answers : answers E obj a b t regs.
Proof.
  intros srv ch1 ch2 c s qs w' rs (l & l' & Hr & G1 & G2 & Hl) C1 C2 Hc Ha Hb Hq He Hi Ho.
  eapply e2e; try eassumption; [|rewrite Ha, Hb; apply table_invokes; assumption].
  intros r h I. apply in_app_iff in I. destruct I as [I|I]; [exact (G1 r h I)|]. apply in_app_iff in I. destruct I as [I|I]; [exact (table_regs_ok r h I)|exact (G2 r h I)].
Qed.
End Table.

Lemma rows_entry {W} E (obj : object W) a b : forall cs t regs, omap row cs = Some t -> Forall2 (entry_ok E obj a b) cs regs -> Forall2 (entry E obj a b) t regs.
Proof.
  intros cs t regs R. apply omap_F2 in R. revert regs. induction R as [|c q cs t Q _ IH]; intros regs FF; inversion FF as [|? g ? rs EO FF']; subst; constructor; [|apply IH; exact FF'].
  unfold row in Q. destruct EO as (A & B & [K _] & EH). rewrite K in Q. cbn [pbind] in Q. injection Q as <-. cbn [entry]. auto.
Qed.
Lemma row_no c p : row c = Some p -> num_val (pc_id c) = Some (proc_no p).
Proof. unfold row. intros H. sinv H. injection H as <-. assumption. Qed.

Lemma text_answers fl src ds E P o Q pkg : ok_flags fl = true -> front src = Some ds -> spec_prog fl src = Some (E, P) -> generate fl src = Some o -> declares pkg (files_of o) Q ->
  forall p pv, In (defProg p) ds -> In pv (pd_vers p) ->
  exists r, In r (gp_regs Q) /\ rd_name r = cap (pd_name p) +++ "_" +++ cap (pv_name pv) +++ "_regs" /\
  forall W (obj : object W) a b t, u32_lit (pd_id p) a -> u32_lit (pv_id pv) b -> omap row (pv_calls pv) = Some t -> Forall (fun p => 0 <= proc_no p <= MaxUint32) t ->
  NoDup (map proc_no t) -> obj_ok E obj t ->
  exists regs, run_regs Q obj E r = Some regs /\ answers E obj a b t regs.
Proof.
  intros F Fr S G Dc p pv Ip Iv. destruct (text_regs fl src ds E P Q o pkg F Fr S G Dc p pv Ip Iv) as (r & Ir & Nr & H). exists r. split; [exact Ir|]. split; [exact Nr|].
  intros W obj a b t A B R K N U. destruct (H W obj a b A B) as (regs & RR & FF).
  - intros c Ic. pose proof (omap_F2 _ _ _ R) as R'. clear -Ic R' K. induction R' as [|c' q cs t Q _ IH]; [destruct Ic|]. inversion K as [|? ? K1 K2]; subst. destruct Ic as [->|Ic]; [|exact (IH K2 Ic)].
    exists (proc_no q). split; [exact (row_no _ _ Q)|exact K1].
  - exists regs. split; [exact RR|]. apply table_answers; [exact (rows_entry _ _ _ _ _ _ _ R FF)|exact U|exact N].
Qed.

Lemma committed_answers P E name a b t : registers P E name a b t -> NoDup (map proc_no t) ->
  exists r, In r (gp_regs P) /\ rd_name r = name /\ forall W (obj : object W), obj_ok E obj t -> exists regs, run_regs P obj E r = Some regs /\ answers E obj a b t regs.
Proof.
  intros (r & I & Nm & H) N. exists r. split; [exact I|]. split; [exact Nm|]. intros W obj U. destruct (H W obj) as (regs & R & F). exists regs. split; [exact R|]. apply table_answers; assumption.
Qed.
Ltac nodup_z := repeat constructor; cbn; intuition discriminate.
Lemma pmap_answers P : declares "rfc1057" [rfc1057_xdr_go; rfc1057_types_go] P ->
  exists r, In r (gp_regs P) /\ rd_name r = "PMAP_PROG_PMAP_VERS_regs" /\ forall W (obj : object W), obj_ok rpc_env obj pmap_table ->
  exists regs, run_regs P obj rpc_env r = Some regs /\ answers rpc_env obj 100000 2 pmap_table regs.
Proof. intros D. apply committed_answers; [exact (pmap_regs P D)|]. nodup_z. Qed.
Lemma nfs_answers P : declares "rfc1813" [rfc1813_xdr_go; rfc1813_types_go] P ->
  exists r, In r (gp_regs P) /\ rd_name r = "NFS_PROGRAM_NFS_V3_regs" /\ forall W (obj : object W), obj_ok rfc1813_env obj nfs_table ->
  exists regs, run_regs P obj rfc1813_env r = Some regs /\ answers rfc1813_env obj 100003 3 nfs_table regs.
Proof. intros D. apply committed_answers; [exact (proj1 (nfs_regs P D))|]. nodup_z. Qed.
Lemma mount_answers P : declares "rfc1813" [rfc1813_xdr_go; rfc1813_types_go] P ->
  exists r, In r (gp_regs P) /\ rd_name r = "MOUNT_PROGRAM_MOUNT_V3_regs" /\ forall W (obj : object W), obj_ok rfc1813_env obj mount_table ->
  exists regs, run_regs P obj rfc1813_env r = Some regs /\ answers rfc1813_env obj 100005 3 mount_table regs.
Proof. intros D. apply committed_answers; [exact (proj2 (nfs_regs P D))|]. nodup_z. Qed.

(** ** A portmapper: GETPORT (RFC 1057 appendix A, with credentials of 5 bytes) and then NULL. *)
Definition e2x_null : callreq := mkReq 0 exr_verf exr_verf xv_void xv_void.
Lemma e2x_null_ok : req_ok e2x_null.
Proof.
  split; [vm_compute; intuition congruence|]. split; [apply auth_ty; apply u32_0|]. split; [apply auth_ty; apply u32_0|].
  assert (xv_ok xv_void) as V by (split; [exists 12%nat; apply (goodb_sound 12); vm_compute; reflexivity|apply (has_tyb_sound 4); vm_compute; reflexivity]). split; exact V.
Qed.
Lemma e2x_null_enc : encodable e2x_null.
Proof. split; [do 2 eexists; split; [reflexivity|vm_compute; congruence]|]. split; [do 2 eexists; split; [reflexivity|vm_compute; congruence]|]. repeat constructor. Qed.
Lemma e2x_auth f b w : auth RFC f b w -> zlen w <= zlen b + 11.
Proof.
  intros [pad _ _ (P1 & P2 & _)]. unfold zlen. rewrite !app_length, !be4_len. clear - P1 P2. lia.
Qed.
Lemma e2x_size xid a b q wa : xv_ok (rq_args q) -> Encode (xv_env (rq_args q)) (xv_ty (rq_args q)) (xv_val (rq_args q)) wa None -> encodable q ->
  zlen wa < 2 ^ 30 -> forall msg, request xid a b q msg -> zlen msg < 2 ^ 31.
Proof.
  intros [[D (HE & Ht & _)] Hty] He ((f & o & C1 & C2) & (g & o' & V1 & V2) & _) Hs msg (f1 & o1 & f2 & o2 & w1 & w2 & wargs & E1 & E2 & H1 & H2 & Ha & ->).
  rewrite C1 in E1. rewrite V1 in E2. injection E1 as <- <-. injection E2 as <- <-. apply e2x_auth in H1, H2.
  apply (Encode_ok_wire D _ _ HE Ht _ _ Hty) in Ha. destruct (Encode_det _ _ _ _ _ _ _ He Ha) as [<- _]. unfold call_hdr, zlen in *. rewrite !app_length, !be4_len. lia.
Qed.
Lemma e2x_calls : obj_calls rpc_env pmx_obj pmap_table 100000 2 1 [exr_q; e2x_null] 7 9
  [mkAns rpc_env (Some (CIdent "Uint32")) (Some (VInt 2049)); mkAns rpc_env None None].
Proof.
  econstructor; [|econstructor; [|constructor]].
  - eapply (ObjCall _ _ _ _ _ _ exr_q 7 8 "PMAPPROC_GETPORT" (Some (CIdent "Mapping")) _ (Some exr_map) (Some (VInt 2049))).
    + cbn. tauto.
    + split; [reflexivity|]. split; [reflexivity|]. exists exr_map. split; [reflexivity|]. split; [|split].
      * econstructor; [reflexivity|]. constructor. repeat (econstructor; [reflexivity|reflexivity|constructor|]). constructor.
      * econstructor; [reflexivity|]. constructor. repeat (econstructor; [reflexivity|constructor|]). constructor.
      * exact (proj2 exr_args_ok).
    + reflexivity.
    + apply B_ident with CU32; [reflexivity|constructor].
    + eapply e2x_size; [exact exr_args_ok|exists 12%nat; vm_compute; reflexivity|exact exr_q_enc|vm_compute; reflexivity].
    + intros bs Hb. cbn [res_wire stub_res xv_env xv_ty xv_val] in Hb. inversion Hb as [| | | | | | | | | | | | | | | |x t v b' Hx Hw]; subst.
      injection Hx as <-. inversion Hw as [z' b' Hz' Hb'| | | | | | | | | | | | | | | |]; subst. unfold zlen. rewrite (proj1 Hb'). lia.
    + repeat split.
  - eapply (ObjCall _ _ _ _ _ _ e2x_null 8 9 "PMAPPROC_NULL" None None None None).
    + cbn. tauto.
    + reflexivity.
    + reflexivity.
    + repeat constructor.
    + eapply e2x_size; [exact (proj1 (proj2 (proj2 (proj2 e2x_null_ok))))|exists 12%nat; vm_compute; reflexivity|exact e2x_null_enc|vm_compute; reflexivity].
    + intros bs Hb. cbn [res_wire stub_res xv_env xv_ty xv_val xv_void] in Hb. inversion Hb; subst. match goal with H : WireFields _ _ _ _ _ |- _ => inversion H; subst end. unfold zlen. cbn. lia.
    + reflexivity.
Qed.
Lemma e2x_regs_ok : Forall2 (entry rpc_env pmx_obj 100000 2) pmap_table pmx_regs.
Proof.
  destruct (pmap_regs _ pmx_declared) as (r & I & N & H). destruct (H Z pmx_obj) as (regs & R & F).
  replace pmx_regs with regs; [exact F|]. unfold pmx_regs.
  assert (find_by rd_name "PMAP_PROG_PMAP_VERS_regs" (gp_regs pmx_P) = Some r) as ->; [|rewrite R; reflexivity].
  assert (NoDup (map rd_name (gp_regs pmx_P))) as ND by (vm_compute; repeat constructor; cbn; tauto). rewrite <- N. exact (find_by_in rd_name _ _ ND I).
Qed.
Definition e2x_srv : server Z := RegisterMany MakeServer pmx_regs.
Lemma e2x_on : registered_on e2x_srv 100000 2 pmx_regs.
Proof.
  exists [], []. split; [rewrite app_nil_r; apply (R_many MakeServer [] pmx_regs); constructor|]. split; [intros r h []|]. split; [intros r h []|]. intros r [].
Qed.
