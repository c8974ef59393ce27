(** Registrations of generated packages, for the texts of the files. *)
From Verif Require Import GoLex XLex Gram GParse Emit RepoText GoAst GoCst GoTop GoRes GoPkg GoWf.
From Verif Require Import Bytes XdrLib Types Interp Spec Runs Check RpcTypes RpcSpec Io Client CallSpec Server ServSpec ServerQ ServerX GoSem GElab ExRpc ServerEx GSimD GenCommitted GenText GoStub.
Open Scope string_scope.
Open Scope Z_scope.
Open Scope list_scope.

Section Text.
Variables (fl : flags) (src : string) (ds : list defn) (E : env) (P Q : gprog) (o : string * option string) (pkg : string).
Hypothesis Hfl : ok_flags fl = true.
Hypothesis Hf : front src = Some ds.
Hypothesis Hs : spec_prog fl src = Some (E, P).
Hypothesis Hg : generate fl src = Some o.
Hypothesis Hd : declares pkg (files_of o) Q.
Lemma text_regs p pv : In (defProg p) ds -> In pv (pd_vers p) ->
  exists r, In r (gp_regs Q) /\ rd_name r = cap (pd_name p) +++ "_" +++ cap (pv_name pv) +++ "_regs" /\
  forall W (obj : object W) a b, u32_lit (pd_id p) a -> u32_lit (pv_id pv) b -> (forall c, In c (pv_calls pv) -> exists z, u32_lit (pc_id c) z) ->
  exists regs, run_regs Q obj E r = Some regs /\ Forall2 (entry_ok E obj a b) (pv_calls pv) regs.
Proof.
  intros Ip Iv. rewrite (text_same _ _ _ _ _ _ _ Hfl Hs Hg Hd). apply spec_prog_inv in Hs. destruct Hs as (ds' & F & S & _). assert (ds' = ds) as -> by congruence. exact (regs_run fl src ds E P F S p pv Ip Iv).
Qed.
End Text.

(** A server on which the list has been registered. *)
Section Served.
Context {W : Type}.
Variables (E : env) (obj : object W) (a b : Z) (cs : list progCall) (regs : list (registration W)).
Hypothesis HR : Forall2 (entry_ok E obj a b) cs regs.
Hypothesis Hu : forall c, In c cs -> user_ok E (op_ty (pc_arg c)) (op_ty (pc_res c)) (obj (cap (pc_name c))).
Hypothesis Hn : NoDup (map (fun c => num_val (pc_id c)) cs).
Variables (srv : server W) (l : list (registration W)) (w : W).
Hypothesis Hr : reach srv l.
Hypothesis Hg : regs_ok l.
Variables (c : progCall) (k : Z).
Hypothesis Ic : In c cs.
Hypothesis Hk : u32_lit (pc_id c) k.
Variables (buf : list byte) (xid f1 : Z) (b1 : list byte) (f2 : Z) (b2 args : list byte).
Hypothesis Hc : is_call DEC buf xid 2 a b k f1 b1 f2 b2 args.
Let Hr' : reach (RegisterMany srv regs) (l ++ regs).
Proof. apply R_many. exact Hr. Qed.
Let Hg' : regs_ok (l ++ regs).
Proof. exact (regs_are_ok E obj a b cs regs HR Hu l Hg). Qed.
Lemma served :
  (forall x w' y bs, arg_decodes E (op_ty (pc_arg c)) args x -> obj (cap (pc_name c)) x w = Ret (w', y) -> res_wire (Some (stub_res E (op_ty (pc_res c)) y)) bs ->
     sends (RegisterMany srv regs) w buf w' (reply_accepted xid null_auth 0 ++ bs)) /\
  ((forall x, ~ arg_decodes E (op_ty (pc_arg c)) args x) -> sends (RegisterMany srv regs) w buf w (reply_accepted xid null_auth 4)) /\
  (forall S (C : conn S) s s' w' e, Handles C (RegisterMany srv regs) s w buf s' w' e ->
     (exists x y, arg_decodes E (op_ty (pc_arg c)) args x /\ obj (cap (pc_name c)) x w = Ret (w', y)) \/ (w' = w /\ forall x, ~ arg_decodes E (op_ty (pc_arg c)) args x)).
Proof.
  destruct (regs_last E obj a b cs regs HR Hu Hn l c k Ic Hk) as (h & HL & HA). split; [|split].
  - intros x w' y bs. eapply h36_good; eauto.
  - eapply h36_garbage; eauto.
  - intros S C s s' w' e. eapply h36_only; eauto.
Qed.
End Served.

(** ** The committed packages *)
(** A procedure: its number, method, argument and result. *)
Definition proc : Type := (Z * string * option cty * option cty)%type.
Definition entry {W} (E : env) (obj : object W) (a b : Z) (p : proc) (r : registration W) : Prop :=
  match p with (k, m, ta, tr) =>
    rg_prog r = a /\ rg_vers r = b /\ rg_proc r = k /\
    exists h, rg_handler r = Some h /\ (user_ok E ta tr (obj m) -> agrees h (stub E ta tr (obj m)) /\ handler_ok h)
  end.
Definition row (c : progCall) : option proc := do k <- num_val (pc_id c) ; Some (k, cap (pc_name c), op_ty (pc_arg c), op_ty (pc_res c)).
(** What [run_regs] gives for the function [name]. *)
Definition registers (P : gprog) (E : env) (name : string) (a b : Z) (t : list proc) : Prop :=
  exists r, In r (gp_regs P) /\ rd_name r = name /\ forall W (obj : object W), exists regs, run_regs P obj E r = Some regs /\ Forall2 (entry E obj a b) t regs.
Definition find_ver (ds : list defn) (x y : string) : option (progDef * progVer) :=
  do d <- find (fun d => match d with defProg p => String.eqb (pd_name p) x | _ => false end) ds ;
  match d with defProg p => do v <- find (fun v => String.eqb (pv_name v) y) (pd_vers p) ; Some (p, v) | _ => None end.
Definition in_u32 (s : string) (z : Z) : bool := match num_val s with Some y => Z.eqb y z | None => false end && (0 <=? z) && (z <=? MaxUint32).
Lemma in_u32_ok s z : in_u32 s z = true -> u32_lit s z.
Proof.
  unfold in_u32, u32_lit. intros H. apply andb_true_iff in H. destruct H as [H H3]. apply andb_true_iff in H. destruct H as [H1 H2]. apply Z.leb_le in H2, H3. destruct (num_val s) as [y|]; [|discriminate]. apply Z.eqb_eq in H1. subst y. auto.
Qed.
Definition in_table (ds : list defn) (x y : string) (a b : Z) (t : list proc) : Prop :=
  match find_ver ds x y with
  | Some (p, v) => in_u32 (pd_id p) a = true /\ in_u32 (pv_id v) b = true /\ omap row (pv_calls v) = Some t /\ forallb (fun c => match num_val (pc_id c) with Some z => in_u32 (pc_id c) z | None => false end) (pv_calls v) = true
  | None => False
  end.
Lemma committed_regs fl src ds E P x y a b t : front src = Some ds -> supported_prog fl ds = Some (E, P) -> in_table ds x y a b t ->
  registers P E (cap x +++ "_" +++ cap y +++ "_regs") a b t.
Proof.
  intros Hf Hs T. unfold in_table, find_ver in T. destruct (find _ ds) as [d|] eqn:F; [|destruct T]. cbn [pbind] in T. destruct d as [| | | | |p]; try destruct T. destruct (find _ (pd_vers p)) as [v|] eqn:F'; [|destruct T]. cbn [pbind] in T.
  destruct T as (A & B & R & N). apply find_some in F, F'. destruct F as [Ip Ep], F' as [Iv Ev]. apply String.eqb_eq in Ep, Ev. subst x y.
  destruct (regs_run fl src ds E P Hf Hs p v Ip Iv) as (r & Ir & Nr & H). exists r. split; [exact Ir|]. split; [exact Nr|]. intros W obj.
  destruct (H W obj a b) as (regs & RR & FF); [apply in_u32_ok; exact A|apply in_u32_ok; exact B| |].
  - intros c Ic. rewrite forallb_forall in N. specialize (N c Ic). destruct (num_val (pc_id c)) as [z|] eqn:Z; [|discriminate]. exists z. apply in_u32_ok. exact N.
  - exists regs. split; [exact RR|]. apply omap_F2 in R. clear -R FF. revert regs FF. induction R as [|c q cs t Q _ IH]; intros regs FF; inversion FF as [|? g ? rs EO FF']; subst; constructor; [|apply IH; exact FF'].
    unfold row in Q. destruct EO as (A & B & [K _] & EH). rewrite K in Q. cbn [pbind] in Q. injection Q as <-. cbn [entry]. auto.
Qed.
Lemma committed_text fl src p files E P x y a b t : (exists P, spec_prog fl src = Some (E, P) /\ declares p files P) -> declares p files P ->
  match front src with Some ds => in_table ds x y a b t | None => False end -> registers P E (cap x +++ "_" +++ cap y +++ "_regs") a b t.
Proof.
  intros (P' & S & D') D T. rewrite (declares_det _ _ _ _ _ D D'). apply spec_prog_inv in S. destruct S as (ds & F & S & _). rewrite F in T. exact (committed_regs fl src ds E P' x y a b t F S T).
Qed.

Definition named (x : string) : option cty := Some (CIdent x).
(** RFC 1057 appendix A (prot.x:144-153). *)
Definition pmap_table : list proc :=
  [ (0, "PMAPPROC_NULL", None, None); (1, "PMAPPROC_SET", named "Mapping", named "Xbool"); (2, "PMAPPROC_UNSET", named "Mapping", named "Xbool");
    (3, "PMAPPROC_GETPORT", named "Mapping", named "Uint32"); (4, "PMAPPROC_DUMP", None, named "Pmaplist"); (5, "PMAPPROC_CALLIT", named "Call_args", named "Call_result") ].
Lemma pmap_regs P : declares "rfc1057" [rfc1057_xdr_go; rfc1057_types_go] P -> registers P rpc_env "PMAP_PROG_PMAP_VERS_regs" 100000 2 pmap_table.
Proof.
  intros D. apply (committed_text _ _ _ _ _ P "PMAP_PROG" "PMAP_VERS" 100000 2 pmap_table rfc1057_committed D). vm_compute. repeat split.
Qed.
(** RFC 1813 (prot.x:190-215, 800-809). *)
Definition nfs_table : list proc :=
  [ (0, "NFSPROC3_NULL", None, None); (1, "NFSPROC3_GETATTR", named "GETATTR3args", named "GETATTR3res");
    (2, "NFSPROC3_SETATTR", named "SETATTR3args", named "SETATTR3res"); (3, "NFSPROC3_LOOKUP", named "LOOKUP3args", named "LOOKUP3res");
    (4, "NFSPROC3_ACCESS", named "ACCESS3args", named "ACCESS3res"); (5, "NFSPROC3_READLINK", named "READLINK3args", named "READLINK3res");
    (6, "NFSPROC3_READ", named "READ3args", named "READ3res"); (7, "NFSPROC3_WRITE", named "WRITE3args", named "WRITE3res");
    (8, "NFSPROC3_CREATE", named "CREATE3args", named "CREATE3res"); (9, "NFSPROC3_MKDIR", named "MKDIR3args", named "MKDIR3res");
    (10, "NFSPROC3_SYMLINK", named "SYMLINK3args", named "SYMLINK3res"); (11, "NFSPROC3_MKNOD", named "MKNOD3args", named "MKNOD3res");
    (12, "NFSPROC3_REMOVE", named "REMOVE3args", named "REMOVE3res"); (13, "NFSPROC3_RMDIR", named "RMDIR3args", named "RMDIR3res");
    (14, "NFSPROC3_RENAME", named "RENAME3args", named "RENAME3res"); (15, "NFSPROC3_LINK", named "LINK3args", named "LINK3res");
    (16, "NFSPROC3_READDIR", named "READDIR3args", named "READDIR3res"); (17, "NFSPROC3_READDIRPLUS", named "READDIRPLUS3args", named "READDIRPLUS3res");
    (18, "NFSPROC3_FSSTAT", named "FSSTAT3args", named "FSSTAT3res"); (19, "NFSPROC3_FSINFO", named "FSINFO3args", named "FSINFO3res");
    (20, "NFSPROC3_PATHCONF", named "PATHCONF3args", named "PATHCONF3res"); (21, "NFSPROC3_COMMIT", named "COMMIT3args", named "COMMIT3res") ].
Definition mount_table : list proc :=
  [ (0, "MOUNTPROC3_NULL", None, None); (1, "MOUNTPROC3_MNT", named "Dirpath3", named "Mountres3");
    (2, "MOUNTPROC3_DUMP", None, named "Mountopt3"); (3, "MOUNTPROC3_UMNT", named "Dirpath3", None);
    (4, "MOUNTPROC3_UMNTALL", None, None); (5, "MOUNTPROC3_EXPORT", None, named "Exportsopt3") ].
Lemma nfs_regs P : declares "rfc1813" [rfc1813_xdr_go; rfc1813_types_go] P ->
  registers P rfc1813_env "NFS_PROGRAM_NFS_V3_regs" 100003 3 nfs_table /\ registers P rfc1813_env "MOUNT_PROGRAM_MOUNT_V3_regs" 100005 3 mount_table.
Proof.
  intros D. split.
  - apply (committed_text _ _ _ _ _ P "NFS_PROGRAM" "NFS_V3" 100003 3 nfs_table rfc1813_committed D). vm_compute. repeat split.
  - apply (committed_text _ _ _ _ _ P "MOUNT_PROGRAM" "MOUNT_V3" 100005 3 mount_table rfc1813_committed D). vm_compute. repeat split.
Qed.

(** ** A portmapper on the committed package; the world counts invocations. *)
Definition pmx_port (x : option val) : Z := match x with Some (VStruct ((_, VInt p) :: _)) => if Z.eqb p 100003 then 2049 else 0 | _ => 0 end.
Lemma pmx_port_is x : pmx_port x = 2049 \/ pmx_port x = 0.
Proof. unfold pmx_port. destruct x as [v|]; [|auto]. destruct v as [| | | | | | |l]; auto. destruct l as [|[f u] l]; auto. destruct u; auto. destruct (Z.eqb _ _); auto. Qed.
Definition pmx_obj : object Z := fun m x w =>
  Ret (w + 1,
    if String.eqb m "PMAPPROC_NULL" then None
    else if String.eqb m "PMAPPROC_GETPORT" then Some (VInt (pmx_port x))
    else if String.eqb m "PMAPPROC_DUMP" then Some (VStruct [("P", VPtr None)])
    else if String.eqb m "PMAPPROC_CALLIT" then Some (VStruct [("Port", VInt 1); ("Res", VBytes None)])
    else Some (VBool true)).
Definition pmx_run (regs : list (registration Z)) (w : Z) (buf : list byte) (w' : Z) (reply : list (list byte)) : Prop :=
  exists s' e, Handles (logged stream_conn) (RegisterMany MakeServer regs) (exr_s, []) w buf (s', reply) w' e.
Definition pmx_P : gprog := match spec_prog (make_flags "rfc1057") rfc1057_prot_x with Some (_, P) => P | None => mkGprog (mkPkg [] [] []) [] [] [] [] end.
Definition pmx_regs : list (registration Z) := match find_by rd_name "PMAP_PROG_PMAP_VERS_regs" (gp_regs pmx_P) with Some r => match run_regs pmx_P pmx_obj rpc_env r with Some l => l | None => [] end | None => [] end.
Lemma pmx_declared : declares "rfc1057" [rfc1057_xdr_go; rfc1057_types_go] pmx_P.
Proof. destruct rfc1057_committed as (P & S & D). unfold pmx_P. rewrite S. exact D. Qed.
Lemma pmx_rows :
  pmx_run pmx_regs 7 exr_msg 8 [record exr_reply] /\
  pmx_run pmx_regs 7 (exs_req 2 100000 2 1 exs_args) 8 [record (be4 1 ++ be4 1 ++ be4 0 ++ be4 0 ++ be4 0 ++ be4 0 ++ be4 1)] /\
  pmx_run pmx_regs 7 (exs_req 2 100000 2 3 [x00; x01]) 7 [record (be4 1 ++ be4 1 ++ be4 0 ++ be4 0 ++ be4 0 ++ be4 4)] /\
  pmx_run pmx_regs 7 (exs_req 2 100000 2 0 []) 8 [record (be4 1 ++ be4 1 ++ be4 0 ++ be4 0 ++ be4 0 ++ be4 0)] /\
  pmx_run pmx_regs 7 (exs_req 2 100000 2 4 []) 8 [record (be4 1 ++ be4 1 ++ be4 0 ++ be4 0 ++ be4 0 ++ be4 0 ++ be4 0)] /\
  pmx_run pmx_regs 7 (exs_req 2 100000 2 6 []) 7 [record (be4 1 ++ be4 1 ++ be4 0 ++ be4 0 ++ be4 0 ++ be4 3)].
Proof.
  repeat match goal with |- _ /\ _ => split end; (eexists; eexists; exists 30%nat; vm_compute; reflexivity).
Qed.

(** Every method of it has its declared type. *)
Lemma pmx_user : Forall (fun p => match p with (_, m, ta, tr) => user_ok rpc_env ta tr (pmx_obj m) end) pmap_table.
Proof.
  assert (G : forall x t, Some (CIdent x) = Some t -> goodb 12 12 rpc_env (CIdent x) = true -> exists D, good D rpc_env t) by (intros x t [= <-] H; apply good_rpc; exact H).
  assert (N : forall t, None = Some t -> exists D, good D rpc_env t) by discriminate.
  unfold pmap_table, named. repeat constructor; try exact N; try (intros t H; exact (G _ t H eq_refl)).
  all: intros x w w' y H; unfold pmx_obj in H; cbn [String.eqb Ascii.eqb Bool.eqb] in H; injection H as _ <-; try reflexivity.
  all: eexists; split; [reflexivity|]; apply (has_tyb_sound 8).
  all: try match goal with |- context [pmx_port ?x] => destruct (pmx_port_is x) as [-> | ->] end.
  all: vm_compute; reflexivity.
Qed.

(** ** Scopes in the handler wrappers *)
Lemma stub_scopes W P (obj : object W) sb n fr l x :
  let names := [sb_w sb; sb_args sb; sb_res sb; sb_err sb] ++ map fst (sf_vars fr) in
  (forall t, In x names -> run_body P obj sb n fr (PVar x t :: l) = GStuck) /\
  (In "xdr" names -> run_body P obj sb n fr (PVar x None :: l) = GStuck) /\
  (forall y, In y names -> run_body P obj sb n fr (PVar x (Some (GNamed y)) :: l) = GStuck).
Proof.
  intros names. assert (M : forall y, In y names -> mem y names = true) by (intros y I; apply existsb_exists; exists y; split; [exact I|apply String.eqb_refl]).
  split; [|split].
  - intros [t|] I; cbn [run_body]; fold names; change (sb_w sb :: sb_args sb :: sb_res sb :: sb_err sb :: map fst (sf_vars fr)) with names; rewrite (M _ I); reflexivity.
  - intros I; cbn [run_body]. change (sb_w sb :: sb_args sb :: sb_res sb :: sb_err sb :: map fst (sf_vars fr)) with names. rewrite (M _ I), orb_true_r. reflexivity.
  - intros y I; cbn [run_body]. change (sb_w sb :: sb_args sb :: sb_res sb :: sb_err sb :: map fst (sf_vars fr)) with names. cbn [hides]. rewrite (M _ I), orb_true_r. reflexivity.
Qed.
