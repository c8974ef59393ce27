(** The declarations read from the emitted files, gathered into one package. *)
From Verif Require Import GoLex GLexP XLex Gram GParse Emit GEmitP GoAst GLexQ GoCst GoCstP GoText GoTop GoRes.
Open Scope string_scope.
Open Scope list_scope.

(** ** Each declaration is read back *)
Lemma cap_h n : is_word n = true -> cap n <> "h".
Proof.
  intros H. unfold cap. destruct (String.eqb n "TRUE"); [discriminate|]. destruct (String.eqb n "FALSE"); [discriminate|].
  destruct n as [|c r]; [discriminate|]. cbn [is_word] in H. apply andb_true_iff in H. destruct H as [Hc _].
  destruct c as [[] [] [] [] [] [] [] []]; try discriminate Hc; discriminate.
Qed.
Definition no_h (fs : list (string * gty)) : Prop := Forall (fun f => fst f <> "h") fs.
Lemma field_no_h d fs : wd_d d = true -> gt_field d = Some fs -> no_h fs.
Proof.
  intros W H. destruct d as [|t n]; cbn [gt_field wd_d] in *; [injection H as <-; constructor|]. apply andb_true_iff in W. destruct W as [_ W]. sinv H. injection H as <-.
  constructor; [apply cap_h; exact W|constructor].
Qed.
Lemma its_no_h l : wd_its l = true -> forall fs, its_gt l = Some fs -> no_h fs.
Proof.
  induction l as [|d l IH]; intros W fs H; cbn in W, H; [injection H as <-; constructor|]. apply andb_true_iff in W. destruct W as [W1 W2]. sinv H. sinv H. injection H as <-.
  apply Forall_app. split; [eapply field_no_h; eassumption|eapply IH; eassumption].
Qed.
Lemma cases_no_h l : wd_cases l = true -> forall fs, cases_gt l = Some fs -> no_h fs.
Proof.
  induction l as [|d l IH]; intros W fs H; cbn in W, H; [injection H as <-; constructor|]. apply andb_true_iff in W. destruct W as [W1 W2]. apply andb_true_iff in W1. destruct W1 as [_ W1]. sinv H. sinv H. injection H as <-.
  apply Forall_app. split; [eapply field_no_h; eassumption|eapply IH; eassumption].
Qed.
Lemma gt_no_h t fs : wd t = true -> gt t = Some (GStruct fs) -> no_h fs.
Proof.
  intros W H. destruct t; try discriminate H.
  - destruct unsig; discriminate H.
  - destruct unsig; discriminate H.
  - rewrite gt_struct_eq in H. sinv H. injection H as <-. eapply its_no_h; eassumption.
  - rewrite gt_union_eq in H. rewrite wd_union in W. apply andb_true_iff in W. destruct W as [W W3]. apply andb_true_iff in W. destruct W as [W1 W2].
    sinv H. sinv H. sinv H. injection H as <-. apply Forall_app. split; [eapply field_no_h; eassumption|]. apply Forall_app. split; [eapply cases_no_h; eassumption|].
    destruct def as [d|]; [eapply field_no_h; eassumption|]. injection E1 as <-. constructor.
Qed.
Lemma gt_dt_no_h t fs : wd_dt t = true -> gt_dt t = Some (GStruct fs) -> no_h fs.
Proof.
  intros W H. destruct t; cbn [gt_dt wd_dt] in *; try discriminate H; [eapply gt_no_h; eassumption|..]; sinv H; discriminate H.
Qed.

Lemma r_top_type x t g : r_ty t = Some g -> (forall f i, t = XStruct [(f, XId i)] -> f <> "h") -> r_top (ZType x t) = Some (DType (x, g)).
Proof.
  intros H N. destruct t as [| | | | | | | | | | | |fs|]; try (cbn [r_top]; rewrite H; reflexivity).
  destruct fs as [|[f c] [|p fs]]; try (cbn [r_top]; rewrite H; reflexivity).
  - destruct c; try (cbn [r_top]; rewrite H; reflexivity). cbn [r_top]. destruct (String.eqb_spec f "h") as [E|E]; [destruct (N _ _ eq_refl E)|]. rewrite H. reflexivity.
  - destruct c; cbn [r_top]; rewrite H; reflexivity.
Qed.
Lemma z_type_read x g : rt g -> (forall fs, g = GStruct fs -> no_h fs) -> r_top (z_type (x, g)) = Some (DType (x, g)).
Proof.
  intros H N. unfold z_type. cbn [fst snd]. apply r_top_type; [exact H|]. intros f i E. destruct g as [| | | | |fs]; try discriminate E. rewrite ct_struct in E. specialize (N _ eq_refl).
  destruct fs as [|[y t] [|p fs]]; try discriminate E. inversion N as [|? ? Q]; subst. cbn in Q. unfold cf_of in E. cbn in E. injection E as -> _. exact Q.
Qed.
Lemma z_meth_read x ss : rs ss -> r_top (z_meth (x, ss)) = Some (DMeth (x, ss)).
Proof. intros H. unfold z_meth, z_xdr. cbn [fst snd r_top]. rewrite H. reflexivity. Qed.
Lemma z_const_read c : match c_ty c with Some g => rt g | None => True end -> r_top (z_const c) = Some (DConst c).
Proof.
  destruct c as [n [g|] v]; intros H; unfold z_const; cbn [c_name c_ty c_val option_map r_top r_opt] in *.
  - rewrite H. cbn [pbind]. rewrite r_sz_val. reflexivity.
  - cbn [pbind]. rewrite r_sz_val. reflexivity.
Qed.

(** ** Programs *)
Definition d_iface (v : gver) : ifaced := mkIface (gv_pv v +++ "_handler") (map (fun c => (gc_name c, gc_arg c, gc_res c)) (gv_calls v)).
(** out.go:405-424 *)
Definition d_body (c : gcall) : list pst :=
  match gc_arg c with None => [] | Some a => [PVar "in" (Some a); PXdr "in" "args"; PErr "err" "args"; PGuard "err"] end ++
  [PVar "out" (gc_res c);
   PUser (match gc_res c with Some _ => Some "out" | None => None end) "w" "h" (gc_name c) (match gc_arg c with Some _ => ["in"] | None => [] end);
   PRet "out"].
Definition d_stub (v : gver) (c : gcall) : stubd := mkStub "w" (gv_pv v +++ "_handler_wrapper") (gc_name c) "args" "res" "err" (d_body c).
Definition d_ent (v : gver) (c : gcall) : regent := mkEnt (gv_prog v) (gv_name v) (gc_name c) "w" (gc_name c).
Definition d_regs (v : gver) : regd :=
  mkRegd (gv_pv v +++ "_regs") "h" (gv_pv v +++ "_handler") "w" (gv_pv v +++ "_handler_wrapper") "h" (map (d_ent v) (gv_calls v)).
Definition d_ver (v : gver) : list gdecl :=
  DIface (d_iface v) :: DWrap (gv_pv v +++ "_handler_wrapper") (gv_pv v +++ "_handler") :: map (fun c => DStub (d_stub v c)) (gv_calls v) ++ [DRegs (d_regs v)].
Definition opt_rt (o : option gty) : Prop := match o with Some g => rt g | None => True end.
Definition call_rt (c : gcall) : Prop := opt_rt (gc_arg c) /\ opt_rt (gc_res c).
Lemma gopt_rt o g : match o with Some t => wd t | None => true end = true -> gopt o = Some g -> opt_rt g.
Proof.
  destruct o as [t|]; cbn; intros W H; [|injection H as <-; exact I]. destruct (gt t) as [a|] eqn:E; [|discriminate]. injection H as <-. exact (proj1 type_read t W a E).
Qed.
Lemma g_call_rt c k : wd_call c = true -> g_call c = Some k -> call_rt k.
Proof.
  unfold wd_call, g_call. intros W H. apply andb_true_iff in W. destruct W as [W W4]. apply andb_true_iff in W. destruct W as [_ W3]. sinv H. sinv H. injection H as <-. split; [exact (gopt_rt _ _ W3 E)|exact (gopt_rt _ _ W4 E0)].
Qed.
Lemma opt_read o : opt_rt o -> r_opt (option_map ct_of o) = Some o.
Proof. destruct o as [g|]; [|reflexivity]. cbn. intros ->. reflexivity. Qed.
Lemma z_iface_read v : Forall call_rt (gv_calls v) -> r_top (z_iface v) = Some (DIface (d_iface v)).
Proof.
  intros H. unfold z_iface, d_iface. cbn [r_top]. enough (omap r_meth (map (fun c => (gc_name c, option_map ct_of (gc_arg c), option_map ct_of (gc_res c))) (gv_calls v)) = Some (map (fun c => (gc_name c, gc_arg c, gc_res c)) (gv_calls v))) as -> by reflexivity.
  induction H as [|c l [A R] _ IH]; [reflexivity|]. cbn [map omap r_meth]. rewrite (opt_read _ A), (opt_read _ R), IH. reflexivity.
Qed.
Lemma z_wrapper_read v : r_top (z_wrapper v) = Some (DWrap (gv_pv v +++ "_handler_wrapper") (gv_pv v +++ "_handler")).
Proof. reflexivity. Qed.
Lemma r_var x g : rt g -> r_pst (YVar x (ct_of g)) = Some (PVar x (Some g)).
Proof.
  unfold rt. intros H. cbn [r_pst]. destruct (is_xdr "Void" (ct_of g)) eqn:E; [|rewrite H; reflexivity].
  destruct g; cbn [ct_of] in *; discriminate.
Qed.
Lemma z_stub_read v c : call_rt c -> r_top (z_stub v c) = Some (DStub (d_stub v c)).
Proof.
  intros [A R]. unfold z_stub, d_stub, z_xdr. cbn [r_top]. 
  assert (omap r_pst (z_stub_body c) = Some (d_body c)) as ->; [|reflexivity]. unfold z_stub_body, d_body.
  destruct (gc_arg c) as [a|]; cbn [app omap]; [rewrite (r_var "in" a A)|]; (destruct (gc_res c) as [r|]; [rewrite (r_var "out" r R)|]; reflexivity).
Qed.
Lemma z_regs_read v : r_top (z_regs v) = Some (DRegs (d_regs v)).
Proof.
  unfold z_regs, d_regs, z_xdr. cbn [r_top].
  enough (omap r_ent (map (z_reg v) (gv_calls v)) = Some (map (d_ent v) (gv_calls v))) as -> by reflexivity.
  induction (gv_calls v) as [|c l IH]; [reflexivity|]. cbn [map omap]. rewrite IH. reflexivity.
Qed.

(** ** Definitions *)
(** The declarations a definition stands for, in the order they are written. *)
Definition d_defn (fl : flags) (d : defn) : option (list gdecl) :=
  match d with
  | defProg p =>
      do vs <- g_prog p ;
      Some (DConst (mkC (cap (pd_name p)) (Some gU32) (pd_id p)) :: flat_map (fun v => map DConst (ver_consts v) ++ d_ver v) vs)
  | _ => do ts <- ty_decl fl d ; do ms <- meth_decl fl d ; Some (map DType ts ++ map DMeth ms ++ map DConst (const_decl fl d))
  end.
Fixpoint d_list (fl : flags) (ds : list defn) : option (list gdecl) :=
  match ds with [] => Some [] | d :: ds => do a <- d_defn fl d ; do b <- d_list fl ds ; Some (a ++ b) end.
(** Those written to [out] and not to [tout]. *)
Definition d_out (d : gdecl) : bool := match d with DType _ | DConst _ => false | _ => true end.
Definition rd (z : bool * ctop) (d : gdecl) : Prop := r_top (snd z) = Some d /\ fst z = d_out d.
(** The flags for which the constants' type is a predeclared one. *)
Definition ok_flags (fl : flags) : bool := is_name (fl_pkg fl) && (String.eqb (fl_const fl) "" || mem (fl_const fl) basics).
Lemma mem_In x l : mem x l = true -> In x l.
Proof. unfold mem. intros H. apply existsb_exists in H. destruct H as (y & I & E). apply String.eqb_eq in E. subst. exact I. Qed.
Lemma ok_flags_wd fl : ok_flags fl = true -> wd_flags fl = true.
Proof.
  unfold ok_flags, wd_flags. intros H. apply andb_true_iff in H. destruct H as [-> H]. apply orb_true_iff in H. destruct H as [->|H]; [reflexivity|].
  apply mem_In in H. cbn in H. repeat (destruct H as [<-|H]; [reflexivity|]). destruct H.
Qed.

Lemma Forall2_map {A B C} (P : B -> C -> Prop) (f : A -> B) (g : A -> C) l : (forall a, In a l -> P (f a) (g a)) -> Forall2 P (map f l) (map g l).
Proof. induction l as [|a l IH]; intros H; constructor; [apply H; left; reflexivity|apply IH; intros; apply H; right; assumption]. Qed.
Lemma rd_map {A} b (f : A -> ctop) (g : A -> gdecl) l : (forall a, In a l -> r_top (f a) = Some (g a) /\ b = d_out (g a)) -> Forall2 rd (map (pair b) (map f l)) (map g l).
Proof. intros H. rewrite map_map. apply Forall2_map. intros a I. exact (H a I). Qed.
Lemma rd_app l d l' d' : Forall2 rd l d -> Forall2 rd l' d' -> Forall2 rd (l ++ l') (d ++ d').
Proof. apply Forall2_app. Qed.

Lemma types_read fl d ts : wd_defn d = true -> ty_decl fl d = Some ts -> forall t, In t ts -> r_top (z_type t) = Some (DType t).
Proof.
  intros W H. destruct d as [n v|d|n l|n l|n s c d|p]; cbn [ty_decl wd_defn] in *.
  - injection H as <-. intros _ [].
  - destruct d as [|t n]; [injection H as <-; intros _ []|]. cbn [wd_d] in W. apply andb_true_iff in W. destruct W as [W _]. sinv H. apply some_eq in H. subst ts. intros t' [<-|[]].
    pose proof (proj1 (proj2 type_read) t W a E) as R. assert (forall fs, a = GStruct fs -> no_h fs) as N by (intros fs ->; eapply gt_dt_no_h; eassumption).
    destruct t; try (apply z_type_read; assumption).
    apply z_type_read; [apply rt_struct, rfs_one; exact R|]. intros fs Q. injection Q as <-. constructor; [discriminate|constructor].
  - apply some_eq in H. subst ts. intros t [<-|[]]. apply z_type_read; destruct (fl_unsigned fl); try reflexivity; discriminate.
  - apply andb_true_iff in W. destruct W as [_ W]. sinv H. apply some_eq in H. subst ts. intros t [<-|[]]. apply z_type_read; [exact (proj1 type_read (typeStruct l) W a E)|]. intros fs ->. eapply (gt_no_h (typeStruct l)); eassumption.
  - apply andb_true_iff in W. destruct W as [_ W]. sinv H. apply some_eq in H. subst ts. intros t [<-|[]]. apply z_type_read; [exact (proj1 type_read (typeUnion s c d) W a E)|]. intros fs ->. eapply (gt_no_h (typeUnion s c d)); eassumption.
  - apply some_eq in H. subst ts. intros _ [].
Qed.
Lemma meths_read fl d ms : wd_defn d = true -> meth_decl fl d = Some ms -> forall m, In m ms -> r_top (z_meth m) = Some (DMeth m).
Proof.
  assert (V : re (EVar "v")) by reflexivity. assert (VP : re (EAddr (ESel (EVar "v") "P"))) by reflexivity.
  intros W H. destruct d as [n v|d|n l|n l|n s c d|p]; cbn [meth_decl wd_defn] in *.
  - injection H as <-. intros _ [].
  - destruct d as [|t n]; [injection H as <-; intros _ []|]. cbn [wd_d] in W. apply andb_true_iff in W. destruct W as [W _]. sinv H. apply some_eq in H. subst ms. intros t' [<-|[]].
    apply z_meth_read. refine (proj1 (proj2 xdr_read) t W _ _ _ E). destruct t; assumption.
  - sinv H. apply some_eq in H. subst ms. intros t [<-|[]]. apply z_meth_read. exact (proj1 xdr_read (typeInt (fl_unsigned fl)) eq_refl _ _ V E).
  - apply andb_true_iff in W. destruct W as [_ W]. sinv H. apply some_eq in H. subst ms. intros t [<-|[]]. apply z_meth_read. exact (proj1 xdr_read (typeStruct l) W _ _ V E).
  - apply andb_true_iff in W. destruct W as [_ W]. sinv H. apply some_eq in H. subst ms. intros t [<-|[]]. apply z_meth_read. exact (proj1 xdr_read (typeUnion s c d) W _ _ V E).
  - apply some_eq in H. subst ms. intros _ [].
Qed.
Lemma consts_read fl d : ok_flags fl = true -> wd_defn d = true -> forall c, In c (const_decl fl d) -> r_top (z_const c) = Some (DConst c).
Proof.
  intros F W c I. apply z_const_read. destruct d as [n v|d|n l|n l|n s cs d|p]; cbn [const_decl wd_defn] in *; try (destruct I; fail).
  - destruct I as [<-|[]]. cbn [c_ty]. unfold ok_flags in F. apply andb_true_iff in F. destruct F as [_ F]. destruct (String.eqb (fl_const fl) ""); [exact Logic.I|]. cbn [orb] in F. unfold rt. cbn [ct_of r_ty]. rewrite F. reflexivity.
  - apply andb_true_iff in W. destruct W as [W _]. apply in_map_iff in I. destruct I as (it & <- & _). cbn [c_ty]. unfold rt. cbn [ct_of r_ty]. rewrite (cap_basic n W). reflexivity.
  - assert (c_ty c = Some gU32) as ->; [|reflexivity]. destruct I as [<-|I]; [reflexivity|]. apply in_flat_map in I. destruct I as (v & _ & [<-|I]); [reflexivity|]. apply in_map_iff in I. destruct I as (x & <- & _). reflexivity.
Qed.
Lemma ver_read v : Forall call_rt (gv_calls v) -> Forall2 rd (tag_ver v) (map DConst (ver_consts v) ++ d_ver v).
Proof.
  intros H. unfold tag_ver. apply rd_app.
  - apply rd_map. intros c I. split; [|reflexivity]. apply z_const_read. assert (c_ty c = Some gU32) as ->; [|reflexivity]. destruct I as [<-|I]; [reflexivity|]. apply in_map_iff in I. destruct I as (x & <- & _). reflexivity.
  - unfold z_ver, d_ver. cbn [map]. constructor; [split; [apply z_iface_read; exact H|reflexivity]|]. constructor; [split; reflexivity|]. rewrite map_app. apply rd_app.
    + apply rd_map. intros c I. split; [|reflexivity]. apply z_stub_read. rewrite Forall_forall in H. apply H, I.
    + constructor; [split; [apply z_regs_read|reflexivity]|constructor].
Qed.
Lemma omap_forall {A B} (f : A -> option B) (P : B -> Prop) l : (forall a b, In a l -> f a = Some b -> P b) -> forall r, omap f l = Some r -> Forall P r.
Proof.
  induction l as [|a l IH]; intros H r E; cbn [omap] in E; [injection E as <-; constructor|]. sinv E. sinv E. injection E as <-. constructor; [eapply H; [left; reflexivity|exact E0]|]. eapply IH; [|exact E1]. intros; eapply H; [right|]; eassumption.
Qed.
Lemma prog_rt p vs : forallb wd_ver (pd_vers p) = true -> g_prog p = Some vs -> Forall (fun v => Forall call_rt (gv_calls v)) vs.
Proof.
  intros W. unfold g_prog. apply omap_forall. intros v g I H. rewrite forallb_forall in W. specialize (W v I). unfold wd_ver in W. apply andb_true_iff in W. destruct W as [_ W].
  unfold g_ver in H. sinv H. injection H as <-. cbn [gv_calls]. revert E. apply omap_forall. intros c k Ic. rewrite forallb_forall in W. apply g_call_rt, W, Ic.
Qed.
Lemma defn_read fl d l : ok_flags fl = true -> wd_defn d = true -> tag_defn fl d = Some l -> exists ds, d_defn fl d = Some ds /\ Forall2 rd l ds.
Proof.
  intros F W H. destruct d as [n v|d|n m|n m|n s c d|p].
  6: { cbn [tag_defn d_defn wd_defn] in *. apply andb_true_iff in W. destruct W as [_ W]. sinv H. apply some_eq in H. subst l. rewrite E. cbn [pbind]. eexists. split; [reflexivity|]. constructor; [split; [apply z_const_read; reflexivity|reflexivity]|].
       pose proof (prog_rt p a W E) as R. clear E. induction R as [|v vs Hv _ IH]; [constructor|]. cbn [flat_map]. apply rd_app; [apply ver_read; exact Hv|exact IH]. }
  all: cbn [tag_defn] in H; unfold tag_of in H; sinv H; sinv H; apply some_eq in H; subst l; cbn [d_defn]; rewrite E, E0; cbn [pbind]; eexists; split; [reflexivity|];
    apply rd_app; [|apply rd_app]; apply rd_map; intros x I; (split; [|reflexivity]);
    [eapply types_read; eassumption|eapply meths_read; eassumption|eapply consts_read; eassumption].
Qed.
Lemma list_read fl ds : ok_flags fl = true -> forallb wd_defn ds = true -> forall l, tag_list fl ds = Some l -> exists g, d_list fl ds = Some g /\ Forall2 rd l g.
Proof.
  intros F. induction ds as [|d ds IH]; intros W l H; cbn [tag_list d_list forallb] in *.
  - apply some_eq in H. subst l. exists []. split; [reflexivity|constructor].
  - apply andb_true_iff in W. destruct W as [Wd W]. sinv H. sinv H. apply some_eq in H. subst l. destruct (defn_read fl d a F Wd E) as (g & -> & G). destruct (IH W _ E0) as (g' & -> & G').
    cbn [pbind]. eexists. split; [reflexivity|apply rd_app; assumption].
Qed.

(** ** Packages *)
Record gprog : Type := mkGprog { gp_pkg : gpkg; gp_ifaces : list ifaced; gp_wraps : list (string * string); gp_stubs : list stubd; gp_regs : list regd }.
Definition s_type (d : gdecl) : list tydecl := match d with DType t => [t] | _ => [] end.
Definition s_meth (d : gdecl) : list method := match d with DMeth t => [t] | _ => [] end.
Definition s_const (d : gdecl) : list cdecl := match d with DConst t => [t] | _ => [] end.
Definition s_iface (d : gdecl) : list ifaced := match d with DIface t => [t] | _ => [] end.
Definition s_wrap (d : gdecl) : list (string * string) := match d with DWrap x i => [(x, i)] | _ => [] end.
Definition s_stub (d : gdecl) : list stubd := match d with DStub t => [t] | _ => [] end.
Definition s_regs (d : gdecl) : list regd := match d with DRegs t => [t] | _ => [] end.
Definition gather (l : list gdecl) : gprog :=
  mkGprog (mkPkg (flat_map s_type l) (flat_map s_meth l) (flat_map s_const l)) (flat_map s_iface l) (flat_map s_wrap l) (flat_map s_stub l) (flat_map s_regs l).
Definition plain (d : gdecl) : bool := match d with DPackage _ | DImport _ => false | _ => true end.
Definition xdr_path : string := DQ +++ "github.com/zeldovich/go-rpcgen/xdr" +++ DQ.
(** The text [s] is a file of package [p] with the declarations [body]; if some of them use
    the package xdr, it is imported. *)
Definition file_reads (p : string) (s : string) (body : list gdecl) : Prop :=
  exists l imps, reads s l /\ omap r_top l = Some (DPackage p :: map DImport imps ++ body) /\ forallb plain body = true /\
    (existsb d_out body = true -> In xdr_path imps).
(** What the files of a package declare. *)
Definition declares (p : string) (files : list string) (P : gprog) : Prop :=
  exists bodies, Forall2 (file_reads p) files bodies /\ gather (List.concat bodies) = P.

Lemma reads_det s l l' : reads s l -> reads s l' -> l = l'.
Proof.
  intros (ts & E & n & H) (ts' & E' & n' & H'). assert (ts = ts') as <- by congruence. specialize (H (Nat.max n n') (Nat.le_max_l _ _)). specialize (H' (Nat.max n n') (Nat.le_max_r _ _)). congruence.
Qed.
Lemma split_det : forall imps imps' b b', map DImport imps ++ b = map DImport imps' ++ b' -> forallb plain b = true -> forallb plain b' = true -> b = b'.
Proof.
  induction imps as [|i imps IH]; intros [|i' imps'] b b' H P P'; cbn [map app] in H.
  - exact H.
  - subst b. discriminate P.
  - subst b'. discriminate P'.
  - injection H as _ H. exact (IH _ _ _ H P P').
Qed.
Lemma file_det p p' s b b' : file_reads p s b -> file_reads p' s b' -> p = p' /\ b = b'.
Proof.
  intros (l & i & R & O & P & _) (l' & i' & R' & O' & P' & _). assert (l = l') as <- by (eapply reads_det; eassumption). rewrite O in O'. apply some_eq in O'. injection O' as O1 O2. split; [exact O1|]. exact (split_det _ _ _ _ O2 P P').
Qed.
Lemma declares_det p p' files P P' : declares p files P -> declares p' files P' -> P = P'.
Proof.
  intros (b & F & <-) (b' & F' & <-). f_equal. f_equal. revert b' F'. induction F as [|s x fs b Hx _ IH]; intros b' F'; inversion F' as [|? x' ? ? Hx' F'']; subst; [reflexivity|]. f_equal; [eapply file_det; eassumption|apply IH; assumption].
Qed.

Fixpoint vers_of (ds : list defn) : option (list gver) :=
  match ds with
  | [] => Some []
  | d :: ds => do a <- match d with defProg p => g_prog p | _ => Some [] end ; do b <- vers_of ds ; Some (a ++ b)
  end.
(** The package emitted for a specification. *)
Definition prog_of (fl : flags) (ds : list defn) : option gprog :=
  do G <- pkg_of fl ds ; do vs <- vers_of ds ;
  Some (mkGprog G (map d_iface vs) (map (fun v => (gv_pv v +++ "_handler_wrapper", gv_pv v +++ "_handler")) vs)
          (flat_map (fun v => map (d_stub v) (gv_calls v)) vs) (map d_regs vs)).
Lemma flat_map_map {A B C} (f : A -> B) (g : B -> list C) l : flat_map g (map f l) = flat_map (fun a => g (f a)) l.
Proof. induction l as [|a l IH]; [reflexivity|]. cbn. rewrite IH. reflexivity. Qed.
Lemma flat_map_one {A B} (f : A -> B) l : flat_map (fun a => [f a]) l = map f l.
Proof. induction l as [|a l IH]; [reflexivity|]. cbn. rewrite IH. reflexivity. Qed.
Lemma flat_map_none {A B} (l : list A) : flat_map (fun _ => @nil B) l = [].
Proof. induction l as [|a l IH]; [reflexivity|]. exact IH. Qed.
Lemma flat_map_nested {A B C} (f : A -> list B) (g : B -> list C) l : flat_map g (flat_map f l) = flat_map (fun a => flat_map g (f a)) l.
Proof. induction l as [|a l IH]; [reflexivity|]. cbn. rewrite flat_map_app, IH. reflexivity. Qed.
Lemma map_id_eq {A} (l : list A) : map (fun a => a) l = l.
Proof. apply map_id. Qed.
Ltac sel := rewrite ?flat_map_app, ?flat_map_map; cbn [s_type s_meth s_const s_iface s_wrap s_stub s_regs];
  rewrite ?flat_map_none, ?flat_map_one, ?map_id_eq, ?app_nil_r; cbn [app]; try reflexivity.
Lemma omap_ver_consts p vs : g_prog p = Some vs ->
  flat_map ver_consts vs = flat_map (fun v => mkC (cap (pv_name v)) (Some gU32) (pv_id v) :: map (fun c => mkC (cap (pc_name c)) (Some gU32) (pc_id c)) (pv_calls v)) (pd_vers p).
Proof.
  unfold g_prog. revert vs. induction (pd_vers p) as [|v l IH]; intros vs H; cbn [omap] in H; [apply some_eq in H; subst vs; reflexivity|]. sinv H. sinv H. apply some_eq in H. subst vs. cbn [flat_map]. rewrite (IH _ E0). f_equal.
  unfold g_ver in E. sinv E. apply some_eq in E. subst a. unfold ver_consts. cbn [gv_name gv_id gv_calls]. f_equal. clear -E1. revert a1 E1.
  induction (pv_calls v) as [|c l' IH]; intros ks H; cbn [omap] in H; [apply some_eq in H; subst ks; reflexivity|]. sinv H. sinv H. apply some_eq in H. subst ks. cbn [map]. rewrite (IH _ E0). f_equal.
  unfold g_call in E. sinv E. sinv E. apply some_eq in E. subst a. reflexivity.
Qed.
Lemma ver_sel v : let l := map DConst (ver_consts v) ++ DIface (d_iface v) :: DWrap (gv_pv v +++ "_handler_wrapper") (gv_pv v +++ "_handler") :: map (fun c => DStub (d_stub v c)) (gv_calls v) ++ [DRegs (d_regs v)] in
  flat_map s_type l = [] /\ flat_map s_meth l = [] /\ flat_map s_const l = ver_consts v /\ flat_map s_iface l = [d_iface v] /\
  flat_map s_wrap l = [(gv_pv v +++ "_handler_wrapper", gv_pv v +++ "_handler")] /\ flat_map s_stub l = map (d_stub v) (gv_calls v) /\ flat_map s_regs l = [d_regs v].
Proof.
  cbv zeta. repeat split; sel; cbn [flat_map s_type s_meth s_const s_iface s_wrap s_stub s_regs app]; sel; cbn [flat_map s_type s_meth s_const s_iface s_wrap s_stub s_regs app]; sel.
Qed.
Lemma gather_list fl ds : forall g, d_list fl ds = Some g -> prog_of fl ds = Some (gather g) /\ forallb plain g = true.
Proof.
  unfold prog_of. induction ds as [|d ds IH]; intros g H; cbn [d_list] in H.
  - apply some_eq in H. subst g. split; reflexivity.
  - sinv H. sinv H. apply some_eq in H. subst g. destruct (IH _ E0) as [IH1 IH2]. clear IH. unfold pkg_of in *. sinv IH1. sinv E1. sinv E1. apply some_eq in E1. subst a1. sinv IH1. apply some_eq in IH1. unfold gather in IH1.
    cbn [all_decls vers_of flat_map].
    assert (exists ts ms vs, ty_decl fl d = Some ts /\ meth_decl fl d = Some ms /\ match d with defProg p => g_prog p | _ => Some [] end = Some vs /\
       flat_map s_type a = ts /\ flat_map s_meth a = ms /\ flat_map s_const a = const_decl fl d /\ flat_map s_iface a = map d_iface vs /\
       flat_map s_wrap a = map (fun v => (gv_pv v +++ "_handler_wrapper", gv_pv v +++ "_handler")) vs /\ flat_map s_stub a = flat_map (fun v => map (d_stub v) (gv_calls v)) vs /\
       flat_map s_regs a = map d_regs vs /\ forallb plain a = true) as (ts & ms & vs & -> & -> & -> & A1 & A2 & A3 & A4 & A5 & A6 & A7 & A8).
    { clear -E. destruct d as [n v|d|n m|n m|n s c d|p].
      6: { cbn [d_defn ty_decl meth_decl const_decl] in *. sinv E. apply some_eq in E. subst a. exists [], [], a0. split; [reflexivity|]. split; [reflexivity|]. split; [exact E0|]. unfold d_ver.
           cbn [flat_map s_type s_meth s_const s_iface s_wrap s_stub s_regs app]. rewrite !flat_map_nested.
           rewrite <- (omap_ver_consts p a0 E0).
           split; [rewrite (flat_map_ext _ _ (fun v => proj1 (ver_sel v))); apply flat_map_none|].
           split; [rewrite (flat_map_ext _ _ (fun v => proj1 (proj2 (ver_sel v)))); apply flat_map_none|].
           split; [f_equal; apply flat_map_ext; intros v; apply ver_sel|].
           split; [rewrite (flat_map_ext _ _ (fun v => proj1 (proj2 (proj2 (proj2 (ver_sel v)))))); apply flat_map_one|].
           split; [rewrite (flat_map_ext _ _ (fun v => proj1 (proj2 (proj2 (proj2 (proj2 (ver_sel v))))))); apply flat_map_one|].
           split; [apply flat_map_ext; intros v; apply ver_sel|].
           split; [rewrite (flat_map_ext _ _ (fun v => proj2 (proj2 (proj2 (proj2 (proj2 (proj2 (ver_sel v)))))))); apply flat_map_one|].
           cbn [forallb plain andb]. clear E0. induction a0 as [|v vs IH]; [reflexivity|]. cbn [flat_map]. rewrite !forallb_app. rewrite IH. cbn [forallb plain]. rewrite forallb_app. cbn [forallb plain].
           assert (forall A (f : A -> gdecl) l, (forall x, plain (f x) = true) -> forallb plain (map f l) = true) as Q by (intros A f l Hf; induction l; cbn; rewrite ?Hf; auto). rewrite !Q by reflexivity. reflexivity. }
      all: cbn [d_defn] in E; sinv E; sinv E; apply some_eq in E; subst a; exists a0, a1, []; rewrite E0, E1; repeat (split; [reflexivity|]); (split; [sel|]); (split; [sel|]); (split; [sel|]); (split; [sel|]); (split; [sel|]); (split; [sel|]); (split; [sel|]);
         rewrite !forallb_app; assert (forall A (f : A -> gdecl) l, (forall x, plain (f x) = true) -> forallb plain (map f l) = true) as Q by (intros A f l Hf; induction l; cbn; rewrite ?Hf; auto); rewrite !Q by reflexivity; reflexivity. }
    repeat match goal with H : all_decls _ ds = Some _ |- _ => rewrite H; clear H | H : vers_of ds = Some _ |- _ => rewrite H; clear H end. cbn [pbind]. split.
    + unfold gather. rewrite !flat_map_app, A1, A2, A3, A4, A5, A6, A7.
      pose proof (f_equal (fun p => g_types (gp_pkg p)) IH1) as B1. pose proof (f_equal (fun p => g_meths (gp_pkg p)) IH1) as B2. pose proof (f_equal (fun p => g_consts (gp_pkg p)) IH1) as B3.
      pose proof (f_equal gp_ifaces IH1) as B4. pose proof (f_equal gp_wraps IH1) as B5. pose proof (f_equal gp_stubs IH1) as B6. pose proof (f_equal gp_regs IH1) as B7.
      cbn [gp_pkg g_types g_meths g_consts gp_ifaces gp_wraps gp_stubs gp_regs] in *. rewrite !map_app, ?flat_map_app, <- B1, <- B2, <- B3, <- B4, <- B5, <- B6, <- B7. reflexivity.
    + rewrite forallb_app, A8, IH2. reflexivity.
Qed.

(** ** Files *)
Lemma rd_omap (f : bool -> bool) l g : Forall2 rd l g -> omap r_top (map snd (filter (fun z => f (fst z)) l)) = Some (filter (fun d => f (d_out d)) g).
Proof.
  induction 1 as [|z d l g [H E] _ IH]; [reflexivity|]. cbn [filter]. rewrite E. destruct (f (d_out d)); [|exact IH]. cbn [map omap]. rewrite H, IH. reflexivity.
Qed.
Lemma filter_all {A} (l : list A) : filter (fun _ => true) l = l.
Proof. induction l as [|a l IH]; [reflexivity|]. cbn. rewrite IH. reflexivity. Qed.
Lemma sel_in {A} (s : gdecl -> list A) (b : bool) l : (forall d, d_out d = negb b -> s d = []) -> flat_map s (filter (fun d => Bool.eqb b (d_out d)) l) = flat_map s l /\ flat_map s (filter (fun d => negb (Bool.eqb b (d_out d))) l) = [].
Proof.
  intros H. induction l as [|d l [I1 I2]]; [split; reflexivity|]. cbn [filter flat_map]. destruct (Bool.eqb b (d_out d)) eqn:E; cbn [negb flat_map].
  - rewrite I1. split; [reflexivity|exact I2].
  - rewrite (H d) by (destruct b, (d_out d); try discriminate E; reflexivity). split; [exact I1|exact I2].
Qed.
Lemma gather_split l : gather (filter d_out l ++ filter (fun d => negb (d_out d)) l) = gather l.
Proof.
  assert (forall A (s : gdecl -> list A) (b : bool), (forall d, d_out d = negb b -> s d = []) -> flat_map s (filter d_out l ++ filter (fun d => negb (d_out d)) l) = flat_map s l) as Q.
  { intros A s b H. rewrite flat_map_app. destruct (sel_in s b l H) as [I1 I2]. destruct b.
    - rewrite (filter_ext (fun d => Bool.eqb true (d_out d)) d_out) in I1 by (intros d; destruct (d_out d); reflexivity).
      rewrite (filter_ext (fun d => negb (Bool.eqb true (d_out d))) (fun d => negb (d_out d))) in I2 by (intros d; destruct (d_out d); reflexivity). rewrite I1, I2, app_nil_r. reflexivity.
    - rewrite (filter_ext (fun d => Bool.eqb false (d_out d)) (fun d => negb (d_out d))) in I1 by (intros d; destruct (d_out d); reflexivity).
      rewrite (filter_ext (fun d => negb (Bool.eqb false (d_out d))) d_out) in I2 by (intros d; destruct (d_out d); reflexivity). rewrite I1, I2. reflexivity. }
  unfold gather. rewrite (Q _ s_type false), (Q _ s_const false), (Q _ s_meth true), (Q _ s_iface true), (Q _ s_wrap true), (Q _ s_stub true), (Q _ s_regs true); [reflexivity|..]; intros [] E; try discriminate E; reflexivity.
Qed.
Lemma plain_filter f l : forallb plain l = true -> forallb plain (filter f l) = true.
Proof. rewrite !forallb_forall. intros H x I. apply filter_In in I. apply H, I. Qed.
Definition files_of (o : string * option string) : list string := fst o :: opt_list (snd o).
Lemma gen_files fl src ds o : ok_flags fl = true -> front src = Some ds -> forallb wd_defn ds = true -> generate fl src = Some o ->
  exists P, prog_of fl ds = Some P /\ declares (fl_pkg fl) (files_of o) P.
Proof.
  intros F Fr W H. unfold generate in H. rewrite Fr in H. cbn [pbind] in H. sinv H. apply some_eq in H. subst o.
  destruct (emit_list_text fl ds (ok_flags_wd fl F) W _ E) as (l & T & (A & B & C)). destruct (list_read fl ds F W l T) as (g & Dg & R). destruct (gather_list fl ds g Dg) as [PO PL].
  exists (gather g). split; [exact PO|].
  assert (N : sym_ok kWord (fl_pkg fl) [GIdent (fl_pkg fl)]) by (apply name_sym; unfold ok_flags in F; apply andb_true_iff in F; apply F).
  pose proof (top_package _ N) as TP. pose proof top_import as TI.
  pose proof (rd_omap (fun b => b) _ _ R) as O1. pose proof (rd_omap negb _ _ R) as O2. pose proof (rd_omap (fun _ => true) _ _ R) as O3. cbn beta in O1, O2, O3. rewrite !filter_all in O3. change (filter (fun z : bool * ctop => fst z) l) with (filter fst l) in O1.
  unfold files_of. cbn [fst snd]. destruct (fl_types fl) eqn:Et; cbn [opt_list].
  - exists [filter d_out g; filter (fun d => negb (d_out d)) g]. split.
    + constructor; [|constructor; [|constructor]].
      * exists (ZPackage (fl_pkg fl) :: z_import :: outs l), [xdr_path]. split.
        { apply tops_reads. unfold out_header. rewrite !sapp_assoc. pose proof (tops_app _ _ _ _ TP (tops_app _ _ _ _ TI A)) as Q. rewrite !sapp_assoc in Q. exact Q. }
        split; [cbn [omap r_top z_import pbind]; unfold outs; rewrite O1; reflexivity|]. split; [apply plain_filter; exact PL|]. intros _. left. reflexivity.
      * exists (ZPackage (fl_pkg fl) :: touts l), []. split.
        { apply tops_reads. unfold tout_header. rewrite !sapp_assoc. pose proof (tops_app _ _ _ _ TP C) as Q. rewrite !sapp_assoc in Q. exact Q. }
        split; [cbn [omap r_top pbind]; unfold touts; rewrite O2; reflexivity|]. split; [apply plain_filter; exact PL|]. intros X. apply existsb_exists in X. destruct X as (d & I & X). apply filter_In in I. destruct I as [_ I]. rewrite X in I. discriminate I.
    + cbn [List.concat]. rewrite app_nil_r. apply gather_split.
  - exists [g]. split.
    + constructor; [|constructor]. exists (ZPackage (fl_pkg fl) :: z_import :: map snd l), [xdr_path]. split.
      { apply tops_reads. unfold out_header. rewrite !sapp_assoc. pose proof (tops_app _ _ _ _ TP (tops_app _ _ _ _ TI B)) as Q. rewrite !sapp_assoc in Q. exact Q. }
      split; [cbn [omap r_top z_import pbind]; rewrite O3; reflexivity|]. split; [exact PL|]. intros _. left. reflexivity.
    + cbn [List.concat]. rewrite app_nil_r. reflexivity.
Qed.
