(** Go's typing rules for the generated packages with their interfaces, wrapper types, stubs
    and registration functions (GoRes.v, GoPkg.v; out.go:389-441), and the conditions on a
    specification under which they hold.

    Simplifications: a type of the specification is never an interface or wrapper
    type; an interface is assignable only to itself. *)
From Verif Require Import GoLex XLex Gram GParse Emit GEmitP GoTop GoRes GoPkg GoWf GoStub.
From Verif Require Import Bytes XdrLib Types Interp GoAst GoSem GElab GSimB GoType GoTypeS GoTypeP GoTypeQ.
From Coq Require Import Btauto.
Open Scope string_scope.
Open Scope Z_scope.
Open Scope list_scope.

Section Prog.
Variable P : gprog.
Variable n : nat.
Let G := gp_pkg P.

(** The types of the variables of a stub: a type of the package, xdr.Void (xdr/types.go:12),
    *xdr.XdrState, xdr.Xdrable (types.go:3), error, a pointer to a wrapper. *)
Inductive sty : Type := TGo (t : gty) | TVoid | TState | TXdrable | TErr | TWrap (x : string).
Definition slocals : Type := list (string * sty).
Definition names_of (L : slocals) : locals := map (fun p => (fst p, gBool)) L.
(** A name of the universe block or of the import that nothing hides. *)
Definition clear_name (L : slocals) (x : string) : bool := negb (mem x (map fst L)) && negb (mem x (decl_names P)).
(** &x is an xdr.Xdrable, and x.Xdr is a method. *)
Definition has_xdr (L : slocals) (x : string) : bool :=
  match lookup x L with
  | Some (TGo (GNamed t)) => mem t (map fst (g_meths G))
  | Some TVoid => true
  | _ => false
  end.
Definition is_state (L : slocals) (x : string) : bool := match lookup x L with Some TState => true | _ => false end.
Definition is_error (L : slocals) (x : string) : bool := match lookup x L with Some TErr => true | _ => false end.
Definition used (x : string) (l : list pst) : bool :=
  existsb (fun s => match s with
                    | PVar _ _ => false
                    | PXdr y a => mem x [y; a]
                    | PErr _ a => String.eqb x a
                    | PGuard e => String.eqb x e
                    | PUser _ w _ _ args => mem x (w :: args)
                    | PRet y => String.eqb x y
                    end) l.
(** An argument list against a parameter, a variable against a result. *)
Definition args_ok (L : slocals) (args : list string) (t : option gty) : bool :=
  match args, t with
  | [], None => true
  | [x], Some t => match lookup x L with Some (TGo s) => assignable G n (KVar s) t | _ => false end
  | _, _ => false
  end.
Definition res_ok (L : slocals) (r : option string) (t : option gty) : bool :=
  match r, t with
  | None, _ => true
  | Some x, Some s => match lookup x L with Some (TGo t) => assignable G n (KVal s) t | _ => false end
  | Some _, None => false
  end.
Fixpoint tc_body (L : slocals) (l : list pst) : bool :=
  match l with
  | [] => false                                        (* missing return *)
  | PVar x t :: l =>
      negb (mem x ("_" :: map fst L)) && match t with None => clear_name L "xdr" | Some t => valid_ty G (names_of L) t end &&
      used x l && tc_body ((x, match t with None => TVoid | Some t => TGo t end) :: L) l
  | PXdr x a :: l => has_xdr L x && is_state L a && tc_body L l
  | PErr e a :: l => is_error L e && is_state L a && tc_body L l
  | PGuard e :: l => is_error L e && clear_name L "nil" && tc_body L l
  | PUser r w h m args :: l =>
      match lookup w L with
      | Some (TWrap t) => String.eqb h "h" && match signature P t m with Some s => args_ok L args (fst s) && res_ok L r (snd s) | None => false end
      | _ => false
      end && tc_body L l
  | PRet x :: l => has_xdr L x && clear_name L "nil" && match l with [] => true | _ => tc_body L l end
  end.
(** A method of a wrapper: the receiver's type has a field h. *)
Definition tc_stub (s : stubd) : bool :=
  let L := [(sb_w s, TWrap (sb_type s)); (sb_args s, TState); (sb_res s, TXdrable); (sb_err s, TErr)] in
  mem (sb_type s) (map fst (gp_wraps P)) && negb (mem (sb_name s) ["h"; "_"]) && nodupb (map fst L) &&
  clear_name [] "xdr" && clear_name [] "error" && tc_body L (sb_body s).
Definition opt_valid (o : option gty) : bool := match o with Some t => valid_ty G [] t | None => true end.
Definition tc_iface (i : ifaced) : bool :=
  nodupb (map (fun m => fst (fst m)) (if_meths i)) &&
  forallb (fun m => negb (String.eqb (fst (fst m)) "_") && opt_valid (snd (fst m)) && opt_valid (snd m)) (if_meths i).
Definition tc_wrap (w : string * string) : bool :=
  mem (snd w) (map if_name (gp_ifaces P)) &&
  nodupb (map sb_name (filter (fun s => String.eqb (sb_type s) (fst w)) (gp_stubs P))).    (* no method twice *)
(** A field of xdr.ProcRegistration (xdr/types.go:24-29). *)
Definition tc_num (r : regd) (x : string) : bool :=
  negb (mem x [rd_h r; rd_w r]) && match tc_ident G [] x with Some k => assignable G n k gU32 | None => false end.
Definition tc_ent (r : regd) (e : regent) : bool :=
  tc_num r (re_prog e) && tc_num r (re_vers e) && tc_num r (re_proc e) && String.eqb (re_w e) (rd_w r) &&
  existsb (fun s => String.eqb (sb_type s) (rd_wrap r) && String.eqb (sb_name s) (re_meth e)) (gp_stubs P).
Definition tc_regs (r : regd) : bool :=
  mem (rd_iface r) (map if_name (gp_ifaces P)) && String.eqb (rd_arg r) (rd_h r) &&
  match find_by fst (rd_wrap r) (gp_wraps P) with Some w => String.eqb (snd w) (rd_iface r) | None => false end &&
  negb (mem (rd_h r) ["_"; "xdr"; rd_wrap r]) && negb (mem (rd_w r) ["_"; "xdr"; rd_h r]) && clear_name [] "xdr" &&
  match rd_ents r with [] => false | _ => true end &&       (* else the variable of the wrapper is declared and not used *)
  forallb (tc_ent r) (rd_ents r).
(** The file that declares methods and functions imports xdr (main.go:58), which has to be used. *)
Definition import_used : bool :=
  match g_meths G, gp_stubs P, gp_regs P with [], [], [] => false | _, _, _ => true end.
Definition check_prog : bool :=
  nodupb (decl_names P) && forallb (fun x => negb (mem x ["xdr"; "init"; "_"])) (decl_names P) && check G n &&
  forallb tc_iface (gp_ifaces P) && forallb tc_wrap (gp_wraps P) && forallb tc_stub (gp_stubs P) && forallb tc_regs (gp_regs P) && import_used.
End Prog.
(** The compiler accepts the package. *)
Definition compiles (P : gprog) : Prop := exists n, check_prog P n = true.

(** ** In terms of the specification *)
Section Spec.
Variable G : gpkg.
(** An argument or result is void or a declared type. *)
Definition opt_declared (o : typespecOpt) : bool :=
  match o with None => true | Some (typeIdent x) => mem (cap x) (map fst (g_types G)) | Some _ => false end.
Definition vers_ok (v : progVer) : bool :=
  match pv_calls v with [] => false | _ => true end && forallb (fun c => opt_declared (pc_arg c) && opt_declared (pc_res c)) (pv_calls v).
Definition calls_ok (d : defn) : bool := match d with defProg p => forallb vers_ok (pd_vers p) | _ => true end.
Definition has_method (d : defn) : bool :=
  match d with
  | defTypedef declVoid | defConst _ _ => false
  | defTypedef (declName _ _) | defEnum _ _ | defStruct _ _ | defUnion _ _ _ _ => true
  | defProg p => match pd_vers p with [] => false | _ => true end
  end.
End Spec.
Definition clean_prog (P : gprog) (ds : list defn) : bool :=
  forallb cln_defn ds && forallb (fun x => negb (mem x ("xdr.XdrState" :: reserved))) (decl_names P).
Definition prog_ok (P : gprog) (n : nat) (ds : list defn) : bool :=
  nodupb (decl_names P) && spec_ok (gp_pkg P) n ds && forallb (calls_ok (gp_pkg P)) ds && existsb has_method ds.

(** ** The conditions are the typing rules *)
Lemma omap_inv {A B} (f : A -> option B) : forall l r, omap f l = Some r -> forall b, In b r -> exists a, In a l /\ f a = Some b.
Proof.
  induction l as [|x l IH]; intros r H b I; cbn [omap] in H; [injection H as <-; destruct I|]. sinv H. sinv H. injection H as <-. destruct I as [<-|I]; [exists x; split; [left; reflexivity|exact E]|].
  destruct (IH _ eq_refl b I) as (a & Ia & Fa). exists a. split; [right; exact Ia|exact Fa].
Qed.
Lemma vers_inv : forall l vs, vers_of l = Some vs -> forall v, In v vs -> exists p pv, In (defProg p) l /\ In pv (pd_vers p) /\ g_ver (pd_name p) pv = Some v.
Proof.
  induction l as [|d l IH]; intros vs H v I; cbn [vers_of] in H; [injection H as <-; destruct I|]. sinv H. sinv H. injection H as <-. apply in_app_or in I. destruct I as [I|I].
  - destruct d as [| | | | |d]; try (injection E as <-; destruct I; fail). unfold g_prog in E. destruct (omap_inv _ _ _ E _ I) as (pv & Ip & Fp). exists d, pv. repeat split; [left; reflexivity|exact Ip|exact Fp].
  - destruct (IH _ eq_refl _ I) as (p & pv & A & B & C). exists p, pv. repeat split; [right; exact A|exact B|exact C].
Qed.
(** The argument or result is of a declared type. *)
Definition gdeclared (G : gpkg) (o : option gty) : bool :=
  match o with None => true | Some (GNamed x) => mem x (map fst (g_types G)) | Some _ => false end.
Lemma gopt_declared G o g : gopt o = Some g -> gdeclared G g = opt_declared G o.
Proof.
  destruct o as [t|]; cbn [gopt opt_declared]; intros H; [|injection H as <-; reflexivity]. destruct t as [[]|[]| | | | | | | |]; cbn [gt option_map] in H; try discriminate; try (injection H as <-; reflexivity).
  - destruct (pbind _ _) eqn:E in H; [|discriminate]. injection H as <-. sinv E. injection E as <-. reflexivity.
  - destruct (pbind _ _) eqn:E in H; [|discriminate]. injection H as <-. sinv E. sinv E. sinv E. injection E as <-. reflexivity.
Qed.
Definition gver_ok (G : gpkg) (v : gver) : bool :=
  match gv_calls v with [] => false | _ => true end && forallb (fun c => gdeclared G (gc_arg c) && gdeclared G (gc_res c)) (gv_calls v).
Lemma gver_spec G nm pv v : g_ver nm pv = Some v -> gver_ok G v = vers_ok G pv.
Proof.
  unfold g_ver. intros H. sinv H. injection H as <-. unfold gver_ok, vers_ok. cbn [gv_calls]. revert l E. induction (pv_calls pv) as [|c cs IH]; intros l E; cbn [omap] in E; [injection E as <-; reflexivity|].
  sinv E. sinv E. injection E as <-. cbn [forallb andb]. unfold g_call in E0. sinv E0. sinv E0. injection E0 as <-. cbn [gc_arg gc_res]. rewrite (gopt_declared G _ _ E), (gopt_declared G _ _ E2). f_equal.
  specialize (IH _ eq_refl). clear - E1 IH. destruct l0 as [|k l0], cs as [|c cs]; try reflexivity; cbn [omap] in E1.
  - sinv E1. sinv E1. discriminate.
  - discriminate.
  - exact IH.
Qed.
Lemma vers_spec G : forall ds vs, vers_of ds = Some vs -> forallb (gver_ok G) vs = forallb (calls_ok G) ds.
Proof.
  induction ds as [|d ds IH]; intros vs H; cbn [vers_of] in H; [injection H as <-; reflexivity|]. sinv H. sinv H. injection H as <-. rewrite forallb_app. cbn [forallb]. rewrite (IH _ eq_refl). f_equal.
  destruct d as [| | | | |d]; try (injection E as <-; reflexivity). cbn [calls_ok]. unfold g_prog in E. revert l E. induction (pd_vers d) as [|v l' IHv]; intros l E; cbn [omap] in E; [injection E as <-; reflexivity|].
  sinv E. sinv E. injection E as <-. cbn [forallb]. rewrite (gver_spec _ _ _ _ E1). f_equal. apply IHv. reflexivity.
Qed.

Section Main.
Variable fl : flags.
Variable ds : list defn.
Variable P : gprog.
Variable n : nat.
Let G := gp_pkg P.
Hypothesis Hprog : prog_of fl ds = Some P.
Hypothesis Hclean : clean_prog P ds = true.

Lemma prog_inv : pkg_of fl ds = Some G /\ exists vs, vers_of ds = Some vs /\ gp_ifaces P = map d_iface vs /\
  gp_wraps P = map (fun v => (gv_pv v +++ "_handler_wrapper", gv_pv v +++ "_handler")) vs /\
  gp_stubs P = flat_map (fun v => map (d_stub v) (gv_calls v)) vs /\ gp_regs P = map d_regs vs.
Proof. unfold G. pose proof Hprog as H. unfold prog_of in H. sinv H. sinv H. injection H as <-. cbn. split; [reflexivity|]. exists l. repeat split; reflexivity. Qed.
Lemma free x : In x (decl_names P) -> ~ In x ("xdr.XdrState" :: reserved).
Proof.
  unfold clean_prog in Hclean. apply andb_true_iff in Hclean. destruct Hclean as (_ & B). rewrite forallb_forall in B. intros I J. specialize (B _ I). apply GSimB.mem_In in J. rewrite J in B. discriminate.
Qed.
Lemma pkg_in x : In x (pkg_names G) -> In x (decl_names P).
Proof. intros I. unfold decl_names. apply in_or_app. left. exact I. Qed.
Lemma clean_pkg : clean G ds = true.
Proof.
  unfold clean_prog in Hclean. unfold clean. apply andb_true_iff in Hclean. destruct Hclean as (A & B). rewrite A. cbn [andb]. rewrite forallb_forall in *. intros x I. apply B, pkg_in, I.
Qed.
Lemma clear_ok L x : In x reserved -> mem x (map fst L) = false -> clear_name P L x = true.
Proof. intros R M. unfold clear_name. rewrite M. cbn [negb andb]. apply negb_true_iff, mem_false. intros I. apply (free _ I). right. exact R. Qed.
Lemma type_free x : mem x (map fst (g_types G)) = true -> ~ In x reserved.
Proof. intros H R. apply GSimB.mem_In in H. apply (free x); [apply pkg_in; unfold pkg_names; apply in_or_app; left; exact H|right; exact R]. Qed.
Lemma named_valid L x : (forall y, In y (map fst L) -> In y reserved) -> valid_ty G (names_of L) (GNamed x) = mem x (map fst (g_types G)).
Proof.
  intros R. cbn [valid_ty]. destruct (lookup x (g_types G)) as [g|] eqn:E.
  - apply lookup_some_dom, GSimB.mem_In in E. rewrite E. apply negb_true_iff, mem_false. intros I. apply (type_free x E), R. unfold names_of in I. rewrite map_map in I. exact I.
  - symmetry. apply lookup_dom in E. apply mem_false. exact E.
Qed.
Lemma meth_names : map fst (g_meths G) = map fst (g_types G).
Proof. exact (names_eq fl ds G (proj1 prog_inv) clean_pkg). Qed.

Lemma In_sub (l m : list string) : forallb (fun x => mem x m) l = true -> forall y, In y l -> In y m.
Proof. intros H y I. rewrite forallb_forall in H. apply GSimB.mem_In, H, I. Qed.
(** *** Stubs *)
Lemma has_go L x t : lookup x L = Some (TGo t) -> has_xdr P L x = gdeclared G (Some t).
Proof. unfold has_xdr. intros ->. destruct t; try reflexivity. cbn [gdeclared]. fold G. rewrite meth_names. reflexivity. Qed.
Lemma has_void L x : lookup x L = Some TVoid -> has_xdr P L x = true.
Proof. unfold has_xdr. intros ->. reflexivity. Qed.
Lemma dec_named t : gdeclared G (Some t) = true -> exists x, t = GNamed x /\ mem x (map fst (g_types G)) = true.
Proof. destruct t; try discriminate. cbn. eauto. Qed.
Definition stub_locals (t : string) : slocals := [("w", TWrap t); ("args", TState); ("res", TXdrable); ("err", TErr)].
Definition in_local (a : option gty) (L : slocals) : slocals := match a with Some a => ("in", TGo a) :: L | None => L end.
Lemma same_named x : same_ty G (GNamed x) (GNamed x) = true.
Proof. cbn [same_ty]. apply String.eqb_refl. Qed.
Lemma body_ok t c : signature P t (gc_name c) = Some (gc_arg c, gc_res c) ->
  tc_body P n (stub_locals t) (d_body c) = gdeclared G (gc_arg c) && gdeclared G (gc_res c).
Proof.
  intros S. assert (RV : forall y, In y ["w"; "args"; "res"; "err"; "in"; "out"] -> In y reserved) by (intros y Hy; apply GSimB.mem_In; cbn in Hy; repeat (destruct Hy as [<-|Hy]; [reflexivity|]); destruct Hy).
  assert (NL : In "nil" reserved) by (apply GSimB.mem_In; reflexivity). assert (XL : In "xdr" reserved) by (apply GSimB.mem_In; reflexivity).
  (* the part after the argument *)
  assert (T : gdeclared G (gc_arg c) = true -> tc_body P n (in_local (gc_arg c) (stub_locals t))
    [PVar "out" (gc_res c); PUser (match gc_res c with Some _ => Some "out" | None => None end) "w" "h" (gc_name c) (match gc_arg c with Some _ => ["in"] | None => [] end); PRet "out"] = gdeclared G (gc_res c)).
  { intros DA. cbn [tc_body].
    set (L := in_local (gc_arg c) (stub_locals t)).
    assert (ML : map fst L = match gc_arg c with Some _ => ["in"; "w"; "args"; "res"; "err"] | None => ["w"; "args"; "res"; "err"] end) by (unfold L, in_local; destruct (gc_arg c); reflexivity).
    assert (LR : forall y, In y (map fst L) -> In y reserved) by (rewrite ML; intros y I; apply RV; destruct (gc_arg c); revert I; apply In_sub; reflexivity).
    assert (mem "out" ("_" :: map fst L) = false) as -> by (rewrite ML; destruct (gc_arg c); reflexivity).
    assert (used "out" [PUser (match gc_res c with Some _ => Some "out" | None => None end) "w" "h" (gc_name c) (match gc_arg c with Some _ => ["in"] | None => [] end); PRet "out"] = true) as -> by (destruct (gc_arg c); reflexivity).
    set (L' := ("out", match gc_res c with Some t0 => TGo t0 | None => TVoid end) :: L).
    assert (lookup "w" L' = Some (TWrap t)) as -> by (unfold L', L, in_local, stub_locals; destruct (gc_arg c); reflexivity).
    assert (clear_name P L' "nil" = true) as -> by (apply clear_ok; [exact NL|]; unfold L'; cbn [map fst]; rewrite ML; destruct (gc_arg c); reflexivity).
    rewrite S. cbn [fst snd]. change (String.eqb "h" "h") with true. cbn [negb andb].
    assert (args_ok P n L' (match gc_arg c with Some _ => ["in"] | None => [] end) (gc_arg c) = true) as ->.
    { unfold L', L, in_local. destruct (gc_arg c) as [a|]; [|reflexivity]. destruct (dec_named _ DA) as (x & -> & _). unfold args_ok. assert (lookup "in" (("out", match gc_res c with Some t0 => TGo t0 | None => TVoid end) :: ("in", TGo (GNamed x)) :: stub_locals t) = Some (TGo (GNamed x))) as -> by reflexivity.
      unfold assignable. rewrite same_named. reflexivity. }
    cbn [andb]. destruct (gc_res c) as [r|] eqn:R.
    - rewrite (has_go L' "out" r eq_refl), !andb_true_r. destruct (gdeclared G (Some r)) eqn:D; [|rewrite !andb_false_r; reflexivity].
      destruct (dec_named _ D) as (x & -> & M). fold G. rewrite (named_valid L x LR), M. unfold res_ok. assert (lookup "out" L' = Some (TGo (GNamed x))) as -> by reflexivity. unfold assignable. rewrite same_named. reflexivity.
    - rewrite (has_void L' "out" eq_refl). rewrite (clear_ok L "xdr" XL) by (rewrite ML; destruct (gc_arg c); reflexivity). reflexivity. }
  unfold d_body. destruct (gc_arg c) as [a|] eqn:A; [|cbn [app]; exact (T eq_refl)].
  cbn [app]. match type of T with _ -> tc_body _ _ _ ?l = _ => set (tl := l) in * end. clearbody tl. cbn [tc_body]. fold G.
  assert (mem "in" ("_" :: map fst (stub_locals t)) = false) as -> by reflexivity.
  match goal with |- context [used "in" ?l] => assert (used "in" l = true) as -> by reflexivity end.
  set (L1 := ("in", TGo a) :: stub_locals t). rewrite (has_go L1 "in" a eq_refl).
  assert (is_state L1 "args" = true) as -> by reflexivity. assert (is_error L1 "err" = true) as -> by reflexivity.
  rewrite (clear_ok L1 "nil" NL eq_refl). cbn [negb andb]. rewrite !andb_true_r. destruct (gdeclared G (Some a)) eqn:D; [|rewrite !andb_false_r; reflexivity].
  destruct (dec_named _ D) as (x & -> & M). rewrite (named_valid (stub_locals t) x), M; [|intros y I; apply RV; revert I; apply In_sub; reflexivity]. cbn [andb].
  exact (T eq_refl).
Qed.

Section Typed.
Hypothesis Hnd : NoDup (decl_names P).
Hypothesis Hspec : spec_ok G n ds = true.

Lemma nodups : NoDup (map c_name (g_consts G)) /\ NoDup (map if_name (gp_ifaces P)) /\ NoDup (map fst (gp_wraps P)) /\ NoDup (map rd_name (gp_regs P)).
Proof.
  pose proof Hnd as N. unfold decl_names in N.
  split; [apply nodup_app_l in N; unfold pkg_names in N; exact (nodup_app_r _ _ N)|]. apply nodup_app_r in N. split; [exact (nodup_app_l _ _ N)|]. apply nodup_app_r in N. split; [exact (nodup_app_l _ _ N)|exact (nodup_app_r _ _ N)].
Qed.
(** The constants of a version. *)
Lemma vconst p pv : In (defProg p) ds -> In pv (pd_vers p) ->
  In (mkC (cap (pd_name p)) (Some gU32) (pd_id p)) (g_consts G) /\ In (mkC (cap (pv_name pv)) (Some gU32) (pv_id pv)) (g_consts G) /\
  (forall c, In c (pv_calls pv) -> In (mkC (cap (pc_name c)) (Some gU32) (pc_id c)) (g_consts G)) /\ NoDup (map (fun c => cap (pc_name c)) (pv_calls pv)).
Proof.
  intros I J. destruct (pkg_inv fl ds G (proj1 prog_inv) clean_pkg) as (_ & _ & GC). pose proof (proj1 nodups) as N. rewrite GC in N |- *.
  apply in_split in I. destruct I as (l1 & l2 & E). apply in_split in J. destruct J as (v1 & v2 & EV). rewrite E, flat_map_app in N |- *. cbn [flat_map] in N |- *.
  assert (X : const_decl fl (defProg p) = mkC (cap (pd_name p)) (Some gU32) (pd_id p) :: flat_map (fun v => mkC (cap (pv_name v)) (Some gU32) (pv_id v) :: map (fun c => mkC (cap (pc_name c)) (Some gU32) (pc_id c)) (pv_calls v)) v1 ++
     (mkC (cap (pv_name pv)) (Some gU32) (pv_id pv) :: map (fun c => mkC (cap (pc_name c)) (Some gU32) (pc_id c)) (pv_calls pv)) ++ flat_map (fun v => mkC (cap (pv_name v)) (Some gU32) (pv_id v) :: map (fun c => mkC (cap (pc_name c)) (Some gU32) (pc_id c)) (pv_calls v)) v2).
  { cbn [const_decl]. rewrite EV, flat_map_app. reflexivity. }
  rewrite X in N |- *. repeat split.
  - apply in_or_app. right. left. reflexivity.
  - apply in_or_app. right. right. apply in_or_app. left. apply in_or_app. right. left. reflexivity.
  - intros c Ic. apply in_or_app. right. right. apply in_or_app. left. apply in_or_app. right. right. apply in_or_app. left. apply (in_map (fun c => mkC (cap (pc_name c)) (Some gU32) (pc_id c))), Ic.
  - rewrite map_app in N. apply nodup_app_r in N. rewrite map_app in N. apply nodup_app_l in N. cbn [map] in N. inversion N as [|? ? _ N']; subst. rewrite map_app in N'. apply nodup_app_r in N'. cbn [app map] in N'. inversion N' as [|? ? _ N'']; subst.
    rewrite map_app in N''. apply nodup_app_l in N''. rewrite map_map in N''. exact N''.
Qed.
(** A name declared as a constant of type uint32. *)
Definition u32_name (x : string) : Prop := exists s, In (mkC x (Some gU32) s) (g_consts G).
Lemma call_names cs l : omap g_call cs = Some l -> map gc_name l = map (fun c => cap (pc_name c)) cs.
Proof.
  revert l. induction cs as [|a cs IH]; intros r H; cbn [omap] in H; [injection H as <-; reflexivity|]. sinv H. sinv H. injection H as <-. cbn [map]. rewrite (IH _ eq_refl). f_equal.
  unfold g_call in E. sinv E. sinv E. injection E as <-. reflexivity.
Qed.
Lemma ver_names vs v : vers_of ds = Some vs -> In v vs ->
  u32_name (gv_prog v) /\ u32_name (gv_name v) /\ (forall c, In c (gv_calls v) -> u32_name (gc_name c)) /\ NoDup (map gc_name (gv_calls v)).
Proof.
  intros V I. destruct (vers_inv _ _ V _ I) as (p & pv & Ip & Iv & E). destruct (vconst _ _ Ip Iv) as (A & B & C & D). unfold g_ver in E. sinv E. injection E as <-. cbn [gv_prog gv_name gv_calls].
  pose proof (call_names _ _ E0) as Q. rewrite Q. split; [eexists; exact A|]. split; [eexists; exact B|]. split; [|exact D].
  intros c Ic. apply (in_map gc_name) in Ic. rewrite Q in Ic. apply in_map_iff in Ic. destruct Ic as (c' & <- & I'). eexists. exact (C _ I').
Qed.
Lemma u32_pkg x : u32_name x -> In x (pkg_names G).
Proof. intros (s & I). unfold pkg_names. apply in_or_app. right. apply (in_map c_name) in I. exact I. Qed.
Lemma u32_free x : u32_name x -> forall l, forallb (fun y => mem y reserved) l = true -> mem x l = false.
Proof. intros U l L. apply mem_false. intros I. apply (free x); [apply pkg_in, u32_pkg, U|right; exact (In_sub _ _ L _ I)]. Qed.
Lemma num_ok r x : rd_h r = "h" -> rd_w r = "w" -> u32_name x -> tc_num P n r x = true.
Proof.
  intros A B U. unfold tc_num. rewrite A, B, (u32_free x U) by reflexivity. cbn [negb andb]. unfold tc_ident. cbn [lookup].
  pose proof (u32_pkg x U) as M. apply GSimB.mem_In in M. fold G. rewrite M. destruct U as (s & I).
  pose proof (find_const_nodup _ _ (proj1 nodups) I) as F. cbn [c_name] in F. unfold const_ty. cbn [const_ty_n]. rewrite F. cbn [c_ty].
  pose proof Hspec as H. unfold spec_ok in H. apply andb_true_iff in H. destruct H as (H & _). do 3 (apply andb_true_iff in H; destruct H as (H & _)). apply andb_true_iff in H. destruct H as (_ & H). rewrite forallb_forall in H. specialize (H _ I).
  unfold tc_const in H. cbn [c_val c_ty c_name] in H. destruct (cval G x) as [z|]; [reflexivity|]. exfalso. destruct (tc G n [] (val_expr s)) as [[]|]; try discriminate. rewrite andb_false_r in H. discriminate.
Qed.
Lemma wrap_in vs v : gp_wraps P = map (fun v => (gv_pv v +++ "_handler_wrapper", gv_pv v +++ "_handler")) vs -> In v vs -> In (gv_pv v +++ "_handler_wrapper", gv_pv v +++ "_handler") (gp_wraps P).
Proof. intros -> I. exact (in_map (fun v => (gv_pv v +++ "_handler_wrapper", gv_pv v +++ "_handler")) _ _ I). Qed.
Lemma sig_of vs v k : vers_of ds = Some vs -> gp_ifaces P = map d_iface vs -> gp_wraps P = map (fun v => (gv_pv v +++ "_handler_wrapper", gv_pv v +++ "_handler")) vs ->
  In v vs -> In k (gv_calls v) -> signature P (gv_pv v +++ "_handler_wrapper") (gc_name k) = Some (gc_arg k, gc_res k).
Proof.
  intros V PI PW I K. destruct nodups as (_ & NI & NW & _). unfold signature.
  rewrite (find_by_key fst (gp_wraps P) (gv_pv v +++ "_handler_wrapper", gv_pv v +++ "_handler") _ NW) by (try reflexivity; exact (wrap_in _ _ PW I)).
  cbn [pbind snd]. rewrite (find_by_key if_name (gp_ifaces P) (d_iface v) _ NI) by (try reflexivity; rewrite PI; apply in_map, I). cbn [pbind d_iface if_meths].
  rewrite (find_by_key (fun s => fst (fst s)) (map (fun c => (gc_name c, gc_arg c, gc_res c)) (gv_calls v)) (gc_name k, gc_arg k, gc_res k)); [reflexivity| | |reflexivity].
  - rewrite map_map. cbn [fst]. apply (ver_names _ _ V I).
  - apply (in_map (fun c => (gc_name c, gc_arg c, gc_res c))), K.
Qed.
Lemma forallb_flat {A B} (f : A -> list B) (q : B -> bool) l : forallb q (flat_map f l) = forallb (fun a => forallb q (f a)) l.
Proof. induction l as [|a l IH]; [reflexivity|]. cbn [flat_map forallb]. rewrite forallb_app, IH. reflexivity. Qed.
Lemma forallb_eq {A} (p q : A -> bool) l : (forall a, In a l -> p a = q a) -> forallb p l = forallb q l.
Proof. induction l as [|a l IH]; intros H; [reflexivity|]. cbn [forallb]. rewrite (H a (or_introl eq_refl)), IH; [reflexivity|]. intros b I. apply H. right. exact I. Qed.
Lemma forallb_maps {A B} (f : A -> B) (q : B -> bool) l : forallb q (map f l) = forallb (fun a => q (f a)) l.
Proof. induction l as [|a l IH]; [reflexivity|]. cbn [map forallb]. rewrite IH. reflexivity. Qed.
Definition dec_call (c : gcall) : bool := gdeclared G (gc_arg c) && gdeclared G (gc_res c).
Definition some_call (v : gver) : bool := match gv_calls v with [] => false | _ => true end.
Lemma stubs_ok vs : vers_of ds = Some vs -> gp_ifaces P = map d_iface vs -> gp_wraps P = map (fun v => (gv_pv v +++ "_handler_wrapper", gv_pv v +++ "_handler")) vs ->
  gp_stubs P = flat_map (fun v => map (d_stub v) (gv_calls v)) vs -> forallb (tc_stub P n) (gp_stubs P) = forallb (fun v => forallb dec_call (gv_calls v)) vs.
Proof.
  intros V PI PW PS. rewrite PS, forallb_flat. apply forallb_eq. intros v I. rewrite forallb_maps. apply forallb_eq. intros c K.
  pose proof (wrap_in _ _ PW I) as W. apply (in_map fst) in W. cbn [fst] in W. apply GSimB.mem_In in W.
  destruct (ver_names _ _ V I) as (_ & _ & NC & _). unfold tc_stub, d_stub. cbn [sb_w sb_type sb_args sb_res sb_err sb_name sb_body]. rewrite W, (u32_free _ (NC _ K)) by reflexivity.
  assert (clear_name P [] "xdr" = true) as -> by (apply clear_ok; [apply GSimB.mem_In; reflexivity|reflexivity]).
  assert (clear_name P [] "error" = true) as -> by (apply clear_ok; [apply GSimB.mem_In; reflexivity|reflexivity]).
  match goal with |- context [nodupb ?l] => assert (nodupb l = true) as -> by reflexivity end. cbn [negb andb].
  exact (body_ok _ c (sig_of vs v c V PI PW I K)).
Qed.
Lemma ifaces_ok vs : vers_of ds = Some vs -> forallb (fun v => forallb dec_call (gv_calls v)) vs = true -> forallb (tc_iface P) (map d_iface vs) = true.
Proof.
  intros V H. rewrite forallb_maps. rewrite forallb_forall in *. intros v I. specialize (H _ I). destruct (ver_names _ _ V I) as (_ & _ & NC & ND).
  unfold tc_iface, d_iface. cbn [if_meths]. rewrite map_map. cbn [fst]. match goal with |- context [nodupb ?l] => assert (nodupb l = true) as -> by (apply nodupb_iff; exact ND) end. cbn [andb]. rewrite forallb_maps. rewrite forallb_forall in *. intros c K. specialize (H _ K). cbn [fst snd].
  assert (String.eqb (gc_name c) "_" = false) as ->. { pose proof (u32_free _ (NC _ K) ["_"] eq_refl) as Q. unfold mem in Q. cbn [existsb] in Q. rewrite orb_false_r in Q. exact Q. }
  unfold dec_call in H. apply andb_true_iff in H. destruct H as [A R].
  assert (O : forall o, gdeclared G o = true -> opt_valid P o = true).
  { intros [t|] D; [|reflexivity]. destruct (dec_named _ D) as (x & -> & M). cbn [opt_valid]. fold G. rewrite <- M. apply (named_valid []). intros y []. }
  rewrite (O _ A), (O _ R). reflexivity.
Qed.
Lemma wraps_ok vs : vers_of ds = Some vs -> gp_ifaces P = map d_iface vs -> gp_wraps P = map (fun v => (gv_pv v +++ "_handler_wrapper", gv_pv v +++ "_handler")) vs ->
  gp_stubs P = flat_map (fun v => map (d_stub v) (gv_calls v)) vs -> forallb (tc_wrap P) (gp_wraps P) = true.
Proof.
  intros V PI PW PS. apply forallb_forall. intros w Iw. pose proof Iw as I. rewrite PW in I. apply in_map_iff in I. destruct I as (v & <- & I). unfold tc_wrap. cbn [fst snd].
  assert (mem (gv_pv v +++ "_handler") (map if_name (gp_ifaces P)) = true) as -> by (apply GSimB.mem_In; rewrite PI, map_map; exact (in_map (fun v => gv_pv v +++ "_handler") _ _ I)).
  cbn [andb]. apply nodupb_iff. rewrite PS. destruct (ver_names _ _ V I) as (_ & _ & _ & ND).
  pose proof (proj1 (proj2 (proj2 nodups))) as NW. rewrite PW, map_map in NW. cbn [fst] in NW. clear - NW I ND.
  assert (FV : forall l, ~ In (gv_pv v +++ "_handler_wrapper") (map (fun v => gv_pv v +++ "_handler_wrapper") l) -> filter (fun s => String.eqb (sb_type s) (gv_pv v +++ "_handler_wrapper")) (flat_map (fun v => map (d_stub v) (gv_calls v)) l) = []).
  { induction l as [|u l IH]; intros N; [reflexivity|]. cbn [flat_map]. rewrite filter_app, IH by (intros Q; apply N; right; exact Q). rewrite app_nil_r. generalize (gv_calls u). induction l0 as [|c l0 IHc]; [reflexivity|]. cbn [map filter d_stub sb_type].
    destruct (String.eqb_spec (gv_pv u +++ "_handler_wrapper") (gv_pv v +++ "_handler_wrapper")) as [Q|_]; [|exact IHc]. exfalso. apply N. left. exact Q. }
  assert (FS : filter (fun s => String.eqb (sb_type s) (gv_pv v +++ "_handler_wrapper")) (map (d_stub v) (gv_calls v)) = map (d_stub v) (gv_calls v)).
  { generalize (gv_calls v). induction l as [|c l IH]; [reflexivity|]. cbn [map filter d_stub sb_type]. rewrite String.eqb_refl, IH. reflexivity. }
  apply in_split in I. destruct I as (l1 & l2 & ->). rewrite map_app in NW. cbn [map] in NW. rewrite flat_map_app, filter_app. cbn [flat_map]. rewrite filter_app, FS, !FV.
  - rewrite app_nil_r. cbn [app]. rewrite map_map. exact ND.
  - apply nodup_app_r in NW. inversion NW; assumption.
  - intros Q. apply NoDup_remove_2 in NW. apply NW, in_or_app. left. exact Q.
Qed.
Lemma regs_typed vs : vers_of ds = Some vs -> gp_ifaces P = map d_iface vs -> gp_wraps P = map (fun v => (gv_pv v +++ "_handler_wrapper", gv_pv v +++ "_handler")) vs ->
  gp_stubs P = flat_map (fun v => map (d_stub v) (gv_calls v)) vs -> forallb (tc_regs P n) (map d_regs vs) = forallb some_call vs.
Proof.
  intros V PI PW PS. rewrite forallb_maps. apply forallb_eq. intros v I. destruct (ver_names _ _ V I) as (NP & NV & NC & _).
  unfold tc_regs, d_regs. cbn [rd_iface rd_arg rd_h rd_w rd_wrap rd_ents].
  assert (mem (gv_pv v +++ "_handler") (map if_name (gp_ifaces P)) = true) as -> by (apply GSimB.mem_In; rewrite PI, map_map; exact (in_map (fun v => gv_pv v +++ "_handler") _ _ I)).
  rewrite (find_by_key fst (gp_wraps P) (gv_pv v +++ "_handler_wrapper", gv_pv v +++ "_handler") (gv_pv v +++ "_handler_wrapper") (proj1 (proj2 (proj2 nodups))) (wrap_in _ _ PW I) eq_refl). cbn [snd]. rewrite !String.eqb_refl.
  assert (mem "h" ["_"; "xdr"; gv_pv v +++ "_handler_wrapper"] = false) as ->.
  { apply mem_false. intros [Q|[Q|[Q|[]]]]; try discriminate. pose proof (wrap_in _ _ PW I) as W. apply (in_map fst) in W. cbn [fst] in W. rewrite Q in W.
    apply (free "h"); [unfold decl_names; apply in_or_app; right; apply in_or_app; right; apply in_or_app; left; exact W|right; apply GSimB.mem_In; reflexivity]. }
  change (mem "w" ["_"; "xdr"; "h"]) with false.
  assert (clear_name P [] "xdr" = true) as -> by (apply clear_ok; [apply GSimB.mem_In; reflexivity|reflexivity]). cbn [negb andb].
  assert (forallb (tc_ent P n (d_regs v)) (map (d_ent v) (gv_calls v)) = true) as Q.
  { rewrite forallb_maps. apply forallb_forall. intros c K. unfold tc_ent, d_ent. cbn [re_prog re_vers re_proc re_w re_meth]. rewrite !num_ok; auto. cbn [andb d_regs rd_w rd_wrap]. change (String.eqb "w" "w") with true. cbn [andb].
    apply existsb_exists. exists (d_stub v c). split; [rewrite PS; apply in_flat_map; exists v; split; [exact I|apply in_map, K]|]. cbn [d_stub sb_type sb_name]. rewrite !String.eqb_refl. reflexivity. }
  unfold d_regs in Q. rewrite Q, andb_true_r. unfold some_call. destruct (gv_calls v); reflexivity.
Qed.
End Typed.

Lemma methods_exist : forall l ms vs, all_decls (meth_decl fl) l = Some ms -> vers_of l = Some vs ->
  match ms, flat_map (fun v => map (d_stub v) (gv_calls v)) vs, map d_regs vs with [], [], [] => false | _, _, _ => true end = existsb has_method l.
Proof.
  induction l as [|d l IH]; intros ms vs A V; cbn [all_decls vers_of] in A, V; [injection A as <-; injection V as <-; reflexivity|].
  sinv A. sinv A. injection A as <-. sinv V. sinv V. injection V as <-. specialize (IH _ _ eq_refl eq_refl). cbn [existsb]. rewrite <- IH. clear IH.
  destruct d as [m v|[|t m]|m items|m items|m s c d|p]; cbn [meth_decl has_method] in *; repeat sinv E; injection E as <-; try (injection E1 as <-); try reflexivity.
  destruct (pd_vers p) as [|v vs] eqn:PV; unfold g_prog in E1; rewrite PV in E1; cbn [omap] in E1; [injection E1 as <-; reflexivity|]. sinv E1. sinv E1. injection E1 as <-. cbn [app map orb]. destruct l1; [|reflexivity]. destruct (flat_map _ _); reflexivity.
Qed.
Theorem check_prog_spec : check_prog P n = prog_ok P n ds.
Proof.
  unfold check_prog, prog_ok. fold G. destruct (nodupb (decl_names P)) eqn:D; [|reflexivity]. pose proof (proj1 (nodupb_iff _) D) as Hnd.
  assert (forallb (fun x => negb (mem x ["xdr"; "init"; "_"])) (decl_names P) = true) as ->.
  { apply forallb_forall. intros x I. apply negb_true_iff, mem_false. intros J. apply (free _ I). right. revert J. apply In_sub. reflexivity. }
  rewrite (check_spec fl ds G n (proj1 prog_inv) clean_pkg). destruct (spec_ok G n ds) eqn:S; [|reflexivity]. cbn [andb].
  destruct prog_inv as (PK & vs & V & PI & PW & PS & PR). rewrite (wraps_ok Hnd S vs V PI PW PS), (stubs_ok Hnd S vs V PI PW PS), PI, PR, (regs_typed Hnd S vs V PI PW PS).
  unfold import_used. fold G. rewrite PS, PR, (methods_exist ds _ vs (proj1 (proj2 (pkg_inv fl ds G PK clean_pkg))) V). rewrite <- (vers_spec G ds vs V). f_equal.
  assert (forallb (gver_ok G) vs = forallb some_call vs && forallb (fun v => forallb dec_call (gv_calls v)) vs) as ->.
  { clear. induction vs as [|v vs IH]; [reflexivity|]. cbn [forallb]. rewrite IH. unfold gver_ok, some_call, dec_call. btauto. }
  destruct (forallb (fun v => forallb dec_call (gv_calls v)) vs) eqn:C; [|rewrite !andb_false_r; reflexivity]. rewrite (ifaces_ok Hnd S vs V C), !andb_true_r. reflexivity.
Qed.
End Main.
