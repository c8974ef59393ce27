(** What the generated stubs and registration functions do when run (Go semantics of the
    declarations of GoRes.v), and their agreement with [stub] of Server.v.  The forms are those
    emitProg writes (out.go:380-443): interface 389-393, wrapper type 395-397, stubs 399-427,
    registration function 429-441; e.g. rfc1057/xdr.go:147-230.  Not modelled: pointers beyond a
    variable and its methods (the wrapper holds the object, [in] and [out] are not shared), values
    of the user's types with aliases, goroutines.

    The value passed to a registration function is an object of the user's whose methods are
    arbitrary: [obj m a w] is its method [m] called with [a] in world [w]. *)
From Verif Require Import GoLex XLex Gram GParse Emit GoAst GLexQ GoCst GoCstP GoText GoTop GoRes GoPkg GoWf.
From Verif Require Import Bytes XdrLib Types Interp Spec Meta Runs Codec Check RpcTypes Client Server ServSpec ServerQ Total GoSem GoSemP GElab GSimB GSimC GSimD.
Open Scope string_scope.
Open Scope Z_scope.
Open Scope list_scope.

(** ** Semantics *)
Section Run.
Context {W : Type}.
Variable P : gprog.
Definition object : Type := string -> option val -> W -> outcome (W * option val).
Variable obj : object.

(** A pointer to a variable, as an interface value: the name of its type ([None]: xdr.Void) and its contents. *)
Definition gres : Type := (option string * val)%type.
(** args, the variables with their types, err and the world; res is nil until the end. *)
Record sframe : Type := mkSf { sf_args : xst; sf_vars : list (string * (option gty * val)); sf_err : option xerr; sf_world : W }.
Fixpoint find_by {A} (key : A -> string) (x : string) (l : list A) : option A :=
  match l with [] => None | a :: l => if String.eqb x (key a) then Some a else find_by key x l end.
(** Identical types; only declared types and their absence occur. *)
Definition same_type (a b : option gty) : bool :=
  match a, b with None, None => true | Some (GNamed x), Some (GNamed y) => String.eqb x y | _, _ => false end.
(** The declared parameter and result of method [m] of field h of the wrapper type [t]. *)
Definition signature (t m : string) : option (option gty * option gty) :=
  do w <- find_by fst t (gp_wraps P) ;
  do i <- find_by if_name (snd w) (gp_ifaces P) ;
  do s <- find_by (fun s => fst (fst s)) m (if_meths i) ;
  Some (snd (fst s), snd s).
Definition of_outcome {A} (o : outcome A) : gor A := match o with Ret a => GRet a | Panic => GPanic | NoFuel => GOut end.

(** A type name is looked up among the local names first. *)
Definition hides (l : list string) (t : gty) : bool := match t with GNamed x => mem x l | _ => false end.

Section Body.
Variable sb : stubd.
Variable n : nat.
Fixpoint run_body (fr : sframe) (l : list pst) : gor (W * option gres * option xerr) :=
  let set x tv := mkSf (sf_args fr) ((x, tv) :: sf_vars fr) (sf_err fr) (sf_world fr) in
  let names := sb_w sb :: sb_args sb :: sb_res sb :: sb_err sb :: map fst (sf_vars fr) in
  match l with
  | [] => GStuck                                       (* missing return *)
  | PVar x None :: l => if mem x names || mem "xdr" names then GStuck else run_body (set x (None, VStruct [])) l
  | PVar x (Some t) :: l => if mem x names || hides names t then GStuck else let! z := some_or (gzero (gp_pkg P) n t) GOut in run_body (set x (Some t, z)) l
  | PXdr x a :: l =>
      if negb (String.eqb a (sb_args sb)) then GStuck
      else match lookup x (sf_vars fr) with
           | Some (Some (GNamed t), v) =>
               let! (s, v) := call (gp_pkg P) n t (sf_args fr) v in
               run_body (mkSf s (update x (Some (GNamed t), v) (sf_vars fr)) (sf_err fr) (sf_world fr)) l
           | _ => GStuck
           end
  | PErr e a :: l =>
      if String.eqb e (sb_err sb) && String.eqb a (sb_args sb)
      then run_body (mkSf (sf_args fr) (sf_vars fr) (Error (sf_args fr)) (sf_world fr)) l else GStuck
  | PGuard e :: l =>
      if negb (String.eqb e (sb_err sb)) then GStuck
      else match sf_err fr with Some e => GRet (sf_world fr, None, Some e) | None => run_body fr l end
  | PUser r w h m args :: l =>
      if negb (String.eqb w (sb_w sb) && String.eqb h "h") then GStuck
      else
        let! sg := some_or (signature (sb_type sb) m) GStuck in
        let! a := match args with
                  | [] => GRet (None, None)
                  | [x] => match lookup x (sf_vars fr) with Some (t, v) => GRet (t, Some v) | None => GStuck end
                  | _ => GStuck
                  end in
        if negb (same_type (fst a) (fst sg)) then GStuck
        else
          let! y := of_outcome (obj m (snd a) (sf_world fr)) in
          match r, snd y with
          | None, None => if same_type None (snd sg) then run_body (mkSf (sf_args fr) (sf_vars fr) (sf_err fr) (fst y)) l else GStuck
          | Some r, Some v =>
              match lookup r (sf_vars fr) with
              | Some (t, _) => if same_type t (snd sg) then run_body (mkSf (sf_args fr) (update r (t, v) (sf_vars fr)) (sf_err fr) (fst y)) l else GStuck
              | None => GStuck
              end
          | _, _ => GStuck
          end
  | PRet x :: _ =>
      match lookup x (sf_vars fr) with
      | Some (None, v) => GRet (sf_world fr, Some (None, v), None)
      | Some (Some (GNamed t), v) => match lookup t (g_meths (gp_pkg P)) with Some _ => GRet (sf_world fr, Some (Some t, v), None) | None => GStuck end
      | _ => GStuck
      end
  end.
End Body.
(** A call of the method [sb] on a wrapper of the user's object. *)
Definition run_stub (sb : stubd) (n : nat) (args : xst) (w : W) : gor (W * option gres * option xerr) :=
  run_body sb n (mkSf args [] None w) (sb_body sb).

(** The result as the server uses it: through its method Xdr, which does what the type says (C48). *)
Definition xv_of (E : env) (r : gres) : xdrable := match fst r with Some t => mkXv E (CIdent t) (snd r) | None => xv_void end.
Definition handler_of (E : env) (sb : stubd) : handler W := fun n args w =>
  match run_stub sb n args w with
  | GRet (w, r, e) => Ret (w, option_map (xv_of E) r, e)
  | GPanic | GStuck => Panic
  | GOut => NoFuel
  end.

(** A constant of type uint32. *)
Definition u32_const (x : string) : option Z := do z <- cval (gp_pkg P) x ; if (0 <=? z) && (z <=? MaxUint32) then Some z else None.
Definition find_stub (t m : string) : option stubd :=
  find (fun s => String.eqb (sb_type s) t && String.eqb (sb_name s) m) (gp_stubs P).
Definition run_ent (E : env) (r : regd) (e : regent) : option (registration W) :=
  if negb (String.eqb (re_w e) (rd_w r)) || existsb (fun x => mem x [rd_h r; rd_w r]) [re_prog e; re_vers e; re_proc e] then None
  else do a <- u32_const (re_prog e) ; do b <- u32_const (re_vers e) ; do c <- u32_const (re_proc e) ;
       do sb <- find_stub (rd_wrap r) (re_meth e) ; Some (mkReg a b c (Some (handler_of E sb))).
(** A call of the registration function [r] with the user's object. *)
Definition run_regs (E : env) (r : regd) : option (list (registration W)) :=
  do w <- find_by fst (rd_wrap r) (gp_wraps P) ;
  if String.eqb (rd_arg r) (rd_h r) && String.eqb (snd w) (rd_iface r) then omap (run_ent E r) (rd_ents r) else None.
End Run.
Arguments object W : clear implicits.

(** ** Names are found *)
Lemma find_by_in {A} (key : A -> string) l a : NoDup (map key l) -> In a l -> find_by key (key a) l = Some a.
Proof.
  induction l as [|b l IH]; intros N I; [destruct I|]. inversion N as [|? ? N1 N2]; subst. cbn [find_by]. destruct I as [->|I]; [rewrite String.eqb_refl; reflexivity|].
  destruct (String.eqb_spec (key a) (key b)) as [Q|Q]; [|exact (IH N2 I)]. exfalso. apply N1. rewrite <- Q. apply in_map, I.
Qed.
Lemma find_by_key {A} (key : A -> string) l a k : NoDup (map key l) -> In a l -> k = key a -> find_by key k l = Some a.
Proof. intros N I ->. apply find_by_in; assumption. Qed.
Lemma sapp_inj_l a b c : a +++ b = a +++ c -> b = c.
Proof. induction a as [|x a IH]; cbn; [exact (fun H => H)|]. intros H. injection H as H. exact (IH H). Qed.
Lemma sapp_inj_r : forall a b c, a +++ c = b +++ c -> a = b.
Proof.
  assert (L : forall a c, String.length (a +++ c) = (String.length a + String.length c)%nat) by (induction a as [|x a IH]; intros c; cbn; [reflexivity|]; rewrite IH; reflexivity).
  induction a as [|x a IH]; intros [|y b] c H; cbn in H.
  - reflexivity.
  - apply (f_equal String.length) in H. cbn in H. rewrite L in H. lia.
  - apply (f_equal String.length) in H. cbn in H. rewrite L in H. lia.
  - injection H as -> H. f_equal. exact (IH _ _ H).
Qed.

Section Prog.
Variable fl : flags.
Variable ds : list defn.
Variable E : env.
Variable P : gprog.
Hypothesis Hsup : supported_prog fl ds = Some (E, P).
Let G := gp_pkg P.
Let Hs : supported fl ds = Some (E, G).
Proof. destruct (supported_prog_inv _ _ _ _ Hsup) as (G' & S & _ & _ & _ & Q). subst G'. exact S. Qed.

Definition ver_of (p : progDef) (pv : progVer) (v : gver) : Prop := In (defProg p) ds /\ In pv (pd_vers p) /\ g_ver (pd_name p) pv = Some v.
Lemma omap_In {A B} (f : A -> option B) : forall l r, omap f l = Some r -> forall a, In a l -> exists b, f a = Some b /\ In b r.
Proof.
  induction l as [|x l IH]; intros r H a I; [destruct I|]. cbn [omap] in H. sinv H. sinv H. injection H as <-. destruct I as [<-|I]; [exists a0; split; [assumption|left; reflexivity]|].
  destruct (IH _ E1 a I) as (b & Hb & Ib). exists b. split; [exact Hb|right; exact Ib].
Qed.
Lemma vers_In : forall l vs, vers_of l = Some vs -> forall p pv, In (defProg p) l -> In pv (pd_vers p) -> exists v, g_ver (pd_name p) pv = Some v /\ In v vs.
Proof.
  induction l as [|d l IH]; intros vs H p pv I J; [destruct I|]. cbn [vers_of] in H. sinv H. sinv H. injection H as <-. destruct I as [->|I].
  - unfold g_prog in E0. destruct (omap_In _ _ _ E0 _ J) as (v & Hv & Iv). exists v. split; [exact Hv|apply in_or_app; left; exact Iv].
  - destruct (IH _ E1 _ _ I J) as (v & Hv & Iv). exists v. split; [exact Hv|apply in_or_app; right; exact Iv].
Qed.
Lemma prog_parts : exists vs, vers_of ds = Some vs /\ gp_ifaces P = map d_iface vs /\ gp_wraps P = map (fun v => (gv_pv v +++ "_handler_wrapper", gv_pv v +++ "_handler")) vs /\
  gp_stubs P = flat_map (fun v => map (d_stub v) (gv_calls v)) vs /\ gp_regs P = map d_regs vs.
Proof.
  destruct (supported_prog_inv _ _ _ _ Hsup) as (G' & _ & PO & _). unfold prog_of in PO. sinv PO. sinv PO. injection PO as <-. exists a0. cbn. repeat split; reflexivity || assumption.
Qed.
Lemma names_nodup : NoDup (map c_name (g_consts G)) /\ NoDup (map if_name (gp_ifaces P)) /\ NoDup (map fst (gp_wraps P)) /\ NoDup (map rd_name (gp_regs P)).
Proof.
  destruct (supported_prog_inv _ _ _ _ Hsup) as (G' & _ & _ & _ & N & _). apply nodupb_NoDup in N. unfold decl_names in N.
  split; [apply nodup_app_l in N; unfold pkg_names in N; exact (nodup_app_r _ _ N)|]. apply nodup_app_r in N. split; [exact (nodup_app_l _ _ N)|]. apply nodup_app_r in N. split; [exact (nodup_app_l _ _ N)|exact (nodup_app_r _ _ N)].
Qed.
(** The constants of a version. *)
Lemma ver_const p pv : In (defProg p) ds -> In pv (pd_vers p) ->
  In (mkC (cap (pd_name p)) (Some gU32) (pd_id p)) (g_consts G) /\ In (mkC (cap (pv_name pv)) (Some gU32) (pv_id pv)) (g_consts G) /\
  (forall c, In c (pv_calls pv) -> In (mkC (cap (pc_name c)) (Some gU32) (pc_id c)) (g_consts G)) /\ NoDup (map (fun c => cap (pc_name c)) (pv_calls pv)).
Proof.
  intros I J. pose proof (g_consts_eq fl ds E G Hs) as GC. pose proof (proj1 names_nodup) as N. rewrite GC in *.
  apply in_split in I. destruct I as (l1 & l2 & ->). apply in_split in J. destruct J as (v1 & v2 & EV). rewrite flat_map_app in *. cbn [flat_map] in *.
  assert (X : const_decl fl (defProg p) = mkC (cap (pd_name p)) (Some gU32) (pd_id p) :: flat_map (fun v => mkC (cap (pv_name v)) (Some gU32) (pv_id v) :: map (fun c => mkC (cap (pc_name c)) (Some gU32) (pc_id c)) (pv_calls v)) v1 ++
     (mkC (cap (pv_name pv)) (Some gU32) (pv_id pv) :: map (fun c => mkC (cap (pc_name c)) (Some gU32) (pc_id c)) (pv_calls pv)) ++ flat_map (fun v => mkC (cap (pv_name v)) (Some gU32) (pv_id v) :: map (fun c => mkC (cap (pc_name c)) (Some gU32) (pc_id c)) (pv_calls v)) v2).
  { cbn [const_decl]. rewrite EV, flat_map_app. reflexivity. }
  rewrite X in *. repeat split.
  - apply in_or_app. right. left. reflexivity.
  - apply in_or_app. right. right. apply in_or_app. left. apply in_or_app. right. left. reflexivity.
  - intros c Ic. apply in_or_app. right. right. apply in_or_app. left. apply in_or_app. right. right. apply in_or_app. left. apply (in_map (fun c => mkC (cap (pc_name c)) (Some gU32) (pc_id c))), Ic.
  - rewrite map_app in N. apply nodup_app_r in N. rewrite map_app in N. apply nodup_app_l in N. cbn [map] in N. inversion N as [|? ? _ N']; subst. rewrite map_app in N'. apply nodup_app_r in N'. cbn [app map] in N'. inversion N' as [|? ? _ N'']; subst.
    rewrite map_app in N''. apply nodup_app_l in N''. rewrite map_map in N''. exact N''.
Qed.
Lemma const_value n v z : In (mkC n (Some gU32) v) (g_consts G) -> is_int v = true -> num_val v = Some z -> cval G n = Some z.
Proof.
  intros I D V. pose proof (find_const_nodup (mkC n (Some gU32) v) _ (proj1 names_nodup) I) as F. cbn [c_name] in F. unfold cval. cbn [const_val]. rewrite F. cbn [c_val].
  assert (head_is is_digit v = true) as ->; [|exact V]. destruct v as [|c r]; [discriminate|]. cbn in *. apply andb_true_iff in D. apply D.
Qed.

(** ** Stubs *)
(** The type of an argument or result. *)
Definition op_ty (o : typespecOpt) : option cty := match o with Some (typeIdent n) => Some (CIdent (cap n)) | _ => None end.
Definition op_name (o : typespecOpt) : option string := match o with Some (typeIdent n) => Some (cap n) | _ => None end.
Lemma op_ty_name o : op_ty o = option_map CIdent (op_name o).
Proof. destruct o as [[]|]; reflexivity. Qed.
Lemma gopt_name o g : opt_named E o = true -> gopt o = Some g -> g = option_map GNamed (op_name o).
Proof. destruct o as [t|]; cbn; [|congruence]. destruct t; try discriminate. cbn. congruence. Qed.
Lemma named_calls p pv c : In (defProg p) ds -> In pv (pd_vers p) -> In c (pv_calls pv) -> opt_named E (pc_arg c) = true /\ opt_named E (pc_res c) = true.
Proof.
  intros I J K. destruct (supported_prog_inv _ _ _ _ Hsup) as (G' & _ & _ & PN & _). rewrite forallb_forall in PN. specialize (PN _ I). cbn [prog_named] in PN. rewrite forallb_forall in PN. specialize (PN _ J). rewrite forallb_forall in PN. specialize (PN _ K).
  unfold call_named in PN. apply andb_true_iff in PN. exact PN.
Qed.
Lemma zero_named n t : gzero G n (GNamed (cap t)) = zero n E (CIdent (cap t)).
Proof. exact (gzero_eq fl ds E G Hs n false (declTypeTypespec (typeIdent t)) _ _ eq_refl eq_refl eq_refl). Qed.
Lemma named_free n t z : gzero G n (GNamed t) = Some z -> mem t reserved = false.
Proof.
  destruct n as [|n]; [discriminate|]. cbn [gzero]. destruct (lookup t (g_types G)) as [g|] eqn:L; [|discriminate]. intros _. destruct (supported_inv _ _ _ _ Hs) as (_ & _ & _ & _ & R). apply R. unfold pkg_names. apply in_or_app. left.
  clear -L. induction (g_types G) as [|[y h] l IH]; cbn in *; [discriminate|]. destruct (String.eqb_spec t y) as [->|]; [left; reflexivity|right; auto].
Qed.
Section Stub.
Context {W : Type}.
Variable obj : object W.
Variables (p : progDef) (pv : progVer) (v : gver) (c : progCall) (k : gcall).
Hypothesis Ip : In (defProg p) ds.
Hypothesis Iv : In pv (pd_vers p).
Hypothesis Ic : In c (pv_calls pv).
Hypothesis Hv : g_ver (pd_name p) pv = Some v.
Hypothesis Hc : g_call c = Some k.

Lemma v_parts : omap g_call (pv_calls pv) = Some (gv_calls v) /\ gv_prog v = cap (pd_name p) /\ gv_name v = cap (pv_name pv).
Proof. pose proof Hv as H. unfold g_ver in H. sinv H. injection H as <-. cbn. auto. Qed.
Lemma k_parts : gc_name k = cap (pc_name c) /\ gc_arg k = option_map GNamed (op_name (pc_arg c)) /\ gc_res k = option_map GNamed (op_name (pc_res c)).
Proof.
  pose proof Hc as H. unfold g_call in H. sinv H. sinv H. injection H as <-. cbn. destruct (named_calls _ _ _ Ip Iv Ic) as [A R]. split; [reflexivity|]. split; eapply gopt_name; eassumption.
Qed.
Lemma k_in : In k (gv_calls v).
Proof. destruct v_parts as (H & _). destruct (omap_In _ _ _ H _ Ic) as (b & Hb & Ib). assert (b = k) as -> by congruence. exact Ib. Qed.
Lemma calls_names : map gc_name (gv_calls v) = map (fun c => cap (pc_name c)) (pv_calls pv).
Proof.
  destruct v_parts as (H & _). revert H. clear Ic. generalize (gv_calls v). induction (pv_calls pv) as [|a l IH]; intros r H; cbn [omap] in H; [injection H as <-; reflexivity|]. sinv H. sinv H. injection H as <-. cbn [map]. rewrite (IH _ E1). f_equal.
  unfold g_call in E0. sinv E0. sinv E0. injection E0 as <-. reflexivity.
Qed.
Lemma names_distinct : NoDup (map gc_name (gv_calls v)).
Proof. rewrite calls_names. apply (ver_const p pv Ip Iv). Qed.
Lemma v_in vs : vers_of ds = Some vs -> In v vs.
Proof. intros H. destruct (vers_In _ _ H _ _ Ip Iv) as (v' & Hv' & I). assert (v' = v) as -> by congruence. exact I. Qed.
Lemma sig_found : signature P (gv_pv v +++ "_handler_wrapper") (gc_name k) = Some (gc_arg k, gc_res k).
Proof.
  destruct prog_parts as (vs & Hvs & PI & PW & _). pose proof (v_in vs Hvs) as I. destruct names_nodup as (_ & NI & NW & _). unfold signature.
  rewrite (find_by_key fst (gp_wraps P) (gv_pv v +++ "_handler_wrapper", gv_pv v +++ "_handler") _ NW) by (try reflexivity; rewrite PW; apply (in_map (fun v => (gv_pv v +++ "_handler_wrapper", gv_pv v +++ "_handler"))), I).
  cbn [pbind snd]. rewrite (find_by_key if_name (gp_ifaces P) (d_iface v) _ NI) by (try reflexivity; rewrite PI; apply in_map, I). cbn [pbind d_iface if_meths].
  rewrite (find_by_key (fun s => fst (fst s)) (map (fun c => (gc_name c, gc_arg c, gc_res c)) (gv_calls v)) (gc_name k, gc_arg k, gc_res k)); [reflexivity| | |reflexivity].
  - rewrite map_map. cbn [fst]. exact names_distinct.
  - apply (in_map (fun c => (gc_name c, gc_arg c, gc_res c))), k_in.
Qed.
Lemma stub_found : find_stub P (gv_pv v +++ "_handler_wrapper") (gc_name k) = Some (d_stub v k).
Proof.
  destruct prog_parts as (vs & Hvs & _ & PW & PS & _). pose proof (v_in vs Hvs) as I. destruct names_nodup as (_ & _ & NW & _). rewrite PW, map_map in NW. cbn [fst] in NW. unfold find_stub. rewrite PS. clear PS PW Hvs.
  assert (NV : forall u, In u vs -> gv_pv u +++ "_handler_wrapper" = gv_pv v +++ "_handler_wrapper" -> u = v).
  { intros u Iu Q. clear -NW I Iu Q. induction vs as [|a vs IH]; [destruct I|]. inversion NW as [|? ? N1 N2]; subst. destruct I as [->|I], Iu as [->|Iu]; [reflexivity| | |exact (IH I N2 Iu)].
    - destruct N1. rewrite <- Q. apply (in_map (fun v => gv_pv v +++ "_handler_wrapper")), Iu.
    - destruct N1. rewrite Q. apply (in_map (fun v => gv_pv v +++ "_handler_wrapper")), I. }
  pose proof names_distinct as ND. pose proof k_in as KI.
  assert (F : find (fun s => String.eqb (sb_type s) (gv_pv v +++ "_handler_wrapper") && String.eqb (sb_name s) (gc_name k)) (map (d_stub v) (gv_calls v)) = Some (d_stub v k)).
  { revert ND KI. generalize (gv_calls v). induction l as [|a l IH]; intros ND KI; [destruct KI|]. cbn [map find d_stub sb_type sb_name]. rewrite String.eqb_refl. cbn [andb]. inversion ND as [|? ? N1 N2]; subst. destruct (String.eqb_spec (gc_name a) (gc_name k)) as [Q|Q].
    - destruct KI as [->|KI]; [reflexivity|]. destruct N1. rewrite Q. apply in_map, KI.
    - destruct KI as [->|KI]; [congruence|]. exact (IH N2 KI). }
  revert NV I. clear NW. induction vs as [|a vs IH]; intros NV I; [destruct I|]. cbn [flat_map]. 
  assert (FA : forall A (f : A -> bool) l l', find f (l ++ l') = match find f l with Some x => Some x | None => find f l' end) by (intros A f l l'; induction l as [|x l IHl]; [reflexivity|]; cbn; destruct (f x); [reflexivity|exact IHl]).
  rewrite FA. destruct (String.eqb_spec (gv_pv a +++ "_handler_wrapper") (gv_pv v +++ "_handler_wrapper")) as [Q|Q].
  - rewrite (NV a (or_introl eq_refl) Q), F. reflexivity.
  - assert (find (fun s => String.eqb (sb_type s) (gv_pv v +++ "_handler_wrapper") && String.eqb (sb_name s) (gc_name k)) (map (d_stub a) (gv_calls a)) = None) as ->.
    { clear IH. induction (gv_calls a) as [|x l IHl]; [reflexivity|]. cbn [map find d_stub sb_type]. destruct (String.eqb_spec (gv_pv a +++ "_handler_wrapper") (gv_pv v +++ "_handler_wrapper")); [contradiction|]. exact IHl. }
    apply IH; [intros u Iu; apply NV; right; exact Iu|]. destruct I as [->|I]; [congruence|exact I].
Qed.

(** The user's method and the end of the stub. *)
Definition tail_of (x : option val) (w : W) : gor (W * option gres * option xerr) :=
  let! y := of_outcome (obj (gc_name k) x w) in
  match op_name (pc_res c), snd y with
  | None, None => GRet (fst y, Some (None, VStruct []), None)
  | Some t, Some u => GRet (fst y, Some (Some t, u), None)
  | _, _ => GStuck
  end.
Definition has_zero (n : nat) (o : option string) : Prop := match o with Some t => gzero G n (GNamed t) <> None | None => True end.
Lemma free_names t n z : gzero G n (GNamed t) = Some z -> forall l, (forall x, In x l -> In x reserved) -> hides l (GNamed t) = false.
Proof.
  intros H l L. cbn [hides]. destruct (mem t l) eqn:M; [|reflexivity]. apply GSimB.mem_In, L, GSimB.mem_In in M. rewrite (named_free _ _ _ H) in M. discriminate.
Qed.
Lemma run_stub_eq n args w : has_zero n (op_name (pc_arg c)) -> has_zero n (op_name (pc_res c)) ->
  (forall t, op_name (pc_res c) = Some t -> lookup t (g_meths G) <> None) ->
  run_stub P obj (d_stub v k) n args w =
  match op_name (pc_arg c) with
  | None => tail_of None w
  | Some t => let! z := some_or (gzero G n (GNamed t)) GOut in let! (s, x) := call G n t args z in
              match Error s with Some e => GRet (w, None, Some e) | None => tail_of (Some x) w end
  end.
Proof.
  intros ZA ZR ML. destruct k_parts as (_ & KA & KR). pose proof sig_found as SF. unfold run_stub, tail_of, d_stub, d_body. cbn [sb_body]. rewrite KA, KR in *. 
  assert (RV : forall x, In x ["w"; "args"; "res"; "err"; "in"] -> In x reserved) by (intros x Hx; apply GSimB.mem_In; cbn in Hx; repeat (destruct Hx as [<-|Hx]; [reflexivity|]); destruct Hx).
  assert (RV' : forall x, In x ["w"; "args"; "res"; "err"] -> In x reserved) by (intros x Hx; apply RV; cbn in *; tauto).
  destruct (op_name (pc_arg c)) as [a|]; destruct (op_name (pc_res c)) as [r|]; cbn [option_map app run_body sb_w sb_args sb_res sb_err sb_type sf_args sf_vars sf_err sf_world map fst snd has_zero] in *; fold G.
  all: repeat match goal with H : gzero ?g ?m (GNamed ?t) <> None |- _ => let z := fresh "z" in let Z := fresh "Z" in destruct (gzero g m (GNamed t)) as [z|] eqn:Z; [clear H|congruence] end.
  all: repeat match goal with
       | Z : gzero _ _ (GNamed ?t) = Some _, L : forall x, In x ?l -> In x reserved |- context [hides ?l (GNamed ?t)] => rewrite (free_names _ _ _ Z l L)
       | |- context [call ?g ?m ?t ?s ?z] => destruct (call g m t s z) as [[? ?]| | |]
       | |- context [Error ?s] => destruct (Error s)
       | SF : signature _ _ _ = _ |- context [signature ?p ?t ?m] => rewrite SF
       | |- context [lookup ?t (g_meths ?g)] => destruct (lookup t (g_meths g)) eqn:?; [|exfalso; eapply ML; [reflexivity|eassumption]]
       | |- context [String.eqb ?x ?x] => rewrite (String.eqb_refl x)
       | |- _ => progress cbn [mem existsb orb negb some_or gbind lookup update String.eqb Ascii.eqb Bool.eqb andb map fst snd same_type of_outcome sf_args sf_vars sf_err sf_world]
       | |- context [of_outcome (obj ?m ?x ?w)] => destruct (obj m x w) as [[? [?|]]| |]
       end; try reflexivity.
Qed.

(** ** The stub as a handler *)
Hypothesis Hu : user_ok E (op_ty (pc_arg c)) (op_ty (pc_res c)) (obj (cap (pc_name c))).
Lemma op_total o t : opt_named E o = true -> op_name o = Some t -> (forall u, op_ty o = Some u -> exists D, good D E u) ->
  exists D z, zero D E (CIdent t) = Some z /\ forall s, exists s' x M, (forall n, (M <= n)%nat -> xdr n E (CIdent t) s z = Ret (s', x)) /\ (forall n, (M <= n)%nat -> call G n t s z = GRet (s', x)).
Proof.
  intros N O U. rewrite op_ty_name, O in U. destruct (U _ eq_refl) as [D Hg]. destruct (zero D E (CIdent t)) as [z|] eqn:Z; [|destruct Hg as (_ & _ & Hz); congruence].
  exists D, z. split; [exact Z|]. intros s. destruct (gen_total fl ds E G D Hs t s z Hg) as (s' & x & [k1 R] & M & C).
  - apply fresh_ty. exists D. exact Z.
  - exists s', x, (Nat.max k1 M). split; [intros n L; exact (xdr_mono k1 n _ _ _ _ _ ltac:(lia) R)|intros n L; apply C; lia].
Qed.
Lemma op_gzero o t D z n : op_name o = Some t -> zero D E (CIdent t) = Some z -> (D <= n)%nat -> gzero G n (GNamed t) = Some z.
Proof.
  intros O Z L. destruct o as [u|]; [|discriminate]. destruct u; try discriminate. cbn in O. injection O as <-. rewrite zero_named. exact (zero_mono E D n _ _ L Z).
Qed.
Lemma tail_eq x w : match tail_of x w with
  | GRet (w, r, e) => Ret (w, option_map (xv_of E) r, e) | GPanic | GStuck => Panic | GOut => NoFuel end =
  ('r <- obj (cap (pc_name c)) x w ;; let '(w', y) := r in
   match op_ty (pc_res c), y with
   | None, _ => Ret (w', Some xv_void, None)
   | Some t, Some y => Ret (w', Some (mkXv E t y), None)
   | Some _, None => Panic
   end).
Proof.
  unfold tail_of. rewrite (proj1 k_parts). destruct (obj (cap (pc_name c)) x w) as [[w' y]| |] eqn:O; [|reflexivity|reflexivity]. cbn [of_outcome gbind obind fst snd].
  pose proof (proj2 (proj2 Hu) _ _ _ _ O) as T. rewrite op_ty_name in *. destruct (op_name (pc_res c)) as [t|]; cbn [option_map] in *.
  - destruct T as (u & -> & _). reflexivity.
  - subst y. reflexivity.
Qed.
Lemma handler_eq s w : exists M, forall n, (M <= n)%nat ->
  handler_of P obj E (d_stub v k) n s w = stub E (op_ty (pc_arg c)) (op_ty (pc_res c)) (obj (cap (pc_name c))) n s w.
Proof.
  destruct (named_calls _ _ _ Ip Iv Ic) as [NA NR]. pose proof Hu as (HA & HR & _).
  assert (R : exists M, forall n, (M <= n)%nat -> has_zero n (op_name (pc_res c)) /\ forall t, op_name (pc_res c) = Some t -> lookup t (g_meths G) <> None).
  { destruct (op_name (pc_res c)) as [t|] eqn:O; [|exists 0%nat; intros n _; split; [exact I|discriminate]]. destruct (op_total _ t NR O HR) as (D & z & Z & T). exists D. intros n L. split.
    - cbn [has_zero]. rewrite (op_gzero _ _ _ _ n O Z L). discriminate.
    - intros t' Q. injection Q as <-. destruct (T s) as (s' & x & M & _ & C). specialize (C M (le_n _)). unfold call in C. destruct (lookup t (g_meths G)); [discriminate|discriminate C]. }
  destruct R as [MR R]. destruct (op_name (pc_arg c)) as [t|] eqn:O.
  - destruct (op_total _ t NA O HA) as (D & z & Z & T). destruct (T s) as (s' & x & M & X & C). exists (Nat.max MR (Nat.max D M)). intros n L. unfold handler_of.
    rewrite run_stub_eq; [|rewrite O; cbn [has_zero]; rewrite (op_gzero _ _ _ _ n O Z ltac:(lia)); discriminate|apply R; lia|apply (R n); lia].
    rewrite O, (op_gzero _ _ _ _ n O Z ltac:(lia)). cbn [some_or gbind]. rewrite (C n ltac:(lia)). cbn [gbind]. unfold stub. rewrite (op_ty_name (pc_arg c)), O. cbn [option_map].
    rewrite (zero_mono E D n _ _ ltac:(lia) Z), (X n ltac:(lia)). cbn [obind]. destruct (Error s') as [e|]; [reflexivity|]. apply tail_eq.
  - exists MR. intros n L. unfold handler_of. rewrite run_stub_eq; [|rewrite O; exact I|apply R; lia|apply (R n); lia]. rewrite O. unfold stub. rewrite (op_ty_name (pc_arg c)), O. cbn [option_map obind]. apply tail_eq.
Qed.
End Stub.
End Prog.

(** ** Fuel *)
Lemma run_body_ext {W} P (obj : object W) sb n m : (n <= m)%nat -> forall l fr, ext (run_body P obj sb n fr l) (run_body P obj sb m fr l).
Proof.
  intros L. assert (C : forall t s v, ext (call (gp_pkg P) n t s v) (call (gp_pkg P) m t s v)).
  { intros t s v. destruct (call (gp_pkg P) n t s v) eqn:Q; [| | |left; reflexivity]; right; rewrite <- Q; eapply call_mono; eauto; congruence. }
  induction l as [|st l IH]; intros fr; [apply ext_refl|]. destruct st as [x [t|]|x a|e a|e|r w h mm args|x]; cbn [run_body].
  all: repeat match goal with
       | |- ext (if ?b then _ else _) (if ?b then _ else _) => destruct b
       | |- ext (match ?b with _ => _ end) (match ?b with _ => _ end) => destruct b
       | |- ext (gbind _ _) (gbind _ _) => apply ext_bind; [|intros ?]
       | |- ext (some_or (gzero _ _ _) _) _ => apply zero_ext; exact L
       | |- ext (call _ _ _ _ _) _ => apply C
       | |- ext (run_body _ _ _ _ _ _) _ => apply IH
       | |- ext ?a ?a => apply ext_refl
       end.
Qed.
Lemma handler_mono {W} P (obj : object W) E sb n m s w r : (n <= m)%nat -> handler_of P obj E sb n s w = Ret r -> handler_of P obj E sb m s w = Ret r.
Proof.
  intros L H. unfold handler_of in *. destruct (run_body_ext P obj sb n m L (sb_body sb) (mkSf s [] None w)) as [X|X]; unfold run_stub in *; [rewrite X in H; discriminate|rewrite X; exact H].
Qed.
Section Agree.
Context {W : Type}.
Variables (P : gprog) (obj : object W) (E : env) (sb : stubd) (ta tr : option cty) (user : option val -> W -> outcome (W * option val)).
Hypothesis Hu : user_ok E ta tr user.
Hypothesis Heq : forall s w, exists M, forall n, (M <= n)%nat -> handler_of P obj E sb n s w = stub E ta tr user n s w.
Lemma handler_agrees : agrees (handler_of P obj E sb) (stub E ta tr user).
Proof.
  intros s w r. destruct (Heq s w) as [M H]. split; intros [n R]; exists (Nat.max n M).
  - rewrite <- (H _ (Nat.le_max_r _ _)). eapply handler_mono; [|exact R]. lia.
  - rewrite (H _ (Nat.le_max_r _ _)). destruct Hu as (HA & _). eapply stub_mono; [exact HA| |exact R]. lia.
Qed.
Lemma handler_is_ok : handler_ok (handler_of P obj E sb).
Proof.
  destruct Hu as (H1 & H2 & H3). destruct (stub_ok E ta tr user H1 H2 H3) as [_ R]. split; [intros; eapply handler_mono; eassumption|].
  intros s w w' o e H. apply handler_agrees in H. exact (R _ _ _ _ _ H).
Qed.
End Agree.

(** ** Registrations *)
(** A literal that is a value of type uint32; other numbers do not compile. *)
Definition u32_lit (s : string) (z : Z) : Prop := num_val s = Some z /\ 0 <= z <= MaxUint32.
(** The entry for procedure [c] of a version with numbers [a] and [b]. *)
Definition entry_ok {W} (E : env) (obj : object W) (a b : Z) (c : progCall) (r : registration W) : Prop :=
  rg_prog r = a /\ rg_vers r = b /\ u32_lit (pc_id c) (rg_proc r) /\
  exists h, rg_handler r = Some h /\
    (user_ok E (op_ty (pc_arg c)) (op_ty (pc_res c)) (obj (cap (pc_name c))) ->
     agrees h (stub E (op_ty (pc_arg c)) (op_ty (pc_res c)) (obj (cap (pc_name c)))) /\ handler_ok h).
Lemma omap_Forall2 {A B} (f : A -> option B) (R : A -> B -> Prop) : forall l, (forall a, In a l -> exists b, f a = Some b /\ R a b) -> exists r, omap f l = Some r /\ Forall2 R l r.
Proof.
  induction l as [|a l IH]; intros H; [exists []; split; [reflexivity|constructor]|]. destruct (H a (or_introl eq_refl)) as (b & Hb & R1). destruct IH as (r & Hr & R2); [intros x I; apply H; right; exact I|].
  exists (b :: r). cbn [omap]. rewrite Hb, Hr. split; [reflexivity|constructor; assumption].
Qed.
Lemma omap_F2 {A B} (f : A -> option B) : forall l r, omap f l = Some r -> Forall2 (fun a b => f a = Some b) l r.
Proof. induction l as [|a l IH]; intros r H; cbn [omap] in H; [injection H as <-; constructor|]. sinv H. sinv H. injection H as <-. constructor; auto. Qed.
Lemma F2_in {A B} (R : A -> B -> Prop) l r : Forall2 R l r -> forall b, In b r -> exists a, In a l /\ R a b.
Proof. induction 1 as [|a b l r H _ IH]; intros x I; [destruct I|]. destruct I as [->|I]; [exists a; split; [left; reflexivity|exact H]|]. destruct (IH x I) as (y & Iy & Hy). exists y. split; [right; exact Iy|exact Hy]. Qed.
Lemma F2_comp {A B C} (R : A -> B -> Prop) (S : B -> C -> Prop) (T : A -> C -> Prop) l m r : (forall a b c, In a l -> R a b -> S b c -> T a c) -> Forall2 R l m -> Forall2 S m r -> Forall2 T l r.
Proof.
  intros H F. revert r H. induction F as [|a b l m HR F IH]; intros r H G; inversion G; subst; [constructor|]. constructor; [eapply H; [left; reflexivity|eassumption|eassumption]|]. apply IH; [|assumption]. intros x1 y1 z1 I1. apply H. right. exact I1.
Qed.

Section Regs.
Variables (fl : flags) (src : string) (ds : list defn) (E : env) (P : gprog).
Hypothesis Hf : front src = Some ds.
Hypothesis Hsup : supported_prog fl ds = Some (E, P).
Variables (p : progDef) (pv : progVer).
Hypothesis Ip : In (defProg p) ds.
Hypothesis Iv : In pv (pd_vers p).
Let G := gp_pkg P.
Lemma lits : is_int (pd_id p) = true /\ is_int (pv_id pv) = true /\ forall c, In c (pv_calls pv) -> is_int (pc_id c) = true.
Proof.
  pose proof (front_wk _ _ Hf) as W. rewrite forallb_forall in W. specialize (W _ Ip). cbn [wk_defn] in W. apply andb_true_iff in W. destruct W as [W W3]. apply andb_true_iff in W. destruct W as [_ W]. split; [exact W|].
  rewrite forallb_forall in W3. specialize (W3 _ Iv). unfold wk_ver in W3. apply andb_true_iff in W3. destruct W3 as [W3 W4]. apply andb_true_iff in W3. destruct W3 as [_ W3]. split; [exact W3|]. intros c I. rewrite forallb_forall in W4. specialize (W4 _ I). unfold wk_call in W4.
  apply andb_true_iff in W4. destruct W4 as [W4 _]. apply andb_true_iff in W4. destruct W4 as [W4 _]. apply andb_true_iff in W4. apply W4.
Qed.
Lemma u32_ok n v z : In (mkC n (Some gU32) v) (g_consts G) -> is_int v = true -> u32_lit v z -> u32_const P n = Some z.
Proof.
  intros I D [V R]. unfold u32_const. rewrite (const_value fl ds E P Hsup _ _ _ I D V). cbn [pbind]. destruct (0 <=? z) eqn:A; [|apply Z.leb_gt in A; lia]. destruct (z <=? MaxUint32) eqn:B; [reflexivity|apply Z.leb_gt in B; lia].
Qed.
Lemma const_free n v : In (mkC n (Some gU32) v) (g_consts G) -> mem n ["h"; "w"] = false.
Proof.
  intros I. destruct (supported_prog_inv _ _ _ _ Hsup) as (G' & S & _ & _ & _ & Q). destruct (supported_inv _ _ _ _ S) as (_ & _ & _ & _ & R).
  assert (M : mem n reserved = false). { apply R. rewrite <- Q. unfold pkg_names. apply in_or_app. right. apply (in_map c_name) in I. exact I. }
  destruct (mem n ["h"; "w"]) eqn:H; [|reflexivity]. apply GSimB.mem_In in H. exfalso. cbn [In] in H. destruct H as [<-|[<-|[]]]; discriminate M.
Qed.
Lemma regs_run : exists r, In r (gp_regs P) /\ rd_name r = cap (pd_name p) +++ "_" +++ cap (pv_name pv) +++ "_regs" /\
  forall W (obj : object W) a b, u32_lit (pd_id p) a -> u32_lit (pv_id pv) b -> (forall c, In c (pv_calls pv) -> exists z, u32_lit (pc_id c) z) ->
  exists regs, run_regs P obj E r = Some regs /\ Forall2 (entry_ok E obj a b) (pv_calls pv) regs.
Proof.
  destruct (prog_parts fl ds E P Hsup) as (vs & Hvs & _ & PW & _ & PR). destruct (vers_In _ _ Hvs p pv Ip Iv) as (v & Hv & I). destruct (v_parts p pv v Hv) as (VC & VP & VN).
  exists (d_regs v). split; [rewrite PR; apply in_map, I|]. split; [unfold d_regs, gv_pv; cbn [rd_name]; rewrite VP, VN, !GLexP.sapp_assoc; reflexivity|]. intros W obj a b A B Cz.
  destruct (ver_const fl ds E P Hsup p pv Ip Iv) as (CP & CV & CC & _). destruct lits as (L1 & L2 & L3). destruct (names_nodup fl ds E P Hsup) as (_ & _ & NW & _).
  unfold run_regs. cbn [d_regs rd_wrap rd_arg rd_h rd_iface rd_ents].
  rewrite (find_by_key fst (gp_wraps P) (gv_pv v +++ "_handler_wrapper", gv_pv v +++ "_handler") _ NW) by (try reflexivity; rewrite PW; apply (in_map (fun v => (gv_pv v +++ "_handler_wrapper", gv_pv v +++ "_handler"))), I).
  cbn [pbind snd]. rewrite !String.eqb_refl. cbn [andb].
  assert (K : forall k, In k (gv_calls v) -> forall c, In c (pv_calls pv) -> g_call c = Some k -> forall z, u32_lit (pc_id c) z ->
    run_ent P obj E (d_regs v) (d_ent v k) = Some (mkReg a b z (Some (handler_of P obj E (d_stub v k))))).
  { intros k Ik c Ic Hc z Hz. unfold run_ent. cbn [d_ent d_regs re_w rd_w rd_h re_prog re_vers re_proc re_meth rd_wrap]. rewrite String.eqb_refl. cbn [negb orb existsb].
    destruct (k_parts fl ds E P Hsup p pv c k Ip Iv Ic Hc) as (KN & _). rewrite VP, VN, KN, (const_free _ _ CP), (const_free _ _ CV), (const_free _ _ (CC _ Ic)). cbn [orb].
    rewrite (u32_ok _ _ _ CP L1 A), (u32_ok _ _ _ CV L2 B), (u32_ok _ _ _ (CC _ Ic) (L3 _ Ic) Hz). cbn [pbind]. rewrite <- KN, (stub_found fl ds E P Hsup p pv v c k Ip Iv Ic Hv Hc). reflexivity. }
  apply omap_F2 in VC.
  destruct (omap_Forall2 (run_ent P obj E (d_regs v)) (fun e r => exists c k, In c (pv_calls pv) /\ g_call c = Some k /\ e = d_ent v k /\ exists z, u32_lit (pc_id c) z /\ r = mkReg a b z (Some (handler_of P obj E (d_stub v k)))) (map (d_ent v) (gv_calls v))) as (regs & R1 & R2).
  { intros e Ie. apply in_map_iff in Ie. destruct Ie as (k & <- & Ik). destruct (F2_in _ _ _ VC k Ik) as (c & Ic & Hc). destruct (Cz c Ic) as (z & Hz). eexists. split; [exact (K k Ik c Ic Hc z Hz)|]. exists c, k. repeat split; try assumption. exists z. split; [exact Hz|reflexivity]. }
  exists regs. split; [exact R1|].
  assert (R3 : Forall2 (fun k r => run_ent P obj E (d_regs v) (d_ent v k) = Some r) (gv_calls v) regs).
  { clear -R1. revert regs R1. induction (gv_calls v) as [|k l IH]; intros regs R1; cbn [map omap] in R1; [injection R1 as <-; constructor|]. sinv R1. sinv R1. injection R1 as <-. constructor; auto. }
  eapply F2_comp; [|exact VC|exact R3]. intros c k r Ic Hc Hr. destruct (Cz c Ic) as (z & Hz).
  cbv beta in Hr, Hc. rewrite (K k) with (c := c) (z := z) in Hr by (try assumption; eapply k_in; eassumption). injection Hr as <-. unfold entry_ok. cbn [rg_prog rg_vers rg_proc rg_handler]. repeat split; try apply Hz.
  exists (handler_of P obj E (d_stub v k)). split; [reflexivity|]. intros Hu. pose proof (handler_eq fl ds E P Hsup obj p pv v c k Ip Iv Ic Hv Hc Hu) as Heq.
  split; [exact (handler_agrees _ _ _ _ _ _ _ Hu Heq)|exact (handler_is_ok _ _ _ _ _ _ _ Hu Heq)].
Qed.
End Regs.

(** ** Calls *)
Section Reach.
Context {W : Type}.
Variables (E : env) (obj : object W) (a b : Z) (cs : list progCall) (regs : list (registration W)).
Hypothesis HR : Forall2 (entry_ok E obj a b) cs regs.
Hypothesis Hu : forall c, In c cs -> user_ok E (op_ty (pc_arg c)) (op_ty (pc_res c)) (obj (cap (pc_name c))).
Hypothesis Hd : NoDup (map (fun c => num_val (pc_id c)) cs).
Lemma regs_are_ok l : regs_ok l -> regs_ok (l ++ regs).
Proof.
  intros H r h I Q. apply in_app_iff in I. destruct I as [I|I]; [exact (H r h I Q)|]. destruct (F2_in _ _ _ HR r I) as (c & Ic & (_ & _ & _ & h' & Q' & K)). assert (h' = h) as -> by congruence. apply K, Hu, Ic.
Qed.
Lemma regs_last l c k : In c cs -> u32_lit (pc_id c) k -> exists h, last_for (l ++ regs) a b k (Some h) /\ agrees h (stub E (op_ty (pc_arg c)) (op_ty (pc_res c)) (obj (cap (pc_name c)))).
Proof.
  intros Ic [Hk _].
  assert (X : exists pre post h, regs = pre ++ mkReg a b k (Some h) :: post /\ (forall r, In r post -> ~ for_proc r a b k) /\ agrees h (stub E (op_ty (pc_arg c)) (op_ty (pc_res c)) (obj (cap (pc_name c))))).
  { revert Ic Hu Hd. clear -HR Hk. induction HR as [|c' r cs' regs' H1 F IH]; intros Ic Hu Hd; [destruct Ic|]. cbn [map] in Hd. inversion Hd as [|? ? N1 N2]; subst. destruct Ic as [->|Ic].
    - destruct H1 as (A & B & [K _] & h & Hh & KH). exists [], regs', h. split; [destruct r; cbn in *; rewrite Hk in K; injection K as ->; subst; reflexivity|]. split; [|apply KH, Hu; left; reflexivity].
      intros r' Ir (_ & _ & Q). destruct (F2_in _ _ _ F r' Ir) as (c2 & I2 & (_ & _ & [K2 _] & _)). apply N1. apply in_map_iff. exists c2. split; [congruence|exact I2].
    - destruct IH as (pre & post & h & -> & NP & AG); [exact F|exact Ic|intros c2 I2; apply Hu; right; exact I2|exact N2|]. exists (r :: pre), post, h. split; [reflexivity|]. split; assumption. }
  destruct X as (pre & post & h & -> & NP & AG). exists h. split; [|exact AG]. exists (l ++ pre), post. split; [rewrite <- app_assoc; reflexivity|exact NP].
Qed.
End Reach.
