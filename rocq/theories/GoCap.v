(** Names in specifications and in the Go emitted for them. *)
From Coq Require Import Lia NArith.
From Verif Require Import GoLex XLex Gram GParse Emit GEmitP GoText GoTop GoRes GoPkg GoWf RepoText GenText.
From Verif Require Import Bytes XdrLib Types Interp GoAst GoSem GElab GSimB GoType GoTypeS GoTypeP GoTypeQ GoTypeG GoTypeX.
Open Scope string_scope.
Open Scope list_scope.

(** ** Where names occur in a specification *)
Inductive spec_use : Type :=
| RType (x : string)         (* a type referred to *)
| RMember (x : string)       (* a member of a struct or union *)
| RLabel (s : string)        (* a case label *)
| RValue (s : string)        (* a size, a bound, or the value given to a constant *)
| RNumber (x : string)       (* a program or version, where a procedure of it is registered *)
| RProc (x : string).        (* a procedure *)
Definition bound_use (s : string) : list spec_use := if String.eqb s "" then [] else [RValue s].
Fixpoint sp (t : typespec) : list spec_use :=
  match t with
  | typeStruct items => (fix go l := match l with [] => [] | d :: l => sp_d d ++ go l end) items
  | typeUnion sw cases def =>
      sp_d sw ++
      (fix go (l : list (list string * decl)) := match l with [] => [] | c :: l => map RLabel (fst c) ++ sp_d (snd c) ++ go l end) cases ++
      match def with Some d => sp_d d | None => [] end
  | typeIdent x => [RType x]
  | _ => []
  end
with sp_dt (t : declType) : list spec_use :=
  match t with
  | declTypeTypespec t | declTypePtr t => sp t
  | declTypeArray t sz => RValue sz :: sp t
  | declTypeVarArray t sz => bound_use sz ++ sp t
  | declTypeOpaqueArray sz => [RValue sz]
  | declTypeOpaqueVarArray sz | declTypeString sz => bound_use sz
  end
with sp_d (d : decl) : list spec_use := match d with declVoid => [] | declName t m => RMember m :: sp_dt t end.
Definition sp_opt (o : typespecOpt) : list spec_use := match o with None => [] | Some t => sp t end.
Definition sp_call (p v : string) (c : progCall) : list spec_use :=
  RNumber p :: RNumber v :: RProc (pc_name c) :: RValue (pc_id c) :: sp_opt (pc_arg c) ++ sp_opt (pc_res c).
Definition sp_ver (p : string) (v : progVer) : list spec_use := RValue (pv_id v) :: flat_map (sp_call p (pv_name v)) (pv_calls v).
Definition sp_defn (d : defn) : list spec_use :=
  match d with
  | defTypedef (declName t _) => sp_dt t
  | defTypedef declVoid => []
  | defStruct _ items => sp (typeStruct items)
  | defUnion _ s c d => sp (typeUnion s c d)
  | defEnum n l => flat_map (fun it => [RType n; RValue (snd it)]) l
  | defConst _ v => [RValue v]
  | defProg p => RValue (pd_id p) :: flat_map (sp_ver (pd_name p)) (pd_vers p)
  end.

(** No argument or result of a procedure is a struct or union written in place. *)
Definition named_opt (o : typespecOpt) : bool := match o with Some (typeStruct _) | Some (typeUnion _ _ _) => false | _ => true end.
Definition named_calls (d : defn) : bool :=
  match d with defProg p => forallb (fun v => forallb (fun c => named_opt (pc_arg c) && named_opt (pc_res c)) (pv_calls v)) (pd_vers p) | _ => true end.

(** ** Where identifiers occur in Go *)
Inductive go_use : Type :=
| UType (x : string)         (* in a type *)
| UField (f : string)        (* a field declared or selected *)
| UIdent (x : string)        (* in an expression, or the size of an array *)
| UProc (x : string).        (* a method other than Xdr, declared or selected *)
Definition size_use (s : string) : list go_use := if head_is is_digit s then [] else [UIdent s].
Fixpoint ty_uses (t : gty) : list go_use :=
  match t with
  | GBasic _ => []
  | GNamed x => [UType x]
  | GPtr t | GSlice t => ty_uses t
  | GArr sz t => size_use sz ++ ty_uses t
  | GStruct fs => (fix go l := match l with [] => [] | (f, t) :: l => UField f :: ty_uses t ++ go l end) fs
  end.
Fixpoint ex_uses (e : expr) : list go_use :=
  match e with
  | EVar x => [UIdent x]
  | ENum _ | EStr _ => []
  | EParen e | EDeref e | EAddr e | EAll e | ELen e => ex_uses e
  | ESel e f => UField f :: ex_uses e
  | EIdx a b | ENe a b | EGt a b | ELt a b => ex_uses a ++ ex_uses b
  | EConv t e | EMake t e => ty_uses t ++ ex_uses e
  | ENew t => ty_uses t
  | EQuery x _ => [UIdent x]
  end.
Fixpoint st_uses (s : stmt) : list go_use :=
  match s with
  | SPkg _ args => flat_map ex_uses args
  | SMeth e _ args => ex_uses e ++ flat_map ex_uses args
  | SVar x t => UIdent x :: ty_uses t
  | SDef x e => UIdent x :: ex_uses e
  | SAssign a b => ex_uses a ++ ex_uses b
  | SBlock ss => flat_map st_uses ss
  | SIf c a b => ex_uses c ++ flat_map st_uses a ++ match b with Some b => flat_map st_uses b | None => [] end
  | SFor x e c ss => UIdent x :: ex_uses e ++ ex_uses c ++ flat_map st_uses ss
  | SSwitch e cs => ex_uses e ++ flat_map (fun c => match fst (fst c) with Some l => ex_uses l | None => [] end ++ flat_map st_uses (snd (fst c))) cs
  end.
Definition uses (ss : list stmt) : list go_use := flat_map st_uses ss.
Definition opt_uses (o : option gty) : list go_use := match o with Some t => ty_uses t | None => [] end.
Definition pst_uses (s : pst) : list go_use :=
  match s with
  | PVar x t => UIdent x :: opt_uses t
  | PXdr x a => [UIdent x; UIdent a]
  | PErr e a => [UIdent e; UIdent a]
  | PGuard e => [UIdent e; UIdent "nil"]
  | PUser r w h m args => map UIdent (opt_list r) ++ [UIdent w; UField h; UProc m] ++ map UIdent args
  | PRet x => [UIdent x; UIdent "nil"]
  end.
Definition ent_uses (e : regent) : list go_use := [UIdent (re_prog e); UIdent (re_vers e); UIdent (re_proc e); UIdent (re_w e); UProc (re_meth e)].
(** In a package, but for the names of the types of its interfaces and wrappers and of its
    registration functions. *)
Definition prog_uses (P : gprog) : list go_use :=
  flat_map (fun t => ty_uses (snd t)) (g_types (gp_pkg P)) ++
  flat_map (fun m => uses (snd m)) (g_meths (gp_pkg P)) ++
  flat_map (fun c => opt_uses (c_ty c) ++ size_use (c_val c)) (g_consts (gp_pkg P)) ++
  flat_map (fun i => flat_map (fun m => UProc (fst (fst m)) :: opt_uses (snd (fst m)) ++ opt_uses (snd m)) (if_meths i)) (gp_ifaces P) ++
  flat_map (fun s => UProc (sb_name s) :: flat_map pst_uses (sb_body s)) (gp_stubs P) ++
  flat_map (fun r => UIdent (rd_arg r) :: flat_map ent_uses (rd_ents r)) (gp_regs P).

(** ** How a name is emitted: capitalised, but for values; literals are not names *)
Definition emitted (r : spec_use) : list go_use :=
  match r with
  | RType x => [UType (cap x)]
  | RMember m => [UField (cap m)]
  | RLabel s => size_use (cap s)
  | RValue s => size_use s
  | RNumber x => [UIdent (cap x)]
  | RProc x => [UIdent (cap x); UProc (cap x)]
  end.
Definition own_names : list go_use := UField "P" :: UField "h" :: map UIdent ["v"; "xs"; "i"; "opted"; "__arraysz"; "nil"; "w"; "h"; "in"; "out"; "args"; "err"].

Definition within (a b : list go_use) : Prop := forall u, In u a -> In u b.
Lemma w_app a b c : within a c -> within b c -> within (a ++ b) c.
Proof. intros A B u I. apply in_app_or in I. destruct I; auto. Qed.
Lemma w_l a b c : within a b -> within a (b ++ c). Proof. intros A u I. apply in_or_app. auto. Qed.
Lemma w_r a b c : within a c -> within a (b ++ c). Proof. intros A u I. apply in_or_app. auto. Qed.
Lemma w_cons x a b : In x b -> within a b -> within (x :: a) b. Proof. intros X A u [<-|I]; auto. Qed.
Lemma w_nil a : within [] a. Proof. intros u []. Qed.
Lemma w_refl a : within a a. Proof. intros u I. exact I. Qed.
Lemma w_trans a b c : within a b -> within b c -> within a c. Proof. unfold within. auto. Qed.
Lemma ty_struct_app a b : ty_uses (GStruct (a ++ b)) = ty_uses (GStruct a) ++ ty_uses (GStruct b).
Proof. induction a as [|[f t] a IH]; [reflexivity|]. cbn [app]. cbn [ty_uses] in *. cbn [app]. rewrite IH, <- app_assoc. reflexivity. Qed.
Lemma uses_app a b : uses (a ++ b) = uses a ++ uses b. Proof. apply flat_map_app. Qed.
Lemma val_uses s : ex_uses (val_expr s) = size_use s.
Proof. unfold val_expr, size_use. destruct (head_is is_digit s); reflexivity. Qed.
Definition em (l : list spec_use) : list go_use := flat_map emitted l.
Lemma em_app a b : em (a ++ b) = em a ++ em b. Proof. apply flat_map_app. Qed.
Lemma em_bound s : em (bound_use s) = if String.eqb s "" then [] else size_use s.
Proof. unfold bound_use. destruct (String.eqb s ""); [reflexivity|]. cbn. apply app_nil_r. Qed.
Lemma sz_uses s : ex_uses (size_expr s) = em (bound_use s).
Proof. rewrite em_bound. unfold size_expr. destruct (String.eqb s ""); [reflexivity|apply val_uses]. Qed.


(** *** Every identifier of the emitted code is one of its own or comes from the specification *)
Fixpoint sp_items (l : list decl) : list spec_use := match l with [] => [] | d :: l => sp_d d ++ sp_items l end.
Fixpoint sp_cases (l : list (list string * decl)) : list spec_use := match l with [] => [] | c :: l => map RLabel (fst c) ++ sp_d (snd c) ++ sp_cases l end.
Lemma sp_struct l : sp (typeStruct l) = sp_items l. Proof. reflexivity. Qed.
Lemma sp_union sw cases def : sp (typeUnion sw cases def) = sp_d sw ++ sp_cases cases ++ match def with Some d => sp_d d | None => [] end.
Proof. reflexivity. Qed.
Lemma ty_field f t : ty_uses (GStruct [(f, t)]) = UField f :: ty_uses t.
Proof. cbn. rewrite app_nil_r. reflexivity. Qed.
Lemma gt_uses :
  (forall t g, gt t = Some g -> within (ty_uses g) (em (sp t))) /\
  (forall t g, gt_dt t = Some g -> within (ty_uses g) (em (sp_dt t))) /\
  (forall d fs, gt_field d = Some fs -> within (ty_uses (GStruct fs)) (em (sp_d d))).
Proof.
  apply ast_ind; try (intros; cbn in *; repeat match goal with H : Some _ = Some _ |- _ => injection H as <- end; try destruct u; apply w_nil).
  - discriminate.
  - intros l F g H. rewrite gt_struct in H. rewrite sp_struct. destruct (gt_items l) as [fs|] eqn:E; [|discriminate]. injection H as <-.
    revert fs E. induction F as [|d l Hd _ IH]; intros fs E; cbn [gt_items] in E; [injection E as <-; apply w_nil|].
    sinv E. sinv E. injection E as <-. rewrite ty_struct_app. cbn [sp_items]. rewrite em_app. apply w_app; [apply w_l, Hd; reflexivity|apply w_r, IH; reflexivity].
  - intros sw cases def Hs Hc Hd g H. rewrite gt_union in H. rewrite sp_union, !em_app. sinv H. sinv H. sinv H. injection H as <-. rewrite !ty_struct_app.
    apply w_app; [apply w_l, Hs; reflexivity|]. apply w_app; [apply w_r, w_l|apply w_r, w_r].
    + clear E E1. revert l0 E0. induction Hc as [|c cs Hx _ IH]; intros fs E; cbn [gt_cases] in E; [injection E as <-; apply w_nil|].
      sinv E. sinv E. injection E as <-. rewrite ty_struct_app. cbn [sp_cases]. rewrite !em_app. apply w_r. apply w_app; [apply w_l, Hx; reflexivity|apply w_r, IH; reflexivity].
    + destruct def as [d|]; [exact (Hd d eq_refl _ E1)|]. injection E1 as <-. apply w_nil.
  - intros x g H. injection H as <-. apply w_refl.
  - intros t IH g H. exact (IH g H).
  - intros t sz IH g H. cbn [gt_dt sp_dt] in *. sinv H. injection H as <-. cbn [ty_uses em flat_map emitted]. apply w_app; [apply w_l, w_refl|apply w_r, IH; reflexivity].
  - intros t sz IH g H. cbn [gt_dt sp_dt] in *. sinv H. injection H as <-. cbn [ty_uses]. rewrite em_app. apply w_r, IH. reflexivity.
  - intros sz g H. injection H as <-. cbn. rewrite !app_nil_r. apply w_refl.
  - intros t IH g H. cbn [gt_dt sp_dt] in *. sinv H. injection H as <-. cbn [ty_uses]. apply IH. reflexivity.
  - intros t m IH fs H. cbn [gt_field sp_d] in *. sinv H. injection H as <-. rewrite ty_field. cbn [em flat_map emitted app]. apply w_cons; [left; reflexivity|]. intros u I. right. exact (IH _ eq_refl u I).
Qed.
Lemma own_in l : forallb (fun x => match x with UIdent y => mem y ["v"; "xs"; "i"; "opted"; "__arraysz"; "nil"; "w"; "h"; "in"; "out"; "args"; "err"] | UField f => mem f ["P"; "h"] | _ => false end) l = true -> within l own_names.
Proof.
  intros H u I. rewrite forallb_forall in H. specialize (H u I). destruct u as [x|f|x|x]; try discriminate; apply GSimB.mem_In in H; unfold own_names.
  - destruct H as [<-|[<-|[]]]; [left|right; left]; reflexivity.
  - right. right. apply in_map. exact H.
Qed.
Lemma label_uses body : forall l, within (flat_map (fun c : option expr * list stmt * bool => match fst (fst c) with Some l => ex_uses l | None => [] end ++ flat_map st_uses (snd (fst c))) (label_clauses l body))
  (em (map RLabel l) ++ uses body).
Proof.
  induction l as [|a l IH]; [apply w_nil|]. assert (Q : within (ex_uses (val_expr (cap a))) (em (map RLabel (a :: l)) ++ uses body)).
  { rewrite val_uses. apply w_l. cbn [map em flat_map emitted]. apply w_l, w_refl. }
  destruct l as [|b l].
  - cbn [label_clauses flat_map fst snd]. rewrite app_nil_r. apply w_app; [exact Q|apply w_r, w_refl].
  - change (label_clauses (a :: b :: l) body) with ((Some (val_expr (cap a)), [], true) :: label_clauses (b :: l) body). cbn [flat_map fst snd]. rewrite app_nil_r.
    apply w_app; [exact Q|]. eapply w_trans; [exact IH|]. apply w_app; [apply w_l|apply w_r, w_refl]. cbn [map em flat_map]. apply w_r, w_refl.
Qed.
Definition clause_uses (cs : list (option expr * list stmt * bool)) : list go_use :=
  flat_map (fun c => match fst (fst c) with Some l => ex_uses l | None => [] end ++ flat_map st_uses (snd (fst c))) cs.
Section Within.
Variable T : list go_use.
Hypothesis Hown : within own_names T.
Lemma own_w l : forallb (fun x => match x with UIdent y => mem y ["v"; "xs"; "i"; "opted"; "__arraysz"; "nil"; "w"; "h"; "in"; "out"; "args"; "err"] | UField f => mem f ["P"; "h"] | _ => false end) l = true -> within l T.
Proof. intros H. exact (w_trans _ _ _ (own_in l H) Hown). Qed.
Lemma own_u u : forallb (fun x => match x with UIdent y => mem y ["v"; "xs"; "i"; "opted"; "__arraysz"; "nil"; "w"; "h"; "in"; "out"; "args"; "err"] | UField f => mem f ["P"; "h"] | _ => false end) [u] = true -> In u T.
Proof. intros H. apply (own_w [u] H). left. reflexivity. Qed.
Ltac ws := repeat first [assumption | apply w_nil | apply w_app | apply w_cons; [solve [apply own_u; reflexivity | assumption]|]].
Lemma arr_w P bound e b : within (ex_uses P) T -> within (em (bound_use bound)) T -> within (ty_uses e) T -> within (uses b) T -> within (uses (arr_body P bound e b)) T.
Proof.
  intros HP Hb He Hu. unfold arr_body. rewrite em_bound in Hb. destruct (String.eqb bound ""); unfold uses in *; cbn [flat_map st_uses ex_uses ty_uses app xU32 gU32 gU64]; try rewrite val_uses; repeat rewrite app_nil_r; ws.
Qed.
Lemma ptr_w P e b : within (ex_uses P) T -> within (ty_uses e) T -> within (uses b) T -> within (uses (ptr_body P e b)) T.
Proof. intros HP He Hu. unfold ptr_body, uses in *. cbn [flat_map st_uses ex_uses ty_uses app xBool gBool derefP]. repeat rewrite app_nil_r. ws. Qed.
Lemma gx_w :
  (forall t P b, gx t P = Some b -> within (ex_uses P) T -> within (em (sp t)) T -> within (uses b) T) /\
  (forall t P b, gx_dt t P = Some b -> within (ex_uses P) T -> within (em (sp_dt t)) T -> within (uses b) T) /\
  (forall d P b, gx_field d P = Some b -> within (ex_uses P) T -> within (em (sp_d d)) T -> within (uses b) T).
Proof.
  assert (WA : forall a b, within (em (a ++ b)) T -> within (em a) T /\ within (em b) T).
  { intros a b H. rewrite em_app in H. split; intros u I; apply H, in_or_app; auto. }
  assert (WF : forall P m, within (ex_uses P) T -> In (UField (cap m)) T -> within (ex_uses (fieldP P m)) T). { intros P m H I. cbn [fieldP ex_uses]. ws. }
  apply ast_ind; try (intros; discriminate).
  - intros u P b H HP He. injection H as <-. destruct u; unfold uses; cbn [flat_map st_uses ex_uses ty_uses app xU32 gU32 gS32]; repeat rewrite app_nil_r; ws.
  - intros u P b H HP He. injection H as <-. destruct u; unfold uses; cbn [flat_map st_uses ex_uses ty_uses app gU64 gS64]; repeat rewrite app_nil_r; ws.
  - intros P b H HP He. injection H as <-. unfold uses; cbn [flat_map st_uses ex_uses ty_uses app xBool gBool]; repeat rewrite app_nil_r; ws.
  - intros l F P b H HP He. rewrite sp_struct in He. cbn [gx] in H. revert b H He. induction F as [|d l Hd _ IH]; intros b H He; [injection H as <-; apply w_nil|].
    cbn [sp_items] in He. apply WA in He. destruct He as [H1 H2]. destruct (gx_field d P) as [a|] eqn:E; [|discriminate]. cbn [pbind] in H.
    match type of H with pbind ?o _ = _ => destruct o as [r|] eqn:E2; [|discriminate] end. injection H as <-. rewrite uses_app. apply w_app; [exact (Hd P a E HP H1)|exact (IH _ eq_refl H2)].
  - intros sw cases def Hs Hc Hd P b H HP He. destruct sw as [|st sn]; [discriminate|]. rewrite gx_union_eq in H. rewrite sp_union in He. apply WA in He. destruct He as [H1 He]. apply WA in He. destruct He as [H2 H3].
    destruct (gx_dt st (fieldP P sn)) as [a|] eqn:E; [|discriminate]. cbn [pbind] in H. destruct (gx_cases P cases) as [cs|] eqn:E1; [|discriminate]. cbn [pbind] in H.
    match type of H with pbind ?o _ = _ => destruct o as [df|] eqn:E2; [|discriminate] end. injection H as <-. rewrite uses_app. apply w_app; [exact (Hs P a E HP H1)|].
    assert (In (UField (cap sn)) T) as I by (apply H1; left; reflexivity).
    unfold uses. cbn [flat_map st_uses ex_uses]. rewrite app_nil_r, flat_map_app. fold (clause_uses cs). fold (clause_uses df). cbn [app]. apply w_cons; [exact I|]. apply w_app; [exact HP|]. apply w_app.
    + clear E Hs Hd H1 H3 E2. revert cs E1 H2. induction Hc as [|c l Hx _ IH]; intros cs E1 H2; cbn [gx_cases] in E1; [injection E1 as <-; apply w_nil|].
      cbn [sp_cases] in H2. apply WA in H2. destruct H2 as [A H2]. apply WA in H2. destruct H2 as [B C]. destruct (gx_field (snd c) P) as [x|] eqn:Ex; [|discriminate]. cbn [pbind] in E1. destruct (gx_cases P l) as [r|] eqn:Er; [|discriminate]. injection E1 as <-.
      unfold clause_uses. rewrite flat_map_app. apply w_app; [|exact (IH _ eq_refl C)]. eapply w_trans; [apply label_uses|]. apply w_app; [exact A|exact (Hx P x Ex HP B)].
    + destruct def as [d|]; cbn [gx_def] in E2; [|injection E2 as <-; apply w_nil]. destruct (gx_field d P) as [x|] eqn:Ex; [|discriminate]. injection E2 as <-. unfold clause_uses. cbn [flat_map fst snd]. rewrite app_nil_r. exact (Hd d eq_refl P x Ex HP H3).
  - intros x P b H HP He. injection H as <-. unfold uses. cbn [flat_map st_uses ex_uses ty_uses app]. apply w_cons; [apply He; left; reflexivity|]. repeat rewrite app_nil_r. ws.
  - intros t IH P b H HP He. exact (IH P b H HP He).
  - intros t sz IH P b H HP He. cbn [gx_dt sp_dt] in *. destruct (gx t (fixedP P)) as [r|] eqn:E; [|discriminate]. injection H as <-. apply (WA [RValue sz]) in He. destruct He as [H1 H2].
    assert (within (ex_uses (fixedP P)) T) as HF by (cbn [fixedP ex_uses]; ws). specialize (IH _ _ E HF H2). cbn [em flat_map emitted] in H1. rewrite app_nil_r in H1.
    unfold uses in *. cbn [flat_map st_uses ex_uses app]. rewrite val_uses. repeat rewrite app_nil_r. ws.
  - intros t sz IH P b H HP He. cbn [gx_dt sp_dt] in *. destruct (gt t) as [e|] eqn:Eg; [|discriminate]. cbn [pbind] in H. destruct (gx t (elemP P)) as [r|] eqn:E; [|discriminate]. injection H as <-. apply WA in He. destruct He as [H1 H2].
    assert (within (ex_uses (elemP P)) T) as HF by (cbn [elemP ex_uses]; ws). specialize (IH _ _ E HF H2). unfold uses. cbn [flat_map st_uses]. rewrite app_nil_r. apply arr_w; try assumption. exact (w_trans _ _ _ (proj1 gt_uses t e Eg) H2).
  - intros sz P b H HP He. injection H as <-. unfold uses. cbn [flat_map st_uses ex_uses app]. repeat rewrite app_nil_r. ws.
  - intros sz P b H HP He. injection H as <-. unfold uses. cbn [flat_map st_uses ex_uses ty_uses app gInt]. rewrite sz_uses. repeat rewrite app_nil_r. ws.
  - intros sz P b H HP He. injection H as <-. unfold uses. cbn [flat_map st_uses ex_uses ty_uses app gInt]. rewrite sz_uses. repeat rewrite app_nil_r. ws.
  - intros t IH P b H HP He. cbn [gx_dt sp_dt] in *. destruct (gt t) as [e|] eqn:Eg; [|discriminate]. cbn [pbind] in H. destruct (gx t (derefP P)) as [r|] eqn:E; [|discriminate]. injection H as <-.
    apply ptr_w; [exact HP|exact (w_trans _ _ _ (proj1 gt_uses t e Eg) He)|]. exact (IH _ _ E HP He).
  - intros P b H HP He. injection H as <-. apply w_nil.
  - intros t m IH P b H HP He. cbn [gx_field sp_d] in *. apply (WA [RMember m]) in He. destruct He as [H1 H2]. apply (IH _ _ H); [|exact H2]. apply WF; [exact HP|]. apply H1. left. reflexivity.
Qed.
End Within.
(** *** Every name of the specification is used *)
Lemma w_app_inv a b T : within (a ++ b) T -> within a T /\ within b T.
Proof. intros H. split; intros u I; apply H, in_or_app; auto. Qed.
Lemma w_cons_inv x a T : within (x :: a) T -> In x T /\ within a T.
Proof. intros H. split; [apply H; left; reflexivity|intros u I; apply H; right; exact I]. Qed.
Lemma labels_in body : forall l, within (em (map RLabel l)) (clause_uses (label_clauses l body)) /\ (l <> [] -> within (uses body) (clause_uses (label_clauses l body))).
Proof.
  induction l as [|a l [IH1 IH2]]; [split; [apply w_nil|congruence]|]. destruct l as [|b l].
  - unfold clause_uses. cbn [label_clauses flat_map fst snd map em emitted]. rewrite val_uses, !app_nil_r. split; [apply w_l, w_refl|intros _; apply w_r, w_refl].
  - change (label_clauses (a :: b :: l) body) with ((Some (val_expr (cap a)), [], true) :: label_clauses (b :: l) body). unfold clause_uses in *. cbn [flat_map fst snd]. rewrite app_nil_r, val_uses. split.
    + change (em (map RLabel (a :: b :: l))) with (size_use (cap a) ++ em (map RLabel (b :: l))). apply w_app; [apply w_l, w_refl|apply w_r, IH1].
    + intros _. apply w_r, IH2. discriminate.
Qed.
Ltac split_w := repeat match goal with H : within (_ ++ _) _ |- _ => apply w_app_inv in H; destruct H | H : within (_ :: _) _ |- _ => apply w_cons_inv in H; destruct H end.
Section Cover.
Variable T : list go_use.
Lemma sp_w :
  (forall t g P b, wd t = true -> gt t = Some g -> gx t P = Some b -> within (ty_uses g) T -> within (uses b) T -> within (em (sp t)) T) /\
  (forall t g P b, wd_dt t = true -> gt_dt t = Some g -> gx_dt t P = Some b -> within (ty_uses g) T -> within (uses b) T -> within (em (sp_dt t)) T) /\
  (forall d fs P b, wd_d d = true -> gt_field d = Some fs -> gx_field d P = Some b -> within (ty_uses (GStruct fs)) T -> within (uses b) T -> within (em (sp_d d)) T).
Proof.
  apply ast_ind; try (intros; apply w_nil).
  - intros l F g P b W Hg Hx T1 T2. rewrite gt_struct in Hg. rewrite gx_struct_eq in Hx. rewrite sp_struct. destruct (gt_items l) as [fs|] eqn:E; [|discriminate]. injection Hg as <-. cbn [wd] in W.
    revert fs b W E Hx T1 T2. induction F as [|d l Hd _ IH]; intros fs b W E Hx T1 T2; [apply w_nil|]. cbn [gt_items gx_items sp_items] in *. apply andb_true_iff in W. destruct W as [W1 W2].
    destruct (gt_field d) as [f1|] eqn:E1; [|discriminate]. cbn [pbind] in E. destruct (gt_items l) as [f2|] eqn:E2; [|discriminate]. injection E as <-.
    destruct (gx_field d P) as [b1|] eqn:B1; [|discriminate]. cbn [pbind] in Hx. destruct (gx_items P l) as [b2|] eqn:B2; [|discriminate]. injection Hx as <-.
    rewrite ty_struct_app in T1. rewrite uses_app in T2. apply w_app_inv in T1. apply w_app_inv in T2. rewrite em_app. apply w_app; [eapply Hd; [exact W1|reflexivity|exact B1|apply T1|apply T2]|].
    eapply IH; [exact W2|reflexivity|reflexivity|apply T1|apply T2].
  - intros sw cases def Hs Hc Hd g P b W Hg Hx T1 T2. destruct sw as [|st sn]; [discriminate|]. rewrite gt_union in Hg. rewrite gx_union_eq in Hx. rewrite sp_union, !em_app. cbn [wd] in W.
    apply andb_true_iff in W. destruct W as [W W3]. apply andb_true_iff in W. destruct W as [W1 W2].
    destruct (gt_field (declName st sn)) as [f1|] eqn:E1; [|discriminate]. cbn [pbind] in Hg. destruct (gt_cases cases) as [f2|] eqn:E2; [|discriminate]. cbn [pbind] in Hg.
    match type of Hg with pbind ?o _ = _ => destruct o as [f3|] eqn:E3; [|discriminate] end. injection Hg as <-.
    destruct (gx_dt st (fieldP P sn)) as [b1|] eqn:B1; [|discriminate]. cbn [pbind] in Hx. destruct (gx_cases P cases) as [b2|] eqn:B2; [|discriminate]. cbn [pbind] in Hx. destruct (gx_def P def) as [b3|] eqn:B3; [|discriminate]. injection Hx as <-.
    rewrite !ty_struct_app in T1. apply w_app_inv in T1. destruct T1 as [T1 T1']. apply w_app_inv in T1'. destruct T1' as [T12 T13]. rewrite uses_app in T2. apply w_app_inv in T2. destruct T2 as [T2 T2'].
    assert (within (clause_uses b2) T /\ within (clause_uses b3) T) as [C2 C3].
    { unfold uses in T2'. cbn [flat_map st_uses] in T2'. rewrite app_nil_r in T2'. apply w_app_inv in T2'. destruct T2' as [_ T2']. rewrite flat_map_app in T2'. apply w_app_inv in T2'. exact T2'. }
    apply w_app; [eapply Hs; [exact W1|reflexivity|exact B1|exact T1|exact T2]|]. apply w_app.
    + clear Hs Hd W1 W3 E1 E3 B1 B3 T1 T2 T2' T13 C3 b1 b3. revert f2 b2 W2 E2 B2 T12 C2. induction Hc as [|c l Hx _ IH]; intros f2 b2 W E Hb T1 T2; [apply w_nil|]. cbn [gt_cases gx_cases sp_cases] in *.
      apply andb_true_iff in W. destruct W as [W W2]. apply andb_true_iff in W. destruct W as [W0 W1].
      destruct (gt_field (snd c)) as [g1|] eqn:E1; [|discriminate]. cbn [pbind] in E. destruct (gt_cases l) as [g2|] eqn:E2; [|discriminate]. injection E as <-.
      destruct (gx_field (snd c) P) as [b1|] eqn:B1; [|discriminate]. cbn [pbind] in Hb. destruct (gx_cases P l) as [b3|] eqn:B2; [|discriminate]. injection Hb as <-.
      rewrite ty_struct_app in T1. apply w_app_inv in T1. unfold clause_uses in T2. rewrite flat_map_app in T2. apply w_app_inv in T2. destruct T2 as [T2 T3]. fold (clause_uses (label_clauses (fst c) b1)) in T2. fold (clause_uses b3) in T3. destruct (labels_in b1 (fst c)) as [L1 L2].
      rewrite !em_app. apply w_app; [exact (w_trans _ _ _ L1 T2)|]. apply w_app.
      * eapply Hx; [exact W1|reflexivity|exact B1|apply T1|]. eapply w_trans; [apply L2|exact T2]. intros Q. rewrite Q in W0. discriminate.
      * eapply IH; [exact W2|reflexivity|reflexivity|apply T1|exact T3].
    + destruct def as [d|]; [|apply w_nil]. cbn [gx_def] in B3. destruct (gx_field d P) as [x|] eqn:B; [|discriminate]. injection B3 as <-. eapply (Hd d eq_refl); [exact W3|exact E3|exact B|exact T13|].
      unfold clause_uses in C3. cbn [flat_map fst snd] in C3. rewrite app_nil_r in C3. exact C3.
  - intros x g P b _ Hg _ T1 _. injection Hg as <-. exact T1.
  - intros t IH g P b W Hg Hx T1 T2. exact (IH g P b W Hg Hx T1 T2).
  - intros t sz IH g P b W Hg Hx T1 T2. cbn [wd_dt gt_dt gx_dt sp_dt] in *. apply andb_true_iff in W. destruct (gt t) as [e|] eqn:E; [|discriminate]. injection Hg as <-. destruct (gx t (fixedP P)) as [r|] eqn:B; [|discriminate]. injection Hx as <-.
    cbn [ty_uses] in T1. apply w_app_inv in T1. cbn [em flat_map emitted]. apply w_app; [apply T1|]. eapply IH; [apply W|reflexivity|exact B|apply T1|]. unfold uses in *. cbn [flat_map st_uses app] in T2. rewrite app_nil_r in T2. apply w_cons_inv in T2. destruct T2 as [_ T2]. apply w_app_inv in T2. destruct T2 as [_ T2]. apply w_app_inv in T2. apply T2.
  - intros t sz IH g P b W Hg Hx T1 T2. cbn [wd_dt gt_dt gx_dt sp_dt] in *. apply andb_true_iff in W. destruct (gt t) as [e|] eqn:E; [|discriminate]. injection Hg as <-. cbn [pbind] in Hx. destruct (gx t (elemP P)) as [r|] eqn:B; [|discriminate]. injection Hx as <-.
    cbn [ty_uses] in T1. rewrite em_app.
    assert (within (em (bound_use sz)) T /\ within (uses r) T) as [Q1 Q2].
    { unfold uses in *. rewrite em_bound. revert T2. cbn [flat_map st_uses]. rewrite app_nil_r. unfold arr_body. destruct (String.eqb sz ""); cbn [app flat_map st_uses ex_uses]; rewrite ?val_uses, ?app_nil_r; intros T2;
      split_w; split; assumption || apply w_nil. }
    apply w_app; [exact Q1|]. eapply IH; [apply W|reflexivity|exact B|exact T1|exact Q2].
  - intros sz g P b W Hg Hx T1 T2. injection Hg as <-. cbn [ty_uses] in T1. apply w_app_inv in T1. cbn [sp_dt em flat_map emitted]. rewrite app_nil_r. apply T1.
  - intros sz g P b W Hg Hx T1 T2. injection Hx as <-. unfold uses in T2. cbn [flat_map st_uses ex_uses ty_uses app gInt] in T2. rewrite sz_uses in T2. apply w_cons_inv in T2. destruct T2 as [_ T2]. rewrite <- app_assoc in T2. apply w_app_inv in T2. apply T2.
  - intros sz g P b W Hg Hx T1 T2. injection Hx as <-. unfold uses in T2. cbn [flat_map st_uses ex_uses ty_uses app gInt] in T2. rewrite sz_uses in T2. apply w_cons_inv in T2. destruct T2 as [_ T2]. rewrite <- app_assoc in T2. apply w_app_inv in T2. apply T2.
  - intros t IH g P b W Hg Hx T1 T2. cbn [wd_dt gt_dt gx_dt sp_dt] in *. destruct (gt t) as [e|] eqn:E; [|discriminate]. injection Hg as <-. cbn [pbind] in Hx. destruct (gx t (derefP P)) as [r|] eqn:B; [|discriminate]. injection Hx as <-.
    cbn [ty_uses] in T1. eapply IH; [exact W|reflexivity|exact B|exact T1|]. unfold uses, ptr_body in *. cbn [flat_map st_uses ex_uses app xBool] in T2. rewrite ?app_nil_r in T2.
    split_w; assumption.
  - intros t m IH fs P b W Hg Hx T1 T2. cbn [wd_d gt_field gx_field sp_d] in *. apply andb_true_iff in W. destruct (gt_dt t) as [e|] eqn:E; [|discriminate]. injection Hg as <-. rewrite ty_field in T1. apply w_cons_inv in T1. cbn [em flat_map emitted app]. apply w_cons; [exact (proj1 T1)|]. eapply IH; [apply W|reflexivity|exact Hx|apply T1|exact T2].
Qed.
End Cover.
(** *** Packages *)
Lemma all_decls_fwd {A} (f : defn -> option (list A)) : forall ds l, all_decls f ds = Some l -> forall d, In d ds -> exists r, f d = Some r /\ incl r l.
Proof.
  induction ds as [|d ds IH]; intros l H d' I; [destruct I|]. cbn [all_decls] in H. destruct (f d) as [r|] eqn:E; [|discriminate]. cbn [pbind] in H. destruct (all_decls f ds) as [r'|] eqn:E'; [|discriminate]. injection H as <-.
  destruct I as [<-|I]; [exists r; split; [exact E|apply incl_appl, incl_refl]|]. destruct (IH _ eq_refl _ I) as (r2 & J & K). exists r2. split; [exact J|apply incl_appr, K].
Qed.
Lemma omap_fwd {A B} (f : A -> option B) : forall l r, omap f l = Some r -> forall a, In a l -> exists b, f a = Some b /\ In b r.
Proof.
  induction l as [|x l IH]; intros r H a I; [destruct I|]. cbn [omap] in H. destruct (f x) as [b|] eqn:E; [|discriminate]. cbn [pbind] in H. destruct (omap f l) as [r'|]; [|discriminate]. injection H as <-.
  destruct I as [<-|I]; [exists b; split; [exact E|left; reflexivity]|]. destruct (IH _ eq_refl _ I) as (b' & J & K). exists b'. split; [exact J|right; exact K].
Qed.
Lemma vers_fwd : forall ds vs, vers_of ds = Some vs -> forall p v, In (defProg p) ds -> In v (pd_vers p) -> exists w, g_ver (pd_name p) v = Some w /\ In w vs.
Proof.
  induction ds as [|d ds IH]; intros vs H p v I Iv; [destruct I|]. cbn [vers_of] in H. match type of H with pbind ?o _ = _ => destruct o as [a|] eqn:E; [|discriminate] end. cbn [pbind] in H. destruct (vers_of ds) as [b|]; [|discriminate]. injection H as <-.
  destruct I as [->|I].
  - destruct (omap_fwd _ _ _ E _ Iv) as (w & W & J). exists w. split; [exact W|apply in_or_app; left; exact J].
  - destruct (IH _ eq_refl _ _ I Iv) as (w & W & J). exists w. split; [exact W|apply in_or_app; right; exact J].
Qed.
Lemma w_flat {A} (f : A -> list go_use) l T : (forall a, In a l -> within (f a) T) -> within (flat_map f l) T.
Proof. intros H u I. apply in_flat_map in I. destruct I as (a & I & J). exact (H a I u J). Qed.
Lemma w_flat_in {A} (f : A -> list go_use) l T a : In a l -> within (flat_map f l) T -> within (f a) T.
Proof. intros I H u J. apply H, in_flat_map. exists a. auto. Qed.
Lemma em_in (l : list spec_use) r : In r l -> within (emitted r) (em l).
Proof. intros I u J. apply in_flat_map. exists r. auto. Qed.
Lemma em_sub (l m : list spec_use) : incl l m -> within (em l) (em m).
Proof. intros H u I. apply in_flat_map in I. destruct I as (r & I & J). apply in_flat_map. exists r. auto. Qed.
Lemma gopt_uses o g : gopt o = Some g -> within (opt_uses g) (em (sp_opt o)).
Proof.
  destruct o as [t|]; cbn [gopt sp_opt]; intros H; [|injection H as <-; apply w_nil]. destruct (gt t) as [a|] eqn:E; [|discriminate]. injection H as <-. exact (proj1 gt_uses t a E).
Qed.
Lemma prog_parts fl ds P : prog_of fl ds = Some P -> all_decls (ty_decl fl) ds = Some (g_types (gp_pkg P)) /\ all_decls (meth_decl fl) ds = Some (g_meths (gp_pkg P)) /\ g_consts (gp_pkg P) = flat_map (const_decl fl) ds /\
  exists vs, vers_of ds = Some vs /\ gp_ifaces P = map d_iface vs /\ gp_wraps P = map (fun v => (gv_pv v +++ "_handler_wrapper", gv_pv v +++ "_handler")) vs /\
  gp_stubs P = flat_map (fun v => map (d_stub v) (gv_calls v)) vs /\ gp_regs P = map d_regs vs.
Proof.
  unfold prog_of, pkg_of. destruct (all_decls (ty_decl fl) ds) as [ts|]; [|discriminate]. cbn [pbind]. destruct (all_decls (meth_decl fl) ds) as [ms|]; [|discriminate]. cbn [pbind]. destruct (vers_of ds) as [vs|]; [|discriminate]. cbn [pbind].
  intros H. apply some_eq in H. subst P. repeat split. exists vs. repeat split.
Qed.
Section Whole.
Variable fl : flags.
Variable ds : list defn.
Variable P : gprog.
Hypothesis Hprog : prog_of fl ds = Some P.
Let T := own_names ++ em (flat_map sp_defn ds).
Lemma own_T : within own_names T. Proof. apply w_l, w_refl. Qed.
Lemma defn_T d l : In d ds -> incl l (sp_defn d) -> within (em l) T.
Proof. intros I J. apply w_r, em_sub. intros r K. apply in_flat_map. exists d. auto. Qed.
Lemma call_T p pv c l : In (defProg p) ds -> In pv (pd_vers p) -> In c (pv_calls pv) -> incl l (sp_call (pd_name p) (pv_name pv) c) -> within (em l) T.
Proof.
  intros I J K L. apply (defn_T (defProg p) l I). intros r M. cbn [sp_defn]. right. apply in_flat_map. exists pv. split; [exact J|]. right. apply in_flat_map. exists c. split; [exact K|exact (L r M)].
Qed.
Lemma types_T : within (flat_map (fun t => ty_uses (snd t)) (g_types (gp_pkg P))) T.
Proof.
  destruct (prog_parts _ _ _ Hprog) as (E & _). apply w_flat. intros t I. destruct (all_decls_inv _ _ _ _ E I) as (d & r & Id & H & Ir).
  destruct gt_uses as (U1 & U2 & U3).
  destruct d as [n v|[|dt n]|n m|n m|n s c d|p]; cbn [ty_decl] in H; try (injection H as <-; destruct Ir; fail).
  - destruct (gt_dt dt) as [g|] eqn:Eg; [|discriminate]. injection H as <-. destruct Ir as [<-|[]]. cbn [snd].
    assert (within (ty_uses g) T) as W by (eapply w_trans; [exact (U2 _ _ Eg)|apply (defn_T _ _ Id), incl_refl]).
    destruct dt; try exact W. rewrite ty_field. apply w_cons; [|exact W]. apply own_T. left. reflexivity.
  - injection H as <-. destruct Ir as [<-|[]]. cbn [snd]. destruct (fl_unsigned fl); apply w_nil.
  - destruct (gt (typeStruct m)) as [g|] eqn:Eg; [|discriminate]. injection H as <-. destruct Ir as [<-|[]]. eapply w_trans; [exact (U1 _ _ Eg)|apply (defn_T _ _ Id), incl_refl].
  - destruct (gt (typeUnion s c d)) as [g|] eqn:Eg; [|discriminate]. injection H as <-. destruct Ir as [<-|[]]. eapply w_trans; [exact (U1 _ _ Eg)|apply (defn_T _ _ Id), incl_refl].
Qed.
Lemma meths_T : within (flat_map (fun m => uses (snd m)) (g_meths (gp_pkg P))) T.
Proof.
  destruct (prog_parts _ _ _ Hprog) as (_ & E & _). apply w_flat. intros t I. destruct (all_decls_inv _ _ _ _ E I) as (d & r & Id & H & Ir).
  destruct (gx_w T own_T) as (U1 & U2 & U3). assert (V : within (ex_uses (EVar "v")) T) by (apply own_w; [exact own_T|reflexivity]).
  destruct d as [n v|[|dt n]|n m|n m|n s c d|p]; cbn [meth_decl] in H; try (injection H as <-; destruct Ir; fail).
  - match type of H with pbind ?o _ = _ => destruct o as [b|] eqn:Eb; [|discriminate] end. injection H as <-. destruct Ir as [<-|[]]. cbn [snd]. apply (U2 _ _ _ Eb); [|apply (defn_T _ _ Id), incl_refl].
    destruct dt; try exact V. apply own_w; [exact own_T|reflexivity].
  - match type of H with pbind ?o _ = _ => destruct o as [b|] eqn:Eb; [|discriminate] end. injection H as <-. destruct Ir as [<-|[]]. apply (U1 _ _ _ Eb V), w_nil.
  - match type of H with pbind ?o _ = _ => destruct o as [b|] eqn:Eb; [|discriminate] end. injection H as <-. destruct Ir as [<-|[]]. apply (U1 _ _ _ Eb V), (defn_T _ _ Id), incl_refl.
  - match type of H with pbind ?o _ = _ => destruct o as [b|] eqn:Eb; [|discriminate] end. injection H as <-. destruct Ir as [<-|[]]. apply (U1 _ _ _ Eb V), (defn_T _ _ Id), incl_refl.
Qed.
Lemma val_T d s : In d ds -> In (RValue s) (sp_defn d) -> within (size_use s) T.
Proof. intros I J. apply (w_trans _ (em [RValue s])); [cbn; rewrite app_nil_r; apply w_refl|]. apply (defn_T d _ I). intros r [<-|[]]. exact J. Qed.
Lemma consts_T : within (flat_map (fun c => opt_uses (c_ty c) ++ size_use (c_val c)) (g_consts (gp_pkg P))) T.
Proof.
  destruct (prog_parts _ _ _ Hprog) as (_ & _ & E & _). rewrite E. apply w_flat. intros c I. apply in_flat_map in I. destruct I as (d & Id & I).
  destruct d as [n v|d|n m|n m|n s cs d|p]; cbn [const_decl] in I; try (destruct I; fail).
  - destruct I as [<-|[]]. cbn [c_ty c_val]. apply w_app; [|apply (val_T _ _ Id); left; reflexivity]. destruct (String.eqb (fl_const fl) ""); apply w_nil.
  - apply in_map_iff in I. destruct I as (it & <- & I). cbn [c_ty c_val opt_uses ty_uses]. apply w_app.
    + apply (w_trans _ (em [RType n])); [apply w_refl|]. apply (defn_T _ _ Id). intros r [<-|[]]. apply in_flat_map. exists it. split; [exact I|left; reflexivity].
    + apply (val_T _ _ Id). apply in_flat_map. exists it. split; [exact I|right; left; reflexivity].
  - destruct I as [<-|I]; [apply (val_T _ _ Id); left; reflexivity|]. apply in_flat_map in I. destruct I as (v & Iv & [<-|I]).
    + apply (val_T _ _ Id). right. apply in_flat_map. exists v. split; [exact Iv|left; reflexivity].
    + apply in_map_iff in I. destruct I as (k & <- & I). apply (val_T _ _ Id). right. apply in_flat_map. exists v. split; [exact Iv|]. right. apply in_flat_map. exists k. split; [exact I|right; right; right; left; reflexivity].
Qed.
Lemma call_inv vs v k : vers_of ds = Some vs -> In v vs -> In k (gv_calls v) -> exists p pv c, In (defProg p) ds /\ In pv (pd_vers p) /\ In c (pv_calls pv) /\
  gv_prog v = cap (pd_name p) /\ gv_name v = cap (pv_name pv) /\ gc_name k = cap (pc_name c) /\ gopt (pc_arg c) = Some (gc_arg k) /\ gopt (pc_res c) = Some (gc_res k).
Proof.
  intros V Iv Ik. destruct (vers_inv _ _ V _ Iv) as (p & pv & Ip & Ipv & G). unfold g_ver in G. destruct (omap g_call (pv_calls pv)) as [l|] eqn:E; [|discriminate]. injection G as <-. cbn [gv_calls gv_prog gv_name] in *.
  destruct (omap_inv _ _ _ E _ Ik) as (c & Ic & C). unfold g_call in C. destruct (gopt (pc_arg c)) as [a|] eqn:Ea; [|discriminate]. cbn [pbind] in C. destruct (gopt (pc_res c)) as [r|] eqn:Er; [|discriminate]. injection C as <-.
  exists p, pv, c. repeat split; assumption.
Qed.
Lemma call_parts vs v k : vers_of ds = Some vs -> In v vs -> In k (gv_calls v) ->
  within [UIdent (gv_prog v); UIdent (gv_name v); UIdent (gc_name k); UProc (gc_name k)] T /\ within (opt_uses (gc_arg k)) T /\ within (opt_uses (gc_res k)) T.
Proof.
  intros V Iv Ik. destruct (call_inv vs v k V Iv Ik) as (p & pv & c & Ip & Ipv & Ic & -> & -> & -> & A & R). split; [|split].
  - apply (w_trans _ (em [RNumber (pd_name p); RNumber (pv_name pv); RProc (pc_name c)])); [apply w_refl|]. apply (call_T p pv c _ Ip Ipv Ic). intros r I. unfold sp_call. destruct I as [<-|[<-|[<-|[]]]]; [left|right; left|right; right; left]; reflexivity.
  - eapply w_trans; [exact (gopt_uses _ _ A)|]. apply (call_T p pv c _ Ip Ipv Ic). intros r I. do 4 right. apply in_or_app. left. exact I.
  - eapply w_trans; [exact (gopt_uses _ _ R)|]. apply (call_T p pv c _ Ip Ipv Ic). intros r I. do 4 right. apply in_or_app. right. exact I.
Qed.
Lemma uses_emitted : within (prog_uses P) T.
Proof.
  destruct (prog_parts _ _ _ Hprog) as (_ & _ & _ & vs & V & Hi & _ & Hs & Hr). unfold prog_uses. apply w_app; [exact types_T|]. apply w_app; [exact meths_T|]. apply w_app; [exact consts_T|]. rewrite Hi, Hs, Hr. apply w_app; [|apply w_app].
  - apply w_flat. intros i I. apply in_map_iff in I. destruct I as (v & <- & Iv). cbn [d_iface if_meths]. apply w_flat. intros m I. apply in_map_iff in I. destruct I as (k & <- & Ik). cbn [fst snd].
    destruct (call_parts vs v k V Iv Ik) as (A & B & C). split_w. apply w_cons; [assumption|apply w_app; assumption].
  - apply w_flat. intros s I. apply in_flat_map in I. destruct I as (v & Iv & I). apply in_map_iff in I. destruct I as (k & <- & Ik). cbn [d_stub sb_name sb_body].
    destruct (call_parts vs v k V Iv Ik) as (A & B & C). split_w. apply w_cons; [assumption|]. unfold d_body. rewrite flat_map_app. apply w_app.
    + destruct (gc_arg k) as [a|]; [|apply w_nil]. cbn [flat_map pst_uses]. apply w_app; [apply w_cons; [apply (own_u T own_T); reflexivity|exact B]|]. apply (own_w T own_T). reflexivity.
    + cbn [flat_map pst_uses]. apply w_app; [apply w_cons; [apply (own_u T own_T); reflexivity|exact C]|]. apply w_app; [|apply (own_w T own_T); reflexivity].
      apply w_app; [destruct (gc_res k); [apply (own_w T own_T); reflexivity|apply w_nil]|]. apply w_app; [|destruct (gc_arg k); [apply (own_w T own_T); reflexivity|apply w_nil]].
      apply w_cons; [apply (own_u T own_T); reflexivity|]. apply w_cons; [apply (own_u T own_T); reflexivity|]. apply w_cons; [assumption|apply w_nil].
  - apply w_flat. intros r I. apply in_map_iff in I. destruct I as (v & <- & Iv). cbn [d_regs rd_arg rd_ents]. apply w_cons; [apply (own_u T own_T); reflexivity|]. apply w_flat. intros e I. apply in_map_iff in I. destruct I as (k & <- & Ik).
    destruct (call_parts vs v k V Iv Ik) as (A & B & C). split_w. unfold ent_uses. cbn [d_ent re_prog re_vers re_proc re_w re_meth]. repeat (apply w_cons; [first [assumption|apply (own_u T own_T); reflexivity]|]). apply w_nil.
Qed.

Hypothesis Hcalls : forallb named_calls ds = true.
Hypothesis Hwd : forallb wd_defn ds = true.
Lemma uses_covered : within (em (flat_map sp_defn ds)) (prog_uses P).
Proof.
  destruct (prog_parts _ _ _ Hprog) as (E & E0 & EC & vs & V & Hi & _ & Hs & Hr).
  assert (WT : within (flat_map (fun t => ty_uses (snd t)) (g_types (gp_pkg P))) (prog_uses P)). { unfold prog_uses. apply w_l, w_refl. }
  assert (WM : within (flat_map (fun m => uses (snd m)) (g_meths (gp_pkg P))) (prog_uses P)). { unfold prog_uses. apply w_r, w_l, w_refl. }
  assert (WC : within (flat_map (fun c => opt_uses (c_ty c) ++ size_use (c_val c)) (flat_map (const_decl fl) ds)) (prog_uses P)). { rewrite <- EC. unfold prog_uses. apply w_r, w_r, w_l, w_refl. }
  assert (WI : within (flat_map (fun i => flat_map (fun m => UProc (fst (fst m)) :: opt_uses (snd (fst m)) ++ opt_uses (snd m)) (if_meths i)) (gp_ifaces P)) (prog_uses P)). { unfold prog_uses. apply w_r, w_r, w_r, w_l, w_refl. }
  assert (WR : within (flat_map (fun r => UIdent (rd_arg r) :: flat_map ent_uses (rd_ents r)) (gp_regs P)) (prog_uses P)). { unfold prog_uses. do 5 apply w_r. apply w_refl. }
  set (U := prog_uses P) in *. clearbody U. intros u I. apply in_flat_map in I. destruct I as (r & I & J). apply in_flat_map in I. destruct I as (d & Id & I).
  assert (Wd : wd_defn d = true) by (rewrite forallb_forall in Hwd; exact (Hwd d Id)). destruct (all_decls_fwd _ _ _ E _ Id) as (tys & Et & It). destruct (all_decls_fwd _ _ _ E0 _ Id) as (ms & Em & Im).
  assert (KC : forall c, In c (const_decl fl d) -> within (opt_uses (c_ty c) ++ size_use (c_val c)) U). { intros c Ic. apply (w_flat_in (fun c => opt_uses (c_ty c) ++ size_use (c_val c)) (flat_map (const_decl fl) ds)); [apply in_flat_map; exists d; auto|exact WC]. }
  assert (KT : forall t, In t tys -> within (ty_uses (snd t)) U). { intros t Q. apply (w_flat_in (fun t => ty_uses (snd t)) (g_types (gp_pkg P))); [exact (It _ Q)|exact WT]. }
  assert (KM : forall t, In t ms -> within (uses (snd t)) U). { intros t Q. apply (w_flat_in (fun t => uses (snd t)) (g_meths (gp_pkg P))); [exact (Im _ Q)|exact WM]. }
  destruct (sp_w U) as (S1 & S2 & S3). assert (G : forall l, In r l -> within (em l) U -> In u U). { intros l' Q W. apply W, in_flat_map. exists r. auto. }
  destruct d as [n v|[|dt n]|n m|n m|n s c d|p]; cbn [sp_defn ty_decl meth_decl const_decl wd_defn] in *.
  - destruct I as [<-|[]]. exact (KC _ (or_introl eq_refl) u (in_or_app _ _ _ (or_intror J))).
  - destruct I.
  - destruct (gt_dt dt) as [g|] eqn:Eg; [|discriminate]. cbn [pbind] in *. injection Et as <-. match type of Em with pbind ?o _ = _ => destruct o as [b|] eqn:Eb; [|discriminate] end. injection Em as <-. apply andb_true_iff in Wd.
    apply (G _ I). eapply S2; [apply Wd|exact Eg|exact Eb| |exact (KM _ (or_introl eq_refl))]. pose proof (KT _ (or_introl eq_refl)) as Q. cbn [snd] in Q. destruct dt; try exact Q. rewrite ty_field in Q. apply w_cons_inv in Q. apply Q.
  - apply in_flat_map in I. destruct I as (it & Ii & [<-|[<-|[]]]).
    + apply (KC _ (in_map (fun it => mkC (cap (fst it)) (Some (GNamed (cap n))) (snd it)) _ _ Ii)). apply in_or_app. left. exact J.
    + apply (KC _ (in_map (fun it => mkC (cap (fst it)) (Some (GNamed (cap n))) (snd it)) _ _ Ii)). apply in_or_app. right. exact J.
  - destruct (gt (typeStruct m)) as [g|] eqn:Eg; [|discriminate]. cbn [pbind] in *. injection Et as <-. match type of Em with pbind ?o _ = _ => destruct o as [b|] eqn:Eb; [|discriminate] end. injection Em as <-. apply andb_true_iff in Wd.
    apply (G _ I). eapply S1; [exact (proj2 Wd)|exact Eg|exact Eb|exact (KT _ (or_introl eq_refl))|exact (KM _ (or_introl eq_refl))].
  - destruct (gt (typeUnion s c d)) as [g|] eqn:Eg; [|discriminate]. cbn [pbind] in *. injection Et as <-. match type of Em with pbind ?o _ = _ => destruct o as [b|] eqn:Eb; [|discriminate] end. injection Em as <-. apply andb_true_iff in Wd.
    apply (G _ I). eapply S1; [exact (proj2 Wd)|exact Eg|exact Eb|exact (KT _ (or_introl eq_refl))|exact (KM _ (or_introl eq_refl))].
  - destruct I as [<-|I]; [exact (KC _ (or_introl eq_refl) u J)|]. apply in_flat_map in I. destruct I as (pv & Ipv & I).
    assert (KV : forall c, In c (mkC (cap (pv_name pv)) (Some gU32) (pv_id pv) :: map (fun c => mkC (cap (pc_name c)) (Some gU32) (pc_id c)) (pv_calls pv)) -> within (opt_uses (c_ty c) ++ size_use (c_val c)) U).
    { intros c Ic. apply KC. right. apply in_flat_map. exists pv. auto. }
    destruct I as [<-|I]; [exact (KV _ (or_introl eq_refl) u J)|]. apply in_flat_map in I. destruct I as (c & Ic & I).
    destruct (vers_fwd _ _ V _ _ Id Ipv) as (w & Gw & Iw). unfold g_ver in Gw. destruct (omap g_call (pv_calls pv)) as [ks|] eqn:Ek; [|discriminate]. injection Gw as <-. destruct (omap_fwd _ _ _ Ek _ Ic) as (k & Gk & Ik).
    unfold g_call in Gk. destruct (gopt (pc_arg c)) as [ga|] eqn:Ea; [|discriminate]. cbn [pbind] in Gk. destruct (gopt (pc_res c)) as [gr|] eqn:Er; [|discriminate]. apply some_eq in Gk. subst k.
    apply (w_flat_in _ _ _ (d_iface (mkGVer (cap (pd_name p)) (cap (pv_name pv)) (pv_id pv) ks))) in WI; [|rewrite Hi; apply in_map; exact Iw]. cbn [d_iface if_meths gv_calls] in WI.
    apply (w_flat_in _ _ _ (cap (pc_name c), ga, gr)) in WI; [|apply in_map_iff; eexists; split; [|exact Ik]; reflexivity]. cbn [fst snd] in WI. apply w_cons_inv in WI. destruct WI as [W1 W2]. apply w_app_inv in W2. destruct W2 as [W2 W3].
    apply (w_flat_in _ _ _ (d_regs (mkGVer (cap (pd_name p)) (cap (pv_name pv)) (pv_id pv) ks))) in WR; [|rewrite Hr; apply in_map; exact Iw]. cbn [d_regs rd_ents gv_calls] in WR. apply w_cons_inv in WR. destruct WR as [_ WR].
    apply (w_flat_in _ _ _ (mkEnt (cap (pd_name p)) (cap (pv_name pv)) (cap (pc_name c)) "w" (cap (pc_name c)))) in WR; [|apply in_map_iff; eexists; split; [|exact Ik]; reflexivity].
    assert (SO : forall o g, gopt o = Some g -> named_opt o = true -> within (opt_uses g) U -> within (em (sp_opt o)) U).
    { intros o g Q X W. destruct o as [[]|]; try discriminate X; try apply w_nil. cbn in Q. injection Q as <-. exact W. }
    destruct I as [<-|[<-|[<-|[<-|I]]]].
    + destruct J as [<-|[]]. apply WR. left. reflexivity.
    + destruct J as [<-|[]]. apply WR. right. left. reflexivity.
    + destruct J as [<-|[<-|[]]]; [apply WR; right; right; left; reflexivity|exact W1].
    + apply (KV _ (or_intror (in_map _ _ _ Ic)) u J).
    + assert (named_opt (pc_arg c) = true /\ named_opt (pc_res c) = true) as [Na Nr].
      { rewrite forallb_forall in Hcalls. specialize (Hcalls _ Id). cbn [named_calls] in Hcalls. rewrite forallb_forall in Hcalls. specialize (Hcalls _ Ipv). rewrite forallb_forall in Hcalls. specialize (Hcalls _ Ic). apply andb_true_iff in Hcalls. exact Hcalls. }
      apply (G _ I). rewrite em_app. apply w_app; [exact (SO _ _ Ea Na W2)|exact (SO _ _ Er Nr W3)].
Qed.
End Whole.

(** ** Capitalisation *)
(** The names that [cap] treats differently: TRUE and FALSE become Go's constants. *)
Definition boolean_name (s : string) : Prop := s = "TRUE" \/ s = "FALSE".
(** The ASCII letters a to z, and A to Z in their place. *)
Definition is_lower (c : ascii) : bool := GoLex.between "a"%char "z"%char c.
Definition raised (c : ascii) : ascii := ascii_of_N (acode c - 32)%N.
(** Equal but for the case of an ASCII letter at the front. *)
Definition same_but_case (a b : string) : Prop :=
  exists c d r, a = String c r /\ b = String d r /\ (is_lower c = true /\ d = raised c \/ is_lower d = true /\ c = raised d).
Lemma cap_other s : ~ boolean_name s -> cap s = match s with String c r => String (upper c) r | EmptyString => EmptyString end.
Proof.
  intros N. unfold cap. destruct (String.eqb_spec s "TRUE") as [->|_]; [destruct N; left; reflexivity|]. destruct (String.eqb_spec s "FALSE") as [->|_]; [destruct N; right; reflexivity|]. reflexivity.
Qed.
Lemma bool_dec s : {boolean_name s} + {~ boolean_name s}.
Proof. unfold boolean_name. destruct (string_dec s "TRUE"); [left; auto|]. destruct (string_dec s "FALSE"); [left; auto|right; tauto]. Qed.
Lemma upper_not_lower c : is_lower (upper c) = false.
Proof. destruct c as [[] [] [] [] [] [] [] []]; reflexivity. Qed.
Lemma cap_spec s : (s = "TRUE" -> cap s = "true") /\ (s = "FALSE" -> cap s = "false") /\
  (forall c r, s = String c r -> ~ boolean_name s -> cap s = String (if is_lower c then raised c else c) r) /\ (s = "" -> cap s = "").
Proof.
  repeat split; try (intros ->; reflexivity). intros c r -> N. rewrite (cap_other _ N). reflexivity.
Qed.
Lemma upper_inj c d : upper c = upper d -> c = d \/ (is_lower c = true /\ d = raised c \/ is_lower d = true /\ c = raised d).
Proof.
  unfold upper; fold (is_lower c); fold (is_lower d); fold (raised c); fold (raised d). destruct (is_lower c) eqn:C, (is_lower d) eqn:D; intros H; auto. left.
  assert (R : forall x, is_lower x = true -> x = ascii_of_N (acode (raised x) + 32)%N). { intros x. destruct x as [[] [] [] [] [] [] [] []]; intros Q; try discriminate Q; reflexivity. }
  rewrite (R c C), (R d D), H. reflexivity.
Qed.
Lemma cap_collide a b : cap a = cap b <-> a = b \/ ~ boolean_name a /\ ~ boolean_name b /\ same_but_case a b.
Proof.
  assert (B : forall x y, boolean_name x -> ~ boolean_name y -> cap x <> cap y).
  { intros x y Hx Hy Q. rewrite (cap_other y Hy) in Q. destruct y as [|c r]; [destruct Hx as [->| ->]; discriminate Q|]. assert (upper c = "t"%char \/ upper c = "f"%char) as U. { destruct Hx as [->| ->]; injection Q as Q _; rewrite <- Q; auto. }
    pose proof (upper_not_lower c) as W. destruct U as [-> | ->] in W; discriminate W. }
  split.
  - intros H. destruct (bool_dec a) as [A|A], (bool_dec b) as [C|C].
    + left. destruct A as [->| ->], C as [->| ->]; try reflexivity; discriminate H.
    + destruct (B a b A C H).
    + destruct (B b a C A (eq_sym H)).
    + rewrite (cap_other _ A), (cap_other _ C) in H. destruct a as [|c r], b as [|d s]; try discriminate H; [left; reflexivity|]. injection H as H ->. apply upper_inj in H. destruct H as [->|H]; [left; reflexivity|]. right. split; [exact A|]. split; [exact C|]. exists c, d, s. auto.
  - intros [->|(A & C & c & d & r & -> & -> & H)]; [reflexivity|]. rewrite (cap_other _ A), (cap_other _ C). f_equal.
    assert (Q : forall x, is_lower x = true -> upper x = raised x /\ upper (raised x) = raised x).
    { intros x X. split; [unfold upper; fold (is_lower x); rewrite X; reflexivity|]. revert X. destruct x as [[] [] [] [] [] [] [] []]; intros X; try discriminate X; reflexivity. }
    destruct H as [[X ->]|[X ->]]; destruct (Q _ X) as [Q1 Q2]; congruence.
Qed.
Lemma cap_twice s : ~ boolean_name s -> ~ boolean_name (cap s) -> cap (cap s) = cap s.
Proof.
  intros A B. rewrite (cap_other _ B), (cap_other _ A). destruct s as [|c r]; [reflexivity|]. f_equal. unfold upper at 1. fold (is_lower (upper c)). rewrite upper_not_lower. reflexivity.
Qed.

(** ** What is declared *)
Definition type_name (d : defn) : list string :=
  match d with defTypedef (declName _ n) | defEnum n _ | defStruct n _ | defUnion n _ _ _ => [n] | defTypedef declVoid | defConst _ _ | defProg _ => [] end.
(** The Go names of the constants. *)
Definition const_names (d : defn) : list string :=
  match d with
  | defConst n _ => [n]
  | defEnum _ l => map (fun it => cap (fst it)) l
  | defProg p => cap (pd_name p) :: flat_map (fun v => cap (pv_name v) :: map (fun c => cap (pc_name c)) (pv_calls v)) (pd_vers p)
  | defTypedef _ | defStruct _ _ | defUnion _ _ _ _ => []
  end.
Lemma names_of_types fl : forall ds l, all_decls (ty_decl fl) ds = Some l -> map fst l = map cap (flat_map type_name ds).
Proof.
  induction ds as [|d ds IH]; intros l H; cbn [all_decls] in H; [injection H as <-; reflexivity|]. destruct (ty_decl fl d) as [a|] eqn:E; [|discriminate]. cbn [pbind] in H. destruct (all_decls (ty_decl fl) ds) as [b|]; [|discriminate]. injection H as <-.
  rewrite map_app. cbn [flat_map]. rewrite map_app, <- (IH _ eq_refl). f_equal. clear IH.
  destruct d as [n v|[|dt n]|n m|n m|n s c d|p]; cbn [ty_decl type_name] in *; try (injection E as <-; reflexivity).
  - destruct (gt_dt dt); [|discriminate]. injection E as <-. reflexivity.
  - destruct (gt (typeStruct m)); [|discriminate]. injection E as <-. reflexivity.
  - destruct (gt (typeUnion s c d)); [|discriminate]. injection E as <-. reflexivity.
Qed.
Lemma names_of_consts fl ds : map c_name (flat_map (const_decl fl) ds) = flat_map const_names ds.
Proof.
  induction ds as [|d ds IH]; [reflexivity|]. cbn [flat_map]. rewrite map_app, IH. f_equal. destruct d as [n v|d|n m|n m|n s c d|p]; cbn [const_decl const_names map]; try reflexivity.
  - rewrite map_map. reflexivity.
  - f_equal. induction (pd_vers p) as [|v l IHl]; [reflexivity|]. cbn [flat_map]. rewrite map_app, IHl. cbn [map app]. rewrite map_map. reflexivity.
Qed.
Lemma members_items : forall l fs, gt_items l = Some fs -> map fst fs = flat_map member l.
Proof.
  induction l as [|d l IH]; intros fs H; cbn [gt_items] in H; [injection H as <-; reflexivity|]. destruct (gt_field d) as [a|] eqn:E; [|discriminate]. cbn [pbind] in H. destruct (gt_items l) as [b|]; [|discriminate]. injection H as <-.
  rewrite map_app, (IH _ eq_refl). cbn [flat_map]. f_equal. destruct d as [|t m]; cbn in E; [injection E as <-; reflexivity|]. destruct (gt_dt t); [|discriminate]. injection E as <-. reflexivity.
Qed.
Lemma member_field d a : gt_field d = Some a -> map fst a = member d.
Proof. destruct d as [|t m]; cbn; intros E; [injection E as <-; reflexivity|]. destruct (gt_dt t); [|discriminate]. injection E as <-. reflexivity. Qed.
Lemma members_cases : forall l fs, gt_cases l = Some fs -> map fst fs = flat_map (fun c => member (snd c)) l.
Proof.
  induction l as [|d l IH]; intros fs H; cbn [gt_cases] in H; [injection H as <-; reflexivity|]. destruct (gt_field (snd d)) as [a|] eqn:E; [|discriminate]. cbn [pbind] in H. destruct (gt_cases l) as [b|]; [|discriminate]. injection H as <-.
  rewrite map_app, (IH _ eq_refl). cbn [flat_map]. f_equal. exact (member_field _ _ E).
Qed.
(** The members of a struct or union as written. *)
Definition d_name (d : decl) : list string := match d with declVoid => [] | declName _ m => [m] end.
Definition members (d : defn) : list string :=
  match d with
  | defStruct _ l => flat_map d_name l
  | defUnion _ s c d => d_name s ++ flat_map (fun c => d_name (snd c)) c ++ match d with Some d => d_name d | None => [] end
  | _ => []
  end.
Lemma member_cap d : member d = map cap (d_name d). Proof. destruct d; reflexivity. Qed.
Lemma fields_declared fl ds P d n : prog_of fl ds = Some P -> In d ds -> match d with defStruct m _ | defUnion m _ _ _ => n = m | _ => False end ->
  exists fs, In (cap n, GStruct fs) (g_types (gp_pkg P)) /\ map fst fs = map cap (members d).
Proof.
  intros H I N. destruct (prog_parts _ _ _ H) as (E & _). destruct (all_decls_fwd _ _ _ E _ I) as (r & Er & Ir).
  assert (FM : forall l, flat_map member l = map cap (flat_map d_name l)). { induction l as [|x l IH]; [reflexivity|]. cbn [flat_map]. rewrite map_app, IH, member_cap. reflexivity. }
  destruct d as [m v|d|m l|m l|m s c d|p]; try destruct N; subst; cbn [ty_decl members] in *.
  - rewrite gt_struct in Er. destruct (gt_items l) as [fs|] eqn:Ef; [|discriminate]. injection Er as <-. exists fs. split; [apply Ir; left; reflexivity|]. rewrite (members_items _ _ Ef). apply FM.
  - rewrite gt_union in Er. destruct (gt_field s) as [a|] eqn:Ea; [|discriminate]. cbn [pbind] in Er. destruct (gt_cases c) as [b|] eqn:Eb; [|discriminate]. cbn [pbind] in Er. match type of Er with pbind (pbind ?o _) _ = _ => destruct o as [x|] eqn:Ex; [|discriminate] end. injection Er as <-.
    exists (a ++ b ++ x). split; [apply Ir; left; reflexivity|]. rewrite !map_app, (member_field _ _ Ea), (members_cases _ _ Eb), member_cap. f_equal. f_equal.
    + clear. induction c as [|y c IH]; [reflexivity|]. cbn [flat_map]. rewrite map_app, IH, member_cap. reflexivity.
    + destruct d as [d|]; [rewrite (member_field _ _ Ex); apply member_cap|]. injection Ex as <-. reflexivity.
Qed.
Lemma names_declared fl ds P : prog_of fl ds = Some P -> map fst (g_types (gp_pkg P)) = map cap (flat_map type_name ds) /\ map c_name (g_consts (gp_pkg P)) = flat_map const_names ds.
Proof. intros H. destruct (prog_parts _ _ _ H) as (E & _ & C & _). split; [exact (names_of_types _ _ _ E)|]. rewrite C. apply names_of_consts. Qed.

(** ** References *)
Section Resolve.
Variable G : gpkg.
(** Every use refers to something declared, or is a literal or one of Go's own constants. *)
Definition resolved (r : spec_use) : Prop :=
  match r with
  | RType x => In (cap x) (map fst (g_types G))
  | RMember _ => True
  | RLabel s => head_is is_digit (cap s) = true \/ In (cap s) ["true"; "false"; "nil"] \/ In (cap s) (map c_name (g_consts G))
  | RValue s => head_is is_digit s = true \/ In s (map c_name (g_consts G))
  | RNumber x | RProc x => In (cap x) (map c_name (g_consts G))
  end.
Variable n : nat.
Lemma find_const_in : forall x l c, find_const x l = Some c -> In x (map c_name l).
Proof.
  induction l as [|a l IH]; intros c H; cbn [find_const] in H; [discriminate|]. destruct (String.eqb_spec x (c_name a)) as [->|_]; [left; reflexivity|right; exact (IH _ H)].
Qed.
Lemma cval_in x z : cval G x = Some z -> In x (map c_name (g_consts G)).
Proof. unfold cval. cbn [const_val]. destruct (find_const x (g_consts G)) as [c|] eqn:E; [|discriminate]. intros _. exact (find_const_in _ _ _ E). Qed.
Lemma ident_in x k : tc_ident G [] x = Some k -> k = KNil \/ k = KBool \/ In x (map c_name (g_consts G)).
Proof.
  unfold tc_ident. cbn [lookup]. destruct (mem x (pkg_names G)).
  - destruct (const_ty G x); [|discriminate]. destruct (cval G x) as [z|] eqn:E; [|discriminate]. intros _. right. right. exact (cval_in _ _ E).
  - destruct (String.eqb x "nil"); [intros H; apply some_eq in H; auto|]. destruct (String.eqb x "true" || String.eqb x "false"); [intros H; apply some_eq in H; auto|discriminate].
Qed.
Lemma ident_name x k : tc_ident G [] x = Some k -> In x ["true"; "false"; "nil"] \/ In x (map c_name (g_consts G)).
Proof.
  unfold tc_ident. cbn [lookup]. destruct (mem x (pkg_names G)).
  - destruct (const_ty G x); [|discriminate]. destruct (cval G x) as [z|] eqn:E; [|discriminate]. intros _. right. exact (cval_in _ _ E).
  - destruct (String.eqb_spec x "nil") as [->|_]; [left; right; right; left; reflexivity|]. destruct (String.eqb_spec x "true") as [->|_]; [left; left; reflexivity|]. destruct (String.eqb_spec x "false") as [->|_]; [left; right; left; reflexivity|discriminate].
Qed.
Lemma cfits_label t s : cfits G n t (cap s) = true -> resolved (RLabel s).
Proof.
  unfold cfits, val_expr. cbn [resolved]. destruct (head_is is_digit (cap s)); [auto|]. intros H. right. cbn [tc] in H. destruct (tc_ident G [] (cap s)) as [k|] eqn:E; [|discriminate]. exact (ident_name _ _ E).
Qed.
Lemma cfits_value t s : (t = gInt \/ t = gU32) -> cfits G n t s = true -> resolved (RValue s).
Proof.
  unfold cfits, val_expr. cbn [resolved]. destruct (head_is is_digit s); [auto|]. intros T H. right. cbn [tc] in H. destruct (tc_ident G [] s) as [k|] eqn:E; [|discriminate]. destruct (ident_in _ _ E) as [->|[->|I]]; [| |exact I]; exfalso; destruct T as [->| ->]; destruct n; discriminate H.
Qed.
Lemma cint_value s : s <> "" -> cint G n s = true -> resolved (RValue s).
Proof.
  intros N. unfold cint, size_expr. destruct (String.eqb_spec s "") as [Q|_]; [destruct (N Q)|]. unfold val_expr. cbn [resolved]. destruct (head_is is_digit s); [auto|]. intros H. right. cbn [tc] in H. destruct (tc_ident G [] s) as [k|] eqn:E; [|discriminate].
  destruct (ident_in _ _ E) as [->|[->|I]]; [| |exact I]; exfalso; destruct n; discriminate H.
Qed.
Lemma csize_value s : csize G s = true -> resolved (RValue s).
Proof.
  unfold csize, size_val. cbn [resolved]. destruct (head_is is_digit s); [auto|]. destruct (cval G s) as [z|] eqn:E; [|discriminate]. intros _. right. exact (cval_in _ _ E).
Qed.
Lemma ok_resolved :
  (forall t, vok G t = true -> uok G n t = true \/ nop G n t = true -> Forall resolved (sp t)) /\
  (forall t, vok_dt G t = true -> uok_dt G n t = true \/ nop_dt G n t = true -> Forall resolved (sp_dt t)) /\
  (forall d, vok_d G d = true -> uok_d G n d = true \/ nop_d G n d = true -> Forall resolved (sp_d d)).
Proof.
  assert (FB : forall sz, cint G n sz = true -> Forall resolved (bound_use sz)). { intros sz H. unfold bound_use. destruct (String.eqb_spec sz "") as [_|Q]; [constructor|]. constructor; [exact (cint_value _ Q H)|constructor]. }
  apply ast_ind; try (intros; apply Forall_nil).
  - intros l F V U. rewrite sp_struct. cbn [vok uok nop] in *. apply andb_true_iff in V. destruct V as [_ V]. revert V U. induction F as [|d l Hd _ IH]; intros V U; [constructor|]. cbn [sp_items]. apply andb_true_iff in V. destruct V as [V1 V2]. apply Forall_app. split.
    + apply Hd; [exact V1|]. destruct U as [U|U]; apply andb_true_iff in U; [left|right]; apply U.
    + apply IH; [exact V2|]. destruct U as [U|U]; apply andb_true_iff in U; [left|right]; apply U.
  - intros sw cases def Hs Hc Hd V [U|U]; [|discriminate]. destruct sw as [|st sn]; [cbn [uok] in U; discriminate|]. rewrite sp_union. cbn [vok uok] in *.
    apply andb_true_iff in V. destruct V as [V V3]. apply andb_true_iff in V. destruct V as [V V2]. apply andb_true_iff in V. destruct V as [_ V1].
    apply andb_true_iff in U. destruct U as [U U3]. apply andb_true_iff in U. destruct U as [U U2]. apply andb_true_iff in U. destruct U as [U _]. apply andb_true_iff in U. destruct U as [U UL]. apply andb_true_iff in U. destruct U as [U _]. apply andb_true_iff in U. destruct U as [U1 UN].
    apply Forall_app. split; [|apply Forall_app; split].
    + apply Hs; [exact V1|]. left. cbn [uok_d]. apply negb_true_iff in UN. rewrite UN. exact U1.
    + clear Hs Hd V1 V3 U1 UN U3. revert V2 U2 UL. induction Hc as [|c l Hx _ IH]; intros V2 U2 UL; [constructor|]. cbn [sp_cases]. cbn [forallb] in UL. apply andb_true_iff in UL. destruct UL as [L1 L2]. apply andb_true_iff in V2. destruct V2 as [Va Vb]. apply andb_true_iff in U2. destruct U2 as [Ua Ub].
      apply Forall_app. split; [|apply Forall_app; split; [exact (Hx Va (or_introl Ua))|exact (IH Vb Ub L2)]]. apply Forall_forall. intros r I. apply in_map_iff in I. destruct I as (s & <- & I). rewrite forallb_forall in L1. exact (cfits_label _ _ (L1 _ I)).
    + destruct def as [d|]; [|constructor]. exact (Hd d eq_refl V3 (or_introl U3)).
  - intros x V _. constructor; [|constructor]. cbn [vok] in V. apply GSimB.mem_In. exact V.
  - intros t IH V U. exact (IH V U).
  - intros t sz IH V U. cbn [vok_dt uok_dt nop_dt sp_dt] in *. apply andb_true_iff in V. constructor; [exact (csize_value _ (proj1 V))|]. apply IH; [apply V|]. right. destruct U as [U|U]; apply andb_true_iff in U; apply U.
  - intros t sz IH V U. cbn [vok_dt uok_dt nop_dt sp_dt] in *. destruct U as [U|U]; [|discriminate]. apply andb_true_iff in U. destruct U as [U1 U2]. apply Forall_app. split; [|exact (IH V (or_introl U2))].
    unfold bound_use. destruct (String.eqb sz ""); [constructor|]. constructor; [exact (cfits_value gU32 _ (or_intror eq_refl) U1)|constructor].
  - intros sz V U. constructor; [exact (csize_value _ V)|constructor].
  - intros sz V [U|U]; [exact (FB _ U)|discriminate].
  - intros sz V [U|U]; [exact (FB _ U)|discriminate].
  - intros t IH V [U|U]; [exact (IH V (or_introl U))|discriminate].
  - intros t m IH V U. cbn [vok_d uok_d nop_d sp_d] in *. constructor; [exact I|]. apply IH; [exact V|]. destruct U as [U|U]; [|right; exact U]. destruct (String.eqb (cap m) "_"); [right|left]; exact U.
Qed.
End Resolve.
Lemma const_value G n c : tc_const G n c = true -> resolved G (RValue (c_val c)).
Proof.
  unfold tc_const, val_expr. cbn [resolved]. destruct (head_is is_digit (c_val c)); [auto|]. cbn [tc]. destruct (tc_ident G [] (c_val c)) as [k|] eqn:E; [|discriminate]. intros H. right. destruct (ident_in _ _ _ E) as [->|[->|I]]; [discriminate H|discriminate H|exact I].
Qed.
Lemma references_resolve fl ds P : prog_of fl ds = Some P -> clean_prog P ds = true -> compiles P -> Forall (resolved (gp_pkg P)) (flat_map sp_defn ds).
Proof.
  intros Hp Hc (n & H). rewrite (check_prog_spec _ _ _ n Hp Hc) in H. unfold prog_ok in H. apply andb_true_iff in H. destruct H as [H _]. apply andb_true_iff in H. destruct H as [H Hcalls]. apply andb_true_iff in H. destruct H as [_ H].
  unfold spec_ok in H. apply andb_true_iff in H. destruct H as [H Hcode]. apply andb_true_iff in H. destruct H as [H _]. apply andb_true_iff in H. destruct H as [H _]. apply andb_true_iff in H. destruct H as [H Htype]. apply andb_true_iff in H. destruct H as [_ Hconst].
  destruct (names_declared _ _ _ Hp) as [NT NC]. destruct (prog_parts _ _ _ Hp) as (_ & _ & EC & _). rewrite EC in Hconst.
  rewrite forallb_forall in Hcode, Htype, Hconst, Hcalls. destruct (ok_resolved (gp_pkg P) n) as (R1 & R2 & R3). set (G := gp_pkg P) in *.
  assert (KC : forall d c, In d ds -> In c (const_decl fl d) -> resolved G (RValue (c_val c))). { intros d c I J. apply (const_value G n), Hconst. apply in_flat_map. exists d. auto. }
  assert (KN : forall d x, In d ds -> In x (const_names d) -> In x (map c_name (g_consts G))). { intros d x I J. rewrite NC. apply in_flat_map. exists d. auto. }
  apply Forall_forall. intros r I. apply in_flat_map in I. destruct I as (d & Id & I). specialize (Hcode _ Id). specialize (Htype _ Id). specialize (Hcalls _ Id).
  destruct d as [nm v|[|dt nm]|nm m|nm m|nm s c d|p]; cbn [sp_defn spec_code spec_type calls_ok] in *.
  - destruct I as [<-|[]]. exact (KC _ _ Id (or_introl eq_refl)).
  - destruct I.
  - specialize (R2 dt Htype (or_introl Hcode)). rewrite Forall_forall in R2. exact (R2 _ I).
  - apply in_flat_map in I. destruct I as (it & Ii & [<-|[<-|[]]]).
    + cbn [resolved]. rewrite NT. apply in_map, in_flat_map. exists (defEnum nm m). split; [exact Id|left; reflexivity].
    + exact (KC _ _ Id (in_map (fun it => mkC (cap (fst it)) (Some (GNamed (cap nm))) (snd it)) _ _ Ii)).
  - specialize (R1 _ Htype (or_introl Hcode)). rewrite Forall_forall in R1. exact (R1 _ I).
  - specialize (R1 _ Htype (or_introl Hcode)). rewrite Forall_forall in R1. exact (R1 _ I).
  - destruct I as [<-|I]; [exact (KC _ _ Id (or_introl eq_refl))|]. apply in_flat_map in I. destruct I as (v & Iv & I).
    assert (KV : forall c, In c (mkC (cap (pv_name v)) (Some gU32) (pv_id v) :: map (fun c => mkC (cap (pc_name c)) (Some gU32) (pc_id c)) (pv_calls v)) -> resolved G (RValue (c_val c))).
    { intros c Ic. apply (KC _ _ Id). right. apply in_flat_map. exists v. auto. }
    assert (KW : forall x, In x (cap (pv_name v) :: map (fun c => cap (pc_name c)) (pv_calls v)) -> In x (map c_name (g_consts G))).
    { intros x Ix. apply (KN _ _ Id). right. apply in_flat_map. exists v. auto. }
    destruct I as [<-|I]; [exact (KV _ (or_introl eq_refl))|]. apply in_flat_map in I. destruct I as (c & Ic & I).
    assert (opt_declared G (pc_arg c) = true /\ opt_declared G (pc_res c) = true) as [Oa Or]. { rewrite forallb_forall in Hcalls. specialize (Hcalls _ Iv). unfold vers_ok in Hcalls. apply andb_true_iff in Hcalls. destruct Hcalls as [_ Q]. rewrite forallb_forall in Q. specialize (Q _ Ic). apply andb_true_iff in Q. exact Q. }
    assert (OR : forall o, opt_declared G o = true -> In r (sp_opt o) -> resolved G r). { intros [t|] O J; [|destruct J]. destruct t; try discriminate O. destruct J as [<-|[]]. cbn [resolved]. apply GSimB.mem_In. exact O. }
    destruct I as [<-|[<-|[<-|[<-|I]]]].
    + exact (KN _ _ Id (or_introl eq_refl)).
    + exact (KW _ (or_introl eq_refl)).
    + exact (KW _ (or_intror (in_map (fun c => cap (pc_name c)) _ _ Ic))).
    + exact (KV _ (or_intror (in_map _ _ _ Ic))).
    + apply in_app_or in I. destruct I as [I|I]; [exact (OR _ Oa I)|exact (OR _ Or I)].
Qed.

(** ** Collisions *)
(** The names emitted capitalised at package level: types, enumerators, programs, versions and
    procedures. *)
Definition capped_consts (d : defn) : list string :=
  match d with
  | defEnum _ l => map fst l
  | defProg p => pd_name p :: flat_map (fun v => pv_name v :: map pc_name (pv_calls v)) (pd_vers p)
  | _ => []
  end.
Definition capped (ds : list defn) : list string := flat_map type_name ds ++ flat_map capped_consts ds.
Definition verbatim (ds : list defn) : list string := flat_map (fun d => match d with defConst n _ => [n] | _ => [] end) ds.
Lemma const_names_split d : const_names d = map cap (capped_consts d) ++ match d with defConst n _ => [n] | _ => [] end.
Proof.
  destruct d as [n v|d|n m|n m|n s c d|p]; cbn [const_names capped_consts map app]; try reflexivity; rewrite app_nil_r.
  - rewrite map_map. reflexivity.
  - f_equal. induction (pd_vers p) as [|v l IH]; [reflexivity|]. cbn [flat_map]. rewrite map_app, IH. cbn [map app]. rewrite map_map. reflexivity.
Qed.
Lemma nodup_sub {A} (a b b' : list A) : NoDup (a ++ b) -> NoDup b' -> incl b' b -> NoDup (a ++ b').
Proof.
  induction a as [|x a IH]; intros H N I; [exact N|]. inversion H as [|? ? X Y]; subst. constructor; [|exact (IH Y N I)]. intros J. apply X. apply in_app_or in J. apply in_or_app. destruct J as [J|J]; auto.
Qed.
Lemma nodup_r {A} (a b : list A) : NoDup (a ++ b) -> NoDup b.
Proof. induction a as [|x a IH]; intros H; [exact H|]. inversion H; auto. Qed.
Lemma consts_sub ds : incl (map cap (flat_map capped_consts ds)) (flat_map const_names ds).
Proof. intros x I. apply in_map_iff in I. destruct I as (y & <- & I). apply in_flat_map in I. destruct I as (d & Id & I). apply in_flat_map. exists d. split; [exact Id|]. rewrite const_names_split. apply in_or_app. left. apply in_map, I. Qed.
Lemma consts_nodup ds : NoDup (flat_map const_names ds) -> NoDup (map cap (flat_map capped_consts ds)).
Proof.
  induction ds as [|d ds IH]; intros H; [constructor|]. cbn [flat_map] in *. rewrite map_app. rewrite const_names_split, <- app_assoc in H. apply (nodup_sub _ _ _ H); [apply IH; exact (nodup_r _ _ (nodup_r _ _ H))|]. intros x I. apply in_or_app. right. exact (consts_sub ds x I).
Qed.
Lemma map_inj_nodup {A B} (f : A -> B) l a b : NoDup (map f l) -> In a l -> In b l -> f a = f b -> a = b.
Proof.
  induction l as [|x l IH]; intros N I J H; [destruct I|]. inversion N as [|? ? X Y]; subst. destruct I as [->|I], J as [->|J]; try reflexivity.
  - destruct X. rewrite H. apply in_map, J.
  - destruct X. rewrite <- H. apply in_map, I.
  - exact (IH Y I J H).
Qed.
Lemma compiles_nodup fl ds P : prog_of fl ds = Some P -> compiles P -> NoDup (map cap (flat_map type_name ds) ++ flat_map const_names ds).
Proof.
  intros Hp (n & H). destruct (names_declared _ _ _ Hp) as [<- <-]. unfold check_prog in H. repeat (apply andb_true_iff in H; destruct H as [H _]). apply nodupb_iff in H. unfold decl_names, pkg_names in H. rewrite <- app_assoc in H.
  apply (nodup_sub _ _ _ H); [|intros x I; apply in_or_app; left; exact I]. apply nodup_r in H. revert H. generalize (map c_name (g_consts (gp_pkg P))). intros l. generalize (map if_name (gp_ifaces P) ++ map fst (gp_wraps P) ++ map rd_name (gp_regs P)). intros m. induction l as [|x l IH]; intros Q; [constructor|]. inversion Q as [|? ? X Y]; subst. constructor; [|exact (IH Y)]. intros J. apply X, in_or_app. auto.
Qed.
Lemma capped_collide fl ds P a b : prog_of fl ds = Some P -> In a (capped ds) -> In b (capped ds) -> a <> b -> cap a = cap b -> ~ compiles P.
Proof.
  intros Hp A B N E C. pose proof (compiles_nodup _ _ _ Hp C) as D. apply N. apply (map_inj_nodup cap (capped ds)); try assumption. unfold capped. rewrite map_app. apply (nodup_sub _ _ _ D); [apply consts_nodup; exact (nodup_r _ _ D)|apply consts_sub].
Qed.
Lemma capped_twice fl ds P : prog_of fl ds = Some P -> ~ NoDup (map cap (capped ds)) -> ~ compiles P.
Proof. intros Hp N C. apply N. pose proof (compiles_nodup _ _ _ Hp C) as D. unfold capped. rewrite map_app. apply (nodup_sub _ _ _ D); [apply consts_nodup; exact (nodup_r _ _ D)|apply consts_sub]. Qed.
Lemma verbatim_collide fl ds P a : prog_of fl ds = Some P -> In a (capped ds) -> In (cap a) (verbatim ds) -> ~ compiles P.
Proof.
  intros Hp A V C. pose proof (compiles_nodup _ _ _ Hp C) as D. unfold verbatim in V. apply in_flat_map in V. destruct V as (d & Id & V). destruct d as [k v|d|n m|n m|n s c d|p]; try (destruct V; fail). destruct V as [H|[]].
  unfold capped in A. apply in_app_or in A. destruct A as [A|A].
  - assert (In k (flat_map const_names ds)) as K by (apply in_flat_map; exists (defConst k v); split; [exact Id|left; reflexivity]). rewrite H in K. apply (in_map cap) in A. revert D A K. clear. generalize (map cap (flat_map type_name ds)). intros l. induction l as [|x l IH]; intros D A K; [destruct A|]. inversion D as [|? ? X Y]; subst. destruct A as [->|A]; [apply X, in_or_app; auto|exact (IH Y A K)].
  - apply nodup_r in D. apply in_flat_map in A. destruct A as (d & Jd & A). clear Hp C. revert D. induction ds as [|e l IH]; intros D; [destruct Id|]. cbn [flat_map] in D. 
    assert (Q : forall a b, NoDup (const_names a ++ b) -> forall x, In x (const_names a) -> In x b -> False). { clear. intros a b. generalize (const_names a). intros l. induction l as [|y l IH]; intros D x A B; [destruct A|]. inversion D as [|? ? X Y]; subst. destruct A as [->|A]; [apply X, in_or_app; auto|exact (IH Y x A B)]. }
    assert (I1 : forall e', e' = d -> In (cap a) (const_names e')). { intros e' ->. rewrite const_names_split. apply in_or_app. left. apply in_map, A. }
    destruct Id as [Ie|Id], Jd as [Je|Jd]; try subst e.
    + subst d. destruct A.
    + eapply (Q _ _ D (cap a)); [rewrite <- H; left; reflexivity|]. apply in_flat_map. exists d. split; [exact Jd|apply I1; reflexivity].
    + eapply (Q _ _ D (cap a)); [apply I1; reflexivity|]. apply in_flat_map. exists (defConst k v). split; [exact Id|left; exact H].
    + apply IH; [exact Jd|exact Id|exact (nodup_r _ _ D)].
Qed.
Lemma member_collide fl ds P d a b : prog_of fl ds = Some P -> In d ds -> In a (members d) -> In b (members d) -> a <> b -> cap a = cap b -> ~ compiles P.
Proof.
  intros Hp Id A B N E (n & C). assert (exists nm, match d with defStruct m _ | defUnion m _ _ _ => nm = m | _ => False end) as (nm & M). { destruct d; try destruct A; eexists; reflexivity. }
  destruct (fields_declared _ _ _ d nm Hp Id M) as (fs & If & Ef). unfold check_prog in C. do 5 (apply andb_true_iff in C; destruct C as [C _]). apply andb_true_iff in C. destruct C as [_ C]. unfold check in C.
  repeat (apply andb_true_iff in C; destruct C as [C ?]).
  assert (T : valid_ty (gp_pkg P) [] (GStruct fs) = true).
  { match goal with X : forallb (tc_type _ _) _ = true |- _ => rewrite forallb_forall in X; specialize (X _ If); unfold tc_type in X; cbn [fst snd] in X; apply andb_true_iff in X; exact (proj1 X) end. }
  cbn [valid_ty] in T. apply andb_true_iff in T. destruct T as [T _]. apply nodupb_iff in T. rewrite Ef in T.
  assert (U : forall x y, x <> y -> cap x = cap y -> String.eqb (cap x) "_" = false).
  { intros x y Nx Ex. destruct (String.eqb_spec (cap x) "_") as [Q|_]; [|reflexivity]. destruct Nx. assert (R : forall z, cap z = "_" -> z = "_").
    { intros z Z. destruct (bool_dec z) as [[->| ->]|W]; [discriminate Z|discriminate Z|]. rewrite (cap_other _ W) in Z. destruct z as [|c r]; [discriminate Z|]. injection Z as Z ->. f_equal. revert Z. destruct c as [[] [] [] [] [] [] [] []]; intros Z; try discriminate Z; reflexivity. }
    rewrite (R x Q). symmetry. apply R. congruence. }
  apply N. apply (map_inj_nodup cap (filter (fun m => negb (String.eqb (cap m) "_")) (members d))); try assumption.
  - replace (map cap (filter (fun m => negb (String.eqb (cap m) "_")) (members d))) with (filter (fun f => negb (String.eqb f "_")) (map cap (members d))); [exact T|]. clear. induction (members d) as [|x l IH]; [reflexivity|]. cbn [map filter]. destruct (String.eqb (cap x) "_"); cbn [negb map]; rewrite IH; reflexivity.
  - apply filter_In. split; [exact A|]. rewrite (U a b N E). reflexivity.
  - apply filter_In. split; [exact B|]. rewrite (U b a (not_eq_sym N) (eq_sym E)). reflexivity.
Qed.

(** ** The generated texts *)
Definition generated (fl : flags) (src : string) (ds : list defn) (P : gprog) : Prop :=
  ok_flags fl = true /\ front src = Some ds /\ forallb wd_defn ds = true /\ exists o pkg, generate fl src = Some o /\ declares pkg (files_of o) P.
Lemma generated_prog fl src ds P : generated fl src ds P -> prog_of fl ds = Some P /\ forallb wd_defn ds = true.
Proof.
  intros (F & Fr & W & o & pkg & Ge & D). split; [|exact W]. destruct (gen_files fl src ds o F Fr W Ge) as (P' & Pr & D'). rewrite (declares_det _ _ _ _ _ D D'). exact Pr.
Qed.
Lemma text_names fl src ds P : generated fl src ds P ->
  map fst (g_types (gp_pkg P)) = map cap (flat_map type_name ds) /\ map c_name (g_consts (gp_pkg P)) = flat_map const_names ds.
Proof. intros H. exact (names_declared _ _ _ (proj1 (generated_prog _ _ _ _ H))). Qed.
Lemma text_fields fl src ds P d n : generated fl src ds P -> In d ds -> match d with defStruct m _ | defUnion m _ _ _ => n = m | _ => False end ->
  exists fs, In (cap n, GStruct fs) (g_types (gp_pkg P)) /\ map fst fs = map cap (members d).
Proof. intros H. exact (fields_declared _ _ _ d n (proj1 (generated_prog _ _ _ _ H))). Qed.
Lemma text_uses fl src ds P : generated fl src ds P ->
  (forall u, In u (prog_uses P) -> In u own_names \/ exists r, In r (flat_map sp_defn ds) /\ In u (emitted r)) /\
  (forallb named_calls ds = true -> forall r u, In r (flat_map sp_defn ds) -> In u (emitted r) -> In u (prog_uses P)).
Proof.
  intros H. destruct (generated_prog _ _ _ _ H) as [Hp W]. split.
  - intros u I. pose proof (uses_emitted fl ds P Hp u I) as J. apply in_app_or in J. destruct J as [J|J]; [left; exact J|right]. apply in_flat_map in J. exact J.
  - intros N r u I J. apply (uses_covered fl ds P Hp N W). apply in_flat_map. exists r. auto.
Qed.
Lemma text_resolve fl src ds P : generated fl src ds P -> clean_prog P ds = true -> compiles P -> forall r, In r (flat_map sp_defn ds) -> resolved (gp_pkg P) r.
Proof. intros H C K. apply Forall_forall. exact (references_resolve _ _ _ (proj1 (generated_prog _ _ _ _ H)) C K). Qed.
Lemma lower_cap c r : is_lower c = true -> cap (String c r) = String (raised c) r /\ String (raised c) r <> String c r /\ head_is is_digit (String (raised c) r) = false /\ ~ In (String (raised c) r) ["true"; "false"; "nil"].
Proof.
  intros L. assert (~ boolean_name (String c r)) as N. { intros [Q|Q]; injection Q as -> _; discriminate L. }
  rewrite (cap_other _ N). unfold upper. fold (is_lower c). rewrite L. fold (raised c).
  assert (raised c <> c /\ is_digit (raised c) = false /\ is_lower (raised c) = false) as (A & B & C). { revert L. clear. destruct c as [[] [] [] [] [] [] [] []]; intros L; try discriminate L; repeat split; try reflexivity; discriminate. }
  repeat split.
  - intros Q. injection Q as Q. exact (A Q).
  - exact B.
  - intros I. assert (forall x, In x ["true"; "false"; "nil"] -> match x with String c _ => is_lower c = true | _ => True end) as K. { intros x [<-|[<-|[<-|[]]]]; reflexivity. } specialize (K _ I). cbn in K. rewrite C in K. discriminate.
Qed.
(** A case label beginning with a lower-case letter, when no enumerator, constant, program,
    version or procedure has the Go name it is emitted as. *)
Lemma label_undeclared fl src ds P c r : generated fl src ds P -> is_lower c = true -> In (RLabel (String c r)) (flat_map sp_defn ds) -> ~ In (String (raised c) r) (flat_map const_names ds) ->
  (forallb named_calls ds = true -> In (UIdent (String (raised c) r)) (prog_uses P)) /\ ~ In (String (raised c) r) (map c_name (g_consts (gp_pkg P))) /\ (clean_prog P ds = true -> ~ compiles P).
Proof.
  intros H L I N. destruct (lower_cap c r L) as (E & _ & D & B). destruct (text_names _ _ _ _ H) as [_ NC]. split; [|split].
  - intros Nm. apply (proj2 (text_uses _ _ _ _ H) Nm _ _ I). cbn [emitted]. rewrite E. unfold size_use. rewrite D. left. reflexivity.
  - rewrite NC. exact N.
  - intros C K. pose proof (text_resolve _ _ _ _ H C K _ I) as R. cbn [resolved] in R. rewrite E, D, NC in R. destruct R as [R|[R|R]]; [discriminate|exact (B R)|exact (N R)].
Qed.
(** A size, bound or value beginning with a letter, when no constant and no capitalised name is
    written like that. *)
Lemma value_undeclared fl src ds P s : generated fl src ds P -> head_is is_digit s = false -> In (RValue s) (flat_map sp_defn ds) -> ~ In s (flat_map const_names ds) ->
  (forallb named_calls ds = true -> In (UIdent s) (prog_uses P)) /\ ~ In s (map c_name (g_consts (gp_pkg P))) /\ (clean_prog P ds = true -> ~ compiles P).
Proof.
  intros H D I N. destruct (text_names _ _ _ _ H) as [_ NC]. split; [|split].
  - intros Nm. apply (proj2 (text_uses _ _ _ _ H) Nm _ _ I). cbn [emitted]. unfold size_use. rewrite D. left. reflexivity.
  - rewrite NC. exact N.
  - intros C K. pose proof (text_resolve _ _ _ _ H C K _ I) as R. cbn [resolved] in R. rewrite D, NC in R. destruct R as [R|R]; [discriminate|exact (N R)].
Qed.
(** No enumerator, program, version or procedure has a Go name that begins with a lower-case
    letter, but TRUE and FALSE. *)
Lemma lower_verbatim ds c r : is_lower c = true -> ~ In (String c r) ["true"; "false"] -> ~ In (String c r) (verbatim ds) -> ~ In (String c r) (flat_map const_names ds).
Proof.
  intros L B N I. apply in_flat_map in I. destruct I as (d & Id & I). rewrite const_names_split in I. apply in_app_or in I. destruct I as [I|I]; [|apply N, in_flat_map; exists d; auto].
  apply in_map_iff in I. destruct I as (x & Q & I). destruct (bool_dec x) as [[->| ->]|W]; [apply B; rewrite <- Q; left; reflexivity|apply B; rewrite <- Q; right; left; reflexivity|].
  rewrite (cap_other _ W) in Q. destruct x as [|y x]; [discriminate Q|]. injection Q as Q _. pose proof (upper_not_lower y) as U. rewrite Q, L in U. discriminate.
Qed.
Lemma bound_undeclared fl src ds P c r : generated fl src ds P -> is_lower c = true -> ~ In (String c r) ["true"; "false"] -> ~ In (String c r) (verbatim ds) -> In (RValue (String c r)) (flat_map sp_defn ds) ->
  (forallb named_calls ds = true -> In (UIdent (String c r)) (prog_uses P)) /\ ~ In (String c r) (map c_name (g_consts (gp_pkg P))) /\ (clean_prog P ds = true -> ~ compiles P).
Proof.
  intros H L B N I. apply (value_undeclared fl src ds P _ H); [|exact I|exact (lower_verbatim _ _ _ L B N)]. revert L. clear. cbn [head_is]. destruct c as [[] [] [] [] [] [] [] []]; intros L; try discriminate L; reflexivity.
Qed.
Lemma text_collision fl src ds P : generated fl src ds P ->
  (forall a b, In a (capped ds) -> In b (capped ds) -> a <> b -> cap a = cap b -> ~ compiles P) /\
  (forall a, In a (capped ds) -> In (cap a) (verbatim ds) -> ~ compiles P) /\
  (forall d a b, In d ds -> In a (members d) -> In b (members d) -> a <> b -> cap a = cap b -> ~ compiles P).
Proof.
  intros H. destruct (generated_prog _ _ _ _ H) as [Hp _]. split; [|split].
  - intros a b. exact (capped_collide fl ds P a b Hp).
  - intros a. exact (verbatim_collide fl ds P a Hp).
  - intros d a b. exact (member_collide fl ds P d a b Hp).
Qed.
Lemma text_same fl src ds P : generated fl src ds P ->
  (forall x, In x (flat_map type_name ds) -> resolved (gp_pkg P) (RType x)) /\
  (forall x, In x (flat_map capped_consts ds) -> resolved (gp_pkg P) (RLabel x) /\ resolved (gp_pkg P) (RNumber x) /\ resolved (gp_pkg P) (RProc x)) /\
  (forall x, In x (verbatim ds) -> resolved (gp_pkg P) (RValue x)).
Proof.
  intros H. destruct (text_names _ _ _ _ H) as [NT NC]. split; [|split]; intros x I; cbn [resolved]; rewrite ?NT, ?NC.
  - apply in_map, I.
  - pose proof (consts_sub ds _ (in_map cap _ _ I)) as J. auto.
  - right. unfold verbatim in I. apply in_flat_map in I. destruct I as (d & Id & I). apply in_flat_map. exists d. split; [exact Id|]. rewrite const_names_split. apply in_or_app. right. exact I.
Qed.
(** ** Computing *)
Lemma generated_ex fl src : ok_flags fl = true -> match front src, generate fl src with Some ds, Some _ => forallb wd_defn ds | _, _ => false end = true ->
  exists ds P, generated fl src ds P /\ front src = Some ds /\ prog_of fl ds = Some P.
Proof.
  intros F H. destruct (front src) as [ds|] eqn:Fr; [|discriminate]. destruct (generate fl src) as [o|] eqn:Ge; [|discriminate]. destruct (gen_files fl src ds o F Fr H Ge) as (P & Pr & D). exists ds, P. split; [|split; [reflexivity|exact Pr]]. repeat split; try assumption. exists o, (fl_pkg fl). auto.
Qed.
