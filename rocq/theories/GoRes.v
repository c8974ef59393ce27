(** Reading concrete syntax (GoCst.v) as the trees of GoAst.v: predeclared names, conversions
    and package-qualified calls are told apart; what the generator does not emit is rejected. *)
From Verif Require Import GoLex GLexP XLex Gram GParse Emit GEmitP GoAst GLexQ GoCst GoCstP GoText GoTop.
Open Scope string_scope.
Open Scope list_scope.

Definition basics : list string := ["uint32"; "int32"; "uint64"; "int64"; "float32"; "float64"; "bool"; "string"; "byte"; "int"].
Definition r_sz (c : cx) : option string := match c with XId s | XInt s => Some s | _ => None end.
Fixpoint r_ty (c : cx) : option gty :=
  match c with
  | XId x => Some (if mem x basics then GBasic x else GNamed x)
  | XUn o t => if String.eqb o "*" then do g <- r_ty t ; Some (GPtr g) else None
  | XSlice t => do g <- r_ty t ; Some (GSlice g)
  | XArr n t => do s <- r_sz n ; do g <- r_ty t ; Some (GArr s g)
  | XStruct fs =>
      do l <- (fix go (l : list (string * cx)) := match l with [] => Some [] | f :: l => do g <- r_ty (snd f) ; do r <- go l ; Some ((fst f, g) :: r) end) fs ;
      Some (GStruct l)
  | _ => None
  end.
(** The contents of a string literal without escapes. *)
Fixpoint drop_last (s : string) : string := match s with String c r => match r with EmptyString => "" | _ => String c (drop_last r) end | EmptyString => "" end.
Definition unquote (s : string) : option string := match s with String _ r => Some (drop_last r) | _ => None end.
Fixpoint r_ex (c : cx) : option expr :=
  match c with
  | XId x => Some (EVar x)
  | XInt s => Some (ENum s)
  | XLit s => do t <- unquote s ; Some (EStr t)
  | XParen c => do e <- r_ex c ; Some (EParen e)
  | XUn o c =>
      if String.eqb o "*" then do e <- r_ex c ; Some (EDeref e)
      else if String.eqb o "&" then do e <- r_ex c ; Some (EAddr e)
      else match c with XInt s => if String.eqb s "1" then Some (ENum "-1") else None | _ => None end
  | XBin o a b =>
      do x <- r_ex a ; do y <- r_ex b ;
      if String.eqb o "!=" then Some (ENe x y) else if String.eqb o ">" then Some (EGt x y) else Some (ELt x y)
  | XSel c f => do e <- r_ex c ; Some (ESel e f)
  | XIdx c i => do e <- r_ex c ; do j <- r_ex i ; Some (EIdx e j)
  | XFull c => do e <- r_ex c ; Some (EAll e)
  | XCall f args =>
      match f, args with
      | XId g, [a] =>
          if String.eqb g "len" then do e <- r_ex a ; Some (ELen e)
          else if String.eqb g "new" then do t <- r_ty a ; Some (ENew t)
          else if mem g basics then do e <- r_ex a ; Some (EConv (GBasic g) e) else None
      | XId g, [t; a] => if String.eqb g "make" then do t <- r_ty t ; do e <- r_ex a ; Some (EMake t e) else None
      | XParen t, [a] => do t <- r_ty t ; do e <- r_ex a ; Some (EConv t e)
      | XSel (XId x) m, [] => Some (EQuery x m)
      | _, _ => None
      end
  | _ => None
  end.
Fixpoint r_args (l : list cx) : option (list expr) := match l with [] => Some [] | a :: l => do e <- r_ex a ; do r <- r_args l ; Some (e :: r) end.
Definition r_call (f : cx) (args : list cx) : option stmt :=
  match f with
  | XSel c m =>
      do l <- r_args args ;
      match c with
      | XId x => Some (if String.eqb x "xdr" then SPkg m l else SMeth (EVar x) m l)
      | _ => do e <- r_ex c ; Some (SMeth e m l)
      end
  | _ => None
  end.
(** The statements of a clause and whether it ends in fallthrough. *)
Definition is_fall (s : cs) : bool := match s with YFall => true | _ => false end.
Fixpoint r_st (c : cs) : option stmt :=
  let all := fix go (l : list cs) : option (list stmt) := match l with [] => Some [] | a :: l => do s <- r_st a ; do r <- go l ; Some (s :: r) end in
  let clause := fix go (l : list cs) : option (list stmt * bool) :=
    match l with
    | [] => Some ([], false)
    | a :: l => match a, l with
                | YFall, [] => Some ([], true)
                | _, _ => do s <- r_st a ; do r <- go l ; Some (s :: fst r, snd r)
                end
    end in
  match c with
  | YExpr (XCall f args) => r_call f args
  | YVar x t => do g <- r_ty t ; Some (SVar x g)
  | YDef x c => do e <- r_ex c ; Some (SDef x e)
  | YSet a b => do x <- r_ex a ; do y <- r_ex b ; Some (SAssign x y)
  | YBlock ss => do l <- all ss ; Some (SBlock l)
  | YIf c a b => do e <- r_ex c ; do x <- all a ; do y <- match b with Some b => do y <- all b ; Some (Some y) | None => Some None end ; Some (SIf e x y)
  | YFor x i c y ss => do i <- r_ex i ; do e <- r_ex c ; do l <- all ss ; if String.eqb x y then Some (SFor x i e l) else None
  | YSwitch c cls =>
      do e <- r_ex c ;
      do l <- (fix go (l : list (option cx * list cs)) : option (list (option expr * list stmt * bool)) :=
                 match l with
                 | [] => Some []
                 | (o, ss) :: l =>
                     do o <- match o with Some c => do e <- r_ex c ; Some (Some e) | None => Some None end ;
                     do b <- clause ss ; do r <- go l ; Some ((o, fst b, snd b) :: r)
                 end) cls ;
      Some (SSwitch e l)
  | _ => None
  end.
Definition r_sts := fix go (l : list cs) : option (list stmt) := match l with [] => Some [] | a :: l => do s <- r_st a ; do r <- go l ; Some (s :: r) end.
Definition r_clause := fix go (l : list cs) : option (list stmt * bool) :=
    match l with
    | [] => Some ([], false)
    | a :: l => match a, l with
                | YFall, [] => Some ([], true)
                | _, _ => do s <- r_st a ; do r <- go l ; Some (s :: fst r, snd r)
                end
    end.
Definition r_cls := fix go (l : list (option cx * list cs)) : option (list (option expr * list stmt * bool)) :=
                 match l with
                 | [] => Some []
                 | (o, ss) :: l =>
                     do o <- match o with Some c => do e <- r_ex c ; Some (Some e) | None => Some None end ;
                     do b <- r_clause ss ; do r <- go l ; Some ((o, fst b, snd b) :: r)
                 end.

(** ** Programs *)
(** Statements of a stub (out.go:405-424). *)
Inductive pst : Type :=
| PVar (x : string) (t : option gty)                 (* var x t; [None]: xdr.Void *)
| PXdr (x a : string)                                (* x.Xdr(a) *)
| PErr (e a : string)                                (* e = a.Error() *)
| PGuard (e : string)                                (* if e != nil { return } *)
| PUser (r : option string) (w h m : string) (args : list string)    (* r = w.h.m(args) *)
| PRet (x : string).                                 (* return &x, nil *)
Definition is_xdr (n : string) (c : cx) : bool := match c with XSel (XId p) m => String.eqb p "xdr" && String.eqb m n | _ => false end.
Definition r_id (c : cx) : option string := match c with XId x => Some x | _ => None end.
Fixpoint r_ids (l : list cx) : option (list string) := match l with [] => Some [] | c :: l => do x <- r_id c ; do r <- r_ids l ; Some (x :: r) end.
Definition r_user (r : option string) (c : cx) : option pst :=
  match c with XCall (XSel (XSel (XId w) h) m) args => do l <- r_ids args ; Some (PUser r w h m l) | _ => None end.
Definition r_pst (s : cs) : option pst :=
  match s with
  | YVar x t => if is_xdr "Void" t then Some (PVar x None) else do g <- r_ty t ; Some (PVar x (Some g))
  | YExpr (XCall (XSel (XId x) m) [XId a]) => if String.eqb m "Xdr" then Some (PXdr x a) else None
  | YExpr c => r_user None c
  | YSet (XId e) (XCall (XSel (XId a) m) []) => if String.eqb m "Error" then Some (PErr e a) else None
  | YSet (XId r) c => r_user (Some r) c
  | YIf (XBin o (XId e) (XId z)) [YRet []] None => if String.eqb o "!=" && String.eqb z "nil" then Some (PGuard e) else None
  | YRet [XUn o (XId x); XId z] => if String.eqb o "&" && String.eqb z "nil" then Some (PRet x) else None
  | _ => None
  end.
(** [func (sb_w *sb_type) sb_name(sb_args *xdr.XdrState) (sb_res xdr.Xdrable, sb_err error)] *)
Record stubd : Type := mkStub { sb_w : string; sb_type : string; sb_name : string; sb_args : string; sb_res : string; sb_err : string; sb_body : list pst }.
(** [xdr.ProcRegistration{Prog: re_prog, Vers: re_vers, Proc: re_proc, Handler: re_w.re_meth}] *)
Record regent : Type := mkEnt { re_prog : string; re_vers : string; re_proc : string; re_w : string; re_meth : string }.
(** [func rd_name(rd_h rd_iface) ... { rd_w := &rd_wrap{rd_arg}; return ... }] *)
Record regd : Type := mkRegd { rd_name : string; rd_h : string; rd_iface : string; rd_w : string; rd_wrap : string; rd_arg : string; rd_ents : list regent }.
Record ifaced : Type := mkIface { if_name : string; if_meths : list (string * option gty * option gty) }.
Definition r_ent (e : option string * cx) : option regent :=
  match e with
  | (None, XComp t [(Some k1, XId a); (Some k2, XId b); (Some k3, XId c); (Some k4, XSel (XId w) m)]) =>
      if is_xdr "ProcRegistration" t && String.eqb k1 "Prog" && String.eqb k2 "Vers" && String.eqb k3 "Proc" && String.eqb k4 "Handler"
      then Some (mkEnt a b c w m) else None
  | _ => None
  end.
Definition r_opt (o : option cx) : option (option gty) := match o with None => Some None | Some t => do g <- r_ty t ; Some (Some g) end.
Definition r_meth (m : string * option cx * option cx) : option (string * option gty * option gty) :=
  let '(x, a, r) := m in do a <- r_opt a ; do r <- r_opt r ; Some (x, a, r).

Inductive gdecl : Type :=
| DPackage (x : string) | DImport (s : string) | DType (t : tydecl) | DMeth (m : method) | DConst (c : cdecl)
| DIface (i : ifaced) | DWrap (x i : string) | DStub (s : stubd) | DRegs (r : regd).
Definition r_top (z : ctop) : option gdecl :=
  match z with
  | ZPackage x => Some (DPackage x)
  | ZImport s => Some (DImport s)
  | ZType x t =>
      match t with
      | XStruct [(f, XId i)] => if String.eqb f "h" then Some (DWrap x i) else do g <- r_ty t ; Some (DType (x, g))
      | _ => do g <- r_ty t ; Some (DType (x, g))
      end
  | ZIface x ms => do l <- omap r_meth ms ; Some (DIface (mkIface x l))
  | ZConst x t v => do t <- r_opt t ; do s <- r_sz v ; Some (DConst (mkC x t s))
  | ZFunc (Some (v, XUn o (XId t))) m [(a, XUn o' s)] RNone body =>
      if String.eqb v "v" && String.eqb o "*" && String.eqb m "Xdr" && String.eqb a "xs" && String.eqb o' "*" && is_xdr "XdrState" s
      then do b <- r_sts body ; Some (DMeth (t, b)) else None
  | ZFunc (Some (w, XUn o (XId t))) m [(a, XUn o' s)] (RNamed [(r, rt); (e, XId et)]) body =>
      if String.eqb o "*" && String.eqb o' "*" && is_xdr "XdrState" s && is_xdr "Xdrable" rt && String.eqb et "error"
      then do b <- omap r_pst body ; Some (DStub (mkStub w t m a r e b)) else None
  | ZFunc None f [(h, XId i)] (RType (XSlice t)) [YDef w (XUn o (XComp (XId wt) [(None, XId h')])); YRet [XComp (XSlice t') es]] =>
      if String.eqb o "&" && is_xdr "ProcRegistration" t && is_xdr "ProcRegistration" t'
      then do l <- omap r_ent es ; Some (DRegs (mkRegd f h i w wt h' l)) else None
  | _ => None
  end.

(** ** The trees of GoAst.v are read back *)
Definition rt (g : gty) : Prop := r_ty (ct_of g) = Some g.
Definition re (e : expr) : Prop := r_ex (cx_of e) = Some e.
Definition rs (ss : list stmt) : Prop := r_sts (css_of ss) = Some ss.
Lemma cap_basic n : is_word n = true -> mem (cap n) basics = false.
Proof.
  intros H. unfold cap. destruct (String.eqb n "TRUE"); [reflexivity|]. destruct (String.eqb n "FALSE"); [reflexivity|].
  destruct n as [|c r]; [discriminate|]. cbn [is_word] in H. apply andb_true_iff in H. destruct H as [Hc _].
  destruct c as [[] [] [] [] [] [] [] []]; try discriminate Hc; reflexivity.
Qed.
Lemma r_sz_val s : r_sz (cval_of s) = Some s.
Proof. unfold cval_of. destruct (head_is is_digit s); reflexivity. Qed.
Definition r_fs := (fix go (l : list (string * cx)) := match l with [] => Some [] | f :: l => do g <- r_ty (snd f) ; do r <- go l ; Some ((fst f, g) :: r) end).
Definition rfs (fs : list (string * gty)) : Prop := r_fs (map cf_of fs) = Some fs.
Lemma rt_struct fs : rfs fs -> rt (GStruct fs).
Proof. intros H. unfold rt. rewrite ct_struct. cbn [r_ty]. fold r_fs. rewrite H. reflexivity. Qed.
Lemma r_fs_app l l' : r_fs (l ++ l') = do a <- r_fs l ; do b <- r_fs l' ; Some (a ++ b).
Proof.
  induction l as [|f l IH]; cbn [app r_fs]; fold r_fs; [destruct (r_fs l'); reflexivity|]. rewrite IH. destruct (r_ty (snd f)); [|reflexivity]. cbn [pbind]. destruct (r_fs l); [|reflexivity]. cbn [pbind]. destruct (r_fs l'); reflexivity.
Qed.
Lemma rfs_app l l' : rfs l -> rfs l' -> rfs (l ++ l').
Proof. unfold rfs. intros H H'. rewrite map_app, r_fs_app, H, H'. reflexivity. Qed.
Lemma rfs_one n g : rt g -> rfs [(n, g)].
Proof. unfold rt, rfs. intros H. cbn [map cf_of r_fs fst snd]. rewrite H. reflexivity. Qed.
Lemma type_read :
  (forall t, wd t = true -> forall g, gt t = Some g -> rt g) /\
  (forall t, wd_dt t = true -> forall g, gt_dt t = Some g -> rt g) /\
  (forall d, wd_d d = true -> forall fs, gt_field d = Some fs -> rfs fs).
Proof.
  assert (IT : forall l, Forall (fun d => wd_d d = true -> forall fs, gt_field d = Some fs -> rfs fs) l -> wd_its l = true -> forall fs, its_gt l = Some fs -> rfs fs).
  { induction 1 as [|d l Hd _ IH]; intros W fs H; cbn in H, W.
    - injection H as <-. reflexivity.
    - apply andb_true_iff in W. destruct W as [W1 W2]. sinv H. sinv H. injection H as <-. apply rfs_app; [eapply Hd; eassumption|eapply IH; eassumption]. }
  assert (CT : forall l, Forall (fun d => wd_d (snd d) = true -> forall fs, gt_field (snd d) = Some fs -> rfs fs) l -> wd_cases l = true -> forall fs, cases_gt l = Some fs -> rfs fs).
  { induction 1 as [|d l Hd _ IH]; intros W fs H; cbn in H, W.
    - injection H as <-. reflexivity.
    - apply andb_true_iff in W. destruct W as [W1 W2]. apply andb_true_iff in W1. destruct W1 as [_ W1]. sinv H. sinv H. injection H as <-. apply rfs_app; [eapply Hd; eassumption|eapply IH; eassumption]. }
  apply ast_ind.
  - intros u _ g H. injection H as <-. destruct u; reflexivity.
  - intros u _ g H. injection H as <-. destruct u; reflexivity.
  - intros _ g H. injection H as <-. reflexivity.
  - intros _ g H. injection H as <-. reflexivity.
  - discriminate.
  - intros _ g H. injection H as <-. reflexivity.
  - intros l _ g H. injection H as <-. reflexivity.
  - intros l Hl W g H. rewrite gt_struct_eq in H. sinv H. injection H as <-. apply rt_struct. eapply IT; eassumption.
  - intros sw c d Hs Hc Hd W g H. rewrite gt_union_eq in H. rewrite wd_union in W. apply andb_true_iff in W. destruct W as [W W3]. apply andb_true_iff in W. destruct W as [W1 W2].
    sinv H. sinv H. sinv H. injection H as <-. apply rt_struct. apply rfs_app; [eapply Hs; eassumption|]. apply rfs_app; [eapply CT; eassumption|].
    destruct d as [d|]; [eapply (Hd d eq_refl); eassumption|]. injection E1 as <-. reflexivity.
  - intros n W g H. injection H as <-. unfold rt. cbn [ct_of r_ty]. rewrite (cap_basic n W). reflexivity.
  - intros t IH W g H. eapply IH; eassumption.
  - intros t sz IH W g H. cbn [gt_dt wd_dt] in *. apply andb_true_iff in W. destruct W as [W _]. sinv H. injection H as <-. unfold rt. cbn [ct_of r_ty]. rewrite r_sz_val, (IH W _ E). reflexivity.
  - intros t sz IH W g H. cbn [gt_dt wd_dt] in *. apply andb_true_iff in W. destruct W as [W _]. sinv H. injection H as <-. unfold rt. cbn [ct_of r_ty]. rewrite (IH W _ E). reflexivity.
  - intros sz W g H. injection H as <-. unfold rt. cbn [ct_of r_ty]. rewrite r_sz_val. reflexivity.
  - intros sz W g H. injection H as <-. reflexivity.
  - intros sz W g H. injection H as <-. reflexivity.
  - intros t IH W g H. cbn [gt_dt wd_dt] in *. sinv H. injection H as <-. unfold rt. cbn [ct_of r_ty]. change (String.eqb "*" "*") with true. cbv iota. rewrite (IH W _ E). reflexivity.
  - intros _ fs H. injection H as <-. reflexivity.
  - intros t n IH W fs H. cbn [gt_field wd_d] in *. apply andb_true_iff in W. destruct W as [W _]. sinv H. injection H as <-. apply rfs_one. eapply IH; eassumption.
Qed.

Lemma drop_last_app s c : drop_last (s +++ String c "") = s.
Proof. induction s as [|d s IH]; [reflexivity|]. cbn. rewrite IH. destruct s; reflexivity. Qed.
Lemma re_str s : re (EStr s).
Proof. unfold re. cbn [cx_of r_ex quote unquote pbind]. unfold DQ. rewrite drop_last_app. reflexivity. Qed.
Lemma re_val s : s <> "-1" -> re (val_expr s).
Proof. intros N. unfold val_expr, re. destruct (head_is is_digit s); [|reflexivity]. cbn [cx_of]. destruct (String.eqb_spec s "-1"); [contradiction|reflexivity]. Qed.
Lemma val_not s : is_val s = true -> s <> "-1".
Proof. intros H ->. discriminate. Qed.
Lemma re_size s : bound_val s = true -> re (size_expr s).
Proof. unfold bound_val, size_expr. destruct (String.eqb s ""); [reflexivity|]. intros H. apply re_val, val_not, H. Qed.
Lemma re_field P n : re P -> re (fieldP P n).
Proof. unfold re, fieldP. intros H. cbn [cx_of r_ex]. rewrite H. reflexivity. Qed.
Lemma re_elem P : re P -> re (elemP P).
Proof. unfold re, elemP. intros H. cbn [cx_of r_ex]. rewrite H. reflexivity. Qed.
Lemma re_deref P : re P -> re (derefP P).
Proof. unfold re, derefP. intros H. cbn [cx_of r_ex]. rewrite H. reflexivity. Qed.
Lemma re_fixed P : re P -> re (fixedP P).
Proof. unfold re, fixedP. intros H. cbn [cx_of r_ex]. rewrite H. reflexivity. Qed.
Lemma r_sts_app l l' : r_sts (l ++ l') = do a <- r_sts l ; do b <- r_sts l' ; Some (a ++ b).
Proof.
  induction l as [|f l IH]; cbn [app r_sts]; fold r_sts; [destruct (r_sts l'); reflexivity|]. rewrite IH. destruct (r_st f); [|reflexivity]. cbn [pbind]. destruct (r_sts l); [|reflexivity]. cbn [pbind]. destruct (r_sts l'); reflexivity.
Qed.
Lemma rs_app l l' : rs l -> rs l' -> rs (l ++ l').
Proof. unfold rs, css_of. intros H H'. rewrite map_app, r_sts_app, H, H'. reflexivity. Qed.
Lemma r_st_block ss : r_st (YBlock ss) = do l <- r_sts ss ; Some (SBlock l). Proof. reflexivity. Qed.
Lemma r_st_if c a b : r_st (YIf c a b) = do e <- r_ex c ; do x <- r_sts a ; do y <- match b with Some b => do y <- r_sts b ; Some (Some y) | None => Some None end ; Some (SIf e x y). Proof. reflexivity. Qed.
Lemma r_st_for x i c y ss : r_st (YFor x i c y ss) = do i <- r_ex i ; do e <- r_ex c ; do l <- r_sts ss ; if String.eqb x y then Some (SFor x i e l) else None. Proof. reflexivity. Qed.
Lemma r_st_switch c cls : r_st (YSwitch c cls) = do e <- r_ex c ; do l <- r_cls cls ; Some (SSwitch e l). Proof. reflexivity. Qed.
Lemma rs_cons s ss : r_st (cs_of s) = Some s -> rs ss -> rs (s :: ss).
Proof. unfold rs. intros H H'. cbn [css_of map r_sts]. fold r_sts. fold (css_of ss). rewrite H, H'. reflexivity. Qed.
Lemma rs_nil : rs [].
Proof. reflexivity. Qed.
Definition rcl (l : list (option expr * list stmt * bool)) : Prop := r_cls (map ccl_of l) = Some l.
Lemma r_cls_app l l' : r_cls (l ++ l') = do a <- r_cls l ; do b <- r_cls l' ; Some (a ++ b).
Proof.
  induction l as [|[o ss] l IH]; cbn [app r_cls]; fold r_cls; [destruct (r_cls l'); reflexivity|]. rewrite IH. destruct (match o with Some c => _ | None => _ end); [|reflexivity]. cbn [pbind]. destruct (r_clause ss); [|reflexivity]. cbn [pbind].
  destruct (r_cls l); [|reflexivity]. cbn [pbind]. destruct (r_cls l'); reflexivity.
Qed.
Lemma rcl_app l l' : rcl l -> rcl l' -> rcl (l ++ l').
Proof. unfold rcl. intros H H'. rewrite map_app, r_cls_app, H, H'. reflexivity. Qed.
Lemma r_clause_body ss (f : bool) : rs ss -> r_clause (css_of ss ++ (if f then [YFall] else [])) = Some (ss, f).
Proof.
  unfold rs. revert f. assert (forall l ss, r_sts l = Some ss -> forall f : bool, r_clause (l ++ (if f then [YFall] else [])) = Some (ss, f)) as H; [|intros; apply H; assumption].
  induction l as [|a l IH]; intros r H f; cbn [r_sts] in H; fold r_sts in H.
  - injection H as <-. destruct f; reflexivity.
  - sinv H. sinv H. injection H as <-. cbn [app r_clause]. fold r_clause. rewrite (IH _ E0 f), E. cbn [pbind fst snd]. destruct a; try reflexivity. discriminate E.
Qed.
Lemma rcl_one o ss f : match o with Some e => re e | None => True end -> rs ss -> rcl [(o, ss, f)].
Proof.
  intros H S. unfold rcl. cbn [map ccl_of fst snd r_cls]. rewrite (r_clause_body ss f S). destruct o as [e|]; cbn [option_map]; [rewrite H|]; reflexivity.
Qed.
Lemma rcl_labels l ss : forallb is_lab l = true -> rs ss -> rcl (label_clauses l ss).
Proof.
  induction l as [|c l IH]; intros H S; [reflexivity|]. cbn [forallb] in H. apply andb_true_iff in H. destruct H as [Hc Hl].
  pose proof (re_val (cap c) (val_not _ (cap_lab c Hc))) as V. destruct l as [|d l].
  - cbn [label_clauses]. apply rcl_one; assumption.
  - change (label_clauses (c :: d :: l) ss) with ([(Some (val_expr (cap c)), [], true)] ++ label_clauses (d :: l) ss). apply rcl_app; [apply rcl_one; [exact V|apply rs_nil]|]. apply IH; assumption.
Qed.
Ltac rsolve := unfold re in *; cbn [cs_of cx_of map ct_of gU32 gS32 gU64 gS64 gBool gString gByte gInt]; cbn [r_st r_call r_args r_ex r_ty];
  repeat match goal with H : r_ex (cx_of _) = Some _ |- _ => rewrite !H end; reflexivity.
Lemma rs_pkg1 fn t P : In t [gU32; gS32; gU64; gS64; gBool] -> re P -> rs [SPkg fn [EVar "xs"; EConv (GPtr t) P]].
Proof. intros I H. apply rs_cons; [|apply rs_nil]. cbn in I. repeat (destruct I as [<-|I]); [..|destruct I]; rsolve. Qed.
Lemma rs_arr P z g ss : re P -> bound_val z = true -> rt g -> rs ss -> rs [SBlock (arr_body P z g ss)].
Proof.
  intros H Z T S. apply rs_cons; [|apply rs_nil]. rewrite cs_block, r_st_block.
  assert (R : rs [SIf (EQuery "xs" "Decoding") [SAssign (EDeref P) (EMake (GSlice g) (EVar "__arraysz"))] None;
     SFor "i" (EConv gU64 (ENum "0")) (ELt (EVar "i") (EConv gU64 (EVar "__arraysz"))) ss]).
  { apply rs_cons; [|apply rs_cons; [|apply rs_nil]].
    - rewrite cs_if, r_st_if. cbn [cx_of r_ex css_of map cs_of ct_of r_sts r_st r_ty option_map pbind]. change (String.eqb "*" "*") with true. cbv iota. rewrite T, H. reflexivity.
    - rewrite cs_for, r_st_for. rewrite S. reflexivity. }
  enough (rs (arr_body P z g ss)) as -> by reflexivity. unfold arr_body. apply rs_app.
  - apply rs_cons; [rsolve|]. apply rs_cons; [rsolve|]. apply rs_cons; [rsolve|apply rs_nil].
  - unfold bound_val in Z. destruct (String.eqb z "") eqn:Ez; [exact R|]. apply rs_cons; [|apply rs_nil]. rewrite cs_if, r_st_if. cbn [option_map cx_of r_ex].
    pose proof (re_val z (val_not z Z)) as V. unfold re in V. rewrite V. unfold rs in R. rewrite R.
    assert (rs [SMeth (EVar "xs") "SetError" [EStr "array too large"]]) as Q by (apply rs_cons; [|apply rs_nil]; cbn [cs_of cx_of map r_st r_call r_args]; rewrite (re_str "array too large" : r_ex (XLit (quote "array too large")) = _); reflexivity).
    unfold rs in Q. rewrite Q. reflexivity.
Qed.
Lemma rs_ptr P g ss : re P -> rt g -> rs ss -> rs (ptr_body P g ss).
Proof.
  intros H T S. unfold ptr_body. apply rs_cons; [|apply rs_cons; [|apply rs_nil]]; rewrite cs_if, r_st_if; cbn [cx_of r_ex option_map pbind].
  - enough (rs [SDef "opted" (ENe (derefP P) (EVar "nil")); xBool (EAddr (EVar "opted")); SIf (EVar "opted") ss None]) as -> by reflexivity.
    apply rs_cons; [unfold derefP; rsolve|]. apply rs_cons; [unfold xBool; rsolve|]. apply rs_cons; [|apply rs_nil]. rewrite cs_if, r_st_if. rewrite S. reflexivity.
  - enough (rs [SVar "opted" gBool; xBool (EAddr (EVar "opted")); SIf (EVar "opted") (SAssign (derefP P) (ENew g) :: ss) None]) as -> by reflexivity.
    apply rs_cons; [rsolve|]. apply rs_cons; [unfold xBool; rsolve|]. apply rs_cons; [|apply rs_nil]. rewrite cs_if, r_st_if.
    enough (rs (SAssign (derefP P) (ENew g) :: ss)) as -> by reflexivity. apply rs_cons; [|exact S]. unfold derefP. cbn [cs_of cx_of r_st r_ex]. change (String.eqb "*" "*") with true. cbv iota. rewrite H. cbn [pbind]. change (String.eqb "new" "len") with false. change (String.eqb "new" "new") with true. cbv iota. rewrite T. reflexivity.
Qed.
Lemma xdr_read :
  (forall t, wd t = true -> forall P ss, re P -> gx t P = Some ss -> rs ss) /\
  (forall t, wd_dt t = true -> forall P ss, re P -> gx_dt t P = Some ss -> rs ss) /\
  (forall d, wd_d d = true -> forall P ss, re P -> gx_field d P = Some ss -> rs ss).
Proof.
  assert (IT : forall l, Forall (fun d => wd_d d = true -> forall P ss, re P -> gx_field d P = Some ss -> rs ss) l -> wd_its l = true -> forall P ss, re P -> its_gx P l = Some ss -> rs ss).
  { induction 1 as [|d l Hd _ IH]; intros W P ss Hp H; cbn in H, W.
    - injection H as <-. reflexivity.
    - apply andb_true_iff in W. destruct W as [W1 W2]. sinv H. sinv H. injection H as <-. apply rs_app; [eapply Hd; eassumption|eapply IH; eassumption]. }
  assert (CT : forall l, Forall (fun d => wd_d (snd d) = true -> forall P ss, re P -> gx_field (snd d) P = Some ss -> rs ss) l -> wd_cases l = true -> forall P cls, re P -> cases_gx P l = Some cls -> rcl cls).
  { induction 1 as [|d l Hd _ IH]; intros W P ss Hp H; cbn in H, W.
    - injection H as <-. reflexivity.
    - apply andb_true_iff in W. destruct W as [W1 W2]. apply andb_true_iff in W1. destruct W1 as [W0 W1]. sinv H. sinv H. injection H as <-. apply rcl_app; [|eapply IH; eassumption].
      apply rcl_labels; [destruct (fst d); [discriminate|exact W0]|eapply Hd; eassumption]. }
  apply ast_ind.
  - intros u _ P ss Hp H. injection H as <-. destruct u; apply rs_pkg1; try exact Hp; cbn; tauto.
  - intros u _ P ss Hp H. injection H as <-. destruct u; apply rs_pkg1; try exact Hp; cbn; tauto.
  - discriminate.
  - discriminate.
  - discriminate.
  - intros _ P ss Hp H. injection H as <-. apply rs_pkg1; try exact Hp; cbn; tauto.
  - discriminate.
  - intros l Hl W P ss Hp H. rewrite gx_struct_eq in H. eapply IT; eassumption.
  - intros sw c d Hs Hc Hd W P ss Hp H. destruct sw as [|st sn]; [discriminate|]. rewrite gx_union_eq in H. rewrite wd_union in W. apply andb_true_iff in W. destruct W as [W W3]. apply andb_true_iff in W. destruct W as [W1 W2].
    sinv H. sinv H. sinv H. injection H as <-. apply rs_app; [eapply (Hs W1 P); eassumption|]. apply rs_cons; [|apply rs_nil]. rewrite cs_switch, r_st_switch. cbn [cx_of r_ex]. rewrite Hp. cbn [pbind].
    assert (rcl (a0 ++ a1)) as ->; [|reflexivity]. apply rcl_app; [eapply CT; eassumption|]. destruct d as [d|].
    + sinv E1. injection E1 as <-. apply rcl_one; [exact I|]. eapply (Hd d eq_refl); eassumption.
    + injection E1 as <-. reflexivity.
  - intros n W P ss Hp H. injection H as <-. apply rs_cons; [|apply rs_nil]. unfold re in Hp. cbn [cs_of cx_of map ct_of r_st r_call r_args r_ex r_ty]. change (String.eqb "*" "*") with true. cbv iota. rewrite Hp, (cap_basic n W). reflexivity.
  - intros t IH W P ss Hp H. eapply IH; eassumption.
  - intros t sz IH W P ss Hp H. cbn [gx_dt wd_dt] in *. apply andb_true_iff in W. destruct W as [W Z]. sinv H. injection H as <-. apply rs_cons; [|apply rs_nil]. rewrite cs_for, r_st_for.
    pose proof (IH W _ _ (re_fixed P Hp) E) as S. unfold rs in S. rewrite S. pose proof (re_val sz (val_not sz Z)) as V. unfold re in V. cbn [cx_of r_ex]. rewrite V. reflexivity.
  - intros t sz IH W P ss Hp H. cbn [gx_dt wd_dt] in *. apply andb_true_iff in W. destruct W as [W Z]. sinv H. sinv H. injection H as <-. apply rs_arr; [exact Hp|exact Z|eapply (proj1 type_read); eassumption|]. eapply (IH W); [|exact E0]. apply re_elem, Hp.
  - intros sz W P ss Hp H. injection H as <-. apply rs_cons; [|apply rs_nil]. rsolve.
  - intros sz W P ss Hp H. injection H as <-. apply rs_cons; [|apply rs_nil]. pose proof (re_size sz W). revert H. generalize (size_expr sz). intros z Hz. rsolve.
  - intros sz W P ss Hp H. injection H as <-. apply rs_cons; [|apply rs_nil]. pose proof (re_size sz W). revert H. generalize (size_expr sz). intros z Hz. rsolve.
  - intros t IH W P ss Hp H. cbn [gx_dt wd_dt] in *. sinv H. sinv H. injection H as <-. apply rs_ptr; [exact Hp|eapply (proj1 type_read); eassumption|]. eapply (IH W); [|exact E0]. apply re_deref, Hp.
  - intros _ P ss Hp H. injection H as <-. reflexivity.
  - intros t n IH W P ss Hp H. cbn [gx_field wd_d] in *. apply andb_true_iff in W. destruct W as [W _]. eapply IH; [exact W| |exact H]. apply re_field, Hp.
Qed.
