(** The text written by /repo/out.go is Go source with the syntax trees of GoAst.v: its tokens
    (GoLex.v) form the grammar of GoCst.v. *)
From Verif Require Import GoLex XLex Gram GParse Emit GEmitP GoAst GLexP GLexQ GoCst GoCstP.
Open Scope string_scope.
Open Scope list_scope.

(** ** Syntax trees as concrete syntax *)
Definition cval_of (s : string) : cx := if head_is is_digit s then XInt s else XId s.
Fixpoint ct_of (g : gty) : cx :=
  match g with
  | GBasic b => XId b
  | GNamed x => XId x
  | GPtr t => XUn "*" (ct_of t)
  | GSlice t => XSlice (ct_of t)
  | GArr sz t => XArr (cval_of sz) (ct_of t)
  | GStruct fs => XStruct ((fix go (l : list (string * gty)) := match l with [] => [] | f :: l => (fst f, ct_of (snd f)) :: go l end) fs)
  end.
Definition quote (s : string) : string := String dquote (s +++ DQ).
Fixpoint cx_of (e : expr) : cx :=
  match e with
  | EVar x => XId x
  | ENum s => if String.eqb s "-1" then XUn "-" (XInt "1") else XInt s
  | EStr s => XLit (quote s)
  | EParen e => XParen (cx_of e)
  | EDeref e => XUn "*" (cx_of e)
  | EAddr e => XUn "&" (cx_of e)
  | ESel e f => XSel (cx_of e) f
  | EIdx e i => XIdx (cx_of e) (cx_of i)
  | EAll e => XFull (cx_of e)
  | EConv (GBasic b) e => XCall (XId b) [cx_of e]
  | EConv t e => XCall (XParen (ct_of t)) [cx_of e]
  | ELen e => XCall (XId "len") [cx_of e]
  | EMake t e => XCall (XId "make") [ct_of t; cx_of e]
  | ENew t => XCall (XId "new") [ct_of t]
  | EQuery x m => XCall (XSel (XId x) m) []
  | ENe a b => XBin "!=" (cx_of a) (cx_of b)
  | EGt a b => XBin ">" (cx_of a) (cx_of b)
  | ELt a b => XBin "<" (cx_of a) (cx_of b)
  end.
Fixpoint cs_of (s : stmt) : cs :=
  let all := fix go l := match l with [] => [] | s :: l => cs_of s :: go l end in
  match s with
  | SPkg fn args => YExpr (XCall (XSel (XId "xdr") fn) (map cx_of args))
  | SMeth e m args => YExpr (XCall (XSel (cx_of e) m) (map cx_of args))
  | SVar x t => YVar x (ct_of t)
  | SDef x e => YDef x (cx_of e)
  | SAssign a b => YSet (cx_of a) (cx_of b)
  | SBlock ss => YBlock (all ss)
  | SIf c a b => YIf (cx_of c) (all a) (match b with Some b => Some (all b) | None => None end)
  | SFor x init c ss => YFor x (cx_of init) (cx_of c) x (all ss)
  | SSwitch e cs =>
      YSwitch (cx_of e)
        ((fix go (l : list (option expr * list stmt * bool)) :=
            match l with
            | [] => []
            | (o, ss, fall) :: l => (option_map cx_of o, all ss ++ (if fall then [YFall] else [])) :: go l
            end) cs)
  end.
Definition css_of (ss : list stmt) : list cs := map cs_of ss.
Definition ccl_of (c : option expr * list stmt * bool) : option cx * list cs :=
  (option_map cx_of (fst (fst c)), css_of (snd (fst c)) ++ (if snd c then [YFall] else [])).
Lemma all_map l : (fix go l := match l with [] => [] | s :: l => cs_of s :: go l end) l = css_of l.
Proof. reflexivity. Qed.
Lemma cs_block ss : cs_of (SBlock ss) = YBlock (css_of ss).
Proof. reflexivity. Qed.
Lemma cs_if c a b : cs_of (SIf c a b) = YIf (cx_of c) (css_of a) (option_map css_of b).
Proof. destruct b; reflexivity. Qed.
Lemma cs_for x i c ss : cs_of (SFor x i c ss) = YFor x (cx_of i) (cx_of c) x (css_of ss).
Proof. reflexivity. Qed.
Lemma cs_switch e l : cs_of (SSwitch e l) = YSwitch (cx_of e) (map ccl_of l).
Proof. cbn [cs_of]. f_equal. induction l as [|[[o ss] fall] l IH]; [reflexivity|]. cbn [map]. rewrite <- IH. reflexivity. Qed.

(** ** Pieces *)
Definition pruns (k : kind) (ps : list piece) (b : bool) : option (list gtok) :=
  match run ps b (fun _ => true) with
  | Some (ts, b', req) => if Bool.eqb b' (k_out k) && forallb (fun c => negb (k_next k c) || req c) all_ascii then Some ts else None
  | None => None
  end.
Lemma pruns_sym k ps ts : Forall pok ps -> (forall b, in_ok k b = true -> pruns k ps b = Some ts) ->
  match cat ps with EmptyString => k_empty k = true | String c _ => k_first k c = true end -> sym_ok k (cat ps) ts.
Proof.
  intros Hp H Hf. apply pieces_sym; [exact Hp| |exact Hf]. intros b Hb. specialize (H b Hb). unfold pruns in H.
  destruct (run ps b _) as [[[ts' b'] req]|]; [|discriminate]. destruct (Bool.eqb b' (k_out k)) eqn:E; [|discriminate]. apply eqb_prop in E. subst. cbn [andb] in H.
  destruct (forallb _ all_ascii) eqn:A; [|discriminate]. exists ts', req. split; [reflexivity|]. split; [congruence|exact A].
Qed.
Ltac txt ps :=
  match goal with
  | |- sym_ok ?k ?s _ =>
      change s with (cat ps);
      let v := eval vm_compute in (pruns k ps false) in
      match v with Some ?t => apply (pruns_sym k ps t);
        [repeat (apply Forall_cons; [first [exact I|assumption]|]); apply Forall_nil
        |intros [] Hb; try discriminate Hb; vm_compute; reflexivity
        |] end
  end.

Lemma stm_nil : sym_ok kStm "" [].
Proof. split; [reflexivity|]. intros b r Hb _. rewrite (Hb false eq_refl). cbn [k_out kStm]. change ("" +++ r) with r. destruct (lexs false r); reflexivity. Qed.
Lemma stm_app s ts s' ts' : sym_ok kStm s ts -> sym_ok kStm s' ts' -> sym_ok kStm (s +++ s') (ts ++ ts').
Proof.
  intros [_ H1] [_ H2]. split; [destruct (s +++ s'); reflexivity|]. intros b r Hb N. rewrite sapp_assoc, H1; [|exact Hb|destruct (s' +++ r); reflexivity].
  rewrite H2; [apply omap_app2|intros b0 E; injection E as <-; reflexivity|exact N].
Qed.
Lemma stm_first s : match s with EmptyString => k_empty kStm = true | String c _ => k_first kStm c = true end.
Proof. destruct s; reflexivity. Qed.

(** ** Grammar, goal by goal *)
Lemma T_stmts_eq l ts ts' : T_stmts l ts -> ts = ts' -> T_stmts l ts'.
Proof. intros H <-. exact H. Qed.
Lemma T_stmts_app l ts l' ts' : T_stmts l ts -> T_stmts l' ts' -> T_stmts (l ++ l') (ts ++ ts').
Proof.
  intros H. revert l' ts'. induction H as [|s ts ss us Hs _ IH]; intros l' ts' H'; [exact H'|]. cbn [app]. rewrite <- app_assoc. cbn [app]. constructor; [exact Hs|apply IH; exact H'].
Qed.
Lemma T_one s ts : T_stmt s ts -> T_stmts [s] (ts ++ [GSemi]).
Proof. intros H. apply ss_cons; [exact H|constructor]. Qed.
Ltac tp :=
  lazymatch goal with
  | |- T_ex (XBin _ _ _) _ => eapply ex_bin; [cbn; tauto|tp|tp]
  | |- T_ex ?c _ => first [eassumption|eapply ex_un; tp]
  | |- T_un (XUn _ _) _ => first [eassumption|eapply un_op; [cbn; tauto|tp]]
  | |- T_un (XSlice _) _ => eapply un_slice; tp
  | |- T_un (XStruct _) _ => first [eassumption|eapply un_struct; tp]
  | |- T_un _ _ => first [eassumption|eapply un_prim; tp]
  | |- T_prim (XId _) _ => apply pr_id
  | |- T_prim (XInt _) _ => apply pr_int
  | |- T_prim (XLit _) _ => apply pr_lit
  | |- T_prim (XParen _) _ => eapply pr_paren; tp
  | |- T_prim (XSel _ _) _ => eapply pr_sel; tp
  | |- T_prim (XIdx _ _) _ => eapply pr_idx; tp
  | |- T_prim (XFull _) _ => eapply pr_full; tp
  | |- T_prim (XCall _ _) _ => eapply pr_call; tp
  | |- T_args [] _ => apply ar_nil
  | |- T_args [_] _ => eapply ar_one; tp
  | |- T_args (_ :: _) _ => eapply ar_cons; [tp|discriminate|tp]
  | |- T_ty (XId _) _ => apply ty_id
  | |- T_ty (XUn _ _) _ => eapply ty_ptr; tp
  | |- T_ty (XSlice _) _ => eapply ty_slice; tp
  | |- T_ty (XStruct _) _ => first [eassumption|eapply ty_struct; tp]
  | |- T_ty (XSel (XId _) _) _ => eapply ty_qual
  | |- T_ty _ _ => eassumption
  | |- T_rhs (XUn "&" (XComp _ _)) _ => eapply rh_addr; tp
  | |- T_rhs (XComp _ _) _ => eapply rh_comp; tp
  | |- T_rhs _ _ => eapply rh_ex; tp
  | |- T_stmt (YExpr _) _ => eapply st_expr; tp
  | |- T_stmt (YVar _ _) _ => eapply st_var; tp
  | |- T_stmt (YDef _ _) _ => eapply st_def; tp
  | |- T_stmt (YSet _ _) _ => eapply st_set; [tp|tp]
  | |- T_stmt (YBlock _) _ => eapply st_block; tp
  | |- T_stmt (YIf _ _ None) _ => eapply st_if; [tp|tp]
  | |- T_stmt (YIf _ _ (Some _)) _ => eapply st_else; [tp|tp|tp]
  | |- T_stmt (YFor _ _ _ _ _) _ => eapply st_for; [tp|tp|tp]
  | |- T_stmt (YSwitch _ _) _ => eapply st_switch; [tp|tp]
  | |- T_stmt YFall _ => apply st_fall
  | |- T_stmt (YRet []) _ => apply st_ret0
  | |- T_stmt (YRet _) _ => eapply st_ret; tp
  | |- T_rhss [_] _ => eapply rs_one; tp
  | |- T_rhss _ _ => eapply rs_cons; [tp|discriminate|tp]
  | |- T_body [] _ => apply bo_all; apply ss_nil
  | |- T_body ?l _ => first [eassumption|eapply bo_all; tp]
  | |- T_stmts [] _ => apply ss_nil
  | |- T_stmts (_ :: _) _ => eapply ss_cons; [tp|tp]
  | |- T_stmts _ _ => eassumption
  | |- T_cls _ _ => eassumption
  | _ => idtac
  end.
Ltac tnorm := repeat (rewrite <- app_assoc || cbn [app]); reflexivity.
(** Close a goal [T_stmts l ts] with a known list of tokens. *)
Ltac tst := eapply T_stmts_eq; [tp|tnorm].

Definition ptr_ok (p : string) (P : expr) : Prop := exists ts, sym_ok kPtr p ts /\ T_un (cx_of P) ts.
Definition ty_okt (s : string) (g : gty) : Prop := exists ts, sym_ok kTy s ts /\ T_ty (ct_of g) ts /\ (match g with GArr _ _ => True | _ => T_un (ct_of g) ts end).
Definition stm_ok (s : string) (ss : list stmt) : Prop := exists ts, sym_ok kStm s ts /\ T_stmts (css_of ss) ts.
Lemma stm_ok_nil : stm_ok "" [].
Proof. exists []. split; [apply stm_nil|constructor]. Qed.
Lemma stm_ok_app s ss s' ss' : stm_ok s ss -> stm_ok s' ss' -> stm_ok (s +++ s') (ss ++ ss').
Proof. intros (ts & L & T) (ts' & L' & T'). exists (ts ++ ts'). split; [apply stm_app; assumption|]. unfold css_of. rewrite map_app. apply T_stmts_app; assumption. Qed.

Lemma txt_u32 p P : ptr_ok p P -> stm_ok (goXdr_u32 p) [xU32 P].
Proof.
  intros (ts & L & T). eexists. split.
  - txt [PLit "xdr.XdrU32(xs, (*uint32)("; PSym kPtr p ts; PLit ("));" +++ NL)]. reflexivity.
  - cbn [css_of map cs_of xU32 cx_of ct_of gU32]. tst.
Qed.

(** ** Names and numbers of a specification *)
Lemma cap_word n : is_word n = true -> is_word (cap n) = true /\ mem (cap n) keywords = false.
Proof.
  intros H. unfold cap. destruct (String.eqb n "TRUE"); [split; reflexivity|]. destruct (String.eqb n "FALSE"); [split; reflexivity|].
  destruct n as [|c r]; [discriminate|]. cbn [is_word] in *. apply andb_true_iff in H. destruct H as [Hc Hr]. rewrite Hr, andb_true_r.
  destruct c as [[] [] [] [] [] [] [] []]; try discriminate Hc; split; reflexivity.
Qed.
Lemma cap_sym n : is_word n = true -> sym_ok kWord (cap n) [GIdent (cap n)].
Proof. intros H. destruct (cap_word n H). apply word_sym; assumption. Qed.
(** A case label. *)
Definition is_lab (s : string) : bool := is_int s || is_word s.
Lemma cap_int s : is_int s = true -> cap s = s.
Proof.
  unfold is_int. intros H. apply andb_true_iff in H. destruct H as [H _]. destruct s as [|c r]; [discriminate|]. cbn in H.
  destruct c as [[] [] [] [] [] [] [] []]; try discriminate H; reflexivity.
Qed.
Lemma cap_lab s : is_lab s = true -> is_val (cap s) = true.
Proof.
  unfold is_lab, is_val. rewrite orb_true_iff. intros [H|H].
  - rewrite (cap_int s H), H. reflexivity.
  - destruct (cap_word s H) as [-> ->]. apply orb_true_r.
Qed.
Lemma val_prim s : is_val s = true -> T_prim (cx_of (val_expr s)) [val_tok s].
Proof.
  intros H. unfold val_expr, val_tok. destruct (head_is is_digit s) eqn:D; [|cbn; constructor]. cbn [cx_of].
  destruct (String.eqb_spec s "-1") as [->|]; [discriminate|constructor].
Qed.
Lemma val_sz s : T_sz (cval_of s) (val_tok s).
Proof. unfold cval_of, val_tok. destruct (head_is is_digit s); constructor. Qed.

Definition bound_val (s : string) : bool := String.eqb s "" || is_val s.
(** Every name is one, every value is a number or a name that is not a keyword of Go. *)
Fixpoint wd (t : typespec) : bool :=
  match t with
  | typeStruct items => (fix go l := match l with [] => true | d :: l => wd_d d && go l end) items
  | typeUnion sw cases def =>
      wd_d sw &&
      (fix go (l : list (list string * decl)) := match l with [] => true | c :: l => match fst c with [] => false | _ => forallb is_lab (fst c) end && wd_d (snd c) && go l end) cases &&
      match def with Some d => wd_d d | None => true end
  | typeIdent n => is_word n
  | _ => true
  end
with wd_dt (t : declType) : bool :=
  match t with
  | declTypeTypespec t => wd t
  | declTypeArray t sz => wd t && is_val sz
  | declTypeVarArray t sz => wd t && bound_val sz
  | declTypeOpaqueArray sz => is_val sz
  | declTypeOpaqueVarArray sz | declTypeString sz => bound_val sz
  | declTypePtr t => wd t
  end
with wd_d (d : decl) : bool := match d with declVoid => true | declName t n => wd_dt t && is_word n end.

Lemma T_un_eq c ts ts' : T_un c ts -> ts = ts' -> T_un c ts'.
Proof. intros H <-. exact H. Qed.
(** ** Pointers *)
Lemma ptr_v : ptr_ok "v" (EVar "v").
Proof. eexists. split; [txt [PLit "v"]; reflexivity|]. cbn [cx_of]. eapply T_un_eq; [tp|tnorm]. Qed.
Lemma ptr_vP : ptr_ok "&v.P" (EAddr (ESel (EVar "v") "P")).
Proof. eexists. split; [txt [PLit "&v.P"]; reflexivity|]. cbn [cx_of]. eapply T_un_eq; [tp|tnorm]. Qed.
Lemma ptr_sz : ptr_ok "&__arraysz" (EAddr (EVar "__arraysz")).
Proof. eexists. split; [txt [PLit "&__arraysz"]; reflexivity|]. cbn [cx_of]. eapply T_un_eq; [tp|tnorm]. Qed.
Lemma ptr_opted : ptr_ok "&opted" (EAddr (EVar "opted")).
Proof. eexists. split; [txt [PLit "&opted"]; reflexivity|]. cbn [cx_of]. eapply T_un_eq; [tp|tnorm]. Qed.
Lemma ptr_field p P n : ptr_ok p P -> is_word n = true -> ptr_ok (field_ptr p n) (fieldP P n).
Proof.
  intros (ts & L & T) Hn. pose proof (cap_sym n Hn) as W. unfold field_ptr, fieldP. generalize dependent (cap n). intros w W. eexists. split.
  - txt [PLit "&(("; PSym kPtr p ts; PLit ")."; PSym kWord w [GIdent w]; PLit ")"]. reflexivity.
  - cbn [cx_of]. eapply T_un_eq; [tp|tnorm].
Qed.
Lemma ptr_elem p P : ptr_ok p P -> ptr_ok ("&((*(" +++ p +++ "))[i])") (elemP P).
Proof.
  intros (ts & L & T). eexists. split; [txt [PLit "&((*("; PSym kPtr p ts; PLit "))[i])"]; reflexivity|]. cbn [cx_of elemP]. eapply T_un_eq; [tp|tnorm].
Qed.
Lemma ptr_fixed p P : ptr_ok p P -> ptr_ok ("&(*(" +++ p +++ ")[i])") (fixedP P).
Proof.
  intros (ts & L & T). eexists. split; [txt [PLit "&(*("; PSym kPtr p ts; PLit ")[i])"]; reflexivity|]. cbn [cx_of fixedP]. eapply T_un_eq; [tp|tnorm].
Qed.
Lemma ptr_deref p P : ptr_ok p P -> ptr_ok ("*(" +++ p +++ ")") (derefP P).
Proof.
  intros (ts & L & T). eexists. split; [txt [PLit "*("; PSym kPtr p ts; PLit ")"]; reflexivity|]. cbn [cx_of derefP]. eapply T_un_eq; [tp|tnorm].
Qed.

(** ** Types *)
Definition cf_of (f : string * gty) : string * cx := (fst f, ct_of (snd f)).
Lemma ct_struct fs : ct_of (GStruct fs) = XStruct (map cf_of fs).
Proof. reflexivity. Qed.
Definition fld_ok (s : string) (fs : list (string * gty)) : Prop :=
  exists ts, sym_ok kStm s ts /\ forall gs us, T_fields gs us -> T_fields (map cf_of fs ++ gs) (ts ++ us).
Lemma fld_nil : fld_ok "" [].
Proof. exists []. split; [apply stm_nil|]. intros gs us H. exact H. Qed.
Lemma fld_app s fs s' fs' : fld_ok s fs -> fld_ok s' fs' -> fld_ok (s +++ s') (fs ++ fs').
Proof.
  intros (ts & L & T) (ts' & L' & T'). exists (ts ++ ts'). split; [apply stm_app; assumption|]. intros gs us H. rewrite map_app, <- !app_assoc. apply T, T', H.
Qed.
Lemma fld_one w s g : sym_ok kWord w [GIdent w] -> ty_okt s g -> fld_ok (w +++ " " +++ s +++ ";") [(w, g)].
Proof.
  intros W (ts & L & T & _). eexists. split; [txt [PSym kWord w [GIdent w]; PLit " "; PSym kTy s ts; PLit ";"]; apply stm_first|].
  intros gs us H. cbn [map cf_of fst snd app]. rewrite <- app_assoc. cbn [app]. apply fs_cons; assumption.
Qed.
Lemma ty_lit s g ts : sym_ok kTy s ts -> T_ty (ct_of g) ts -> match g with GArr _ _ => True | _ => T_un (ct_of g) ts end -> ty_okt s g.
Proof. intros. exists ts. auto. Qed.
Lemma ty_basic b : In b ["uint32"; "int32"; "uint64"; "int64"; "float32"; "float64"; "bool"; "string"; "byte"] -> ty_okt b (GBasic b).
Proof.
  intros H. cbn in H. repeat (destruct H as [<-|H]); [..|destruct H];
    (eapply ty_lit; [match goal with |- sym_ok _ ?b _ => txt [PLit b]; reflexivity end|constructor|cbn [ct_of]; tp]).
Qed.
Lemma ty_word w : sym_ok kWord w [GIdent w] -> ty_okt w (GNamed w).
Proof.
  intros W. apply (ty_lit w (GNamed w) [GIdent w]); [|constructor|cbn [ct_of]; tp].
  destruct W as [F L]. split; [destruct w; [discriminate|]; cbn in *; rewrite F; reflexivity|exact L].
Qed.
Lemma ty_struct_txt s fs : fld_ok s fs -> ty_okt ("struct { " +++ s +++ "}") (GStruct fs).
Proof.
  intros (ts & L & T). specialize (T [] [] fs_nil). rewrite !app_nil_r in T.
  eapply ty_lit; [txt [PLit "struct { "; PSym kStm s ts; PLit "}"]; reflexivity| |]; rewrite ct_struct; constructor; exact T.
Qed.
Lemma ty_slice_txt s g : ty_okt s g -> ty_okt ("[]" +++ s) (GSlice g).
Proof.
  intros (ts & L & T & _). apply (ty_lit _ _ (GOp "[" :: GOp "]" :: ts)); [rewrite <- (app_nil_r ts); txt [PLit "[]"; PSym kTy s ts]; reflexivity| |]; cbn [ct_of]; constructor; exact T.
Qed.
Lemma ty_ptr_txt s g : ty_okt s g -> match g with GArr _ _ => False | _ => True end -> ty_okt ("*" +++ s) (GPtr g).
Proof.
  intros (ts & L & T & U) N. apply (ty_lit _ _ (GOp "*" :: ts)); [rewrite <- (app_nil_r ts); txt [PLit "*"; PSym kTy s ts]; reflexivity| |]; cbn [ct_of]; [constructor; exact T|].
  apply un_op; [cbn; tauto|]. destruct g; try exact U. destruct N.
Qed.
Lemma ty_arr_txt z s g : is_val z = true -> ty_okt s g -> ty_okt ("[" +++ z +++ "]" +++ s) (GArr z g).
Proof.
  intros Z (ts & L & T & _). pose proof (val_sym z Z) as V. pose proof (val_sz z) as Vz. cbn [ct_of]. 
  eapply ty_lit; [| |exact I]; [|cbn [ct_of]; eapply ty_arr; [exact Vz|exact T]]. generalize dependent (val_tok z). intros v V Vz.
  rewrite <- (app_nil_r ts). txt [PLit "["; PSym kVal z [v]; PLit "]"; PSym kTy s ts]. reflexivity.
Qed.

Definition its_gt := fix go (l : list decl) := match l with [] => Some [] | d :: l => do a <- gt_field d ; do b <- go l ; Some (a ++ b) end.
Definition cases_gt := fix go (l : list (list string * decl)) := match l with [] => Some [] | c :: l => do a <- gt_field (snd c) ; do b <- go l ; Some (a ++ b) end.
Lemma gt_struct_eq l : gt (typeStruct l) = do fs <- its_gt l ; Some (GStruct fs).
Proof. reflexivity. Qed.
Lemma gt_union_eq s c d : gt (typeUnion s c d) =
  do a <- gt_field s ; do b <- cases_gt c ; do e <- match d with Some d => gt_field d | None => Some [] end ; Some (GStruct (a ++ b ++ e)).
Proof. reflexivity. Qed.
Lemma gt_noarr t g : gt t = Some g -> match g with GArr _ _ => False | _ => True end.
Proof.
  destruct t; intros H.
  1-7: cbn in H; try discriminate; injection H as <-; try exact I; match goal with |- context [if ?u then _ else _] => destruct u; exact I end.
  - rewrite gt_struct_eq in H. destruct (its_gt _); [|discriminate]. injection H as <-. exact I.
  - rewrite gt_union_eq in H. repeat match type of H with context [pbind ?o _] => destruct o; cbn [pbind] in H; [|discriminate] end. injection H as <-. exact I.
  - injection H as <-. exact I.
Qed.
Definition wd_its := fix go (l : list decl) := match l with [] => true | d :: l => wd_d d && go l end.
Definition wd_cases := fix go (l : list (list string * decl)) :=
  match l with [] => true | c :: l => match fst c with [] => false | _ => forallb is_lab (fst c) end && wd_d (snd c) && go l end.
Lemma wd_union s c d : wd (typeUnion s c d) = wd_d s && wd_cases c && match d with Some d => wd_d d | None => true end.
Proof. reflexivity. Qed.
Lemma some_inv {A B} (o : option A) (k : A -> option B) b : (do a <- o ; k a) = Some b -> exists a, o = Some a /\ k a = Some b.
Proof. destruct o; cbn; [eauto|discriminate]. Qed.
Lemma some_eq {A} (a b : A) : Some a = Some b -> a = b.
Proof. congruence. Qed.
Ltac sinv H := apply some_inv in H; let a := fresh "a" in let E := fresh "E" in destruct H as (a & E & H).

Lemma type_text :
  (forall t, wd t = true -> forall s, goType t = Some s -> exists g, gt t = Some g /\ ty_okt s g) /\
  (forall t, wd_dt t = true -> forall s, declGoType t = Some s -> exists g, gt_dt t = Some g /\ ty_okt s g) /\
  (forall d, wd_d d = true -> forall s, nameGotype d = Some s -> exists fs, gt_field d = Some fs /\ fld_ok s fs).
Proof.
  assert (IT : forall l, Forall (fun d => wd_d d = true -> forall s, nameGotype d = Some s -> exists fs, gt_field d = Some fs /\ fld_ok s fs) l ->
            wd_its l = true -> forall s, items_type l = Some s -> exists fs, its_gt l = Some fs /\ fld_ok s fs).
  { induction 1 as [|d l Hd _ IH]; intros W s H; cbn in H, W |- *.
    - injection H as <-. exists []. split; [reflexivity|apply fld_nil].
    - apply andb_true_iff in W. destruct W as [W1 W2]. sinv H. sinv H. injection H as <-.
      destruct (Hd W1 _ E) as (f1 & -> & F1). destruct (IH W2 _ E0) as (f2 & G2 & F2). fold its_gt. rewrite G2. exists (f1 ++ f2). split; [reflexivity|apply fld_app; assumption]. }
  assert (CT : forall l, Forall (fun c => wd_d (snd c) = true -> forall s, nameGotype (snd c) = Some s -> exists fs, gt_field (snd c) = Some fs /\ fld_ok s fs) l ->
            wd_cases l = true -> forall s, cases_type l = Some s -> exists fs, cases_gt l = Some fs /\ fld_ok s fs).
  { induction 1 as [|d l Hd _ IH]; intros W s H; cbn in H, W |- *.
    - injection H as <-. exists []. split; [reflexivity|apply fld_nil].
    - apply andb_true_iff in W. destruct W as [W1 W2]. apply andb_true_iff in W1. destruct W1 as [_ W1]. sinv H. sinv H. injection H as <-.
      destruct (Hd W1 _ E) as (f1 & -> & F1). destruct (IH W2 _ E0) as (f2 & G2 & F2). fold cases_gt. rewrite G2. exists (f1 ++ f2). split; [reflexivity|apply fld_app; assumption]. }
  apply ast_ind.
  - intros u _ s H. injection H as <-. eexists. split; [reflexivity|]. destruct u; apply ty_basic; cbn; tauto.
  - intros u _ s H. injection H as <-. eexists. split; [reflexivity|]. destruct u; apply ty_basic; cbn; tauto.
  - intros _ s H. injection H as <-. eexists. split; [reflexivity|]. apply ty_basic; cbn; tauto.
  - intros _ s H. injection H as <-. eexists. split; [reflexivity|]. apply ty_basic; cbn; tauto.
  - discriminate.
  - intros _ s H. injection H as <-. eexists. split; [reflexivity|]. apply ty_basic; cbn; tauto.
  - intros l _ s H. injection H as <-. eexists. split; [reflexivity|]. apply ty_basic; cbn; tauto.
  - intros l Hl W s H. rewrite goType_struct in H. sinv H. injection H as <-. destruct (IT l Hl W _ E) as (fs & G & F). rewrite gt_struct_eq, G. eexists. split; [reflexivity|]. apply ty_struct_txt. exact F.
  - intros sw c d Hs Hc Hd W s H. rewrite goType_union in H. rewrite wd_union in W. apply andb_true_iff in W. destruct W as [W W3]. apply andb_true_iff in W. destruct W as [W1 W2].
    sinv H. sinv H. sinv H. injection H as <-. destruct (Hs W1 _ E) as (f1 & G1 & F1). destruct (CT c Hc W2 _ E0) as (f2 & G2 & F2). rewrite gt_union_eq, G1, G2. cbn [pbind].
    assert (exists f3, match d with Some d => gt_field d | None => Some [] end = Some f3 /\ fld_ok a1 f3) as (f3 & G3 & F3).
    { destruct d as [d|]; [apply (Hd d eq_refl W3 _ E1)|]. injection E1 as <-. exists []. split; [reflexivity|apply fld_nil]. }
    rewrite G3. cbn [pbind]. eexists. split; [reflexivity|]. replace (a +++ a0 +++ a1 +++ "}") with ((a +++ a0 +++ a1) +++ "}") by (rewrite !sapp_assoc; reflexivity).
    apply ty_struct_txt. apply fld_app; [exact F1|]. apply fld_app; assumption.
  - intros n W s H. injection H as <-. eexists. split; [reflexivity|]. apply ty_word. apply cap_sym. exact W.
  - intros t IH W s H. apply IH; assumption.
  - intros t sz IH W s H. cbn in H, W |- *. apply andb_true_iff in W. destruct W as [W Z]. sinv H. injection H as <-. destruct (IH W _ E) as (g & -> & G). eexists. split; [reflexivity|]. apply ty_arr_txt; assumption.
  - intros t sz IH W s H. cbn in H, W |- *. apply andb_true_iff in W. destruct W as [W Z]. sinv H. injection H as <-. destruct (IH W _ E) as (g & -> & G). eexists. split; [reflexivity|]. apply ty_slice_txt; assumption.
  - intros sz W s H. injection H as <-. eexists. split; [reflexivity|]. apply ty_arr_txt; [exact W|]. apply ty_basic; cbn; tauto.
  - intros sz W s H. injection H as <-. eexists. split; [reflexivity|]. apply (ty_slice_txt "byte"). apply ty_basic; cbn; tauto.
  - intros sz W s H. injection H as <-. eexists. split; [reflexivity|]. apply ty_basic; cbn; tauto.
  - intros t IH W s H. cbn in H |- *. sinv H. injection H as <-. destruct (IH W _ E) as (g & Eg & G). rewrite Eg. eexists. split; [reflexivity|]. apply ty_ptr_txt; [exact G|eapply gt_noarr; exact Eg].
  - intros _ s H. injection H as <-. exists []. split; [reflexivity|apply fld_nil].
  - intros t n IH W s H. cbn in H, W |- *. apply andb_true_iff in W. destruct W as [W Wn]. sinv H. injection H as <-. destruct (IH W _ E) as (g & -> & G). eexists. split; [reflexivity|]. apply fld_one; [apply cap_sym; exact Wn|exact G].
Qed.

(** ** Statements *)
Ltac stm1 := cbn [css_of map cs_of xBool cx_of ct_of gU32 gS32 gU64 gS64 gBool gString gByte gInt]; tst.
Lemma txt_s32 p P : ptr_ok p P -> stm_ok ("xdr.XdrS32(xs, (*int32)(" +++ p +++ "));" +++ NL) [SPkg "XdrS32" [EVar "xs"; EConv (GPtr gS32) P]].
Proof.
  intros (ts & L & T). eexists. split; [txt [PLit "xdr.XdrS32(xs, (*int32)("; PSym kPtr p ts; PLit ("));" +++ NL)]; reflexivity|stm1].
Qed.
Lemma txt_u64 p P : ptr_ok p P -> stm_ok ("xdr.XdrU64(xs, (*uint64)(" +++ p +++ "));" +++ NL) [SPkg "XdrU64" [EVar "xs"; EConv (GPtr gU64) P]].
Proof.
  intros (ts & L & T). eexists. split; [txt [PLit "xdr.XdrU64(xs, (*uint64)("; PSym kPtr p ts; PLit ("));" +++ NL)]; reflexivity|stm1].
Qed.
Lemma txt_s64 p P : ptr_ok p P -> stm_ok ("xdr.XdrS64(xs, (*int64)(" +++ p +++ "));" +++ NL) [SPkg "XdrS64" [EVar "xs"; EConv (GPtr gS64) P]].
Proof.
  intros (ts & L & T). eexists. split; [txt [PLit "xdr.XdrS64(xs, (*int64)("; PSym kPtr p ts; PLit ("));" +++ NL)]; reflexivity|stm1].
Qed.
Lemma txt_bool p P : ptr_ok p P -> stm_ok (goXdr_bool p) [xBool P].
Proof.
  intros (ts & L & T). eexists. split; [txt [PLit "xdr.XdrBool(xs, (*bool)("; PSym kPtr p ts; PLit ("));" +++ NL)]; reflexivity|stm1].
Qed.
Lemma txt_ident w p P : sym_ok kWord w [GIdent w] -> ptr_ok p P ->
  stm_ok ("(*" +++ w +++ ")(" +++ p +++ ").Xdr(xs);" +++ NL) [SMeth (EConv (GPtr (GNamed w)) P) "Xdr" [EVar "xs"]].
Proof.
  intros W (ts & L & T). eexists. split; [txt [PLit "(*"; PSym kWord w [GIdent w]; PLit ")("; PSym kPtr p ts; PLit (").Xdr(xs);" +++ NL)]; reflexivity|stm1].
Qed.
Lemma txt_opaque p P : ptr_ok p P -> stm_ok ("xdr.XdrArray(xs, (*" +++ p +++ ")[:]);" +++ NL) [SPkg "XdrArray" [EVar "xs"; EAll (EParen (EDeref P))]].
Proof.
  intros (ts & L & T). eexists. split; [txt [PLit "xdr.XdrArray(xs, (*"; PSym kPtr p ts; PLit (")[:]);" +++ NL)]; reflexivity|stm1].
Qed.
Lemma size_text sz : bound_val sz = true -> exists ts, sym_ok (mkKind (fun c => is_idchar c || is_one_of "-" c) false (chr ")") None true) (size_or sz) ts /\ T_un (cx_of (size_expr sz)) ts.
Proof.
  unfold bound_val, size_or, size_expr. destruct (String.eqb sz "") eqn:E; intros H.
  - eexists. split; [txt [PLit "-1"]; reflexivity|]. cbn [cx_of]. change (String.eqb "-1" "-1") with true. cbv iota. eapply T_un_eq; [tp|tnorm].
  - cbn [orb] in H. exists [val_tok sz]. split.
    + destruct (val_sym sz H) as [F L]. split; [destruct sz; [discriminate|]; cbn in *; rewrite F; reflexivity|]. intros b r Hb N. apply L; [exact Hb|]. destruct r; [exact I|]. cbn in *. apply Ascii.eqb_eq in N. subst. reflexivity.
    + apply un_prim, val_prim, H.
Qed.
Lemma txt_varopaque sz p P : bound_val sz = true -> ptr_ok p P ->
  stm_ok ("xdr.XdrVarArray(xs, int(" +++ size_or sz +++ "), (*[]byte)(" +++ p +++ "));" +++ NL) [SPkg "XdrVarArray" [EVar "xs"; EConv gInt (size_expr sz); EConv (GPtr (GSlice gByte)) P]].
Proof.
  intros Z (ts & L & T). destruct (size_text sz Z) as (zs & Lz & Tz). revert Lz Tz. generalize (size_or sz) (size_expr sz). intros z Ez Lz Tz. eexists.
  split; [txt [PLit "xdr.XdrVarArray(xs, int("; PSym (mkKind (fun c => is_idchar c || is_one_of "-" c) false (chr ")") None true) z zs; PLit "), (*[]byte)("; PSym kPtr p ts; PLit ("));" +++ NL)]; reflexivity|stm1].
Qed.
Lemma txt_string sz p P : bound_val sz = true -> ptr_ok p P ->
  stm_ok ("xdr.XdrString(xs, int(" +++ size_or sz +++ "), (*string)(" +++ p +++ "));" +++ NL) [SPkg "XdrString" [EVar "xs"; EConv gInt (size_expr sz); EConv (GPtr gString) P]].
Proof.
  intros Z (ts & L & T). destruct (size_text sz Z) as (zs & Lz & Tz). revert Lz Tz. generalize (size_or sz) (size_expr sz). intros z Ez Lz Tz. eexists.
  split; [txt [PLit "xdr.XdrString(xs, int("; PSym (mkKind (fun c => is_idchar c || is_one_of "-" c) false (chr ")") None true) z zs; PLit "), (*string)("; PSym kPtr p ts; PLit ("));" +++ NL)]; reflexivity|stm1].
Qed.
Lemma css_cons s ss : css_of (s :: ss) = cs_of s :: css_of ss.
Proof. reflexivity. Qed.
Lemma txt_fixed z b ss : is_val z = true -> stm_ok b ss ->
  stm_ok ("for i := 0; i < " +++ z +++ "; i++ {" +++ NL +++ b +++ NL +++ "}" +++ NL) [SFor "i" (ENum "0") (ELt (EVar "i") (val_expr z)) ss].
Proof.
  intros Z (bs & Lb & Tb). pose proof (val_sym z Z) as V. pose proof (un_prim _ _ (val_prim z Z)) as Tv. revert V Tv. generalize (val_tok z) (val_expr z). intros v Ez V Tv. eexists. split.
  - txt [PLit "for i := 0; i < "; PSym kVal z [v]; PLit ("; i++ {" +++ NL); PSym kStm b bs; PLit (NL +++ "}" +++ NL)]. reflexivity.
  - rewrite css_cons, cs_for. cbn [cx_of css_of map]. change (map cs_of ss) with (css_of ss). change (String.eqb "0" "-1") with false. cbv iota. tst.
Qed.
Lemma txt_vararr0 p P e g b ss : ptr_ok p P -> ty_okt e g -> stm_ok b ss ->
  stm_ok ("{" +++ NL +++ "var __arraysz uint32" +++ NL +++ "xs.EncodingSetSize(&__arraysz, len(*" +++ p +++ "));" +++ NL +++ goXdr_u32 "&__arraysz" +++ NL +++ "" +++
          "if xs.Decoding() { *" +++ p +++ " = make([]" +++ e +++ ", __arraysz); }" +++ NL +++
          "for i := uint64(0); i < uint64(__arraysz); i++ {" +++ NL +++ b +++ NL +++ "}" +++ NL +++ "" +++ "}" +++ NL) [SBlock (arr_body P "" g ss)].
Proof.
  intros (ts & L & T) (te & Le & Te & _) (bs & Lb & Tb). eexists. split.
  - txt [PLit ("{" +++ NL +++ "var __arraysz uint32" +++ NL +++ "xs.EncodingSetSize(&__arraysz, len(*"); PSym kPtr p ts;
         PLit ("));" +++ NL +++ goXdr_u32 "&__arraysz" +++ NL +++ "if xs.Decoding() { *"); PSym kPtr p ts; PLit " = make([]"; PSym kTy e te;
         PLit (", __arraysz); }" +++ NL +++ "for i := uint64(0); i < uint64(__arraysz); i++ {" +++ NL); PSym kStm b bs; PLit (NL +++ "}" +++ NL +++ "}" +++ NL)]. reflexivity.
  - rewrite css_cons, cs_block. unfold arr_body. change (String.eqb "" "") with true. cbv iota. cbn [app]. rewrite !css_cons, cs_if, cs_for.
    cbn [css_of map option_map cs_of cx_of ct_of gU32 gU64 xU32]. change (map cs_of ss) with (css_of ss). change (String.eqb "0" "-1") with false. cbv iota. tst.
Qed.
Lemma txt_vararr p P z e g b ss : ptr_ok p P -> is_val z = true -> ty_okt e g -> stm_ok b ss ->
  stm_ok ("{" +++ NL +++ "var __arraysz uint32" +++ NL +++ "xs.EncodingSetSize(&__arraysz, len(*" +++ p +++ "));" +++ NL +++ goXdr_u32 "&__arraysz" +++ NL +++
          ("if __arraysz > " +++ z +++ " { xs.SetError(" +++ DQ +++ "array too large" +++ DQ +++ ") } else {" +++ NL) +++
          "if xs.Decoding() { *" +++ p +++ " = make([]" +++ e +++ ", __arraysz); }" +++ NL +++
          "for i := uint64(0); i < uint64(__arraysz); i++ {" +++ NL +++ b +++ NL +++ "}" +++ NL +++ ("}" +++ NL) +++ "}" +++ NL) [SBlock (arr_body P z g ss)].
Proof.
  intros (ts & L & T) Z (te & Le & Te & _) (bs & Lb & Tb). pose proof (val_sym z Z) as V. pose proof (un_prim _ _ (val_prim z Z)) as Tv.
  unfold arr_body. replace (String.eqb z "") with false by (destruct z; [discriminate Z|reflexivity]). revert V Tv. generalize (val_tok z) (val_expr z). intros v Ez V Tv. eexists. split.
  - rewrite !sapp_assoc. txt [PLit ("{" +++ NL +++ "var __arraysz uint32" +++ NL +++ "xs.EncodingSetSize(&__arraysz, len(*"); PSym kPtr p ts;
         PLit ("));" +++ NL +++ goXdr_u32 "&__arraysz" +++ NL +++ "if __arraysz > "); PSym kVal z [v];
         PLit (" { xs.SetError(" +++ DQ +++ "array too large" +++ DQ +++ ") } else {" +++ NL +++ "if xs.Decoding() { *"); PSym kPtr p ts; PLit " = make([]"; PSym kTy e te;
         PLit (", __arraysz); }" +++ NL +++ "for i := uint64(0); i < uint64(__arraysz); i++ {" +++ NL); PSym kStm b bs; PLit (NL +++ "}" +++ NL +++ "}" +++ NL +++ "}" +++ NL)]. reflexivity.
  - rewrite css_cons, cs_block. cbn [app]. rewrite !css_cons, cs_if. cbn [option_map]. rewrite !css_cons, cs_if, cs_for.
    cbn [css_of map option_map cs_of cx_of ct_of gU32 gU64 xU32]. change (map cs_of ss) with (css_of ss). change (String.eqb "0" "-1") with false. cbv iota.
    eapply T_stmts_eq; [|shelve]. eapply ss_cons; [|apply ss_nil]. eapply st_block. eapply bo_all. eapply ss_cons; [tp|]. eapply ss_cons; [tp|]. eapply ss_cons; [tp|]. eapply ss_cons; [|apply ss_nil].
    eapply st_else; [tp|eapply (bo_last []); [apply ss_nil|tp]|tp]. Unshelve. tnorm.
Qed.
Lemma txt_ptr p P e g b ss : ptr_ok p P -> ty_okt e g -> match g with GArr _ _ => False | _ => True end -> stm_ok b ss ->
  stm_ok ("if xs.Encoding() {" +++ NL +++ "opted := *(" +++ p +++ ") != nil" +++ NL +++ goXdr_bool "&opted" +++
            "if opted {" +++ NL +++ b +++ "}" +++ NL +++ "}" +++ NL +++
            "if xs.Decoding() {" +++ NL +++ "var opted bool" +++ NL +++ goXdr_bool "&opted" +++
            "if opted {" +++ NL +++ "*(" +++ p +++ ") = new(" +++ e +++ ")" +++ NL +++ b +++ "}" +++ NL +++ "}" +++ NL) (ptr_body P g ss).
Proof.
  intros (ts & L & T) (te & Le & _ & Te) N (bs & Lb & Tb). assert (Te' : T_un (ct_of g) te) by (destruct g; try exact Te; destruct N). clear Te N. eexists. split.
  - txt [PLit ("if xs.Encoding() {" +++ NL +++ "opted := *("); PSym kPtr p ts; PLit (") != nil" +++ NL +++ goXdr_bool "&opted" +++ "if opted {" +++ NL); PSym kStm b bs;
         PLit ("}" +++ NL +++ "}" +++ NL +++ "if xs.Decoding() {" +++ NL +++ "var opted bool" +++ NL +++ goXdr_bool "&opted" +++ "if opted {" +++ NL +++ "*("); PSym kPtr p ts; PLit ") = new(";
         PSym kTy e te; PLit (")" +++ NL); PSym kStm b bs; PLit ("}" +++ NL +++ "}" +++ NL)]. reflexivity.
  - unfold ptr_body. rewrite !css_cons, !cs_if, !css_cons, !cs_if, !css_cons.
    cbn [css_of map option_map cs_of cx_of ct_of gBool xBool derefP]. change (map cs_of ss) with (css_of ss). tst.
Qed.

(** ** Clauses of a switch *)
Definition cl_ok (s : string) (cls : list (option expr * list stmt * bool)) : Prop :=
  exists ts, sym_ok kStm s ts /\ forall l us, T_cls l us -> T_cls (map ccl_of cls ++ l) (ts ++ us).
Lemma cl_ok_nil : cl_ok "" [].
Proof. exists []. split; [apply stm_nil|]. intros l us H. exact H. Qed.
Lemma cl_ok_app s cls s' cls' : cl_ok s cls -> cl_ok s' cls' -> cl_ok (s +++ s') (cls ++ cls').
Proof.
  intros (ts & L & T) (ts' & L' & T'). exists (ts ++ ts'). split; [apply stm_app; assumption|]. intros l us H. rewrite map_app, <- !app_assoc. apply T, T', H.
Qed.
Lemma T_cls_eq l ts ts' : T_cls l ts -> ts = ts' -> T_cls l ts'.
Proof. intros H <-. exact H. Qed.
Lemma cl_fall c : is_lab c = true -> cl_ok ("case " +++ cap c +++ ":" +++ NL +++ "fallthrough" +++ NL) [(Some (val_expr (cap c)), [], true)].
Proof.
  intros H. apply cap_lab in H. revert H. generalize (cap c). intros z Z. pose proof (val_sym z Z) as V. pose proof (ex_un _ _ (un_prim _ _ (val_prim z Z))) as Tv.
  unfold cl_ok, ccl_of. cbn [map fst snd option_map css_of app]. revert V Tv. generalize (val_tok z) (val_expr z). intros v Ez V Tv. eexists. split.
  - txt [PLit "case "; PSym kVal z [v]; PLit (":" +++ NL +++ "fallthrough" +++ NL)]. reflexivity.
  - intros l us Hl. eapply T_cls_eq; [eapply cl_case; [exact Tv|eapply ss_cons; [apply st_fall|apply ss_nil]|exact Hl]|tnorm].
Qed.
Lemma cl_last c b ss : is_lab c = true -> stm_ok b ss -> cl_ok ("case " +++ cap c +++ ":" +++ NL +++ b) [(Some (val_expr (cap c)), ss, false)].
Proof.
  intros H (bs & Lb & Tb). apply cap_lab in H. revert H. generalize (cap c). intros z Z. pose proof (val_sym z Z) as V. pose proof (ex_un _ _ (un_prim _ _ (val_prim z Z))) as Tv.
  unfold cl_ok, ccl_of. cbn [map fst snd option_map app]. rewrite app_nil_r. revert V Tv. generalize (val_tok z) (val_expr z). intros v Ez V Tv. eexists. split.
  - rewrite <- (app_nil_r bs) in Lb. txt [PLit "case "; PSym kVal z [v]; PLit (":" +++ NL); PSym kStm b (bs ++ [])]. reflexivity.
  - intros l us Hl. eapply T_cls_eq; [eapply cl_case; [exact Tv|exact Tb|exact Hl]|repeat (rewrite <- app_assoc || cbn [app] || rewrite app_nil_r); reflexivity].
Qed.
Lemma cl_default b ss : stm_ok b ss -> cl_ok ("default:" +++ NL +++ b) [(None, ss, false)].
Proof.
  intros (bs & Lb & Tb). unfold cl_ok, ccl_of. cbn [map fst snd option_map app]. rewrite app_nil_r. eexists. split.
  - rewrite <- (app_nil_r bs) in Lb. txt [PLit ("default:" +++ NL); PSym kStm b (bs ++ [])]. reflexivity.
  - intros l us Hl. eapply T_cls_eq; [eapply cl_def; [exact Tb|exact Hl]|repeat (rewrite <- app_assoc || cbn [app] || rewrite app_nil_r); reflexivity].
Qed.
Lemma cl_labels l b ss : l <> [] -> forallb is_lab l = true -> stm_ok b ss -> cl_ok (case_labels l +++ b) (label_clauses l ss).
Proof.
  induction l as [|c l IH]; intros N H S; [destruct (N eq_refl)|]. cbn [forallb] in H. apply andb_true_iff in H. destruct H as [Hc Hl].
  destruct l as [|d l].
  - cbn [case_labels label_clauses]. rewrite !sapp_assoc. apply cl_last; assumption.
  - change (case_labels (c :: d :: l)) with ("case " +++ cap c +++ ":" +++ NL +++ "fallthrough" +++ NL +++ case_labels (d :: l)).
    change (label_clauses (c :: d :: l) ss) with ([(Some (val_expr (cap c)), [], true)] ++ label_clauses (d :: l) ss).
    replace (("case " +++ cap c +++ ":" +++ NL +++ "fallthrough" +++ NL +++ case_labels (d :: l)) +++ b)
      with (("case " +++ cap c +++ ":" +++ NL +++ "fallthrough" +++ NL) +++ (case_labels (d :: l) +++ b)) by (rewrite !sapp_assoc; reflexivity).
    apply cl_ok_app; [apply cl_fall; exact Hc|]. apply IH; [discriminate|exact Hl|exact S].
Qed.
Lemma txt_switch p P sn s cls : ptr_ok p P -> is_word sn = true -> cl_ok s cls ->
  stm_ok ("switch (" +++ p +++ ")." +++ cap sn +++ " {" +++ NL +++ s +++ "}" +++ NL) [SSwitch (ESel (EParen P) (cap sn)) cls].
Proof.
  intros (ts & L & T) W (us & Ls & Ts). pose proof (cap_sym sn W) as C. revert C. generalize (cap sn). intros w C. specialize (Ts [] [] cl_nil). rewrite !app_nil_r in Ts. eexists. split.
  - txt [PLit "switch ("; PSym kPtr p ts; PLit ")."; PSym kWord w [GIdent w]; PLit (" {" +++ NL); PSym kStm s us; PLit ("}" +++ NL)]. reflexivity.
  - rewrite css_cons, cs_switch. cbn [css_of map cx_of]. tst.
Qed.

Definition its_gx (P : expr) := fix go (l : list decl) := match l with [] => Some [] | d :: l => do a <- gx_field d P ; do b <- go l ; Some (a ++ b) end.
Definition cases_gx (P : expr) := fix go (l : list (list string * decl)) :=
  match l with [] => Some [] | c :: l => do a <- gx_field (snd c) P ; do b <- go l ; Some (label_clauses (fst c) a ++ b) end.
Lemma gx_struct_eq l P : gx (typeStruct l) P = its_gx P l.
Proof. reflexivity. Qed.
Lemma gx_union_eq st sn c d P : gx (typeUnion (declName st sn) c d) P =
  do a <- gx_dt st (fieldP P sn) ; do b <- cases_gx P c ;
  do e <- match d with Some d => do a <- gx_field d P ; Some [(None, a, false)] | None => Some [] end ;
  Some (a ++ [SSwitch (ESel (EParen P) (cap sn)) (b ++ e)]).
Proof. reflexivity. Qed.

Definition field_text (d : decl) : Prop :=
  wd_d d = true -> match d with
                   | declVoid => True
                   | declName t n => forall p P s, ptr_ok p P -> declXdr t p = Some s -> exists ss, gx_dt t P = Some ss /\ stm_ok s ss
                   end.
Lemma field_text_use d p P s : field_text d -> wd_d d = true -> ptr_ok p P -> fieldXdr d p = Some s -> exists ss, gx_field d P = Some ss /\ stm_ok s ss.
Proof.
  intros H W Hp E. specialize (H W). destruct d as [|t n]; cbn in E |- *; [injection E as <-; exists []; split; [reflexivity|apply stm_ok_nil]|].
  cbn in W. apply andb_true_iff in W. destruct W as [_ W]. eapply H; [|exact E]. apply ptr_field; assumption.
Qed.
Lemma xdr_text :
  (forall t, wd t = true -> forall p P s, ptr_ok p P -> goXdr t p = Some s -> exists ss, gx t P = Some ss /\ stm_ok s ss) /\
  (forall t, wd_dt t = true -> forall p P s, ptr_ok p P -> declXdr t p = Some s -> exists ss, gx_dt t P = Some ss /\ stm_ok s ss) /\
  (forall d, field_text d).
Proof.
  assert (IT : forall l, Forall field_text l ->
            wd_its l = true -> forall p P s, ptr_ok p P -> items_xdr p l = Some s -> exists ss, its_gx P l = Some ss /\ stm_ok s ss).
  { induction 1 as [|d l Hd _ IH]; intros W p P s Hp H; cbn in H, W |- *.
    - injection H as <-. exists []. split; [reflexivity|apply stm_ok_nil].
    - apply andb_true_iff in W. destruct W as [W1 W2]. sinv H. sinv H. injection H as <-.
      destruct (field_text_use _ _ _ _ Hd W1 Hp E) as (f1 & -> & F1). destruct (IH W2 _ _ _ Hp E0) as (f2 & G2 & F2). fold (its_gx P). rewrite G2. exists (f1 ++ f2). split; [reflexivity|apply stm_ok_app; assumption]. }
  assert (CT : forall l, Forall (fun c => field_text (snd c)) l ->
            wd_cases l = true -> forall p P s, ptr_ok p P -> cases_xdr p l = Some s -> exists cls, cases_gx P l = Some cls /\ cl_ok s cls).
  { induction 1 as [|d l Hd _ IH]; intros W p P s Hp H; cbn in H, W |- *.
    - injection H as <-. exists []. split; [reflexivity|apply cl_ok_nil].
    - apply andb_true_iff in W. destruct W as [W1 W2]. apply andb_true_iff in W1. destruct W1 as [W0 W1]. sinv H. sinv H. injection H as <-.
      destruct (field_text_use _ _ _ _ Hd W1 Hp E) as (f1 & -> & F1). destruct (IH W2 _ _ _ Hp E0) as (f2 & G2 & F2). fold (cases_gx P). rewrite G2. eexists. split; [reflexivity|].
      rewrite <- sapp_assoc. apply cl_ok_app; [|exact F2]. apply cl_labels; [|destruct (fst d); [discriminate|exact W0]|exact F1]. intros E'. rewrite E' in W0. discriminate. }
  apply ast_ind.
  - intros u _ p P s Hp H. injection H as <-. eexists. split; [reflexivity|]. destruct u; [apply txt_u32|apply txt_s32]; exact Hp.
  - intros u _ p P s Hp H. injection H as <-. eexists. split; [reflexivity|]. destruct u; [apply txt_u64|apply txt_s64]; exact Hp.
  - discriminate.
  - discriminate.
  - discriminate.
  - intros _ p P s Hp H. injection H as <-. eexists. split; [reflexivity|]. apply txt_bool; exact Hp.
  - discriminate.
  - intros l Hl W p P s Hp H. rewrite goXdr_struct in H. rewrite gx_struct_eq. eapply IT; eassumption.
  - intros sw c d Hs Hc Hd W p P s Hp H. destruct sw as [|st sn]; [discriminate|]. rewrite goXdr_union in H. cbn zeta in H. rewrite wd_union in W. apply andb_true_iff in W. destruct W as [W W3]. apply andb_true_iff in W. destruct W as [W1 W2].
    pose proof W1 as Wn. cbn in Wn. apply andb_true_iff in Wn. destruct Wn as [_ Wn].
    sinv H. sinv H. sinv H. pose proof (Hs W1) as Hs'. cbn [field_text] in Hs'.
    assert (Hf : ptr_ok ("&(" +++ ("(" +++ p +++ ")." +++ cap sn) +++ ")") (fieldP P sn)).
    { replace ("&(" +++ ("(" +++ p +++ ")." +++ cap sn) +++ ")") with (field_ptr p sn); [apply ptr_field; assumption|]. unfold field_ptr. rewrite !sapp_assoc. reflexivity. }
    destruct (Hs' _ _ _ Hf E) as (f1 & G1 & F1). destruct (CT c Hc W2 _ _ _ Hp E0) as (f2 & G2 & F2). rewrite gx_union_eq, G1, G2. cbn [pbind].
    assert (exists f3, match d with Some d => do a <- gx_field d P ; Some [(None, a, false)] | None => Some [] end = Some f3 /\ cl_ok a1 f3) as (f3 & G3 & F3).
    { destruct d as [d|].
      - sinv E1. injection E1 as <-. destruct (field_text_use _ _ _ _ (Hd d eq_refl) W3 Hp E2) as (f3 & -> & F3). eexists. split; [reflexivity|apply cl_default; exact F3].
      - injection E1 as <-. exists []. split; [reflexivity|apply cl_ok_nil]. }
    rewrite G3. cbn [pbind]. eexists. split; [reflexivity|]. replace s with (a +++ ("switch (" +++ p +++ ")." +++ cap sn +++ " {" +++ NL +++ (a0 +++ a1) +++ "}" +++ NL)) by (apply some_eq in H; rewrite <- H, !sapp_assoc; reflexivity).
    apply stm_ok_app; [exact F1|]. apply txt_switch; [exact Hp|exact Wn|apply cl_ok_app; assumption].
  - intros n W p P s Hp H. injection H as <-. eexists. split; [reflexivity|]. pose proof (cap_sym n W) as C. revert C. generalize (cap n). intros w C. apply txt_ident; assumption.
  - intros t IH W p P s Hp H. eapply IH; eassumption.
  - intros t sz IH W p P s Hp H. cbn [declXdr wd_dt gx_dt] in *. apply andb_true_iff in W. destruct W as [W Z]. sinv H. injection H as <-. destruct (IH W _ _ _ (ptr_fixed p P Hp) E) as (b & -> & B). cbn [pbind]. eexists. split; [reflexivity|]. apply txt_fixed; assumption.
  - intros t sz IH W p P s Hp H. cbn [declXdr wd_dt gx_dt] in *. apply andb_true_iff in W. destruct W as [W Z]. sinv H. sinv H. destruct (proj1 type_text t W _ E) as (g & Eg & G). destruct (IH W _ _ _ (ptr_elem p P Hp) E0) as (b & Eb & B).
    rewrite Eg, Eb. cbn [pbind]. eexists. split; [reflexivity|]. cbn zeta in H. unfold bound_val in Z. destruct (String.eqb_spec sz "") as [->|Nz].
    + injection H as <-. apply txt_vararr0; assumption.
    + injection H as <-. apply txt_vararr; assumption.
  - intros sz W p P s Hp H. injection H as <-. eexists. split; [reflexivity|]. apply txt_opaque; exact Hp.
  - intros sz W p P s Hp H. injection H as <-. eexists. split; [reflexivity|]. apply txt_varopaque; assumption.
  - intros sz W p P s Hp H. injection H as <-. eexists. split; [reflexivity|]. apply txt_string; assumption.
  - intros t IH W p P s Hp H. cbn [declXdr wd_dt gx_dt] in *. sinv H. sinv H. injection H as <-. destruct (proj1 type_text t W _ E) as (g & Eg & G). destruct (IH W _ _ _ (ptr_deref p P Hp) E0) as (b & Eb & B).
    rewrite Eg, Eb. cbn [pbind]. eexists. split; [reflexivity|]. apply txt_ptr; try assumption. eapply gt_noarr; exact Eg.
  - intros _. exact I.
  - intros t n IH W p P s Hp H. cbn in W. apply andb_true_iff in W. destruct W as [W _]. eapply IH; eassumption.
Qed.
