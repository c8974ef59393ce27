(** The text written for each definition is a sequence of Go declarations. *)
From Verif Require Import GoLex GLexP XLex Gram GParse Emit GEmitP GoAst GLexQ GoCst GoCstP GoText.
Open Scope string_scope.
Open Scope list_scope.

(** ** The declarations, as syntax trees *)
Definition z_type (d : tydecl) : ctop := ZType (fst d) (ct_of (snd d)).
Definition z_xdr (n : string) : cx := XSel (XId "xdr") n.
Definition z_meth (m : method) : ctop :=
  ZFunc (Some ("v", XUn "*" (XId (fst m)))) "Xdr" [("xs", XUn "*" (z_xdr "XdrState"))] RNone (css_of (snd m)).
Definition z_const (c : cdecl) : ctop := ZConst (c_name c) (option_map ct_of (c_ty c)) (cval_of (c_val c)).

(** Well-formed names and numbers of a definition. *)
Definition wd_item (it : enumItem) : bool := is_word (fst it) && is_val (snd it).
Definition wd_call (c : progCall) : bool :=
  is_word (pc_name c) && is_val (pc_id c) && match pc_arg c with Some t => wd t | None => true end && match pc_res c with Some t => wd t | None => true end.
Definition wd_ver (v : progVer) : bool := is_word (pv_name v) && is_val (pv_id v) && forallb wd_call (pv_calls v).
Definition is_name (s : string) : bool := is_word s && negb (mem s keywords).
Definition wd_defn (d : defn) : bool :=
  match d with
  | defConst n v => is_name n && is_val v
  | defTypedef d => wd_d d
  | defEnum n l => is_word n && forallb wd_item l
  | defStruct n l => is_word n && wd_its l
  | defUnion n s c d => is_word n && wd (typeUnion s c d)
  | defProg p => is_word (pd_name p) && is_val (pd_id p) && forallb wd_ver (pd_vers p)
  end.
Definition wd_flags (fl : flags) : bool := is_name (fl_pkg fl) && (String.eqb (fl_const fl) "" || is_name (fl_const fl)).

Definition tops_ok (s : string) (ds : list ctop) : Prop :=
  exists ts, sym_ok kStm s ts /\ forall l us, T_file l us -> T_file (ds ++ l) (ts ++ us).
Lemma tops_nil : tops_ok "" [].
Proof. exists []. split; [apply stm_nil|]. intros l us H. exact H. Qed.
Lemma tops_app s l s' l' : tops_ok s l -> tops_ok s' l' -> tops_ok (s +++ s') (l ++ l').
Proof. intros (ts & L & T) (ts' & L' & T'). exists (ts ++ ts'). split; [apply stm_app; assumption|]. intros m us H. rewrite <- !app_assoc. apply T, T', H. Qed.
Lemma tops_one s d ts : sym_ok kStm s (ts ++ [GSemi]) -> T_top d ts -> tops_ok s [d].
Proof. intros H T. exists (ts ++ [GSemi]). split; [exact H|]. intros l us Hl. rewrite <- app_assoc. cbn [app]. apply fi_cons; assumption. Qed.
Lemma tops_eq s d ts ts' : sym_ok kStm s ts' -> T_top d ts -> ts ++ [GSemi] = ts' -> tops_ok s [d].
Proof. intros H T <-. eapply tops_one; eassumption. Qed.
Lemma T_top_eq d ts ts' : T_top d ts -> ts = ts' -> T_top d ts'.
Proof. intros H <-. exact H. Qed.

Lemma name_sym n : is_name n = true -> sym_ok kWord n [GIdent n].
Proof. unfold is_name. intros H. apply andb_true_iff in H. destruct H as [A B]. apply word_sym; [exact A|]. destruct (mem n keywords); [discriminate|reflexivity]. Qed.

(** ** Constants, types and methods *)
Lemma top_const0 n v : is_name n = true -> is_val v = true -> tops_ok ("const " +++ n +++ " " +++ "" +++ " = " +++ v +++ NL) [z_const (mkC n None v)].
Proof.
  intros N V. apply name_sym in N. pose proof (val_sym v V) as Vs. pose proof (val_sz v) as Vz. unfold z_const. cbn [c_name c_ty c_val option_map]. revert Vs Vz. generalize (val_tok v) (cval_of v). intros t c Vs Vz.
  eapply tops_eq; [txt [PLit "const "; PSym kWord n [GIdent n]; PLit "  = "; PSym kVal v [t]; PLit NL]; reflexivity|eapply to_const; [apply op_no|exact Vz]|tnorm].
Qed.
Lemma top_const n w g v : is_name n = true -> sym_ok kWord w [GIdent w] -> ct_of g = XId w -> is_val v = true -> tops_ok ("const " +++ n +++ " " +++ w +++ " = " +++ v +++ NL) [z_const (mkC n (Some g) v)].
Proof.
  intros N W G V. apply name_sym in N. pose proof (val_sym v V) as Vs. pose proof (val_sz v) as Vz. unfold z_const. cbn [c_name c_ty c_val option_map]. rewrite G. revert Vs Vz. generalize (val_tok v) (cval_of v). intros t c Vs Vz.
  eapply tops_eq; [txt [PLit "const "; PSym kWord n [GIdent n]; PLit " "; PSym kWord w [GIdent w]; PLit " = "; PSym kVal v [t]; PLit NL]; reflexivity|eapply to_const; [eapply op_yes, ty_id|exact Vz]|tnorm].
Qed.
Lemma cap_name n : is_word n = true -> is_name (cap n) = true.
Proof. intros H. unfold is_name. destruct (cap_word n H) as [-> ->]. reflexivity. Qed.
Lemma top_type w s g : sym_ok kWord w [GIdent w] -> ty_okt s g -> tops_ok ("type " +++ w +++ " " +++ s +++ NL) [z_type (w, g)].
Proof.
  intros W (ts & L & T & _). unfold z_type. cbn [fst snd].
  eapply tops_eq; [txt [PLit "type "; PSym kWord w [GIdent w]; PLit " "; PSym kTy s ts; PLit NL]; reflexivity|eapply to_type; exact T|tnorm].
Qed.
Lemma top_meth w s ss : sym_ok kWord w [GIdent w] -> stm_ok s ss ->
  tops_ok (("func (v *" +++ w +++ ") Xdr(xs *xdr.XdrState) {" +++ NL) +++ s +++ ("}" +++ NL)) [z_meth (w, ss)].
Proof.
  intros W (ts & L & T). unfold z_meth, z_xdr. cbn [fst snd].
  eapply tops_eq; [rewrite !sapp_assoc; txt [PLit "func (v *"; PSym kWord w [GIdent w]; PLit (") Xdr(xs *xdr.XdrState) {" +++ NL); PSym kStm s ts; PLit ("}" +++ NL)]; reflexivity| |].
  - eapply to_func; [eapply rv_yes; tp|eapply pa_one; tp|apply re_no|apply bo_all; exact T].
  - tnorm.
Qed.

(** ** Definitions, file by file: [true] marks the declarations written to [out] *)
Definition tagged : Type := list (bool * ctop).
Definition outs (l : tagged) : list ctop := map snd (filter fst l).
Definition touts (l : tagged) : list ctop := map snd (filter (fun d => negb (fst d)) l).
Definition wr_ok (ws : list write) (l : tagged) : Prop :=
  tops_ok (out_text true ws) (outs l) /\ tops_ok (out_text false ws) (map snd l) /\ tops_ok (tout_text ws) (touts l).
Lemma out_text_app b ws ws' : out_text b (ws ++ ws') = out_text b ws +++ out_text b ws'.
Proof. induction ws as [|[s|s] ws IH]; [reflexivity| |]; cbn [app out_text]; rewrite IH, sapp_assoc; reflexivity. Qed.
Lemma tout_text_app ws ws' : tout_text (ws ++ ws') = tout_text ws +++ tout_text ws'.
Proof. induction ws as [|[s|s] ws IH]; [reflexivity| |]; cbn [app tout_text]; rewrite IH; [reflexivity|]. rewrite sapp_assoc. reflexivity. Qed.
Lemma wr_nil : wr_ok [] [].
Proof. repeat split; apply tops_nil. Qed.
Lemma wr_app ws l ws' l' : wr_ok ws l -> wr_ok ws' l' -> wr_ok (ws ++ ws') (l ++ l').
Proof.
  intros (A & B & C) (A' & B' & C'). unfold wr_ok. rewrite !out_text_app, tout_text_app. unfold outs, touts. rewrite !filter_app, !map_app.
  repeat split; apply tops_app; assumption.
Qed.
Definition otext (l : list string) : string := List.fold_right String.append "" l.
Lemma out_WOut b ss : out_text b (map WOut ss) = otext ss.
Proof. induction ss as [|s ss IH]; [reflexivity|]. cbn [map out_text otext fold_right]. rewrite IH. reflexivity. Qed.
Lemma tout_WOut ss : tout_text (map WOut ss) = "".
Proof. induction ss as [|s ss IH]; [reflexivity|]. exact IH. Qed.
Lemma out_WTout ss : out_text true (map WTout ss) = "" /\ out_text false (map WTout ss) = otext ss /\ tout_text (map WTout ss) = otext ss.
Proof. induction ss as [|s ss (A & B & C)]; [repeat split|]. cbn [map out_text tout_text otext fold_right]. rewrite A, B, C. repeat split. Qed.
Lemma tag_filter (b : bool) (l : list ctop) : map snd (map (pair b) l) = l /\ filter fst (map (pair b) l) = (if b then map (pair b) l else []) /\
  filter (fun d => negb (fst d)) (map (pair b) l) = (if b then [] else map (pair b) l).
Proof.
  split; [induction l as [|d l IH]; [reflexivity|]; cbn; rewrite IH; reflexivity|]. split; induction l as [|d l IH]; cbn; try (destruct b; reflexivity); destruct b; cbn in *; rewrite ?IH; reflexivity.
Qed.
Lemma wr_out ss l : tops_ok (otext ss) l -> wr_ok (map WOut ss) (map (pair true) l).
Proof.
  intros H. unfold wr_ok, outs, touts. rewrite !out_WOut, tout_WOut. destruct (tag_filter true l) as (A & B & C). rewrite B, C, A. repeat split; try exact H. apply tops_nil.
Qed.
Lemma wr_tout ss l : tops_ok (otext ss) l -> wr_ok (map WTout ss) (map (pair false) l).
Proof.
  intros H. unfold wr_ok, outs, touts. destruct (out_WTout ss) as (X & Y & Z). rewrite X, Y, Z. destruct (tag_filter false l) as (A & B & C). rewrite B, C, A. repeat split; try exact H. apply tops_nil.
Qed.

Definition tag_of (fl : flags) (d : defn) : option tagged :=
  do ts <- ty_decl fl d ; do ms <- meth_decl fl d ;
  Some (map (pair false) (map z_type ts) ++ map (pair true) (map z_meth ms) ++ map (pair false) (map z_const (const_decl fl d))).
Lemma emit_const fl n v : wd_flags fl = true -> is_name n && is_val v = true -> wr_ok (emitConst fl n v) (map (pair false) (map z_const (const_decl fl (defConst n v)))).
Proof.
  intros F W. apply andb_true_iff in W. destruct W as [N V]. unfold emitConst, tout_line. cbn [const_decl map]. apply (wr_tout [("const " +++ n +++ " " +++ fl_const fl +++ " = " +++ v) +++ NL] [_]). cbn [otext fold_right]. rewrite sapp_nil.
  unfold wd_flags in F. apply andb_true_iff in F. destruct F as [_ F]. destruct (String.eqb_spec (fl_const fl) "") as [E|E].
  - rewrite E. rewrite !sapp_assoc. apply top_const0; assumption.
  - cbn [orb] in F. rewrite !sapp_assoc. apply top_const; [exact N|apply name_sym; exact F|reflexivity|exact V].
Qed.
Lemma wr_method w b ss : sym_ok kWord w [GIdent w] -> stm_ok b ss -> wr_ok (xdr_method w b) (map (pair true) (map z_meth [(w, ss)])).
Proof.
  intros W S. unfold xdr_method, out_line. apply (wr_out ["func (v *" +++ w +++ ") Xdr(xs *xdr.XdrState) {" +++ NL; b; "}" +++ NL]).
  cbn [otext fold_right map]. rewrite (sapp_nil ("}" +++ NL)). apply top_meth; assumption.
Qed.
Lemma wr_type w s g : sym_ok kWord w [GIdent w] -> ty_okt s g -> wr_ok [tout_line ("type " +++ w +++ " " +++ s)] (map (pair false) (map z_type [(w, g)])).
Proof.
  intros W S. unfold tout_line. apply (wr_tout [("type " +++ w +++ " " +++ s) +++ NL]). cbn [otext fold_right map]. rewrite sapp_nil, !sapp_assoc. apply top_type; assumption.
Qed.
Lemma ty_P s g : ty_okt s g -> ty_okt ("struct { P " +++ s +++ " }") (GStruct [("P", g)]).
Proof.
  intros (ts & L & T & _). eapply ty_lit; [txt [PLit "struct { P "; PSym kTy s ts; PLit " }"]; reflexivity| |]; cbn [ct_of map fst snd]; [apply (ty_struct _ (GIdent "P" :: ts))|apply (un_struct _ (GIdent "P" :: ts))]; apply fs_last; exact T.
Qed.
Lemma emit_typedef fl d ws : wd_d d = true -> emitTypedef d = Some ws -> exists l, tag_of fl (defTypedef d) = Some l /\ wr_ok ws l.
Proof.
  intros W H. destruct d as [|t n]; cbn [emitTypedef] in H; [injection H as <-; exists []; split; [reflexivity|apply wr_nil]|]. cbn [wd_d] in W. apply andb_true_iff in W. destruct W as [W N].
  sinv H. destruct (proj1 (proj2 type_text) t W _ E) as (g & Eg & G). apply cap_sym in N.
  assert (exists s p P g' b, match t with declTypePtr _ => ("struct { P " +++ a +++ " }", "&v.P") | _ => (a, "v") end = (s, p) /\ ptr_ok p P /\ ty_okt s g' /\
            match t with declTypePtr _ => GStruct [("P", g)] | _ => g end = g' /\ match t with declTypePtr _ => EAddr (ESel (EVar "v") "P") | _ => EVar "v" end = P /\
            declXdr t p = Some b /\ ws = tout_line ("type " +++ cap n +++ " " +++ s) :: xdr_method (cap n) b) as (s & p & P & g' & b & _ & Hp & Hs & Eg' & EP & Eb & ->).
  { destruct t; cbv zeta beta iota in H; sinv H; apply some_eq in H; subst ws;
      lazymatch goal with
      | |- context [declTypePtr] => exists ("struct { P " +++ a +++ " }"), "&v.P", (EAddr (ESel (EVar "v") "P")), (GStruct [("P", g)]), a0; split; [reflexivity|]; split; [apply ptr_vP|]; split; [apply ty_P; exact G|]; split; [reflexivity|]; split; [reflexivity|]; split; [exact E0|reflexivity]
      | _ => exists a, "v", (EVar "v"), g, a0; split; [reflexivity|]; split; [apply ptr_v|]; split; [exact G|]; split; [reflexivity|]; split; [reflexivity|]; split; [exact E0|reflexivity]
      end. }
  destruct (proj1 (proj2 xdr_text) t W _ _ _ Hp Eb) as (ss & Ess & S).
  unfold tag_of. cbn [ty_decl meth_decl const_decl]. rewrite Eg. cbn [pbind]. rewrite EP, Eg', Ess. cbn [pbind]. eexists. split; [reflexivity|].
  change (tout_line ("type " +++ cap n +++ " " +++ s) :: xdr_method (cap n) b) with ([tout_line ("type " +++ cap n +++ " " +++ s)] ++ xdr_method (cap n) b).
  apply wr_app; [apply wr_type; assumption|]. cbn [map]. rewrite app_nil_r. apply wr_method; assumption.
Qed.
Lemma items_consts (f : enumItem -> cdecl) (g : enumItem -> string) l : (forall it, In it l -> tops_ok (g it +++ NL) [z_const (f it)]) ->
  wr_ok (map (fun it => tout_line (g it)) l) (map (pair false) (map z_const (map f l))).
Proof.
  induction l as [|it l IH]; intros H; [apply wr_nil|]. cbn [map]. apply (wr_app [_] [_]).
  - apply (wr_tout [g it +++ NL] [_]). cbn [otext fold_right]. rewrite sapp_nil. apply H. left. reflexivity.
  - apply IH. intros x I. apply H. right. exact I.
Qed.
Lemma emit_enum fl n l : is_word n && forallb wd_item l = true -> exists t, tag_of fl (defEnum n l) = Some t /\ wr_ok (emitEnum fl n l) t.
Proof.
  intros W. apply andb_true_iff in W. destruct W as [N L]. unfold tag_of. cbn [ty_decl meth_decl gx pbind const_decl]. eexists. split; [reflexivity|].
  pose proof (cap_sym n N) as C. unfold emitEnum.
  set (t := if fl_unsigned fl then "uint32" else "int32").
  change (tout_line ("type " +++ cap n +++ " " +++ t) :: xdr_method (cap n) ("xdr." +++ (if fl_unsigned fl then "XdrU32" else "XdrS32") +++ "(xs, (*" +++ t +++ ")(v));" +++ NL) ++
    map (fun it => tout_line ("const " +++ cap (fst it) +++ " " +++ cap n +++ " = " +++ snd it)) l)
  with ([tout_line ("type " +++ cap n +++ " " +++ t)] ++ xdr_method (cap n) ("xdr." +++ (if fl_unsigned fl then "XdrU32" else "XdrS32") +++ "(xs, (*" +++ t +++ ")(v));" +++ NL) ++
    map (fun it => tout_line ("const " +++ cap (fst it) +++ " " +++ cap n +++ " = " +++ snd it)) l).
  apply wr_app; [apply wr_type; [exact C|]; unfold t; destruct (fl_unsigned fl); apply ty_basic; cbn; tauto|]. apply wr_app.
  - apply wr_method; [exact C|]. unfold t. destruct (fl_unsigned fl); [apply (txt_u32 "v" (EVar "v") ptr_v)|apply (txt_s32 "v" (EVar "v") ptr_v)].
  - apply (items_consts (fun it => mkC (cap (fst it)) (Some (GNamed (cap n))) (snd it)) (fun it => "const " +++ cap (fst it) +++ " " +++ cap n +++ " = " +++ snd it)).
    intros it I. rewrite forallb_forall in L. specialize (L it I). unfold wd_item in L. apply andb_true_iff in L. destruct L as [A B].
    rewrite !sapp_assoc. apply top_const; [apply cap_name; exact A|exact C|reflexivity|exact B].
Qed.
Lemma fld_line w s g : sym_ok kWord w [GIdent w] -> ty_okt s g -> fld_ok ("  " +++ w +++ " " +++ s +++ ";" +++ NL) [(w, g)].
Proof.
  intros W (ts & L & T & _). eexists. split; [txt [PLit "  "; PSym kWord w [GIdent w]; PLit " "; PSym kTy s ts; PLit (";" +++ NL)]; reflexivity|].
  intros gs us H. cbn [map cf_of fst snd app]. rewrite <- app_assoc. cbn [app]. apply fs_cons; assumption.
Qed.
Lemma struct_lines l : wd_its l = true -> forall s, cat_opt struct_line l = Some s -> exists fs, its_gt l = Some fs /\ fld_ok s fs.
Proof.
  induction l as [|d l IH]; intros W s H; cbn [cat_opt] in H.
  - injection H as <-. exists []. split; [reflexivity|apply fld_nil].
  - cbn in W. apply andb_true_iff in W. destruct W as [W1 W2]. sinv H. sinv H. apply some_eq in H. subst s. destruct (IH W2 _ E0) as (f2 & G2 & F2). cbn [its_gt]. fold its_gt. rewrite G2.
    destruct d as [|t n]; cbn [struct_line gt_field] in *.
    + apply some_eq in E. subst a. exists f2. split; [reflexivity|exact F2].
    + cbn [wd_d] in W1. apply andb_true_iff in W1. destruct W1 as [W1 N]. sinv E. apply some_eq in E. subst a. destruct (proj1 (proj2 type_text) t W1 _ E1) as (g & -> & G). cbn [pbind]. eexists. split; [reflexivity|].
      apply fld_app; [|exact F2]. apply fld_line; [apply cap_sym; exact N|exact G].
Qed.
Lemma top_struct w s fs : sym_ok kWord w [GIdent w] -> fld_ok s fs -> tops_ok (("type " +++ w +++ " struct {" +++ NL) +++ s +++ ("}" +++ NL)) [z_type (w, GStruct fs)].
Proof.
  intros W (ts & L & T). specialize (T [] [] fs_nil). rewrite !app_nil_r in T. unfold z_type. cbn [fst snd]. rewrite ct_struct.
  eapply tops_eq; [rewrite !sapp_assoc; txt [PLit "type "; PSym kWord w [GIdent w]; PLit (" struct {" +++ NL); PSym kStm s ts; PLit ("}" +++ NL)]; reflexivity| |].
  - eapply to_type, ty_struct. exact T.
  - tnorm.
Qed.
Lemma emit_struct fl n l ws : is_word n && wd_its l = true -> emitStruct n l = Some ws -> exists t, tag_of fl (defStruct n l) = Some t /\ wr_ok ws t.
Proof.
  intros W H. apply andb_true_iff in W. destruct W as [N L]. unfold emitStruct in H. sinv H. sinv H. apply some_eq in H. subst ws. apply cap_sym in N.
  destruct (struct_lines l L _ E) as (fs & Ef & F). destruct (proj1 xdr_text (typeStruct l) L _ _ _ ptr_v E0) as (ss & Es & S).
  unfold tag_of. cbn [ty_decl meth_decl const_decl]. rewrite gt_struct_eq, Ef, Es. cbn [pbind]. eexists. split; [reflexivity|].
  change (tout_line ("type " +++ cap n +++ " struct {") :: WTout a :: tout_line "}" :: xdr_method (cap n) a0)
    with (map WTout [("type " +++ cap n +++ " struct {") +++ NL; a; "}" +++ NL] ++ xdr_method (cap n) a0).
  apply wr_app; [|cbn [map]; rewrite app_nil_r; apply wr_method; assumption]. apply wr_tout. cbn [otext fold_right map]. rewrite (sapp_nil ("}" +++ NL)), (sapp_assoc "type "), (sapp_assoc (cap n)). apply top_struct; assumption.
Qed.
Lemma emit_union fl n s c d ws : is_word n && wd (typeUnion s c d) = true -> emitUnion n s c d = Some ws -> exists t, tag_of fl (defUnion n s c d) = Some t /\ wr_ok ws t.
Proof.
  intros W H. apply andb_true_iff in W. destruct W as [N L]. unfold emitUnion in H. sinv H. sinv H. apply some_eq in H. subst ws. apply cap_sym in N.
  destruct (proj1 type_text (typeUnion s c d) L _ E) as (g & Eg & G). destruct (proj1 xdr_text (typeUnion s c d) L _ _ _ ptr_v E0) as (ss & Es & S).
  unfold tag_of. cbn [ty_decl meth_decl const_decl]. rewrite Eg, Es. cbn [pbind]. eexists. split; [reflexivity|].
  apply (wr_app [_]); [apply wr_type; assumption|]. cbn [map]. rewrite app_nil_r. apply wr_method; assumption.
Qed.

(** ** Programs (out.go:380-442) *)
Record gcall : Type := mkGCall { gc_name : string; gc_id : string; gc_arg : option gty; gc_res : option gty }.
Record gver : Type := mkGVer { gv_prog : string; gv_name : string; gv_id : string; gv_calls : list gcall }.
Definition gv_pv (v : gver) : string := gv_prog v +++ "_" +++ gv_name v.
Definition z_iface (v : gver) : ctop :=
  ZIface (gv_pv v +++ "_handler") (map (fun c => (gc_name c, option_map ct_of (gc_arg c), option_map ct_of (gc_res c))) (gv_calls v)).
Definition z_wrapper (v : gver) : ctop := ZType (gv_pv v +++ "_handler_wrapper") (XStruct [("h", XId (gv_pv v +++ "_handler"))]).
Definition z_stub_body (c : gcall) : list cs :=
  match gc_arg c with
  | None => []
  | Some a => [YVar "in" (ct_of a); YExpr (XCall (XSel (XId "in") "Xdr") [XId "args"]);
               YSet (XId "err") (XCall (XSel (XId "args") "Error") []); YIf (XBin "!=" (XId "err") (XId "nil")) [YRet []] None]
  end ++
  [YVar "out" (match gc_res c with Some r => ct_of r | None => z_xdr "Void" end);
   let e := XCall (XSel (XSel (XId "w") "h") (gc_name c)) (match gc_arg c with Some _ => [XId "in"] | None => [] end) in
   match gc_res c with Some _ => YSet (XId "out") e | None => YExpr e end;
   YRet [XUn "&" (XId "out"); XId "nil"]].
Definition z_stub (v : gver) (c : gcall) : ctop :=
  ZFunc (Some ("w", XUn "*" (XId (gv_pv v +++ "_handler_wrapper")))) (gc_name c) [("args", XUn "*" (z_xdr "XdrState"))]
    (RNamed [("res", z_xdr "Xdrable"); ("err", XId "error")]) (z_stub_body c).
Definition z_reg (v : gver) (c : gcall) : option string * cx :=
  (None, XComp (z_xdr "ProcRegistration")
    [(Some "Prog", XId (gv_prog v)); (Some "Vers", XId (gv_name v)); (Some "Proc", XId (gc_name c)); (Some "Handler", XSel (XId "w") (gc_name c))]).
Definition z_regs (v : gver) : ctop :=
  ZFunc None (gv_pv v +++ "_regs") [("h", XId (gv_pv v +++ "_handler"))] (RType (XSlice (z_xdr "ProcRegistration")))
    [YDef "w" (XUn "&" (XComp (XId (gv_pv v +++ "_handler_wrapper")) [(None, XId "h")]));
     YRet [XComp (XSlice (z_xdr "ProcRegistration")) (map (z_reg v) (gv_calls v))]].
Definition z_ver (v : gver) : list ctop := z_iface v :: z_wrapper v :: map (z_stub v) (gv_calls v) ++ [z_regs v].

Definition gopt (o : typespecOpt) : option (option gty) := match o with None => Some None | Some t => option_map Some (gt t) end.
Definition g_call (c : progCall) : option gcall := do a <- gopt (pc_arg c) ; do r <- gopt (pc_res c) ; Some (mkGCall (cap (pc_name c)) (pc_id c) a r).
Fixpoint omap {A B} (f : A -> option B) (l : list A) : option (list B) :=
  match l with [] => Some [] | a :: l => do b <- f a ; do r <- omap f l ; Some (b :: r) end.
Definition g_ver (prog : string) (v : progVer) : option gver := do l <- omap g_call (pv_calls v) ; Some (mkGVer (cap prog) (cap (pv_name v)) (pv_id v) l).

(** Types that may be absent. *)
Definition ty_opt (s : string) (o : option gty) : Prop := match o with Some g => ty_okt s g | None => s = "" end.
Lemma maybe_text o s : match o with Some t => wd t | None => true end = true -> maybeGoType o = Some s -> exists g, gopt o = Some g /\ ty_opt s g /\ (o = None <-> g = None).
Proof.
  destruct o as [t|]; intros W H; cbn in H.
  - destruct (proj1 type_text t W s H) as (g & E & G). exists (Some g). cbn. rewrite E. repeat split; [exact G|discriminate|discriminate].
  - apply some_eq in H. exists None. cbn. repeat split; auto.
Qed.
Definition me_ok (s : string) (cs : list gcall) : Prop :=
  exists ts, sym_ok kStm s ts /\ forall l us, T_meths l us -> T_meths (map (fun c => (gc_name c, option_map ct_of (gc_arg c), option_map ct_of (gc_res c))) cs ++ l) (ts ++ us).
Lemma me_line w i a r sa sr : sym_ok kWord w [GIdent w] -> ty_opt sa a -> ty_opt sr r -> me_ok (w +++ "(" +++ sa +++ ") " +++ sr +++ NL) [mkGCall w i a r].
Proof.
  intros W A R. unfold me_ok. cbn [map gc_name gc_arg gc_res app]. destruct a as [a|], r as [r|]; cbn [ty_opt option_map] in *.
  - destruct A as (ta & LA & TA & _). destruct R as (tr & LR & TR & _). eexists. split; [txt [PSym kWord w [GIdent w]; PLit "("; PSym kTy sa ta; PLit ") "; PSym kTy sr tr; PLit NL]; apply stm_first|].
    intros l us H. repeat (rewrite <- app_assoc || cbn [app]). apply me_cons; [apply op_yes; exact TA|apply op_yes; exact TR|exact H].
  - subst sr. destruct A as (ta & LA & TA & _). eexists. split; [txt [PSym kWord w [GIdent w]; PLit "("; PSym kTy sa ta; PLit (") " +++ NL)]; apply stm_first|].
    intros l us H. repeat (rewrite <- app_assoc || cbn [app]). apply (me_cons _ _ _ None []); [apply op_yes; exact TA|apply op_no|exact H].
  - subst sa. destruct R as (tr & LR & TR & _). eexists. split; [txt [PSym kWord w [GIdent w]; PLit "() "; PSym kTy sr tr; PLit NL]; apply stm_first|].
    intros l us H. repeat (rewrite <- app_assoc || cbn [app]). apply (me_cons _ None []); [apply op_no|apply op_yes; exact TR|exact H].
  - subst sa sr. eexists. split; [txt [PSym kWord w [GIdent w]; PLit ("() " +++ NL)]; apply stm_first|].
    intros l us H. cbn [app]. apply (me_cons _ None [] None []); [apply op_no|apply op_no|exact H].
Qed.
Lemma ty_un g s : ty_okt s g -> exists ts, sym_ok kTy s ts /\ T_ty (ct_of g) ts.
Proof. intros (ts & L & T & _). eauto. Qed.
Lemma stub_line pv w c sa sr : sym_ok kWord (gv_pv pv +++ "_handler_wrapper") [GIdent (gv_pv pv +++ "_handler_wrapper")] -> sym_ok kWord w [GIdent w] ->
  gc_name c = w -> ty_opt sa (gc_arg c) -> ty_opt sr (gc_res c) ->
  tops_ok ("func (w *" +++ (gv_pv pv +++ "_handler_wrapper") +++ ") " +++ w +++ "(args *xdr.XdrState) (res xdr.Xdrable, err error) {" +++ NL +++
        match gc_arg c with
        | None => ""
        | Some _ => "var in " +++ sa +++ NL +++ "in.Xdr(args)" +++ NL +++ "err = args.Error()" +++ NL +++ "if err != nil { return }" +++ NL
        end +++
        match gc_res c with None => "var out xdr.Void" +++ NL | Some _ => "var out " +++ sr +++ NL end +++
        match gc_res c with None => "" | Some _ => "out = " end +++
        "w.h." +++ w +++ "(" +++ match gc_arg c with None => "" | Some _ => "in" end +++ ")" +++ NL +++
        "return &out, nil" +++ "}" +++ NL) [z_stub pv c].
Proof.
  intros W C N A R. unfold z_stub, z_stub_body, z_xdr. rewrite N. revert W. generalize (gv_pv pv +++ "_handler_wrapper"). intros x W. destruct c as [n i a r]. cbn [gc_name gc_arg gc_res] in *. subst n.
  destruct a as [a|], r as [r|]; cbn [ty_opt app] in *; cbv zeta.
  - apply ty_un in A, R. destruct A as (ta & LA & TA). destruct R as (tr & LR & TR).
    eapply tops_eq; [rewrite !sapp_assoc; txt [PLit "func (w *"; PSym kWord x [GIdent x]; PLit ") "; PSym kWord w [GIdent w];
       PLit ("(args *xdr.XdrState) (res xdr.Xdrable, err error) {" +++ NL +++ "var in "); PSym kTy sa ta; PLit (NL +++ "in.Xdr(args)" +++ NL +++ "err = args.Error()" +++ NL +++ "if err != nil { return }" +++ NL +++ "var out ");
       PSym kTy sr tr; PLit (NL +++ "out = w.h."); PSym kWord w [GIdent w]; PLit ("(in)" +++ NL +++ "return &out, nil}" +++ NL)]; reflexivity| |].
    + eapply to_func; [eapply rv_yes; tp|eapply pa_one; tp|eapply re_named; eapply pa_cons; [tp|discriminate|eapply pa_one; tp]|].
      eapply (bo_last [_; _; _; _; _; _]); [|tp]. eapply ss_cons; [tp|]. eapply ss_cons; [tp|]. eapply ss_cons; [tp|]. eapply ss_cons; [eapply st_if; [tp|eapply (bo_last []); [apply ss_nil|tp]]|tp].
    + tnorm.
  - apply ty_un in A. destruct A as (ta & LA & TA). subst sr.
    eapply tops_eq; [rewrite !sapp_assoc; txt [PLit "func (w *"; PSym kWord x [GIdent x]; PLit ") "; PSym kWord w [GIdent w];
       PLit ("(args *xdr.XdrState) (res xdr.Xdrable, err error) {" +++ NL +++ "var in "); PSym kTy sa ta; PLit (NL +++ "in.Xdr(args)" +++ NL +++ "err = args.Error()" +++ NL +++ "if err != nil { return }" +++ NL +++ "var out xdr.Void" +++ NL +++ "w.h.");
       PSym kWord w [GIdent w]; PLit ("(in)" +++ NL +++ "return &out, nil}" +++ NL)]; reflexivity| |].
    + eapply to_func; [eapply rv_yes; tp|eapply pa_one; tp|eapply re_named; eapply pa_cons; [tp|discriminate|eapply pa_one; tp]|].
      eapply (bo_last [_; _; _; _; _; _]); [|tp]. eapply ss_cons; [tp|]. eapply ss_cons; [tp|]. eapply ss_cons; [tp|]. eapply ss_cons; [eapply st_if; [tp|eapply (bo_last []); [apply ss_nil|tp]]|tp].
    + tnorm.
  - apply ty_un in R. destruct R as (tr & LR & TR). subst sa.
    eapply tops_eq; [rewrite !sapp_assoc; txt [PLit "func (w *"; PSym kWord x [GIdent x]; PLit ") "; PSym kWord w [GIdent w];
       PLit ("(args *xdr.XdrState) (res xdr.Xdrable, err error) {" +++ NL +++ "var out ");
       PSym kTy sr tr; PLit (NL +++ "out = w.h."); PSym kWord w [GIdent w]; PLit ("()" +++ NL +++ "return &out, nil}" +++ NL)]; reflexivity| |].
    + eapply to_func; [eapply rv_yes; tp|eapply pa_one; tp|eapply re_named; eapply pa_cons; [tp|discriminate|eapply pa_one; tp]|].
      eapply (bo_last [_; _]); [|tp]. tp.
    + tnorm.
  - subst sa sr.
    eapply tops_eq; [rewrite !sapp_assoc; txt [PLit "func (w *"; PSym kWord x [GIdent x]; PLit ") "; PSym kWord w [GIdent w];
       PLit ("(args *xdr.XdrState) (res xdr.Xdrable, err error) {" +++ NL +++ "var out xdr.Void" +++ NL +++ "w.h.");
       PSym kWord w [GIdent w]; PLit ("()" +++ NL +++ "return &out, nil}" +++ NL)]; reflexivity| |].
    + eapply to_func; [eapply rv_yes; tp|eapply pa_one; tp|eapply re_named; eapply pa_cons; [tp|discriminate|eapply pa_one; tp]|].
      eapply (bo_last [_; _]); [|tp]. tp.
    + tnorm.
Qed.
Definition el_ok (s : string) (es : list (option string * cx)) : Prop :=
  exists ts, sym_ok kStm s ts /\ forall l us, T_elems l us -> T_elems (es ++ l) (ts ++ us).
Lemma el_line v n : sym_ok kWord (gv_prog v) [GIdent (gv_prog v)] -> sym_ok kWord (gv_name v) [GIdent (gv_name v)] -> sym_ok kWord n [GIdent n] -> forall c, gc_name c = n ->
  el_ok ("xdr.ProcRegistration{" +++ NL +++ "Prog: " +++ gv_prog v +++ "," +++ NL +++ "Vers: " +++ gv_name v +++ "," +++ NL +++
  "Proc: " +++ n +++ "," +++ NL +++ "Handler: w." +++ n +++ "," +++ NL +++ "}," +++ NL) [z_reg v c].
Proof.
  intros P V N c Ec. unfold el_ok, z_reg, z_xdr. rewrite Ec. revert P V. generalize (gv_prog v) (gv_name v). intros p q P V. eexists. split.
  - txt [PLit ("xdr.ProcRegistration{" +++ NL +++ "Prog: "); PSym kWord p [GIdent p]; PLit ("," +++ NL +++ "Vers: "); PSym kWord q [GIdent q]; PLit ("," +++ NL +++ "Proc: "); PSym kWord n [GIdent n];
         PLit ("," +++ NL +++ "Handler: w."); PSym kWord n [GIdent n]; PLit ("," +++ NL +++ "}," +++ NL)]. reflexivity.
  - intros l us H. cbn [app].
    assert (forall ts ts', T_elems ts ts' -> forall z, ts' = z -> T_elems ts z) as Q by (intros ? ? ? ? <-; assumption).
    eapply Q; [eapply el_comp; [eapply co_comp; [reflexivity|tp|]|exact H]|].
    + eapply el_key; [tp|]. eapply el_key; [tp|]. eapply el_key; [tp|]. eapply el_key; [tp|]. apply el_nil.
    + tnorm.
Qed.

Section Cats.
Context {A : Type}.
Variables (f : A -> option string) (g : A -> option gcall).
Lemma cat_me l s : (forall a s, In a l -> f a = Some s -> exists c, g a = Some c /\ me_ok s [c]) -> cat_opt f l = Some s -> exists cs, omap g l = Some cs /\ me_ok s cs.
Proof.
  revert s. induction l as [|a l IH]; intros s H E; cbn [cat_opt omap] in *.
  - apply some_eq in E. subst s. exists []. split; [reflexivity|]. exists []. split; [apply stm_nil|]. intros m us T. exact T.
  - sinv E. sinv E. apply some_eq in E. subst s. destruct (H a _ (or_introl eq_refl) E0) as (c & -> & ts & L & T). destruct (IH a1) as (cs & -> & ts' & L' & T'); [intros; eapply H; [right|]; eassumption|exact E1|].
    cbn [pbind]. eexists. split; [reflexivity|]. exists (ts ++ ts'). split; [apply stm_app; assumption|]. intros m us M. cbn [map app] in *. rewrite <- app_assoc. apply T, T', M.
Qed.
Lemma cat_tops (z : gcall -> ctop) l s : (forall a s, In a l -> f a = Some s -> exists c, g a = Some c /\ tops_ok s [z c]) -> cat_opt f l = Some s -> exists cs, omap g l = Some cs /\ tops_ok s (map z cs).
Proof.
  revert s. induction l as [|a l IH]; intros s H E; cbn [cat_opt omap] in *.
  - apply some_eq in E. subst s. exists []. split; [reflexivity|]. apply tops_nil.
  - sinv E. sinv E. apply some_eq in E. subst s. destruct (H a _ (or_introl eq_refl) E0) as (c & -> & T). destruct (IH a1) as (cs & -> & T'); [intros; eapply H; [right|]; eassumption|exact E1|].
    cbn [pbind]. eexists. split; [reflexivity|]. cbn [map]. apply (tops_app _ [_]); assumption.
Qed.
End Cats.
Lemma call_text c : wd_call c = true -> forall sa sr, maybeGoType (pc_arg c) = Some sa -> maybeGoType (pc_res c) = Some sr ->
  exists k, g_call c = Some k /\ gc_name k = cap (pc_name c) /\ gc_id k = pc_id c /\ ty_opt sa (gc_arg k) /\ ty_opt sr (gc_res k) /\ sym_ok kWord (cap (pc_name c)) [GIdent (cap (pc_name c))] /\
            (pc_arg c = None <-> gc_arg k = None) /\ (pc_res c = None <-> gc_res k = None).
Proof.
  unfold wd_call. intros W sa sr A R. apply andb_true_iff in W. destruct W as [W W4]. apply andb_true_iff in W. destruct W as [W W3]. apply andb_true_iff in W. destruct W as [W1 W2].
  destruct (maybe_text _ _ W3 A) as (a & Ea & Ta & Ia). destruct (maybe_text _ _ W4 R) as (r & Er & Tr & Ir).
  unfold g_call. rewrite Ea, Er. cbn [pbind]. eexists. split; [reflexivity|]. cbn [gc_name gc_id gc_arg gc_res]. repeat split; try apply Ia; try apply Ir; try assumption; apply cap_sym; exact W1.
Qed.
Lemma stub_text v c s : wd_call c = true -> sym_ok kWord (gv_pv v +++ "_handler_wrapper") [GIdent (gv_pv v +++ "_handler_wrapper")] ->
  wrapper (gv_pv v) c = Some s -> exists k, g_call c = Some k /\ tops_ok s [z_stub v k].
Proof.
  intros W V H. unfold wrapper in H. sinv H. sinv H. apply some_eq in H. destruct (call_text c W _ _ E E0) as (k & Ek & N & _ & TA & TR & C & IA & IR). exists k. split; [exact Ek|].
  pose proof (stub_line v _ k a a0 V C N TA TR) as T. rewrite <- H. clear H s. 
  destruct (pc_arg c) as [ta|], (gc_arg k) as [ga|]; try (exfalso; destruct IA as [I1 I2]; first [discriminate (I1 eq_refl)|discriminate (I2 eq_refl)]);
    destruct (pc_res c) as [tr|], (gc_res k) as [gr|]; try (exfalso; destruct IR as [I1 I2]; first [discriminate (I1 eq_refl)|discriminate (I2 eq_refl)]);
    cbv iota in T |- *; change "_handler_wrapper) " with ("_handler_wrapper" +++ ") "); rewrite !sapp_assoc in T |- *; exact T.
Qed.
Lemma regs_entries v p q calls ks : gv_prog v = cap p -> gv_name v = cap q -> is_word p = true -> is_word q = true -> forallb wd_call calls = true -> omap g_call calls = Some ks ->
  el_ok (String.concat "" (map (reg_entry p q) calls)) (map (z_reg v) ks).
Proof.
  intros Ep Eq P Q. revert ks. induction calls as [|c calls IH]; intros ks W H; cbn [omap] in H.
  - apply some_eq in H. subst ks. exists []. split; [apply stm_nil|]. intros m us T. exact T.
  - sinv H. sinv H. apply some_eq in H. subst ks. cbn [forallb] in W. apply andb_true_iff in W. destruct W as [Wc W]. specialize (IH _ W E0). clear E0.
    assert (el_ok (reg_entry p q c) [z_reg v a]) as HC.
    { unfold reg_entry. rewrite <- Ep, <- Eq. apply el_line; [rewrite Ep; apply cap_sym; exact P|rewrite Eq; apply cap_sym; exact Q| |].
      - apply cap_sym. unfold wd_call in Wc. destruct (is_word (pc_name c)); [reflexivity|discriminate].
      - unfold g_call in E. sinv E. sinv E. apply some_eq in E. subst a. reflexivity. }
    destruct HC as (ts & L & T). destruct IH as (ts' & L' & T').
    assert (String.concat "" (map (reg_entry p q) (c :: calls)) = reg_entry p q c +++ String.concat "" (map (reg_entry p q) calls)) as ->.
    { destruct calls; cbn [map String.concat]; [symmetry; apply sapp_nil|reflexivity]. }
    exists (ts ++ ts'). split; [apply stm_app; assumption|]. intros m us M. cbn [map app] in *. rewrite <- app_assoc. apply T, T', M.
Qed.
Lemma idc_app s t : all_chars is_idchar s = true -> all_chars is_idchar t = true -> all_chars is_idchar (s +++ t) = true.
Proof. induction s as [|c s IH]; [auto|]. cbn. intros H T. apply andb_true_iff in H. destruct H as [-> H]. apply IH; assumption. Qed.
Lemma word_app s t : is_word s = true -> all_chars is_idchar t = true -> is_word (s +++ t) = true.
Proof. destruct s as [|c s]; [discriminate|]. cbn. intros H T. apply andb_true_iff in H. destruct H as [-> H]. apply idc_app; assumption. Qed.
Lemma word_idc s : is_word s = true -> all_chars is_idchar s = true.
Proof. destruct s as [|c s]; [discriminate|]. cbn. intros H. apply andb_true_iff in H. destruct H as [H ->]. unfold is_idchar. rewrite H. reflexivity. Qed.
(** A name containing an underscore is not a keyword. *)
Fixpoint has_us (s : string) : bool := match s with EmptyString => false | String c r => Ascii.eqb c "_" || has_us r end.
Lemma has_us_app s t : has_us t = true -> has_us (s +++ t) = true.
Proof. intros H. induction s as [|c s IH]; [exact H|]. cbn. rewrite IH. apply orb_true_r. Qed.
Lemma us_keyword s : has_us s = true -> mem s keywords = false.
Proof.
  intros H. destruct (mem s keywords) eqn:E; [|reflexivity]. exfalso. unfold mem in E. apply existsb_exists in E. destruct E as (k & I & E). apply String.eqb_eq in E. subst k.
  cbn in I. repeat (destruct I as [<-|I]; [discriminate H|]). destruct I.
Qed.
Lemma pv_sym p q t : is_word p = true -> is_word q = true -> all_chars is_idchar t = true ->
  sym_ok kWord ((cap p +++ "_" +++ cap q) +++ t) [GIdent ((cap p +++ "_" +++ cap q) +++ t)].
Proof.
  intros P Q T. destruct (cap_word p P) as [P' _]. destruct (cap_word q Q) as [Q' _]. apply word_sym.
  - apply word_app; [|exact T]. apply word_app; [exact P'|]. apply (idc_app "_"); [reflexivity|]. apply word_idc. exact Q'.
  - apply us_keyword. rewrite sapp_assoc. apply has_us_app. reflexivity.
Qed.
Lemma top_iface w s v : sym_ok kWord w [GIdent w] -> gv_pv v +++ "_handler" = w -> me_ok s (gv_calls v) ->
  tops_ok (("type " +++ w +++ " interface {" +++ NL) +++ s +++ ("}" +++ NL)) [z_iface v].
Proof.
  intros W E (ts & L & T). specialize (T [] [] me_nil). rewrite !app_nil_r in T. unfold z_iface. rewrite E.
  eapply tops_eq; [rewrite !sapp_assoc; txt [PLit "type "; PSym kWord w [GIdent w]; PLit (" interface {" +++ NL); PSym kStm s ts; PLit ("}" +++ NL)]; reflexivity| |].
  - eapply to_iface. exact T.
  - tnorm.
Qed.
Lemma top_wrapper w x v : sym_ok kWord w [GIdent w] -> sym_ok kWord x [GIdent x] -> gv_pv v +++ "_handler" = w -> gv_pv v +++ "_handler_wrapper" = x ->
  tops_ok ("type " +++ x +++ " struct {" +++ NL +++ "h " +++ w +++ NL +++ "}" +++ NL) [z_wrapper v].
Proof.
  intros W X E E'. unfold z_wrapper. rewrite E, E'.
  eapply tops_eq; [txt [PLit "type "; PSym kWord x [GIdent x]; PLit (" struct {" +++ NL +++ "h "); PSym kWord w [GIdent w]; PLit (NL +++ "}" +++ NL)]; reflexivity| |].
  - eapply to_type, ty_struct. eapply fs_cons; [tp|apply fs_nil].
  - tnorm.
Qed.
Lemma top_regs w x y s v : sym_ok kWord w [GIdent w] -> sym_ok kWord x [GIdent x] -> sym_ok kWord y [GIdent y] ->
  gv_pv v +++ "_handler" = w -> gv_pv v +++ "_handler_wrapper" = x -> gv_pv v +++ "_regs" = y -> el_ok s (map (z_reg v) (gv_calls v)) ->
  tops_ok ("func " +++ y +++ "(h " +++ w +++ ") []xdr.ProcRegistration {" +++ NL +++ "w := &" +++ x +++ "{h}" +++ NL +++ "return []xdr.ProcRegistration{" +++ NL +++ s +++ "}" +++ NL +++ "}" +++ NL) [z_regs v].
Proof.
  intros W X Y E E' E'' (ts & L & T). specialize (T [] [] el_nil). rewrite !app_nil_r in T. unfold z_regs, z_xdr. rewrite E, E', E''.
  eapply tops_eq; [txt [PLit "func "; PSym kWord y [GIdent y]; PLit "(h "; PSym kWord w [GIdent w]; PLit (") []xdr.ProcRegistration {" +++ NL +++ "w := &"); PSym kWord x [GIdent x];
     PLit ("{h}" +++ NL +++ "return []xdr.ProcRegistration{" +++ NL); PSym kStm s ts; PLit ("}" +++ NL +++ "}" +++ NL)]; reflexivity| |].
  - eapply to_func; [apply rv_no|eapply pa_one; tp|eapply re_ty; tp|]. apply bo_all. eapply ss_cons; [eapply st_def, rh_addr; eapply co_comp; [reflexivity|tp|apply el_id]|].
    eapply ss_cons; [eapply st_ret, rs_one, rh_comp; eapply co_comp; [reflexivity|tp|exact T]|apply ss_nil].
  - tnorm.
Qed.

Definition ver_consts (v : gver) : list cdecl := mkC (gv_name v) (Some gU32) (gv_id v) :: map (fun c => mkC (gc_name c) (Some gU32) (gc_id c)) (gv_calls v).
Definition tag_ver (v : gver) : tagged := map (pair false) (map z_const (ver_consts v)) ++ map (pair true) (z_ver v).
Lemma u32_sym : sym_ok kWord "uint32" [GIdent "uint32"].
Proof. apply word_sym; reflexivity. Qed.
Lemma emit_ver prog v ws : is_word prog = true -> wd_ver v = true -> emitVer prog v = Some ws -> exists g, g_ver prog v = Some g /\ wr_ok ws (tag_ver g).
Proof.
  intros P W H. unfold wd_ver in W. apply andb_true_iff in W. destruct W as [W WC]. apply andb_true_iff in W. destruct W as [WN WI]. unfold emitVer in H. cbv zeta in H. sinv H. sinv H. apply some_eq in H.
  set (pv := cap prog +++ "_" +++ cap (pv_name v)) in *.
  assert (exists ks, omap g_call (pv_calls v) = Some ks /\ me_ok a ks) as (ks & Ek & M).
  { apply (cat_me iface_line g_call); [|exact E]. intros c s I L. unfold iface_line in L. sinv L. sinv L. apply some_eq in L. subst s. rewrite forallb_forall in WC. destruct (call_text c (WC c I) _ _ E1 E2) as (k & K & N & _ & TA & TR & C & _).
    exists k. split; [exact K|]. destruct k as [n i ka kr]. cbn in N, TA, TR. subst n. apply me_line; assumption. }
  set (g := mkGVer (cap prog) (cap (pv_name v)) (pv_id v) ks).
  assert (Sh : sym_ok kWord (pv +++ "_handler") [GIdent (pv +++ "_handler")]) by (apply pv_sym; [exact P|exact WN|reflexivity]).
  assert (Sw : sym_ok kWord (pv +++ "_handler_wrapper") [GIdent (pv +++ "_handler_wrapper")]) by (apply pv_sym; [exact P|exact WN|reflexivity]).
  assert (Sr : sym_ok kWord (pv +++ "_regs") [GIdent (pv +++ "_regs")]) by (apply pv_sym; [exact P|exact WN|reflexivity]).
  assert (tops_ok a0 (map (z_stub g) ks)) as ST.
  { destruct (cat_tops (wrapper pv) g_call (z_stub g) (pv_calls v) a0) as (ks' & Ek' & T); [|exact E0|congruence].
    intros c s I L. rewrite forallb_forall in WC. apply (stub_text g c s (WC c I) Sw L). }
  assert (el_ok (String.concat "" (map (reg_entry prog (pv_name v)) (pv_calls v))) (map (z_reg g) ks)) as RG by (apply regs_entries; try assumption; reflexivity).
  exists g. split; [unfold g_ver; rewrite Ek; reflexivity|]. subst ws. unfold tag_ver.
  match goal with |- wr_ok (?x :: ?y ++ ?z) _ => change (x :: y ++ z) with ((x :: y) ++ z) end. apply wr_app.
  - unfold ver_consts. cbn [map]. apply (wr_app [_] [_]).
    + apply (wr_tout [("const " +++ cap (pv_name v) +++ " uint32 = " +++ pv_id v) +++ NL] [_]). cbn [otext fold_right]. rewrite sapp_nil, !sapp_assoc.
      apply (top_const (cap (pv_name v)) "uint32" gU32 (pv_id v)); [apply cap_name; exact WN|apply u32_sym|reflexivity|exact WI].
    + cbn [gv_calls g]. clear -Ek WC. revert ks Ek. induction (pv_calls v) as [|c l IH]; intros ks Ek; cbn [omap] in Ek; [apply some_eq in Ek; subst ks; apply wr_nil|].
      sinv Ek. sinv Ek. apply some_eq in Ek. subst ks. cbn [forallb] in WC. apply andb_true_iff in WC. destruct WC as [Wc WC]. cbn [map]. apply (wr_app [_] [_]); [|apply IH; assumption].
      unfold g_call in E. sinv E. sinv E. apply some_eq in E. subst a. cbn [gc_name gc_id].
      unfold wd_call in Wc. apply andb_true_iff in Wc. destruct Wc as [Wc _]. apply andb_true_iff in Wc. destruct Wc as [Wc _]. apply andb_true_iff in Wc. destruct Wc as [Wn Wi].
      apply (wr_tout [("const " +++ cap (pc_name c) +++ " uint32 = " +++ pc_id c) +++ NL] [_]). cbn [otext fold_right]. rewrite sapp_nil, !sapp_assoc.
      apply (top_const (cap (pc_name c)) "uint32" gU32 (pc_id c)); [apply cap_name; exact Wn|apply u32_sym|reflexivity|exact Wi].
  - set (cc := String.concat "" (map (reg_entry prog (pv_name v)) (pv_calls v))) in *.
    match goal with |- wr_ok ?l _ => change l with (map WOut [("type " +++ pv +++ "_handler interface {") +++ NL; a; "}" +++ NL; ("type " +++ pv +++ "_handler_wrapper struct {") +++ NL; ("h " +++ pv +++ "_handler") +++ NL; "}" +++ NL;
      a0; ("func " +++ pv +++ "_regs(h " +++ pv +++ "_handler) []xdr.ProcRegistration {") +++ NL; ("w := &" +++ pv +++ "_handler_wrapper{h}") +++ NL; "return []xdr.ProcRegistration{" +++ NL; cc; "}" +++ NL; "}" +++ NL]) end.
    apply wr_out. unfold z_ver. cbn [gv_calls g].
    pose proof (top_iface _ _ g Sh eq_refl M) as T1. pose proof (top_wrapper _ _ g Sh Sw eq_refl eq_refl) as T2. pose proof (top_regs _ _ _ _ g Sh Sw Sr eq_refl eq_refl eq_refl RG) as T3.
    pose proof (tops_app _ _ _ _ T1 (tops_app _ _ _ _ T2 (tops_app _ _ _ _ ST T3))) as T. cbn [app] in T. 
    match type of T with tops_ok ?s _ => match goal with |- tops_ok ?s' _ => assert (s' = s) as -> end end; [|exact T].
    clear. cbn [otext fold_right]. rewrite !sapp_assoc. reflexivity.
Qed.

(** ** Files *)
Definition g_prog (p : progDef) : option (list gver) := omap (g_ver (pd_name p)) (pd_vers p).
Definition tag_defn (fl : flags) (d : defn) : option tagged :=
  match d with
  | defProg p => do vs <- g_prog p ; Some ((false, z_const (mkC (cap (pd_name p)) (Some gU32) (pd_id p))) :: flat_map tag_ver vs)
  | _ => tag_of fl d
  end.
Lemma emit_text fl d ws : wd_flags fl = true -> wd_defn d = true -> emit fl d = Some ws -> exists l, tag_defn fl d = Some l /\ wr_ok ws l.
Proof.
  intros F W H. destruct d as [n v|d|n l|n l|n s c d|p]; cbn [emit wd_defn tag_defn] in *.
  - apply some_eq in H. subst ws. eexists. split; [reflexivity|]. apply emit_const; assumption.
  - apply emit_typedef; assumption.
  - apply some_eq in H. subst ws. apply emit_enum. exact W.
  - apply emit_struct; assumption.
  - apply emit_union; assumption.
  - apply andb_true_iff in W. destruct W as [W WV]. apply andb_true_iff in W. destruct W as [WN WI]. unfold emitProg in H. sinv H. apply some_eq in H. subst ws. unfold g_prog.
    assert (exists vs, omap (g_ver (pd_name p)) (pd_vers p) = Some vs /\ wr_ok a (flat_map tag_ver vs)) as (vs & -> & V).
    { revert a E. induction (pd_vers p) as [|v l IH]; intros ws E; cbn [emit_list omap] in *.
      - apply some_eq in E. subst ws. exists []. split; [reflexivity|apply wr_nil].
      - cbn [forallb] in WV. apply andb_true_iff in WV. destruct WV as [Wv WV]. sinv E. sinv E. apply some_eq in E. subst ws. destruct (emit_ver _ _ _ WN Wv E0) as (g & -> & G). destruct (IH WV _ E1) as (vs & -> & V).
        cbn [pbind]. eexists. split; [reflexivity|]. cbn [flat_map]. apply wr_app; assumption. }
    cbn [pbind]. eexists. split; [reflexivity|]. apply (wr_app [_] [_]); [|exact V].
    apply (wr_tout [("const " +++ cap (pd_name p) +++ " uint32 = " +++ pd_id p) +++ NL] [_]). cbn [otext fold_right]. rewrite sapp_nil, !sapp_assoc.
    apply (top_const (cap (pd_name p)) "uint32" gU32 (pd_id p)); [apply cap_name; exact WN|apply u32_sym|reflexivity|exact WI].
Qed.
Fixpoint tag_list (fl : flags) (ds : list defn) : option tagged :=
  match ds with [] => Some [] | d :: ds => do a <- tag_defn fl d ; do b <- tag_list fl ds ; Some (a ++ b) end.
Lemma emit_list_text fl ds : wd_flags fl = true -> forallb wd_defn ds = true -> forall ws, emit_list (emit fl) ds = Some ws -> exists l, tag_list fl ds = Some l /\ wr_ok ws l.
Proof.
  intros F. induction ds as [|d ds IH]; intros W ws H; cbn [emit_list tag_list forallb] in *.
  - apply some_eq in H. subst ws. exists []. split; [reflexivity|apply wr_nil].
  - apply andb_true_iff in W. destruct W as [Wd W]. sinv H. sinv H. apply some_eq in H. subst ws. destruct (emit_text _ _ _ F Wd E) as (l & -> & L). destruct (IH W _ E0) as (m & -> & M).
    cbn [pbind]. eexists. split; [reflexivity|apply wr_app; assumption].
Qed.
Definition z_import : ctop := ZImport (DQ +++ "github.com/zeldovich/go-rpcgen/xdr" +++ DQ).
Lemma top_package w : sym_ok kWord w [GIdent w] -> tops_ok ("package " +++ w +++ NL) [ZPackage w].
Proof.
  intros W. eapply tops_eq; [txt [PLit "package "; PSym kWord w [GIdent w]; PLit NL]; reflexivity|apply to_pkg|tnorm].
Qed.
Lemma top_import : tops_ok ("import " +++ DQ +++ "github.com/zeldovich/go-rpcgen/xdr" +++ DQ +++ NL) [z_import].
Proof.
  eapply tops_eq; [txt [PLit ("import " +++ DQ +++ "github.com/zeldovich/go-rpcgen/xdr" +++ DQ +++ NL)]; reflexivity|apply to_imp|vm_compute; reflexivity].
Qed.
(** The file has a unique reading. *)
Definition reads (s : string) (l : list ctop) : Prop := exists ts, go_tokens s = Some ts /\ exists n, forall m, (n <= m)%nat -> p_file m ts = Some l.
Lemma tops_reads s l : tops_ok s l -> reads s l.
Proof.
  intros (ts & [_ L] & T). exists ts. split.
  - rewrite go_tokens_lexs. specialize (L false "" ltac:(intros b E; injection E as <-; reflexivity) I). rewrite sapp_nil in L. rewrite L. cbn. rewrite app_nil_r. reflexivity.
  - specialize (T [] [] fi_nil). rewrite !app_nil_r in T. destruct (file_ok l ts T) as (n & N). exists n. intros m M. apply N. exact M.
Qed.
