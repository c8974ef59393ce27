(** The text of the emit functions of /repo/out.go, run by MainSem.v, writes what Emit.v says. *)
From Coq Require Import Lia.
From Verif Require Import GoLex XLex Gram GParse Emit GEmitP GLexP GLexQ GoTop SrcAst MainAst MainProg MainSem MainOut.
Open Scope string_scope.
Open Scope list_scope.

Definition uopt (o : typespecOpt) : uv :=
  match o with
  | None => UStruct "typespecOpt" [("isVoid", UBool true); ("t", UNil)]
  | Some t => UStruct "typespecOpt" [("isVoid", UBool false); ("t", uspec t)]
  end.
Definition ucall (c : progCall) : uv :=
  UStruct "progCall" [("name", UStr (pc_name c)); ("arg", uopt (pc_arg c)); ("res", uopt (pc_res c)); ("id", UStr (pc_id c))].
Definition uver (v : progVer) : uv := UStruct "progVer" [("name", UStr (pv_name v)); ("calls", ulist (map ucall (pv_calls v))); ("id", UStr (pv_id v))].
Definition uprog (p : progDef) : uv := UStruct "progDef" [("name", UStr (pd_name p)); ("vers", ulist (map uver (pd_vers p))); ("id", UStr (pd_id p))].
Definition ok_opt (o : typespecOpt) : bool := match o with None => true | Some t => ok_spec t end.
Definition ok_call (c : progCall) : bool := nm (pc_name c) && ok_opt (pc_arg c) && ok_opt (pc_res c).
Definition ok_ver (v : progVer) : bool := nm (pv_name v) && forallb ok_call (pv_calls v).
Definition ok_defn (d : defn) : bool :=
  match d with
  | defConst _ _ => true
  | defTypedef d => ok_decl d
  | defEnum n l => nm n && forallb (fun it : enumItem => nm (fst it)) l
  | defStruct n l => nm n && forallb ok_decl l
  | defUnion n s c d => nm n && ok_spec (typeUnion s c d)
  | defProg p => nm (pd_name p) && forallb ok_ver (pd_vers p)
  end.
(** The call in the action of xdr.y for a definition. *)
Definition emit_call (d : defn) : string * list uv :=
  match d with
  | defConst n v => ("emitConst", [UStr n; UStr v])
  | defTypedef d => ("emitTypedef", [udecl d])
  | defEnum n l => ("emitEnum", [UStr n; ulist (map uitem l)])
  | defStruct n l => ("emitStruct", [UStr n; ulist (map udecl l)])
  | defUnion n s c d => ("emitUnion", [UStr n; uspec (typeUnion s c d)])
  | defProg p => ("emitProg", [uprog p])
  end.

Lemma eqw_refl a : eqw a a. Proof. split; reflexivity. Qed.
Lemma eqw_trans a b c : eqw a b -> eqw b c -> eqw a c.
Proof. intros [A B] [C D]. split; [intros s; rewrite A; apply C|congruence]. Qed.
Lemma eqw_app a b c d : eqw a b -> eqw c d -> eqw (a ++ c) (b ++ d).
Proof. intros [A B] [C D]. split; [intros s; rewrite !out_text_app, A, C; reflexivity|rewrite !tout_text_app, B, D; reflexivity]. Qed.
Lemma eqw_cons a b c : eqw b c -> eqw (a :: b) (a :: c).
Proof. intros H. exact (eqw_app [a] [a] b c (eqw_refl _) H). Qed.

Section Emit.
Context {W : Type}.
Variable consts : string -> option uv.
Variable ext : string -> list uv -> mm W -> mres W (list uv).
Variable fl : flags.
(** The writers behind out and tout, and where the flags are. *)
Variables (ko kt pc pu : nat).
Variable log : nat -> string -> W -> W.
Notation run := (urun main_pkgs consts main_pkg ext).
Notation mm := (mm W).
Notation callm n := (ucallm ext (run n)).
Definition put (k : nat) (s : string) (m : mm) : mm := mkMM (mm_glob m) (mm_cells m) (mm_defers m) (log k s (mm_world m)).
Definition play (ws : list write) (m : mm) : mm := fold_left (fun m w => match w with WOut s => put ko s m | WTout s => put kt s m end) ws m.
Hypothesis Hext : forall k s m, ext "write" [UObj k; UStr s] m = MOk (put k s m) [].
Record st (m : mm) : Prop := {
  st_out : uassoc "out" (mm_glob m) = Some (UObj ko);
  st_tout : uassoc "tout" (mm_glob m) = Some (UObj kt);
  st_const : uassoc "constTypeFlag" (mm_glob m) = Some (UPtr pc);
  st_constv : nth_error (mm_cells m) pc = Some (UStr (fl_const fl));
  st_enum : uassoc "unsignedEnumFlag" (mm_glob m) = Some (UPtr pu);
  st_enumv : nth_error (mm_cells m) pu = Some (UBool (fl_unsigned fl)) }.

Lemma play_app a b m : play (a ++ b) m = play b (play a m).
Proof. apply fold_left_app. Qed.
Lemma play_parts ws m : mm_glob (play ws m) = mm_glob m /\ mm_cells (play ws m) = mm_cells m /\ mm_defers (play ws m) = mm_defers m.
Proof. revert m. induction ws as [|[s|s] ws IH]; intros m; [repeat split|apply (IH (put ko s m))|apply (IH (put kt s m))]. Qed.
Lemma st_play ws m : st m -> st (play ws m).
Proof. destruct (play_parts ws m) as (A & B & C). intros []. split; rewrite ?A, ?B; assumption. Qed.
Lemma st_defers d m : st m -> st (with_defers m d).
Proof. intros []. split; assumption. Qed.
Lemma play_defers ws d m : play ws (with_defers m d) = with_defers (play ws m) d.
Proof. revert m. induction ws as [|[s|s] ws IH]; intros m; [reflexivity|apply (IH (put ko s m))|apply (IH (put kt s m))]. Qed.

Definition emits (r : mres W (uenv * uctl)) (m : mm) (o : option (list write)) : Prop :=
  match o with Some ws => exists en ws0, r = MOk (play ws0 m) (en, KNext) /\ eqw ws0 ws | None => exists ws0, r = MPanic (play ws0 m) end.
Definition emitted (r : mres W (list uv)) (m : mm) (o : option (list write)) : Prop :=
  match o with Some ws => exists ws0, r = MOk (play ws0 m) [] /\ eqw ws0 ws | None => exists ws0, r = MPanic (play ws0 m) end.
Lemma with_defers_same (m : mm) : with_defers m (mm_defers m) = m. Proof. destruct m; reflexivity. Qed.
Lemma run_emits n f ps body args en o m :
  find_func main_pkg f = Some (ps, 0, body) -> bind_args ps args = Some en -> st m ->
  (forall m, st m -> emits (useq (uexec main_pkgs consts main_pkg ext (run n)) body en (play [] m)) m o) ->
  emitted (run (S n) f args m) m o.
Proof.
  intros F B S H. cbn [urun]. rewrite F, B. specialize (H (with_defers m []) (st_defers [] m S)). change (play [] ?m) with m in H. destruct o as [ws|].
  - destruct H as (en' & ws0 & H & E). exists ws0. split; [|exact E]. rewrite H. rewrite play_defers. cbn [mm_defers with_defers udeferred mbind].
    destruct (play_parts ws0 m) as (_ & _ & D). rewrite <- D. destruct (play ws0 m); reflexivity.
  - destruct H as (ws0 & H). exists ws0. rewrite H. rewrite play_defers. cbn [mm_defers with_defers udeferred mbind].
    destruct (play_parts ws0 m) as (_ & _ & D). rewrite <- D. destruct (play ws0 m); reflexivity.
Qed.

Section Steps.
Variable n : nat.
Notation ex := (uexec main_pkgs consts main_pkg ext (run n)).
Notation evs en := (uevals (ueval main_pkgs consts main_pkg ext (run n) en)).
Definition wname (o : bool) : string := if o then "out" else "tout".
Definition wr (o : bool) (s : string) : write := if o then WOut s else WTout s.
Definition print (o : bool) (f : string) (args : list mx) : ms := TExpr (XCall (XSel (XId "fmt") "Fprintf") (XId (wname o) :: XStr f :: args)).
Lemma print_ok o f args en acc m vs t :
  st m -> uassoc "fmt" en = None -> uassoc (wname o) en = None -> evs en args (play acc m) = MOk (play acc m) vs -> sprintf (lit_text f) vs = Some t ->
  ex (print o f args) en (play acc m) = MOk (play (acc ++ [wr o t]) m) (en, KNext).
Proof.
  intros S F O E T. unfold print. destruct (st_play acc m S) as [So St _ _ _ _].
  cbn [uexec ueval upkg]. change (GoLex.mem "fmt" main_pkgs) with true. cbv iota. rewrite F. cbn [uevals ueval]. unfold uvar. rewrite O.
  destruct o; cbn [wname String.eqb Ascii.eqb Bool.eqb]; rewrite ?So, ?St; cbn [lift mbind]; rewrite E; unfold uinvoke, ubuiltin; cbn [mbind String.append String.eqb Ascii.eqb Bool.eqb]; rewrite T, Hext; cbn [mbind]; rewrite play_app; reflexivity.
Qed.
Lemma print_panic o f args en acc m :
  st m -> uassoc "fmt" en = None -> uassoc (wname o) en = None -> evs en args (play acc m) = MPanic (play acc m) ->
  ex (print o f args) en (play acc m) = MPanic (play acc m).
Proof.
  intros S F O E. unfold print. destruct (st_play acc m S) as [So St _ _ _ _].
  cbn [uexec ueval upkg]. change (GoLex.mem "fmt" main_pkgs) with true. cbv iota. rewrite F. cbn [uevals ueval]. unfold uvar. rewrite O.
  destruct o; cbn [wname String.eqb Ascii.eqb Bool.eqb]; rewrite ?So, ?St; cbn [lift mbind]; rewrite E; reflexivity.
Qed.
Lemma emits_next s b en m m1 en1 o m0 : ex s en m = MOk m1 (en1, KNext) -> emits (useq ex b en1 m1) m0 o -> emits (useq ex (s :: b) en m) m0 o.
Proof. intros H Y. cbn [useq]. rewrite H. exact Y. Qed.
Lemma emits_panic s b en m m0 ws : ex s en m = MPanic (play ws m0) -> emits (useq ex (s :: b) en m) m0 None.
Proof. intros H. cbn [useq]. rewrite H. exists ws. reflexivity. Qed.
Lemma emits_end en m acc ws : eqw acc ws -> emits (useq ex [] en (play acc m)) m (Some ws).
Proof. intros H. exists en, acc. split; [reflexivity|exact H]. Qed.

Lemma emits_inner b add en m m0 o : emits (useq ex b (add ++ en) m) m0 o -> emits (uinner ex b add en m) m0 o.
Proof. unfold uinner. destruct o as [ws|]; intros H; [destruct H as (en' & ws0 & -> & E); eexists; exists ws0; split; [reflexivity|exact E]|destruct H as (ws0 & ->); exists ws0; reflexivity]. Qed.
Lemma emits_one s en m m0 o : emits (ex s en m) m0 o -> emits (useq ex [s] en m) m0 o.
Proof. cbn [useq]. destruct o as [ws|]; intros H; [destruct H as (en' & ws0 & -> & E); exists en', ws0; split; [reflexivity|exact E]|destruct H as (ws0 & ->); exists ws0; reflexivity]. Qed.

(** A loop that writes. *)
Definition loops (r : mres W (uenv * uctl)) (m : mm) (en : uenv) (acc : list write) (o : option (list write)) : Prop :=
  match o with Some ws => r = MOk (play (acc ++ ws) m) (en, KNext) | None => exists ws, r = MPanic (play ws m) end.
Lemma loop_emits k v b en {A} (u : A -> uv) (f : A -> option (list write)) l m :
  (forall a, In a l -> forall i acc, exists add, udeclare [k; v] [UInt i; u a] [] = Some add /\ loops (uinner ex b add en (play acc m)) m en acc (f a)) ->
  forall i acc, loops (uloop ex k v b i (map u l) en (play acc m)) m en acc (emit_list f l).
Proof.
  induction l as [|a l IH]; intros H i acc; cbn [map emit_list].
  - cbn. rewrite app_nil_r. reflexivity.
  - destruct (H a (or_introl eq_refl) i acc) as (add & D & E). cbn [uloop]. rewrite D. unfold loops in *. destruct (f a) as [ws|]; cbn [pbind].
    + rewrite E. cbn [mbind snd fst]. fold (uloop ex k v b). specialize (IH (fun a I => H a (or_intror I)) (i + 1)%Z (acc ++ ws)).
      destruct (emit_list f l) as [ws'|]; cbn [pbind].
      * rewrite IH, app_assoc. reflexivity.
      * exact IH.
    + destruct E as (ws & E). rewrite E. exists ws. reflexivity.
Qed.
End Steps.

Ltac ev1 := cbn -[main_pkg cap urun ucallm ulist elems uloop scat goType declGoType nameGotype goXdr declXdr fieldXdr uspec udtype udecl uopt goXdr_u32 goXdr_bool field_ptr Z.of_nat play].
Ltac ev := ev1; repeat (progress unfold ublk, uinner; ev1).
Ltac caps := repeat (rewrite cap_text by assumption; ev).
Ltac pr o := eapply emits_next; [eapply (print_ok _ o); [eassumption|reflexivity|reflexivity|ev; caps; reflexivity|cbn; reflexivity]|].
Ltac enter := match goal with |- emitted (urun _ _ _ _ (S ?n) ?f ?a ?m) _ ?o =>
  refine (run_emits n f _ _ a _ o m _ _ _ _); [reflexivity|reflexivity|eassumption|clear dependent m; intros m Hm] end.
Ltac assoc := repeat (progress (cbn [String.append]; rewrite ?sapp_assoc, ?sapp_nil)).
Ltac strs := unfold scat, tout_line, out_line, xdr_method, goXdr_u32, goXdr_bool, field_ptr, NL, DQ; assoc; reflexivity.
Lemma eqw_all a b : out_text true a = out_text true b -> out_text false a = out_text false b -> tout_text a = tout_text b -> eqw a b.
Proof. intros A B C. split; [intros [|]; assumption|exact C]. Qed.
Ltac fin := apply emits_end; unfold emitConst, xdr_method, tout_line, out_line; apply eqw_all; cbn [app out_text tout_text wr]; strs.

Ltac flagged := match goal with Hm : st ?m |- context [play ?acc ?m] =>
  let C := fresh in let V := fresh in let E := fresh in let U := fresh in
  destruct (st_play acc m Hm) as [_ _ C V E U]; unfold uvar; ev; rewrite ?C, ?E; ev; unfold ucell; rewrite ?V, ?U; ev; clear C V E U end.

Lemma const_text n x v m : st m -> emitted (run (S n) "emitConst" [UStr x; UStr v] m) m (Some (emitConst fl x v)).
Proof.
  intros S. enter. eapply emits_next; [eapply (print_ok _ false); [exact Hm|reflexivity|reflexivity| |]|].
  - ev. flagged. reflexivity.
  - cbn. reflexivity.
  - fin.
Qed.

Lemma typedef_text n d m : st m -> fgood consts ext (S n) d -> emitted (run (S (S n)) "emitTypedef" [udecl d] m) m (emitTypedef d).
Proof.
  intros S [_ G]. destruct d as [|t x]; cbn [udecl]; enter; [eapply emits_next; [ev; reflexivity|]; fin|]. destruct G as [[T X] N]. cbn [emitTypedef].
  match goal with |- emits (useq ?ex [?s] ?en ?m0) _ _ => 
    assert (R : emits (useq ex (match s with TType _ _ [(_, b)] => b | _ => [] end) (("v", UStruct "declName" [("t", udtype t); ("n", UStr x)]) :: en) (play [] m)) m (emitTypedef (declName t x))) end.
  { cbn [emitTypedef].
  destruct (declGoType t) as [g|] eqn:Eg; cbn [pbind].
  2: { eapply (emits_panic _ _ _ _ _ _ []). ev. rewrite (T _), Eg. reflexivity. }
  eapply emits_next; [ev; rewrite (T _), Eg; ev; reflexivity|]. eapply emits_next; [ev; reflexivity|].
  destruct (match t with declTypePtr _ => ("struct { P " +++ g +++ " }", "&v.P") | _ => (g, "v") end) as [g' ref] eqn:Er.
  eapply emits_next with (en1 := [("goRef", UStr ref); ("goType", UStr g'); ("v", UStruct "declName" [("t", udtype t); ("n", UStr x)]); ("val", UStruct "declName" [("t", udtype t); ("n", UStr x)])]).
  { destruct t; cbn [udtype]; ev; injection Er as <- <-; reflexivity. }
  pr false. pr true. destruct (declXdr t ref) as [b|] eqn:Eb; cbn [pbind].
  2: { eapply emits_panic. eapply (print_panic _ true); [exact Hm|reflexivity|reflexivity|]. ev. rewrite (X ref _), Eb. reflexivity. }
  eapply emits_next; [eapply (print_ok _ true); [exact Hm|reflexivity|reflexivity|ev; rewrite (X ref _), Eb; ev; reflexivity|cbn; reflexivity]|].
  pr true. fin. }
  revert R. cbn [emitTypedef]. match goal with |- emits (useq ?ex ?b ?en ?m0) _ ?o -> emits (useq _ _ ?en0 _) _ _ => intros R;
    assert (Q : emits (uinner ex b [("v", UStruct "declName" [("t", udtype t); ("n", UStr x)])] en0 m0) m o) end.
  { apply emits_inner. exact R. }
  apply emits_one. exact Q.
Qed.

Lemma int_xdr n u p m : callm (S n) (UStruct "typeInt" [("unsig", UBool u)]) "goXdr" [UStr p] m = MOk m (UStr (if u then goXdr_u32 p else "xdr.XdrS32(xs, (*int32)(" +++ p +++ "));" +++ NL)).
Proof. exact (flat_xdr consts ext n (typeInt u) I p m). Qed.
Lemma emit_list_some {A} (w : A -> write) l : emit_list (fun a => Some [w a]) l = Some (map w l).
Proof. induction l as [|a l IH]; cbn [emit_list map]; [reflexivity|]. rewrite IH. reflexivity. Qed.
(** The loop statement. *)
Lemma range_emits n k v e b en {A} (u : A -> uv) (f : A -> option (list write)) l m rest acc o :
  ueval main_pkgs consts main_pkg ext (run n) en e (play acc m) = MOk (play acc m) (ulist (map u l)) ->
  (forall a, In a l -> forall i acc, exists add, udeclare [k; v] [UInt i; u a] [] = Some add /\ loops (uinner (uexec main_pkgs consts main_pkg ext (run n)) b add en (play acc m)) m en acc (f a)) ->
  match emit_list f l with Some ws => emits (useq (uexec main_pkgs consts main_pkg ext (run n)) rest en (play (acc ++ ws) m)) m o | None => o = None end ->
  emits (useq (uexec main_pkgs consts main_pkg ext (run n)) (TRange k v e b :: rest) en (play acc m)) m o.
Proof.
  intros E H K. pose proof (loop_emits n k v b en u f l m H 0%Z acc) as L. unfold loops in L.
  destruct (emit_list f l) as [ws|].
  - eapply emits_next; [|exact K]. cbn [uexec]. rewrite E. cbn [mbind]. rewrite elems_ulist. exact L.
  - rewrite K. destruct L as (ws & L). apply (emits_panic _ _ _ _ _ _ ws). cbn [uexec]. rewrite E. cbn [mbind]. rewrite elems_ulist. exact L.
Qed.
(** A body that writes, once [useq] is done. *)
Lemma loops_seq n b add en m acc o :
  (match o with
   | Some ws => exists en', useq (uexec main_pkgs consts main_pkg ext (run n)) b (add ++ en) (play acc m) = MOk (play (acc ++ ws) m) (en', KNext) /\ uleave en en' = en
   | None => exists ws, useq (uexec main_pkgs consts main_pkg ext (run n)) b (add ++ en) (play acc m) = MPanic (play ws m)
   end) ->
  loops (uinner (uexec main_pkgs consts main_pkg ext (run n)) b add en (play acc m)) m en acc o.
Proof.
  unfold loops, uinner. destruct o as [ws|].
  - intros (en' & -> & L). cbn [mbind fst snd]. rewrite L. reflexivity.
  - intros (ws & ->). exists ws. reflexivity.
Qed.
Lemma seq_eq ex s b en m m1 en1 (r : mres W (uenv * uctl)) : ex s en m = MOk m1 (en1, KNext) -> useq ex b en1 m1 = r -> useq ex (s :: b) en m = r.
Proof. intros H R. cbn [useq]. rewrite H. exact R. Qed.
Lemma seq_eqp ex s b en m (m1 : mm) : ex s en m = MPanic m1 -> useq ex (s :: b) en m = MPanic m1.
Proof. intros H. cbn [useq]. rewrite H. reflexivity. Qed.
Ltac prs o := eapply seq_eq; [eapply (print_ok _ o); [eassumption|reflexivity|reflexivity|ev; caps; reflexivity|cbn; reflexivity]|].

Lemma enum_text n x l m : st m -> nm x = true -> forallb (fun it : enumItem => nm (fst it)) l = true ->
  emitted (run (S (S n)) "emitEnum" [UStr x; ulist (map uitem l)] m) m (Some (emitEnum fl x l)).
Proof.
  intros S N Nl. rewrite forallb_forall in Nl. enter. eapply emits_next; [ev; reflexivity|].
  eapply emits_next with (en1 := [("t", UStr (if fl_unsigned fl then "uint32" else "int32")); ("ident", UStr x); ("val", ulist (map uitem l))]).
  { ev. flagged. destruct (fl_unsigned fl); reflexivity. }
  pr false. pr true.
  eapply emits_next; [eapply (print_ok _ true); [eassumption|reflexivity|reflexivity| |]|].
  { ev. flagged. rewrite find_int. ev. rewrite int_xdr. ev. reflexivity. }
  { cbn; reflexivity. }
  pr true.
  eapply (range_emits _ _ _ _ _ _ uitem (fun it => Some [WTout ("const " +++ cap (fst it) +++ " " +++ cap x +++ " = " +++ snd it +++ NL)])).
  { ev. destruct l; reflexivity. }
  { intros it I i acc. assert (Ni := Nl it I). cbn beta in Ni. eexists. split; [reflexivity|]. apply loops_seq. eexists. split; [prs false; ev; reflexivity|reflexivity]. }
  rewrite emit_list_some. apply emits_end. unfold emitEnum, xdr_method, tout_line, out_line. cbn [app wr].
  rewrite (map_ext (fun it : enumItem => WTout ("const " +++ cap (fst it) +++ " " +++ cap x +++ " = " +++ snd it +++ NL)) (fun it => WTout (("const " +++ cap (fst it) +++ " " +++ cap x +++ " = " +++ snd it) +++ NL))) by (intros it; f_equal; assoc; reflexivity).
  unfold enumItem. match goal with |- context [map ?f l] => generalize (map f l) end. intros w. clear.
  destruct (fl_unsigned fl); apply eqw_all; cbn [out_text tout_text]; rewrite ?out_text_app, ?tout_text_app; cbn [out_text tout_text]; strs.
Qed.

(** Writes of the same text, item by item. *)
Lemma emit_cat o {A} (g : A -> option (list write)) (h : A -> option string) l :
  (forall a, In a l -> match g a, h a with Some ws, Some s => eqw ws [wr o s] | None, None => True | _, _ => False end) ->
  match emit_list g l, cat_opt h l with Some ws, Some s => eqw ws [wr o s] | None, None => True | _, _ => False end.
Proof.
  induction l as [|a l IH]; intros H; cbn [emit_list cat_opt].
  - destruct o; apply eqw_all; reflexivity.
  - specialize (IH (fun a I => H a (or_intror I))). specialize (H a (or_introl eq_refl)). destruct (g a) as [ws|], (h a) as [s|]; try contradiction; cbn [pbind]; [|trivial].
    destruct (emit_list g l) as [ws'|], (cat_opt h l) as [s'|]; try contradiction; cbn [pbind]; [|trivial].
    eapply eqw_trans; [exact (eqw_app _ _ _ _ H IH)|]. destruct o; apply eqw_all; cbn [app out_text tout_text wr]; assoc; reflexivity.
Qed.
Lemma find_tstruct : find_struct main_pkg "typeStruct" = Some [("items", XSlice (XId "decl"))]. Proof. reflexivity. Qed.
Lemma uvar_ulist en (m : mm) x l : uassoc x en = Some (ulist l) -> uvar consts main_pkg en m x = Some (ulist l).
Proof. intros H. unfold uvar. rewrite H. destruct l; reflexivity. Qed.

Lemma type_one n x e b en m fs : ueval main_pkgs consts main_pkg ext (run n) en e m = MOk m (UStruct "declName" fs) ->
  uexec main_pkgs consts main_pkg ext (run n) (TType (Some x) e [("declName", b)]) en m = uinner (uexec main_pkgs consts main_pkg ext (run n)) b [(x, UStruct "declName" fs)] en m.
Proof. intros H. cbn [uexec]. rewrite H. reflexivity. Qed.
Lemma inner_eq ex b add en (m : mm) m1 en1 c : useq ex b (add ++ en) m = MOk m1 (en1, c) -> uinner ex b add en m = MOk m1 (uleave en en1, c).
Proof. intros H. unfold uinner. rewrite H. reflexivity. Qed.
Lemma inner_panic ex b add en (m : mm) m1 : useq ex b (add ++ en) m = MPanic m1 -> uinner ex b add en m = MPanic m1.
Proof. intros H. unfold uinner. rewrite H. reflexivity. Qed.

Lemma struct_text n x l m : st m -> nm x = true -> (forall d, In d l -> fgood consts ext (S n) d) -> good consts ext (S n) (typeStruct l) ->
  emitted (run (S (S n)) "emitStruct" [UStr x; ulist (map udecl l)] m) m (emitStruct x l).
Proof.
  intros S N G [_ X].
  assert (X' : forall p m, callm (Datatypes.S n) (UStruct "typeStruct" [("items", ulist (map udecl l))]) "goXdr" [UStr p] m = pure1 m (goXdr (typeStruct l) p)) by exact X.
  enter. pr false. unfold emitStruct.
  pose (g := fun d => match d with declVoid => Some [] | declName t y => do s <- declGoType t ; Some [WTout ("  " +++ cap y +++ " " +++ s +++ ";" +++ NL)] end).
  pose proof (emit_cat false g struct_line l) as C.
  eapply (range_emits _ _ _ _ _ _ udecl g).
  { cbn [ueval]. rewrite (uvar_ulist _ _ _ (map udecl l)) by reflexivity. reflexivity. }
  { intros d I i acc. destruct (G d I) as [_ Gd]. eexists. split; [reflexivity|]. apply loops_seq. destruct d as [|t y]; cbn [g udecl] in *.
    - eexists. split; [ev; rewrite app_nil_r; reflexivity|reflexivity].
    - destruct Gd as [[T _] Ny]. destruct (declGoType t) as [s|] eqn:Et; cbn [pbind].
      + eexists. split.
        cbn [useq]. rewrite (type_one _ _ _ _ _ _ [("t", udtype t); ("n", UStr y)]) by reflexivity.
        erewrite inner_eq. 2: { eapply seq_eq; [eapply (print_ok _ false); [exact Hm|reflexivity|reflexivity|ev; caps; rewrite (T _), Et; ev; reflexivity|cbn; reflexivity]|]. cbn [useq]. reflexivity. }
        ev. reflexivity. reflexivity.
      + eexists. cbn [useq]. rewrite (type_one _ _ _ _ _ _ [("t", udtype t); ("n", UStr y)]) by reflexivity. erewrite inner_panic. 2: { eapply seq_eqp, (print_panic _ false); [exact Hm|reflexivity|reflexivity|]. ev. caps. rewrite (T _), Et. reflexivity. }
        reflexivity. }
  assert (C' : match emit_list g l, cat_opt struct_line l with Some ws, Some s => eqw ws [WTout s] | None, None => True | _, _ => False end).
  { apply C. intros [|t y] _; cbn [g struct_line]; [apply eqw_all; reflexivity|]. destruct (declGoType t); cbn [pbind]; [|trivial]. apply eqw_refl. }
  clear C. destruct (emit_list g l) as [ws|], (cat_opt struct_line l) as [ls|]; try contradiction; cbn [pbind]; [|reflexivity].
  pr false. pr true. destruct (goXdr (typeStruct l) "v") as [b|] eqn:Eb; cbn [pbind].
  2: { eapply emits_panic. eapply (print_panic _ true); [exact Hm|reflexivity|reflexivity|].
       cbn [uevals ueval]. rewrite (uvar_ulist _ _ _ (map udecl l)) by reflexivity. ev. rewrite find_tstruct. ev. rewrite X', Eb. reflexivity. }
  eapply emits_next; [eapply (print_ok _ true); [exact Hm|reflexivity|reflexivity| |]|].
  { cbn [uevals ueval]. rewrite (uvar_ulist _ _ _ (map udecl l)) by reflexivity. ev. rewrite find_tstruct. ev. rewrite X', Eb. reflexivity. }
  { cbn. reflexivity. }
  pr true. apply emits_end. destruct C' as [C1 C2]. unfold xdr_method, tout_line, out_line. cbn [wr app].
  apply eqw_all; cbn [out_text tout_text app]; rewrite ?out_text_app, ?tout_text_app; rewrite ?C1, ?C2; cbn [out_text tout_text]; strs.
Qed.

Lemma union_text n x sw cs d m : st m -> nm x = true -> good consts ext (S n) (typeUnion sw cs d) ->
  emitted (run (S (S n)) "emitUnion" [UStr x; uspec (typeUnion sw cs d)] m) m (emitUnion x sw cs d).
Proof.
  intros S N [T X]. unfold types, xdrs in T, X. unfold emitUnion.
  assert (U : exists fs, uspec (typeUnion sw cs d) = UStruct "typeUnion" fs) by (eexists; reflexivity). destruct U as (fs & U). rewrite U in *. clear U. enter.
  destruct (goType (typeUnion sw cs d)) as [g|]; cbn [pbind].
  2: { eapply emits_panic. eapply (print_panic _ false); [exact Hm|reflexivity|reflexivity|]. ev. caps. rewrite T. reflexivity. }
  eapply emits_next; [eapply (print_ok _ false); [exact Hm|reflexivity|reflexivity|ev; caps; rewrite T; ev; reflexivity|cbn; reflexivity]|].
  pr true. destruct (goXdr (typeUnion sw cs d) "v") as [b|] eqn:Eb; cbn [pbind].
  2: { eapply emits_panic. eapply (print_panic _ true); [exact Hm|reflexivity|reflexivity|]. ev. rewrite X, Eb. reflexivity. }
  eapply emits_next; [eapply (print_ok _ true); [exact Hm|reflexivity|reflexivity|ev; rewrite X, Eb; ev; reflexivity|cbn; reflexivity]|].
  pr true. fin.
Qed.

Definition ogood (n : nat) (o : typespecOpt) : Prop := match o with None => True | Some t => good consts ext n t end.
Lemma maybe_type n o m : ogood n o -> callm (S n) (uopt o) "maybeGoType" [] m = pure1 m (maybeGoType o).
Proof.
  intros G. destruct o as [t|]; cbn [uopt].
  - apply callm_struct; [reflexivity|]. cbn [String.append]. refine (run_pure consts ext n _ _ _ _ _ (goType t) m _ _ _); [reflexivity|reflexivity|]. intros m' _. ev. destruct G as [T _]. rewrite (T m').
    destruct (goType t); ev; [eexists|]; reflexivity.
  - apply callm_struct; [reflexivity|]. cbn [String.append]. refine (run_pure consts ext n _ _ _ _ _ (Some "") m _ _ _); [reflexivity|reflexivity|]. intros m' _. ev. eexists. reflexivity.
Qed.

(** The writes of emitProg, one for each Fprintf. *)
Definition iface_w (c : progCall) : option (list write) :=
  do a <- maybeGoType (pc_arg c) ; do r <- maybeGoType (pc_res c) ; Some [WOut (cap (pc_name c) +++ "(" +++ a +++ ") " +++ r +++ NL)].
Definition wrapper_w (p q : string) (c : progCall) : option (list write) :=
  do a <- maybeGoType (pc_arg c) ; do r <- maybeGoType (pc_res c) ;
  Some ([WOut ("func (w *" +++ p +++ "_" +++ q +++ "_handler_wrapper) " +++ cap (pc_name c) +++ "(args *xdr.XdrState) (res xdr.Xdrable, err error) {" +++ NL)] ++
        match pc_arg c with
        | None => []
        | Some _ => [WOut ("var in " +++ a +++ NL); WOut ("in.Xdr(args)" +++ NL); WOut ("err = args.Error()" +++ NL); WOut ("if err != nil { return }" +++ NL)]
        end ++
        match pc_res c with None => [WOut ("var out xdr.Void" +++ NL)] | Some _ => [WOut ("var out " +++ r +++ NL)] end ++
        match pc_res c with None => [] | Some _ => [WOut "out = "] end ++
        [WOut ("w.h." +++ cap (pc_name c) +++ "(")] ++ match pc_arg c with None => [] | Some _ => [WOut "in"] end ++
        [WOut (")" +++ NL); WOut "return &out, nil"; WOut ("}" +++ NL)]).
Definition reg_w (p q : string) (c : progCall) : list write :=
  [WOut ("xdr.ProcRegistration{" +++ NL); WOut ("Prog: " +++ p +++ "," +++ NL); WOut ("Vers: " +++ q +++ "," +++ NL);
   WOut ("Proc: " +++ cap (pc_name c) +++ "," +++ NL); WOut ("Handler: w." +++ cap (pc_name c) +++ "," +++ NL); WOut ("}," +++ NL)].
Definition ver_w (p : string) (v : progVer) : option (list write) :=
  let q := cap (pv_name v) in
  do ifs <- emit_list iface_w (pv_calls v) ; do ws <- emit_list (wrapper_w p q) (pv_calls v) ;
  do rs <- emit_list (fun c => Some (reg_w p q c)) (pv_calls v) ;
  Some ([WTout ("const " +++ q +++ " uint32 = " +++ pv_id v +++ NL)] ++
        map (fun c => WTout ("const " +++ cap (pc_name c) +++ " uint32 = " +++ pc_id c +++ NL)) (pv_calls v) ++
        [WOut ("type " +++ p +++ "_" +++ q +++ "_handler interface {" +++ NL)] ++ ifs ++ [WOut ("}" +++ NL)] ++
        [WOut ("type " +++ p +++ "_" +++ q +++ "_handler_wrapper struct {" +++ NL)] ++ [WOut ("h " +++ p +++ "_" +++ q +++ "_handler" +++ NL)] ++ [WOut ("}" +++ NL)] ++ ws ++
        [WOut ("func " +++ p +++ "_" +++ q +++ "_regs(h " +++ p +++ "_" +++ q +++ "_handler) []xdr.ProcRegistration {" +++ NL)] ++
        [WOut ("w := &" +++ p +++ "_" +++ q +++ "_handler_wrapper{h}" +++ NL)] ++ [WOut ("return []xdr.ProcRegistration{" +++ NL)] ++ rs ++
        [WOut ("}" +++ NL)] ++ [WOut ("}" +++ NL)]).

(** Statements that only write. *)
Section Body.
Variable n : nat.
Notation ex := (uexec main_pkgs consts main_pkg ext (run n)).
Notation evs en := (uevals (ueval main_pkgs consts main_pkg ext (run n) en)).
Notation evl en := (ueval main_pkgs consts main_pkg ext (run n) en).
Variable m : mm.
Hypothesis Hm : st m.
Definition steps (en : uenv) (r : mm -> mres W (uenv * uctl)) (o : option (list write)) : Prop := forall acc, loops (r (play acc m)) m en acc o.
Lemma steps_conv en r o o' : steps en r o -> o = o' -> steps en r o'. Proof. intros H <-. exact H. Qed.
Lemma steps_nil en : steps en (useq ex [] en) (Some []).
Proof. intros acc. cbn. rewrite app_nil_r. reflexivity. Qed.
Lemma steps_cons en s b o1 o2 : steps en (ex s en) o1 -> steps en (useq ex b en) o2 -> steps en (useq ex (s :: b) en) (do x <- o1 ; do y <- o2 ; Some (x ++ y)).
Proof.
  intros A B acc. specialize (A acc). unfold loops in *. cbn [useq]. destruct o1 as [x|]; cbn [pbind].
  - rewrite A. cbn [mbind snd fst]. specialize (B (acc ++ x)). unfold loops in B. destruct o2 as [y|]; cbn [pbind]; [rewrite B, app_assoc; reflexivity|exact B].
  - destruct A as (ws & A). rewrite A. exists ws. reflexivity.
Qed.
Lemma leave_app add (en : uenv) : uleave en (add ++ en) = en.
Proof. unfold uleave. rewrite List.app_length, Nat.add_sub. induction add as [|a add IH]; [reflexivity|exact IH]. Qed.
Lemma steps_inner en b add o : steps (add ++ en) (useq ex b (add ++ en)) o -> steps en (uinner ex b add en) o.
Proof.
  intros H acc. specialize (H acc). unfold loops, uinner in *. destruct o as [ws|].
  - rewrite H. cbn [mbind fst snd]. rewrite leave_app. reflexivity.
  - destruct H as (ws & H). rewrite H. exists ws. reflexivity.
Qed.
Lemma steps_blk en b o : steps en (useq ex b en) o -> steps en (ublk ex b en) o.
Proof. exact (steps_inner en b [] o). Qed.
Lemma steps_if en c a b (x : bool) o : (forall m, evl en c m = MOk m (UBool x)) ->
  steps en (if x then ublk ex a en else match b with Some b => ublk ex b en | None => fun m => MOk m (en, KNext) end) o -> steps en (ex (TIf c a b) en) o.
Proof. intros E H acc. specialize (H acc). cbn [uexec]. rewrite E. cbn [mbind]. destruct x; [exact H|destruct b; exact H]. Qed.
Lemma steps_none en : steps en (fun m => MOk m (en, KNext)) (Some []).
Proof. intros acc. cbn. rewrite app_nil_r. reflexivity. Qed.
Lemma steps_range en k v e b {A} (u : A -> uv) (f : A -> option (list write)) l :
  (forall m, evl en e m = MOk m (ulist (map u l))) ->
  (forall a, In a l -> forall i, exists add, udeclare [k; v] [UInt i; u a] [] = Some add /\ steps en (uinner ex b add en) (f a)) ->
  steps en (ex (TRange k v e b) en) (emit_list f l).
Proof.
  intros E H acc. cbn [uexec]. rewrite E. cbn [mbind]. rewrite elems_ulist. apply loop_emits. intros a I i acc'. destruct (H a I i) as (add & D & S). exists add. split; [exact D|apply S].
Qed.
Lemma steps_print o f args en vs t : uassoc "fmt" en = None -> uassoc (wname o) en = None -> (forall m, evs en args m = MOk m vs) -> sprintf (lit_text f) vs = Some t ->
  steps en (ex (print o f args) en) (Some [wr o t]).
Proof. intros F O E T acc. apply (print_ok n o f args en acc m vs t Hm F O (E _) T). Qed.
Lemma steps_panic o f args en : uassoc "fmt" en = None -> uassoc (wname o) en = None -> (forall m, evs en args m = MPanic m) -> steps en (ex (print o f args) en) None.
Proof. intros F O E acc. exists acc. apply (print_panic n o f args en acc m Hm F O (E _)). Qed.
End Body.
Definition cgood (n : nat) (c : progCall) : Prop := nm (pc_name c) = true /\ (ogood n (pc_arg c) /\ ogood n (pc_res c)) /\ ogood (S n) (pc_arg c) /\ ogood (S n) (pc_res c).

Lemma steps_stop n m en s b : steps m en (uexec main_pkgs consts main_pkg ext (run n) s en) None -> steps m en (useq (uexec main_pkgs consts main_pkg ext (run n)) (s :: b) en) None.
Proof. intros H acc. destruct (H acc) as (ws & E). exists ws. cbn [useq]. rewrite E. reflexivity. Qed.
Ltac pp o := eapply (steps_print _ _ ltac:(eassumption) o); [reflexivity|reflexivity|intros; ev; caps; reflexivity|cbn; reflexivity].
Ltac pg T := first [eapply (steps_print _ _ ltac:(eassumption) true); [reflexivity|reflexivity|intros; ev; rewrite T; ev; reflexivity|cbn; reflexivity]
  | eapply (steps_panic _ _ ltac:(eassumption) true); [reflexivity|reflexivity|intros; ev; rewrite T; reflexivity]].
Definition wrapper_body : list ms :=
  match out_emitProg with
  | MFunc _ _ _ _ [_; TRange _ _ _ [_; _; _; _; _; _; _; _; TRange _ _ _ b; _; _; _; _; _; _]] _ => b
  | _ => []
  end.
Lemma wrapper_steps n m : st m -> forall p v c j i, nm (pd_name p) = true -> nm (pv_name v) = true -> nm (pc_name c) = true -> ogood (S n) (pc_arg c) -> ogood (S n) (pc_res c) ->
  steps m
    ((if "c" =? "_" then if "_" =? "_" then [] else [("_", UInt j)] else ("c", ucall c) :: (if "_" =? "_" then [] else [("_", UInt j)])) ++
     (if "v" =? "_" then if "_" =? "_" then [] else [("_", UInt i)] else ("v", uver v) :: (if "_" =? "_" then [] else [("_", UInt i)])) ++
     [("d", uprog p)])
    (useq (uexec main_pkgs consts main_pkg ext (run (S n))) wrapper_body
      ((if "c" =? "_" then if "_" =? "_" then [] else [("_", UInt j)] else ("c", ucall c) :: (if "_" =? "_" then [] else [("_", UInt j)])) ++
       (if "v" =? "_" then if "_" =? "_" then [] else [("_", UInt i)] else ("v", uver v) :: (if "_" =? "_" then [] else [("_", UInt i)])) ++
       [("d", uprog p)]))
    (wrapper_w (cap (pd_name p)) (cap (pv_name v)) c).
Proof.
  intros Hm p v c j i Np Nv Nc Ga Gr. cbn [String.eqb Ascii.eqb Bool.eqb app].
  let b := eval cbv [wrapper_body out_emitProg] in wrapper_body in change wrapper_body with b.
  destruct c as [cn ca cr ci]. unfold ucall, uver, uprog, wrapper_w. cbn [pc_name pc_arg pc_res pc_id] in *.
  destruct ca as [ta|], cr as [tr|]; cbn [uopt maybeGoType] in *.
  - destruct Ga as [Ta _], Gr as [Tr _]. unfold types in Ta, Tr. destruct (goType ta) as [a|], (goType tr) as [r|]; (eapply steps_conv;
    [apply steps_cons; [pp true|]; apply steps_cons; [apply (steps_if _ _ _ _ _ _ true); [intros; ev; reflexivity|]; apply steps_blk; apply steps_cons; [pg Ta|]; do 3 (apply steps_cons; [pp true|]); apply steps_nil|];
     apply steps_cons; [apply (steps_if _ _ _ _ _ _ true); [intros; ev; reflexivity|]; apply steps_blk; apply steps_cons; [pg Tr|]; apply steps_nil|];
     apply steps_cons; [apply (steps_if _ _ _ _ _ _ true); [intros; ev; reflexivity|]; apply steps_blk; apply steps_cons; [pp true|]; apply steps_nil|];
     apply steps_cons; [pp true|]; apply steps_cons; [apply (steps_if _ _ _ _ _ _ true); [intros; ev; reflexivity|]; apply steps_blk; apply steps_cons; [pp true|]; apply steps_nil|];
     do 3 (apply steps_cons; [pp true|]); apply steps_nil|reflexivity]).
  - destruct Ga as [Ta _]. unfold types in Ta. destruct (goType ta) as [a|]; (eapply steps_conv;
    [apply steps_cons; [pp true|]; apply steps_cons; [apply (steps_if _ _ _ _ _ _ true); [intros; ev; reflexivity|]; apply steps_blk; apply steps_cons; [pg Ta|]; do 3 (apply steps_cons; [pp true|]); apply steps_nil|];
     apply steps_cons; [apply (steps_if _ _ _ _ _ _ false); [intros; ev; reflexivity|]; apply steps_blk; apply steps_cons; [pp true|]; apply steps_nil|];
     apply steps_cons; [apply (steps_if _ _ _ _ _ _ false); [intros; ev; reflexivity|]; apply steps_none|];
     apply steps_cons; [pp true|]; apply steps_cons; [apply (steps_if _ _ _ _ _ _ true); [intros; ev; reflexivity|]; apply steps_blk; apply steps_cons; [pp true|]; apply steps_nil|];
     do 3 (apply steps_cons; [pp true|]); apply steps_nil|reflexivity]).
  - destruct Gr as [Tr _]. unfold types in Tr. destruct (goType tr) as [r|]; (eapply steps_conv;
    [apply steps_cons; [pp true|]; apply steps_cons; [apply (steps_if _ _ _ _ _ _ false); [intros; ev; reflexivity|]; apply steps_none|];
     apply steps_cons; [apply (steps_if _ _ _ _ _ _ true); [intros; ev; reflexivity|]; apply steps_blk; apply steps_cons; [pg Tr|]; apply steps_nil|];
     apply steps_cons; [apply (steps_if _ _ _ _ _ _ true); [intros; ev; reflexivity|]; apply steps_blk; apply steps_cons; [pp true|]; apply steps_nil|];
     apply steps_cons; [pp true|]; apply steps_cons; [apply (steps_if _ _ _ _ _ _ false); [intros; ev; reflexivity|]; apply steps_none|];
     do 3 (apply steps_cons; [pp true|]); apply steps_nil|reflexivity]).
  - eapply steps_conv;
    [apply steps_cons; [pp true|]; apply steps_cons; [apply (steps_if _ _ _ _ _ _ false); [intros; ev; reflexivity|]; apply steps_none|];
     apply steps_cons; [apply (steps_if _ _ _ _ _ _ false); [intros; ev; reflexivity|]; apply steps_blk; apply steps_cons; [pp true|]; apply steps_nil|];
     apply steps_cons; [apply (steps_if _ _ _ _ _ _ false); [intros; ev; reflexivity|]; apply steps_none|];
     apply steps_cons; [pp true|]; apply steps_cons; [apply (steps_if _ _ _ _ _ _ false); [intros; ev; reflexivity|]; apply steps_none|];
     do 3 (apply steps_cons; [pp true|]); apply steps_nil|reflexivity].
Qed.
Lemma prog_text n p m : st m -> nm (pd_name p) = true -> (forall v, In v (pd_vers p) -> nm (pv_name v) = true /\ forall c, In c (pv_calls v) -> cgood n c) ->
  emitted (run (S (S n)) "emitProg" [uprog p] m) m
    (do vs <- emit_list (ver_w (cap (pd_name p))) (pd_vers p) ; Some (tout_line ("const " +++ cap (pd_name p) +++ " uint32 = " +++ pd_id p) :: vs)).
Proof.
  intros S N G. unfold uprog. enter. pr false.
  eapply (range_emits _ _ _ _ _ _ uver (ver_w (cap (pd_name p)))); [ev; reflexivity| |].
  2: { destruct (emit_list _ (pd_vers p)) as [vs|]; cbn [pbind]; [|reflexivity]. apply emits_end. cbn [app wr]. unfold tout_line. apply eqw_all; cbn [out_text tout_text]; strs. }
    intros v I i acc. destruct (G v I) as [Nv Gc]. eexists. split; [reflexivity|]. revert acc.
  match goal with |- forall acc, loops (uinner ?ex ?b ?add ?en _) _ _ _ ?o => change (steps m en (uinner ex b add en) o) end.
  apply steps_inner. cbn [app]. eapply steps_conv.
  { apply steps_cons; [pp false|]. apply steps_cons.
    { eapply (steps_range _ _ _ _ _ _ _ ucall (fun c => Some [WTout ("const " +++ cap (pc_name c) +++ " uint32 = " +++ pc_id c +++ NL)])); [intros; ev; reflexivity|].
      intros c Ic j. destruct (Gc c Ic) as (Nc & _). eexists. split; [reflexivity|]. apply steps_inner. cbn [app]. eapply steps_conv; [apply steps_cons; [pp false|apply steps_nil]|reflexivity]. }
    apply steps_cons; [pp true|]. apply steps_cons.
    { eapply (steps_range _ _ _ _ _ _ _ ucall iface_w); [intros; ev; reflexivity|].
      intros c Ic j. destruct (Gc c Ic) as (Nc & [Ga Gr] & _). eexists. split; [reflexivity|]. apply steps_inner. cbn [app]. unfold iface_w.
      destruct (maybeGoType (pc_arg c)) as [a|] eqn:Ea; cbn [pbind].
      2: { apply steps_stop, (steps_panic _ _ Hm true); [reflexivity|reflexivity|]. intros m'. ev. caps. rewrite maybe_type by assumption. rewrite Ea. reflexivity. }
      destruct (maybeGoType (pc_res c)) as [r|] eqn:Er; cbn [pbind].
      2: { apply steps_stop, (steps_panic _ _ Hm true); [reflexivity|reflexivity|]. intros m'. ev. caps. rewrite maybe_type by assumption. rewrite Ea. ev. rewrite maybe_type by assumption. rewrite Er. reflexivity. }
      eapply steps_conv; [apply steps_cons; [|apply steps_nil]|].
      { eapply (steps_print _ _ ltac:(eassumption) true); [reflexivity|reflexivity|intros; ev; caps; rewrite maybe_type by assumption; rewrite Ea; ev; rewrite maybe_type by assumption; rewrite Er; ev; reflexivity|cbn; reflexivity]. }
      reflexivity. }
    apply steps_cons; [pp true|]. apply steps_cons; [pp true|]. apply steps_cons; [pp true|]. apply steps_cons; [pp true|]. apply steps_cons.
    { eapply (steps_range _ _ _ _ _ _ _ ucall (wrapper_w (cap (pd_name p)) (cap (pv_name v)))); [intros; ev; reflexivity|].
      intros c Ic j. destruct (Gc c Ic) as (Nc & _ & Ga & Gr). eexists. split; [reflexivity|]. apply steps_inner. cbn [app]. exact (wrapper_steps n m Hm p v c j i N Nv Nc Ga Gr). }
    apply steps_cons; [pp true|]. apply steps_cons; [pp true|]. apply steps_cons; [pp true|]. apply steps_cons.
    { eapply (steps_range _ _ _ _ _ _ _ ucall (fun c => Some (reg_w (cap (pd_name p)) (cap (pv_name v)) c))); [intros; ev; reflexivity|].
      intros c Ic j. destruct (Gc c Ic) as (Nc & _). eexists. split; [reflexivity|]. apply steps_inner. cbn [app]. eapply steps_conv; [do 6 (apply steps_cons; [pp true|]); apply steps_nil|reflexivity]. }
    apply steps_cons; [pp true|]. apply steps_cons; [pp true|]. apply steps_nil. }
  unfold ver_w. rewrite emit_list_some. cbv zeta. destruct (emit_list iface_w (pv_calls v)); cbn [pbind]; [|reflexivity].
  destruct (emit_list (wrapper_w _ _) (pv_calls v)); cbn [pbind]; [|reflexivity].
  destruct (emit_list (fun c => Some (reg_w _ _ c)) (pv_calls v)); cbn [pbind]; reflexivity.
Qed.

Definition eqo (a b : option (list write)) : Prop := match a, b with Some x, Some y => eqw x y | None, None => True | _, _ => False end.
Lemma emitted_eqo r m a b : emitted r m a -> eqo a b -> emitted r m b.
Proof. destruct a as [a|], b as [b|]; try contradiction; [|trivial]. intros (ws & E & Q) H. exists ws. split; [exact E|exact (eqw_trans _ _ _ Q H)]. Qed.
Lemma emit_list_eqo {A} (f g : A -> option (list write)) l : (forall a, eqo (f a) (g a)) -> eqo (emit_list f l) (emit_list g l).
Proof.
  intros H. induction l as [|a l IH]; cbn [emit_list]; [apply eqw_refl|]. specialize (H a). destruct (f a) as [x|], (g a) as [y|]; try contradiction; cbn [pbind]; [|trivial].
  destruct (emit_list f l) as [x'|], (emit_list g l) as [y'|]; try contradiction; cbn [pbind]; [|trivial]. exact (eqw_app _ _ _ _ H IH).
Qed.
Lemma cat_some {A} (f : A -> string) l : cat_opt (fun a => Some (f a)) l = Some (String.concat "" (map f l)).
Proof.
  induction l as [|a [|b l] IH]; [reflexivity|cbn; rewrite sapp_nil; reflexivity|]. cbn [cat_opt pbind]. cbn [cat_opt pbind] in IH. rewrite IH. cbn [pbind map String.concat String.append]. reflexivity.
Qed.
Lemma ver_eqo p v : eqo (ver_w (cap p) v) (emitVer p v).
Proof.
  unfold ver_w, emitVer. cbv zeta. set (P := cap p). set (Q := cap (pv_name v)).
  assert (I : match emit_list iface_w (pv_calls v), cat_opt iface_line (pv_calls v) with Some ws, Some s => eqw ws [wr true s] | None, None => True | _, _ => False end).
  { apply emit_cat. intros c _. unfold iface_w, iface_line. destruct (maybeGoType (pc_arg c)); cbn [pbind]; [|trivial]. destruct (maybeGoType (pc_res c)); cbn [pbind]; [|trivial]. apply eqw_refl. }
  assert (Wr : match emit_list (wrapper_w P Q) (pv_calls v), cat_opt (wrapper (P +++ "_" +++ Q)) (pv_calls v) with Some ws, Some s => eqw ws [wr true s] | None, None => True | _, _ => False end).
  { apply emit_cat. intros c _. unfold wrapper_w, wrapper. destruct (maybeGoType (pc_arg c)); cbn [pbind]; [|trivial]. destruct (maybeGoType (pc_res c)); cbn [pbind]; [|trivial].
    clearbody P Q. destruct (pc_arg c), (pc_res c); apply eqw_all; cbn [app out_text tout_text wr]; try reflexivity; unfold NL; assoc; reflexivity. }
  assert (R : match emit_list (fun c => Some (reg_w P Q c)) (pv_calls v), cat_opt (fun c => Some (reg_entry p (pv_name v) c)) (pv_calls v) with Some ws, Some s => eqw ws [wr true s] | None, None => True | _, _ => False end).
  { apply emit_cat. intros c _. unfold reg_w, reg_entry. fold P Q. clearbody P Q. apply eqw_all; cbn [out_text tout_text wr]; try reflexivity; unfold NL; assoc; reflexivity. }
  rewrite cat_some in R.
  destruct (emit_list iface_w (pv_calls v)) as [ifs|], (cat_opt iface_line (pv_calls v)) as [ifs'|]; try contradiction; cbn [pbind]; [|trivial].
  destruct (emit_list (wrapper_w P Q) (pv_calls v)) as [ws|], (cat_opt (wrapper _) (pv_calls v)) as [ws'|]; try contradiction; cbn [pbind]; [|trivial].
  destruct (emit_list (fun c => Some (reg_w P Q c)) (pv_calls v)) as [rs|]; [|contradiction]. cbn [pbind eqo].
  rewrite (map_ext (fun c => WTout ("const " +++ cap (pc_name c) +++ " uint32 = " +++ pc_id c +++ NL)) (fun c => tout_line ("const " +++ cap (pc_name c) +++ " uint32 = " +++ pc_id c)))
    by (intros c; unfold tout_line; f_equal; assoc; reflexivity).
  match goal with |- context [map ?f (pv_calls v)] => generalize (map f (pv_calls v)) end. intros cs. cbn [wr] in I, Wr, R.
  unfold tout_line, out_line. cbn [app].
  apply (eqw_app [WTout _] [WTout _]); [apply eqw_all; cbn [out_text tout_text]; unfold NL; assoc; reflexivity|].
  apply eqw_app; [apply eqw_refl|].
  apply (eqw_app [WOut _] [WOut _]); [apply eqw_all; cbn [out_text tout_text]; unfold NL; assoc; reflexivity|].
  apply (eqw_app ifs [WOut ifs']); [exact I|].
  apply (eqw_app [_; _; _; _] [_; _; _; _]); [apply eqw_all; cbn [out_text tout_text]; unfold NL; assoc; reflexivity|].
  apply (eqw_app ws [WOut ws']); [exact Wr|].
  apply (eqw_app [_; _; _] [_; _; _]); [apply eqw_all; cbn [out_text tout_text]; unfold NL; assoc; reflexivity|].
  apply (eqw_app rs [WOut _]); [exact R|]. apply eqw_refl.
Qed.

(** ** All definitions *)
Lemma ogood_enough o : ok_opt o = true -> enough (fun n => ogood n o).
Proof. destruct o as [t|]; intros H; [apply all_good, H|exists 0; trivial; intros; exact I]. Qed.
Lemma call_enough c : ok_call c = true -> enough (fun n => cgood n c).
Proof.
  intros H. apply andb_true_iff in H. destruct H as [H R]. apply andb_true_iff in H. destruct H as [N A].
  destruct (ogood_enough _ A) as [ka Ka], (ogood_enough _ R) as [kr Kr]. exists (max ka kr). intros n L. split; [exact N|]. split; split; [apply Ka|apply Kr|apply Ka|apply Kr]; lia.
Qed.
Theorem emit_enough d : ok_defn d = true -> enough (fun n => forall m, st m -> emitted (run n (fst (emit_call d)) (snd (emit_call d)) m) m (emit fl d)).
Proof.
  intros O. destruct d as [x v|d|x l|x l|x s c d|p]; cbn [emit_call fst snd emit ok_defn] in *.
  - apply enough_1. intros n m S. apply const_text, S.
  - refine (enough_SS _ _ _ (proj2 (proj2 (all_good consts ext)) d O)). intros n G m S. apply typedef_text; assumption.
  - apply andb_true_iff in O. destruct O as [N L]. exists 2. intros [|[|n]] Le m S; [lia|lia|]. apply enum_text; assumption.
  - apply andb_true_iff in O. destruct O as [N L].
    assert (A : enough (fun n => forall d, In d l -> fgood consts ext n d)).
    { apply (enough_all (fgood consts ext)). apply Forall_forall. intros d D. apply all_good. rewrite forallb_forall in L. apply L, D. }
    refine (enough_SS _ _ _ (enough_and _ _ A (proj1 (all_good consts ext) (typeStruct l) L))). intros n [G G'] m S. apply struct_text; assumption.
  - apply andb_true_iff in O. destruct O as [N L]. refine (enough_SS _ _ _ (proj1 (all_good consts ext) _ L)). intros n G m S. apply union_text; assumption.
  - apply andb_true_iff in O. destruct O as [N L]. rewrite forallb_forall in L.
    assert (A : enough (fun n => forall v, In v (pd_vers p) -> nm (pv_name v) = true /\ forall c, In c (pv_calls v) -> cgood n c)).
    { apply (enough_all (fun n v => nm (pv_name v) = true /\ forall c, In c (pv_calls v) -> cgood n c)). apply Forall_forall. intros v V. specialize (L v V). apply andb_true_iff in L. destruct L as [Nv Lc].
      rewrite forallb_forall in Lc. assert (B : enough (fun n => forall c, In c (pv_calls v) -> cgood n c)) by (apply (enough_all cgood), Forall_forall; intros c C; apply call_enough, Lc, C).
      destruct B as [k K]. exists k. intros n Le. split; [exact Nv|apply K, Le]. }
    destruct A as [k K]. exists (S (S k)). intros [|[|n]] Le m S; [lia|lia|]. eapply emitted_eqo; [apply prog_text; [exact S|exact N|apply K; lia]|].
    unfold emitProg. pose proof (emit_list_eqo (ver_w (cap (pd_name p))) (emitVer (pd_name p)) (pd_vers p) (ver_eqo (pd_name p))) as E.
    destruct (emit_list (ver_w _) _) as [a|], (emit_list (emitVer _) _) as [b|]; try contradiction; cbn [pbind eqo]; [|trivial]. apply eqw_cons, E.
Qed.
End Emit.
