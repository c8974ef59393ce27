(** The text of /repo/out.go, run by MainSem.v, computes what Emit.v says. *)
From Coq Require Import Lia.
From Verif Require Import GoLex XLex Gram GParse Emit GEmitP GLexP GLexQ SrcAst MainAst MainProg MainSem.
Open Scope string_scope.
Open Scope list_scope.

Definition main_pkg : list md := mf_decls out_prog ++ mf_decls scan_prog ++ mf_decls main_prog.
Definition main_pkgs : list string := ["flag"; "fmt"; "format"; "token"; "io"; "ioutil"; "os"; "scanner"; "strings"].

(** ** The values that stand for syntax trees *)
Definition ulist (l : list uv) : uv := match l with [] => UNil | _ => UList l end.
Definition uitem (i : enumItem) : uv := UStruct "enumItem" [("name", UStr (fst i)); ("val", UStr (snd i))].
Fixpoint uspec (t : typespec) : uv :=
  match t with
  | typeInt u => UStruct "typeInt" [("unsig", UBool u)]
  | typeHyper u => UStruct "typeHyper" [("unsig", UBool u)]
  | typeFloat => UStruct "typeFloat" []
  | typeDouble => UStruct "typeDouble" []
  | typeQuadruple => UStruct "typeQuadruple" []
  | typeBool => UStruct "typeBool" []
  | typeEnum l => UStruct "typeEnum" [("items", ulist (map uitem l))]
  | typeStruct l => UStruct "typeStruct" [("items", ulist (map udecl l))]
  | typeUnion sw cs d =>
      UStruct "typeUnion" [("switchDecl", udecl sw);
        ("cases", UStruct "unionCasesDef" [("cases", ulist (map (fun c : list string * decl =>
             UStruct "unionCaseDecl" [("cases", ulist (map UStr (fst c))); ("body", udecl (snd c))]) cs));
           ("def", match d with Some d => udecl d | None => UNil end)])]
  | typeIdent n => UStruct "typeIdent" [("n", UStr n)]
  end
with udtype (t : declType) : uv :=
  match t with
  | declTypeTypespec t => UStruct "declTypeTypespec" [("t", uspec t)]
  | declTypeArray t sz => UStruct "declTypeArray" [("t", uspec t); ("sz", UStr sz)]
  | declTypeVarArray t sz => UStruct "declTypeVarArray" [("t", uspec t); ("sz", UStr sz)]
  | declTypeOpaqueArray sz => UStruct "declTypeOpaqueArray" [("sz", UStr sz)]
  | declTypeOpaqueVarArray sz => UStruct "declTypeOpaqueVarArray" [("sz", UStr sz)]
  | declTypeString sz => UStruct "declTypeString" [("sz", UStr sz)]
  | declTypePtr t => UStruct "declTypePtr" [("t", uspec t)]
  end
with udecl (d : decl) : uv :=
  match d with
  | declVoid => UStruct "declVoid" []
  | declName t n => UStruct "declName" [("t", udtype t); ("n", UStr n)]
  end.
Definition ucasedecl (c : list string * decl) : uv := UStruct "unionCaseDecl" [("cases", ulist (map UStr (fst c))); ("body", udecl (snd c))].

(** Names whose first letter can be capitalised: not empty, and not starting outside ASCII. *)
Definition nm (s : string) : bool := match s with String c _ => is_ascii c | EmptyString => false end.
Fixpoint ok_spec (t : typespec) : bool :=
  match t with
  | typeStruct l => forallb ok_decl l
  | typeUnion sw cs d =>
      ok_decl sw && forallb (fun c : list string * decl => forallb nm (fst c) && ok_decl (snd c)) cs && match d with Some d => ok_decl d | None => true end
  | typeIdent n => nm n
  | _ => true
  end
with ok_dtype (t : declType) : bool :=
  match t with
  | declTypeTypespec t | declTypeArray t _ | declTypeVarArray t _ | declTypePtr t => ok_spec t
  | _ => true
  end
with ok_decl (d : decl) : bool := match d with declVoid => true | declName t n => ok_dtype t && nm n end.

(** The methods of the dynamic type. *)
Definition spec_name (t : typespec) : string := match uspec t with UStruct n _ => n | _ => "" end.

Section Out.
Context {W : Type}.
Variable consts : string -> option uv.
Variable ext : string -> list uv -> mm W -> mres W (list uv).
Notation run := (urun main_pkgs consts main_pkg ext).
Notation mm := (mm W).

(** The result of a function without effects that returns a string: [None] is a panic. *)
Definition pure (m : mm) (o : option string) : mres W (list uv) := match o with Some v => MOk m [UStr v] | None => MPanic m end.
Definition yields (r : mres W (uenv * uctl)) (m : mm) (o : option string) : Prop :=
  match o with Some v => exists en, r = MOk m (en, KRet [UStr v]) | None => r = MPanic m end.

Lemma run_pure n f ps body args en o m :
  find_func main_pkg f = Some (ps, 1, body) -> bind_args ps args = Some en ->
  (forall m, mm_defers m = [] -> yields (useq (uexec main_pkgs consts main_pkg ext (run n)) body en m) m o) ->
  run (S n) f args m = pure m o.
Proof.
  intros F B H. cbn [urun]. rewrite F, B. specialize (H (with_defers m []) eq_refl). destruct o as [v|].
  - destruct H as (en' & H). rewrite H. cbn [mm_defers with_defers udeferred mbind List.length Nat.eqb]. destruct m; reflexivity.
  - unfold yields in H. rewrite H. cbn [mm_defers with_defers udeferred mbind]. destruct m; reflexivity.
Qed.

Ltac ev1 := cbn -[main_pkg cap urun ucallm ulist elems uloop scat pure yields goType declGoType nameGotype goXdr declXdr fieldXdr uspec udtype udecl goXdr_u32 goXdr_bool field_ptr Z.of_nat].
Ltac ev := ev1; repeat (progress unfold ublk, uinner; ev1).
Ltac enter := match goal with |- urun _ _ _ _ (S ?n) ?f ?a ?m = pure _ ?o =>
  refine (run_pure n f _ _ a _ o m _ _ _); [reflexivity|reflexivity|]; clear m; intros m D end.
Lemma yields_ok m en s t : s = t -> yields (MOk m (en, KRet [UStr s])) m (Some t).
Proof. intros ->. eexists. reflexivity. Qed.
Lemma scat_nil a : scat a "" = a. Proof. apply sapp_nil. Qed.
Lemma scat_assoc a b c : scat (scat a b) c = scat a (scat b c). Proof. apply sapp_assoc. Qed.
Ltac assoc := repeat (progress (cbn [String.append]; rewrite ?sapp_assoc, ?sapp_nil)).
Ltac str := unfold scat, goXdr_u32, goXdr_bool, field_ptr, NL, DQ; assoc; reflexivity.
Ltac fin := first [exact eq_refl | apply yields_ok; str].
Lemma elems_ulist l : elems (ulist l) = Some l. Proof. destruct l; reflexivity. Qed.

Lemma cap_text n s m : nm s = true -> run (S n) "i" [UStr s] m = MOk m [UStr (cap s)].
Proof.
  intros H. change (run (S n) "i" [UStr s] m = pure m (Some (cap s))). enter.
  destruct (String.eqb_spec s "TRUE") as [->|A]; [eexists; reflexivity|].
  destruct (String.eqb_spec s "FALSE") as [->|B]; [eexists; reflexivity|].
  apply String.eqb_neq in A, B. ev. rewrite A, B. unfold cap. rewrite A, B. destruct s as [|c s]; [discriminate|]. cbn in H. ev. change (Pos.to_nat 1) with 1. ev. rewrite H. eexists. reflexivity.
Qed.

(** A method call. *)
Notation callm n := (ucallm ext (run n)).
Definition pure1 (m : mm) (o : option string) : mres W uv := match o with Some v => MOk m (UStr v) | None => MPanic m end.
Lemma pure_one m o : mbind (pure m o) (fun vs m => MOk m (uone vs)) = pure1 m o.
Proof. destruct o; reflexivity. Qed.
Lemma callm_struct n t fs x vs m o :
  ubuiltin ext (t ++ "." ++ x) (UStruct t fs :: vs) m = None -> run n (t ++ "." ++ x) (UStruct t fs :: vs) m = pure m o ->
  callm n (UStruct t fs) x vs m = pure1 m o.
Proof. intros B H. unfold ucallm. cbn [umethod]. unfold uinvoke. rewrite B, H. apply pure_one. Qed.
Ltac method := cbn [uspec udtype]; apply callm_struct; [reflexivity|cbn [String.append]; enter].

(** ** goType *)
Definition types (n : nat) (t : typespec) : Prop := forall m, callm n (uspec t) "goType" [] m = pure1 m (goType t).
Definition dtypes (n : nat) (t : declType) : Prop := forall m, callm n (udtype t) "goType" [] m = pure1 m (declGoType t).
Definition names (n : nat) (d : decl) : Prop := forall m, run n "declToNameGotype" [udecl d] m = pure m (nameGotype d).

Lemma int_type n u : types (S n) (typeInt u).
Proof. intros m. method. ev. destruct u; fin. Qed.
Lemma hyper_type n u : types (S n) (typeHyper u).
Proof. intros m. method. ev. destruct u; fin. Qed.
Lemma plain_type n t : match t with typeFloat | typeDouble | typeQuadruple | typeBool | typeEnum _ => True | _ => False end -> types (S n) t.
Proof. destruct t; try contradiction; intros _ m; method; ev; fin. Qed.
Lemma ident_type n x : nm x = true -> types (S (S n)) (typeIdent x).
Proof. intros H m. method. ev. rewrite (cap_text n x m H). ev. fin. Qed.
Lemma spec_type n t : types n t -> dtypes (S n) (declTypeTypespec t).
Proof. intros H m. method. ev. rewrite (H m). cbn [declGoType]. destruct (goType t); ev; fin. Qed.
Lemma array_type n t sz : types n t -> dtypes (S n) (declTypeArray t sz).
Proof. intros H m. method. ev. rewrite (H m). cbn [declGoType]. destruct (goType t); ev; fin. Qed.
Lemma vararray_type n t sz : types n t -> dtypes (S n) (declTypeVarArray t sz).
Proof. intros H m. method. ev. rewrite (H m). cbn [declGoType]. destruct (goType t); ev; fin. Qed.
Lemma ptr_type n t : types n t -> dtypes (S n) (declTypePtr t).
Proof. intros H m. method. ev. rewrite (H m). cbn [declGoType]. destruct (goType t); ev; fin. Qed.
Lemma flat_type n t : match t with declTypeOpaqueArray _ | declTypeOpaqueVarArray _ | declTypeString _ => True | _ => False end -> dtypes (S n) t.
Proof. destruct t; try contradiction; intros _ m; method; ev; fin. Qed.
Lemma name_type n t x : nm x = true -> dtypes n t -> n <> O -> names (S n) (declName t x).
Proof. intros N H Z m. destruct n as [|n]; [contradiction|]. cbn [udecl]. enter. ev. rewrite (cap_text n x m N). ev. rewrite (H m). cbn [nameGotype]. destruct (declGoType t); ev; fin. Qed.
Lemma void_type n : names (S n) declVoid.
Proof. intros m. cbn [udecl]. enter. ev. fin. Qed.


Lemma find_int : find_struct main_pkg "typeInt" = Some [("unsig", XId "bool")]. Proof. reflexivity. Qed.
Lemma find_bool : find_struct main_pkg "typeBool" = Some (@nil (string * mx)). Proof. reflexivity. Qed.
(** ** goXdr *)
Definition xdrs (n : nat) (t : typespec) : Prop := forall p m, callm n (uspec t) "goXdr" [UStr p] m = pure1 m (goXdr t p).
Definition dxdrs (n : nat) (t : declType) : Prop := forall p m, callm n (udtype t) "goXdr" [UStr p] m = pure1 m (declXdr t p).

Lemma flat_xdr n t : match t with typeInt _ | typeHyper _ | typeFloat | typeDouble | typeQuadruple | typeBool | typeEnum _ => True | _ => False end -> xdrs (S n) t.
Proof. destruct t as [u|u| | | | | | | |]; try contradiction; intros _ p m; method; ev; try (destruct u; ev); fin. Qed.
Lemma ident_xdr n x : nm x = true -> xdrs (S (S n)) (typeIdent x).
Proof. intros H p m. method. ev. rewrite (cap_text n x m H). ev. fin. Qed.
Lemma u32_xdr n p m : callm (S n) (UStruct "typeInt" [("unsig", UBool true)]) "goXdr" [UStr p] m = MOk m (UStr (goXdr_u32 p)).
Proof. exact (flat_xdr n (typeInt true) I p m). Qed.
Lemma bool_xdr n p m : callm (S n) (UStruct "typeBool" []) "goXdr" [UStr p] m = MOk m (UStr (goXdr_bool p)).
Proof. exact (flat_xdr n typeBool I p m). Qed.
Lemma spec_xdr n t : xdrs n t -> dxdrs (S n) (declTypeTypespec t).
Proof. intros H p m. method. ev. rewrite (H p m). cbn [declXdr]. destruct (goXdr t p); ev; fin. Qed.
Ltac norm := unfold scat, field_ptr; assoc.
Lemma array_xdr n t sz : xdrs n t -> dxdrs (S n) (declTypeArray t sz).
Proof. intros H p m. method. ev. rewrite (H _ m). cbn [declXdr]. norm. destruct (goXdr t _); ev; fin. Qed.
Lemma opaque_xdr n t : match t with declTypeOpaqueArray _ | declTypeOpaqueVarArray _ | declTypeString _ => True | _ => False end -> dxdrs (S n) t.
Proof. destruct t as [| | |sz|sz|sz|]; try contradiction; intros _ p m; method; ev; cbn [declXdr]; try unfold size_or; try (destruct (String.eqb sz ""); ev); fin. Qed.
Local Strategy opaque [urun main_pkg].
Local Strategy expand [mbind].
Lemma vararray_xdr n t sz : types (S n) t -> xdrs (S n) t -> dxdrs (S (S n)) (declTypeVarArray t sz).
Proof.
  intros T H p m. method. ev. rewrite find_int. ev. rewrite u32_xdr. ev. cbn [declXdr].
  destruct (String.eqb sz "") eqn:Z; ev; rewrite (T m); (destruct (goType t); ev; [|fin]); rewrite (H _ m); norm; (destruct (goXdr t _); ev; [|fin]); rewrite Z; ev; fin.
Qed.
(** One statement at a time. *)
Lemma seq_next ex s b en m m1 en1 o : ex s en m = MOk m1 (en1, KNext) -> yields (useq ex b en1 m1) m o -> yields (useq ex (s :: b) en m) m o.
Proof. intros H Y. cbn [useq]. rewrite H. exact Y. Qed.
Lemma seq_panic ex s b en m : ex s en m = MPanic m -> yields (useq ex (s :: b) en m) m None.
Proof. intros H. cbn [useq]. rewrite H. reflexivity. Qed.
Ltac next := eapply seq_next; [ev; reflexivity|].
Lemma ptr_xdr n t : types (S n) t -> xdrs (S n) t -> dxdrs (S (S n)) (declTypePtr t).
Proof.
  intros T H p m. method. cbn [declXdr]. next. next. next. eapply seq_next; [ev; rewrite find_bool; ev; rewrite bool_xdr; ev; reflexivity|]. next.
  destruct (goXdr t ("*(" +++ p +++ ")")) as [b|] eqn:E; [|destruct (goType t); cbn [pbind]; apply seq_panic; ev; rewrite (H _ m); norm; cbn [String.append] in E; rewrite E; reflexivity].
  assert (F : forall m, callm (S n) (uspec t) "goXdr" [UStr (scat "*(" (scat p ")"))] m = MOk m (UStr b)) by (intros m'; rewrite (H _ m'); unfold scat; rewrite E; reflexivity).
  unfold scat in F. cbn [String.append] in F.
  eapply seq_next; [ev; unfold scat; rewrite F; ev; reflexivity|]. do 4 next. eapply seq_next; [ev; rewrite find_bool; ev; rewrite bool_xdr; ev; reflexivity|]. next.
  destruct (goType t) as [e|] eqn:G; [|cbn [pbind]; apply seq_panic; ev; rewrite (T m), G; reflexivity]. cbn [pbind].
  eapply seq_next; [ev; rewrite (T m), G; ev; reflexivity|].
  eapply seq_next; [ev; unfold scat; rewrite F; ev; reflexivity|]. do 2 next. ev. fin.
Qed.

(** A loop that adds to a string. *)
Section Loop.
Variable call : string -> list uv -> mm -> mres W (list uv).
Notation ex := (uexec main_pkgs consts main_pkg ext call).
Variables (k v : string) (b : list ms) (mk : string -> uenv).
Context {A : Type}.
Variables (u : A -> uv) (f : A -> option string).
Definition adds (r : mres W (uenv * uctl)) (acc : string) (m : mm) (o : option string) : Prop :=
  r = match o with Some s => MOk m (mk (acc +++ s), KNext) | None => MPanic m end.
Lemma loop_adds l :
  (forall a, In a l -> forall i acc m, exists add, udeclare [k; v] [UInt i; u a] [] = Some add /\ adds (uinner ex b add (mk acc) m) acc m (f a)) ->
  forall i acc m, adds (uloop ex k v b i (map u l) (mk acc) m) acc m (cat_opt f l).
Proof.
  induction l as [|a l IH]; intros H i acc m; cbn [map cat_opt].
  - unfold adds. cbn. rewrite sapp_nil. reflexivity.
  - destruct (H a (or_introl eq_refl) i acc m) as (add & D & E). unfold adds in *. cbn [uloop]. rewrite D, E. destruct (f a) as [s|]; cbn [mbind pbind snd fst]; [|reflexivity].
    fold (uloop ex k v b). rewrite IH by (intros; apply H; right; assumption). destruct (cat_opt f l); cbn [pbind]; [rewrite sapp_assoc|]; reflexivity.
Qed.
End Loop.

Lemma items_type_cat l : items_type l = cat_opt nameGotype l. Proof. induction l; cbn; [reflexivity|]. fold items_type. rewrite IHl. reflexivity. Qed.
Lemma cases_type_cat l : cases_type l = cat_opt (fun c : list string * decl => nameGotype (snd c)) l. Proof. induction l; cbn; [reflexivity|]. fold cases_type. rewrite IHl. reflexivity. Qed.
Lemma struct_type n l : (forall d, In d l -> names n d) -> types (S n) (typeStruct l).
Proof.
  intros H m. method. rewrite goType_struct, items_type_cat. next.
  match goal with |- yields (useq ?ex (TRange ?k ?v ?e ?b :: _) ?en _) _ _ =>
    assert (R : ex (TRange k v e b) en m = match cat_opt nameGotype l with Some s => MOk m ([("res", UStr ("struct { " +++ s)); ("t", UStruct "typeStruct" [("items", ulist (map udecl l))])], KNext) | None => MPanic m end) end.
  { ev. rewrite elems_ulist. apply (loop_adds (run n) "_" "i" _ (fun acc => [("res", UStr acc); ("t", UStruct "typeStruct" [("items", ulist (map udecl l))])]) udecl nameGotype l).
    intros d D' i acc m'. eexists. split; [reflexivity|]. unfold adds.
    specialize (H d D' m'). destruct d; cbn [udecl] in *; ev; rewrite H; destruct (nameGotype _); reflexivity. }
  destruct (cat_opt nameGotype l); [|apply seq_panic; exact R]. eapply seq_next; [exact R|]. cbn [pbind]. next. ev. fin.
Qed.
Lemma union_type n sw cs d : names n sw -> (forall c, In c cs -> names n (snd c)) -> (forall e, d = Some e -> names n e) -> types (S n) (typeUnion sw cs d).
Proof.
  intros Hs Hc Hd m. method. rewrite goType_union, cases_type_cat. fold ucasedecl. next.
  match goal with |- yields (useq _ _ [_; ("t", ?T)] _) _ _ => set (tv := T) end.
  destruct (nameGotype sw) as [a|] eqn:Ea; [|apply seq_panic; unfold tv; ev; rewrite (Hs m), Ea; reflexivity].
  eapply seq_next; [unfold tv; ev; rewrite (Hs m), Ea; ev; reflexivity|]. fold tv. cbn [pbind].
  match goal with |- yields (useq ?ex (TRange ?k ?v ?e ?b :: _) ?en _) _ _ =>
    assert (R : ex (TRange k v e b) en m = match cat_opt (fun c : list string * decl => nameGotype (snd c)) cs with Some s => MOk m ([("res", UStr (scat "struct { " a +++ s)); ("t", tv)], KNext) | None => MPanic m end) end.
  { unfold tv. ev. fold tv. rewrite elems_ulist. apply (loop_adds (run n) "_" "i" _ (fun acc => [("res", UStr acc); ("t", tv)]) ucasedecl (fun c => nameGotype (snd c)) cs).
    intros c D' i acc m'. eexists. split; [reflexivity|]. unfold adds. clearbody tv. specialize (Hc c D' m'). ev. rewrite Hc. destruct (nameGotype (snd c)); reflexivity. }
  destruct (cat_opt _ cs) as [b|]; [|apply seq_panic; exact R]. eapply seq_next; [exact R|]. cbn [pbind].
  destruct d as [d|]; [destruct (nameGotype d) as [e|] eqn:Ed|].
  - specialize (Hd d eq_refl m). rewrite Ed in Hd. destruct (udecl d) eqn:U; try (destruct d; discriminate). eapply seq_next; [unfold tv; ev; rewrite Hd; ev; reflexivity|]. next. ev. fin.
  - specialize (Hd d eq_refl m). rewrite Ed in Hd. destruct (udecl d) eqn:U; try (destruct d; discriminate). apply seq_panic. unfold tv. ev. rewrite Hd. ev. reflexivity.
  - next. next. ev. fin.
Qed.

Definition fields (n : nat) (d : decl) : Prop := match d with declVoid => True | declName t x => dxdrs (S n) t /\ nm x = true end.
Lemma items_xdr_cat p l : items_xdr p l = cat_opt (fun d => fieldXdr d p) l. Proof. induction l; cbn; [reflexivity|]. fold (items_xdr p). rewrite IHl. reflexivity. Qed.
Lemma cases_xdr_cat p l : cases_xdr p l = cat_opt (fun c : list string * decl => do a <- fieldXdr (snd c) p ; Some (case_labels (fst c) +++ a)) l.
Proof. induction l as [|c l IH]; cbn; [reflexivity|]. fold (cases_xdr p). rewrite IH. destruct (fieldXdr (snd c) p); cbn [pbind]; [|reflexivity]. destruct (cat_opt _ l); cbn [pbind]; [rewrite sapp_assoc|]; reflexivity. Qed.

Lemma struct_xdr n l : (forall d, In d l -> fields n d) -> xdrs (S (S n)) (typeStruct l).
Proof.
  intros H p m. method. rewrite goXdr_struct, items_xdr_cat. next. set (tv := ulist (map udecl l)).
  match goal with |- yields (useq ?ex (TRange ?k ?v ?e ?b :: _) ?en _) _ _ =>
    assert (R : ex (TRange k v e b) en m = match cat_opt (fun d => fieldXdr d p) l with Some s => MOk m ([("res", UStr ("" +++ s)); ("t", UStruct "typeStruct" [("items", tv)]); ("valPtr", UStr p)], KNext) | None => MPanic m end) end.
  { ev. unfold tv at 1. rewrite elems_ulist. apply (loop_adds (run (S n)) "_" "v" _ (fun acc => [("res", UStr acc); ("t", UStruct "typeStruct" [("items", tv)]); ("valPtr", UStr p)]) udecl (fun d => fieldXdr d p) l).
    intros d D' i acc m'. eexists. split; [reflexivity|]. unfold adds. clearbody tv. specialize (H d D').
    destruct d as [|t x]; cbn [udecl fieldXdr fields] in *; ev; [rewrite sapp_nil; reflexivity|]. destruct H as [H N]. rewrite (cap_text n x m' N). ev. rewrite (H _ m'). norm. destruct (declXdr t _); reflexivity. }
  destruct (cat_opt _ l); [|apply seq_panic; exact R]. eapply seq_next; [exact R|]. ev. fin.
Qed.

Definition uni_env (cv sn tv p : uv) (acc : string) : uenv := [("c", cv); ("switchName", sn); ("res", UStr acc); ("t", tv); ("valPtr", p)].
Lemma uni_eq cv sn tv p a b (m : mm) : a = b -> MOk m (uni_env cv sn tv p a, KNext) = MOk m (uni_env cv sn tv p b, KNext).
Proof. intros ->. reflexivity. Qed.
Lemma labels_loop n vs d sn tv p l : forall i acc m,
  (forall s, In s l -> nm s = true) -> Z.of_nat (List.length vs) = (i + Z.of_nat (List.length l))%Z ->
  uloop (uexec main_pkgs consts main_pkg ext (run (S n))) "idx" "cval"
    [TAdd (XId "res") (XCall (XSel (XId "fmt") "Sprintf") [XStr """case %s:\n"""; XCall (XId "i") [XId "cval"]]);
     TIf (XBin "!=" (XId "idx") (XBin "-" (XCall (XId "len") [XSel (XId "c") "cases"]) (XInt "1"))) [TAdd (XId "res") (XStr """fallthrough\n""")] None]
    i (map UStr l) (uni_env (UStruct "unionCaseDecl" [("cases", UList vs); ("body", d)]) sn tv p acc) m
  = MOk m (uni_env (UStruct "unionCaseDecl" [("cases", UList vs); ("body", d)]) sn tv p (acc +++ case_labels l), KNext).
Proof.
  induction l as [|s l IH]; intros i acc m N L.
  - cbn. rewrite sapp_nil. reflexivity.
  - cbn [map]. cbn [List.length] in L. rewrite Nat2Z.inj_succ in L.
    change (uloop ?ex ?k ?v ?b i (UStr s :: map UStr l) ?en m) with
      (mbind (uinner ex b [(v, UStr s); (k, UInt i)] en m) (fun r m => match snd r with KNext => uloop ex k v b (i + 1)%Z (map UStr l) (fst r) m | KRet _ => MOk m r end)).
    match goal with |- mbind ?r _ = _ => assert (R : r = MOk m (uni_env (UStruct "unionCaseDecl" [("cases", UList vs); ("body", d)]) sn tv p (acc +++ "case " +++ cap s +++ ":" +++ NL +++ match l with [] => "" | _ => "fallthrough" +++ NL end), KNext)) end.
    { ev. rewrite (cap_text n s m) by (apply N; left; reflexivity). ev. cbn [elems]. ev. rewrite L.
      destruct l as [|s' l].
      - replace (i =? i + Z.succ (Z.of_nat (List.length (@nil string))) - 1)%Z with true by (symmetry; apply Z.eqb_eq; cbn; lia). ev. apply uni_eq. str.
      - replace (i =? i + Z.succ (Z.of_nat (List.length (s' :: l))) - 1)%Z with false by (symmetry; apply Z.eqb_neq; cbn [List.length]; lia). ev. apply uni_eq. str. }
    rewrite R. cbn [mbind snd fst]. rewrite IH; [|intros; apply N; right; assumption|lia].
    destruct l as [|s' l]; cbn [case_labels]; rewrite !sapp_assoc; [|reflexivity]. cbn [String.append]. rewrite ?sapp_nil. reflexivity.
Qed.

Lemma union_xdr n sw cs d :
  fields n sw -> (forall c, In c cs -> fields n (snd c) /\ forall s, In s (fst c) -> nm s = true) -> (forall e, d = Some e -> fields n e) -> xdrs (S (S n)) (typeUnion sw cs d).
Proof.
  intros Hs Hc Hd p m. method. fold ucasedecl. next. next.
  match goal with |- yields (useq _ _ [_; _; ("t", ?T); _] _) _ _ => set (tv := T) end.
  destruct sw as [|st sn]; [apply seq_panic; reflexivity|]. rewrite goXdr_union, cases_xdr_cat. cbv zeta. destruct Hs as [Hs Ns].
  destruct (declXdr st _) as [a|] eqn:Ea.
  2: { apply seq_panic. unfold tv. cbn [udecl]. ev. rewrite (cap_text n sn m Ns). ev. rewrite (Hs _ m). norm. cbn [String.append] in Ea. rewrite ?sapp_assoc in Ea. cbn [String.append] in Ea. rewrite Ea. reflexivity. }
  eapply seq_next.
  { unfold tv. cbn [udecl]. ev. rewrite (cap_text n sn m Ns). ev. rewrite (Hs _ m). norm. cbn [String.append] in Ea. rewrite ?sapp_assoc in Ea. cbn [String.append] in Ea. rewrite Ea. ev. fold tv. reflexivity. }
  cbn [udecl] in tv. fold tv. next. cbn [pbind].
  match goal with |- yields (useq ?ex (TRange ?k ?v ?e ?b :: _) [("switchName", ?sv); ("res", UStr ?acc); _; _] _) _ _ =>
    assert (R : ex (TRange k v e b) [("switchName", sv); ("res", UStr acc); ("t", tv); ("valPtr", UStr p)] m =
      match cat_opt (fun c : list string * decl => do a <- fieldXdr (snd c) p ; Some (case_labels (fst c) +++ a)) cs with Some s => MOk m ([("switchName", sv); ("res", UStr (acc +++ s)); ("t", tv); ("valPtr", UStr p)], KNext) | None => MPanic m end) end.
  { unfold tv at 1. ev. fold tv. rewrite elems_ulist.
    match goal with |- uloop _ _ _ _ _ _ [("switchName", ?sv); _; _; _] _ = _ =>
    apply (loop_adds (run (S n)) "_" "c" _ (fun acc => [("switchName", sv); ("res", UStr acc); ("t", tv); ("valPtr", UStr p)]) ucasedecl (fun c : list string * decl => do a <- fieldXdr (snd c) p ; Some (case_labels (fst c) +++ a)) cs) end.
    intros c D' i acc m'. eexists. split; [reflexivity|]. unfold adds. clearbody tv. clear -Hc D'. destruct (Hc c D') as [F N]. destruct c as [ls bd]. cbn [fst snd] in *. unfold ucasedecl. cbn [fst snd].
    set (sv := UStr _). clearbody sv. unfold uinner. cbn [String.eqb Ascii.eqb Bool.eqb app].
    match goal with |- context [useq ?ex (?r :: _) ?en m'] => assert (R : ex r en m' = MOk m' (uni_env (ucasedecl (ls, bd)) sv tv (UStr p) (acc +++ case_labels ls), KNext)) end.
    { ev. rewrite elems_ulist. destruct ls as [|s ls]; [cbn; rewrite sapp_nil; reflexivity|]. exact (labels_loop n (map UStr (s :: ls)) (udecl bd) sv tv (UStr p) (s :: ls) 0%Z acc m' N ltac:(rewrite map_length; reflexivity)). }
    cbn [useq]. rewrite R. clear R. unfold ucasedecl. destruct bd as [|t x]; cbn [fst snd udecl fieldXdr fields] in *; ev; [rewrite sapp_nil; reflexivity|]. destruct F as [F Nx]. rewrite (cap_text n x m' Nx). ev. rewrite (F _ m'). norm.
    destruct (declXdr t _); cbn [pbind pure1]; [|reflexivity]. ev. norm. reflexivity. }
  destruct (cat_opt _ cs) as [b|]; [|apply seq_panic; exact R]. eapply seq_next; [exact R|]. clear R. cbn [pbind].
  destruct d as [[|t x]|].
  - eapply seq_next; [unfold tv; cbn [udecl]; ev; reflexivity|]. cbn [udecl] in tv. fold tv. next. cbn [fieldXdr pbind]. ev. fin.
  - destruct (Hd _ eq_refl) as [F Nx]. cbn [fieldXdr]. destruct (declXdr t _) as [e|] eqn:E; unfold field_ptr in E; cbn [String.append] in E.
    + eapply seq_next; [unfold tv; cbn [udecl]; ev; rewrite (cap_text n x m Nx); ev; rewrite (F _ m); norm; rewrite E; ev; reflexivity|]. next. ev. fin.
    + apply seq_panic. unfold tv; cbn [udecl]; ev; rewrite (cap_text n x m Nx); ev; rewrite (F _ m); norm; rewrite E; reflexivity.
  - next. next. ev. fin.
Qed.

(** ** All types *)
Definition enough (P : nat -> Prop) : Prop := exists k, forall n, k <= n -> P n.
Lemma enough_all {A} (P : nat -> A -> Prop) l : Forall (fun a => enough (fun n => P n a)) l -> enough (fun n => forall a, In a l -> P n a).
Proof.
  induction 1 as [|a l [k Ha] _ [k' IH]]; [exists 0; intros n _ a []|]. exists (max k k'). intros n L b [->|I]; [apply Ha; lia|apply IH; [lia|exact I]].
Qed.
Lemma enough_and P Q : enough P -> enough Q -> enough (fun n => P n /\ Q n).
Proof. intros [k H] [k' H']. exists (max k k'). intros n L. split; [apply H|apply H']; lia. Qed.
Lemma enough_S (P Q : nat -> Prop) : (forall n, P n -> Q (S n)) -> enough P -> enough Q.
Proof. intros I [k H]. exists (S k). intros [|n] L; [lia|]. apply I, H. lia. Qed.
Lemma enough_SS (P Q : nat -> Prop) : (forall n, P (S n) -> Q (S (S n))) -> enough P -> enough Q.
Proof. intros I [k H]. exists (S (S k)). intros [|[|n]] L; [lia|lia|]. apply I, H. lia. Qed.
Lemma enough_1 (Q : nat -> Prop) : (forall n, Q (S n)) -> enough Q.
Proof. intros H. exists 1. intros [|n] L; [lia|apply H]. Qed.
Definition good n t := types n t /\ xdrs n t.
Definition dgood n t := dtypes n t /\ dxdrs n t.
Definition fgood n d := names n d /\ match d with declVoid => True | declName t x => dgood n t /\ nm x = true end.
Lemma fgood_fields n d : fgood (S n) d -> fields n d.
Proof. destruct d; cbn; [trivial|]. intros [_ [[_ H] N]]. split; assumption. Qed.
Lemma all_good :
  (forall t, ok_spec t = true -> enough (fun n => good n t)) /\ (forall t, ok_dtype t = true -> enough (fun n => dgood n t)) /\
  (forall d, ok_decl d = true -> enough (fun n => fgood n d)).
Proof.
  apply ast_ind.
  1-7: intros; apply enough_1; intros n; (split; [|apply flat_xdr; exact I]).
  1: apply int_type. 1: apply hyper_type. 1-5: apply plain_type; exact I.
  - intros l IH O. cbn in O. rewrite forallb_forall in O. refine (enough_SS (fun n => forall d, In d l -> fgood n d) _ _ _).
    + intros n H. split; [apply struct_type; intros d D; apply H, D|apply struct_xdr; intros d D; apply fgood_fields, H, D].
    + apply (enough_all fgood). rewrite Forall_forall in *. intros d D. apply IH; [exact D|apply O, D].
  - intros s c d Hs Hc Hd O. cbn in O. apply andb_true_iff in O. destruct O as [O Od]. apply andb_true_iff in O. destruct O as [Os Oc]. rewrite forallb_forall in Oc.
    refine (enough_SS (fun n => fgood n s /\ (forall x, In x c -> fgood n (snd x)) /\ forall e, d = Some e -> fgood n e) _ _ _).
    + intros n (Gs & Gc & Gd). split.
      * apply union_type; [apply Gs|intros x D; apply Gc, D|intros e E; apply (Gd e E)].
      * apply union_xdr; [apply fgood_fields, Gs| |intros e E; apply fgood_fields, Gd, E]. intros x D. split; [apply fgood_fields, Gc, D|].
        specialize (Oc x D). apply andb_true_iff in Oc. destruct Oc as [Oc _]. rewrite forallb_forall in Oc. exact Oc.
    + apply enough_and; [apply Hs, Os|]. apply enough_and.
      * apply (enough_all (fun n (x : list string * decl) => fgood n (snd x))). rewrite Forall_forall in *. intros x D. apply Hc; [exact D|]. specialize (Oc x D). apply andb_true_iff in Oc. apply Oc.
      * destruct d as [e|]; [|exists 0; discriminate]. destruct (Hd e eq_refl Od) as [k H]. exists k. intros n L e' [= <-]. apply H, L.
  - intros x O. exists 2. intros [|[|n]] L; [lia|lia|]. split; [apply ident_type|apply ident_xdr]; exact O.
  - intros t IH O. refine (enough_S _ _ _ (IH O)). intros n [T X]. split; [apply spec_type|apply spec_xdr]; assumption.
  - intros t sz IH O. refine (enough_S _ _ _ (IH O)). intros n [T X]. split; [apply array_type|apply array_xdr]; assumption.
  - intros t sz IH O. refine (enough_SS _ _ _ (IH O)). intros n [T X]. split; [apply vararray_type|apply vararray_xdr]; assumption.
  - intros sz _. apply enough_1. intros n. split; [apply flat_type|apply opaque_xdr]; exact I.
  - intros sz _. apply enough_1. intros n. split; [apply flat_type|apply opaque_xdr]; exact I.
  - intros sz _. apply enough_1. intros n. split; [apply flat_type|apply opaque_xdr]; exact I.
  - intros t IH O. refine (enough_SS _ _ _ (IH O)). intros n [T X]. split; [apply ptr_type|apply ptr_xdr]; assumption.
  - intros _. apply enough_1. intros n. split; [apply void_type|exact I].
  - intros t x IH O. cbn in O. apply andb_true_iff in O. destruct O as [O N]. destruct (IH O) as [k H]. exists (S (S k)). intros [|n] L; [lia|]. split; [|split; [apply H; lia|exact N]].
    apply name_type; [exact N|apply H; lia|lia].
Qed.
End Out.
