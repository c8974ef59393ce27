(** What the grammar of a file of YaccAst.v derives, and what its actions do: a derivation is a tree; its actions run from left to right, those of
    the parts before those of the whole, the order in which a bottom-up parser reduces. *)
From Verif Require Import GoLex XLex Gram GParse GParseP Emit SrcAst MainAst MainProg MainSem MainOut MainEmit MainGen MainScan YaccAst YaccProg.
Open Scope string_scope.
Open Scope list_scope.

(** ** Trees *)
Inductive pt : Type := PTok (y : ytok) | PNode (k : nat) (cs : list pt).
(** The symbol of a token, as xdr.y writes it. *)
Definition ysym (y : ytok) : string := match y_name y with inl a => a | inr c => String "'" (String c "'") end.
Fixpoint yield (t : pt) : list ytok := match t with PTok y => [y] | PNode _ cs => flat_map yield cs end.
Section Tree.
Variable G : list prod.
Inductive ok_tree : string -> pt -> Prop :=
| ok_tok y : ok_tree (ysym y) (PTok y)
| ok_node k p cs : nth_error G k = Some p -> ok_trees (p_rhs p) cs -> ok_tree (p_lhs p) (PNode k cs)
with ok_trees : list string -> list pt -> Prop :=
| ok_nil : ok_trees [] []
| ok_cons x xs t ts : ok_tree x t -> ok_trees xs ts -> ok_trees (x :: xs) (t :: ts).
End Tree.
Scheme ok_tree_mind := Minimality for ok_tree Sort Prop with ok_trees_mind := Minimality for ok_trees Sort Prop.
Combined Scheme ok_tree_mutind from ok_tree_mind, ok_trees_mind.

(** ** Actions *)
Definition void {W A} (r : mres W A) : mres W unit := mbind r (fun _ m => MOk m tt).
Definition tok_val (y : ytok) : uv := match y_str y with Some s => UStr s | None => UNil end.
(** $1, $2, ... *)
Definition dollars (vs : list uv) : uenv := combine (map (fun n => String "$" (String (ascii_of_nat (48 + n)) EmptyString)) (seq 1 (List.length vs))) vs.
Section Act.
Context {W : Type}.
Variable consts : string -> option uv.
Variable ext : string -> list uv -> mm W -> mres W (list uv).
(** Without [$$ = ...] the value is $1, as goyacc has it; nobody looks at it. *)
Definition act_run (n : nat) (a : option yact) (vs : list uv) (m : mm W) : mres W uv :=
  let ev e := ueval main_pkgs consts main_pkg ext (urun main_pkgs consts main_pkg ext n) (dollars vs) e m in
  match a with
  | None => MOk m (hd UNil vs)
  | Some (ASet e) => ev e
  | Some (ADo e) => mbind (ev e) (fun _ m => MOk m (hd UNil vs))
  end.
Variable G : list prod.
Fixpoint run_tree (n : nat) (t : pt) (m : mm W) {struct t} : mres W uv :=
  let fix runs (ts : list pt) (m : mm W) : mres W (list uv) :=
    match ts with
    | [] => MOk m []
    | t :: ts => mbind (run_tree n t m) (fun v m => mbind (runs ts m) (fun vs m => MOk m (v :: vs)))
    end in
  match t with
  | PTok y => MOk m (tok_val y)
  | PNode k cs => mbind (runs cs m) (fun vs m => match nth_error G k with Some p => act_run n (p_act p) vs m | None => MStuck end)
  end.
Fixpoint run_trees (n : nat) (ts : list pt) (m : mm W) : mres W (list uv) :=
  match ts with
  | [] => MOk m []
  | t :: ts => mbind (run_tree n t m) (fun v m => mbind (run_trees n ts m) (fun vs m => MOk m (v :: vs)))
  end.
Lemma run_node n k cs m : run_tree n (PNode k cs) m = mbind (run_trees n cs m) (fun vs m => match nth_error G k with Some p => act_run n (p_act p) vs m | None => MStuck end).
Proof.
  cbn [run_tree]. f_equal. revert m. induction cs as [|t cs IH]; intros m; [reflexivity|]. cbn [run_trees]. destruct (run_tree n t m); cbn [mbind]; try reflexivity. rewrite IH. reflexivity.
Qed.
End Act.

Lemma mbind_assoc {W A B C} (r : mres W A) (f : A -> mm W -> mres W B) (g : B -> mm W -> mres W C) :
  mbind (mbind r f) g = mbind r (fun a m => mbind (f a m) g).
Proof. destruct r; reflexivity. Qed.
Lemma mbind_ext {W A B} (r : mres W A) (f g : A -> mm W -> mres W B) : (forall a m, f a m = g a m) -> mbind r f = mbind r g.
Proof. intros E. destruct r; cbn; auto. Qed.

(** ** The meaning of the symbols of xdr.y, in terms of Gram.v *)
Definition XG : list prod := prods xdr_y_prog.
Definition emb {A} (D : A -> list ytok -> Prop) (f : A -> uv) (ts : list ytok) (v : uv) : Prop := exists a, D a ts /\ v = f a.
Definition ucases (c : list (list string * decl)) (d : option decl) : uv :=
  UStruct "unionCasesDef" [("cases", ulist (map ucasedecl c)); ("def", match d with Some d => udecl d | None => UNil end)].
Definition sems : list (string * (list ytok -> uv -> Prop)) :=
  [("IDENT", emb (fun s ts => ts = [IDENT s]) UStr); ("CONST", emb (fun s ts => ts = [CONST s]) UStr);
   ("val", emb D_val UStr); ("varlen", emb D_varlen UStr); ("maybeunsig", emb D_unsig UBool);
   ("enumitem", emb D_enumitem uitem); ("enumitems", emb D_enumitems (fun l => ulist (map uitem l))); ("enumbody", emb D_enumbody (fun l => ulist (map uitem l)));
   ("typespec", emb D_typespec uspec); ("enumtypespec", emb D_typespec uspec); ("structtypespec", emb D_typespec uspec); ("uniontypespec", emb D_typespec uspec);
   ("decl", emb D_decl udecl); ("structbody", emb D_structbody (fun l => ulist (map udecl l))); ("structdecls", emb D_structdecls (fun l => ulist (map udecl l)));
   ("unionbody", emb (fun u ts => D_unionbody (fst (fst u)) (snd (fst u)) (snd u) ts) (fun u => uspec (typeUnion (fst (fst u)) (snd (fst u)) (snd u))));
   ("unioncasesdef", emb (fun u ts => D_unioncasesdef (fst u) (snd u) ts) (fun u => ucases (fst u) (snd u)));
   ("unioncases", emb D_unioncases (fun l => ulist (map ucasedecl l))); ("unioncase", emb D_unioncase ucasedecl);
   ("caselist", emb D_caselist (fun l => ulist (map UStr l)));
   ("typespecopt", emb D_typespecopt uopt); ("progcall", emb D_progcall ucall); ("progcalls", emb D_progcalls (fun l => ulist (map ucall l)));
   ("progver", emb D_progver uver); ("progvers", emb D_progvers (fun l => ulist (map uver l)))].
Definition plain_toks : list ytok :=
  [KWCONST; KWTYPEDEF; KWENUM; KWSTRUCT; KWUNION; KWSWITCH; KWCASE; KWDEFAULT; KWVOID; KWOPAQUE; KWSTRING; KWUNSIGNED; KWINT; KWHYPER; KWFLOAT; KWDOUBLE; KWQUADRUPLE;
   KWBOOL; KWPROGRAM; KWVERSION; YEq; YSemi; YColon; YLt; YGt; YLBrack; YRBrack; YLBrace; YRBrace; YComma; YLParen; YRParen; YStar].
Definition sem (X : string) (ts : list ytok) (v : uv) : Prop :=
  match uassoc X sems with
  | Some R => R ts v
  | None => match find (fun y => String.eqb (ysym y) X) plain_toks with Some y => ts = [y] /\ v = UNil | None => False end
  end.
Definition defns : list string := ["defn"; "typedef"; "constdef"; "progdef"].

Section Mean.
Context {W : Type}.
Variable consts : string -> option uv.
Variable ext : string -> list uv -> mm W -> mres W (list uv).
Definition means (X : string) (ts : list ytok) (r : nat -> mm W -> mres W uv) : Prop :=
  if String.eqb X "spec" then exists ds, D_spec ds ts /\ forall n m, void (r n m) = actions consts ext n ds m
  else if existsb (String.eqb X) defns then exists d, D_defn d ts /\ forall n m, void (r n m) = void (urun main_pkgs consts main_pkg ext n (fst (emit_call d)) (snd (emit_call d)) m)
  else exists v, sem X ts v /\ forall n m, r n m = MOk m v.
Notation rt := (run_tree consts ext XG).
Lemma actions_snoc n ds d m : actions consts ext n (ds ++ [d]) m =
  mbind (actions consts ext n ds m) (fun _ m => void (urun main_pkgs consts main_pkg ext n (fst (emit_call d)) (snd (emit_call d)) m)).
Proof.
  revert m. induction ds as [|a ds IH]; intros m; cbn [app actions]; [reflexivity|]. rewrite mbind_assoc. apply mbind_ext. intros _ m'. apply IH.
Qed.
Lemma ulist_snoc l v : ulist (l ++ [v]) = UList (l ++ [v]). Proof. destruct l; reflexivity. Qed.
Lemma act_append n i j vs l v m : uassoc (String "$" (String (ascii_of_nat (48 + i)) "")) (dollars vs) = Some (ulist l) -> uassoc (String "$" (String (ascii_of_nat (48 + j)) "")) (dollars vs) = Some v ->
  uassoc "append" (dollars vs) = None ->
  act_run consts ext n (Some (ASet (XCall (XId "append") [XDol i; XDol j]))) vs m = MOk m (ulist (l ++ [v])).
Proof.
  intros A B C. cbn [act_run ueval]. rewrite C. cbn [uevals ueval]. rewrite A, B. cbn [lift mbind]. unfold uinvoke.
  change (ubuiltin ext "append" [ulist l; v] m) with (Some (match elems (ulist l) with Some l => MOk m (UList (l ++ [v])) | None => MStuck end)). rewrite elems_ulist, ulist_snoc. reflexivity.
Qed.
Lemma act_do n f es vs args m : uassoc f (dollars vs) = None ->
  uevals (ueval main_pkgs consts main_pkg ext (urun main_pkgs consts main_pkg ext n) (dollars vs)) es m = MOk m args -> ubuiltin ext f args m = None ->
  void (act_run consts ext n (Some (ADo (XCall (XId f) es))) vs m) = void (urun main_pkgs consts main_pkg ext n f args m).
Proof. intros A B C. cbn [act_run ueval]. rewrite A, B. cbn [mbind]. unfold uinvoke. rewrite C. unfold void. rewrite !mbind_assoc. apply mbind_ext. reflexivity. Qed.
Lemma tok_means y : means (ysym y) [y] (fun _ m => MOk m (tok_val y)).
Proof. destruct y; vm_compute; try (eexists; split; [split; reflexivity|reflexivity]); eexists; (split; [eexists; split; reflexivity|reflexivity]). Qed.

Definition mt (X : string) (t : pt) : Prop := means X (yield t) (fun n m => rt n t m).

Definition good (p : prod) : Prop := forall cs r,
  (forall n m, r n m = mbind (run_trees consts ext XG n cs m) (fun vs m => act_run consts ext n (p_act p) vs m)) ->
  Forall2 mt (p_rhs p) cs -> means (p_lhs p) (flat_map yield cs) r.
Ltac kids := repeat match goal with
  | H : Forall2 _ [] _ |- _ => inversion H; subst; clear H
  | H : Forall2 _ (_ :: _) _ |- _ => let t := fresh "t" in let K := fresh "K" in inversion H as [|? t ? ? K ?]; subst; clear H
  end.
Ltac see H := cbv [mt means String.eqb Ascii.eqb Bool.eqb existsb orb defns sem sems uassoc find plain_toks ysym y_name] in H.
Ltac pure_kid K :=
  see K; let v := fresh "v" in let Sv := fresh "Sv" in let Rv := fresh "Rv" in
  destruct K as (v & Sv & Rv);
  match type of Sv with
  | emb _ _ _ _ => let a := fresh "a" in let D := fresh "D" in destruct Sv as (a & D & ->); try rewrite !D
  | _ => let Y := fresh "Y" in destruct Sv as (Y & ->); rewrite !Y
  end.
Ltac pure_kids := repeat match goal with K : mt _ _ |- _ => pure_kid K end.
Ltac derived := cbn [fst snd]; solve [econstructor; eassumption | econstructor | eassumption | econstructor; econstructor; eassumption].
Ltac see_goal := cbv [means String.eqb Ascii.eqb Bool.eqb existsb orb defns sem sems uassoc find plain_toks ysym y_name].
Ltac pure_goal := see_goal;
  repeat rewrite app_nil_r; cbn [app];
  eexists; split; [first [eexists; split; [derived|reflexivity]|eexists (_, _, _); split; [derived|reflexivity]|eexists (_, _); split; [derived|reflexivity]]|].
Ltac runs R := let n := fresh "n" in let m := fresh "m" in intros n m; rewrite R; clear R; cbn [run_trees];
  repeat match goal with E : forall n m, run_tree _ _ _ n ?t m = _ |- context [run_tree _ _ _ _ ?t _] => rewrite E; cbn [mbind] end; cbn [mbind].
Lemma all_good : Forall good XG.
Proof.
  let x := eval vm_compute in XG in change (Forall good x).
  repeat (apply Forall_cons; [|]). 62: apply Forall_nil.
  all: intros cs r R F; cbn [p_lhs p_rhs p_act] in *; kids; cbn [flat_map].
  6-47, 54-61: solve [pure_kids; pure_goal; runs R; first [reflexivity | rewrite map_app; apply act_append; reflexivity]].
  6-11: pure_kids; see_goal; repeat rewrite app_nil_r; cbn [app]; (eexists; split; [solve [derived | apply D_tunion; eassumption]|]); runs R; cbn [emit_call fst snd]; apply act_do; reflexivity.
  - see_goal. exists []. split; [constructor|]. runs R. reflexivity.
  - see K. see K0. destruct K as (ds & D & E), K0 as (d & D' & E'). see_goal. rewrite app_nil_r. exists (ds ++ [d]). split; [constructor; assumption|].
    intros n m. rewrite R, actions_snoc, <- E. cbn [run_trees]. destruct (rt n t m) as [m1 v| | |]; try reflexivity. cbn [mbind void]. rewrite <- E'. destruct (rt n t0 m1); reflexivity.
  - see K. destruct K as (d & D & E). see_goal. rewrite app_nil_r. exists d. split; [exact D|]. intros n m. rewrite R, <- E. cbn [run_trees]. unfold void. rewrite !mbind_assoc. apply mbind_ext. reflexivity.
  - see K. destruct K as (d & D & E). see_goal. rewrite app_nil_r. exists d. split; [exact D|]. intros n m. rewrite R, <- E. cbn [run_trees]. unfold void. rewrite !mbind_assoc. apply mbind_ext. reflexivity.
  - see K. destruct K as (d & D & E). see_goal. rewrite app_nil_r. exists d. split; [exact D|]. intros n m. rewrite R, <- E. cbn [run_trees]. unfold void. rewrite !mbind_assoc. apply mbind_ext. reflexivity.
Qed.
Theorem tree_means : (forall X t, ok_tree XG X t -> mt X t) /\ (forall Xs ts, ok_trees XG Xs ts -> Forall2 mt Xs ts).
Proof.
  apply ok_tree_mutind.
  - intros y. apply tok_means.
  - intros k p cs E _ F. pose proof (proj1 (Forall_forall _ _) all_good p (nth_error_In _ _ E)) as Gp. apply (Gp cs); [|exact F].
    intros n m. rewrite run_node, E. reflexivity.
  - constructor.
  - constructor; assumption.
Qed.
End Mean.

(** ** And every derivation of Gram.v is a tree of the file *)
Definition has (X : string) (ts : list ytok) : Prop := exists t, ok_tree XG X t /\ yield t = ts.
Lemma has_tok y : has (ysym y) [y].
Proof. exists (PTok y). split; [constructor|reflexivity]. Qed.
Definition XGn : list prod := Eval vm_compute in XG.
Lemma has_node k X tss ts : match nth_error XGn k with Some p => p_lhs p = X /\ Forall2 has (p_rhs p) tss | None => False end -> List.concat tss = ts -> has X ts.
Proof.
  change XGn with XG. destruct (nth_error XG k) as [p|] eqn:E; [|intros []]. intros [<- F] <-.
  assert (exists cs, ok_trees XG (p_rhs p) cs /\ flat_map yield cs = List.concat tss) as (cs & O & Y).
  { clear E. induction F as [|x ts xs tss (t & Ot & Yt) _ (cs & O & Y)]; [exists []; split; [constructor|reflexivity]|].
    exists (t :: cs). split; [constructor; assumption|]. cbn. rewrite Yt, Y. reflexivity. }
  exists (PNode k cs). split; [econstructor; eassumption|exact Y].
Qed.
Ltac one := solve [assumption | apply (has_tok (IDENT _)) | apply (has_tok (CONST _)) | match goal with |- has _ [?y] => exact (has_tok y) end].
Ltac node k tss := apply (has_node k _ tss); [cbn [nth_error XGn p_lhs p_rhs]; split; [reflexivity|]; repeat (apply Forall2_cons; [try one|]); apply Forall2_nil|cbn [List.concat app]; rewrite ?app_nil_r; reflexivity].
Lemma val_has s ts : D_val s ts -> has "val" ts.
Proof. intros []; [node 15 [[CONST s0]]|node 16 [[IDENT s0]]]. Qed.
Lemma varlen_has s ts : D_varlen s ts -> has "varlen" ts.
Proof. intros [|z v H]; [node 13 [[YLt]; [YGt]]|apply val_has in H; node 14 [[YLt]; v; [YGt]]]. Qed.
Lemma unsig_has s ts : D_unsig s ts -> has "maybeunsig" ts.
Proof. intros []; [node 27 (@nil (list ytok))|node 28 [[KWUNSIGNED]]]. Qed.
Lemma item_has i ts : D_enumitem i ts -> has "enumitem" ts.
Proof. intros [n z v H]. apply val_has in H. node 33 [[IDENT n]; [YEq]; v]. Qed.
Lemma items_has i ts : D_enumitems i ts -> has "enumitems" ts.
Proof. induction 1 as [i ts H|l ts i ts' _ IH H]; apply item_has in H; [node 31 [ts]|node 32 [ts; [YComma]; ts']]. Qed.
Lemma body_has i ts : D_enumbody i ts -> has "enumbody" ts.
Proof. intros [l z H]. apply items_has in H. node 30 [[YLBrace]; z; [YRBrace]]. Qed.
Lemma caselist_has l ts : D_caselist l ts -> has "caselist" ts.
Proof. induction 1 as [s v H|l ts s v _ IH H]; apply val_has in H; [node 45 [[KWCASE]; v; [YColon]]|node 46 [ts; [KWCASE]; v; [YColon]]]. Qed.
Lemma mut_has :
  (forall t ts, D_typespec t ts -> has "typespec" ts) /\ (forall d ts, D_decl d ts -> has "decl" ts) /\ (forall l ts, D_structbody l ts -> has "structbody" ts) /\
  (forall l ts, D_structdecls l ts -> has "structdecls" ts) /\ (forall s c d ts, D_unionbody s c d ts -> has "unionbody" ts) /\
  (forall c d ts, D_unioncasesdef c d ts -> has "unioncasesdef" ts) /\ (forall l ts, D_unioncases l ts -> has "unioncases" ts) /\ (forall c ts, D_unioncase c ts -> has "unioncase" ts).
Proof.
  apply D_mutind.
  - intros u ts H. apply unsig_has in H. node 17 [ts; [KWINT]].
  - intros u ts H. apply unsig_has in H. node 18 [ts; [KWHYPER]].
  - node 19 [[KWFLOAT]].
  - node 20 [[KWDOUBLE]].
  - node 21 [[KWQUADRUPLE]].
  - node 22 [[KWBOOL]].
  - intros l ts H. apply body_has in H. assert (has "enumtypespec" (KWENUM :: ts)) by node 29 [[KWENUM]; ts]. node 23 [KWENUM :: ts].
  - intros l ts _ H. assert (has "structtypespec" (KWSTRUCT :: ts)) by node 34 [[KWSTRUCT]; ts]. node 24 [KWSTRUCT :: ts].
  - intros s c d ts _ H. assert (has "uniontypespec" (KWUNION :: ts)) by node 38 [[KWUNION]; ts]. node 25 [KWUNION :: ts].
  - intros n. node 26 [[IDENT n]].
  - intros t ts n _ H. node 5 [ts; [IDENT n]].
  - intros t ts n s v _ H V. apply val_has in V. node 6 [ts; [IDENT n]; [YLBrack]; v; [YRBrack]].
  - intros t ts n s v _ H V. apply varlen_has in V. node 7 [ts; [IDENT n]; v].
  - intros n s v V. apply val_has in V. node 8 [[KWOPAQUE]; [IDENT n]; [YLBrack]; v; [YRBrack]].
  - intros n s v V. apply varlen_has in V. node 9 [[KWOPAQUE]; [IDENT n]; v].
  - intros n s v V. apply varlen_has in V. node 10 [[KWSTRING]; [IDENT n]; v].
  - intros t ts n _ H. node 11 [ts; [YStar]; [IDENT n]].
  - node 12 [[KWVOID]].
  - intros l ts _ H. node 35 [[YLBrace]; ts; [YRBrace]].
  - node 36 (@nil (list ytok)).
  - intros l ts d ts' _ H _ H'. node 37 [ts; ts'; [YSemi]].
  - intros s ts c d ts' _ H _ H'. node 39 [[KWSWITCH]; [YLParen]; ts; [YRParen]; [YLBrace]; ts'; [YRBrace]].
  - intros c ts _ H. node 40 [ts].
  - intros c ts d ts' _ H _ H'. node 41 [ts; [KWDEFAULT]; [YColon]; ts'; [YSemi]].
  - node 42 (@nil (list ytok)).
  - intros l ts c ts' _ H _ H'. node 43 [ts; ts'].
  - intros l ts d ts' C _ H. apply caselist_has in C. node 44 [ts; ts'; [YSemi]].
Qed.
Lemma opt_has o ts : D_typespecopt o ts -> has "typespecopt" ts.
Proof. intros [|t z H]; [node 59 [[KWVOID]]|]. apply mut_has in H. node 60 [z]. Qed.
Lemma call_has c ts : D_progcall c ts -> has "progcall" ts.
Proof. intros [r tr n a ta c' H H']. apply opt_has in H, H'. node 58 [tr; [IDENT n]; [YLParen]; ta; [YRParen]; [YEq]; [CONST c']; [YSemi]]. Qed.
Lemma calls_has l ts : D_progcalls l ts -> has "progcalls" ts.
Proof. induction 1 as [|l ts c ts' _ IH H]; [node 56 (@nil (list ytok))|]. apply call_has in H. node 57 [ts; ts']. Qed.
Lemma ver_has v ts : D_progver v ts -> has "progver" ts.
Proof. intros [n l z c H]. apply calls_has in H. node 55 [[KWVERSION]; [IDENT n]; [YLBrace]; z; [YRBrace]; [YEq]; [CONST c]; [YSemi]]. Qed.
Lemma vers_has l ts : D_progvers l ts -> has "progvers" ts.
Proof. induction 1 as [|l ts c ts' _ IH H]; [node 53 (@nil (list ytok))|]. apply ver_has in H. node 54 [ts; ts']. Qed.
Lemma defn_has d ts : D_defn d ts -> has "defn" ts.
Proof.
  intros [d' z H|n l z H|n l z H|n s c d' z H|n c|n l z c H].
  - apply mut_has in H. assert (has "typedef" (KWTYPEDEF :: z ++ [YSemi])) by node 48 [[KWTYPEDEF]; z; [YSemi]]. node 2 [KWTYPEDEF :: z ++ [YSemi]].
  - apply body_has in H. assert (has "typedef" (KWENUM :: IDENT n :: z ++ [YSemi])) by node 49 [[KWENUM]; [IDENT n]; z; [YSemi]]. node 2 [KWENUM :: IDENT n :: z ++ [YSemi]].
  - apply mut_has in H. assert (has "typedef" (KWSTRUCT :: IDENT n :: z ++ [YSemi])) by node 50 [[KWSTRUCT]; [IDENT n]; z; [YSemi]]. node 2 [KWSTRUCT :: IDENT n :: z ++ [YSemi]].
  - apply mut_has in H. assert (has "typedef" (KWUNION :: IDENT n :: z ++ [YSemi])) by node 51 [[KWUNION]; [IDENT n]; z; [YSemi]]. node 2 [KWUNION :: IDENT n :: z ++ [YSemi]].
  - assert (has "constdef" [KWCONST; IDENT n; YEq; CONST c; YSemi]) by node 47 [[KWCONST]; [IDENT n]; [YEq]; [CONST c]; [YSemi]]. node 3 [[KWCONST; IDENT n; YEq; CONST c; YSemi]].
  - apply vers_has in H. set (w := KWPROGRAM :: IDENT n :: YLBrace :: z ++ [YRBrace; YEq; CONST c; YSemi]). assert (has "progdef" w) by node 52 [[KWPROGRAM]; [IDENT n]; [YLBrace]; z; [YRBrace]; [YEq]; [CONST c]; [YSemi]]. node 4 [w].
Qed.
Lemma spec_has ds ts : D_spec ds ts -> has "spec" ts.
Proof. induction 1 as [|l ts d ts' _ IH H]; [node 0 (@nil (list ytok))|]. apply defn_has in H. node 1 [ts; ts']. Qed.

(** ** The grammar of the file is the grammar of Gram.v, and its actions make the calls of [emit_call] *)
Theorem spec_iff ts : has "spec" ts <-> exists ds, D_spec ds ts.
Proof.
  split; [|intros [ds H]; apply (spec_has ds), H]. intros (t & O & <-).
  destruct (proj1 (tree_means (W := unit) (fun _ => None) (fun _ _ _ => MStuck)) _ _ O) as (ds & D & _). exists ds. exact D.
Qed.
Theorem tree_actions {W} consts ext t ds : ok_tree XG "spec" t -> parse (yield t) = Some ds ->
  forall n (m : mm W), void (run_tree consts ext XG n t m) = actions consts ext n ds m.
Proof.
  intros O P n m. destruct (proj1 (tree_means consts ext) _ _ O) as (ds' & D & E). apply parse_iff in P. rewrite (spec_unique _ _ _ P D). apply E.
Qed.
