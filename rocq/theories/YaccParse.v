(** Automata for the grammar of xdr.y. *)
From Verif Require Import GoLex XLex Gram GParse GParseP Emit SrcAst MainAst MainProg MainSem MainOut MainEmit MainGen MainScan YaccAst YaccProg YaccSem YaccLR YaccLRP YaccTab.
Open Scope string_scope.
Open Scope list_scope.

(** The named tokens of the file are those of MainScan.v; the others are characters. *)
Definition named (x : string) : bool := match x with String "'" _ => false | _ => true end.
Lemma token_names : filter named (map snd (y_tokens xdr_y_prog)) = y_names /\ NoDup (map snd (y_tokens xdr_y_prog)).
Proof. split; [vm_compute; reflexivity|]. repeat (apply NoDup_cons; [intros I; apply mem_in in I; vm_compute in I; discriminate|]). apply NoDup_nil. Qed.
Lemma token_symbols y : if named (ysym y) then In (ysym y) (map snd (y_tokens xdr_y_prog)) else True.
Proof. destruct (named (ysym y)) eqn:N; [|exact I]. apply mem_in. destruct y; try discriminate N; vm_compute; reflexivity. Qed.
Lemma xdr_tab_ok : lr_ok XG "spec" xdr_tab = true.
Proof. vm_compute. reflexivity. Qed.
Theorem tables_parse T : lr_ok XG "spec" T = true -> forall ts j, lrfuel T ts <= j ->
  match lrt XG T j [] ts with
  | LAcc t => ok_tree XG "spec" t /\ yield t = ts /\ exists ds, parse ts = Some ds
  | LErr _ _ => parse ts = None
  | LOut => False
  end.
Proof.
  intros OK ts j L. pose proof (lr_correct _ _ _ OK ts j L) as C. destruct (lrt XG T j [] ts) as [t|stk rest|]; [| |exact C].
  - destruct C as [O Y]. refine (conj O (conj Y _)). destruct (proj1 (spec_iff ts) (ex_intro _ t (conj O Y))) as [ds D]. exists ds. apply parse_iff, D.
  - destruct C as (_ & _ & N). destruct (parse ts) as [ds|] eqn:P; [|reflexivity]. apply parse_iff in P. destruct (proj2 (spec_iff ts) (ex_intro _ ds P)) as (t & O & Y). destruct (N t O Y).
Qed.
Theorem tables_acts {W} consts ext T : lr_ok XG "spec" T = true -> forall ts ds j, lrfuel T ts <= j -> parse ts = Some ds ->
  exists t, lrt XG T j [] ts = LAcc t /\ forall n (m : mm W), void (run_tree consts ext XG n t m) = actions consts ext n ds m.
Proof.
  intros OK ts ds j L P. pose proof (tables_parse T OK ts j L) as C. destruct (lrt XG T j [] ts) as [t|stk rest|]; [|congruence|destruct C].
  destruct C as (O & Y & _). exists t. split; [reflexivity|]. intros n m. apply tree_actions; [exact O|]. rewrite Y. exact P.
Qed.
(** Example *)
Definition ex_toks : list ytok := [KWCONST; IDENT "A"; YEq; CONST "1"; YSemi].
Definition ex_tree : pt := PNode 1 [PNode 0 []; PNode 3 [PNode 47 (map PTok ex_toks)]].
Lemma ex_tree_ok : ok_tree XG "spec" ex_tree /\ yield ex_tree = ex_toks.
Proof.
  split; [|reflexivity]. refine (ok_node XG 1 (mkProd "spec" ["spec"; "defn"] None) _ eq_refl (ok_cons _ _ _ _ _ _ (ok_cons _ _ _ _ _ _ (ok_nil _)))).
  - exact (ok_node XG 0 (mkProd "spec" [] None) _ eq_refl (ok_nil _)).
  - assert (exists a, nth_error XG 3 = Some (mkProd "defn" ["constdef"] a)) as [a E] by (eexists; vm_compute; reflexivity). refine (ok_node XG 3 _ _ E (ok_cons _ _ _ _ _ _ (ok_nil _))). clear.
    assert (exists a, nth_error XG 47 = Some (mkProd "constdef" ["KWCONST"; "IDENT"; "'='"; "CONST"; "';'"] a)) as [a E] by (eexists; vm_compute; reflexivity). refine (ok_node XG 47 _ _ E _).
    exact (ok_cons _ _ _ _ _ (ok_tok _ KWCONST) (ok_cons _ _ _ _ _ (ok_tok _ (IDENT "A")) (ok_cons _ _ _ _ _ (ok_tok _ YEq) (ok_cons _ _ _ _ _ (ok_tok _ (CONST "1")) (ok_cons _ _ _ _ _ (ok_tok _ YSemi) (ok_nil _)))))).
Qed.
Lemma ex_parse : lrt XG xdr_tab 33 [] ex_toks = LAcc ex_tree /\ lrfuel xdr_tab ex_toks = 33 /\ parse ex_toks = Some [defConst "A" "1"].
Proof. vm_compute. repeat split. Qed.
Lemma ex_bad : match lrt XG xdr_tab 100 [] [KWCONST; YEq] with LErr stk rest => List.length stk = 2 /\ rest = [YEq] | _ => False end.
Proof. vm_compute. split; reflexivity. Qed.
