(** C70: the text of xdr.y has the grammar of Gram.v and the actions of [emit_call].  C71: it has an LALR automaton, and all automata parse alike. *)
From Verif Require Import GoLex XLex Gram GParse Emit RepoText SrcAst MainText MainAst MainProg MainSem MainOut MainEmit MainGen MainScan YaccAst YaccProg YaccTextP YaccSem YaccLR YaccLRP YaccTab YaccParse.
Open Scope string_scope.
Open Scope list_scope.

(** The grammar with actions [xdr_y_prog] is the file /repo/xdr.y; every $n of an action has a type, and so has every $$ that is set. *)
Theorem C70_text : is_grammar xdr_y xdr_y_prog /\ typed xdr_y_prog = true.
Proof. exact (conj xdr_y_source xdr_y_typed). Qed.
Print Assumptions C70_text.

(** Its tokens are those that Lex returns, declared once each; the others are characters. *)
Theorem C70_tokens : (filter named (map snd (y_tokens xdr_y_prog)) = y_names /\ NoDup (map snd (y_tokens xdr_y_prog))) /\
  forall y, if named (ysym y) then In (ysym y) (map snd (y_tokens xdr_y_prog)) else True.
Proof. exact (conj token_names token_symbols). Qed.
Print Assumptions C70_tokens.

(** xdr.y:82-191.  The start symbol derives a list of tokens exactly if the grammar of the model does. *)
Theorem C70_grammar : forall ts, (exists t, ok_tree (prods xdr_y_prog) "spec" t /\ yield t = ts) <-> exists ds, D_spec ds ts.
Proof. exact spec_iff. Qed.
Print Assumptions C70_grammar.

(** The actions of any derivation, by the rules of Go, make the calls of [emit_call] for the definitions of the model, one after the other, on
    values built for them (the values C68 is about). *)
Theorem C70_actions : forall W consts (ext : string -> list uv -> mm W -> mres W (list uv)) t ds,
  ok_tree (prods xdr_y_prog) "spec" t -> parse (yield t) = Some ds ->
  forall n m, void (run_tree consts ext (prods xdr_y_prog) n t m) = actions consts ext n ds m.
Proof. exact (fun W => tree_actions (W := W)). Qed.
Print Assumptions C70_actions.

Example C70_ex : ok_tree (prods xdr_y_prog) "spec" ex_tree /\ yield ex_tree = [KWCONST; IDENT "A"; YEq; CONST "1"; YSemi] /\ parse (yield ex_tree) = Some [defConst "A" "1"].
Proof. exact (conj (proj1 ex_tree_ok) (conj (proj2 ex_tree_ok) (proj2 (proj2 ex_parse)))). Qed.

(** The grammar of the file has tables without conflicts. *)
Theorem C71_tables : lr_ok (prods xdr_y_prog) "spec" xdr_tab = true.
Proof. exact xdr_tab_ok. Qed.
Print Assumptions C71_tables.

(** Whatever tables pass the check: the automaton stops after a number of steps linear in the text, accepts with a derivation what the model
    parses, and stops with an error on everything else. *)
Theorem C71_parse : forall T, lr_ok (prods xdr_y_prog) "spec" T = true -> forall ts j, lrfuel T ts <= j ->
  match lrt (prods xdr_y_prog) T j [] ts with
  | LAcc t => ok_tree (prods xdr_y_prog) "spec" t /\ yield t = ts /\ exists ds, parse ts = Some ds
  | LErr _ _ => parse ts = None
  | LOut => False
  end.
Proof. exact tables_parse. Qed.
Print Assumptions C71_parse.

(** The derivation found makes the calls of the model. *)
Theorem C71_actions : forall W consts (ext : string -> list uv -> mm W -> mres W (list uv)) T, lr_ok (prods xdr_y_prog) "spec" T = true ->
  forall ts ds j, lrfuel T ts <= j -> parse ts = Some ds ->
  exists t, lrt (prods xdr_y_prog) T j [] ts = LAcc t /\ forall n m, void (run_tree consts ext (prods xdr_y_prog) n t m) = actions consts ext n ds m.
Proof. exact (fun W => tables_acts (W := W)). Qed.
Print Assumptions C71_actions.

(** No text has two derivations; for any grammar with tables that pass the check. *)
Theorem C71_unambiguous : forall G start T, lr_ok G start T = true -> forall t t', ok_tree G start t -> ok_tree G start t' -> yield t = yield t' -> t = t'.
Proof. exact lr_unique. Qed.
Print Assumptions C71_unambiguous.

Example C71_ex : lrt (prods xdr_y_prog) xdr_tab 33 [] [KWCONST; IDENT "A"; YEq; CONST "1"; YSemi] = LAcc ex_tree /\ lrfuel xdr_tab [KWCONST; IDENT "A"; YEq; CONST "1"; YSemi] = 33.
Proof. exact (conj (proj1 ex_parse) (proj1 (proj2 ex_parse))). Qed.
Example C71_ex_bad : match lrt (prods xdr_y_prog) xdr_tab 100 [] [KWCONST; YEq] with LErr stk rest => List.length stk = 2 /\ rest = [YEq] | _ => False end.
Proof. exact ex_bad. Qed.
