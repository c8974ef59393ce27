(** C72: xdrParse, reading tokens on demand through the text of scan.go and running the actions of xdr.y by the text of out.go. *)
From Verif Require Import GoLex XLex Gram GParse Emit FileSys GoWf SrcAst MainAst MainProg MainSem MainOut MainEmit MainScan YaccAst YaccProg YaccSem YaccLR YaccTab YaccRun MainRun.
Open Scope string_scope.
Open Scope list_scope.

(** Whatever tables for the grammar of xdr.y ([lr_ok]), and whether or not they look ahead where they need not ([eager]): on every list of tokens
    xdrParse ends.  It returns 0 if the model parses the list and emits all definitions; then the writes to the two buffers are those of the
    model ([eqw]: concatenated per file).  Else it panics, having made some writes.  It leaves the memory as it was but for its own variable.
    [vis]: what the calls of the scanner do not change, for example the files. *)
Theorem C72_parse : forall W V consts (ext : string -> list uv -> mm W -> mres W (list uv)) num ynum sk toks pos lit adv say,
  scans consts ext num ynum sk toks pos lit adv say ->
  forall fl ko kt pc pu log, (forall k s m, ext "write" [UObj k; UStr s] m = MOk (put log k s m) []) ->
  forall vis : W -> V, (forall i s w w', vis w = vis w' -> vis (log i s w) = vis (log i s w')) -> (forall w, vis (adv w) = vis w) -> (forall l w, vis (say l w) = vis w) ->
  (forall i s w, toks (log i s w) = toks w) ->
  forall T, lr_ok (prods xdr_y_prog) "spec" T = true -> forall eager gts, Forall gtok_ok gts ->
  exists k, forall n j, k <= n -> k <= j -> forall pl pd b g c d w, base sk fl ko kt pc pu pl pd b g c d w -> toks w = gts ->
  let o := match all_some Lex gts with Some ts => match parse ts with Some ds => emit_list (emit fl) ds | None => None end | None => None end in
  exists ws0 lv w', vis w' = vis (wplay ko kt log ws0 w) /\
  let r := xdr_parse consts ext xdr_y_prog T eager j n [UPtr pl] (mkMM g c d w) in let m' := mkMM g (c ++ [lv]) d w' in
  match o with Some ws => eqw ws0 ws /\ r = MOk m' [UInt 0] | None => r = MPanic m' end.
Proof. exact (fun W V => parse_run (W := W) (V := V)). Qed.
Print Assumptions C72_parse.

(** Every text has a list of such tokens. *)
Theorem C72_total : forall s, exists l, go_tokens s = Some l /\ Forall gtok_ok l.
Proof. exact go_total. Qed.
Print Assumptions C72_total.

(** The state in which main calls xdrParse. *)
Example C72_ex_base : forall w : osw, base 1 ex_fl 5 6 6 5 7 4 false (globals (UObj 5) (UObj 6)) (cells1 "a.x" "a.go" "main" "t.go" "" false false) [] w.
Proof. exact ex_base. Qed.
Example C72_ex_scans : scans (os_consts ex_num ex_ynum) (os_ext ex_num (fun _ => 0%Z) ex_lit ex_results ex_opt (fun _ => None) Some) ex_num ex_ynum 1 os_toks (fun w => 0%Z) (os_lit ex_lit) os_adv (fun _ w => w).
Proof. exact (os_scans ex_num ex_ynum (fun _ => 0%Z) ex_lit ex_results ex_opt (fun _ => None) Some (proj1 ex_distinct_ok)). Qed.
(** A text, with either way of looking ahead: the same writes, all tokens and the end read. *)
Example C72_ex : forall b, match ex_parse (fun _ => b) ex_src with
  | MOk m vs => vs = [UInt 0] /\ map fst (os_hist (mm_world m)) =
      [AAppend "t.go.tmp" ("const A  = 1" +++ NL); AAppend "t.go.tmp" ("type T int32" +++ NL); AAppend "a.go.tmp" ("func (v *T) Xdr(xs *xdr.XdrState) {" +++ NL);
       AAppend "a.go.tmp" ("xdr.XdrS32(xs, (*int32)(v));" +++ NL); AAppend "a.go.tmp" ("}" +++ NL)] /\ os_src (mm_world m) = (ex_src, 10)
  | _ => False
  end.
Proof. intros [|]; vm_compute; repeat split. Qed.
(** A syntax error in the second definition: a panic, after the writes for the first. *)
Example C72_ex_error : match ex_parse (fun _ => false) "const A = 1; typedef = t;" with
  | MPanic m => map fst (os_hist (mm_world m)) = [AAppend "t.go.tmp" ("const A  = 1" +++ NL)] /\ snd (os_src (mm_world m)) = 7
  | _ => False
  end.
Proof. vm_compute. split; reflexivity. Qed.
(** A token that Lex does not handle. *)
Example C72_ex_lex : match ex_parse (fun _ => false) "const A = 1.5;" with MPanic m => os_hist (mm_world m) = [] | _ => False end.
Proof. vm_compute. reflexivity. Qed.
