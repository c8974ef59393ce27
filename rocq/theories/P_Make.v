(** C79: the Makefile.

    [asks makefile t os]: the first command of the recipe for the target [t] is ./go-rpcgen, and package flag, for the flags main.go
    declares, reads its arguments as the options [os] (Make.v).  [plain d]: letters, digits and underscores.
    [inputF], [outputF], [typesF], [the_flags]: what main.go makes of options; [program ... = Some (h, st)]: the text of the generator
    run with them makes the system calls [h] and ends with [st] (P_MainRun.v); [effs]: these calls take one file system to another. *)
From Coq Require Import Ascii String List Bool ZArith.
From Verif Require Import GoLex XLex Gram GParse Emit FileSys RepoText MakeText MainAst MainProg MainSem MainScan YaccSem YaccLR YaccTab YaccRun MainRun Make.
Import ListNotations.
Open Scope string_scope.
Open Scope list_scope.

(** make without a target makes xdr.go in the two directories. *)
Theorem C79_all : exists r, rule_for makefile "all" = Some (["rfc1813/xdr.go"; "rfc1057/xdr.go"], r).
Proof. exact all_is. Qed.
Print Assumptions C79_all.
(** For every directory, both targets need its prot.x and the generator. *)
Theorem C79_needs : forall d e, plain d = true -> e = "/xdr.go" \/ e = "/types.go" -> exists r, rule_for makefile (d +++ e) = Some ([d +++ "/prot.x"; "./go-rpcgen"], r).
Proof. exact needs_is. Qed.
Print Assumptions C79_needs.
(** The options: the generator reads prot.x, writes the target and types.go, and has the flags of C47. *)
Theorem C79_options : forall d e os, plain d = true -> e = "/xdr.go" \/ e = "/types.go" -> asks makefile (d +++ e) os ->
  inputF (opt_s os) = d +++ "/prot.x" /\ outputF (opt_s os) = d +++ e /\ typesF (opt_s os) = d +++ "/types.go" /\ the_flags (opt_s os) (opt_b os) = make_flags d.
Proof. exact asked. Qed.
Print Assumptions C79_options.
Theorem C79_asks : forall d e, plain d = true -> e = "/xdr.go" \/ e = "/types.go" -> exists os, asks makefile (d +++ e) os.
Proof. exact asked_some. Qed.
Print Assumptions C79_asks.

(** The options may be written in all the ways the documentation of package flag names; reading stops at the first word that is none. *)
Theorem C79_string_options : forall acc l x v, kind_of x = Some false -> let r := parse_args ((x, OStr v) :: acc) l in
  parse_args acc (("-" +++ x) :: v :: l) = r /\ parse_args acc (("--" +++ x) :: v :: l) = r /\ parse_args acc (("-" +++ x +++ "=" +++ v) :: l) = r /\ parse_args acc (("--" +++ x +++ "=" +++ v) :: l) = r.
Proof. exact flag_string. Qed.
Print Assumptions C79_string_options.
Theorem C79_boolean_options : forall acc l x b, kind_of x = Some true -> (forall v, In v ["true"; "1"; "t"; "T"; "TRUE"; "True"] /\ b = true \/ In v ["false"; "0"; "f"; "F"; "FALSE"; "False"] /\ b = false ->
    parse_args acc (("-" +++ x +++ "=" +++ v) :: l) = parse_args ((x, OBool b) :: acc) l /\ parse_args acc (("--" +++ x +++ "=" +++ v) :: l) = parse_args ((x, OBool b) :: acc) l) /\
  parse_args acc (("-" +++ x) :: l) = parse_args ((x, OBool true) :: acc) l /\ parse_args acc (("--" +++ x) :: l) = parse_args ((x, OBool true) :: acc) l.
Proof. exact flag_bool. Qed.
Print Assumptions C79_boolean_options.
Theorem C79_stop : forall acc l a, head_is (fun c => Ascii.eqb c "-") a = false \/ a = "-" \/ a = "--" -> parse_args acc (a :: l) = Some acc.
Proof. exact flag_stop. Qed.
Print Assumptions C79_stop.
Example C79_options_ex : declared_flags = [("i", false); ("o", false); ("p", false); ("t", false); ("d", true); ("unsigned-enum", true); ("const-type", false)] /\
  parse_args [] ["-i=a.x"; "--unsigned-enum=f"; "--o"; "-d"; "x"; "-t"; "y"] = Some [("o", OStr "-d"); ("unsigned-enum", OBool false); ("i", OStr "a.x")] /\ parse_args [] ["-q"] = None /\ parse_args [] ["-i"] = None.
Proof. repeat split; vm_compute; reflexivity. Qed.

(** Run as make runs it on the committed specifications, without I/O errors, the text of the generator leaves files with the tokens
    of the committed ones and changes nothing else. *)
Theorem C79_committed : forall num ynum pos lit o gofmt T eager d src a b os, distinct num ynum -> lr_ok XG "spec" T = true -> In (d, src, a, b) committed -> asks makefile (d +++ "/xdr.go") os -> formats gofmt a b ->
  exists k, forall N n, k <= N -> exists h st, ended (program num ynum pos lit o (opt_s os) (opt_b os) gofmt T eager N (S (S (S n)))) = Some (h, st) /\
  forall fs0 fs, fs0 (d +++ "/prot.x") = Some src -> fs0 (d +++ "/xdr.go.tmp") = None -> fs0 (d +++ "/types.go.tmp") = None -> effs true fs0 h fs ->
    st = Success /\ (exists f, fs (d +++ "/xdr.go") = Some f /\ same_go f a) /\ (exists g, fs (d +++ "/types.go") = Some g /\ same_go g b) /\ forall p, p <> d +++ "/xdr.go" -> p <> d +++ "/types.go" -> fs p = fs0 p.
Proof. exact make_from. Qed.
Print Assumptions C79_committed.
(** make without a target: the generator is run for the one directory and then for the other; afterwards all four files have the
    tokens of the committed ones, and no other file has changed. *)
Theorem C79_make : forall num ynum pos lit o1 o2 gofmt T eager os1 os2 t1 t2 r, distinct num ynum -> lr_ok XG "spec" T = true -> rule_for makefile "all" = Some ([t1; t2], r) -> asks makefile t1 os1 -> asks makefile t2 os2 ->
  (forall d src a b, In (d, src, a, b) committed -> formats gofmt a b) ->
  exists k, forall N n, k <= N -> exists h1 st1 h2 st2,
    ended (program num ynum pos lit o1 (opt_s os1) (opt_b os1) gofmt T eager N (S (S (S n)))) = Some (h1, st1) /\
    ended (program num ynum pos lit o2 (opt_s os2) (opt_b os2) gofmt T eager N (S (S (S n)))) = Some (h2, st2) /\
    forall fs0 fs1 fs2, (forall d src a b, In (d, src, a, b) committed -> fs0 (d +++ "/prot.x") = Some src /\ fs0 (d +++ "/xdr.go.tmp") = None /\ fs0 (d +++ "/types.go.tmp") = None) ->
      effs true fs0 h1 fs1 -> effs true fs1 h2 fs2 -> st1 = Success /\ st2 = Success /\
      (forall d src a b, In (d, src, a, b) committed -> (exists f, fs2 (d +++ "/xdr.go") = Some f /\ same_go f a) /\ exists g, fs2 (d +++ "/types.go") = Some g /\ same_go g b) /\
      forall p, (forall d src a b, In (d, src, a, b) committed -> p <> d +++ "/xdr.go" /\ p <> d +++ "/types.go") -> fs2 p = fs0 p.
Proof. exact make_all. Qed.
Print Assumptions C79_make.
Definition c79_fs : fsys := fun p => if String.eqb p "rfc1057/prot.x" then Some rfc1057_prot_x else if String.eqb p "rfc1813/prot.x" then Some rfc1813_prot_x else None.
Example C79_committed_ex : forall d src a b, In (d, src, a, b) committed -> plain d = true /\ (exists os, asks makefile (d +++ "/xdr.go") os) /\ formats Some a b /\
  c79_fs (d +++ "/prot.x") = Some src /\ c79_fs (d +++ "/xdr.go.tmp") = None /\ c79_fs (d +++ "/types.go.tmp") = None.
Proof.
  intros d src a b I. assert (P : plain d = true) by (destruct I as [[= <- <- <- <-]|[[= <- <- <- <-]|[]]]; reflexivity). split; [exact P|]. split; [exact (asked_some d _ P (or_introl eq_refl))|].
  split; [split; [intros x y [= <-]; reflexivity|discriminate]|]. destruct I as [[= <- <- <- <-]|[[= <- <- <- <-]|[]]]; repeat split; reflexivity.
Qed.
Example C79_make_ex : (exists t1 t2 r os1 os2, rule_for makefile "all" = Some ([t1; t2], r) /\ asks makefile t1 os1 /\ asks makefile t2 os2) /\ (forall d src a b, In (d, src, a, b) committed -> formats Some a b) /\
  forall d src a b, In (d, src, a, b) committed -> c79_fs (d +++ "/prot.x") = Some src /\ c79_fs (d +++ "/xdr.go.tmp") = None /\ c79_fs (d +++ "/types.go.tmp") = None.
Proof.
  split; [|split; intros d src a b I; destruct (C79_committed_ex d src a b I) as (_ & _ & F & S); assumption].
  destruct all_is as (r & A). destruct (asked_some "rfc1813" _ eq_refl (or_introl eq_refl)) as (os1 & A1). destruct (asked_some "rfc1057" _ eq_refl (or_introl eq_refl)) as (os2 & A2). exists "rfc1813/xdr.go", "rfc1057/xdr.go", r, os1, os2. split; [exact A|]. split; [exact A1|exact A2].
Qed.

(** The rule has types.go as a target too.  Asked for that one, make gives the generator the same name twice, and it always fails:
    it makes the temporary file, cannot make it again, and panics; no other file changes, whatever errors there are. *)
Theorem C79_types_fails : forall num ynum pos lit o gofmt T eager d os, distinct num ynum -> lr_ok XG "spec" T = true -> plain d = true -> asks makefile (d +++ "/types.go") os ->
  exists k, forall N n, k <= N -> exists h st, ended (program num ynum pos lit o (opt_s os) (opt_b os) gofmt T eager N (S (S (S n)))) = Some (h, st) /\
  forall strict fs0 fs, effs strict fs0 h fs -> st <> Success /\ forall p, p <> d +++ "/types.go.tmp" -> fs p = fs0 p.
Proof. exact types_fails. Qed.
Print Assumptions C79_types_fails.
(** A run: the source is read, the temporary file is made, and making it a second time fails. *)
Definition c79_results (n : nat) : res := match n with 0 => ROk "const A = 1;" | 4 => RErr | _ => ROk "" end.
Definition c79_fs1 : fsys := fun p => if String.eqb p "demo/prot.x" then Some "const A = 1;" else None.
Example C79_types_ex : exists os h fs, asks makefile "demo/types.go" os /\
  ended (program ex_num ex_ynum (fun _ => 0%Z) ex_lit c79_results (opt_s os) (opt_b os) Some xdr_tab (fun _ => false) 70 3) = Some (h, Panicked) /\ map fst h =
    [ARead "demo/prot.x"; ACreate "demo/types.go.tmp"; AAppend "demo/types.go.tmp" (tout_header (make_flags "demo")); AAppend "demo/types.go.tmp" import_line; ACreate "demo/types.go.tmp"; ARemove "demo/types.go.tmp"] /\
  effs true c79_fs1 h fs.
Proof.
  exists (opts "demo" "demo/types.go"). eexists. eexists. split; [exact (asks_app "demo" "/types.go" eq_refl (or_intror eq_refl))|]. split; [vm_compute; reflexivity|]. split; [vm_compute; reflexivity|].
  eapply es_cons; [apply e_read; reflexivity|]. eapply es_cons; [apply e_create; reflexivity|]. eapply es_cons; [eapply e_append; reflexivity|]. eapply es_cons; [eapply e_append; reflexivity|].
  eapply es_cons; [eapply e_create_exists; reflexivity|]. eapply es_cons; [apply e_remove|]. apply es_nil.
Qed.
