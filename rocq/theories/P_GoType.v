(** C50: which generated packages Go's typing rules accept.

    [generate fl src = Some o]: the texts the generator writes; [declares p (files_of o) P]:
    they are Go files that together declare [P] (P_GenText.v).  [compiles P]: Go's typing
    rules accept [P] (GoType.v, GoTypeG.v: types, constants, method bodies, interfaces,
    wrappers, stubs, registration functions, unused variables and imports).  [wd_defn]: no
    name is a Go keyword; [clean_prog P ds]: nothing is named like a variable, type or function
    that the generated code uses.  [fixed_defn d]: in [d] there is, at any depth, a fixed-size
    array of anything other than a struct without members.  [prog_ok P n ds]: no
    fixed-size array as above; every name declared once, bounds and labels constants of the right
    type and in range, labels distinct, no type inside itself, no member called xdr, arguments and
    results of procedures declared types, no version without procedures (GoTypeS.v). *)
From Verif Require Import GoLex XLex Gram GParse Emit GoTop GoRes GoPkg GoWf RepoText GenText.
From Verif Require Import Bytes XdrLib Types Interp GoAst GoSem GElab GoType GoTypeS GoTypeG GoTypeX.
Open Scope string_scope.
Open Scope Z_scope.
Open Scope list_scope.

(** A specification with a fixed-size array generates a package that does not compile. *)
Theorem C50_fixed : forall fl src ds o pkg P d, ok_flags fl = true -> front src = Some ds -> forallb wd_defn ds = true -> generate fl src = Some o -> declares pkg (files_of o) P ->
  clean_prog P ds = true -> In d ds -> fixed_defn d = true -> ~ compiles P.
Proof. exact fixed_rejected. Qed.
Print Assumptions C50_fixed.
(** What is dereferenced is not a pointer: the emitted code refers to the element as
    [*(p)[i]], of the array's element type. *)
Theorem C50_deref : forall fl ds G n t e L a k, pkg_of fl ds = Some G -> clean G ds = true -> gt t = Some e ->
  tc G n L (EIdx a (EVar "i")) = Some k -> ktype k = Some e -> tc G n L (EDeref (EIdx a (EVar "i"))) = None.
Proof. exact fixed_deref. Qed.
Print Assumptions C50_deref.
Example C50_deref_ex : exists ds G, front "typedef int a[3];" = Some ds /\ pkg_of (make_flags "p") ds = Some G /\ clean G ds = true /\ gt (typeInt false) = Some gS32 /\
  tc G 4 [("i", gU32); ("v", GPtr (GNamed "A")); ("xs", gState)] (EIdx (EParen (EVar "v")) (EVar "i")) = Some (KVar gS32).
Proof. eexists. eexists. split; [vm_compute; reflexivity|]. split; [vm_compute; reflexivity|]. repeat split; vm_compute; reflexivity. Qed.
(** Exactly when the generated package compiles. *)
Theorem C50_typed : forall fl src ds o, ok_flags fl = true -> front src = Some ds -> forallb wd_defn ds = true -> generate fl src = Some o ->
  exists P, prog_of fl ds = Some P /\ declares (fl_pkg fl) (files_of o) P /\ (clean_prog P ds = true -> (compiles P <-> exists n, prog_ok P n ds = true)).
Proof. exact typed_text. Qed.
Print Assumptions C50_typed.
(** A struct without members is the exception; and an enumerator as bound of an array is a
    supported specification whose code does not compile. *)
Theorem C50_every_element_refuted : ~ (forall fl src ds o pkg P d, ok_flags fl = true -> front src = Some ds -> generate fl src = Some o -> declares pkg (files_of o) P ->
  In d ds -> arr_defn d = true -> ~ compiles P).
Proof. exact every_element_refuted. Qed.
Print Assumptions C50_every_element_refuted.
Theorem C50_all_other_refuted : ~ (forall fl src E P, ok_flags fl = true -> spec_prog fl src = Some (E, P) -> compiles P).
Proof. exact all_other_refuted. Qed.
Print Assumptions C50_all_other_refuted.
(** The committed packages compile. *)
Theorem C50_rfc1057 : forall P, declares "rfc1057" [rfc1057_xdr_go; rfc1057_types_go] P -> compiles P.
Proof. exact rfc1057_compiles. Qed.
Print Assumptions C50_rfc1057.
Theorem C50_rfc1813 : forall P, declares "rfc1813" [rfc1813_xdr_go; rfc1813_types_go] P -> compiles P.
Proof. exact rfc1813_compiles. Qed.
Print Assumptions C50_rfc1813.

(** Fixed-size arrays of ints, of named types, of structs, of opaque arrays of arrays, and
    inside optional data, arrays and unions. *)
Definition c50_srcs : list string :=
  ["typedef int a[3];"; "struct s { hyper x; }; struct t { s a[2]; };"; "struct s { struct { bool b; } a[5]; };"; "typedef struct { struct { opaque o[4]; } x[2]; } *p;";
   "union u switch (bool b) { case TRUE: unsigned int w[7]; default: void; };"; "struct s { struct { string n<>; struct { int i; } j[1]; } k<>; };"].
Example C50_fixed_ex : Forall (fun src => exists ds o P d, front src = Some ds /\ forallb wd_defn ds = true /\ generate (make_flags "p") src = Some o /\ prog_of (make_flags "p") ds = Some P /\
  clean_prog P ds = true /\ In d ds /\ fixed_defn d = true) c50_srcs.
Proof.
  assert (forallb (fun src => match front src with Some ds => match generate (make_flags "p") src, prog_of (make_flags "p") ds with
    | Some _, Some P => forallb wd_defn ds && clean_prog P ds && existsb fixed_defn ds | _, _ => false end | None => false end) c50_srcs = true) as H by (vm_compute; reflexivity).
  apply Forall_forall. intros src I. rewrite forallb_forall in H. specialize (H _ I). destruct (front src) as [ds|] eqn:E1; [|discriminate]. destruct (generate (make_flags "p") src) as [o|] eqn:E2; [|discriminate]. destruct (prog_of (make_flags "p") ds) as [P|] eqn:E3; [|discriminate].
  apply andb_prop in H. destruct H as [H E]. apply andb_prop in H. destruct H as [W C]. apply existsb_exists in E. destruct E as (d & Id & F). exists ds, o, P, d. repeat split; assumption || reflexivity.
Qed.
(** One with arrays, strings, optional data, unions, enums, constants and a program: it compiles. *)
Example C50_typed_ex : let src := "const N = 5; enum e { A = 0, B = 1 }; typedef opaque fh[32]; typedef string nm<255>; struct s { int x<N>; fh f; nm n; s *next; struct { hyper h<3>; } in<>; }; union u switch (e d) { case A: s ok; case B: void; default: opaque why<>; }; typedef u *opt; program P { version V { void NUL(void) = 0; u GET(s) = 1; opt PUT(nm) = 2; } = 3; } = 200;" in
  match front src, generate (make_flags "p") src with Some ds, Some _ => match prog_of (make_flags "p") ds with Some P => forallb wd_defn ds && clean_prog P ds && prog_ok P 9 ds | None => false end | _, _ => false end = true.
Proof. vm_compute. reflexivity. Qed.
(** Each of the other conditions is needed: without it a package is rejected. *)
Example C50_conditions_ex : forallb (fun src => match check_src (make_flags "p") src 9 with Some b => negb b | None => false end)
  ["struct s { int x; bool x; };"; "struct s { int xdr; };"; "struct s { int _; };"; "struct s { s x; };"; "struct s { t x; };"; "enum e { A = 1 }; typedef int x<A>;";
   "typedef int x<4294967296>;"; "union u switch (int d) { case 1: int a; case 1: int b; };"; "const K = 1; union u switch (int d) { case K: int a; };"; "typedef bool a; typedef int A;"; "const A = 1;";
   "program P { version V { int F(void) = 0; } = 1; } = 2;"; "program P { version V { } = 1; } = 2;"; "program P { version V { void F(void) = 0; } = 1; version W { void F(void) = 0; } = 2; } = 3;"; "program P { version V { void F(void) = 4294967296; } = 1; } = 2;"]
  = true.
Proof. vm_compute. reflexivity. Qed.
