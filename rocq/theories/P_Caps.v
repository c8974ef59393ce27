(** C52: capitalisation of identifiers.

    [generated fl src ds P]: the source [src] reads as the definitions [ds], no name is a Go
    keyword, and the texts the generator writes for it declare the package [P] (P_GenText.v).
    [compiles P]: Go's typing rules accept it (P_GoType.v).  [cap]: out.go:8-17.
    [sp_defn d]: where names occur in a definition; [prog_uses P]: where identifiers occur in
    the package; [own_names]: those that are the generator's own (GoCap.v). *)
From Coq Require Import NArith.
From Verif Require Import GoLex XLex Gram GParse Emit GoTop GoRes GoPkg GoWf RepoText GenText.
From Verif Require Import Bytes XdrLib Types Interp GoAst GoSem GElab GoType GoTypeS GoTypeG GoTypeX GoCap.
Open Scope string_scope.
Open Scope list_scope.

(** The first letter is upper-cased, and TRUE and FALSE become Go's constants. *)
Theorem C52_cap : forall s, (s = "TRUE" -> cap s = "true") /\ (s = "FALSE" -> cap s = "false") /\
  (forall c r, s = String c r -> ~ boolean_name s -> cap s = String (if is_lower c then raised c else c) r) /\ (s = "" -> cap s = "").
Proof. exact cap_spec. Qed.
Print Assumptions C52_cap.
(** Two names are emitted alike exactly when they differ in the case of the first letter only. *)
Theorem C52_cap_collide : forall a b, cap a = cap b <-> a = b \/ ~ boolean_name a /\ ~ boolean_name b /\ same_but_case a b.
Proof. exact cap_collide. Qed.
Print Assumptions C52_cap_collide.
Example C52_cap_ex : map cap ["foo"; "Foo"; "nfs_fh3"; "_x"; "TRUE"; "tRUE"; "FALSE"; "true"; "7"] = ["Foo"; "Foo"; "Nfs_fh3"; "_x"; "true"; "TRUE"; "false"; "True"; "7"] /\ same_but_case "foo" "Foo".
Proof. split; [vm_compute; reflexivity|]. exists "f"%char, "F"%char, "oo". repeat split. left. split; reflexivity. Qed.
(** What is declared: types, enumerators, programs, versions and procedures capitalised,
    constants as written. *)
Theorem C52_declared : forall fl src ds P, generated fl src ds P ->
  map fst (g_types (gp_pkg P)) = map cap (flat_map type_name ds) /\ map c_name (g_consts (gp_pkg P)) = flat_map const_names ds.
Proof. exact text_names. Qed.
Print Assumptions C52_declared.
(** And the members of a struct or union. *)
Theorem C52_members : forall fl src ds P d n, generated fl src ds P -> In d ds -> match d with defStruct m _ | defUnion m _ _ _ => n = m | _ => False end ->
  exists fs, In (cap n, GStruct fs) (g_types (gp_pkg P)) /\ map fst fs = map cap (members d).
Proof. exact text_fields. Qed.
Print Assumptions C52_members.
(** Every identifier in the package is the generator's own or the emission of a name in the
    specification, and every name in the specification is emitted: a type, member, case label,
    program, version and procedure capitalised, a size, bound and value as written. *)
Theorem C52_uses : forall fl src ds P, generated fl src ds P ->
  (forall u, In u (prog_uses P) -> In u own_names \/ exists r, In r (flat_map sp_defn ds) /\ In u (emitted r)) /\
  (forallb named_calls ds = true -> forall r u, In r (flat_map sp_defn ds) -> In u (emitted r) -> In u (prog_uses P)).
Proof. exact text_uses. Qed.
Print Assumptions C52_uses.
(** A reference to a name that is defined resolves: to a type, to an enumerator, program,
    version or procedure where it is emitted capitalised, to a constant where as written. *)
Theorem C52_same : forall fl src ds P, generated fl src ds P ->
  (forall x, In x (flat_map type_name ds) -> resolved (gp_pkg P) (RType x)) /\
  (forall x, In x (flat_map capped_consts ds) -> resolved (gp_pkg P) (RLabel x) /\ resolved (gp_pkg P) (RNumber x) /\ resolved (gp_pkg P) (RProc x)) /\
  (forall x, In x (verbatim ds) -> resolved (gp_pkg P) (RValue x)).
Proof. exact text_same. Qed.
Print Assumptions C52_same.
(** When the package compiles, every reference is to something declared. *)
Theorem C52_resolve : forall fl src ds P, generated fl src ds P -> clean_prog P ds = true -> compiles P -> forall r, In r (flat_map sp_defn ds) -> resolved (gp_pkg P) r.
Proof. exact text_resolve. Qed.
Print Assumptions C52_resolve.
(** A case label with a lower-case first letter, when nothing has the capitalised name: the
    code refers to that name, which is not declared, and does not compile. *)
Theorem C52_label : forall fl src ds P c r, generated fl src ds P -> is_lower c = true -> In (RLabel (String c r)) (flat_map sp_defn ds) -> ~ In (String (raised c) r) (flat_map const_names ds) ->
  (forallb named_calls ds = true -> In (UIdent (String (raised c) r)) (prog_uses P)) /\ ~ In (String (raised c) r) (map c_name (g_consts (gp_pkg P))) /\ (clean_prog P ds = true -> ~ compiles P).
Proof. exact label_undeclared. Qed.
Print Assumptions C52_label.
(** A bound, size or value with a lower-case first letter that no constant is called, such as
    an enumerator. *)
Theorem C52_bound : forall fl src ds P c r, generated fl src ds P -> is_lower c = true -> ~ In (String c r) ["true"; "false"] -> ~ In (String c r) (verbatim ds) -> In (RValue (String c r)) (flat_map sp_defn ds) ->
  (forallb named_calls ds = true -> In (UIdent (String c r)) (prog_uses P)) /\ ~ In (String c r) (map c_name (g_consts (gp_pkg P))) /\ (clean_prog P ds = true -> ~ compiles P).
Proof. exact bound_undeclared. Qed.
Print Assumptions C52_bound.
(** Names that differ in the case of the first letter only collide: types, enumerators,
    programs, versions, procedures; one of those with a constant; members of one struct or union. *)
Theorem C52_collision : forall fl src ds P, generated fl src ds P ->
  (forall a b, In a (capped ds) -> In b (capped ds) -> a <> b -> cap a = cap b -> ~ compiles P) /\
  (forall a, In a (capped ds) -> In (cap a) (verbatim ds) -> ~ compiles P) /\
  (forall d a b, In d ds -> In a (members d) -> In b (members d) -> a <> b -> cap a = cap b -> ~ compiles P).
Proof. exact text_collision. Qed.
Print Assumptions C52_collision.

(** A specification with lower-case names everywhere: generated, all references resolved. *)
Definition c52_src : string :=
  "const n = 3; enum e { a = 0, b = 1 }; struct s { int x<n>; s *next; }; union u switch (e d) { case a: s ok; case b: string why<n>; default: void; }; program p { version v { u get(s) = 1; void nul(void) = 0; } = 3; } = 200;".
Example C52_uses_ex : exists ds P, generated (make_flags "q") c52_src ds P /\ clean_prog P ds = true /\ forallb named_calls ds = true /\ check_prog P 6 = true /\
  map fst (g_types (gp_pkg P)) = ["E"; "S"; "U"] /\ map c_name (g_consts (gp_pkg P)) = ["n"; "A"; "B"; "P"; "V"; "Get"; "Nul"] /\
  In (RLabel "a") (flat_map sp_defn ds) /\ In (RValue "n") (flat_map sp_defn ds) /\ In (RType "s") (flat_map sp_defn ds) /\ In (RProc "get") (flat_map sp_defn ds) /\
  In (UIdent "A") (prog_uses P) /\ In (UIdent "n") (prog_uses P) /\ In (UType "S") (prog_uses P) /\ In (UField "Why") (prog_uses P) /\ In (UProc "Get") (prog_uses P).
Proof.
  destruct (generated_ex (make_flags "q") c52_src) as (ds & P & H & Fr & Pr); [reflexivity|vm_compute; reflexivity|]. exists ds, P. split; [exact H|]. clear H. vm_compute in Fr. apply GoText.some_eq in Fr. subst ds. vm_compute in Pr. apply GoText.some_eq in Pr. subst P.
  split; [vm_compute; reflexivity|]. split; [vm_compute; reflexivity|]. split; [vm_compute; reflexivity|]. split; [reflexivity|]. split; [reflexivity|].
  repeat split; vm_compute; tauto.
Qed.
(** A lower-case constant as a case label; a lower-case enumerator as a bound and as a size. *)
Example C52_label_ex : exists ds P, generated (make_flags "q") "const n = 3; union u switch (unsigned int x) { case n: int y; };" ds P /\
  In (RLabel "n") (flat_map sp_defn ds) /\ ~ In "N" (flat_map const_names ds) /\ In "n" (flat_map const_names ds) /\ clean_prog P ds = true /\ forallb named_calls ds = true.
Proof.
  destruct (generated_ex (make_flags "q") "const n = 3; union u switch (unsigned int x) { case n: int y; };") as (ds & P & H & Fr & Pr); [reflexivity|vm_compute; reflexivity|]. exists ds, P. split; [exact H|]. clear H. vm_compute in Fr. apply GoText.some_eq in Fr. subst ds. vm_compute in Pr. apply GoText.some_eq in Pr. subst P.
  split; [vm_compute; tauto|]. split; [vm_compute; intros [Q|[]]; discriminate Q|]. split; [vm_compute; tauto|]. split; vm_compute; reflexivity.
Qed.
Example C52_bound_ex : exists ds P, generated (make_flags "q") "enum e { a = 3 }; typedef opaque u<a>; typedef opaque f[a];" ds P /\
  In (RValue "a") (flat_map sp_defn ds) /\ ~ In "a" (verbatim ds) /\ In "a" (capped ds) /\ clean_prog P ds = true /\ forallb named_calls ds = true.
Proof.
  destruct (generated_ex (make_flags "q") "enum e { a = 3 }; typedef opaque u<a>; typedef opaque f[a];") as (ds & P & H & Fr & Pr); [reflexivity|vm_compute; reflexivity|]. exists ds, P. split; [exact H|]. clear H. vm_compute in Fr. apply GoText.some_eq in Fr. subst ds. vm_compute in Pr. apply GoText.some_eq in Pr. subst P.
  split; [vm_compute; tauto|]. split; [vm_compute; intros []|]. split; [vm_compute; tauto|]. split; vm_compute; reflexivity.
Qed.
(** Two types, a type and an enumerator, an enumerator and a constant, two members. *)
Example C52_collision_ex : Forall (fun src => exists ds P, generated (make_flags "q") src ds P /\
    ((exists a b, In a (capped ds) /\ In b (capped ds) /\ a <> b /\ cap a = cap b) \/ (exists a, In a (capped ds) /\ In (cap a) (verbatim ds)) \/ (exists d a b, In d ds /\ In a (members d) /\ In b (members d) /\ a <> b /\ cap a = cap b)))
  ["struct foo { int a; }; struct Foo { int b; };"; "struct foo { int a; }; enum e { Foo = 1 };"; "enum e { foo = 1 }; const Foo = 2; struct s { int x<Foo>; };"; "struct s { int x; bool X; };"].
Proof.
  assert (G : forall src (Q : list defn -> Prop), match front src, generate (make_flags "q") src with Some ds, Some _ => forallb wd_defn ds | _, _ => false end = true -> (forall ds, front src = Some ds -> Q ds) -> exists ds P, generated (make_flags "q") src ds P /\ Q ds).
  { intros src Q H K. destruct (generated_ex (make_flags "q") src eq_refl H) as (ds & P & X & Fr & _). exists ds, P. auto. }
  repeat constructor; apply G; try (vm_compute; reflexivity); intros ds Fr; vm_compute in Fr; apply GoText.some_eq in Fr; subst ds.
  - left. exists "foo", "Foo". repeat split; [vm_compute; tauto|vm_compute; tauto|discriminate].
  - left. exists "foo", "Foo". repeat split; [vm_compute; tauto|vm_compute; tauto|discriminate].
  - right. left. exists "foo". split; vm_compute; tauto.
  - right. right. eexists. exists "x", "X". split; [left; reflexivity|]. repeat split; [vm_compute; tauto|vm_compute; tauto|discriminate].
Qed.
