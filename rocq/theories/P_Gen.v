(** The generator: scanner, grammar and emission (C47, C51, C53, C54). *)
From Verif Require Import GoLex XLex Gram GParse GParseP GLexP Emit GEmitP GSync RepoText.
Open Scope string_scope.
Open Scope list_scope.

(** The committed Go files are what the committed specifications generate with the flags of
    the Makefile, up to the white space chosen by gofmt. *)
Theorem C47_rfc1057_in_sync : exists out types, generate (make_flags "rfc1057") rfc1057_prot_x = Some (out, Some types) /\
  same_go out rfc1057_xdr_go /\ same_go types rfc1057_types_go.
Proof. exact rfc1057_in_sync. Qed.
Print Assumptions C47_rfc1057_in_sync.
Theorem C47_rfc1813_in_sync : exists out types, generate (make_flags "rfc1813") rfc1813_prot_x = Some (out, Some types) /\
  same_go out rfc1813_xdr_go /\ same_go types rfc1813_types_go.
Proof. exact rfc1813_in_sync. Qed.
Print Assumptions C47_rfc1813_in_sync.
(** The comparison is not empty: the files have tokens, and they are not the same for both. *)
Example C47_ex : option_map (@List.length gtok) (go_tokens rfc1057_xdr_go) = Some 2381 /\ option_map (fun l => N.of_nat (List.length l)) (go_tokens rfc1813_xdr_go) = Some 13238%N /\
  option_map (hd GSemi) (option_map (skipn 3) (go_tokens rfc1057_xdr_go)) <> option_map (hd GSemi) (option_map (skipn 3) (go_tokens rfc1057_types_go)).
Proof. split; [vm_compute; reflexivity|]. split; [vm_compute; reflexivity|]. vm_compute. discriminate. Qed.

(** Emission panics exactly on unsupported declarations. *)
Theorem C51_emission_panics : forall fl d, emit fl d = None <-> unsupported d.
Proof. exact emit_none. Qed.
Print Assumptions C51_emission_panics.
Theorem C51_generator_fails : forall fl src ds, front src = Some ds -> (generate fl src = None <-> exists d, In d ds /\ unsupported d).
Proof. exact generate_none. Qed.
Print Assumptions C51_generator_fails.
Example C51_ex : front "struct s { int a; struct { double d; } b<5>; };" <> None /\ generate (make_flags "p") "struct s { int a; struct { double d; } b<5>; };" = None /\
  generate (make_flags "p") "struct s { int a; struct { bool d; } b<5>; };" <> None /\
  generate (make_flags "p") "program P { version V { double F(float) = 1; } = 1; } = 1;" <> None /\
  generate (make_flags "p") "program P { version V { quadruple F(float) = 1; } = 1; } = 1;" = None.
Proof. vm_compute. repeat split; discriminate. Qed.

(** The parser accepts exactly the token sequences of the grammar, and reads each in one way. *)
Theorem C53_accepts : forall ts l, parse ts = Some l <-> D_spec l ts.
Proof. exact parse_iff. Qed.
Print Assumptions C53_accepts.
Theorem C53_unique : forall l l' ts, D_spec l ts -> D_spec l' ts -> l = l'.
Proof. exact spec_unique. Qed.
Print Assumptions C53_unique.
Theorem C53_rejects : forall fl src ts, x_tokens src = Some ts -> (forall l, ~ D_spec l ts) -> generate fl src = None.
Proof. exact reject_none. Qed.
Print Assumptions C53_rejects.
Example C53_ex : exists ts l, x_tokens "typedef opaque fh<NFS3_FHSIZE>; union u switch (bool b) { case TRUE: case FALSE: int x; default: void; };" = Some ts /\
  D_spec l ts /\ List.length l = 2 /\ forall l', ~ D_spec l' (YSemi :: ts).
Proof.
  destruct (x_tokens _) as [ts|] eqn:E; [|discriminate]. exists ts. destruct (parse ts) as [l|] eqn:P; [|vm_compute in E; injection E as <-; discriminate].
  exists l. split; [reflexivity|]. split; [apply parse_iff, P|]. vm_compute in E. injection E as <-. split; [vm_compute in P; injection P as <-; reflexivity|].
  intros l' H. apply parse_iff in H. discriminate.
Qed.

(** Blanks are never significant; a newline counts as a blank, plus a semicolon exactly when
    the token before it ends a line. *)
Theorem C54_blanks : forall s t, wsim s t -> x_tokens s = x_tokens t.
Proof. exact x_tokens_wsim. Qed.
Print Assumptions C54_blanks.
Theorem C54_newline : forall s, plain s = true ->
  exists a, go_tokens s = Some (a ++ auto (pending a)) /\ forall t,
    go_tokens (s +++ String nl t) = option_map (app (a ++ auto (pending a))) (go_tokens t) /\
    forall d, is_blank d = true -> pending a = false -> go_tokens (s +++ String d t) = go_tokens (s +++ String nl t).
Proof. exact newline_tokens. Qed.
Print Assumptions C54_newline.
(** No accepted specification has a semicolon inside an enum. *)
Theorem C54_enum_no_semicolon : forall l ts a b c, D_spec l ts -> ts = a ++ KWENUM :: b ++ YRBrace :: c -> ~ In YRBrace b -> ~ In YSemi b.
Proof. exact enum_no_semi. Qed.
Print Assumptions C54_enum_no_semicolon.
(** So whatever follows, a newline after an enum item (or anything else that ends a line)
    inside an enum is rejected. *)
Theorem C54_enum_newline : forall s t a p b, plain s = true -> go_tokens s = Some (a ++ [GSemi]) -> pending a = true ->
  all_some Lex a = Some (p ++ KWENUM :: b) -> ~ In YRBrace b -> front (s +++ String nl t) = None.
Proof. exact enum_newline. Qed.
Print Assumptions C54_enum_newline.
Example C54_ex :
  front "enum e { A = 1 };" <> None /\ front ("enum e { A = 1" +++ String nl "};") = None /\ front ("enum" +++ String nl "e { A = 1 };") = None /\
  front ("enum e {" +++ String nl "A = 1," +++ String nl " B = 2 };") <> None /\
  front ("typedef int" +++ String nl " x;") = None /\ x_tokens "int  x;" = x_tokens ("int" +++ String tab "x;") /\
  wsim "enum e { A = 1 };" ("enum e { A" +++ String tab "   = 1 };").
Proof.
  repeat (split; [first [vm_compute; reflexivity|vm_compute; discriminate]|]).
  apply (wsim_app "enum e { A"). apply (ws_run " " (String tab "   ")); try reflexivity; try discriminate. apply wsim_refl.
Qed.
Example C54_enum_ex : exists a b, plain "enum e { A = 1" = true /\ go_tokens "enum e { A = 1" = Some (a ++ [GSemi]) /\ pending a = true /\
  all_some Lex a = Some ([] ++ KWENUM :: b) /\ ~ In YRBrace b.
Proof.
  exists [GIdent "enum"; GIdent "e"; GOp "{"; GIdent "A"; GOp "="; GInt "1"], [IDENT "e"; YLBrace; IDENT "A"; YEq; CONST "1"].
  repeat (split; [reflexivity|]). intros H. repeat (destruct H as [H|H]; [discriminate|]). exact H.
Qed.
