(** What the text of the generated files means (C48, C57).

    [generate fl src]: the texts the generator writes; [declares p files P]: by Go's lexical rules
    and grammar the texts [files] are files of package [p] that together declare [P] (GoCst.v,
    GoRes.v, GoPkg.v), [P] being determined by the texts.  [spec_prog fl src = Some (E, P)]:
    the specification [src] is supported, with the XDR types [E] (see P_GenSem.v) and
    the package [P].  [call G m x s v]: Go's semantics of the method Xdr of [*x] (GoSem.v). *)
From Verif Require Import GoLex XLex Gram GParse Emit RepoText Bytes XdrLib Types Interp Spec Runs GoAst GoSem GElab GoPkg GoWf Check RpcTypes GoRes GSimD GenCommitted GenText.
Open Scope string_scope.
Open Scope Z_scope.
Open Scope list_scope.

(** The generator accepts a supported specification, and its files are Go. *)
Theorem C48_text : forall fl src E P, ok_flags fl = true -> spec_prog fl src = Some (E, P) ->
  exists o, generate fl src = Some o /\ declares (fl_pkg fl) (files_of o) P.
Proof. exact text_declares. Qed.
Print Assumptions C48_text.
Theorem C48_text_unique : forall p p' files P P', declares p files P -> declares p' files P' -> P = P'.
Proof. exact declares_det. Qed.
Print Assumptions C48_text_unique.
(** Whatever is read from the texts behaves as the types do. *)
Theorem C48_text_effect : forall fl src E P o P' p, ok_flags fl = true -> spec_prog fl src = Some (E, P) -> generate fl src = Some o -> declares p (files_of o) P' ->
  forall x c s v s' v', lookup x E = Some c -> runs E (CIdent x) s v s' v' -> exists M, forall m, (M <= m)%nat -> call (gp_pkg P') m x s v = GRet (s', v').
Proof. exact text_effect. Qed.
Print Assumptions C48_text_effect.
(** The specification of C48_ex with a program. *)
Example C48_text_ex : ok_flags (make_flags "p") = true /\ exists P, spec_prog (make_flags "p") (sx_src +++ "program PR { version VE { void PING(void) = 0; res GET(res) = 1; } = 2; } = 200;") = Some (sx_E, P) /\
  g_meths (gp_pkg P) = g_meths sx_G /\ map (fun r => List.length (rd_ents r)) (gp_regs P) = [2%nat].
Proof. split; [reflexivity|]. eexists. split; [vm_compute; reflexivity|]. split; vm_compute; reflexivity. Qed.

(** The committed files of rfc1057 and rfc1813. *)
Theorem C57_rfc1057_files : exists P, spec_prog (make_flags "rfc1057") rfc1057_prot_x = Some (rpc_env, P) /\ declares "rfc1057" [rfc1057_xdr_go; rfc1057_types_go] P.
Proof. exact rfc1057_committed. Qed.
Print Assumptions C57_rfc1057_files.
Theorem C57_rfc1813_files : exists P, spec_prog (make_flags "rfc1813") rfc1813_prot_x = Some (rfc1813_env, P) /\ declares "rfc1813" [rfc1813_xdr_go; rfc1813_types_go] P.
Proof. exact rfc1813_committed. Qed.
Print Assumptions C57_rfc1813_files.
(** So their methods behave as the types do, on every state and value. *)
Theorem C57_rfc1057_effect : forall P, declares "rfc1057" [rfc1057_xdr_go; rfc1057_types_go] P -> forall x s v, In x (map fst rpc_env) -> has_ty rpc_env (CIdent x) v ->
  exists s' v', runs rpc_env (CIdent x) s v s' v' /\ exists M, forall m, (M <= m)%nat -> call (gp_pkg P) m x s v = GRet (s', v').
Proof. exact rfc1057_effect. Qed.
Print Assumptions C57_rfc1057_effect.
Theorem C57_rfc1813_effect : forall P, declares "rfc1813" [rfc1813_xdr_go; rfc1813_types_go] P -> forall x s v, In x (map fst rfc1813_env) -> has_ty rfc1813_env (CIdent x) v ->
  exists s' v', runs rfc1813_env (CIdent x) s v s' v' /\ exists M, forall m, (M <= m)%nat -> call (gp_pkg P) m x s v = GRet (s', v').
Proof. exact rfc1813_effect. Qed.
Print Assumptions C57_rfc1813_effect.
Example C57_effect_ex : In "Diropargs3" (map fst rfc1813_env) /\
  has_ty rfc1813_env (CIdent "Diropargs3") (VStruct [("Dir", VStruct [("Data", VBytes (Some [x2a]))]); ("Name", VStr [x61])]).
Proof. split; [vm_compute; tauto|]. apply (has_tyb_sound 20). vm_compute. reflexivity. Qed.
