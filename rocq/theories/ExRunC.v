(** example/client/main.go is [ex_client]. *)
From Verif Require Import Bytes XdrLib Types Interp Spec Runs RpcTypes RpcSpec Io Client CallSpec Server ServSpec E2E GenCommitted Prog ExProg.
From Verif Require Import GoLex SrcAst SrcSem ExTree ExSem ExRun.
Open Scope string_scope.
Open Scope Z_scope.
Open Scope list_scope.

Lemma client_text m port loop : reads port loop (program1 K1057 K1813 (f_decls excli_prog) m) ex_client.
Proof.
  unfold ex_client. st; [|st]. st. st; [st; st|]. st; [|st; st]. st. st. st; [st|].
  hd. destruct (int_of (fld "Fhs_status" v0) =? 0); [|st].
  hd. match goal with |- reads _ _ (_ ?l ?en ?ds) (print_all ?l' _) => change l with l'; generalize l' as l0; set (E := en) end.
  intros l0. induction l0 as [|u l0 IH].
  - subst E. cbn [print_all]. st. st; [|st]. st. st; [st; st|]. st; [|st; st]. st. st. st; [st|].
    hd. destruct (int_of (fld "Status" v2) =? 0); [|st]. st; [st|]. 
    hd. destruct (int_of (fld "Status" v3) =? 0); [|st]. st. st; [st|]. st. st.
  - cbn [print_all]. st. exact IH.
Qed.

