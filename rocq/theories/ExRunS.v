(** example/server/main.go is [ex_server]. *)
From Verif Require Import Bytes XdrLib Types Interp Spec Runs RpcTypes RpcSpec Io Client CallSpec Server ServSpec E2E GenCommitted Prog ExProg.
From Verif Require Import GoLex SrcAst SrcSem ExTree ExSem ExRun.
Open Scope string_scope.
Open Scope Z_scope.
Open Scope list_scope.

Ltac dfr := st; [|st]; st; st; [st; st|]; st; st.
Lemma server_text m port : reads port (serving port (ex_shutdown (to_u32 port)) m) (program1 K1057 K1813 (f_decls exsrv_prog) m) (ex_server (to_u32 port)).
Proof.
  unfold ex_server, pmap_set_unset. hd. eapply r_listen; [reflexivity|reflexivity|st|].
  st; [|st]. st. st; [st; st|]. st. st; [|st]. st. st; [st; st|]. st. hd.
  destruct (bool_of v0); [|st].
  st; [|dfr]. st. st; [st; dfr|]. st. st; [|dfr]. st. st; [st; dfr|]. st. hd.
  destruct (bool_of v2); [|dfr].
  hd. apply r_loop.
  match goal with |- serving ?p ?c _ (?F _ ?en ?ds) => assert (A : forall j, serving p c j (F j en ds)); [|exact (A m)] end.
  intros j. induction j as [|j IH]; [exact (s_out _ _)|].
  match goal with |- serving ?p ?c ?n ?x => let x' := eval hnf in x in change (serving p c n x') end.
  apply s_next.
  - unfold ex_shutdown, pmap_set_unset. st; [|dfr]. st. st; [st; dfr|]. st. dfr.
  - intros i. match goal with |- exists k', ?x = _ /\ _ => let x' := eval hnf in x in change (exists k', x' = XServe i k' /\ serving port (ex_shutdown (to_u32 port)) j k') end.
    eexists. split; [reflexivity|exact IH].
Qed.
