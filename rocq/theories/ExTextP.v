(** The syntax trees of ExTree.v are the example programs of /repo. *)
From Verif Require Import GoLex RepoText SrcAst SrcTextP ExText ExTree.

Lemma excli_source : is_source excli_go excli_prog.
Proof. split; [vm_compute; reflexivity|repeat constructor]. Qed.
Lemma exsrv_source : is_source exsrv_go exsrv_prog.
Proof. split; [vm_compute; reflexivity|repeat constructor]. Qed.
