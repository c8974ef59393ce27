(** The syntax trees of MainProg.v are the files /repo/{out,scan,main}.go. *)
From Verif Require Import GoLex RepoText SrcAst MainText MainAst MainProg.
Lemma out_source : is_main_source out_go out_prog.
Proof. split; vm_compute; reflexivity. Qed.
Lemma scan_source : is_main_source scan_go scan_prog.
Proof. split; vm_compute; reflexivity. Qed.
Lemma main_source : is_main_source main_go main_prog.
Proof. split; vm_compute; reflexivity. Qed.
