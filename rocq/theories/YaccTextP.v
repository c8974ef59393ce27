(** The tree of YaccProg.v is the file /repo/xdr.y. *)
From Verif Require Import GoLex RepoText SrcAst MainText MainAst YaccAst YaccProg.
Lemma xdr_y_source : is_grammar xdr_y xdr_y_prog.
Proof. split; vm_compute; reflexivity. Qed.
Lemma xdr_y_typed : typed xdr_y_prog = true.
Proof. vm_compute. reflexivity. Qed.
