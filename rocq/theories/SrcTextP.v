(** The syntax trees of SrcProg.v are the files: the scanner reads the text of each file as
    exactly the tokens of its tree, and the trees group as Go's precedences say. *)
From Verif Require Import GoLex RepoText SrcText SrcAst SrcProg.
Open Scope string_scope.
Open Scope list_scope.

Definition is_source (text : string) (f : gfile) : Prop :=
  go_tokens text = Some (ftoks f) /\ Forall (fun d => dgrouped d = true) (f_decls f).

Lemma lib_source : is_source lib_go lib_prog.
Proof. split; [vm_compute; reflexivity|repeat constructor]. Qed.
Lemma helper_source : is_source helper_go helper_prog.
Proof. split; [vm_compute; reflexivity|repeat constructor]. Qed.
Lemma xtypes_source : is_source xtypes_go xtypes_prog.
Proof. split; [vm_compute; reflexivity|repeat constructor]. Qed.
Lemma rtypes_source : is_source rfc1057_types_go rtypes_prog.
Proof. split; [vm_compute; reflexivity|repeat constructor]. Qed.
Lemma client_source : is_source client_go client_prog.
Proof. split; [vm_compute; reflexivity|repeat constructor]. Qed.
Lemma server_source : is_source server_go server_prog.
Proof. split; [vm_compute; reflexivity|repeat constructor]. Qed.
