(** Deciding whether the committed Go files agree with the specifications. *)
From Verif Require Import GoLex XLex Gram GParse Emit RepoText.
Open Scope string_scope.
Open Scope list_scope.

Definition gtok_eqb (a b : gtok) : bool :=
  match a, b with
  | GIdent s, GIdent t | GKw s, GKw t | GInt s, GInt t | GFloat s, GFloat t | GImag s, GImag t | GStr s, GStr t | GChar s, GChar t | GOp s, GOp t => String.eqb s t
  | GSemi, GSemi => true
  | GIllegal c, GIllegal d => Ascii.eqb c d
  | _, _ => false
  end.
Lemma gtok_eqb_eq a b : gtok_eqb a b = true -> a = b.
Proof. destruct a, b; cbn; intros H; try discriminate; try reflexivity; first [apply String.eqb_eq in H|apply Ascii.eqb_eq in H]; congruence. Qed.
Fixpoint toks_eqb (a b : list gtok) : bool :=
  match a, b with [], [] => true | x :: a, y :: b => gtok_eqb x y && toks_eqb a b | _, _ => false end.
Lemma toks_eqb_eq a : forall b, toks_eqb a b = true -> a = b.
Proof.
  induction a as [|x a IH]; intros [|y b] H; cbn in H; try discriminate; [reflexivity|]. apply andb_true_iff in H. destruct H as [H1 H2].
  apply gtok_eqb_eq in H1. apply IH in H2. congruence.
Qed.
Definition same_gob (a b : string) : bool :=
  match go_tokens a, go_tokens b with Some x, Some y => toks_eqb (norm x) (norm y) | _, _ => false end.
Lemma same_gob_sound a b : same_gob a b = true -> same_go a b.
Proof. unfold same_gob, same_go. destruct (go_tokens a), (go_tokens b); try discriminate. cbn. intros H. apply toks_eqb_eq in H. congruence. Qed.

Definition syncb (fl : flags) (spec xdr types : string) : bool :=
  match generate fl spec with Some (o, Some t) => same_gob o xdr && same_gob t types | _ => false end.
Lemma syncb_sound fl spec xdr types : syncb fl spec xdr types = true ->
  exists o t, generate fl spec = Some (o, Some t) /\ same_go o xdr /\ same_go t types.
Proof.
  unfold syncb. destruct (generate fl spec) as [[o [t|]]|]; try discriminate. intros H. apply andb_true_iff in H. destruct H as [A B].
  exists o, t. split; [reflexivity|]. split; apply same_gob_sound; assumption.
Qed.
Lemma sync_1057 : syncb (make_flags "rfc1057") rfc1057_prot_x rfc1057_xdr_go rfc1057_types_go = true.
Proof. vm_compute. reflexivity. Qed.
Lemma sync_1813 : syncb (make_flags "rfc1813") rfc1813_prot_x rfc1813_xdr_go rfc1813_types_go = true.
Proof. vm_compute. reflexivity. Qed.
Lemma rfc1057_in_sync : exists o t, generate (make_flags "rfc1057") rfc1057_prot_x = Some (o, Some t) /\ same_go o rfc1057_xdr_go /\ same_go t rfc1057_types_go.
Proof. exact (syncb_sound _ _ _ _ sync_1057). Qed.
Lemma rfc1813_in_sync : exists o t, generate (make_flags "rfc1813") rfc1813_prot_x = Some (o, Some t) /\ same_go o rfc1813_xdr_go /\ same_go t rfc1813_types_go.
Proof. exact (syncb_sound _ _ _ _ sync_1813). Qed.
