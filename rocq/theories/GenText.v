(** The texts of a specification's files, read back; the committed files. *)
From Verif Require Import GoLex GLexP XLex Gram GParse Emit GSync GoAst GLexQ GoCst GoCstP GoText GoTop GoRes GoPkg GoWf GoMono RepoText.
From Verif Require Import Bytes XdrLib Types Interp Spec Runs GoSem GElab RpcTypes GSimD GenCommitted.
Open Scope string_scope.
Open Scope Z_scope.
Open Scope list_scope.

(** ** Reading files by computation *)
Definition file_of (n : nat) (p s : string) : option (list gdecl) :=
  do ts <- go_tokens s ; do l <- p_file n ts ; do ds <- omap r_top l ;
  match ds with
  | DPackage q :: DImport i :: body => if String.eqb q p && String.eqb i xdr_path && forallb plain body then Some body else None
  | DPackage q :: body => if String.eqb q p && forallb plain body && negb (existsb d_out body) then Some body else None
  | _ => None
  end.
Lemma file_of_ok n p s b : file_of n p s = Some b -> file_reads p s b.
Proof.
  unfold file_of. intros H. sinv H. sinv H. sinv H. destruct a1 as [|d a1]; [discriminate|]. destruct d; try discriminate H.
  assert (forall body imps, omap r_top a0 = Some (DPackage x :: map DImport imps ++ body) -> forallb plain body = true -> x = p -> (existsb d_out body = true -> In xdr_path imps) -> file_reads p s body) as Q.
  { intros body imps O P -> I. exists a0, imps. split; [eapply reads_of; eassumption|]. split; [exact O|]. split; [exact P|exact I]. }
  destruct a1 as [|d a1]; [|destruct d].
  all: try (destruct (String.eqb x p) eqn:Q1; [|discriminate H]; apply String.eqb_eq in Q1; cbn [andb] in H).
  all: try (match type of H with (if ?c && negb ?e then _ else _) = _ => destruct c eqn:C; [|discriminate H]; destruct e eqn:D; [discriminate H|]; cbn [andb negb] in H; injection H as <-;
       apply (Q _ [] E1 C Q1); congruence end).
  destruct (String.eqb s0 xdr_path) eqn:X; [|discriminate H]. cbn [andb] in H. destruct (forallb plain a1) eqn:C; [|discriminate H]. injection H as <-. apply String.eqb_eq in X. subst s0. apply (Q _ [xdr_path] E1 C Q1). intros _. left. reflexivity.
Qed.
Fixpoint bodies_of (n : nat) (p : string) (l : list string) : option (list (list gdecl)) :=
  match l with [] => Some [] | s :: l => do b <- file_of n p s ; do bs <- bodies_of n p l ; Some (b :: bs) end.
Definition declares_of (n : nat) (p : string) (l : list string) : option gprog := do bs <- bodies_of n p l ; Some (gather (List.concat bs)).
Lemma declares_of_ok n p l P : declares_of n p l = Some P -> declares p l P.
Proof.
  unfold declares_of. intros H. sinv H. injection H as <-. exists a. split; [|reflexivity]. revert a E. induction l as [|s l IH]; intros bs E; cbn in E; [injection E as <-; constructor|].
  sinv E. sinv E. injection E as <-. constructor; [eapply file_of_ok; eassumption|apply IH; assumption].
Qed.

(** ** The committed files *)
Definition spec_prog (fl : flags) (src : string) : option (env * gprog) := do ds <- front src ; supported_prog fl ds.
Lemma spec_prog_inv fl src E P : spec_prog fl src = Some (E, P) -> exists ds, front src = Some ds /\ supported_prog fl ds = Some (E, P) /\ supported fl ds = Some (E, gp_pkg P).
Proof. unfold spec_prog. intros H. sinv H. exists a. split; [assumption|]. split; [exact H|]. apply supported_prog_inv in H. destruct H as (G & S & _ & _ & _ & <-). exact S. Qed.
Definition spec_env (fl : flags) (src : string) : option env := option_map fst (spec_prog fl src).
Lemma committed n fl src p files E : match declares_of n p files, spec_prog fl src with Some P, Some (E', P') => P = P' /\ E' = E | _, _ => False end ->
  exists P, spec_prog fl src = Some (E, P) /\ declares p files P.
Proof.
  destruct (declares_of n p files) as [P|] eqn:D; [|intros []]. destruct (spec_prog fl src) as [[E' P']|]; [|intros []]. intros [<- ->]. exists P. split; [reflexivity|]. exact (declares_of_ok _ _ _ _ D).
Qed.
Lemma rfc1057_committed : exists P, spec_prog (make_flags "rfc1057") rfc1057_prot_x = Some (rpc_env, P) /\ declares "rfc1057" [rfc1057_xdr_go; rfc1057_types_go] P.
Proof. apply (committed 2000). vm_compute. split; reflexivity. Qed.
Lemma rfc1813_committed : exists P, spec_prog (make_flags "rfc1813") rfc1813_prot_x = Some (rfc1813_env, P) /\ declares "rfc1813" [rfc1813_xdr_go; rfc1813_types_go] P.
Proof. apply (committed 20000). vm_compute. split; reflexivity. Qed.

(** ** The text means what the specification says *)
Lemma text_declares fl src E P : ok_flags fl = true -> spec_prog fl src = Some (E, P) -> exists o, generate fl src = Some o /\ declares (fl_pkg fl) (files_of o) P.
Proof. intros F S. apply spec_prog_inv in S. destruct S as (ds & Fr & S & _). eapply gen_declares; eassumption. Qed.
Lemma text_same fl src E P o P' p : ok_flags fl = true -> spec_prog fl src = Some (E, P) -> generate fl src = Some o -> declares p (files_of o) P' -> P' = P.
Proof.
  intros F S G D. destruct (text_declares fl src E P F S) as (o' & G' & D'). assert (o = o') as <- by congruence. eapply declares_det; eassumption.
Qed.
Lemma text_effect fl src E P o P' p : ok_flags fl = true -> spec_prog fl src = Some (E, P) -> generate fl src = Some o -> declares p (files_of o) P' ->
  forall x c s v s' v', lookup x E = Some c -> runs E (CIdent x) s v s' v' -> exists M, forall m, (M <= m)%nat -> call (gp_pkg P') m x s v = GRet (s', v').
Proof.
  intros F S G D. rewrite (text_same _ _ _ _ _ _ _ F S G D). apply spec_prog_inv in S. destruct S as (ds & _ & _ & S). exact (gen_sim fl ds E _ S).
Qed.
Lemma committed_effect fl src p files E D : (exists P, spec_prog fl src = Some (E, P) /\ declares p files P) -> (forall x, In x (map fst E) -> good D E (CIdent x)) ->
  forall P, declares p files P -> forall x s v, In x (map fst E) -> has_ty E (CIdent x) v ->
  exists s' v', runs E (CIdent x) s v s' v' /\ exists M, forall m, (M <= m)%nat -> call (gp_pkg P) m x s v = GRet (s', v').
Proof.
  intros (P' & S & D') Gd P DP x s v I T. rewrite (declares_det _ _ _ _ _ DP D'). apply spec_prog_inv in S. destruct S as (ds & _ & _ & S). exact (gen_total fl ds E _ D S x s v (Gd x I) T).
Qed.
Definition rfc1057_effect := committed_effect _ _ _ _ _ _ rfc1057_committed rfc1057_good.
Definition rfc1813_effect := committed_effect _ _ _ _ _ _ rfc1813_committed rfc1813_good.
