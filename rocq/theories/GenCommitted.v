(** The committed specifications /repo/rfc1057/prot.x and /repo/rfc1813/prot.x, elaborated. *)
From Verif Require Import GoLex XLex Gram GParse Emit Bytes XdrLib Types Interp Spec Check GoAst GoSem GElab RepoText RpcTypes Runs Codec Codec2 Codec3 Codec4.
Open Scope string_scope.
Open Scope Z_scope.
Open Scope list_scope.

Definition env_of (fl : flags) (src : string) : env :=
  match front src with Some ds => match supported fl ds with Some (E, _) => E | None => [] end | None => [] end.
(** The 140 types of /repo/rfc1813/types.go. *)
Definition rfc1813_env : env := Eval vm_compute in env_of (make_flags "rfc1813") rfc1813_prot_x.
Definition rfc1813_D : nat := 16.

(** [names G]: the types declared in types.go. *)
Definition is_sup (fl : flags) (src : string) (E : env) : Prop :=
  exists ds G, front src = Some ds /\ supported fl ds = Some (E, G) /\ map fst (g_types G) = map fst E.
Definition sup_of (fl : flags) (src : string) : option (env * list string) :=
  match front src with Some ds => match supported fl ds with Some (E, G) => Some (E, map fst (g_types G)) | None => None end | None => None end.
Lemma sup_of_is fl src E : sup_of fl src = Some (E, map fst E) -> is_sup fl src E.
Proof.
  unfold sup_of, is_sup. destruct (front src) as [ds|]; [|discriminate].
  destruct (supported fl ds) as [[E' G]|] eqn:H; [|discriminate]. intros H1. injection H1 as H1 H2. subst. exists ds, G. auto.
Qed.

Lemma rfc1057_sup : is_sup (make_flags "rfc1057") rfc1057_prot_x rpc_env.
Proof. apply sup_of_is. vm_compute. reflexivity. Qed.
Lemma rfc1813_sup : is_sup (make_flags "rfc1813") rfc1813_prot_x rfc1813_env.
Proof. apply sup_of_is. vm_compute. reflexivity. Qed.

Lemma all_good n D E : forallb (fun x => goodb n D E (CIdent (fst x))) E = true -> forall x, In x (map fst E) -> good D E (CIdent x).
Proof.
  intros H x Hx. apply in_map_iff in Hx. destruct Hx as [y [<- Hy]]. rewrite forallb_forall in H.
  apply (goodb_sound n). exact (H _ Hy).
Qed.
Lemma rfc1057_good x : In x (map fst rpc_env) -> good rfc1813_D rpc_env (CIdent x).
Proof. apply (all_good rfc1813_D). vm_compute. reflexivity. Qed.
Lemma rfc1813_good x : In x (map fst rfc1813_env) -> good rfc1813_D rfc1813_env (CIdent x).
Proof. apply (all_good rfc1813_D). vm_compute. reflexivity. Qed.
