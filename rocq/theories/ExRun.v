(** When the tree that the text of a program gives (ExSem.v) is a program of Prog.v. *)
From Verif Require Import GoAst GoSem GoPkg RepoText GenText GenFuzz.
From Verif Require Import Bytes XdrLib Types Interp Spec Runs RpcTypes RpcSpec Io Client CallSpec Server ServSpec E2E GenCommitted Prog ExProg.
From Verif Require Import GoLex SrcAst SrcSem ExTree ExSem.
Open Scope string_scope.
Open Scope Z_scope.
Open Scope list_scope.

(** The port an address names; everything runs on one host. *)
Definition addr_port (a : ev) : option Z :=
  match a with
  | VFmt f [VS h; n] => if list_eq_dec Byte.byte_eq_dec f (str_bytes "%s:%d") then if list_eq_dec Byte.byte_eq_dec h (str_bytes "localhost") then num n else None else None
  | VFmt f [n] => if list_eq_dec Byte.byte_eq_dec f (str_bytes "localhost:%d") then num n else None
  | _ => None
  end.
Definition tcp : list byte := str_bytes "tcp".

(** The tree of a text is a program of Prog.v.  The program of a server ends where its loop begins ([loop]: what is left of the text there). *)
Inductive reads (port : Z) (loop : xp -> Prop) : xp -> cprog -> Prop :=
| r_end : reads port loop XEnd PStop
| r_panic : reads port loop XPanic PPanic
| r_print f v w k k' : v = VV (match v with VV t _ => t | _ => "" end) w -> reads port loop k k' -> reads port loop (XPrint f [v] k) (PPrint w k')
| r_dial n a p k k' : n = tcp -> addr_port a = Some p -> (forall o, reads port loop (k o) (k' o)) -> reads port loop (XDial n a k) (PDial p k')
| r_make i a b k k' : (forall c, reads port loop (k c) (k' c)) -> reads port loop (XMake i a b k) (PMake i a b k')
| r_call c q q' k k' : q = q' -> (forall v e, reads port loop (k v e) (k' v e)) -> reads port loop (XCall c q k) (PCall c q' k')
| r_close i k k' : reads port loop k k' -> reads port loop (XClose i k) (PClose i k')
| r_listen n a k k' : n = tcp -> a = str_bytes ":0" -> reads port loop (k None) PPanic -> reads port loop (k (Some port)) k' -> reads port loop (XListen n a k) k'
| r_loop x : loop x -> reads port loop x PStop.

(** The loop of the server: every connection accepted is served by a goroutine; an error ends it with the deferred calls [c]. *)
Inductive serving (port : Z) (c : cprog) : nat -> xp -> Prop :=
| s_out : serving port c 0 XStuck
| s_next n k : reads port (fun _ => False) (k None) c -> (forall i, exists k', k (Some i) = XServe i k' /\ serving port c n k') -> serving port c (S n) (XAccept port k).

(** The constants of a package. *)
Definition consts_of (P : gprog) : list (string * Z) :=
  flat_map (fun c => match cval (gp_pkg P) (c_name c) with Some z => [(c_name c, z)] | None => [] end) (g_consts (gp_pkg P)).
Definition K1057 : list (string * Z) := Eval vm_compute in consts_of fx_rpc.
Definition K1813 : list (string * Z) := Eval vm_compute in consts_of fx_nfs.
Lemma K1057_ok P : declares "rfc1057" [rfc1057_xdr_go; rfc1057_types_go] P -> consts_of P = K1057.
Proof. intros D. rewrite (declares_det _ _ _ _ _ D fx_rpc_declared). vm_compute. reflexivity. Qed.
Lemma K1813_ok P : declares "rfc1813" [rfc1813_xdr_go; rfc1813_types_go] P -> consts_of P = K1813.
Proof. intros D. rewrite (declares_det _ _ _ _ _ D fx_nfs_declared). vm_compute. reflexivity. Qed.

(** server/main.go:58, 65: the deferred calls, when the loop ends by an error. *)
Definition ex_shutdown (port : Z) : cprog :=
  let mount := pmap_set_unset 100005 3 port false PPanic (fun _ => PPanic) in
  pmap_set_unset 100003 3 port false mount (fun _ => mount).

(** ** A text is only one program *)
Definition closed (port : Z) (loop : xp -> Prop) : Prop := forall x p, loop x -> reads port loop x p -> p = PStop.
Lemma reads_remote port loop x p : reads port loop x p -> closed port loop -> forall p', reads port loop x p' ->
  forall W n (ls : listeners W) ch1 ch2 y y' r, remote n ls ch1 ch2 p y y' r -> remote n ls ch1 ch2 p' y y' r.
Proof.
  intros R C. induction R as [| |f v w k k' Ev R IH|n a p k k' En Ea R IH|i a b k k' R IH|c q q' k k' Eq R IH|i k k' R IH|n a k k' En Ea R IH R1 IH1|x L];
    intros p' R' W m ls ch1 ch2 y y' e X.
  - inversion R'; subst; exact X.
  - inversion R' as [| | | | | | | |? L]; subst; [exact X|]. discriminate (C _ _ L (r_panic _ _)).
  - inversion R' as [| |? ? ? ? ? E' R1| | | | | |? L]; subst.
    + assert (w = w0) as <- by congruence. inversion X; subst. constructor. eauto.
    + discriminate (C _ _ L (r_print _ _ _ _ _ _ _ Ev R)).
  - inversion R' as [| | |? ? ? ? ? E1 E2 R1| | | | |? L]; subst.
    + assert (p = p0) as <- by congruence. inversion X; subst; [apply R_dial_no|apply R_dial]; eauto.
    + discriminate (C _ _ L (r_dial _ _ _ _ _ _ _ eq_refl Ea R)).
  - inversion R' as [| | | |? ? ? ? ? R1| | | |? L]; subst.
    + inversion X; subst. constructor. eauto.
    + discriminate (C _ _ L (r_make _ _ _ _ _ _ _ R)).
  - inversion R' as [| | | | |? ? ? ? ? E R1| | |? L]; subst.
    + inversion X; subst. econstructor; eauto.
    + discriminate (C _ _ L (r_call _ _ _ _ _ _ _ eq_refl R)).
  - inversion R' as [| | | | | |? ? ? R1| |? L]; subst.
    + inversion X; subst. constructor. eauto.
    + discriminate (C _ _ L (r_close _ _ _ _ _ R)).
  - inversion R' as [| | | | | | |? ? ? ? ? ? R2 R3|? L]; subst.
    + eauto.
    + assert (k' = PStop) as -> by (apply (C _ _ L); constructor; auto). exact X.
  - rewrite (C _ _ L R'). exact X.
Qed.
Lemma closed_none port : closed port (fun _ => False).
Proof. intros x p []. Qed.
Lemma closed_serving port c n : closed port (serving port c n).
Proof. intros x p S R. inversion S; subst; inversion R; reflexivity. Qed.

(** ** Steps *)
Ltac hd := match goal with |- reads ?p ?l ?x ?c => let x' := eval hnf in x in change (reads p l x' c) end.
Ltac st := hd; match goal with
  | |- reads _ _ (XDial _ _ _) _ => eapply r_dial; [reflexivity|reflexivity|intros [?|]]
  | |- reads _ _ (XMake _ _ _ _) _ => eapply r_make; intros ?
  | |- reads _ _ (XCall _ _ _) _ => eapply r_call; [reflexivity|intros ? [?|]]
  | |- reads _ _ (XClose _ _) _ => eapply r_close
  | |- reads _ _ XPanic _ => eapply r_panic
  | |- reads _ _ XEnd _ => eapply r_end
  | |- reads _ _ (XPrint _ _ _) _ => eapply r_print; [reflexivity|]
  end.
