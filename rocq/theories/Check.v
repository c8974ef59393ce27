(** Boolean checkers for well-formedness, typing and boundedness, used on concrete
    declarations and values. *)
From Verif Require Import Bytes XdrLib Types Interp Spec.
Open Scope string_scope.
Open Scope Z_scope.
Open Scope list_scope.

Fixpoint nodupb (l : list string) : bool :=
  match l with
  | [] => true
  | x :: l => negb (existsb (String.eqb x) l) && nodupb l
  end.

Lemma nodupb_sound l : nodupb l = true -> NoDup l.
Proof.
  induction l as [|x l IH]; cbn; intros H; [constructor|].
  apply andb_true_iff in H. destruct H as [H1 H2]. constructor; auto.
  intros Hin. apply negb_true_iff in H1.
  assert (existsb (String.eqb x) l = true).
  { apply existsb_exists. exists x. split; [exact Hin|apply String.eqb_refl]. }
  congruence.
Qed.

Definition is_some {A} (o : option A) : bool := match o with Some _ => true | None => false end.
Lemma is_some_sound {A} (o : option A) : is_some o = true -> o <> None.
Proof. destruct o; [discriminate|discriminate]. Qed.

Definition max_okb (m : option Z) : bool := match m with Some k => 0 <=? k | None => true end.
Lemma max_okb_sound m : max_okb m = true -> max_ok m.
Proof. destruct m; cbn; [apply Z.leb_le|auto]. Qed.

Fixpoint disc_tyb (n : nat) (E : env) (t : cty) : bool :=
  match n with
  | O => false
  | S n =>
      match t with
      | CU32 | CS32 | CU64 | CS64 | CBool => true
      | CIdent x => match lookup x E with Some t => disc_tyb n E t | None => false end
      | _ => false
      end
  end.
Lemma disc_tyb_sound n E t : disc_tyb n E t = true -> disc_ty E t.
Proof.
  revert t. induction n as [|n IH]; [discriminate|]. intros []; cbn; intros H; try discriminate;
    try constructor.
  destruct (lookup x E) eqn:Hx; [|discriminate]. econstructor; eauto.
Qed.

Fixpoint wf_tyb (n D : nat) (E : env) (t : cty) : bool :=
  match n with
  | O => false
  | S n =>
      match t with
      | CU32 | CS32 | CU64 | CS64 | CBool | COpaque _ => true
      | CVarOpaque m | CString m => max_okb m
      | CVarArray m t => max_okb m && wf_tyb n D E t && is_some (zero D E t)
      | CPtr t => wf_tyb n D E t && is_some (zero D E t)
      | CStruct fs =>
          nodupb (map fst fs) && forallb (fun ft => wf_tyb n D E (snd ft)) fs
      | CUnion sw st arms def =>
          let fs := union_fields sw st arms def in
          nodupb (map fst fs) && disc_tyb n E st && forallb (fun ft => wf_tyb n D E (snd ft)) fs
      | CIdent x => is_some (lookup x E)
      end
  end.

Lemma wf_tyb_sound n D E t : wf_tyb n D E t = true -> wf_ty D E t.
Proof.
  revert t. induction n as [|n IH]; [discriminate|]. intros []; cbn [wf_tyb]; intros H;
    rewrite ?andb_true_iff in H; try (constructor; auto using max_okb_sound; fail).
  - destruct H as [[H1 H2] H3]. constructor; auto using max_okb_sound, is_some_sound.
  - destruct H as [H1 H2]. constructor; auto using is_some_sound.
  - destruct H as [H1 H2]. constructor; auto using nodupb_sound.
    intros f t Hin. rewrite forallb_forall in H2. apply IH. apply (H2 _ Hin).
  - destruct H as [[H1 H2] H3]. constructor; eauto using nodupb_sound, disc_tyb_sound.
    intros f u Hin. rewrite forallb_forall in H3. apply IH. apply (H3 _ Hin).
  - destruct (lookup x E) as [u|] eqn:Hx; [|discriminate]. econstructor. exact Hx.
Qed.

Definition wf_envb (n D : nat) (E : env) : bool :=
  forallb (fun xt => wf_tyb n D E (snd xt) && is_some (zero D E (snd xt))) E.

Lemma lookup_in {A} x (l : list (string * A)) a : lookup x l = Some a -> exists y, In (y, a) l.
Proof.
  induction l as [|[y b] l IH]; cbn; [discriminate|].
  destruct (String.eqb x y); intros H; [injection H as ->; eauto|].
  destruct (IH H) as [z Hz]. eauto.
Qed.

Lemma wf_envb_sound n D E : wf_envb n D E = true -> wf_env D E.
Proof.
  intros H x t Hx. unfold wf_envb in H. rewrite forallb_forall in H.
  destruct (lookup_in _ _ _ Hx) as [y Hy]. specialize (H _ Hy). cbn [snd] in H.
  apply andb_true_iff in H. destruct H. eauto using wf_tyb_sound, is_some_sound.
Qed.

Definition goodb (n D : nat) (E : env) (t : cty) : bool :=
  wf_envb n D E && wf_tyb n D E t && is_some (zero D E t).
Lemma goodb_sound n D E t : goodb n D E t = true -> good D E t.
Proof.
  unfold goodb. rewrite !andb_true_iff. intros [[H1 H2] H3].
  repeat split; eauto using wf_tyb_sound, is_some_sound; eapply wf_envb_sound; eauto.
Qed.

(** ** Typing *)
Definition in_rangeb (lo hi z : Z) : bool := (lo <=? z) && (z <? hi).
Lemma in_rangeb_sound lo hi z : in_rangeb lo hi z = true -> lo <= z < hi.
Proof. unfold in_rangeb. rewrite andb_true_iff, Z.leb_le, Z.ltb_lt. auto. Qed.

Fixpoint has_fieldsb (T : cty -> val -> bool) (fs : list (string * cty)) (l : list (string * val)) : bool :=
  match fs, l with
  | [], [] => true
  | (f, t) :: fs, (g, v) :: l => String.eqb f g && T t v && has_fieldsb T fs l
  | _, _ => false
  end.

Fixpoint has_tyb (n : nat) (E : env) (t : cty) (v : val) : bool :=
  match n with
  | O => false
  | S n =>
      match t, v with
      | CU32, VInt z => in_rangeb 0 (2 ^ 32) z
      | CS32, VInt z => in_rangeb (- 2 ^ 31) (2 ^ 31) z
      | CU64, VInt z => in_rangeb 0 (2 ^ 64) z
      | CS64, VInt z => in_rangeb (- 2 ^ 63) (2 ^ 63) z
      | CBool, VBool _ => true
      | COpaque k, VArr bs => Nat.eqb (List.length bs) k
      | CVarOpaque _, VBytes _ => true
      | CString _, VStr _ => true
      | CVarArray _ t, VSlice o => forallb (has_tyb n E t) (elems o)
      | CPtr t, VPtr None => true
      | CPtr t, VPtr (Some v) => has_tyb n E t v
      | CStruct fs, VStruct l => has_fieldsb (has_tyb n E) fs l
      | CUnion sw st arms def, VStruct l => has_fieldsb (has_tyb n E) (union_fields sw st arms def) l
      | CIdent x, v => match lookup x E with Some t => has_tyb n E t v | None => false end
      | _, _ => false
      end
  end.

Lemma has_fieldsb_sound E T fs l :
  (forall t v, T t v = true -> has_ty E t v) -> has_fieldsb T fs l = true -> has_fields E fs l.
Proof.
  intros HT. revert l. induction fs as [|[f t] fs IH]; intros [|[g v] l]; cbn; try discriminate.
  - constructor.
  - rewrite !andb_true_iff. intros [[H1 H2] H3]. apply String.eqb_eq in H1. subst g.
    constructor; auto.
Qed.

Lemma has_tyb_sound n E t v : has_tyb n E t v = true -> has_ty E t v.
Proof.
  revert t v. induction n as [|n IH]; [discriminate|].
  intros [] []; cbn [has_tyb]; intros H; try discriminate;
    try (constructor; eauto using in_rangeb_sound, has_fieldsb_sound; fail);
    try (destruct (lookup x E) eqn:Hx; [|discriminate]; econstructor; eauto; fail).
  - constructor. apply Nat.eqb_eq. exact H.
  - constructor. induction (elems o) as [|y l IHl]; [constructor|].
    cbn in H. apply andb_true_iff in H. destruct H. constructor; auto.
  - destruct o; constructor. auto.
Qed.
