(** Inversion lemmas for typing and encodings. *)
From Verif Require Import Bytes XdrLib Types Interp Spec.
Open Scope string_scope.
Open Scope Z_scope.
Open Scope list_scope.

Section Inv.
Variable E : env.

Lemma ty_ident x t v : has_ty E (CIdent x) v -> lookup x E = Some t -> has_ty E t v.
Proof. intros H Hx. inversion H; subst. congruence. Qed.
Lemma ty_struct fs v : has_ty E (CStruct fs) v -> exists l, v = VStruct l /\ has_fields E fs l.
Proof. intros H. inversion H; subst. eauto. Qed.
Lemma ty_union sw st arms def v : has_ty E (CUnion sw st arms def) v ->
  exists l, v = VStruct l /\ has_fields E (union_fields sw st arms def) l.
Proof. intros H. inversion H; subst. eauto. Qed.
Lemma tyf_cons f t fs l : has_fields E ((f, t) :: fs) l ->
  exists v l', l = (f, v) :: l' /\ has_ty E t v /\ has_fields E fs l'.
Proof. intros H. inversion H; subst. eauto. Qed.
Lemma tyf_nil l : has_fields E [] l -> l = [].
Proof. intros H. inversion H; subst. reflexivity. Qed.
Lemma ty_u32_inv v : has_ty E CU32 v -> exists z, v = VInt z /\ 0 <= z < 2 ^ 32.
Proof. intros H. inversion H; subst. eauto. Qed.
Lemma ty_varopaque m v : has_ty E (CVarOpaque m) v -> exists o, v = VBytes o.
Proof. intros H. inversion H; subst. eauto. Qed.
Lemma ty_opaque n v : has_ty E (COpaque n) v -> exists bs, v = VArr bs /\ List.length bs = n.
Proof. intros H. inversion H; subst. eauto. Qed.

Variable p : policy.
Lemma w_ident x t v w : Wire p E (CIdent x) v w -> lookup x E = Some t -> Wire p E t v w.
Proof. intros H Hx. inversion H; subst. congruence. Qed.
Lemma w_struct fs l w : Wire p E (CStruct fs) (VStruct l) w -> WireFields p E fs l w.
Proof. intros H. inversion H; subst. assumption. Qed.
Lemma wf_cons f t fs l w v : WireFields p E ((f, t) :: fs) l w -> lookup f l = Some v ->
  exists b1 b2, w = b1 ++ b2 /\ Wire p E t v b1 /\ WireFields p E fs l b2.
Proof. intros H Hv. inversion H; subst. exists b1, b2. split; [reflexivity|]. split; [congruence|assumption]. Qed.
Lemma wf_nil l w : WireFields p E [] l w -> w = [].
Proof. intros H. inversion H; subst. reflexivity. Qed.
Lemma w_u32 v w : Wire p E CU32 v w -> exists z, v = VInt z /\ 0 <= z < 2 ^ 32 /\ is_be 4 z w.
Proof. intros H. inversion H; subst. eauto. Qed.
Lemma w_varopaque m o w : Wire p E (CVarOpaque m) (VBytes o) w ->
  exists hd pad, w = hd ++ bytes_of o ++ pad /\ within m (zlen (bytes_of o)) /\
    is_be 4 (zlen (bytes_of o)) hd /\ is_pad p (List.length (bytes_of o)) pad.
Proof. intros H. inversion H; subst. exists hd, pad. auto. Qed.
Lemma w_opaque n bs w : Wire p E (COpaque n) (VArr bs) w ->
  exists pad, w = bs ++ pad /\ List.length bs = n /\ is_pad p n pad.
Proof. intros H. inversion H; subst. exists pad. auto. Qed.
Lemma w_union sw st arms def l w dv d : Wire p E (CUnion sw st arms def) (VStruct l) w ->
  lookup sw l = Some dv -> disc_of dv = Some d ->
  exists b1 b2, w = b1 ++ b2 /\ Wire p E st dv b1 /\
    ((exists f t v, pick_arm d arms def = Some (Some (f, t)) /\ lookup f l = Some v /\ Wire p E t v b2)
     \/ (b2 = [] /\ (pick_arm d arms def = Some None \/ (pick_arm d arms def = None /\ union_listed p = false)))).
Proof.
  intros H Hl Hd.
  inversion H as [| | | | | | | | | | | | |sw' st' arms' def' l' dv' d' bs1 f t v bs2 K1 K2 K3 K4 K5 K6
    |sw' st' arms' def' l' dv' d' bs K1 K2 K3 K4|sw' st' arms' def' l' dv' d' bs K1 K2 K3 K4 K5|]; subst;
    rewrite Hl in K1; injection K1 as <-; rewrite Hd in K3; injection K3 as <-.
  - exists bs1, bs2. split; [reflexivity|]. split; [assumption|]. left. exists f, t, v. auto.
  - exists w, []. rewrite app_nil_r. split; [reflexivity|]. split; [assumption|]. right. auto.
  - exists w, []. rewrite app_nil_r. split; [reflexivity|]. split; [assumption|]. right. auto.
Qed.
End Inv.
