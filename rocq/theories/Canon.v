(** Facts about the specification relations (Wire, same, canon, bounded) and the form of
    freshly decoded values. *)
From Verif Require Import Bytes XdrLib Types Interp Spec Prim Meta Enc Dec Total.
Open Scope string_scope.
Open Scope Z_scope.
Open Scope list_scope.

(** ** Policies: stricter encodings are accepted by laxer policies *)
Definition laxer (p q : policy) : Prop :=
  (pad_zero q = true -> pad_zero p = true) /\ (bool_01 q = true -> bool_01 p = true)
  /\ (union_listed q = true -> union_listed p = true).

Lemma is_pad_lax p q n pad : laxer p q -> is_pad p n pad -> is_pad q n pad.
Proof. intros (H & _) (H1 & H2 & H3). repeat split; auto. Qed.

Lemma Wire_lax p q E : laxer p q ->
  (forall t v w, Wire p E t v w -> Wire q E t v w) /\
  (forall t l w, WireList p E t l w -> WireList q E t l w) /\
  (forall fs l w, WireFields p E fs l w -> WireFields q E fs l w).
Proof.
  intros Hl. pose proof Hl as (Hp & Hb & Hu).
  apply Wire_mutind; intros; try (econstructor; eauto using is_pad_lax; fail).
  eapply W_union_unlisted; eauto.
  destruct (union_listed q) eqn:Eq; [|reflexivity]. rewrite (Hu eq_refl) in *. discriminate.
Qed.

Lemma lax_any_DEC p : laxer p DEC.
Proof. repeat split; discriminate. Qed.
Lemma lax_RFC_ENC : laxer RFC ENC.
Proof. repeat split; auto. Qed.

Lemma Wire_DEC p E t v w : Wire p E t v w -> Wire DEC E t v w.
Proof. apply (Wire_lax p DEC E (lax_any_DEC p)). Qed.

(** ** Lengths *)
Lemma mod4_app (a b : list byte) : zlen a mod 4 = 0 -> zlen b mod 4 = 0 -> zlen (a ++ b) mod 4 = 0.
Proof. rewrite zlen_app. intros. Z.div_mod_to_equations. lia. Qed.

Lemma is_be_mod4 k z b : (k = 4 \/ k = 8)%nat -> is_be k z b -> zlen b mod 4 = 0.
Proof. intros Hk [Hl _]. unfold zlen. rewrite Hl. destruct Hk as [->| ->]; reflexivity. Qed.

Lemma pad_mod4 p (bs pad : list byte) :
  is_pad p (List.length bs) pad -> zlen (bs ++ pad) mod 4 = 0.
Proof. intros (_ & H & _). unfold zlen. rewrite app_length. exact H. Qed.

Lemma Wire_mod4 p E :
  (forall t v w, Wire p E t v w -> zlen w mod 4 = 0) /\
  (forall t l w, WireList p E t l w -> zlen w mod 4 = 0) /\
  (forall (fs : list (string * cty)) l w, WireFields p E fs l w -> zlen w mod 4 = 0).
Proof.
  apply Wire_mutind; intros; subst; eauto using is_be_mod4, mod4_app, pad_mod4.
Qed.

(** ** same is an equivalence on encodable values *)
Lemma same_sym E :
  (forall t v w, same E t v w -> same E t w v) /\
  (forall t l m, sames E t l m -> sames E t m l) /\
  (forall fs l m, same_fields E fs l m -> same_fields E fs m l).
Proof.
  apply same_mutind; intros; try (econstructor; eauto; fail).
  - eapply S_union_arm; eauto. rewrite <- (same_disc E st dv dw); assumption.
  - eapply S_union_void; eauto. rewrite <- (same_disc E st dv dw); assumption.
Qed.

Lemma sames_len E t k l : sames E t k l -> zlen k = zlen l.
Proof. induction 1; [reflexivity|]. rewrite !zlen_cons. congruence. Qed.

Lemma same_trans_all E :
  (forall t u v, same E t u v -> forall w, same E t v w -> same E t u w) /\
  (forall t k l, sames E t k l -> forall m, sames E t l m -> sames E t k m) /\
  (forall fs k l, same_fields E fs k l -> forall m, same_fields E fs l m -> same_fields E fs k m).
Proof.
  apply same_mutind.
  - intros z w H. exact H.
  - intros z w H. exact H.
  - intros z w H. exact H.
  - intros z w H. exact H.
  - intros z w H. exact H.
  - intros z b w H. exact H.
  - intros m o1 o2 H1 w H. inversion H; subst. constructor. congruence.
  - intros z b w H. exact H.
  - intros m t o1 o2 _ IH w H. inversion H; subst. constructor. auto.
  - intros t w H. exact H.
  - intros t u v _ IH w H. inversion H; subst. constructor. auto.
  - intros fs k l _ IH w H. inversion H; subst. constructor. auto.
  - intros sw st arms def l m dv dw d f t v w Hl Hm Hs IHs Hd Hp Hfl Hfm Hs2 IH2 x H.
    pose proof (same_disc _ _ _ _ Hs) as Hdd. rewrite Hd in Hdd.
    inversion H as [| | | | | | | | | | | |sw' st' arms' def' l' m' dv' dw' d' f' t' v' w' A1 A2 A3 A4 A5 A6 A7 A8
       |sw' st' arms' def' l' m' dv' dw' d' A1 A2 A3 A4 A5|]; subst.
    + rewrite Hm in A1. injection A1 as <-. rewrite <- Hdd in A4. injection A4 as <-.
      rewrite Hp in A5. injection A5 as <- <-. rewrite Hfm in A6. injection A6 as <-.
      eapply S_union_arm; eauto.
    + rewrite Hm in A1. injection A1 as <-. rewrite <- Hdd in A4. injection A4 as <-.
      rewrite Hp in A5. destruct A5; discriminate.
  - intros sw st arms def l m dv dw d Hl Hm Hs IHs Hd Hp x H.
    pose proof (same_disc _ _ _ _ Hs) as Hdd. rewrite Hd in Hdd.
    inversion H as [| | | | | | | | | | | |sw' st' arms' def' l' m' dv' dw' d' f' t' v' w' A1 A2 A3 A4 A5 A6 A7 A8
       |sw' st' arms' def' l' m' dv' dw' d' A1 A2 A3 A4 A5|]; subst.
    + rewrite Hm in A1. injection A1 as <-. rewrite <- Hdd in A4. injection A4 as <-.
      rewrite A5 in Hp. destruct Hp; discriminate.
    + rewrite Hm in A1. injection A1 as <-. rewrite <- Hdd in A4. injection A4 as <-.
      eapply S_union_void; eauto.
  - intros x t v w Hx _ IH u H.
    inversion H as [| | | | | | | | | | | | | |x' t' v' w' A1 A2]; subst.
    rewrite Hx in A1. injection A1 as <-. econstructor; eauto.
  - intros t m H. exact H.
  - intros t v w l m _ IH1 _ IH2 k H. inversion H; subst. constructor; auto.
  - intros l m k H. constructor.
  - intros f t fs l m v w Hl Hm _ IH1 _ IH2 k H.
    inversion H as [|f' t' fs' l' m' v' w' A1 A2 A3 A4]; subst.
    rewrite Hm in A1. injection A1 as <-. econstructor; eauto.
Qed.

Lemma same_trans E t u v w : same E t u v -> same E t v w -> same E t u w.
Proof. intros. eapply (proj1 (same_trans_all E)); eauto. Qed.

(** Encodings depend only on the data. *)
Lemma Wire_same_all p E :
  (forall t v w, Wire p E t v w -> forall v', same E t v v' -> Wire p E t v' w) /\
  (forall t l w, WireList p E t l w -> forall l', sames E t l l' -> WireList p E t l' w) /\
  (forall fs l w, WireFields p E fs l w -> forall l', same_fields E fs l l' -> WireFields p E fs l' w).
Proof.
  apply Wire_mutind.
  - intros z w H1 H2 v' H. inversion H; subst. constructor; auto.
  - intros z w H1 H2 v' H. inversion H; subst. constructor; auto.
  - intros z w H1 H2 v' H. inversion H; subst. constructor; auto.
  - intros z w H1 H2 v' H. inversion H; subst. constructor; auto.
  - intros w H1 v' H. inversion H; subst. constructor; auto.
  - intros w z H1 H2 H3 v' H. inversion H; subst. econstructor; eauto.
  - intros n bs pad H1 H2 v' H. inversion H; subst. constructor; auto.
  - intros m o hd bs pad -> H1 H2 H3 v' H. inversion H; subst.
    match goal with K : bytes_of o = bytes_of ?q |- _ => rewrite K in * end.
    econstructor; eauto.
  - intros m bs hd pad H1 H2 H3 v' H. inversion H; subst. constructor; auto.
  - intros m t o l hd body -> H1 H2 H3 IH v' H. inversion H; subst.
    match goal with K : sames E t (elems o) _ |- _ =>
      rewrite (sames_len _ _ _ _ K) in *; econstructor; eauto end.
  - intros t hd H1 v' H. inversion H; subst. constructor; auto.
  - intros t v hd z body H1 H2 H3 _ IH v' H. inversion H; subst. econstructor; eauto.
  - intros fs l w _ IH v' H. inversion H; subst. constructor; auto.
  - intros sw st arms def l dv d w1 f t v w2 Hl Hw1 IH1 Hd Hp Hf Hw2 IH2 v' H.
    inversion H as [| | | | | | | | | | | |sw' st' arms' def' l' m' dv' dw' d' f' t' v0' w' A1 A2 A3 A4 A5 A6 A7 A8
       |sw' st' arms' def' l' m' dv' dw' d' A1 A2 A3 A4 A5|]; subst;
    rewrite Hl in A1; injection A1 as <-; rewrite Hd in A4; injection A4 as <-;
    rewrite Hp in A5.
    + injection A5 as <- <-. rewrite Hf in A6. injection A6 as <-.
      eapply W_union_arm; eauto. rewrite <- (same_disc _ _ _ _ A3). exact Hd.
    + destruct A5; discriminate.
  - intros sw st arms def l dv d w1 Hl Hw1 IH1 Hd Hp v' H.
    inversion H as [| | | | | | | | | | | |sw' st' arms' def' l' m' dv' dw' d' f' t' v0' w' A1 A2 A3 A4 A5 A6 A7 A8
       |sw' st' arms' def' l' m' dv' dw' d' A1 A2 A3 A4 A5|]; subst;
    rewrite Hl in A1; injection A1 as <-; rewrite Hd in A4; injection A4 as <-;
    rewrite Hp in A5; try discriminate.
    eapply W_union_void; eauto. rewrite <- (same_disc _ _ _ _ A3). exact Hd.
  - intros sw st arms def l dv d w1 Hl Hw1 IH1 Hd Hp Hul v' H.
    inversion H as [| | | | | | | | | | | |sw' st' arms' def' l' m' dv' dw' d' f' t' v0' w' A1 A2 A3 A4 A5 A6 A7 A8
       |sw' st' arms' def' l' m' dv' dw' d' A1 A2 A3 A4 A5|]; subst;
    rewrite Hl in A1; injection A1 as <-; rewrite Hd in A4; injection A4 as <-;
    rewrite Hp in A5; try discriminate.
    eapply W_union_unlisted; eauto. rewrite <- (same_disc _ _ _ _ A3). exact Hd.
  - intros x t v w Hx _ IH v' H.
    inversion H as [| | | | | | | | | | | | | |x' t' v0' w' A1 A2]; subst.
    rewrite Hx in A1. injection A1 as <-. econstructor; eauto.
  - intros t l' H. inversion H; subst. constructor.
  - intros t v l w1 w2 _ IH1 _ IH2 l' H. inversion H; subst. constructor; auto.
  - intros l l' H. constructor.
  - intros f t fs l v w1 w2 Hl _ IH1 _ IH2 l' H.
    inversion H as [|f' t' fs' l0 m' v' w' A1 A2 A3 A4]; subst.
    rewrite Hl in A1. injection A1 as <-. econstructor; eauto.
Qed.

Lemma Wire_same p E t v v' w : Wire p E t v w -> same E t v v' -> Wire p E t v' w.
Proof. intros. eapply (proj1 (Wire_same_all p E)); eauto. Qed.

(** ** Encodable = bounded *)
Lemma Wire_bounded p E :
  (forall t v w, Wire p E t v w -> bounded p E t v) /\
  (forall t l w, WireList p E t l w -> boundeds p E t l) /\
  (forall fs l w, WireFields p E fs l w -> bounded_fields p E fs l).
Proof.
  apply Wire_mutind; intros; subst; try (econstructor; eauto; fail).
Qed.

Lemma bounded_lax_all p q E : (union_listed q = true -> union_listed p = true) ->
  (forall t v, bounded p E t v -> bounded q E t v) /\
  (forall t l, boundeds p E t l -> boundeds q E t l) /\
  (forall fs l, bounded_fields p E fs l -> bounded_fields q E fs l).
Proof.
  intros Hpq. apply bounded_mutind; intros; try (econstructor; eauto; fail).
  eapply B_union_void; eauto. destruct H3 as [H3|[H3 H4]]; [auto|]. right. split; [exact H3|].
  destruct (union_listed q); [|reflexivity]. rewrite Hpq in H4 by reflexivity. exact H4.
Qed.

Lemma bounded_lax p q E t v : (union_listed q = true -> union_listed p = true) ->
  bounded p E t v -> bounded q E t v.
Proof. intros H. apply (bounded_lax_all p q E H). Qed.

Lemma has_fields_get E fs l f t v :
  has_fields E fs l -> NoDup (map fst fs) -> In (f, t) fs -> lookup f l = Some v -> has_ty E t v.
Proof.
  intros H1 H2 H3 H4. destruct (has_fields_lookup _ _ _ _ _ H1 H2 H3) as (v' & H5 & H6). congruence.
Qed.

Lemma bounded_Wire D E p : wf_env D E ->
  (forall t v, bounded p E t v -> wf_ty D E t -> has_ty E t v -> exists w, Wire p E t v w) /\
  (forall t l, boundeds p E t l -> wf_ty D E t -> has_tys E t l -> exists w, WireList p E t l w) /\
  (forall fs l, bounded_fields p E fs l ->
     (forall f t, In (f, t) fs -> wf_ty D E t) ->
     (forall f t v, In (f, t) fs -> lookup f l = Some v -> has_ty E t v) ->
     exists w, WireFields p E fs l w).
Proof.
  intros Hwf. apply bounded_mutind.
  - intros z _ H. inversion H; subst. eexists. constructor; auto. apply is_be_put_u32; auto.
  - intros z _ H. inversion H; subst. eexists. constructor; auto. apply is_be_put_s32; auto.
  - intros z _ H. inversion H; subst. eexists. constructor; auto. apply is_be_put_u64; auto.
  - intros z _ H. inversion H; subst. eexists. constructor; auto. apply is_be_put_s64; auto.
  - intros b _ H. destruct b.
    + exists (put_u32 1). apply W_true with 1; [apply is_be_put_u32; lia|lia|reflexivity].
    + exists (put_u32 0). constructor. apply is_be_put_u32. lia.
  - intros n bs _ H. inversion H; subst. eexists. constructor; auto. apply is_pad_zeros.
  - intros m o Hw _ H. eexists. econstructor; eauto using is_pad_zeros.
    apply is_be_put_u32. split; [apply zlen_nonneg|apply Hw].
  - intros m o Hw _ H. eexists. econstructor; eauto using is_pad_zeros.
    apply is_be_put_u32. split; [apply zlen_nonneg|apply Hw].
  - intros m t o Hw _ IH Ht H. inversion H; inversion Ht; subst.
    destruct IH as [w IH]; auto. eexists. econstructor; eauto.
    apply is_be_put_u32. split; [apply zlen_nonneg|apply Hw].
  - intros t _ H. exists (put_u32 0). constructor. apply is_be_put_u32. lia.
  - intros t v _ IH Ht H. inversion H; inversion Ht; subst.
    destruct IH as [w IH]; auto. eexists. apply W_present with (w := 1); eauto.
    + apply is_be_put_u32. lia.
    + lia.
  - intros fs l _ IH Ht H. inversion H; inversion Ht; subst.
    destruct IH as [w IH]; eauto using has_fields_get. exists w. constructor. exact IH.
  - intros sw st arms def l dv d f t v Hl _ IH1 Hd Hp Hf _ IH2 Ht H.
    inversion H; inversion Ht; subst.
    assert (In (f, t) (union_fields sw st arms def)) by (right; eapply pick_arm_In; eauto).
    assert (In (sw, st) (union_fields sw st arms def)) by (left; reflexivity).
    destruct IH1 as [w1 Hw1]; eauto using has_fields_get.
    destruct IH2 as [w2 Hw2]; eauto using has_fields_get.
    exists (w1 ++ w2). eapply W_union_arm; eauto.
  - intros sw st arms def l dv d Hl _ IH1 Hd Hp Ht H.
    inversion H; inversion Ht; subst.
    assert (In (sw, st) (union_fields sw st arms def)) by (left; reflexivity).
    destruct IH1 as [w1 Hw1]; eauto using has_fields_get.
    exists w1. destruct Hp as [Hp|[Hp Hu]]; [eapply W_union_void|eapply W_union_unlisted]; eauto.
  - intros x t v Hx _ IH Ht H. inversion H as [| | | | | | | | | | | | |x' t' v' A1 A2]; subst.
    rewrite Hx in A1. injection A1 as <-.
    destruct IH as [w Hw]; auto. { apply (Hwf _ _ Hx). } exists w. econstructor; eauto.
  - intros t _ _. exists []. constructor.
  - intros t v l _ IH1 _ IH2 Ht H. inversion H; subst.
    destruct IH1 as [w1 Hw1]; auto. destruct IH2 as [w2 Hw2]; auto.
    exists (w1 ++ w2). constructor; auto.
  - intros l _ _. exists []. constructor.
  - intros f t fs l v Hl _ IH1 _ IH2 Hwt Hty.
    destruct IH1 as [w1 Hw1].
    { eapply Hwt. left. reflexivity. } { eapply Hty; eauto. left. reflexivity. }
    destruct IH2 as [w2 Hw2].
    { intros g u Hg. eapply Hwt. right. exact Hg. }
    { intros g u x Hg Hx. eapply Hty; eauto. right. exact Hg. }
    exists (w1 ++ w2). econstructor; eauto.
Qed.

(** ** Canonical values: same data, same value *)
Lemma has_fields_ext E fs l m :
  has_fields E fs l -> has_fields E fs m -> NoDup (map fst fs) ->
  (forall f, In f (map fst fs) -> lookup f l = lookup f m) -> l = m.
Proof.
  intros H. revert m. induction H as [|f t v fs l Hv Hl IH]; intros m Hm Hnd Heq;
    inversion Hm; subst; [reflexivity|].
  cbn in Hnd. inversion Hnd; subst.
  pose proof (Heq f (or_introl eq_refl)) as Hf. cbn in Hf. rewrite String.eqb_refl in Hf.
  injection Hf as <-. f_equal. apply IH; auto.
  intros g Hg. specialize (Heq g (or_intror Hg)). cbn in Heq.
  destruct (String.eqb g f) eqn:Ee; [|exact Heq].
  apply String.eqb_eq in Ee. subst g. contradiction.
Qed.

Lemma same_canon_eq_all D E : wf_env D E ->
  (forall t v w, same E t v w -> wf_ty D E t -> canon E t v -> canon E t w ->
     has_ty E t v -> has_ty E t w -> v = w) /\
  (forall t l m, sames E t l m -> wf_ty D E t -> canons E t l -> canons E t m ->
     has_tys E t l -> has_tys E t m -> l = m) /\
  (forall fs l m, same_fields E fs l m ->
     (forall f t, In (f, t) fs -> wf_ty D E t) -> canon_fields E fs l -> canon_fields E fs m ->
     (forall f t v, In (f, t) fs -> lookup f l = Some v -> has_ty E t v) ->
     (forall f t v, In (f, t) fs -> lookup f m = Some v -> has_ty E t v) ->
     forall f, In f (map fst fs) -> lookup f l = lookup f m).
Proof.
  intros Hwf. apply same_mutind; try (intros; reflexivity).
  - intros m o1 o2 H _ K1 K2 _ _. inversion K1; inversion K2; subst. cbn in H. congruence.
  - intros m t o1 o2 _ IH Ht K1 K2 H1 H2.
    inversion K1; inversion K2; inversion H1; inversion H2; inversion Ht; subst. cbn in *.
    f_equal. f_equal. auto.
  - intros t v w _ IH Ht K1 K2 H1 H2.
    inversion K1; inversion K2; inversion H1; inversion H2; inversion Ht; subst.
    f_equal. f_equal. auto.
  - intros fs l m _ IH Ht K1 K2 H1 H2.
    inversion K1; inversion K2; inversion H1; inversion H2; inversion Ht; subst.
    f_equal. eapply has_fields_ext; eauto. intros f Hf. eapply IH; eauto using has_fields_get.
  - intros sw st arms def l m dv dw d f t v w Hl Hm Hs IH1 Hd Hp Hfl Hfm Hs2 IH2 Ht K1 K2 H1 H2.
    inversion Ht as [| | | | | | | | | | |sw' st' arms' def' Hnd Hdt Hwt|]; subst.
    inversion H1 as [| | | | | | | | | | | |sw' st' arms' def' l' HF1|]; subst.
    inversion H2 as [| | | | | | | | | | | |sw' st' arms' def' l' HF2|]; subst.
    assert (Hin : In (f, t) (union_fields sw st arms def)) by (right; eapply pick_arm_In; eauto).
    assert (Hsw : In (sw, st) (union_fields sw st arms def)) by (left; reflexivity).
    pose proof (same_disc _ _ _ _ Hs) as Hdd. rewrite Hd in Hdd. symmetry in Hdd.
    inversion K1 as [| | | | | | | | | | | |q1 q2 q3 q4 q5 dv1 d1 f1 t1 v1 A1 A2 A3 A4 A5 A6 A7
       |q1 q2 q3 q4 q5 dv1 d1 A1 A2 A3 A4 A5|]; subst;
      rewrite Hl in A1; injection A1 as <-; rewrite Hd in A3; injection A3 as <-;
      rewrite Hp in A4; [|destruct A4; discriminate].
    injection A4 as <- <-. rewrite Hfl in A5. injection A5 as <-.
    inversion K2 as [| | | | | | | | | | | |q1 q2 q3 q4 q5 dv1 d1 f1 t1 v1 B1 B2 B3 B4 B5 B6 B7
       |q1 q2 q3 q4 q5 dv1 d1 B1 B2 B3 B4 B5|]; subst;
      rewrite Hm in B1; injection B1 as <-; rewrite Hdd in B3; injection B3 as <-;
      rewrite Hp in B4; [|destruct B4; discriminate].
    injection B4 as <- <-. rewrite Hfm in B5. injection B5 as <-.
    f_equal. eapply has_fields_ext; eauto. intros g Hg.
    destruct (String.string_dec g sw) as [->|Hn1].
    { rewrite Hl, Hm. f_equal. eapply IH1; eauto using has_fields_get. }
    destruct (String.string_dec g f) as [->|Hn2].
    { rewrite Hfl, Hfm. f_equal. eapply IH2; eauto using has_fields_get. }
    apply in_map_iff in Hg. destruct Hg as ([g' u] & Hg' & Hg). cbn in Hg'. subst g'.
    destruct (has_fields_lookup _ _ _ _ _ HF1 Hnd Hg) as (x1 & Hx1 & _).
    destruct (has_fields_lookup _ _ _ _ _ HF2 Hnd Hg) as (x2 & Hx2 & _).
    destruct (A7 _ _ _ Hg Hn1 Hn2 Hx1) as [n1 Hz1].
    destruct (B7 _ _ _ Hg Hn1 Hn2 Hx2) as [n2 Hz2].
    rewrite Hx1, Hx2. f_equal. eapply zero_det; eauto.
  - intros sw st arms def l m dv dw d Hl Hm Hs IH1 Hd Hp Ht K1 K2 H1 H2.
    inversion Ht as [| | | | | | | | | | |sw' st' arms' def' Hnd Hdt Hwt|]; subst.
    inversion H1 as [| | | | | | | | | | | |sw' st' arms' def' l' HF1|]; subst.
    inversion H2 as [| | | | | | | | | | | |sw' st' arms' def' l' HF2|]; subst.
    assert (Hsw : In (sw, st) (union_fields sw st arms def)) by (left; reflexivity).
    pose proof (same_disc _ _ _ _ Hs) as Hdd. rewrite Hd in Hdd. symmetry in Hdd.
    inversion K1 as [| | | | | | | | | | | |q1 q2 q3 q4 q5 dv1 d1 f1 t1 v1 A1 A2 A3 A4 A5 A6 A7
       |q1 q2 q3 q4 q5 dv1 d1 A1 A2 A3 A4 A5|]; subst;
      rewrite Hl in A1; injection A1 as <-; rewrite Hd in A3; injection A3 as <-;
      [rewrite A4 in Hp; destruct Hp; discriminate|].
    inversion K2 as [| | | | | | | | | | | |q1 q2 q3 q4 q5 dv1 d1 f1 t1 v1 B1 B2 B3 B4 B5 B6 B7
       |q1 q2 q3 q4 q5 dv1 d1 B1 B2 B3 B4 B5|]; subst;
      rewrite Hm in B1; injection B1 as <-; rewrite Hdd in B3; injection B3 as <-;
      [rewrite B4 in Hp; destruct Hp; discriminate|].
    f_equal. eapply has_fields_ext; eauto. intros g Hg.
    destruct (String.string_dec g sw) as [->|Hn1].
    { rewrite Hl, Hm. f_equal. eapply IH1; eauto using has_fields_get. }
    apply in_map_iff in Hg. destruct Hg as ([g' u] & Hg' & Hg). cbn in Hg'. subst g'.
    destruct (has_fields_lookup _ _ _ _ _ HF1 Hnd Hg) as (x1 & Hx1 & _).
    destruct (has_fields_lookup _ _ _ _ _ HF2 Hnd Hg) as (x2 & Hx2 & _).
    destruct (A5 _ _ _ Hg Hn1 Hx1) as [n1 Hz1].
    destruct (B5 _ _ _ Hg Hn1 Hx2) as [n2 Hz2].
    rewrite Hx1, Hx2. f_equal. eapply zero_det; eauto.
  - intros x t v w Hx _ IH Ht K1 K2 H1 H2.
    inversion K1 as [| | | | | | | | | | | | | |x1 t1 v1 A1 A2]; subst.
    inversion K2 as [| | | | | | | | | | | | | |x2 t2 v2 B1 B2]; subst.
    inversion H1 as [| | | | | | | | | | | | |x3 t3 v3 C1 C2]; subst.
    inversion H2 as [| | | | | | | | | | | | |x4 t4 v4 D1 D2]; subst.
    rewrite Hx in *. injection A1 as <-. injection B1 as <-. injection C1 as <-. injection D1 as <-.
    apply IH; auto. apply (Hwf _ _ Hx).
  - intros t v w l m _ IH1 _ IH2 Ht K1 K2 H1 H2.
    inversion K1; inversion K2; inversion H1; inversion H2; subst. f_equal; auto.
  - intros l m _ _ _ _ _ f [].
  - intros f t fs l m v w Hl Hm _ IH1 _ IH2 Hwt K1 K2 H1 H2 g Hg.
    inversion K1 as [|f1 t1 fs1 l1 v1 A1 A2 A3]; subst.
    inversion K2 as [|f2 t2 fs2 l2 v2 B1 B2 B3]; subst.
    rewrite Hl in A1. injection A1 as <-. rewrite Hm in B1. injection B1 as <-.
    cbn in Hg. destruct (String.string_dec f g) as [<-|Hne].
    + rewrite Hl, Hm. f_equal. apply IH1; auto.
      * eapply Hwt. left. reflexivity.
      * eapply H1; eauto. left. reflexivity.
      * eapply H2; eauto. left. reflexivity.
    + destruct Hg as [Hg|Hg]; [contradiction|]. apply IH2; auto.
      * intros h u Hh. eapply Hwt. right. exact Hh.
      * intros h u y Hh. eapply H1. right. exact Hh.
      * intros h u y Hh. eapply H2. right. exact Hh.
Qed.

Lemma same_canon_eq D E t v w :
  wf_env D E -> wf_ty D E t -> same E t v w -> canon E t v -> canon E t w ->
  has_ty E t v -> has_ty E t w -> v = w.
Proof. intros Hwf. intros. eapply (proj1 (same_canon_eq_all D E Hwf)); eauto. Qed.

(** ** Decoding into a fresh variable gives a canonical value *)
Section Fresh.
Variables (D : nat) (E : env).
Hypothesis Hwf : wf_env D E.

Definition fresh_ok (t : cty) (X : xst -> val -> outcome (xst * val)) : Prop :=
  forall b k z s' v', zero k E t = Some z -> X (RD b) z = Ret (s', v') -> x_err s' = None ->
  canon E t v'.

Lemma is_RD s : x_reader s = true -> x_err s = None -> s = RD (x_buf s).
Proof. destruct s as [e r b]; cbn. intros -> ->. reflexivity. Qed.

Lemma RD_next n t b v s' v' : xdr n E t (RD b) v = Ret (s', v') -> x_err s' = None ->
  s' = RD (x_buf s').
Proof.
  intros H He. apply is_RD; [|exact He].
  apply xdr_shape in H. destruct H as [H _]. exact H.
Qed.

Lemma fresh_fields n fs l b s' v' :
  (forall f t, In (f, t) fs -> wf_ty D E t /\ fresh_ok t (xdr n E t)) ->
  NoDup (map fst fs) ->
  (forall f t, In (f, t) fs -> exists k z, lookup f l = Some z /\ zero k E t = Some z) ->
  xdr_fields (xdr n E) fs (RD b) (VStruct l) = Ret (s', v') -> x_err s' = None ->
  exists l', v' = VStruct l' /\ canon_fields E fs l' /\
    (forall g, ~ In g (map fst fs) -> lookup g l' = lookup g l).
Proof.
  intros HX. revert b l. induction fs as [|[f t] fs IH]; cbn; intros b l Hnd Hz H He.
  - injection H as <- <-. exists l. repeat split. constructor.
  - bind_inv H as s1 v1 K. apply on_field_ret in K.
    destruct K as (l0 & x & s2 & x' & [= <-] & Hx & K & [= <- ->]).
    destruct (HX f t (or_introl eq_refl)) as [Ht HF].
    destruct (Hz f t (or_introl eq_refl)) as (k & z & Hlz & Hkz).
    rewrite Hx in Hlz. injection Hlz as <-.
    assert (He1 : x_err s1 = None).
    { destruct (x_err s1) eqn:Ee; [|reflexivity]. exfalso.
      eapply (sticky_fields _ _ _ _ _ _) in H; [| |exact Ee].
      - injection H as -> ->. congruence.
      - intros g u Hg. eapply (sticky_xdr D E Hwf). apply (HX g u). right. exact Hg. }
    pose proof (HF _ _ _ _ _ Hkz K He1) as Hc.
    rewrite (RD_next _ _ _ _ _ _ K He1) in H.
    inversion Hnd; subst.
    apply IH in H; auto.
    + destruct H as (l' & -> & Hcf & Hoth). exists l'. split; [reflexivity|]. split.
      * apply KF_cons with x'; auto. rewrite Hoth by assumption.
        eapply lookup_update_same; eauto.
      * intros g Hg. rewrite Hoth by tauto. apply lookup_update_other. tauto.
    + intros g u Hg. apply (HX g u). right. exact Hg.
    + intros g u Hg. rewrite lookup_update_other.
      * apply Hz. right. exact Hg.
      * intros ->. apply (in_map fst) in Hg. contradiction.
Qed.

Lemma fresh_elems n t z k j b s' l' :
  wf_ty D E t -> fresh_ok t (xdr n E t) -> zero j E t = Some z ->
  xdr_elems (xdr n E t) k (repeat z k) (RD b) = Ret (s', l') -> x_err s' = None ->
  canons E t l'.
Proof.
  intros Ht HF Hz. revert b s' l'. induction k as [|k IH]; cbn; intros b s' l' H He.
  - injection H as <- <-. constructor.
  - bind_inv H as s1 x1 K. bind_inv H as s2 l2 K2. injection H as <- <-.
    assert (He1 : x_err s1 = None).
    { destruct (x_err s1) eqn:Ee; [|reflexivity]. exfalso.
      eapply (sticky_elems _ _ _ _ _ _) in K2; [| |exact Ee].
      - injection K2 as -> ->. congruence.
      - eapply (sticky_xdr D E Hwf). exact Ht. }
    rewrite (RD_next _ _ _ _ _ _ K He1) in K2.
    constructor; eauto.
Qed.

Theorem dec_fresh n t : wf_ty D E t -> fresh_ok t (xdr n E t).
Proof.
  revert t. induction n as [|n IH]; intros t Ht b k z s' v' Hz H He; [discriminate|].
  destruct k as [|k]; [discriminate|].
  destruct t; cbn [zero] in Hz; try (injection Hz as <-); cbn [xdr] in H.
  - destruct (XdrU32 _ _). injection H as <- <-. constructor.
  - destruct (XdrS32 _ _). injection H as <- <-. constructor.
  - destruct (XdrU64 _ _). injection H as <- <-. constructor.
  - destruct (XdrS64 _ _). injection H as <- <-. constructor.
  - destruct (XdrBool _ _). injection H as <- <-. constructor.
  - destruct (XdrArray _ _). injection H as <- <-. constructor.
  - inversion Ht; subst.
    destruct (var_cases b (maxlen_of max)) as [(hd & h & p & r & -> & A1 & A2 & A3 & A4)|Hf].
    + rewrite XdrVarArray_R in H by assumption. injection H as <- <-. constructor.
    + destruct (XdrVarArray_fail b (maxlen_of max) None Hf) as (e & r & o' & Hx & Hr).
      rewrite Hx in H. injection H as <- <-. discriminate.
  - destruct (XdrString _ _ _). injection H as <- <-. constructor.
  - inversion Ht as [| | | | | | | |m' t' Hm Ht' Hz'| | | |]; subst.
    change (EncodingSetSize (RD b) 0 (zlen (elems None))) with (RD b, 0) in H. cbv iota beta in H.
    destruct (split_at b 4) as [Hs|(hd & r & -> & Hl)].
    + rewrite XdrU32_short in H by exact Hs.
      destruct (match max with Some k => 0 >? k | None => false end);
        [injection H as <- <-; discriminate|].
      cbn in H. injection H as <- <-. discriminate.
    + rewrite XdrU32_R in H by exact Hl.
      destruct (match max with Some k => be_val hd >? k | None => false end).
      { injection H as <- <-. discriminate. }
      rewrite Decoding_R in H.
      destruct (zero n E t) as [z|] eqn:Ez; [|discriminate].
      bind_inv H as s3 l3 K. injection H as <- <-. constructor.
      eapply fresh_elems; eauto.
  - inversion Ht as [| | | | | | | | |t' Ht' Hz'| | |]; subst.
    rewrite Encoding_R in H. cbn [obind] in H. rewrite Decoding_R in H.
    destruct (split_at b 4) as [Hs|(hd & r & -> & Hl)].
    + rewrite XdrBool_short in H by exact Hs. injection H as <- <-. discriminate.
    + rewrite XdrBool_R in H by exact Hl.
      destruct (Z.eqb_spec (be_val hd) 0) as [H0|H0]; cbn [negb] in H.
      * injection H as <- <-. constructor.
      * destruct (zero n E t) as [z|] eqn:Ez; [|discriminate].
        bind_inv H as s3 x3 K. injection H as <- <-. constructor. eapply IH; eauto.
  - inversion Ht as [| | | | | | | | | |fs' Hnd Hwt| |]; subst.
    destruct (zero_fields (zero k E) fs) as [l|] eqn:Ef; [|discriminate].
    injection Hz as <-. cbn [xdr] in H.
    eapply fresh_fields in H; eauto.
    + destruct H as (l' & -> & Hc & _). constructor. exact Hc.
    + intros f t Hin. destruct (zero_fields_lookup _ _ _ _ _ _ Ef Hnd Hin) as (x & Hx & Hx').
      eauto.
  - inversion Ht as [| | | | | | | | | | |sw' st' arms' def' Hnd Hdt Hwt|]; subst.
    destruct (zero_fields (zero k E) _) as [l|] eqn:Ef; [|discriminate].
    injection Hz as <-. cbn [xdr] in H.
    bind_inv H as s1 v1 K. apply on_field_ret in K.
    destruct K as (l0 & x & s2 & x' & [= <-] & Hx & K & [= <- ->]).
    assert (Hsw : In (sw, t) (union_fields sw t arms def)) by (left; reflexivity).
    assert (HZ : forall f u, In (f, u) (union_fields sw t arms def) ->
              exists y, lookup f l = Some y /\ zero k E u = Some y).
    { intros f u Hin. eapply zero_fields_lookup; eauto. }
    destruct (HZ _ _ Hsw) as (y & Hy & Hyz). rewrite Hx in Hy. injection Hy as <-.
    cbn [field_disc] in H. rewrite (lookup_update_same _ _ _ _ Hx) in H.
    destruct (disc_of x') as [d|] eqn:Ed; [|discriminate].
    assert (Hoth : forall g tg x0, In (g, tg) (union_fields sw t arms def) -> g <> sw ->
       lookup g (update sw x' l) = Some x0 -> exists j, zero j E tg = Some x0).
    { intros g tg x0 Hg Hn Hlk. rewrite lookup_update_other in Hlk by congruence.
      destruct (HZ _ _ Hg) as (y & Hy & Hyz'). rewrite Hy in Hlk. injection Hlk as <-. eauto. }
    destruct (pick_arm d arms def) as [[[f u]|]|] eqn:Ep.
    + assert (Hin0 := pick_arm_In _ _ _ _ _ Ep).
      assert (Hin : In (f, u) (union_fields sw t arms def)) by (right; exact Hin0).
      assert (Hne : sw <> f).
      { intros ->. cbn in Hnd. inversion Hnd as [|? ? Hni _]; subst. apply Hni.
        apply (in_map fst) in Hin0. exact Hin0. }
      assert (He1 : x_err s1 = None).
      { destruct (x_err s1) eqn:Ee; [|reflexivity]. exfalso.
        eapply sticky_field in H; [| |exact Ee].
        - injection H as -> ->. congruence.
        - eapply (sticky_xdr D E Hwf). eauto. }
      apply on_field_ret in H.
      destruct H as (l0 & y & s3 & y' & [= <-] & Hy & H & [= -> ->]).
      rewrite (RD_next _ _ _ _ _ _ K He1) in H.
      rewrite lookup_update_other in Hy by exact Hne.
      destruct (HZ _ _ Hin) as (y0 & Hy0 & Hyz0). rewrite Hy in Hy0. injection Hy0 as <-.
      eapply K_union_arm with (dv := x') (v := y'); try eassumption.
      * rewrite lookup_update_other by congruence. eapply lookup_update_same; eauto.
      * eapply (IH _ (Hwt _ _ Hsw)); eauto.
      * eapply lookup_update_same. rewrite lookup_update_other by exact Hne. exact Hy.
      * eapply (IH _ (Hwt _ _ Hin)); eauto.
      * intros g tg x0 Hg Hn1 Hn2 Hlk. rewrite lookup_update_other in Hlk by congruence. eauto.
    + injection H as <- <-.
      eapply K_union_void with (dv := x'); eauto using lookup_update_same.
      eapply (IH _ (Hwt _ _ Hsw)); eauto.
    + injection H as <- <-.
      eapply K_union_void with (dv := x'); eauto using lookup_update_same.
      eapply (IH _ (Hwt _ _ Hsw)); eauto.
  - destruct (lookup x E) as [u|] eqn:Hx; [|discriminate].
    econstructor; [exact Hx|]. eapply IH; eauto using wf_lookup.
Qed.

End Fresh.
