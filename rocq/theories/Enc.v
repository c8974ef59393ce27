(** Encoding: the interpreter on a writer state against the relation [Wire]. *)
From Verif Require Import Bytes XdrLib Types Interp Spec Prim Meta.
Open Scope string_scope.
Open Scope Z_scope.
Open Scope list_scope.

Lemma is_be_put_u32 z : 0 <= z < 2 ^ 32 -> is_be 4 z (put_u32 z).
Proof. intros H. split; [reflexivity|]. rewrite put_u32_val. apply Z.mod_small. exact H. Qed.
Lemma is_be_put_u64 z : 0 <= z < 2 ^ 64 -> is_be 8 z (put_u64 z).
Proof. intros H. split; [reflexivity|]. rewrite put_u64_val. apply Z.mod_small. exact H. Qed.
Lemma is_be_put_s32 z : is_be 4 (z mod 2 ^ 32) (put_u32 (to_u32 z)).
Proof. split; [reflexivity|]. rewrite put_u32_val. unfold to_u32. apply Z.mod_mod. rewrite pow32. lia. Qed.
Lemma is_be_put_s64 z : is_be 8 (z mod 2 ^ 64) (put_u64 (to_u64 z)).
Proof. split; [reflexivity|]. rewrite put_u64_val. unfold to_u64. apply Z.mod_mod. rewrite pow64. lia. Qed.

Lemma is_be_inj k z a b : is_be k z a -> is_be k z b -> a = b.
Proof. intros [H1 H2] [H3 H4]. apply be_val_inj; congruence. Qed.

Lemma gtb_within m n : max_ok m -> n < 2 ^ 32 ->
  (match m with Some k => n >? k | None => false end = false <-> within m n).
Proof.
  unfold within, max_ok. destruct m as [k|]; intros.
  - rewrite Z.gtb_ltb, Z.ltb_ge. lia.
  - tauto.
Qed.

Local Opaque put_u32 put_u64.

Section Enc.
Variables (D : nat) (E : env).
Hypothesis Hwf : wf_env D E.

Definition enc_ok (t : cty) (X : xst -> val -> outcome (xst * val)) : Prop :=
  forall b v s' v', has_ty E t v -> X (WR b) v = Ret (s', v') ->
  v' = v /\ exists w,
    (s' = WR (b ++ w) /\ Wire ENC E t v w) \/ (exists e, s' = mkXst (Some e) false (b ++ w)).

Lemma enc_field all X f t l b s' v' :
  enc_ok t X -> has_fields E all l -> NoDup (map fst all) -> In (f, t) all ->
  on_field X (WR b) (VStruct l) f = Ret (s', v') ->
  v' = VStruct l /\ exists x w, lookup f l = Some x /\ has_ty E t x /\
    ((s' = WR (b ++ w) /\ Wire ENC E t x w) \/ (exists e, s' = mkXst (Some e) false (b ++ w))).
Proof.
  intros HX Hl Hnd Hin H. apply on_field_ret in H.
  destruct H as (l0 & x & s1 & x' & [= <-] & Hx & H & [= <- ->]).
  destruct (has_fields_lookup _ _ _ _ _ Hl Hnd Hin) as (y & Hy & Hty).
  rewrite Hx in Hy. injection Hy as <-.
  destruct (HX _ _ _ _ Hty H) as (-> & w & Hw).
  rewrite update_id by exact Hx. eauto 10.
Qed.

Lemma enc_fields X all fs l b s' v' :
  (forall f t, In (f, t) fs -> enc_ok t (X t) /\ sticky (X t)) ->
  has_fields E all l -> NoDup (map fst all) -> incl fs all ->
  xdr_fields X fs (WR b) (VStruct l) = Ret (s', v') ->
  v' = VStruct l /\ exists w,
    (s' = WR (b ++ w) /\ WireFields ENC E fs l w) \/ (exists e, s' = mkXst (Some e) false (b ++ w)).
Proof.
  intros HX Hl Hnd. revert b. induction fs as [|[f t] fs IH]; cbn; intros b Hin H.
  - injection H as <- <-. split; [reflexivity|]. exists []. left.
    rewrite app_nil_r. split; [reflexivity|constructor].
  - bind_inv H as s1 v1 K.
    eapply enc_field in K; [|eapply HX; left; reflexivity|eassumption|eassumption
                            |apply Hin; left; reflexivity].
    destruct K as (-> & x & w & Hx & Hty & [[-> Hw]|[e ->]]).
    + apply IH in H; [|intros; eapply HX; right; eassumption
                      |intros a Ha; apply Hin; right; exact Ha].
      destruct H as (-> & w2 & H). split; [reflexivity|]. exists (w ++ w2).
      rewrite app_assoc. destruct H as [[-> Hw2]|H]; [left|right; exact H].
      split; [reflexivity|]. econstructor; eauto.
    + eapply (sticky_fields _ _ _ _ e) in H; [| |reflexivity].
      2:{ intros g u Hg. eapply HX. right. exact Hg. }
      injection H as -> ->. split; [reflexivity|]. exists w. right. eauto.
Qed.

Lemma enc_elems X t l b s' l' :
  enc_ok t X -> sticky X -> has_tys E t l ->
  xdr_elems X (List.length l) l (WR b) = Ret (s', l') ->
  l' = l /\ exists w,
    (s' = WR (b ++ w) /\ WireList ENC E t l w) \/ (exists e, s' = mkXst (Some e) false (b ++ w)).
Proof.
  intros HX HS. revert b s' l'. induction l as [|x l IH]; cbn; intros b s' l' Hl H.
  - injection H as <- <-. split; [reflexivity|]. exists []. left.
    rewrite app_nil_r. split; [reflexivity|constructor].
  - bind_inv H as s1 x1 K. bind_inv H as s2 l2 K2. injection H as <- <-.
    inversion Hl; subst.
    apply HX in K; [|assumption]. destruct K as (-> & w & [[-> Hw]|[e ->]]).
    + apply IH in K2; [|assumption]. destruct K2 as (-> & w2 & H). split; [reflexivity|].
      exists (w ++ w2). rewrite app_assoc. destruct H as [[-> Hw2]|H]; [left|right; exact H].
      split; [reflexivity|]. constructor; assumption.
    + eapply (sticky_elems _ _ _ _ e) in K2; [|assumption|reflexivity].
      injection K2 as -> ->. split; [reflexivity|]. exists w. right. eauto.
Qed.

Lemma EncodingSetSize_W b a n : 0 <= n ->
  EncodingSetSize (WR b) a n
  = if n <=? MaxUint32 then (WR b, n) else (SetError (WR b) "length too large", a).
Proof.
  intros Hn. unfold EncodingSetSize. cbn [x_err x_reader].
  rewrite Z.gtb_ltb, Z.ltb_antisym.
  destruct (Z.leb_spec n MaxUint32) as [Hle|Hgt]; cbn [negb]; [|reflexivity].
  rewrite Z.mod_small; [reflexivity|].
  split; [exact Hn|]. apply Z.le_lt_trans with MaxUint32; [exact Hle|reflexivity].
Qed.

Theorem enc_sound n t : wf_ty D E t -> enc_ok t (xdr n E t).
Proof.
  revert t. induction n as [|n IH]; intros t Ht b v s' v' Hv H; [discriminate|].
  destruct Hv as [z Hz|z Hz|z Hz|z Hz|b0|k bs Hbs|m o|m bs|m t o Hvs|t|t v Hv|fs l Hl
                 |sw st arms def l Hl|x t v Hx Hv]; cbn [xdr] in H.
  - rewrite XdrU32_W in H. injection H as <- <-. split; [reflexivity|]. eexists; left.
    split; [reflexivity|]. constructor; auto using is_be_put_u32.
  - rewrite XdrS32_W in H. injection H as <- <-. split; [reflexivity|]. eexists; left.
    split; [reflexivity|]. constructor; auto using is_be_put_s32.
  - rewrite XdrU64_W in H. injection H as <- <-. split; [reflexivity|]. eexists; left.
    split; [reflexivity|]. constructor; auto using is_be_put_u64.
  - rewrite XdrS64_W in H. injection H as <- <-. split; [reflexivity|]. eexists; left.
    split; [reflexivity|]. constructor; auto using is_be_put_s64.
  - rewrite XdrBool_W in H. injection H as <- <-. split; [reflexivity|]. eexists; left.
    split; [reflexivity|]. destruct b0.
    + apply W_true with 1; [apply is_be_put_u32; lia|lia|reflexivity].
    + constructor. apply is_be_put_u32. lia.
  - rewrite XdrArray_W in H. injection H as <- <-. split; [reflexivity|]. eexists; left.
    split; [reflexivity|]. constructor; [exact Hbs|]. rewrite Hbs. apply is_pad_zeros.
  - rewrite XdrVarArray_W in H. inversion Ht; subst.
    destruct (fits (maxlen_of m) (zlen (bytes_of o))) eqn:F; injection H as <- <-;
      (split; [reflexivity|]).
    + eexists; left. split; [reflexivity|].
      apply fits_within in F; [|assumption|apply zlen_nonneg].
      apply W_varopaque with (bs := bytes_of o); auto.
      * apply is_be_put_u32. split; [apply zlen_nonneg|apply F].
      * apply is_pad_zeros.
    + exists []. right. rewrite app_nil_r. eexists. reflexivity.
  - rewrite XdrString_W in H. inversion Ht; subst.
    destruct (fits (maxlen_of m) (zlen bs)) eqn:F; injection H as <- <-;
      (split; [reflexivity|]).
    + eexists; left. split; [reflexivity|].
      apply fits_within in F; [|assumption|apply zlen_nonneg].
      apply W_string; auto.
      * apply is_be_put_u32. split; [apply zlen_nonneg|apply F].
      * apply is_pad_zeros.
    + exists []. right. rewrite app_nil_r. eexists. reflexivity.
  - inversion Ht as [| | | | | | | |m' t' Hm Ht' Hz| | | |]; subst.
    rewrite EncodingSetSize_W in H by apply zlen_nonneg.
    destruct (Z.leb_spec (zlen (elems o)) MaxUint32) as [Hle|Hgt].
    + rewrite XdrU32_W in H.
      assert (Hlt : zlen (elems o) < 2 ^ 32)
        by (apply Z.le_lt_trans with MaxUint32; [exact Hle|reflexivity]).
      destruct (match m with Some k => zlen (elems o) >? k | None => false end) eqn:Eb.
      { injection H as <- <-. split; [reflexivity|].
        exists (put_u32 (zlen (elems o))). right. eexists. reflexivity. }
      apply gtb_within in Eb; [|assumption|exact Hlt].
      change (Decoding (WR (b ++ put_u32 (zlen (elems o))))) with false in H. cbv iota in H.
      bind_inv H as s3 l3 K. injection H as <- <-.
      unfold zlen in K at 1. rewrite Nat2Z.id in K.
      eapply enc_elems in K; [|apply IH; exact Ht'|eapply sticky_xdr; eauto|exact Hvs].
      destruct K as (-> & w & K). split; [destruct o; reflexivity|].
      exists (put_u32 (zlen (elems o)) ++ w). rewrite app_assoc.
      destruct K as [[-> Hw]|K]; [left|right; exact K]. split; [reflexivity|].
      eapply W_vararray; eauto. apply is_be_put_u32. split; [apply zlen_nonneg|exact Hlt].
    + erewrite XdrU32_err in H by reflexivity.
      replace (match m with Some k => 0 >? k | None => false end) with false in H.
      2:{ destruct m as [k|]; [|reflexivity]. cbn in Hm. rewrite Z.gtb_ltb.
          symmetry. apply Z.ltb_ge. exact Hm. }
      cbn in H. injection H as <- <-. split; [destruct o; reflexivity|].
      exists []. right. rewrite app_nil_r. eexists. reflexivity.
  - rewrite Encoding_W, XdrBool_W in H. cbn in H. injection H as <- <-.
    split; [reflexivity|]. eexists; left. split; [reflexivity|]. constructor.
    apply (is_be_put_u32 0). lia.
  - inversion Ht; subst. rewrite Encoding_W, XdrBool_W in H.
    bind_inv H as s1 o1 K. bind_inv K as s2 x2 K2. injection K as -> <-.
    apply IH in K2; [|assumption|assumption].
    destruct K2 as (-> & w & K).
    destruct K as [[-> Hw]|[e ->]]; cbn in H; injection H as <- <-; (split; [reflexivity|]).
    + eexists; left. split; [rewrite <- app_assoc; reflexivity|].
      apply W_present with 1; [apply is_be_put_u32; lia|lia|reflexivity|exact Hw].
    + eexists; right. eexists. rewrite <- app_assoc. reflexivity.
  - inversion Ht; subst.
    eapply enc_fields in H; [|split; [apply IH|eapply sticky_xdr]; eauto|eassumption|eassumption
                            |apply incl_refl].
    destruct H as (-> & w & H). split; [reflexivity|]. exists w.
    destruct H as [[-> Hw]|H]; [left|right; exact H]. split; [reflexivity|]. constructor. exact Hw.
  - inversion Ht as [| | | | | | | | | | |sw' st' arms' def' Hnd Hd Hw|]; subst.
    bind_inv H as s1 v1 K.
    eapply enc_field in K; [|apply IH; eapply Hw; left; reflexivity|eassumption|eassumption
                            |left; reflexivity].
    destruct K as (-> & dv & w & Hdv & Hdty & K). cbn [field_disc] in H.
    rewrite Hdv in H. destruct (disc_of dv) as [d|] eqn:Ed; [|discriminate].
    destruct (pick_arm d arms def) as [[[f u]|]|] eqn:Ep.
    + assert (Hin : In (f, u) (union_fields sw st arms def)).
      { right. apply (pick_arm_In _ _ _ _ _ Ep). }
      destruct K as [[-> Hw1]|[e ->]].
      * eapply enc_field in H; [|apply IH; eauto|eassumption|eassumption|exact Hin].
        destruct H as (-> & x & w2 & Hx & Hxty & H). split; [reflexivity|].
        exists (w ++ w2). rewrite app_assoc. destruct H as [[-> Hw2]|H]; [left|right; exact H].
        split; [reflexivity|]. eapply W_union_arm; eauto.
      * eapply sticky_field in H; [|eapply sticky_xdr; eauto|reflexivity].
        injection H as -> ->. split; [reflexivity|]. exists w. right. eauto.
    + injection H as <- <-. split; [reflexivity|]. exists w.
      destruct K as [[-> Hw1]|K]; [left|right; exact K]. split; [reflexivity|].
      eapply W_union_void; eauto.
    + injection H as <- <-. split; [reflexivity|]. exists w.
      destruct K as [[-> Hw1]|K]; [left|right; exact K]. split; [reflexivity|].
      eapply W_union_unlisted; eauto.
  - rewrite Hx in H. apply IH in H; [|eapply wf_lookup; eauto|assumption].
    destruct H as (-> & w & H). split; [reflexivity|]. exists w.
    destruct H as [[-> Hw]|H]; [left|right; exact H]. split; [reflexivity|].
    econstructor; eauto.
Qed.

(** Conversely, a value that has an encoding is encoded, to those very bytes. *)
Definition strict (p : policy) : Prop := pad_zero p = true /\ bool_01 p = true.

Definition enc_to (p : policy) (t : cty) (X : xst -> val -> outcome (xst * val)) : Prop :=
  forall b v w s' v', Wire p E t v w -> X (WR b) v = Ret (s', v') -> s' = WR (b ++ w) /\ v' = v.

Lemma enc_to_fields p X fs l w b s' v' :
  (forall f t, In (f, t) fs -> enc_to p t (X t)) ->
  WireFields p E fs l w -> xdr_fields X fs (WR b) (VStruct l) = Ret (s', v') ->
  s' = WR (b ++ w) /\ v' = VStruct l.
Proof.
  intros HX. revert b w. induction fs as [|[f t] fs IH]; cbn; intros b w Hw H.
  - inversion Hw; subst. injection H as <- <-. rewrite app_nil_r. auto.
  - inversion Hw as [|f' t' fs' l' x w1 w2 Hx Hw1 Hw2]; subst.
    bind_inv H as s1 v1 K. apply on_field_ret in K.
    destruct K as (l0 & y & s2 & y' & [= <-] & Hy & K & [= <- ->]).
    rewrite Hx in Hy. injection Hy as <-.
    eapply HX in K; [|left; reflexivity|exact Hw1]. destruct K as [-> ->].
    rewrite update_id in H by exact Hx. rewrite app_assoc. eapply IH; eauto.
    intros. eapply HX. right. eassumption.
Qed.

Lemma enc_to_elems p X t l w b s' l' :
  enc_to p t X -> WireList p E t l w ->
  xdr_elems X (List.length l) l (WR b) = Ret (s', l') -> s' = WR (b ++ w) /\ l' = l.
Proof.
  intros HX. revert b w s' l'. induction l as [|x l IH]; cbn; intros b w s' l' Hw H.
  - inversion Hw; subst. injection H as <- <-. rewrite app_nil_r. auto.
  - inversion Hw as [|t' x' l0 w1 w2 Hw1 Hw2]; subst.
    bind_inv H as s1 x1 K. bind_inv H as s2 l2 K2. injection H as <- <-.
    eapply HX in K; [|exact Hw1]. destruct K as [-> ->].
    eapply IH in K2; [|exact Hw2]. destruct K2 as [-> ->]. rewrite app_assoc. auto.
Qed.

Theorem enc_complete p n t : strict p -> wf_ty D E t -> enc_to p t (xdr n E t).
Proof.
  intros [Hpad Hbool].
  revert t. induction n as [|n IH]; intros t Ht b v w s' v' Hw H; [discriminate|].
  destruct Hw; cbn [xdr] in H.
  - rewrite XdrU32_W in H. injection H as <- <-.
    rewrite (is_be_inj _ _ _ _ (is_be_put_u32 _ H0) H1). auto.
  - rewrite XdrS32_W in H. injection H as <- <-.
    rewrite (is_be_inj _ _ _ _ (is_be_put_s32 _) H1). auto.
  - rewrite XdrU64_W in H. injection H as <- <-.
    rewrite (is_be_inj _ _ _ _ (is_be_put_u64 _ H0) H1). auto.
  - rewrite XdrS64_W in H. injection H as <- <-.
    rewrite (is_be_inj _ _ _ _ (is_be_put_s64 _) H1). auto.
  - rewrite XdrBool_W in H. injection H as <- <-.
    rewrite (is_be_inj 4 0 _ _ (is_be_put_u32 0 ltac:(lia)) H0). auto.
  - rewrite XdrBool_W in H. injection H as <- <-. rewrite (H2 Hbool) in H0.
    rewrite (is_be_inj 4 1 _ _ (is_be_put_u32 1 ltac:(lia)) H0). auto.
  - rewrite XdrArray_W in H. injection H as <- <-. subst n0.
    rewrite (is_pad_zero _ _ _ Hpad H1). auto.
  - subst bs. rewrite XdrVarArray_W in H. inversion Ht; subst.
    rewrite (proj2 (fits_within m (zlen (bytes_of o)) ltac:(assumption) (zlen_nonneg _)) H1) in H.
    injection H as <- <-.
    rewrite (is_pad_zero _ _ _ Hpad H3).
    rewrite (is_be_inj _ _ _ _ (is_be_put_u32 _ (conj (zlen_nonneg _) (proj1 H1))) H2). auto.
  - rewrite XdrString_W in H. inversion Ht; subst.
    rewrite (proj2 (fits_within m (zlen bs) ltac:(assumption) (zlen_nonneg _)) H0) in H.
    injection H as <- <-.
    rewrite (is_pad_zero _ _ _ Hpad H2).
    rewrite (is_be_inj _ _ _ _ (is_be_put_u32 _ (conj (zlen_nonneg _) (proj1 H0))) H1). auto.
  - subst l. inversion Ht as [| | | | | | | |m' t' Hm Ht' Hz| | | |]; subst.
    rewrite EncodingSetSize_W in H by apply zlen_nonneg.
    pose proof (proj1 H1) as Hlt.
    destruct (Z.leb_spec (zlen (elems o)) MaxUint32) as [Hle|Hgt].
    2:{ unfold MaxUint32 in Hgt. rewrite pow32 in Hlt. lia. }
    rewrite XdrU32_W in H.
    rewrite (proj2 (gtb_within m _ Hm Hlt) H1) in H.
    change (Decoding (WR (b ++ put_u32 (zlen (elems o))))) with false in H. cbv iota in H.
    bind_inv H as s3 l3 K. injection H as <- <-.
    unfold zlen in K at 1. rewrite Nat2Z.id in K.
    eapply enc_to_elems in K; [|apply IH; exact Ht'|eassumption]. destruct K as [-> ->].
    rewrite (is_be_inj _ _ _ _ (is_be_put_u32 _ (conj (zlen_nonneg _) Hlt)) H2).
    rewrite app_assoc. destruct o; auto.
  - rewrite Encoding_W, XdrBool_W in H. cbn in H. injection H as <- <-.
    rewrite (is_be_inj 4 0 _ _ (is_be_put_u32 0 ltac:(lia)) H0). auto.
  - inversion Ht; subst. rewrite Encoding_W, XdrBool_W in H.
    bind_inv H as s1 o1 K. bind_inv K as s2 x2 K2. injection K as -> <-.
    eapply IH in K2; [|assumption|eassumption]. destruct K2 as [-> ->].
    cbn in H. injection H as <- <-. rewrite (H2 Hbool) in H0.
    rewrite (is_be_inj 4 1 _ _ (is_be_put_u32 1 ltac:(lia)) H0), app_assoc. auto.
  - inversion Ht; subst. eapply enc_to_fields in H; eauto.
  - inversion Ht as [| | | | | | | | | | |sw' st' arms' def' Hnd Hd Hwt|]; subst.
    bind_inv H as s1 v1 K. apply on_field_ret in K.
    destruct K as (l0 & y & s2 & y' & [= <-] & Hy & K & [= <- ->]).
    rewrite H0 in Hy. injection Hy as <-.
    eapply IH in K; [|eapply Hwt; left; reflexivity|eassumption]. destruct K as [-> ->].
    rewrite update_id in H by assumption. cbn [field_disc] in H. rewrite H0, H1, H2 in H.
    apply on_field_ret in H.
    destruct H as (l0 & y & s2 & y' & [= <-] & Hy & K & [= -> ->]).
    rewrite H3 in Hy. injection Hy as <-.
    eapply IH in K; [|eapply Hwt; right; eapply pick_arm_In; eassumption|eassumption].
    destruct K as [-> ->]. rewrite update_id by assumption. rewrite app_assoc. auto.
  - inversion Ht as [| | | | | | | | | | |sw' st' arms' def' Hnd Hd Hwt|]; subst.
    bind_inv H as s1 v1 K. apply on_field_ret in K.
    destruct K as (l0 & y & s2 & y' & [= <-] & Hy & K & [= <- ->]).
    rewrite H0 in Hy. injection Hy as <-.
    eapply IH in K; [|eapply Hwt; left; reflexivity|eassumption]. destruct K as [-> ->].
    rewrite update_id in H by assumption. cbn [field_disc] in H. rewrite H0, H1, H2 in H.
    injection H as <- <-. auto.
  - inversion Ht as [| | | | | | | | | | |sw' st' arms' def' Hnd Hd Hwt|]; subst.
    bind_inv H as s1 v1 K. apply on_field_ret in K.
    destruct K as (l0 & y & s2 & y' & [= <-] & Hy & K & [= <- ->]).
    rewrite H0 in Hy. injection Hy as <-.
    eapply IH in K; [|eapply Hwt; left; reflexivity|eassumption]. destruct K as [-> ->].
    rewrite update_id in H by assumption. cbn [field_disc] in H. rewrite H0, H1, H2 in H.
    injection H as <- <-. auto.
  - rewrite H0 in H. eapply IH in H; eauto using wf_lookup.
Qed.

End Enc.
