(** Decoding is local: what a successful decode returns depends only on the bytes it
    consumed; and the reader state it leaves does not depend on the target's old value. *)
From Verif Require Import Bytes XdrLib Types Interp Spec Prim Meta Enc Dec Total Canon.
Open Scope string_scope.
Open Scope Z_scope.
Open Scope list_scope.

Definition local1 {A} (P : xst -> A -> xst * A) : Prop :=
  forall b v s' v', P (RD b) v = (s', v') -> x_err s' = None ->
  exists w r, b = w ++ r /\ s' = RD r /\ forall r', P (RD (w ++ r')) v = (RD r', v').

Ltac loc4 k R SH := intros b v s' v' H He; destruct (split_at b k) as [Hs|(hd & r & -> & Hl)];
  [rewrite SH in H by exact Hs; injection H as <- <-; discriminate
  |rewrite R in H by exact Hl; injection H as <- <-; exists hd, r; split; [reflexivity|];
   split; [reflexivity|intros; apply R; exact Hl]].
Lemma loc_U32 : local1 XdrU32. Proof. loc4 4%nat XdrU32_R XdrU32_short. Qed.
Lemma loc_S32 : local1 XdrS32. Proof. loc4 4%nat XdrS32_R XdrS32_short. Qed.
Lemma loc_U64 : local1 XdrU64. Proof. loc4 8%nat XdrU64_R XdrU64_short. Qed.
Lemma loc_S64 : local1 XdrS64. Proof. loc4 8%nat XdrS64_R XdrS64_short. Qed.
Lemma loc_Bool : local1 XdrBool. Proof. loc4 4%nat XdrBool_R XdrBool_short. Qed.

Lemma array_cases (b : list byte) k :
  (List.length b < k + padlen k)%nat \/
  exists h pad r : list byte, b = h ++ pad ++ r /\ List.length h = k /\ List.length pad = padlen k.
Proof.
  destruct (split_at b k) as [H|(h & r & -> & Hl)]; [left; lia|].
  destruct (split_at r (padlen k)) as [H|(pad & r' & -> & Hp)]; [left; rewrite app_length; lia|].
  right. eauto 10.
Qed.

Lemma loc_Array : local1 XdrArray.
Proof.
  intros b v s' v' H He. destruct (array_cases b (List.length v)) as [Hs|(h & pad & r & -> & Hl & Hp)].
  - destruct (XdrArray_short _ _ Hs) as (e & v1 & K & _). rewrite K in H.
    injection H as <- <-. discriminate.
  - rewrite XdrArray_R in H by (rewrite ?Hl; auto). injection H as <- <-.
    exists (h ++ pad), r. rewrite <- app_assoc. repeat split.
    intros. rewrite <- app_assoc. apply XdrArray_R; rewrite ?Hl; auto.
Qed.

Lemma loc_VarArray m : local1 (fun s => XdrVarArray s m).
Proof.
  intros b v s' v' H He. destruct (var_cases b m) as [(hd & h & pad & r & -> & H1 & H2 & H3 & H4)|Hf].
  - rewrite XdrVarArray_R in H by auto. injection H as <- <-.
    exists (hd ++ h ++ pad), r. rewrite <- !app_assoc. repeat split.
    intros. rewrite <- !app_assoc. apply XdrVarArray_R; auto.
  - destruct (XdrVarArray_fail b m v Hf) as (e & r & o & K & _). rewrite K in H.
    injection H as <- <-. discriminate.
Qed.

Lemma loc_String m : local1 (fun s => XdrString s m).
Proof.
  intros b v s' v' H He. destruct (var_cases b m) as [(hd & h & pad & r & -> & H1 & H2 & H3 & H4)|Hf].
  - rewrite XdrString_R in H by auto. injection H as <- <-.
    exists (hd ++ h ++ pad), r. rewrite <- !app_assoc. repeat split.
    intros. rewrite <- !app_assoc. apply XdrString_R; auto.
  - destruct (XdrString_fail b m v Hf) as (e & r & o & K & _). rewrite K in H.
    injection H as <- <-. discriminate.
Qed.

Section Local.
Variables (D : nat) (E : env).
Hypothesis Hwf : wf_env D E.

Definition local (X : xst -> val -> outcome (xst * val)) : Prop :=
  forall b v s' v', X (RD b) v = Ret (s', v') -> x_err s' = None ->
  exists w r, b = w ++ r /\ s' = RD r /\ forall r', X (RD (w ++ r')) v = Ret (RD r', v').

Lemma no_err_before X s v s' v' :
  sticky X -> X s v = Ret (s', v') -> x_err s' = None -> x_err s = None.
Proof.
  intros HX H He. destruct (x_err s) as [e|] eqn:Ee; [|reflexivity].
  apply (HX _ _ _ _ Ee) in H. injection H as -> ->. congruence.
Qed.

Lemma sticky_on_field X f : sticky X -> sticky (fun s v => on_field X s v f).
Proof. intros HX s v e r He H. eapply sticky_field; eauto. Qed.
Lemma sticky_fields' X fs : (forall f t, In (f, t) fs -> sticky (X t)) -> sticky (xdr_fields X fs).
Proof. intros HX s v e r He H. eapply sticky_fields; eauto. Qed.

Lemma local_field X f : local X -> local (fun s v => on_field X s v f).
Proof.
  intros HX b v s' v' H He. apply on_field_ret in H.
  destruct H as (l & x & s1 & x' & -> & Hx & H & [= -> ->]).
  destruct (HX _ _ _ _ H He) as (w & r & -> & -> & HL). exists w, r. repeat split.
  intros r'. unfold on_field. rewrite Hx, HL. reflexivity.
Qed.

Lemma local_bind X Y :
  local X -> local Y -> sticky Y -> local (fun s v => '(s1, v1) <- X s v ;; Y s1 v1).
Proof.
  intros HX HY HS b v s' v' H He. bind_inv H as s1 v1 K.
  pose proof (no_err_before _ _ _ _ _ HS H He) as He1.
  destruct (HX _ _ _ _ K He1) as (w & r & -> & -> & HL).
  destruct (HY _ _ _ _ H He) as (w2 & r2 & -> & -> & HL2).
  exists (w ++ w2), r2. rewrite <- app_assoc. repeat split.
  intros r'. rewrite <- app_assoc, HL. cbn [obind]. apply HL2.
Qed.

Lemma local_fields X fs :
  (forall f t, In (f, t) fs -> local (X t) /\ sticky (X t)) -> local (xdr_fields X fs).
Proof.
  intros HX. induction fs as [|[f t] fs IH].
  - intros b v s' v' H He. injection H as <- <-. exists [], b. repeat split.
  - cbn [xdr_fields]. apply local_bind.
    + apply local_field. apply (HX f t). left. reflexivity.
    + apply IH. intros g u Hg. apply (HX g u). right. exact Hg.
    + apply sticky_fields'. intros g u Hg. apply (HX g u). right. exact Hg.
Qed.

Lemma local_elems X k l b s' l' :
  local X -> sticky X -> xdr_elems X k l (RD b) = Ret (s', l') -> x_err s' = None ->
  exists w r, b = w ++ r /\ s' = RD r /\ forall r', xdr_elems X k l (RD (w ++ r')) = Ret (RD r', l').
Proof.
  intros HX HS. revert l b s' l'. induction k as [|k IH]; cbn; intros l b s' l' H He.
  - injection H as <- <-. exists [], b. repeat split.
  - destruct l as [|x l]; [discriminate|]. bind_inv H as s1 x1 K. bind_inv H as s2 l2 K2.
    injection H as <- <-.
    assert (He1 : x_err s1 = None).
    { destruct (x_err s1) eqn:Ee; [|reflexivity]. exfalso.
      eapply sticky_elems in K2; eauto. injection K2 as -> ->. congruence. }
    destruct (HX _ _ _ _ K He1) as (w & r & -> & -> & HL).
    destruct (IH _ _ _ _ K2 He) as (w2 & r2 & -> & -> & HL2).
    exists (w ++ w2), r2. rewrite <- app_assoc. repeat split.
    intros r'. rewrite <- app_assoc, HL. cbn [obind]. rewrite HL2. reflexivity.
Qed.

Ltac prim L := match goal with H : (let '(_, _) := ?p in _) = Ret _ |- _ =>
  let Ep := fresh "Ep" in destruct p as [? ?] eqn:Ep; injection H as <- <-;
  destruct (L _ _ _ _ Ep ltac:(assumption)) as (w & r & -> & -> & HL); exists w, r;
  repeat split; intros r'; cbn [xdr]; cbv beta in HL; rewrite HL; reflexivity end.

Theorem dec_local n t : wf_ty D E t -> local (xdr n E t).
Proof.
  revert t. induction n as [|n IH]; intros t Ht b v s' v' H He; [discriminate|].
  destruct t, v; cbn [xdr] in H; try discriminate;
    try (destruct (lookup x E) as [u|] eqn:Hx; [|discriminate];
         destruct (IH _ (wf_lookup _ _ Hwf _ _ Hx) _ _ _ _ H He) as (w & r & -> & -> & HL);
         exists w, r; repeat split; intros r'; cbn [xdr]; rewrite Hx; apply HL).
  - prim loc_U32.
  - prim loc_S32.
  - prim loc_U64.
  - prim loc_S64.
  - prim loc_Bool.
  - prim loc_Array.
  - prim (loc_VarArray (maxlen_of max)).
  - prim (loc_String (maxlen_of max)).
  - inversion Ht as [| | | | | | | |m' t' Hm Ht' Hz'| | | |]; subst.
    unfold EncodingSetSize in H. cbn [x_err x_reader] in H.
    destruct (XdrU32 (RD b) 0) as [s2 sz] eqn:Eu.
    destruct (match max with Some k => sz >? k | None => false end) eqn:Em.
    { injection H as <- <-. discriminate. }
    assert (He2 : x_err s2 = None).
    { destruct (x_err s2) eqn:Ee; [|reflexivity]. exfalso.
      unfold Decoding in H. rewrite Ee in H. bind_inv H as s3 l3 K. injection H as <- <-.
      eapply sticky_elems in K; [|apply (sticky_xdr D E Hwf _ _ Ht')|exact Ee].
      injection K as -> ->. congruence. }
    destruct (loc_U32 _ _ _ _ Eu He2) as (w & r & -> & -> & HL).
    rewrite Decoding_R in H. destruct (zero n E t) as [z|] eqn:Ez; [|discriminate].
    bind_inv H as s3 l3 K. injection H as <- <-.
    destruct (local_elems _ _ _ _ _ _ (IH _ Ht') (sticky_xdr D E Hwf _ _ Ht') K He)
      as (w2 & r2 & -> & -> & HL2).
    exists (w ++ w2), r2. rewrite <- app_assoc. repeat split.
    intros r'. cbn [xdr]. unfold EncodingSetSize. cbn [x_err x_reader].
    rewrite <- app_assoc, HL, Em, Decoding_R, Ez, HL2. reflexivity.
  - inversion Ht as [| | | | | | | | |t' Ht' Hz'| | |]; subst.
    rewrite Encoding_R in H. cbn [obind] in H. rewrite Decoding_R in H.
    destruct (XdrBool (RD b) false) as [s2 op] eqn:Eb.
    assert (He2 : x_err s2 = None).
    { destruct op; [|injection H as <- <-; exact He].
      destruct (zero n E t); [|discriminate]. bind_inv H as s3 x3 K. injection H as <- <-.
      eapply no_err_before; eauto. apply (sticky_xdr D E Hwf _ _ Ht'). }
    destruct (loc_Bool _ _ _ _ Eb He2) as (w & r & -> & -> & HL).
    destruct op.
    + destruct (zero n E t) as [z|] eqn:Ez; [|discriminate]. bind_inv H as s3 x3 K.
      injection H as <- <-. destruct (IH _ Ht' _ _ _ _ K He) as (w2 & r2 & -> & -> & HL2).
      exists (w ++ w2), r2. rewrite <- app_assoc. repeat split. intros r'. cbn [xdr].
      rewrite <- app_assoc, Encoding_R. cbn [obind]. rewrite Decoding_R, HL, Ez, HL2. reflexivity.
    + injection H as <- <-. exists w, r. repeat split. intros r'. cbn [xdr].
      rewrite Encoding_R. cbn [obind]. rewrite Decoding_R, HL. reflexivity.
  - inversion Ht as [| | | | | | | | | |fs' Hnd Hwt| |]; subst.
    eapply (local_fields (xdr n E) fs) in H; auto.
    intros f t Hin. split; [eauto|apply (sticky_xdr D E Hwf); eauto].
  - inversion Ht as [| | | | | | | | | | |sw' st' arms' def' Hnd Hdt Hwt|]; subst.
    assert (HU : forall f u, In (f, u) (union_fields sw t arms def) ->
              local (xdr n E u) /\ sticky (xdr n E u)).
    { intros f u Hin. split; [eauto|apply (sticky_xdr D E Hwf); eauto]. }
    bind_inv H as s1 v1 K.
    assert (He1 : x_err s1 = None).
    { destruct (field_disc v1 sw) as [d|]; [|discriminate].
      destruct (pick_arm d arms def) as [[[f u]|]|] eqn:Ep; [|congruence|congruence].
      eapply (no_err_before (fun s v => on_field (xdr n E u) s v f)); eauto.
      apply sticky_on_field. apply (HU f u). right. eapply pick_arm_In; eauto. }
    destruct (local_field _ sw (proj1 (HU sw t (or_introl eq_refl))) _ _ _ _ K He1)
      as (w & r & -> & -> & HL).
    destruct (field_disc v1 sw) as [d|] eqn:Ed; [|discriminate].
    destruct (pick_arm d arms def) as [[[f u]|]|] eqn:Ep.
    + assert (Hin : In (f, u) (union_fields sw t arms def)) by (right; eapply pick_arm_In; eauto).
      destruct (local_field _ f (proj1 (HU f u Hin)) _ _ _ _ H He) as (w2 & r2 & -> & -> & HL2).
      exists (w ++ w2), r2. rewrite <- app_assoc. repeat split. intros r'. cbn [xdr].
      rewrite <- app_assoc, HL. cbn [obind]. rewrite Ed, Ep. apply HL2.
    + injection H as <- <-. exists w, r. repeat split. intros r'. cbn [xdr].
      rewrite HL. cbn [obind]. rewrite Ed, Ep. reflexivity.
    + injection H as <- <-. exists w, r. repeat split. intros r'. cbn [xdr].
      rewrite HL. cbn [obind]. rewrite Ed, Ep. reflexivity.
Qed.

(** ** Independence of the target *)
Definition indep (t : cty) (X : xst -> val -> outcome (xst * val)) : Prop :=
  forall s u v s1 u' s2 v', x_reader s = true -> has_ty E t u -> has_ty E t v ->
  X s u = Ret (s1, u') -> X s v = Ret (s2, v') ->
  s1 = s2 /\ (x_err s1 = None -> disc_of u' = disc_of v').

Ltac ind4 k R SH := 
  match goal with H : (let '(_, _) := _ in _) = Ret _, K : (let '(_, _) := _ in _) = Ret _ |- _ =>
  match type of H with context [mkXst _ _ ?b] =>
  destruct (split_at b k) as [Hs|(hd & r & -> & Hl)];
  [rewrite SH in H, K by exact Hs; injection H as <- <-; injection K as <- <-;
     split; [reflexivity|discriminate]
  |rewrite R in H, K by exact Hl; injection H as <- <-; injection K as <- <-; auto] end end.

Lemma indep_fields n all fs l m s s1 u' s2 v' :
  (forall f t, In (f, t) fs -> wf_ty D E t /\ indep t (xdr n E t)) ->
  incl fs all -> NoDup (map fst all) ->
  has_fields E all l -> has_fields E all m -> x_reader s = true ->
  xdr_fields (xdr n E) fs s (VStruct l) = Ret (s1, u') ->
  xdr_fields (xdr n E) fs s (VStruct m) = Ret (s2, v') -> s1 = s2.
Proof.
  intros HX Hall Hnd. revert l m s. induction fs as [|[f t] fs IH]; cbn; intros l m s Hl Hm Hr H K.
  - congruence.
  - bind_inv H as a1 b1 H1. bind_inv K as a2 b2 K1.
    destruct (HX f t (or_introl eq_refl)) as [Ht HI].
    assert (Hin : In (f, t) all) by (apply Hall; left; reflexivity).
    apply on_field_ret in H1. destruct H1 as (l0 & x & s3 & x' & [= <-] & Hx & H1 & [= <- ->]).
    apply on_field_ret in K1. destruct K1 as (l1 & y & s4 & y' & [= <-] & Hy & K1 & [= <- ->]).
    destruct (has_fields_lookup _ _ _ _ _ Hl Hnd Hin) as (x0 & Hx0 & Hxt).
    destruct (has_fields_lookup _ _ _ _ _ Hm Hnd Hin) as (y0 & Hy0 & Hyt).
    assert (x0 = x) by congruence. assert (y0 = y) by congruence. subst x0 y0.
    destruct (HI _ _ _ _ _ _ _ Hr Hxt Hyt H1 K1) as [<- _].
    assert (Hr1 : x_reader a1 = true).
    { pose proof (xdr_shape _ _ _ _ _ _ _ H1) as [Hsh _]. congruence. }
    pose proof (keeps_xdr D E Hwf _ _ Ht _ _ _ _ Hxt H1) as Tx.
    pose proof (keeps_xdr D E Hwf _ _ Ht _ _ _ _ Hyt K1) as Ty.
    eapply IH; try exact H; try exact K; auto.
    + intros g u Hg. apply (HX g u). right. exact Hg.
    + intros g Hg. apply Hall. right. exact Hg.
    + eapply has_fields_update; eauto.
    + eapply has_fields_update; eauto.
Qed.

Theorem dec_indep n t : wf_ty D E t -> indep t (xdr n E t).
Proof.
  revert t. induction n as [|n IH]; intros t Ht s u v s1 u' s2 v' Hr Hu Hv H K; [discriminate|].
  destruct s as [[e|] rd b]; cbn in Hr; subst rd.
  { eapply (sticky_xdr D E Hwf (S n) t Ht _ _ e) in H; [|reflexivity].
    eapply (sticky_xdr D E Hwf (S n) t Ht _ _ e) in K; [|reflexivity].
    injection H as -> ->. injection K as -> ->. split; [reflexivity|discriminate]. }
  destruct t; inversion Hu; subst; inversion Hv; subst; cbn [xdr] in H, K.
  - ind4 4%nat XdrU32_R XdrU32_short.
  - ind4 4%nat XdrS32_R XdrS32_short.
  - ind4 8%nat XdrU64_R XdrU64_short.
  - ind4 8%nat XdrS64_R XdrS64_short.
  - ind4 4%nat XdrBool_R XdrBool_short.
  - match goal with A : List.length ?x = List.length ?y |- _ => rename A into H2 end.
    destruct (array_cases b (List.length bs)) as [Hs|(h & pad & r & -> & Hl & Hp)].
    + destruct (XdrArray_short _ _ Hs) as (e & w1 & E1 & _). rewrite E1 in H.
      rewrite <- H2 in Hs. destruct (XdrArray_short _ _ Hs) as (e' & w2 & E2 & _). rewrite E2 in K.
      injection H as <- <-. injection K as <- <-. split; [|discriminate].
      (* both fail with the same message *)
      revert E1 E2. unfold XdrArray. cbn [x_err].
      destruct (split_at b (List.length bs)) as [Hq|(h & r & -> & Hh)].
      * rewrite !xdrRW_short by (rewrite ?H2; exact Hq). unfold zlen. rewrite H2.
        destruct (negb _); intros [= <- _] [= <- _]; reflexivity.
      * rewrite !xdrRW_read by congruence. unfold zlen. rewrite H2.
        destruct (negb _); intros E1 E2; congruence.
    + rewrite XdrArray_R in H, K by (rewrite ?Hl; auto). injection H as <- <-. injection K as <- <-. auto.
  - rewrite XVA_R in H, K. destruct (xdrRW (RD b) (zeros 4)) as [x1 sz].
    destruct (_ || _).
    + injection H as <- <-. injection K as <- <-. split; [reflexivity|discriminate].
    + destruct (xdrR x1 (get_u32 sz)) as [x2 w2]. destruct (vfin x2 w2).
      injection H as <- <-. injection K as <- <-. auto.
  - rewrite XST_R in H, K. destruct (xdrRW (RD b) (zeros 4)) as [x1 sz].
    destruct (_ || _).
    + injection H as <- <-. injection K as <- <-. split; [reflexivity|discriminate].
    + destruct (xdrR x1 (get_u32 sz)) as [x2 w2].
      injection H as <- <-. injection K as <- <-. auto.
  - inversion Ht as [| | | | | | | |m' t' Hm Ht' Hz'| | | |]; subst.
    unfold EncodingSetSize in H, K. cbn [x_err x_reader] in H, K.
    destruct (split_at b 4) as [Hs|(hd & r & -> & Hl)].
    + rewrite XdrU32_short in H, K by exact Hs.
      destruct (match max with Some k => 0 >? k | None => false end).
      { injection H as <- <-. injection K as <- <-. split; [reflexivity|discriminate]. }
      cbn in H, K. injection H as <- <-. injection K as <- <-. split; [reflexivity|discriminate].
    + rewrite XdrU32_R in H, K by exact Hl.
      destruct (match max with Some k => be_val hd >? k | None => false end).
      { injection H as <- <-. injection K as <- <-. split; [reflexivity|discriminate]. }
      rewrite Decoding_R in H, K. destruct (zero n E t); [|discriminate].
      rewrite H in K. injection K as <- <-. auto.
  - rewrite Encoding_R in H, K. cbn [obind] in H, K. rewrite Decoding_R in H, K.
    destruct (XdrBool (RD b) false) as [x1 [|]]; [|injection H as <- <-; injection K as <- <-; auto].
    destruct (zero n E t); [|discriminate]. rewrite H in K. injection K as <- <-. auto.
  - rewrite Encoding_R in H, K. cbn [obind] in H, K. rewrite Decoding_R in H, K.
    destruct (XdrBool (RD b) false) as [x1 [|]]; [|injection H as <- <-; injection K as <- <-; auto].
    destruct (zero n E t); [|discriminate]. rewrite H in K. injection K as <- <-. auto.
  - rewrite Encoding_R in H, K. cbn [obind] in H, K. rewrite Decoding_R in H, K.
    destruct (XdrBool (RD b) false) as [x1 [|]]; [|injection H as <- <-; injection K as <- <-; auto].
    destruct (zero n E t); [|discriminate]. rewrite H in K. injection K as <- <-. auto.
  - rewrite Encoding_R in H, K. cbn [obind] in H, K. rewrite Decoding_R in H, K.
    destruct (XdrBool (RD b) false) as [x1 [|]]; [|injection H as <- <-; injection K as <- <-; auto].
    destruct (zero n E t); [|discriminate]. rewrite H in K. injection K as <- <-. auto.
  - inversion Ht as [| | | | | | | | | |fs' Hnd Hwt| |]; subst.
    assert (s1 = s2).
    { eapply (indep_fields n fs fs); try exact H; try exact K; auto using incl_refl. eauto. }
    subst. split; [reflexivity|]. intros _.
    assert (HS : forall fs s l s' v', xdr_fields (xdr n E) fs s (VStruct l) = Ret (s', v') ->
               disc_of v' = None).
    { clear. intros fs. induction fs as [|[f t] fs IHf]; cbn; intros s l s' v' H.
      - injection H as <- <-. reflexivity.
      - bind_inv H as a b K. apply on_field_ret in K.
        destruct K as (l0 & x & s1 & x' & _ & _ & _ & [= -> ->]). eauto. }
    rewrite (HS _ _ _ _ _ H), (HS _ _ _ _ _ K). reflexivity.
  - inversion Ht as [| | | | | | | | | | |sw' st' arms' def' Hnd Hdt Hwt|]; subst.
    assert (Hsw : In (sw, t) (union_fields sw t arms def)) by (left; reflexivity).
    bind_inv H as a1 b1 HH5. bind_inv K as a2 b2 KK5.
    apply on_field_ret in HH5. destruct HH5 as (l2 & x & s3 & x' & [= <-] & Hx & HH5 & [= <- ->]).
    apply on_field_ret in KK5. destruct KK5 as (l3 & y & s4 & y' & [= <-] & Hy & KK5 & [= <- ->]).
    match goal with A : has_fields E _ l, B : has_fields E _ l0 |- _ => rename A into HFl, B into HFm end.
    destruct (has_fields_lookup _ _ _ _ _ HFl Hnd Hsw) as (x0 & Hx0 & Hxt).
    destruct (has_fields_lookup _ _ _ _ _ HFm Hnd Hsw) as (y0 & Hy0 & Hyt).
    assert (x0 = x) by congruence. assert (y0 = y) by congruence. subst x0 y0.
    destruct (IH _ (Hwt _ _ Hsw) _ _ _ _ _ _ _ (eq_refl : x_reader (RD b) = true) Hxt Hyt HH5 KK5) as [<- Hdisc].
    assert (Hr1 : x_reader a1 = true).
    { pose proof (xdr_shape _ _ _ _ _ _ _ HH5) as [Hsh _]. exact Hsh. }
    assert (Hd : forall v1 v2 s0 w, match field_disc v1 sw with
       | Some d => match pick_arm d arms def with
                   | Some (Some (f, t0)) => on_field (xdr n E t0) s0 v1 f
                   | _ => Ret (s0, v1) end
       | None => Panic end = Ret (w, v2) -> (exists l, v1 = VStruct l) -> disc_of v2 = None).
    { clear. intros v1 v2 s0 w H [l ->]. destruct (field_disc (VStruct l) sw); [|discriminate].
      destruct (pick_arm z arms def) as [[[f u]|]|]; try (injection H as <- <-; reflexivity).
      apply on_field_ret in H. destruct H as (l0 & x & s1 & x' & _ & _ & _ & [= -> ->]). reflexivity. }
    split; [|intros _; rewrite (Hd _ _ _ _ H), (Hd _ _ _ _ K) by eauto; reflexivity].
    destruct (x_err a1) as [e|] eqn:Ea.
    + assert (HS : forall v1 v2 w, match field_disc v1 sw with
       | Some d => match pick_arm d arms def with
                   | Some (Some (f, t0)) => on_field (xdr n E t0) a1 v1 f
                   | _ => Ret (a1, v1) end
       | None => Panic end = Ret (w, v2) -> w = a1).
      { intros v1 v2 w H9. destruct (field_disc v1 sw) as [d|]; [|discriminate].
        destruct (pick_arm d arms def) as [[[f u]|]|] eqn:Ep; try (injection H9 as <- <-; reflexivity).
        eapply sticky_field in H9; [congruence| |exact Ea].
        apply (sticky_xdr D E Hwf). eapply Hwt. right. eapply pick_arm_In; eauto. }
      rewrite (HS _ _ _ H), (HS _ _ _ K). reflexivity.
    + specialize (Hdisc eq_refl). cbn [field_disc] in H, K.
      rewrite (lookup_update_same _ _ _ _ Hx) in H. rewrite (lookup_update_same _ _ _ _ Hy) in K.
      rewrite <- Hdisc in K. destruct (disc_of x') as [d|]; [|discriminate].
      destruct (pick_arm d arms def) as [[[f u]|]|] eqn:Ep; [|congruence|congruence].
      assert (Hin : In (f, u) (union_fields sw t arms def)) by (right; eapply pick_arm_In; eauto).
      pose proof (keeps_xdr D E Hwf _ _ (Hwt _ _ Hsw) _ _ _ _ Hxt HH5) as Tx.
      pose proof (keeps_xdr D E Hwf _ _ (Hwt _ _ Hsw) _ _ _ _ Hyt KK5) as Ty.
      assert (HFl' : has_fields E (union_fields sw t arms def) (update sw x' l))
        by (eapply has_fields_update; eauto).
      assert (HFm' : has_fields E (union_fields sw t arms def) (update sw y' l0))
        by (eapply has_fields_update; eauto).
      apply on_field_ret in H. destruct H as (l2 & p & s3 & p' & [= <-] & Hp & H & [= <- ->]).
      apply on_field_ret in K. destruct K as (l3 & q & s4 & q' & [= <-] & Hq & K & [= <- ->]).
      exact (proj1 (IH _ (Hwt _ _ Hin) _ _ _ _ _ _ _ Hr1 (has_fields_get _ _ _ _ _ _ HFl' Hnd Hin Hp)
               (has_fields_get _ _ _ _ _ _ HFm' Hnd Hin Hq) H K)).
  - destruct (lookup x E) as [w|] eqn:Hx; [|discriminate].
    match goal with A : Some w = Some ?a, B : Some w = Some ?c |- _ =>
      injection A as <-; injection B as <- end.
    refine (IH _ (wf_lookup _ _ Hwf _ _ Hx) _ _ _ _ _ _ _ _ _ _ H K); auto.
Qed.

End Local.
