(** Decoding: the interpreter on a reader state against the relation [Wire]. *)
From Verif Require Import Bytes XdrLib Types Interp Spec Prim Meta Enc.
Open Scope string_scope.
Open Scope Z_scope.
Open Scope list_scope.

Lemma within_be m hd : List.length hd = 4%nat -> max_ok m ->
  in_bound (maxlen_of m) (be_val hd) = true -> within m (be_val hd).
Proof. intros Hl Hm H. apply in_bound_within in H; auto. apply be_val_4. exact Hl. Qed.

Lemma no_stale_lookup l f x : no_stale (VStruct l) = true -> lookup f l = Some x -> no_stale x = true.
Proof.
  cbn. induction l as [|[g y] l IH]; cbn; [discriminate|].
  rewrite andb_true_iff. intros [H1 H2]. destruct (String.eqb f g); [congruence|auto].
Qed.

Lemma same_disc E t v w : same E t v w -> disc_of v = disc_of w.
Proof.
  induction 1; auto.
Qed.

Section Dec.
Variables (D : nat) (E : env).
Hypothesis Hwf : wf_env D E.

Definition dec_ok (t : cty) (X : xst -> val -> outcome (xst * val)) : Prop :=
  forall b v0 s' v', has_ty E t v0 -> no_stale v0 = true -> X (RD b) v0 = Ret (s', v') ->
  (exists w rest, b = w ++ rest /\ s' = RD rest /\ Wire DEC E t v' w)
  \/ (exists e r, s' = mkXst (Some e) true r /\ suffix r b).

Lemma dec_field all X f t l b s' v' :
  keeps E t X -> dec_ok t X -> has_fields E all l -> NoDup (map fst all) -> In (f, t) all ->
  (forall x, lookup f l = Some x -> no_stale x = true) ->
  on_field X (RD b) (VStruct l) f = Ret (s', v') ->
  exists x', v' = VStruct (update f x' l) /\ has_ty E t x' /\
    has_fields E all (update f x' l) /\ lookup f (update f x' l) = Some x' /\
    ((exists w rest, b = w ++ rest /\ s' = RD rest /\ Wire DEC E t x' w)
     \/ (exists e r, s' = mkXst (Some e) true r /\ suffix r b)).
Proof.
  intros HK HX Hl Hnd Hin Hns H.
  eapply keeps_field in H; [|exact Hl|exact Hnd|exact Hin|exact HK].
  destruct H as (l' & x & x' & -> & Hl' & Hx & H & -> & Hxt & Hxt').
  exists x'. split; [reflexivity|]. split; [assumption|]. split; [assumption|]. split.
  - eapply lookup_update_same; eauto.
  - exact (HX _ _ _ _ Hxt (Hns _ Hx) H).
Qed.

Lemma dec_fields X all fs l b s' v' :
  (forall f t, In (f, t) fs -> keeps E t (X t) /\ dec_ok t (X t) /\ sticky (X t)) ->
  has_fields E all l -> NoDup (map fst all) -> incl fs all -> NoDup (map fst fs) ->
  (forall f x, In f (map fst fs) -> lookup f l = Some x -> no_stale x = true) ->
  xdr_fields X fs (RD b) (VStruct l) = Ret (s', v') ->
  exists l', v' = VStruct l' /\ (forall g, ~ In g (map fst fs) -> lookup g l' = lookup g l) /\
    ((exists w rest, b = w ++ rest /\ s' = RD rest /\ WireFields DEC E fs l' w)
     \/ (exists e r, s' = mkXst (Some e) true r /\ suffix r b)).
Proof.
  intros HX Hl Hnd. revert b l Hl. induction fs as [|[f t] fs IH]; cbn; intros b l Hl Hin Hnf Hns H.
  - injection H as <- <-. exists l. split; [reflexivity|]. split; [reflexivity|]. left.
    exists [], b. split; [reflexivity|]. split; [reflexivity|constructor].
  - bind_inv H as s1 v1 K. inversion Hnf; subst.
    destruct (HX f t (or_introl eq_refl)) as (HK & HD & _).
    eapply dec_field in K; [|exact HK|exact HD|eassumption|eassumption|apply Hin; left; reflexivity
                            |intros x Hx; eapply Hns; [left; reflexivity|exact Hx]].
    destruct K as (x' & -> & Hty & Hl1 & Hlk & [K|(e & r & -> & Hr)]).
    + destruct K as (w & rest & -> & -> & Hw).
      apply IH in H; [|intros g u Hg; apply (HX g u); right; exact Hg|exact Hl1
        |intros a Ha; apply Hin; right; exact Ha|assumption|].
      2:{ intros g y Hg Hy. destruct (String.eqb_spec f g) as [->|Hne]; [contradiction|].
          rewrite lookup_update_other in Hy by exact Hne. eapply Hns; eauto. }
      destruct H as (l' & -> & Hoth & H). exists l'. split; [reflexivity|]. split.
      { intros g Hg. rewrite Hoth by tauto. apply lookup_update_other. tauto. }
      destruct H as [(w2 & rest2 & -> & -> & Hw2)|(e & r & -> & Hr)].
      * left. exists (w ++ w2), rest2. rewrite app_assoc. repeat split; auto.
        apply WF_next with x'; auto. rewrite Hoth by assumption. exact Hlk.
      * right. do 2 eexists. split; [reflexivity|]. eapply suffix_trans; eauto.
    + eapply (sticky_fields _ _ _ _ e) in H; [| |reflexivity].
      2:{ intros g u Hg. eapply HX. right. exact Hg. }
      injection H as -> ->. eexists. split; [reflexivity|]. split.
      { intros g Hg. apply lookup_update_other. tauto. }
      right. eauto.
Qed.

Lemma dec_elems X t l b s' l' :
  keeps E t X -> dec_ok t X -> sticky X -> has_tys E t l ->
  forallb no_stale l = true ->
  xdr_elems X (List.length l) l (RD b) = Ret (s', l') ->
  List.length l' = List.length l /\
  ((exists w rest, b = w ++ rest /\ s' = RD rest /\ WireList DEC E t l' w)
   \/ (exists e r, s' = mkXst (Some e) true r /\ suffix r b)).
Proof.
  intros HK HX HS. revert b s' l'. induction l as [|x l IH]; cbn; intros b s' l' Hl Hns H.
  - injection H as <- <-. split; [reflexivity|]. left. exists [], b. repeat split. constructor.
  - apply andb_true_iff in Hns. destruct Hns as [Hn1 Hn2].
    bind_inv H as s1 x1 K. bind_inv H as s2 l2 K2. injection H as <- <-.
    inversion Hl; subst.
    eapply HX in K; [|assumption|exact Hn1]. destruct K as [(w & rest & -> & -> & Hw)|(e & r & -> & Hr)].
    + apply IH in K2; [|assumption|exact Hn2]. destruct K2 as (Hlen & K2).
      split; [cbn; congruence|].
      destruct K2 as [(w2 & rest2 & -> & -> & Hw2)|(e & r & -> & Hr)].
      * left. exists (w ++ w2), rest2. rewrite app_assoc. repeat split. constructor; auto.
      * right. do 2 eexists. split; [reflexivity|]. eapply suffix_trans; eauto.
    + eapply (sticky_elems _ _ _ _ e) in K2; [|assumption|reflexivity].
      injection K2 as -> ->. split; [reflexivity|]. right. eauto.
Qed.

Lemma repeat_no_stale z k : no_stale z = true -> forallb no_stale (repeat z k) = true.
Proof. intros H. induction k; cbn; [reflexivity|]. rewrite H. exact IHk. Qed.

Theorem dec_sound n t : wf_ty D E t -> dec_ok t (xdr n E t).
Proof.
  revert t. induction n as [|n IH]; intros t Ht b v s' v' Hv Hns H; [discriminate|].
  assert (KP : forall u, wf_ty D E u -> keeps E u (xdr n E u)) by (intros; eapply keeps_xdr; eauto).
  assert (ST : forall u, wf_ty D E u -> sticky (xdr n E u)) by (intros; eapply sticky_xdr; eauto).
  destruct Hv as [z Hz|z Hz|z Hz|z Hz|b0|k bs Hbs|m o|m bs|m t o Hvs|t|t v Hv|fs l Hl
                 |sw st arms def l Hl|x t v Hx Hv]; cbn [xdr] in H.
  - destruct (split_at b 4) as [Hs|(h & r & -> & Hl)].
    + rewrite XdrU32_short in H by exact Hs. injection H as <- <-. right. eauto.
    + rewrite XdrU32_R in H by exact Hl. injection H as <- <-. left. exists h, r.
      repeat split. constructor; [apply be_val_4; exact Hl|]. split; auto.
  - destruct (split_at b 4) as [Hs|(h & r & -> & Hl)].
    + rewrite XdrS32_short in H by exact Hs. injection H as <- <-. right. eauto.
    + rewrite XdrS32_R in H by exact Hl. injection H as <- <-. left. exists h, r.
      repeat split. constructor; [apply to_s32_range|]. split; auto.
      rewrite to_s32_mod. symmetry. apply Z.mod_small. apply be_val_4. exact Hl.
  - destruct (split_at b 8) as [Hs|(h & r & -> & Hl)].
    + rewrite XdrU64_short in H by exact Hs. injection H as <- <-. right. eauto.
    + rewrite XdrU64_R in H by exact Hl. injection H as <- <-. left. exists h, r.
      repeat split. constructor; [apply be_val_8; exact Hl|]. split; auto.
  - destruct (split_at b 8) as [Hs|(h & r & -> & Hl)].
    + rewrite XdrS64_short in H by exact Hs. injection H as <- <-. right. eauto.
    + rewrite XdrS64_R in H by exact Hl. injection H as <- <-. left. exists h, r.
      repeat split. constructor; [apply to_s64_range|]. split; auto.
      rewrite to_s64_mod. symmetry. apply Z.mod_small. apply be_val_8. exact Hl.
  - destruct (split_at b 4) as [Hs|(h & r & -> & Hl)].
    + rewrite XdrBool_short in H by exact Hs. injection H as <- <-. right. eauto.
    + rewrite XdrBool_R in H by exact Hl. injection H as <- <-. left. exists h, r.
      repeat split. destruct (Z.eqb_spec (be_val h) 0); cbn [negb].
      * constructor. split; auto.
      * apply W_true with (be_val h); [split; auto|auto|discriminate].
  - destruct (split_at b (k + padlen k)) as [Hs|(hp & r & -> & Hl)].
    + subst k. destruct (XdrArray_short b bs Hs) as (e & v1 & Hx & _).
      rewrite Hx in H. injection H as <- <-. right. eauto.
    + destruct (split_at hp k) as [Hs|(h & p & -> & Hk)]; [lia|].
      rewrite app_length in Hl. rewrite <- app_assoc in H.
      rewrite XdrArray_R in H by (rewrite Hk; try congruence; lia).
      injection H as <- <-. left. exists (h ++ p), r. repeat split.
      constructor; [exact Hk|]. apply is_pad_intro; [lia|discriminate].
  - inversion Ht; subst.
    destruct (var_cases b (maxlen_of m)) as [(hd & h & p & r & -> & A1 & A2 & A3 & A4)|Hf].
    + rewrite XdrVarArray_R in H by assumption. injection H as <- <-. left.
      exists (hd ++ h ++ p), r. rewrite !app_assoc. repeat split.
      rewrite <- !app_assoc. rewrite <- A2 in A4.
      apply within_be in A4; [|assumption|assumption]. rewrite A2 in A4.
      apply W_varopaque with (bs := h); auto.
      * split; auto.
      * apply is_pad_intro; [exact A3|discriminate].
    + destruct (XdrVarArray_fail b (maxlen_of m) o Hf) as (e & r & o' & Hx & Hr).
      rewrite Hx in H. injection H as <- <-. right. eauto.
  - inversion Ht; subst.
    destruct (var_cases b (maxlen_of m)) as [(hd & h & p & r & -> & A1 & A2 & A3 & A4)|Hf].
    + rewrite XdrString_R in H by assumption. injection H as <- <-. left.
      exists (hd ++ h ++ p), r. rewrite !app_assoc. repeat split.
      rewrite <- !app_assoc. rewrite <- A2 in A4.
      apply within_be in A4; [|assumption|assumption]. rewrite A2 in A4.
      apply W_string; auto.
      * split; auto.
      * apply is_pad_intro; [exact A3|discriminate].
    + destruct (XdrString_fail b (maxlen_of m) bs Hf) as (e & r & o' & Hx & Hr).
      rewrite Hx in H. injection H as <- <-. right. eauto.
  - inversion Ht as [| | | | | | | |m' t' Hm Ht' Hz| | | |]; subst.
    change (EncodingSetSize (RD b) 0 (zlen (elems o))) with (RD b, 0) in H. cbv iota beta in H.
    destruct (split_at b 4) as [Hs|(hd & r & -> & Hl)].
    + rewrite XdrU32_short in H by exact Hs.
      replace (match m with Some k => 0 >? k | None => false end) with false in H.
      2:{ destruct m as [k|]; [|reflexivity]. cbn in Hm. rewrite Z.gtb_ltb.
          symmetry. apply Z.ltb_ge. exact Hm. }
      cbn in H. injection H as <- <-. right. eauto.
    + rewrite XdrU32_R in H by exact Hl.
      pose proof (be_val_4 _ Hl) as Hr.
      destruct (match m with Some k => be_val hd >? k | None => false end) eqn:Eb.
      { injection H as <- <-. right. do 2 eexists. split; [reflexivity|]. auto. }
      apply gtb_within in Eb; [|assumption|apply Hr].
      rewrite Decoding_R in H.
      destruct (zero n E t) as [z|] eqn:Ez; [|discriminate].
      bind_inv H as s3 l3 K. injection H as <- <-.
      set (k := Z.to_nat (be_val hd)) in K.
      rewrite <- (repeat_length z k) in K at 1.
      eapply dec_elems in K; [|apply KP; exact Ht'|apply IH; exact Ht'|apply ST; exact Ht'
        |apply has_tys_repeat; eapply zero_ty; eassumption
        |apply repeat_no_stale; eapply zero_no_stale; eassumption].
      rewrite repeat_length in K. destruct K as (Hlen & K).
      assert (Hzl : zlen l3 = be_val hd) by (unfold zlen; rewrite Hlen; unfold k; lia).
      destruct K as [(w & rest & -> & -> & Hw)|(e & q & -> & Hq)].
      * left. exists (hd ++ w), rest. rewrite app_assoc. repeat split.
        apply W_vararray with (l := l3); auto.
        -- rewrite Hzl. exact Eb.
        -- split; auto.
      * right. do 2 eexists. split; [reflexivity|]. eapply suffix_trans; eauto.
  - inversion Ht as [| | | | | | | | |t' Ht' Hz| | |]; subst.
    rewrite Encoding_R in H. cbn [obind] in H. rewrite Decoding_R in H.
    destruct (split_at b 4) as [Hs|(hd & r & -> & Hl)].
    + rewrite XdrBool_short in H by exact Hs. injection H as <- <-. right. eauto.
    + rewrite XdrBool_R in H by exact Hl.
      destruct (Z.eqb_spec (be_val hd) 0) as [H0|H0]; cbn [negb] in H.
      * injection H as <- <-. left. exists hd, r. repeat split. constructor. split; auto.
      * destruct (zero n E t) as [z|] eqn:Ez; [|discriminate].
        bind_inv H as s3 x3 K. injection H as <- <-.
        apply IH in K; [|exact Ht'|eapply zero_ty; eassumption|eapply zero_no_stale; eassumption].
        destruct K as [(w & rest & -> & -> & Hw)|(e & q & -> & Hq)].
        -- left. exists (hd ++ w), rest. rewrite app_assoc. repeat split.
           apply W_present with (be_val hd); [split; auto|auto|discriminate|exact Hw].
        -- right. do 2 eexists. split; [reflexivity|]. eapply suffix_trans; eauto.
  - discriminate.
  - inversion Ht; subst.
    eapply dec_fields in H; [|intros; split; [apply KP; eauto|split; [apply IH; eauto|apply ST; eauto]]
       |eassumption|eassumption|apply incl_refl|assumption
       |intros f x _ Hx; eapply no_stale_lookup; eauto].
    destruct H as (l' & -> & _ & [(w & rest & -> & -> & Hw)|H]); [left|right; exact H].
    exists w, rest. repeat split. constructor. exact Hw.
  - inversion Ht as [| | | | | | | | | | |sw' st' arms' def' Hnd Hd Hwt|]; subst.
    bind_inv H as s1 v1 K.
    assert (Hsw : In (sw, st) (union_fields sw st arms def)) by (left; reflexivity).
    eapply dec_field in K; [|apply KP; eauto|apply IH; eauto|eassumption|eassumption
       |exact Hsw|intros x Hx; eapply no_stale_lookup; eauto].
    destruct K as (dv & -> & Hdty & Hl1 & Hlk & K).
    cbn [field_disc] in H. rewrite Hlk in H.
    destruct (disc_of dv) as [d|] eqn:Ed; [|discriminate].
    destruct (pick_arm d arms def) as [[[f u]|]|] eqn:Ep.
    + assert (Hin0 := pick_arm_In _ _ _ _ _ Ep).
      assert (Hin : In (f, u) (union_fields sw st arms def)) by (right; exact Hin0).
      assert (Hne : sw <> f).
      { intros ->. cbn in Hnd. inversion Hnd; subst. apply H2.
        apply (in_map fst) in Hin0. exact Hin0. }
      destruct K as [(w & rest & -> & -> & Hw1)|(e & r & -> & Hr)].
      * eapply dec_field in H; [|apply KP; eauto|apply IH; eauto|eassumption|eassumption
          |exact Hin|].
        2:{ intros x Hx. rewrite lookup_update_other in Hx by exact Hne.
            eapply no_stale_lookup; eauto. }
        destruct H as (xv & -> & Hxty & Hl2 & Hlk2 & H).
        destruct H as [(w2 & rest2 & -> & -> & Hw2)|(e & r & -> & Hr)].
        -- left. exists (w ++ w2), rest2. rewrite app_assoc. repeat split.
           eapply W_union_arm; eauto.
           rewrite lookup_update_other by congruence. exact Hlk.
        -- right. do 2 eexists. split; [reflexivity|]. eapply suffix_trans; eauto.
      * eapply sticky_field in H; [|apply ST; eauto|reflexivity].
        injection H as -> ->. right. eauto.
    + injection H as <- <-. destruct K as [(w & rest & -> & -> & Hw1)|K]; [left|right; exact K].
      exists w, rest. repeat split. eapply W_union_void; eauto.
    + injection H as <- <-. destruct K as [(w & rest & -> & -> & Hw1)|K]; [left|right; exact K].
      exists w, rest. repeat split. eapply W_union_unlisted; eauto.
  - rewrite Hx in H. apply IH in H; [|eapply wf_lookup; eauto|assumption|assumption].
    destruct H as [(w & rest & -> & -> & Hw)|H]; [left|right; exact H].
    exists w, rest. repeat split. econstructor; eauto.
Qed.

(** Conversely, an encoding (of any leniency) followed by anything is decoded. *)
Definition dec_to (p : policy) (t : cty) (X : xst -> val -> outcome (xst * val)) : Prop :=
  forall w rest v v0 s' v', Wire p E t v w -> has_ty E t v0 -> no_stale v0 = true ->
  X (RD (w ++ rest)) v0 = Ret (s', v') -> s' = RD rest /\ same E t v v'.

Lemma dec_to_field p all X f t l x w rest s' v' :
  keeps E t X -> dec_to p t X -> has_fields E all l -> NoDup (map fst all) -> In (f, t) all ->
  (forall y, lookup f l = Some y -> no_stale y = true) ->
  Wire p E t x w ->
  on_field X (RD (w ++ rest)) (VStruct l) f = Ret (s', v') ->
  s' = RD rest /\ exists x', v' = VStruct (update f x' l) /\ has_ty E t x' /\
    has_fields E all (update f x' l) /\ lookup f (update f x' l) = Some x' /\ same E t x x'.
Proof.
  intros HK HX Hl Hnd Hin Hns Hw H.
  eapply keeps_field in H; [|exact Hl|exact Hnd|exact Hin|exact HK].
  destruct H as (l' & y & x' & -> & Hl' & Hy & H & -> & Hyt & Hxt').
  apply (HX _ _ _ _ _ _ Hw Hyt (Hns _ Hy)) in H. destruct H as [-> Hs]. split; [reflexivity|].
  exists x'. repeat split; auto. eapply lookup_update_same; eauto.
Qed.

Lemma dec_to_fields p X all fs l m w rest s' v' :
  (forall f t, In (f, t) fs -> keeps E t (X t) /\ dec_to p t (X t)) ->
  has_fields E all l -> NoDup (map fst all) -> incl fs all -> NoDup (map fst fs) ->
  (forall f x, In f (map fst fs) -> lookup f l = Some x -> no_stale x = true) ->
  WireFields p E fs m w ->
  xdr_fields X fs (RD (w ++ rest)) (VStruct l) = Ret (s', v') ->
  s' = RD rest /\ exists l', v' = VStruct l' /\
    (forall g, ~ In g (map fst fs) -> lookup g l' = lookup g l) /\ same_fields E fs m l'.
Proof.
  intros HX Hl Hnd. revert w l Hl. induction fs as [|[f t] fs IH]; cbn; intros w l Hl Hin Hnf Hns Hw H.
  - inversion Hw; subst. injection H as <- <-. split; [reflexivity|].
    exists l. repeat split. constructor.
  - inversion Hw as [|f' t' fs' l0 x w1 w2 Hx Hw1 Hw2]; subst. rewrite <- app_assoc in H.
    bind_inv H as s1 v1 K. inversion Hnf; subst.
    destruct (HX f t (or_introl eq_refl)) as (HK & HD).
    eapply dec_to_field in K; [|exact HK|exact HD|eassumption|eassumption|apply Hin; left; reflexivity
                            |intros y Hy; eapply Hns; [left; reflexivity|exact Hy]|exact Hw1].
    destruct K as (-> & x' & -> & Hty & Hl1 & Hlk & Hs).
    apply IH in H; [|intros g u Hg; apply (HX g u); right; exact Hg|exact Hl1
        |intros a Ha; apply Hin; right; exact Ha|assumption| |assumption].
    2:{ intros g y Hg Hy. destruct (String.eqb_spec f g) as [->|Hne]; [contradiction|].
        rewrite lookup_update_other in Hy by exact Hne. eapply Hns; eauto. }
    destruct H as (-> & l' & -> & Hoth & H). split; [reflexivity|].
    exists l'. split; [reflexivity|]. split.
    { intros g Hg. rewrite Hoth by tauto. apply lookup_update_other. tauto. }
    apply SF_cons with x x'; auto. rewrite Hoth by assumption. exact Hlk.
Qed.

Lemma dec_to_elems p X t l0 l w rest s' l' :
  keeps E t X -> dec_to p t X -> has_tys E t l0 ->
  forallb no_stale l0 = true -> WireList p E t l w -> List.length l = List.length l0 ->
  xdr_elems X (List.length l) l0 (RD (w ++ rest)) = Ret (s', l') ->
  s' = RD rest /\ sames E t l l'.
Proof.
  intros HK HX. revert l0 w s' l'. induction l as [|x l IH]; cbn; intros l0 w s' l' Hl Hns Hw Hlen H.
  - inversion Hw; subst. injection H as <- <-. destruct l0; [|discriminate].
    split; [reflexivity|constructor].
  - destruct l0 as [|x0 l0]; [discriminate|]. cbn in Hns. injection Hlen as Hlen.
    apply andb_true_iff in Hns. destruct Hns as [Hn1 Hn2].
    inversion Hw as [|t' x' l1 w1 w2 Hw1 Hw2]; subst. rewrite <- app_assoc in H.
    bind_inv H as s1 x1 K. bind_inv H as s2 l2 K2. injection H as <- <-.
    inversion Hl; subst.
    eapply HX in K; [|exact Hw1|assumption|exact Hn1]. destruct K as [-> Hs].
    eapply IH in K2; [|assumption|exact Hn2|exact Hw2|assumption].
    destruct K2 as [-> Hs2]. split; [reflexivity|]. constructor; auto.
Qed.

Theorem dec_complete p n t : wf_ty D E t -> dec_to p t (xdr n E t).
Proof.
  revert t. induction n as [|n IH]; intros t Ht w rest v v0 s' v' Hw Hv Hns H; [discriminate|].
  assert (KP : forall u, wf_ty D E u -> keeps E u (xdr n E u)) by (intros; eapply keeps_xdr; eauto).
  destruct Hw as [z w Hz Hb|z w Hz Hb|z w Hz Hb|z w Hz Hb|w Hb|w z Hb Hnz H01|k bs pad Hk Hp
    |m o hd bs pad -> Hin Hb Hp|m bs hd pad Hin Hb Hp|m t o l hd body -> Hin Hb Hl
    |t hd Hb|t v hd z body Hb Hnz H01 Hw|fs l w Hl
    |sw st arms def l dv d w1 f t v w2 Hdv Hw1 Hd Hp Hlv Hw2
    |sw st arms def l dv d w1 Hdv Hw1 Hd Hp
    |sw st arms def l dv d w1 Hdv Hw1 Hd Hp Hul
    |x t v w Hx Hw]; inversion Hv; subst; cbn [xdr] in H.
  - destruct Hb as [Hl <-]. rewrite XdrU32_R in H by exact Hl. injection H as <- <-.
    split; [reflexivity|constructor].
  - destruct Hb as [Hl Hb]. rewrite XdrS32_R in H by exact Hl. injection H as <- <-.
    rewrite Hb, to_s32_id by exact Hz. split; [reflexivity|constructor].
  - destruct Hb as [Hl <-]. rewrite XdrU64_R in H by exact Hl. injection H as <- <-.
    split; [reflexivity|constructor].
  - destruct Hb as [Hl Hb]. rewrite XdrS64_R in H by exact Hl. injection H as <- <-.
    rewrite Hb, to_s64_id by exact Hz. split; [reflexivity|constructor].
  - destruct Hb as [Hl Hb]. rewrite XdrBool_R in H by exact Hl. rewrite Hb in H.
    injection H as <- <-. split; [reflexivity|constructor].
  - destruct Hb as [Hl <-]. rewrite XdrBool_R in H by exact Hl.
    destruct (Z.eqb_spec (be_val w) 0); [congruence|]. injection H as <- <-.
    split; [reflexivity|constructor].
  - rewrite <- app_assoc in H. rewrite XdrArray_R in H; [|congruence|eapply is_pad_len; exact Hp].
    injection H as <- <-. split; [reflexivity|constructor].
  - inversion Ht; subst. destruct Hb as [Hl Hb]. rewrite <- !app_assoc in H.
    rewrite XdrVarArray_R in H; auto.
    + injection H as <- <-. split; [reflexivity|]. constructor. reflexivity.
    + eapply is_pad_len; exact Hp.
    + apply in_bound_within; auto. apply Hin.
  - inversion Ht; subst. destruct Hb as [Hl Hb]. rewrite <- !app_assoc in H.
    rewrite XdrString_R in H; auto.
    + injection H as <- <-. split; [reflexivity|]. constructor.
    + eapply is_pad_len; exact Hp.
    + apply in_bound_within; auto. apply Hin.
  - inversion Ht as [| | | | | | | |m' t' Hm Ht' Hz| | | |]; subst.
    destruct Hb as [Hhd Hb]. rewrite <- app_assoc in H.
    change (EncodingSetSize (RD (hd ++ body ++ rest)) 0 (zlen (elems o0)))
      with (RD (hd ++ body ++ rest), 0) in H. cbv iota beta in H.
    rewrite XdrU32_R in H by exact Hhd. rewrite Hb in H.
    rewrite (proj2 (gtb_within m _ Hm (proj1 Hin)) Hin) in H.
    rewrite Decoding_R in H.
    destruct (zero n E t) as [z|] eqn:Ez; [|discriminate].
    bind_inv H as s3 l3 K. injection H as <- <-.
    unfold zlen in K. rewrite Nat2Z.id in K.
    eapply dec_to_elems in K; [|apply KP; exact Ht'|apply IH; exact Ht'
        |apply has_tys_repeat; eapply zero_ty; eassumption
        |apply repeat_no_stale; eapply zero_no_stale; eassumption|exact Hl
        |rewrite repeat_length; reflexivity].
    destruct K as [-> K]. split; [reflexivity|]. constructor. exact K.
  - destruct Hb as [Hl Hb]. rewrite Encoding_R in H. cbn [obind] in H. rewrite Decoding_R in H.
    rewrite XdrBool_R in H by exact Hl. rewrite Hb in H. cbn in H. injection H as <- <-.
    split; [reflexivity|constructor].
  - discriminate.
  - inversion Ht as [| | | | | | | | |t' Ht' Hz| | |]; subst.
    destruct Hb as [Hl Hb]. rewrite Encoding_R in H. cbn [obind] in H. rewrite Decoding_R in H.
    rewrite <- app_assoc in H. rewrite XdrBool_R in H by exact Hl. rewrite Hb in H.
    destruct (Z.eqb_spec z 0); [congruence|]. cbn [negb] in H.
    destruct (zero n E t) as [z0|] eqn:Ez; [|discriminate].
    bind_inv H as s3 x3 K. injection H as <- <-.
    eapply IH in K; [|exact Ht'|exact Hw|eapply zero_ty; eassumption|eapply zero_no_stale; eassumption].
    destruct K as [-> K]. split; [reflexivity|constructor; exact K].
  - discriminate.
  - inversion Ht; subst.
    eapply dec_to_fields in H; [|intros; split; [apply KP; eauto|apply IH; eauto]
       |eassumption|eassumption|apply incl_refl|assumption
       |intros f x _ Hx; eapply no_stale_lookup; eauto|exact Hl].
    destruct H as (-> & l' & -> & _ & Hs). split; [reflexivity|constructor; exact Hs].
  - inversion Ht as [| | | | | | | | | | |sw' st' arms' def' Hnd Hdt Hwt|]; subst.
    rewrite <- app_assoc in H. bind_inv H as s1 v1 K.
    assert (Hsw : In (sw, st) (union_fields sw st arms def)) by (left; reflexivity).
    eapply dec_to_field in K; [|apply KP; eauto|apply IH; eauto|eassumption|eassumption
       |exact Hsw|intros y Hy; eapply no_stale_lookup; eauto|exact Hw1].
    destruct K as (-> & dv' & -> & Hdty & Hl1 & Hlk & Hs).
    cbn [field_disc] in H. rewrite Hlk, <- (same_disc _ _ _ _ Hs), Hd, Hp in H.
    assert (Hin0 := pick_arm_In _ _ _ _ _ Hp).
    assert (Hin : In (f, t) (union_fields sw st arms def)) by (right; exact Hin0).
    assert (Hne : sw <> f).
    { intros ->. cbn in Hnd. inversion Hnd as [|? ? Hni _]; subst. apply Hni.
      apply (in_map fst) in Hin0. exact Hin0. }
    eapply dec_to_field in H; [|apply KP; eauto|apply IH; eauto|eassumption|eassumption
          |exact Hin| |exact Hw2].
    2:{ intros x Hx. rewrite lookup_update_other in Hx by exact Hne.
        eapply no_stale_lookup; eauto. }
    destruct H as (-> & xv & -> & Hxty & Hl2 & Hlk2 & Hs2). split; [reflexivity|].
    eapply S_union_arm; eauto. rewrite lookup_update_other by congruence. exact Hlk.
  - inversion Ht as [| | | | | | | | | | |sw' st' arms' def' Hnd Hdt Hwt|]; subst.
    bind_inv H as s1 v1 K.
    assert (Hsw : In (sw, st) (union_fields sw st arms def)) by (left; reflexivity).
    eapply dec_to_field in K; [|apply KP; eauto|apply IH; eauto|eassumption|eassumption
       |exact Hsw|intros y Hy; eapply no_stale_lookup; eauto|exact Hw1].
    destruct K as (-> & dv' & -> & Hdty & Hl1 & Hlk & Hs).
    cbn [field_disc] in H. rewrite Hlk, <- (same_disc _ _ _ _ Hs), Hd, Hp in H.
    injection H as <- <-. split; [reflexivity|]. eapply S_union_void; eauto.
  - inversion Ht as [| | | | | | | | | | |sw' st' arms' def' Hnd Hdt Hwt|]; subst.
    bind_inv H as s1 v1 K.
    assert (Hsw : In (sw, st) (union_fields sw st arms def)) by (left; reflexivity).
    eapply dec_to_field in K; [|apply KP; eauto|apply IH; eauto|eassumption|eassumption
       |exact Hsw|intros y Hy; eapply no_stale_lookup; eauto|exact Hw1].
    destruct K as (-> & dv' & -> & Hdty & Hl1 & Hlk & Hs).
    cbn [field_disc] in H. rewrite Hlk, <- (same_disc _ _ _ _ Hs), Hd, Hp in H.
    injection H as <- <-. split; [reflexivity|]. eapply S_union_void; eauto.
  - rewrite Hx in H.
    match goal with K : lookup x E = Some ?u |- _ => rewrite Hx in K; injection K as <- end.
    eapply IH in H; [|eapply wf_lookup; eauto|exact Hw|assumption|assumption].
    destruct H as [-> Hs]. split; [reflexivity|]. econstructor; eauto.
Qed.

End Dec.
