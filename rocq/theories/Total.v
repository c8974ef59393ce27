(** Shape of state changes, independence of fuel, termination without panic. *)
From Verif Require Import Bytes XdrLib Types Interp Spec Prim Meta Enc Dec.
Open Scope string_scope.
Open Scope Z_scope.
Open Scope list_scope.

(** ** A reader only drops a prefix of its input; a writer only appends. *)
Definition shape (s s' : xst) : Prop :=
  x_reader s' = x_reader s /\
  if x_reader s then suffix (x_buf s') (x_buf s) else exists w, x_buf s' = x_buf s ++ w.

Lemma shape_refl s : shape s s.
Proof. split; [reflexivity|]. destruct (x_reader s); [auto|]. exists []. rewrite app_nil_r. reflexivity. Qed.
Lemma shape_trans a b c : shape a b -> shape b c -> shape a c.
Proof.
  intros [H1 H2] [H3 H4]. split; [congruence|]. rewrite H1 in H4.
  destruct (x_reader a); [eapply suffix_trans; eauto|].
  destruct H2 as [w Hw], H4 as [w' Hw']. exists (w ++ w'). rewrite Hw', Hw, app_assoc. reflexivity.
Qed.
#[global] Hint Resolve shape_refl : core.

Lemma shape_set_err s e : shape s (set_err s e).
Proof.
  split; [reflexivity|]. cbn. destruct (x_reader s); [auto|]. exists [].
  rewrite app_nil_r. reflexivity.
Qed.
#[global] Hint Resolve shape_set_err : core.

Lemma suffix_skipn n (l : list byte) : suffix (skipn n l) l.
Proof. exists (firstn n l). symmetry. apply firstn_skipn. Qed.

Lemma shape_xdrRW s v : shape s (fst (xdrRW s v)).
Proof.
  unfold xdrRW. destruct (x_err s); [apply shape_refl|].
  unfold shape. destruct (x_reader s) eqn:Er.
  - set (n := Nat.min _ _). destruct (Nat.ltb _ _); cbn; rewrite Er; auto using suffix_skipn.
  - cbn. rewrite Er. eauto.
Qed.

Lemma shape_xdrR s n : x_reader s = true -> shape s (fst (xdrR s n)).
Proof.
  intros Er. unfold xdrR.
  destruct (zlen (x_buf s) <? n); cbn.
  - auto.
  - destruct (x_err s); cbn; [auto|]. split; cbn; [reflexivity|]. rewrite Er.
    apply suffix_skipn.
Qed.

Ltac shp :=
  repeat match goal with
  | |- context [xdrRW ?s ?v] =>
      let H := fresh "SH" in pose proof (shape_xdrRW s v) as H;
      destruct (xdrRW s v) as [? ?]; cbn [fst] in *
  end.

Lemma shape_U32 s v : shape s (fst (XdrU32 s v)).
Proof. unfold XdrU32. destruct (x_err s); [auto|]. shp. destruct (Decoding _); exact SH. Qed.
Lemma shape_S32 s v : shape s (fst (XdrS32 s v)).
Proof. unfold XdrS32. destruct (x_err s); [auto|]. shp. destruct (Decoding _); exact SH. Qed.
Lemma shape_U64 s v : shape s (fst (XdrU64 s v)).
Proof. unfold XdrU64. destruct (x_err s); [auto|]. shp. destruct (Decoding _); exact SH. Qed.
Lemma shape_S64 s v : shape s (fst (XdrS64 s v)).
Proof. unfold XdrS64. destruct (x_err s); [auto|]. shp. destruct (Decoding _); exact SH. Qed.
Lemma shape_Bool s v : shape s (fst (XdrBool s v)).
Proof. unfold XdrBool. destruct (x_err s); [auto|]. shp. destruct (Decoding _); exact SH. Qed.
Lemma shape_Array s v : shape s (fst (XdrArray s v)).
Proof.
  unfold XdrArray. destruct (x_err s); [auto|].
  pose proof (shape_xdrRW s v) as H1. destruct (xdrRW s v) as [s1 v1]. cbn [fst] in H1.
  destruct (negb _); [|exact H1]. cbn [fst]. eapply shape_trans; [exact H1|apply shape_xdrRW].
Qed.

Lemma shape_vfin s o : shape s (fst (vfin s o)).
Proof. unfold vfin. destruct (negb _); [apply shape_xdrRW|auto]. Qed.

Lemma shape_VarArray s m o : shape s (fst (XdrVarArray s m o)).
Proof.
  destruct s as [[e|] [] b]; [auto|auto| |].
  - rewrite XVA_R.
    pose proof (shape_xdrRW (RD b) (zeros 4)) as H1.
    destruct (xdrRW (RD b) (zeros 4)) as [s1 v1]. cbn [fst] in H1.
    destruct (_ || _); [eapply shape_trans; [exact H1|apply shape_set_err]|].
    assert (Er : x_reader s1 = true) by apply H1.
    pose proof (shape_xdrR s1 (get_u32 v1) Er) as H2.
    destruct (xdrR s1 (get_u32 v1)) as [s2 v2]. cbn [fst] in H2.
    eapply shape_trans; [exact H1|]. eapply shape_trans; [exact H2|]. apply shape_vfin.
  - rewrite XdrVarArray_W. destruct (fits _ _); [|apply shape_set_err].
    split; [reflexivity|]. cbn. eauto.
Qed.

Lemma shape_String s m o : shape s (fst (XdrString s m o)).
Proof.
  destruct s as [[e|] [] b]; [auto|auto| |].
  - rewrite XST_R.
    pose proof (shape_xdrRW (RD b) (zeros 4)) as H1.
    destruct (xdrRW (RD b) (zeros 4)) as [s1 v1]. cbn [fst] in H1.
    destruct (_ || _); [eapply shape_trans; [exact H1|apply shape_set_err]|].
    assert (Er : x_reader s1 = true) by apply H1.
    pose proof (shape_xdrR s1 (get_u32 v1) Er) as H2.
    destruct (xdrR s1 (get_u32 v1)) as [s2 v2]. cbn [fst] in H2.
    eapply shape_trans; [exact H1|]. eapply shape_trans; [exact H2|]. apply shape_xdrRW.
  - rewrite XdrString_W. destruct (fits _ _); [|apply shape_set_err].
    split; [reflexivity|]. cbn. eauto.
Qed.

Lemma shape_SetSize s a n : shape s (fst (EncodingSetSize s a n)).
Proof.
  unfold EncodingSetSize. destruct (x_err s); [auto|]. destruct (x_reader s) eqn:Er; [auto|].
  destruct (_ >? _); cbn [fst]; unfold SetError; auto.
Qed.

Definition shaped (X : xst -> val -> outcome (xst * val)) : Prop :=
  forall s v s' v', X s v = Ret (s', v') -> shape s s'.

Lemma shape_field X f s v s' v' : shaped X -> on_field X s v f = Ret (s', v') -> shape s s'.
Proof.
  intros HX H. apply on_field_ret in H.
  destruct H as (l & x & s1 & x' & -> & Hl & H & [= -> ->]). eauto.
Qed.

Lemma shape_fields X fs s v s' v' :
  (forall t, shaped (X t)) -> xdr_fields X fs s v = Ret (s', v') -> shape s s'.
Proof.
  intros HX. revert s v. induction fs as [|[f t] fs IH]; cbn; intros s v H.
  - injection H as <- <-. auto.
  - bind_inv H as s1 v1 K. eapply shape_trans; [eapply shape_field; eauto|eauto].
Qed.

Lemma shape_elems X k l s s' l' :
  shaped X -> xdr_elems X k l s = Ret (s', l') -> shape s s'.
Proof.
  intros HX. revert l s s' l'. induction k as [|k IH]; cbn; intros l s s' l' H.
  - injection H as <- <-. auto.
  - destruct l; [discriminate|]. bind_inv H as s1 v1 K. bind_inv H as s2 l2 K2.
    injection H as <- <-. eapply shape_trans; [eapply HX; exact K|eapply IH; exact K2].
Qed.

Ltac use_shape L :=
  match goal with H : context [let '(_, _) := ?f in _] |- _ =>
    let S := fresh "S" in
    pose proof L as S; destruct f as [? ?]; cbn [fst] in S
  end.

Theorem xdr_shape n E t : shaped (xdr n E t).
Proof.
  revert t. induction n as [|n IH]; intros t s v s' v' H; [discriminate|].
  destruct t, v; cbn [xdr] in H; try discriminate;
    try (destruct (lookup x E) as [u|] eqn:Hl; [|discriminate]; exact (IH _ _ _ _ _ H)).
  - use_shape (shape_U32 s z). injection H as <- <-. assumption.
  - use_shape (shape_S32 s z). injection H as <- <-. assumption.
  - use_shape (shape_U64 s z). injection H as <- <-. assumption.
  - use_shape (shape_S64 s z). injection H as <- <-. assumption.
  - use_shape (shape_Bool s b). injection H as <- <-. assumption.
  - use_shape (shape_Array s bs). injection H as <- <-. assumption.
  - use_shape (shape_VarArray s (maxlen_of max) o). injection H as <- <-. assumption.
  - use_shape (shape_String s (maxlen_of max) bs). injection H as <- <-. assumption.
  - pose proof (shape_SetSize s 0 (zlen (elems o))) as H1.
    destruct (EncodingSetSize s 0 (zlen (elems o))) as [s1 sz0]. cbn [fst] in H1.
    pose proof (shape_U32 s1 sz0) as H2. destruct (XdrU32 s1 sz0) as [s2 sz]. cbn [fst] in H2.
    eapply shape_trans; [exact H1|]. eapply shape_trans; [exact H2|].
    destruct (match max with Some k => sz >? k | None => false end).
    { injection H as <- <-. unfold SetError. auto. }
    destruct (Decoding s2).
    + destruct (zero n E t); [|discriminate]. bind_inv H as s3 l3 K. injection H as <- <-.
      eapply shape_elems; eauto.
    + bind_inv H as s3 l3 K. injection H as <- <-. eapply shape_elems; eauto.
  - bind_inv H as s1 o1 K. apply shape_trans with s1.
    + destruct (Encoding s); [|injection K as <- <-; auto].
      pose proof (shape_Bool s (match o with Some _ => true | None => false end)) as HB.
      destruct (XdrBool s _) as [s2 op]. cbn [fst] in HB. destruct op.
      * destruct o; [|discriminate]. bind_inv K as s3 x3 K2. injection K as <- <-.
        eapply shape_trans; [exact HB|eapply IH; exact K2].
      * injection K as <- <-. assumption.
    + destruct (Decoding s1); [|injection H as <- <-; auto].
      pose proof (shape_Bool s1 false) as HB.
      destruct (XdrBool s1 false) as [s2 op]. cbn [fst] in HB. destruct op.
      * destruct (zero n E t); [|discriminate]. bind_inv H as s3 x3 K2. injection H as <- <-.
        eapply shape_trans; [exact HB|eapply IH; exact K2].
      * injection H as <- <-. assumption.
  - eapply shape_fields; [|exact H]. exact IH.
  - bind_inv H as s1 v1 K. eapply shape_trans; [eapply shape_field; [|exact K]; apply IH|].
    destruct (field_disc v1 sw); [|discriminate].
    destruct (pick_arm z arms def) as [[[f u]|]|]; try (injection H as <- <-; auto).
    eapply shape_field; [|exact H]. apply IH.
Qed.

(** ** More fuel never changes the outcome *)
Definition le_out {A} (a b : outcome A) : Prop := a = NoFuel \/ a = b.

Lemma le_out_refl {A} (a : outcome A) : le_out a a.
Proof. right. reflexivity. Qed.
Lemma le_out_bind {A B} (a b : outcome A) (k h : A -> outcome B) :
  le_out a b -> (forall x, le_out (k x) (h x)) -> le_out (obind a k) (obind b h).
Proof.
  intros [->| ->] H; [left; reflexivity|]. destruct b; cbn; [apply H|right; reflexivity|left; reflexivity].
Qed.
#[global] Hint Resolve le_out_refl : core.

Definition le_fun (X Y : xst -> val -> outcome (xst * val)) : Prop :=
  forall s v, le_out (X s v) (Y s v).

Lemma le_field X Y s v f : le_fun X Y -> le_out (on_field X s v f) (on_field Y s v f).
Proof.
  intros H. unfold on_field. destruct v; auto. destruct (lookup f l); auto.
  apply le_out_bind; [apply H|]. intros []. auto.
Qed.

Lemma le_fields X Y fs s v :
  (forall t, le_fun (X t) (Y t)) -> le_out (xdr_fields X fs s v) (xdr_fields Y fs s v).
Proof.
  intros H. revert s v. induction fs as [|[f t] fs IH]; cbn; intros s v; auto.
  apply le_out_bind; [apply le_field; apply H|]. intros []. apply IH.
Qed.

Lemma le_elems X Y k l s : le_fun X Y -> le_out (xdr_elems X k l s) (xdr_elems Y k l s).
Proof.
  intros H. revert l s. induction k as [|k IH]; cbn; intros l s; auto.
  destruct l; auto. apply le_out_bind; [apply H|]. intros [].
  apply le_out_bind; [apply IH|]. intros []. auto.
Qed.

Lemma xdr_le n m E t : (n <= m)%nat -> le_fun (xdr n E t) (xdr m E t).
Proof.
  revert m t. induction n as [|n IH]; intros m t Hle s v; [left; reflexivity|].
  destruct m as [|m]; [lia|]. apply le_S_n in Hle.
  assert (IH' := fun t => IH m t Hle). clear IH.
  destruct t, v; cbn [xdr]; auto;
    try (destruct (lookup x E); [apply IH'|auto]).
  - destruct (EncodingSetSize _ _ _) as [s1 sz0]. destruct (XdrU32 s1 sz0) as [s2 sz].
    destruct (match max with Some k => sz >? k | None => false end); auto.
    destruct (Decoding s2).
    + destruct (zero n E t) eqn:Ez; [|left; reflexivity].
      rewrite (zero_mono _ _ _ _ _ Hle Ez).
      apply le_out_bind; [apply le_elems; apply IH'|]. intros []. auto.
    + apply le_out_bind; [apply le_elems; apply IH'|]. intros []. auto.
  - apply le_out_bind.
    + destruct (Encoding s); auto. destruct (XdrBool s _) as [s1 []]; auto.
      destruct o; auto. apply le_out_bind; [apply IH'|]. intros []. auto.
    + intros [s1 o1]. destruct (Decoding s1); auto. destruct (XdrBool s1 false) as [s2 []]; auto.
      destruct (zero n E t) eqn:Ez; [|left; reflexivity].
      rewrite (zero_mono _ _ _ _ _ Hle Ez).
      apply le_out_bind; [apply IH'|]. intros []. auto.
  - apply le_fields. exact IH'.
  - apply le_out_bind; [apply le_field; apply IH'|]. intros [s1 v1].
    destruct (field_disc v1 sw); auto.
    destruct (pick_arm z arms def) as [[[f u]|]|]; auto. apply le_field. apply IH'.
Qed.

Lemma xdr_mono n m E t s v r :
  (n <= m)%nat -> xdr n E t s v = Ret r -> xdr m E t s v = Ret r.
Proof.
  intros Hle H. destruct (xdr_le n m E t Hle s v) as [K|K]; congruence.
Qed.

Lemma xdr_det n m E t s v r r' :
  xdr n E t s v = Ret r -> xdr m E t s v = Ret r' -> r = r'.
Proof.
  intros H1 H2. destruct (Nat.le_ge_cases n m) as [H|H].
  - rewrite (xdr_mono _ _ _ _ _ _ _ H H1) in H2. congruence.
  - rewrite (xdr_mono _ _ _ _ _ _ _ H H2) in H1. congruence.
Qed.

(** ** Discriminants of typed unions can be switched on *)
Lemma disc_ty_of E t v : disc_ty E t -> has_ty E t v -> disc_of v <> None.
Proof.
  intros H. revert v. induction H; intros v Hv; inversion Hv; subst; cbn; try discriminate.
  rewrite H in H2. injection H2 as <-. auto.
Qed.

(** ** Decoding terminates without panic *)
Definition need (s : xst) : nat :=
  match x_err s with Some _ => 0 | None => (List.length (x_buf s) / 4)%nat end.

Lemma need_shape s s' : x_reader s = true -> shape s s' ->
  (x_err s <> None -> x_err s' <> None) -> (need s' <= need s)%nat.
Proof.
  intros Hr [_ H] He. rewrite Hr in H. destruct H as [w H]. unfold need.
  destruct (x_err s'); [lia|]. destruct (x_err s); [exfalso; apply He; [discriminate|reflexivity]|].
  rewrite H, app_length. apply Nat.div_le_mono; lia.
Qed.

Section Total.
Variables (D : nat) (E : env).
Hypothesis Hwf : wf_env D E.

Lemma sticky_err n t s v s' v' :
  wf_ty D E t -> xdr n E t s v = Ret (s', v') -> x_err s <> None -> x_err s' <> None.
Proof.
  intros Ht H He. destruct (x_err s) as [e|] eqn:Ee; [|congruence].
  apply (sticky_xdr _ _ Hwf _ _ Ht _ _ _ _ Ee) in H. injection H as -> ->. congruence.
Qed.

Definition tot (t : cty) (X : xst -> val -> outcome (xst * val)) (N : nat) : Prop :=
  forall s v, x_reader s = true -> has_ty E t v -> (need s <= N)%nat ->
  exists s' v', X s v = Ret (s', v').

Lemma tot_field n N all f t l s :
  wf_ty D E t -> tot t (xdr n E t) N -> has_fields E all l -> NoDup (map fst all) ->
  In (f, t) all -> x_reader s = true -> (need s <= N)%nat ->
  exists s' x', on_field (xdr n E t) s (VStruct l) f = Ret (s', VStruct (update f x' l))
    /\ has_ty E t x' /\ has_fields E all (update f x' l) /\ lookup f (update f x' l) = Some x'
    /\ x_reader s' = true /\ (need s' <= N)%nat.
Proof.
  intros Ht HX Hl Hnd Hin Hr HN.
  destruct (has_fields_lookup _ _ _ _ _ Hl Hnd Hin) as (x & Hx & Hxt).
  destruct (HX s x Hr Hxt HN) as (s' & x' & H).
  assert (Hxt' : has_ty E t x') by (eapply (keeps_xdr D E Hwf); eauto).
  exists s', x'. unfold on_field. rewrite Hx, H. cbn.
  pose proof (xdr_shape _ _ _ _ _ _ _ H) as Hs.
  repeat split; auto.
  - eapply has_fields_update; eauto.
  - eapply lookup_update_same; eauto.
  - destruct Hs as [Hs _]. congruence.
  - etransitivity; [|exact HN]. eapply need_shape; eauto. eapply sticky_err; eauto.
Qed.

Lemma tot_fields n N all fs l s :
  (forall f t, In (f, t) fs -> wf_ty D E t /\ tot t (xdr n E t) N) ->
  has_fields E all l -> NoDup (map fst all) -> incl fs all -> x_reader s = true ->
  (need s <= N)%nat ->
  exists s' v', xdr_fields (xdr n E) fs s (VStruct l) = Ret (s', v').
Proof.
  intros HX Hl Hnd. revert l s Hl. induction fs as [|[f t] fs IH]; cbn; intros l s Hl Hin Hr HN.
  - eauto.
  - destruct (HX f t (or_introl eq_refl)) as [Ht HT].
    destruct (tot_field n N all f t l s) as (s' & x' & H & _ & Hl' & _ & Hr' & HN'); auto.
    { apply Hin. left. reflexivity. }
    rewrite H. cbn [obind]. apply IH; auto.
    + intros g u Hg. apply (HX g u). right. exact Hg.
    + intros a Ha. apply Hin. right. exact Ha.
Qed.

Lemma tot_elems n N t l s :
  wf_ty D E t -> tot t (xdr n E t) N -> has_tys E t l -> x_reader s = true -> (need s <= N)%nat ->
  exists s' l', xdr_elems (xdr n E t) (List.length l) l s = Ret (s', l').
Proof.
  intros Ht HX. revert s. induction l as [|x l IH]; cbn; intros s Hl Hr HN; [eauto|].
  inversion Hl; subst. destruct (HX s x) as (s1 & x1 & H); auto. rewrite H. cbn [obind].
  pose proof (xdr_shape _ _ _ _ _ _ _ H) as Hs.
  destruct (IH s1) as (s2 & l2 & H4); auto.
  - destruct Hs as [Hs _]. congruence.
  - etransitivity; [|exact HN]. eapply need_shape; eauto. eapply sticky_err; eauto.
  - rewrite H4. cbn. eauto.
Qed.

Lemma XdrU32_dec s : x_reader s = true ->
  exists s' z, XdrU32 s 0 = (s', z) /\ x_reader s' = true /\ 0 <= z < 2 ^ 32 /\
    (x_err s' <> None -> z = 0) /\
    (x_err s' = None -> (S (need s') <= need s)%nat) /\ (x_err s' <> None -> need s' = 0%nat).
Proof.
  intros Hr. destruct s as [[e|] r b]; cbn in Hr; subst r.
  - erewrite XdrU32_err by reflexivity. do 2 eexists. split; [reflexivity|]. cbn.
    repeat split; try lia; discriminate.
  - destruct (split_at b 4) as [Hs|(h & r & -> & Hl)].
    + rewrite XdrU32_short by exact Hs. do 2 eexists. split; [reflexivity|].
      repeat split; try lia; discriminate.
    + rewrite XdrU32_R by exact Hl. do 2 eexists. split; [reflexivity|].
      split; [reflexivity|]. split; [apply be_val_4; exact Hl|].
      cbn [x_err]. repeat split; try congruence. intros _.
      unfold need. cbn [x_err x_buf]. rewrite app_length, Hl.
      rewrite (Nat.add_comm 4), (Nat.div_add _ 1 4) by lia. lia.
Qed.

Lemma XdrBool_dec s : x_reader s = true ->
  exists s' z, XdrBool s false = (s', z) /\ x_reader s' = true /\
    (x_err s' <> None -> z = false) /\
    (x_err s' = None -> (S (need s') <= need s)%nat).
Proof.
  intros Hr. destruct s as [[e|] r b]; cbn in Hr; subst r.
  - erewrite XdrBool_err by reflexivity. do 2 eexists. split; [reflexivity|]. cbn.
    repeat split; try lia; discriminate.
  - destruct (split_at b 4) as [Hs|(h & r & -> & Hl)].
    + rewrite XdrBool_short by exact Hs. do 2 eexists. split; [reflexivity|].
      repeat split; try lia; discriminate.
    + rewrite XdrBool_R by exact Hl. do 2 eexists. split; [reflexivity|].
      split; [reflexivity|].
      cbn [x_err]. repeat split; try congruence. intros _.
      unfold need. cbn [x_err x_buf]. rewrite app_length, Hl.
      rewrite (Nat.add_comm 4), (Nat.div_add _ 1 4) by lia. lia.
Qed.

Theorem dec_total n : forall d t N,
  wf_ty D E t -> zero d E t <> None -> (d + N * D <= n)%nat -> tot t (xdr n E t) N.
Proof.
  induction n as [|n IH]; intros d t N Ht Hz Hn s v Hr Hv HN.
  - destruct d; [cbn in Hz; congruence|lia].
  - destruct d as [|d]; [cbn in Hz; congruence|].
    destruct Hv as [z Hz'|z Hz'|z Hz'|z Hz'|b0|k bs Hbs|m o|m bs|m t o Hvs|t|t v Hv|fs l Hl
                 |sw st arms def l Hl|x t v Hx Hv]; cbn [xdr].
    + destruct (XdrU32 s z). eauto.
    + destruct (XdrS32 s z). eauto.
    + destruct (XdrU64 s z). eauto.
    + destruct (XdrS64 s z). eauto.
    + destruct (XdrBool s b0). eauto.
    + destruct (XdrArray s bs). eauto.
    + destruct (XdrVarArray _ _ _). eauto.
    + destruct (XdrString _ _ _). eauto.
    + inversion Ht as [| | | | | | | |m' t' Hm Ht' Hz'| | | |]; subst.
      replace (EncodingSetSize s 0 (zlen (elems o))) with (s, 0).
      2:{ unfold EncodingSetSize. destruct (x_err s); [reflexivity|]. rewrite Hr. reflexivity. }
      destruct (XdrU32_dec s Hr) as (s2 & sz & -> & Hr2 & Hsz & Hz0 & Hn2 & Hn3).
      destruct (match m with Some k => sz >? k | None => false end); [eauto|].
      destruct (Decoding s2) eqn:Ed.
      * assert (He2 : x_err s2 = None) by (unfold Decoding in Ed; destruct (x_err s2); congruence).
        specialize (Hn2 He2).
        destruct N as [|N]; [lia|].
        assert (Hd : (D + N * D <= n)%nat) by (cbn in Hn; lia).
        destruct (zero n E t) as [z|] eqn:Ez.
        2:{ exfalso. apply Hz'. destruct (zero D E t) eqn:Ez2; [|reflexivity].
            apply (zero_mono _ _ n) in Ez2; [congruence|lia]. }
        set (k := Z.to_nat sz).
        destruct (tot_elems n N t (repeat z k) s2) as (s3 & l3 & H3); auto.
        { eapply IH; eauto. }
        { apply has_tys_repeat. eapply zero_ty; eauto. }
        { lia. }
        rewrite repeat_length in H3. rewrite H3. cbn. eauto.
      * assert (He2 : x_err s2 <> None).
        { unfold Decoding in Ed. destruct (x_err s2); congruence. }
        rewrite (Hz0 He2). cbn. eauto.
    + inversion Ht as [| | | | | | | | |t' Ht' Hz'| | |]; subst.
      assert (Encoding s = false) as -> by (unfold Encoding; rewrite Hr; destruct (x_err s); reflexivity).
      cbn [obind]. destruct (Decoding s) eqn:Ed; [|eauto].
      destruct (XdrBool_dec s Hr) as (s2 & op & -> & Hr2 & Hz0 & Hn2).
      destruct op; [|eauto].
      assert (He2 : x_err s2 = None).
      { destruct (x_err s2); [|reflexivity]. assert (true = false) by (apply Hz0; discriminate). discriminate. }
      specialize (Hn2 He2). destruct N as [|N]; [lia|].
      assert (Hd : (D + N * D <= n)%nat) by (cbn in Hn; lia).
      destruct (zero n E t) as [z|] eqn:Ez.
      2:{ exfalso. apply Hz'. destruct (zero D E t) eqn:Ez2; [|reflexivity].
          apply (zero_mono _ _ n) in Ez2; [congruence|lia]. }
      destruct (IH D t N Ht' Hz' Hd s2 z) as (s3 & x3 & H3); auto.
      { eapply zero_ty; eauto. } { lia. }
      rewrite H3. cbn. eauto.
    + inversion Ht as [| | | | | | | | |t' Ht' Hz'| | |]; subst.
      assert (Encoding s = false) as -> by (unfold Encoding; rewrite Hr; destruct (x_err s); reflexivity).
      cbn [obind]. destruct (Decoding s) eqn:Ed; [|eauto].
      destruct (XdrBool_dec s Hr) as (s2 & op & -> & Hr2 & Hz0 & Hn2).
      destruct op; [|eauto].
      assert (He2 : x_err s2 = None).
      { destruct (x_err s2); [|reflexivity]. assert (true = false) by (apply Hz0; discriminate). discriminate. }
      specialize (Hn2 He2). destruct N as [|N]; [lia|].
      assert (Hd : (D + N * D <= n)%nat) by (cbn in Hn; lia).
      destruct (zero n E t) as [z|] eqn:Ez.
      2:{ exfalso. apply Hz'. destruct (zero D E t) eqn:Ez2; [|reflexivity].
          apply (zero_mono _ _ n) in Ez2; [congruence|lia]. }
      destruct (IH D t N Ht' Hz' Hd s2 z) as (s3 & x3 & H3); auto.
      { eapply zero_ty; eauto. } { lia. }
      rewrite H3. cbn. eauto.
    + inversion Ht; subst. eapply tot_fields; eauto using incl_refl.
      intros f t Hin. split; [eauto|]. apply IH with d; [eauto| |lia].
      eapply zero_fields_sub; [|exact Hin]. cbn in Hz.
      destruct (zero_fields (zero d E) fs); [discriminate|intros _; apply Hz; reflexivity].
    + inversion Ht as [| | | | | | | | | | |sw' st' arms' def' Hnd Hdt Hwt|]; subst.
      assert (HT : forall f u, In (f, u) (union_fields sw st arms def) -> tot u (xdr n E u) N).
      { intros f u Hin. apply IH with d; [eauto| |lia].
        eapply zero_fields_sub; [|exact Hin]. cbn [zero] in Hz.
        destruct (zero_fields (zero d E) (union_fields sw st arms def)); [discriminate|intros _; apply Hz; reflexivity]. }
      assert (Hsw : In (sw, st) (union_fields sw st arms def)) by (left; reflexivity).
      destruct (tot_field n N _ sw st l s (Hwt _ _ Hsw) (HT _ _ Hsw) Hl Hnd Hsw Hr HN)
        as (s1 & dv & H & Hdv & Hl1 & Hlk & Hr1 & HN1).
      rewrite H. cbn [obind field_disc]. rewrite Hlk.
      destruct (disc_of dv) as [dd|] eqn:Ed; [|exfalso; eapply disc_ty_of; eauto].
      destruct (pick_arm dd arms def) as [[[f u]|]|] eqn:Ep; eauto.
      assert (Hin : In (f, u) (union_fields sw st arms def))
        by (right; eapply pick_arm_In; exact Ep).
      destruct (tot_field n N _ f u _ s1 (Hwt _ _ Hin) (HT _ _ Hin) Hl1 Hnd Hin Hr1 HN1)
        as (s2 & xv & H2 & _). eauto.
    + cbn in Hz. rewrite Hx in Hz. rewrite Hx.
      eapply (IH d t N); eauto using wf_lookup. lia.
Qed.

(** ** Encoding terminates without panic *)
Definition wtot (X : xst -> val -> outcome (xst * val)) (v : val) : Prop :=
  forall s, x_reader s = false -> exists s' v', X s v = Ret (s', v').

Lemma wtot_mono n m t v : (n <= m)%nat -> wtot (xdr n E t) v -> wtot (xdr m E t) v.
Proof.
  intros Hle H s Hs. destruct (H s Hs) as (s' & v' & K). exists s', v'.
  eapply xdr_mono; eauto.
Qed.

Lemma shape_W s s' : shape s s' -> x_reader s = false -> x_reader s' = false.
Proof. intros [H _]. congruence. Qed.

(** On a writer the value comes back unchanged, typed or not. *)
Lemma enc_elems_tot n t k l s :
  Forall (wtot (xdr n E t)) l -> (k <= List.length l)%nat -> x_reader s = false ->
  exists s' l', xdr_elems (xdr n E t) k l s = Ret (s', l').
Proof.
  intros H. revert k s. induction H as [|x l Hx Hl IH]; cbn; intros k s Hk Hs.
  - replace k with 0%nat by lia. cbn. eauto.
  - destruct k as [|k]; [cbn; eauto|]. cbn.
    destruct (Hx s Hs) as (s1 & x1 & H1). rewrite H1. cbn [obind].
    pose proof (shape_W _ _ (xdr_shape _ _ _ _ _ _ _ H1) Hs) as Hs1.
    destruct (IH k s1) as (s2 & l2 & H2); [lia|exact Hs1|]. rewrite H2. cbn. eauto.
Qed.

(** A writer in any state leaves typed values unchanged. *)
Lemma enc_unchanged n t s v s' v' :
  wf_ty D E t -> has_ty E t v -> x_reader s = false -> xdr n E t s v = Ret (s', v') -> v' = v.
Proof.
  intros Ht Hv Hs H. destruct s as [[e|] r b]; cbn in Hs; subst r.
  - eapply (sticky_xdr D E Hwf) in H; [|exact Ht|reflexivity]. congruence.
  - eapply (enc_sound D E Hwf) in H; [|exact Ht|exact Hv]. apply H.
Qed.

Lemma enc_fields_tot n all fs l s :
  has_fields E all l -> NoDup (map fst all) -> incl fs all ->
  (forall f t x, In (f, t) fs -> lookup f l = Some x -> wf_ty D E t /\ wtot (xdr n E t) x) ->
  x_reader s = false ->
  exists s' v', xdr_fields (xdr n E) fs s (VStruct l) = Ret (s', v').
Proof.
  intros Hl Hnd. revert s. induction fs as [|[f t] fs IH]; intros s Hin HX Hs; cbn [xdr_fields].
  - eauto.
  - destruct (has_fields_lookup _ _ _ _ _ Hl Hnd (Hin _ (or_introl eq_refl))) as (x & Hx & Hxt).
    destruct (HX f t x (or_introl eq_refl) Hx) as [Ht HT].
    destruct (HT s Hs) as (s1 & x1 & H1).
    unfold on_field. rewrite Hx, H1. cbn [obind].
    rewrite (enc_unchanged _ _ _ _ _ _ Ht Hxt Hs H1), update_id by exact Hx.
    apply IH.
    + intros a Ha. apply Hin. right. exact Ha.
    + intros g u y Hg. apply HX. right. exact Hg.
    + eapply shape_W; [eapply xdr_shape; exact H1|exact Hs].
Qed.

Theorem enc_total t v : wf_ty D E t -> has_ty E t v -> exists n, wtot (xdr n E t) v.
Proof.
  intros Ht Hv. revert t v Hv Ht.
  apply (has_ty_mind E
    (fun t v => wf_ty D E t -> exists n, wtot (xdr n E t) v)
    (fun t l => wf_ty D E t -> exists n, Forall (wtot (xdr n E t)) l)
    (fun fs l => (forall f t, In (f, t) fs -> wf_ty D E t) -> NoDup (map fst fs) ->
       exists n, forall f t x, In (f, t) fs -> lookup f l = Some x -> wtot (xdr n E t) x)).
  - intros z _ _. exists 1%nat. intros s Hs. cbn [xdr]. destruct (XdrU32 s z). eauto.
  - intros z _ _. exists 1%nat. intros s Hs. cbn [xdr]. destruct (XdrS32 s z). eauto.
  - intros z _ _. exists 1%nat. intros s Hs. cbn [xdr]. destruct (XdrU64 s z). eauto.
  - intros z _ _. exists 1%nat. intros s Hs. cbn [xdr]. destruct (XdrS64 s z). eauto.
  - intros z _. exists 1%nat. intros s Hs. cbn [xdr]. destruct (XdrBool s z). eauto.
  - intros k bs _ _. exists 1%nat. intros s Hs. cbn [xdr]. destruct (XdrArray s bs). eauto.
  - intros m o _. exists 1%nat. intros s Hs. cbn [xdr]. destruct (XdrVarArray _ _ _). eauto.
  - intros m o _. exists 1%nat. intros s Hs. cbn [xdr]. destruct (XdrString _ _ _). eauto.
  - intros m t o _ IH Ht. inversion Ht as [| | | | | | | |m' t' Hm Ht' Hz| | | |]; subst.
    destruct (IH Ht') as [n Hn]. exists (S n). intros s Hs. cbn [xdr].
    assert (HD : forall s0 a, x_reader s0 = false -> Decoding (fst (XdrU32 s0 a)) = false).
    { intros s0 a H0. pose proof (shape_W _ _ (shape_U32 s0 a) H0) as H1.
      unfold Decoding. rewrite H1. destruct (x_err _); reflexivity. }
    pose proof (shape_W _ _ (shape_SetSize s 0 (zlen (elems o))) Hs) as Hs1.
    assert (Hsz : snd (EncodingSetSize s 0 (zlen (elems o))) = 0
               \/ snd (EncodingSetSize s 0 (zlen (elems o))) = zlen (elems o)).
    { destruct s as [[e|] r b]; cbn in Hs; subst r; [left; reflexivity|].
      rewrite EncodingSetSize_W by apply zlen_nonneg. destruct (_ <=? _); cbn; auto. }
    destruct (EncodingSetSize s 0 (zlen (elems o))) as [s1 sz0]. cbn [fst snd] in *.
    specialize (HD s1 sz0 Hs1).
    assert (H2 : snd (XdrU32 s1 sz0) = sz0).
    { destruct s1 as [[e|] r b]; cbn in Hs1; subst r; reflexivity. }
    pose proof (shape_W _ _ (shape_U32 s1 sz0) Hs1) as Hs2.
    destruct (XdrU32 s1 sz0) as [s2 sz]. cbn [fst snd] in *. subst sz.
    destruct (match m with Some k => sz0 >? k | None => false end); [eauto|].
    rewrite HD.
    destruct (enc_elems_tot n t (Z.to_nat sz0) (elems o) s2 Hn) as (s3 & l3 & H3).
    + destruct Hsz as [->| ->]; unfold zlen; lia.
    + exact Hs2.
    + rewrite H3. cbn. eauto.
  - intros t _. exists 1%nat. intros s Hs. cbn [xdr].
    assert (forall s0, x_reader s0 = false -> Decoding s0 = false) as HD.
    { intros s0 H0. unfold Decoding. rewrite H0. destruct (x_err s0); reflexivity. }
    destruct (Encoding s) eqn:Ee.
    + assert (s = WR (x_buf s)) as ->.
      { destruct s as [[e|] r b]; cbn in *; [discriminate|]. subst. reflexivity. }
      rewrite XdrBool_W. cbn [obind]. rewrite HD by reflexivity. eauto.
    + cbn [obind]. rewrite HD by exact Hs. eauto.
  - intros t v Hv IH Ht. inversion Ht as [| | | | | | | | |t' Ht' Hz| | |]; subst.
    destruct (IH Ht') as [n Hn]. exists (S n). intros s Hs. cbn [xdr].
    assert (forall s0, x_reader s0 = false -> Decoding s0 = false) as HD.
    { intros s0 H0. unfold Decoding. rewrite H0. destruct (x_err s0); reflexivity. }
    destruct (Encoding s) eqn:Ee.
    + assert (s = WR (x_buf s)) as ->.
      { destruct s as [[e|] r b]; cbn in *; [discriminate|]. subst. reflexivity. }
      rewrite XdrBool_W. 
      destruct (Hn (WR (x_buf s ++ put_u32 1)) eq_refl) as (s1 & x1 & H1).
      rewrite H1. cbn [obind]. rewrite HD; [eauto|].
      eapply shape_W; [eapply xdr_shape; exact H1|reflexivity].
    + cbn [obind]. rewrite HD by exact Hs. eauto.
  - intros fs l Hl IH Ht. inversion Ht as [| | | | | | | | | |fs' Hnd Hwt| |]; subst.
    destruct (IH Hwt Hnd) as [n Hn]. exists (S n). intros s Hs. cbn [xdr].
    eapply enc_fields_tot; eauto using incl_refl.
  - intros sw st arms def l Hl IH Ht.
    inversion Ht as [| | | | | | | | | | |sw' st' arms' def' Hnd Hdt Hwt|]; subst.
    destruct (IH Hwt Hnd) as [n Hn]. exists (S n). intros s Hs. cbn [xdr].
    assert (Hsw : In (sw, st) (union_fields sw st arms def)) by (left; reflexivity).
    destruct (has_fields_lookup _ _ _ _ _ Hl Hnd Hsw) as (dv & Hdv & Hdvt).
    destruct (Hn _ _ _ Hsw Hdv s Hs) as (s1 & dv1 & H1).
    unfold on_field at 1. rewrite Hdv, H1. cbn [obind].
    rewrite (enc_unchanged _ _ _ _ _ _ (Hwt _ _ Hsw) Hdvt Hs H1), update_id by exact Hdv.
    cbn [field_disc]. rewrite Hdv.
    destruct (disc_of dv) as [dd|] eqn:Ed; [|exfalso; eapply disc_ty_of; eauto].
    destruct (pick_arm dd arms def) as [[[f u]|]|] eqn:Ep; eauto.
    assert (Hin : In (f, u) (union_fields sw st arms def))
        by (right; eapply pick_arm_In; exact Ep).
    destruct (has_fields_lookup _ _ _ _ _ Hl Hnd Hin) as (x & Hx & Hxt).
    pose proof (shape_W _ _ (xdr_shape _ _ _ _ _ _ _ H1) Hs) as Hs1.
    destruct (Hn _ _ _ Hin Hx s1 Hs1) as (s2 & x2 & H2).
    unfold on_field. rewrite Hx, H2. cbn. eauto.
  - intros x t v Hx Hv IH Ht. destruct (IH (wf_lookup _ _ Hwf _ _ Hx)) as [n Hn].
    exists (S n). intros s Hs. cbn [xdr]. rewrite Hx. apply Hn. exact Hs.
  - intros t _. exists 0%nat. constructor.
  - intros t v l Hv IHv Hl IHl Ht. destruct (IHv Ht) as [n1 H1], (IHl Ht) as [n2 H2].
    exists (Nat.max n1 n2). constructor.
    + eapply wtot_mono; [|exact H1]. lia.
    + eapply Forall_impl; [|exact H2]. intros a Ha. eapply wtot_mono; [|exact Ha]. lia.
  - intros _ _. exists 0%nat. intros f t x [].
  - intros f t v fs l Hv IHv Hl IHl Hwt Hnd. cbn in Hnd. inversion Hnd; subst.
    destruct (IHv (Hwt _ _ (or_introl eq_refl))) as [n1 H3].
    destruct (IHl (fun g u Hg => Hwt g u (or_intror Hg)) H2) as [n2 H4].
    exists (Nat.max n1 n2). intros g u x [Heq|Hg] Hx.
    + injection Heq as -> ->. cbn in Hx. rewrite String.eqb_refl in Hx. injection Hx as <-.
      eapply wtot_mono; [|exact H3]. lia.
    + cbn in Hx. destruct (String.eqb_spec g f) as [->|Hne].
      * exfalso. apply H1. apply (in_map fst) in Hg. exact Hg.
      * eapply wtot_mono; [|eapply H4; eauto]. lia.
Qed.

End Total.
