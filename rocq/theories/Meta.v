(** Basic facts about values, typing and the interpreter: zero values, field access,
    sticky errors, type preservation, fuel. *)
From Verif Require Import Bytes XdrLib Types Interp Spec Prim.
Open Scope string_scope.
Open Scope Z_scope.
Open Scope list_scope.

(** ** Association lists *)
Lemma lookup_update_same {A} f (x : A) l y :
  lookup f l = Some y -> lookup f (update f x l) = Some x.
Proof.
  induction l as [|[g z] l IH]; cbn; [discriminate|].
  destruct (String.eqb_spec f g) as [->|Hn]; cbn.
  - rewrite String.eqb_refl. reflexivity.
  - intros H. apply String.eqb_neq in Hn. rewrite Hn. auto.
Qed.

Lemma lookup_update_other {A} f g (x : A) l :
  f <> g -> lookup g (update f x l) = lookup g l.
Proof.
  intros Hfg. induction l as [|[h z] l IH]; cbn; [reflexivity|].
  destruct (String.eqb_spec f h) as [->|Hn]; cbn.
  - destruct (String.eqb_spec g h); congruence.
  - destruct (String.eqb_spec g h); auto.
Qed.

Lemma update_id {A} f (x : A) l : lookup f l = Some x -> update f x l = l.
Proof.
  induction l as [|[g z] l IH]; cbn; [discriminate|].
  destruct (String.eqb_spec f g) as [->|Hn]; intros H.
  - injection H as ->. reflexivity.
  - rewrite IH by exact H. reflexivity.
Qed.

Lemma update_fst {A} f (x : A) l : map fst (update f x l) = map fst l.
Proof.
  induction l as [|[g z] l IH]; cbn; [reflexivity|].
  destruct (String.eqb f g); cbn; congruence.
Qed.

Lemma lookup_In {A} f (x : A) l : lookup f l = Some x -> In (f, x) l.
Proof.
  induction l as [|[g z] l IH]; cbn; [discriminate|].
  destruct (String.eqb_spec f g) as [->|Hn]; intros H.
  - injection H as ->. auto.
  - auto.
Qed.

Lemma lookup_None {A} f (l : list (string * A)) : lookup f l = None <-> ~ In f (map fst l).
Proof.
  induction l as [|[g z] l IH]; cbn; [tauto|].
  destruct (String.eqb_spec f g) as [->|Hn].
  - split; [discriminate|tauto].
  - rewrite IH. split; [intros H [<-|K]; [congruence|tauto]|tauto].
Qed.

Lemma lookup_NoDup {A} f (x : A) l : NoDup (map fst l) -> In (f, x) l -> lookup f l = Some x.
Proof.
  induction l as [|[g z] l IH]; cbn; [tauto|].
  intros Hnd [H|H].
  - injection H as -> ->. rewrite String.eqb_refl. reflexivity.
  - inversion Hnd; subst. destruct (String.eqb_spec f g) as [->|Hn].
    + exfalso. apply H2. apply (in_map fst) in H. exact H.
    + auto.
Qed.

(** ** Typed records *)
Section WithEnv.
Variable E : env.

Lemma has_fields_fst fs l : has_fields E fs l -> map fst fs = map fst l.
Proof. induction 1; cbn; congruence. Qed.

Lemma has_fields_lookup fs l f t :
  has_fields E fs l -> NoDup (map fst fs) -> In (f, t) fs ->
  exists v, lookup f l = Some v /\ has_ty E t v.
Proof.
  induction 1 as [|g u v fs l Hv Hl IH]; cbn; [tauto|].
  intros Hnd [Heq|Hin].
  - injection Heq as -> ->. rewrite String.eqb_refl. eauto.
  - inversion Hnd; subst. destruct (String.eqb_spec f g) as [->|Hn].
    + exfalso. apply H1. apply (in_map fst) in Hin. exact Hin.
    + auto.
Qed.

Lemma has_fields_update fs l f t v :
  has_fields E fs l -> NoDup (map fst fs) -> In (f, t) fs -> has_ty E t v ->
  has_fields E fs (update f v l).
Proof.
  intros H Hnd Hin Hv. induction H as [|g u w fs l Hw Hl IH]; cbn in *; [tauto|].
  inversion Hnd; subst. destruct Hin as [Heq|Hin].
  - injection Heq as -> ->. rewrite String.eqb_refl. constructor; assumption.
  - destruct (String.eqb_spec f g) as [->|Hn].
    + exfalso. apply H1. apply (in_map fst) in Hin. exact Hin.
    + constructor; auto.
Qed.

Lemma has_tys_Forall t l : has_tys E t l <-> Forall (has_ty E t) l.
Proof. split; induction 1; constructor; auto. Qed.

Lemma has_tys_repeat t v k : has_ty E t v -> has_tys E t (repeat v k).
Proof. intros H. induction k; cbn; constructor; auto. Qed.

(** ** Zero values *)
Lemma zero_fields_spec (Z0 : cty -> option val) fs l :
  zero_fields Z0 fs = Some l ->
  Forall2 (fun ft fv => fst ft = fst fv /\ Z0 (snd ft) = Some (snd fv)) fs l.
Proof.
  revert l. induction fs as [|[f t] fs IH]; cbn; intros l H.
  - injection H as <-. constructor.
  - destruct (Z0 t) eqn:Ez; [|discriminate].
    destruct (zero_fields Z0 fs) eqn:Ef; [|discriminate].
    injection H as <-. constructor; cbn; auto.
Qed.

Lemma zero_fields_mono (Z0 Z1 : cty -> option val) fs l :
  (forall t v, Z0 t = Some v -> Z1 t = Some v) ->
  zero_fields Z0 fs = Some l -> zero_fields Z1 fs = Some l.
Proof.
  intros HZ. revert l. induction fs as [|[f t] fs IH]; cbn; intros l H; [exact H|].
  destruct (Z0 t) eqn:Ez; [|discriminate]. rewrite (HZ _ _ Ez).
  destruct (zero_fields Z0 fs) eqn:Ef; [|discriminate]. rewrite (IH _ eq_refl). exact H.
Qed.

Lemma zero_mono n m t v : (n <= m)%nat -> zero n E t = Some v -> zero m E t = Some v.
Proof.
  revert m t v. induction n as [|n IH]; intros m t v Hle H; [discriminate|].
  destruct m as [|m]; [lia|].
  destruct t; cbn [zero] in *; try exact H.
  - destruct (zero_fields (zero n E) fs) eqn:Ef; [|discriminate].
    erewrite zero_fields_mono; [exact H| |exact Ef]. intros. apply IH; [lia|assumption].
  - destruct (zero_fields (zero n E) _) eqn:Ef; [|discriminate].
    erewrite zero_fields_mono; [exact H| |exact Ef]. intros. apply IH; [lia|assumption].
  - destruct (lookup x E); [|discriminate]. apply IH; [lia|assumption].
Qed.

Lemma zero_det n m t v w : zero n E t = Some v -> zero m E t = Some w -> v = w.
Proof.
  intros H1 H2. destruct (Nat.le_ge_cases n m) as [H|H].
  - apply (zero_mono _ _ _ _ H) in H1. congruence.
  - apply (zero_mono _ _ _ _ H) in H2. congruence.
Qed.

Lemma zero_fields_ty n fs l :
  (forall t v, zero n E t = Some v -> has_ty E t v) ->
  zero_fields (zero n E) fs = Some l -> has_fields E fs l.
Proof.
  intros IH H. apply zero_fields_spec in H.
  induction H as [|[f t] [g v] fs l [H1 H2] _ IH2]; cbn in *; [constructor|].
  subst g. constructor; auto.
Qed.

Lemma zero_ty n t v : zero n E t = Some v -> has_ty E t v.
Proof.
  revert t v. induction n as [|n IH]; intros t v H; [discriminate|].
  destruct t; cbn [zero] in H;
    try (injection H as <-; constructor; (lia || (cbn; constructor) || apply zeros_length)).
  - destruct (zero_fields (zero n E) fs) eqn:Ef; [|discriminate]. injection H as <-.
    constructor. eapply zero_fields_ty; eauto.
  - destruct (zero_fields (zero n E) _) eqn:Ef; [|discriminate]. injection H as <-.
    constructor. eapply zero_fields_ty; eauto.
  - destruct (lookup x E) eqn:El; [|discriminate]. econstructor; eauto.
Qed.

Lemma zero_no_stale n t v : zero n E t = Some v -> no_stale v = true.
Proof.
  revert t v. induction n as [|n IH]; intros t v H; [discriminate|].
  assert (Hfs : forall fs l, zero_fields (zero n E) fs = Some l ->
                no_stale (VStruct l) = true).
  { intros fs l Hl. apply zero_fields_spec in Hl. cbn.
    induction Hl as [|[f t'] [g w] fs l [_ H2] _ IH2]; cbn in *; [reflexivity|].
    rewrite (IH _ _ H2). exact IH2. }
  destruct t; cbn [zero] in H; try (injection H as <-; reflexivity).
  - destruct (zero_fields (zero n E) fs) eqn:Ef; [|discriminate]. injection H as <-. eauto.
  - destruct (zero_fields (zero n E) _) eqn:Ef; [|discriminate]. injection H as <-. eauto.
  - destruct (lookup x E); [|discriminate]. eauto.
Qed.

Lemma zero_fields_lookup n fs l f t :
  zero_fields (zero n E) fs = Some l -> NoDup (map fst fs) -> In (f, t) fs ->
  exists v, lookup f l = Some v /\ zero n E t = Some v.
Proof.
  intros H Hnd Hin. apply zero_fields_spec in H.
  induction H as [|[g u] [h w] fs l [H1 H2] _ IH]; cbn in *; [tauto|].
  subst h. inversion Hnd; subst. destruct Hin as [Heq|Hin].
  - injection Heq as -> ->. rewrite String.eqb_refl. eauto.
  - destruct (String.eqb_spec f g) as [->|Hn].
    + exfalso. apply H1. apply (in_map fst) in Hin. exact Hin.
    + auto.
Qed.

Lemma zero_fields_sub n fs f t :
  zero_fields (zero n E) fs <> None -> In (f, t) fs -> zero n E t <> None.
Proof.
  induction fs as [|[g u] fs IH]; cbn; [tauto|]. intros H [Heq|Hin].
  - injection Heq as -> ->. destruct (zero n E t); congruence.
  - destruct (zero n E u); [|congruence].
    destruct (zero_fields (zero n E) fs); [|congruence]. apply IH; [discriminate|assumption].
Qed.

End WithEnv.

(** ** Outcomes *)
Lemma obind_ret {A B} (o : outcome A) (k : A -> outcome B) r :
  obind o k = Ret r -> exists a, o = Ret a /\ k a = Ret r.
Proof. destruct o; cbn; intros H; try discriminate. eauto. Qed.

Ltac inv_bind H :=
  let a := fresh "p" in let H1 := fresh H in
  apply obind_ret in H; destruct H as (a & H1 & H);
  try (destruct a as [? ?]).

#[global] Arguments on_field : simpl never.

Tactic Notation "bind_inv" hyp(H) "as" ident(a) ident(b) ident(K) :=
  apply obind_ret in H; destruct H as ([a b] & K & H).

Lemma on_field_ret X s v f r :
  on_field X s v f = Ret r ->
  exists l x s' x', v = VStruct l /\ lookup f l = Some x /\ X s x = Ret (s', x')
    /\ r = (s', VStruct (update f x' l)).
Proof.
  unfold on_field. destruct v; try discriminate.
  destruct (lookup f l) eqn:El; [|discriminate]. intros H.
  inv_bind H. injection H as <-. eauto 10.
Qed.

(** ** Facts about running the interpreter on well-formed types *)
Section Run.
Variables (D : nat) (E : env).
Hypothesis Hwf : wf_env D E.

Lemma wf_lookup x t : lookup x E = Some t -> wf_ty D E t.
Proof. intros H. apply (Hwf _ _ H). Qed.

Definition sticky (X : xst -> val -> outcome (xst * val)) : Prop :=
  forall s v e r, x_err s = Some e -> X s v = Ret r -> r = (s, v).

Lemma sticky_field X f s v e r :
  sticky X -> x_err s = Some e -> on_field X s v f = Ret r -> r = (s, v).
Proof.
  intros HX He H. apply on_field_ret in H.
  destruct H as (l & x & s' & x' & -> & Hl & H & ->).
  apply (HX _ _ _ _ He) in H. injection H as -> ->. rewrite update_id; auto.
Qed.

Lemma sticky_fields X fs s v e r :
  (forall f t, In (f, t) fs -> sticky (X t)) ->
  x_err s = Some e -> xdr_fields X fs s v = Ret r -> r = (s, v).
Proof.
  intros HX He. revert s v He. induction fs as [|[f t] fs IH]; cbn; intros s v He H.
  - congruence.
  - inv_bind H. eapply sticky_field in H0; [|eapply HX; left; reflexivity|eassumption].
    injection H0 as -> ->. eapply IH; eauto. intros. eapply HX. right. eassumption.
Qed.

Lemma pick_arm_In d arms def f t :
  pick_arm d arms def = Some (Some (f, t)) -> In (f, t) (arm_fields arms ++ def_fields def).
Proof.
  unfold pick_arm. destruct (find _ arms) as [a|] eqn:Ef; intros H.
  - apply find_some in Ef. destruct Ef as [Ha _]. injection H as H.
    apply in_or_app. left. unfold arm_fields. apply in_flat_map.
    exists a. split; [exact Ha|]. rewrite H. left. reflexivity.
  - subst def. apply in_or_app. right. left. reflexivity.
Qed.

Lemma sticky_xdr n t : wf_ty D E t -> sticky (xdr n E t).
Proof.
  revert t. induction n as [|n IH]; intros t Ht s v e r He H; [discriminate|].
  destruct t, v; cbn [xdr] in H; try discriminate;
    try (destruct (lookup x E) as [u|] eqn:Hl; [|discriminate];
         exact (IH _ (wf_lookup _ _ Hl) _ _ _ _ He H)).
  - erewrite XdrU32_err in H by eassumption. congruence.
  - erewrite XdrS32_err in H by eassumption. congruence.
  - erewrite XdrU64_err in H by eassumption. congruence.
  - erewrite XdrS64_err in H by eassumption. congruence.
  - erewrite XdrBool_err in H by eassumption. congruence.
  - erewrite XdrArray_err in H by eassumption. congruence.
  - erewrite XdrVarArray_err in H by eassumption. congruence.
  - erewrite XdrString_err in H by eassumption. congruence.
  - erewrite EncodingSetSize_err in H by eassumption.
    erewrite XdrU32_err in H by eassumption.
    inversion Ht as [| | | | | | | |m' t' Hm Ht' Hz| | | |]; subst.
    replace (match max with Some k => 0 >? k | None => false end) with false in H.
    2:{ destruct max as [k|]; [|reflexivity]. cbn in Hm. rewrite Z.gtb_ltb.
        symmetry. apply Z.ltb_ge. exact Hm. }
    unfold Decoding in H. rewrite He in H. destruct o; cbn in H; congruence.
  - unfold Encoding in H. rewrite He in H. cbn in H.
    unfold Decoding in H. rewrite He in H. congruence.
  - inversion Ht; subst. eapply sticky_fields in H; eauto.
  - inversion Ht as [| | | | | | | | | | |sw' st' arms' def' Hnd Hd Hw|]; subst.
    inv_bind H. eapply sticky_field in H0; [|apply IH; eapply Hw; left; reflexivity|eassumption].
    injection H0 as -> ->.
    destruct (field_disc (VStruct l) sw); [|discriminate].
    destruct (pick_arm z arms def) as [[[f u]|]|] eqn:Ep; try congruence.
    eapply sticky_field in H; eauto. apply IH. eapply Hw. right.
    apply pick_arm_In in Ep. exact Ep.
Qed.

Lemma sticky_elems X k l s e r :
  sticky X -> x_err s = Some e -> xdr_elems X k l s = Ret r -> r = (s, l).
Proof.
  intros HX He. revert l s r He. induction k as [|k IH]; cbn; intros l s r He H; [congruence|].
  destruct l as [|x l]; [discriminate|]. inv_bind H.
  eapply HX in H0; eauto. injection H0 as -> ->. inv_bind H.
  apply IH in H0; [|assumption]. injection H0 as -> ->. congruence.
Qed.

(** Types are preserved. *)
Definition keeps (t : cty) (X : xst -> val -> outcome (xst * val)) : Prop :=
  forall s v s' v', has_ty E t v -> X s v = Ret (s', v') -> has_ty E t v'.

Lemma keeps_field X fs l f t s s' v' :
  has_fields E fs l -> NoDup (map fst fs) -> In (f, t) fs -> keeps t X ->
  on_field X s (VStruct l) f = Ret (s', v') ->
  exists l' x x', v' = VStruct l' /\ has_fields E fs l' /\ lookup f l = Some x
    /\ X s x = Ret (s', x') /\ l' = update f x' l /\ has_ty E t x /\ has_ty E t x'.
Proof.
  intros Hl Hnd Hin HX H. apply on_field_ret in H.
  destruct H as (l0 & x & s1 & x' & [= <-] & Hx & H & [= <- ->]).
  destruct (has_fields_lookup _ _ _ _ _ Hl Hnd Hin) as (y & Hy & Hty).
  rewrite Hx in Hy. injection Hy as <-.
  assert (Hx' : has_ty E t x') by eauto.
  exists (update f x' l), x, x'. repeat split; auto.
  eapply has_fields_update; eauto.
Qed.

Lemma keeps_fields X all fs l s s' v' :
  has_fields E all l -> NoDup (map fst all) -> incl fs all ->
  (forall f t, In (f, t) fs -> keeps t (X t)) ->
  xdr_fields X fs s (VStruct l) = Ret (s', v') ->
  exists l', v' = VStruct l' /\ has_fields E all l'.
Proof.
  intros Hl Hnd. revert l s Hl. induction fs as [|[f t] fs IH]; cbn; intros l s Hl Hin HX H.
  - injection H as <- <-. eauto.
  - inv_bind H.
    eapply keeps_field in H0; [|eassumption|eassumption|apply Hin; left; reflexivity
                              |eapply HX; left; reflexivity].
    destruct H0 as (l1 & y & y' & -> & Hl1 & _).
    eapply IH in H; eauto.
    intros a Ha. apply Hin. right. exact Ha.
Qed.

Lemma keeps_elems X t k l s s' l' :
  keeps t X -> has_tys E t l -> xdr_elems X k l s = Ret (s', l') -> has_tys E t l'.
Proof.
  intros HX. revert l s s' l'. induction k as [|k IH]; cbn; intros l s s' l' Hl H; [congruence|].
  destruct l as [|x l]; [discriminate|]. inv_bind H. inv_bind H. injection H as <- <-.
  inversion Hl; subst. constructor; eauto.
Qed.

Lemma xdrRW_length s v : List.length (snd (xdrRW s v)) = List.length v.
Proof.
  unfold xdrRW. destruct (x_err s); [reflexivity|]. destruct (x_reader s); [|reflexivity].
  set (n := Nat.min _ _).
  assert (List.length (firstn n (x_buf s) ++ skipn n v) = List.length v).
  { rewrite app_length, firstn_length, skipn_length. lia. }
  destruct (Nat.ltb _ _); exact H.
Qed.

Lemma XdrArray_length s v : List.length (snd (XdrArray s v)) = List.length v.
Proof.
  unfold XdrArray. destruct (x_err s); [reflexivity|].
  pose proof (xdrRW_length s v). destruct (xdrRW s v) as [s1 v1].
  destruct (negb _); exact H.
Qed.

Lemma get_u32_range bs : 0 <= get_u32 bs < 2 ^ 32.
Proof.
  destruct (Nat.eq_dec (List.length bs) 4) as [Hl|Hl].
  - rewrite get_u32_val by exact Hl. apply be_val_4. exact Hl.
  - do 5 (destruct bs as [|? bs]; [cbn in *; lia|]). cbn. lia.
Qed.

Lemma get_u64_range bs : 0 <= get_u64 bs < 2 ^ 64.
Proof.
  destruct (Nat.eq_dec (List.length bs) 8) as [Hl|Hl].
  - rewrite get_u64_val by exact Hl. apply be_val_8. exact Hl.
  - do 9 (destruct bs as [|? bs]; [cbn in *; lia|]). cbn. lia.
Qed.

Lemma keeps_xdr n t : wf_ty D E t -> keeps t (xdr n E t).
Proof.
  revert t. induction n as [|n IH]; intros t Ht s v s' v' Hv H; [discriminate|].
  destruct Hv as [z Hz|z Hz|z Hz|z Hz|b|k bs Hbs|m o|m bs|m t o Hvs|t|t v Hv|fs l Hl
                 |sw st arms def l Hl|x t v Hx Hv]; cbn [xdr] in H.
  - unfold XdrU32 in H. destruct (x_err s); [injection H as <- <-; constructor; assumption|].
    destruct (xdrRW s _) as [s1 b1]. destruct (Decoding s1); injection H as <- <-;
      constructor; try assumption. apply get_u32_range.
  - unfold XdrS32 in H. destruct (x_err s); [injection H as <- <-; constructor; assumption|].
    destruct (xdrRW s _) as [s1 b1]. destruct (Decoding s1); injection H as <- <-;
      constructor; try assumption. apply to_s32_range.
  - unfold XdrU64 in H. destruct (x_err s); [injection H as <- <-; constructor; assumption|].
    destruct (xdrRW s _) as [s1 b1]. destruct (Decoding s1); injection H as <- <-;
      constructor; try assumption. apply get_u64_range.
  - unfold XdrS64 in H. destruct (x_err s); [injection H as <- <-; constructor; assumption|].
    destruct (xdrRW s _) as [s1 b1]. destruct (Decoding s1); injection H as <- <-;
      constructor; try assumption. apply to_s64_range.
  - destruct (XdrBool s b). injection H as <- <-. constructor.
  - pose proof (XdrArray_length s bs). destruct (XdrArray s bs) as [s1 b1].
    injection H as <- <-. constructor. cbn in *. congruence.
  - destruct (XdrVarArray _ _ _). injection H as <- <-. constructor.
  - destruct (XdrString _ _ _). injection H as <- <-. constructor.
  - inversion Ht as [| | | | | | | |m' t' Hm Ht' Hz| | | |]; subst.
    destruct (EncodingSetSize _ _ _) as [s1 sz0]. destruct (XdrU32 s1 sz0) as [s2 sz].
    destruct (match m with Some k => sz >? k | None => false end).
    { injection H as <- <-. constructor. exact Hvs. }
    destruct (Decoding s2).
    + destruct (zero n E t) as [z|] eqn:Ez; [|discriminate]. inv_bind H. injection H as <- <-.
      constructor. cbn. eapply keeps_elems; [apply IH; exact Ht'| |exact H0].
      apply has_tys_repeat. eapply zero_ty. eassumption.
    + inv_bind H. injection H as <- <-. constructor.
      assert (has_tys E t l) by (eapply keeps_elems; [apply IH; exact Ht'|exact Hvs|exact H0]).
      destruct o; [assumption|constructor].
  - inversion Ht; subst.
    inv_bind H.
    assert (o = None).
    { destruct (Encoding s); [|congruence]. destruct (XdrBool s false) as [s1 op].
      destruct op; congruence. }
    subst o. destruct (Decoding x); [|injection H as <- <-; constructor].
    destruct (XdrBool x false) as [s2 op].
    destruct op; [|injection H as <- <-; constructor].
    destruct (zero n E t) as [z|] eqn:Ez; [|discriminate]. inv_bind H. injection H as <- <-.
    constructor. eapply IH; [assumption| |eassumption]. eapply zero_ty. eassumption.
  - inversion Ht; subst.
    bind_inv H as s1 o1 K.
    assert (has_ty E (CPtr t) (VPtr o1)).
    { destruct (Encoding s); [|injection K as <- <-; constructor; assumption].
      destruct (XdrBool s true) as [s2 op].
      destruct op; [|injection K as <- <-; constructor; assumption].
      bind_inv K as s3 o3 K'. injection K as <- <-. constructor. eapply IH; eauto. }
    destruct (Decoding s1); [|injection H as <- <-; assumption].
    destruct (XdrBool s1 false) as [s2 op].
    destruct op; [|injection H as <- <-; assumption].
    destruct (zero n E t) as [z|] eqn:Ez; [|discriminate]. bind_inv H as s3 o3 K'.
    injection H as <- <-.
    constructor. eapply IH; [assumption| |eassumption]. eapply zero_ty. eassumption.
  - inversion Ht; subst.
    eapply keeps_fields in H; [|eassumption|eassumption|apply incl_refl|eauto].
    destruct H as (l' & -> & Hl'). constructor. exact Hl'.
  - inversion Ht as [| | | | | | | | | | |sw' st' arms' def' Hnd Hd Hw|]; subst.
    inv_bind H.
    eapply keeps_field in H0; [|eassumption|eassumption|left; reflexivity
       |apply IH; eapply Hw; left; reflexivity].
    destruct H0 as (l1 & x1 & x2 & -> & Hl1 & _).
    destruct (field_disc (VStruct l1) sw) as [d|]; [|discriminate].
    destruct (pick_arm d arms def) as [[[f t]|]|] eqn:Ep;
      try (injection H as <- <-; constructor; exact Hl1).
    assert (In (f, t) (union_fields sw st arms def)).
    { right. apply (pick_arm_In _ _ _ _ _ Ep). }
    eapply keeps_field in H; [|eassumption|eassumption|eassumption|apply IH; eauto].
    destruct H as (l2 & y1 & y2 & -> & Hl2 & _). constructor. exact Hl2.
  - rewrite Hx in H. econstructor; [exact Hx|]. eapply IH; eauto using wf_lookup.
Qed.

End Run.
