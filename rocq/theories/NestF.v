(** Every specification with a variable array inside the element of a variable array: there is
    a value that the codec of the type encodes and on which the emitted method panics. *)
From Coq Require Import Lia.
From Verif Require Import GoLex XLex Gram GParse Emit Bytes XdrLib Types Interp Meta Spec Runs Codec Codec4 GoAst GoSem GElab GSimA GSimB GSimC NestA NestB NestC NestD NestE.
Open Scope string_scope.
Open Scope Z_scope.
Open Scope list_scope.

Lemma within_le m a b : a <= b -> within m b -> within m a.
Proof. intros L (A & B). split; [lia|]. destruct m; [lia|exact I]. Qed.
Lemma within_0 m : max_ok m -> within m 0.
Proof. intros M. split; [lia|]. destruct m; [exact M|exact I]. Qed.

Section W.
Variable D : nat.
Variable E : env.
Hypothesis Henv : wf_env D E.
Lemma zero_snug n : forall c v, wf_ty D E c -> zero n E c = Some v -> snug n E c v.
Proof.
  induction n as [|n IH]; intros c v W H; [discriminate|]. destruct c; cbn [zero] in H; try (injection H as <-; cbn [snug]; exact I).
  - injection H as <-. cbn [snug]. inversion W. apply within_0. assumption.
  - injection H as <-. cbn [snug]. inversion W. apply within_0. assumption.
  - injection H as <-. cbn [snug]. inversion W. split; [apply within_0; assumption|intros e []].
  - destruct (zero_fields (zero n E) fs) as [l|] eqn:Z; [|discriminate]. injection H as <-. cbn [snug]. inversion W as [| | | | | | | | | |fs' Nd Wf| |]; subst. intros f t I. destruct (zero_fields_lookup E _ _ _ _ _ Z Nd I) as (x & F & Zx). exists x. split; [exact F|]. apply IH; [exact (Wf _ _ I)|exact Zx].
  - destruct (zero_fields (zero n E) _) as [l|] eqn:Z; [|discriminate]. injection H as <-. cbn [snug]. inversion W as [| | | | | | | | | | |sw' st' arms' def' Nd _ Wf|]; subst. intros f t I. destruct (zero_fields_lookup E _ _ _ _ _ Z Nd I) as (x & F & Zx). exists x. split; [exact F|]. apply IH; [exact (Wf _ _ I)|exact Zx].
  - destruct (lookup x E) as [t|] eqn:F; [|discriminate]. cbn [snug]. exists t. split; [exact F|]. apply IH; [exact (proj1 (Henv _ _ F))|exact H].
Qed.
Lemma snug_disc st : disc_ty E st -> forall n dv, snug n E st dv -> exists d, disc_of dv = Some d.
Proof.
  induction 1 as [| | | | |x t F _ IH]; intros n dv S; (destruct n as [|n]; [destruct S|]); cbn [snug] in S; try (destruct dv; try destruct S; cbn; eauto; fail).
  destruct S as (t' & F' & S). assert (t' = t) as -> by congruence. exact (IH n dv S).
Qed.
Lemma disc_snug st : disc_ty E st -> forall dv, has_ty E st dv -> exists n, snug n E st dv.
Proof.
  induction 1 as [| | | | |x t F _ IH]; intros dv T; try (exists 1%nat; inversion T; exact I).
  inversion T as [| | | | | | | | | | | | |y u v1 F' Tv]; subst. assert (u = t) as -> by congruence. destruct (IH dv Tv) as (n & Sn). exists (S n). cbn [snug]. eauto.
Qed.
Lemma snug_bounded n : forall c v, wf_ty D E c -> snug n E c v -> bounded ENC E c v.
Proof.
  induction n as [|n IH]; intros c v W S; [destruct S|]. destruct c; cbn [snug] in S.
  1-8: (destruct v; try (exfalso; exact S); constructor; exact S).
  - destruct v as [| | | | |o| |]; try (exfalso; exact S). destruct S as (A & B). constructor; [exact A|]. inversion W as [| | | | | | | |m' t' _ Wt _| | | |]; subst. clear A. induction (elems o) as [|e l IHl]; constructor; [apply IH; [exact Wt|apply B; left; reflexivity]|apply IHl; intros e' I; apply B; right; exact I].
  - inversion W as [| | | | | | | | |t' Wt _| | |]; subst. destruct v as [| | | | | |[x|]|]; try (exfalso; exact S); constructor. apply IH; assumption.
  - destruct v as [| | | | | | |l]; try (exfalso; exact S). inversion W as [| | | | | | | | | |fs' _ Wf| |]; subst. constructor. clear W. induction fs as [|[f t] fs IHf]; [constructor|].
    destruct (S f t (or_introl eq_refl)) as (x & F & Sx). econstructor; [exact F|apply IH; [apply (Wf f); left; reflexivity|exact Sx]|]. apply IHf; intros f' t' I; [apply S; right; exact I|apply (Wf f'); right; exact I].
  - destruct v as [| | | | | | |l]; try (exfalso; exact S). inversion W as [| | | | | | | | | | |sw' st' arms' def' _ Dt Wf|]; subst.
    destruct (S sw c (or_introl eq_refl)) as (dv & Fd & Sd). destruct (snug_disc _ Dt _ _ Sd) as (d & Hd). assert (Bd : bounded ENC E c dv) by (apply IH; [apply (Wf sw); left; reflexivity|exact Sd]).
    destruct (pick_arm d arms def) as [[[f t]|]|] eqn:Pk.
    + assert (Iu : In (f, t) (union_fields sw c arms def)).
      { right. unfold pick_arm in Pk. destruct (find _ arms) as [a|] eqn:Fi.
        - apply find_some in Fi. destruct Fi as (Ia & _). apply in_or_app. left. unfold arm_fields. apply in_flat_map. exists a. split; [exact Ia|]. injection Pk as Pk. rewrite Pk. left. reflexivity.
        - apply in_or_app. right. subst def. left. reflexivity. }
      destruct (S f t Iu) as (x & F & Sx). eapply B_union_arm; [exact Fd|exact Bd|exact Hd|exact Pk|exact F|]. apply IH; [exact (Wf _ _ Iu)|exact Sx].
    + eapply B_union_void; [exact Fd|exact Bd|exact Hd|]. left. exact Pk.
    + eapply B_union_void; [exact Fd|exact Bd|exact Hd|]. right. split; [exact Pk|reflexivity].
  - destruct S as (t & F & S). econstructor; [exact F|]. apply IH; [exact (proj1 (Henv _ _ F))|exact S].
Qed.
End W.

(** ** Inline types inside an inline type, without a value *)
Lemma zero_struct n E fs : zero n E (CStruct fs) <> None -> exists k l, zero_fields (zero k E) fs = Some l /\ (S k <= n)%nat.
Proof. destruct n as [|k]; [intros H; destruct (H eq_refl)|]. cbn [zero]. destruct (zero_fields (zero k E) fs) as [l|] eqn:Z; [eauto|intros H; destruct (H eq_refl)]. Qed.
Lemma zero_union n E sw st arms def : zero n E (CUnion sw st arms def) <> None -> exists k l, zero_fields (zero k E) (union_fields sw st arms def) = Some l /\ (S k <= n)%nat.
Proof. destruct n as [|k]; [intros H; destruct (H eq_refl)|]. cbn [zero]. destruct (zero_fields (zero k E) _) as [l|] eqn:Z; [eauto|intros H; destruct (H eq_refl)]. Qed.

Section Can.
Variable K : list xconst.
Variable E : env.
(** Along members, arms that some discriminant chooses and optionals, the path [p] leads to an
    inline type [dt]. *)
Inductive can (dt : declType) : typespec -> list step -> Prop :=
| cn_struct items du n p : In (declName du n) items -> can_dt dt du p -> can dt (typeStruct items) (PField (cap n) :: p)
| cn_union st sn cases def cst dv d du n p :
    el_dt K st = Some cst -> has_ty E cst dv -> disc_of dv = Some d -> chosen K d cases def = Some (declName du n) -> can_dt dt du p ->
    can dt (typeUnion (declName st sn) cases def) (PField (cap n) :: p)
with can_dt (dt : declType) : declType -> list step -> Prop :=
| cn_here : can_dt dt dt []
| cn_spec t p : can dt t p -> can_dt dt (declTypeTypespec t) p
| cn_ptr t p : can dt t p -> can_dt dt (declTypePtr t) (PDeref :: p).
End Can.
Scheme can_mind := Minimality for can Sort Prop
  with can_dt_mind := Minimality for can_dt Sort Prop.
Combined Scheme can_mutind from can_mind, can_dt_mind.

Section S.
Variable fl : flags.
Variable ds : list defn.
Variable E : env.
Variable G : gpkg.
Hypothesis Hsup : supportedx fl ds = Some (E, G).
Let K := xconsts ds.
Variable D : nat.
Hypothesis Henv : wf_env D E.

Definition fits (c : cty) (v : val) : Prop := has_ty E c v /\ exists n, snug n E c v.
Lemma zero_pred fs l n : zero_fields (zero n E) fs = Some l -> (S n <= D)%nat -> forall f t, In (f, t) fs -> zero D E t <> None.
Proof.
  intros Z L f t I. assert (N : zero n E t <> None) by (eapply zero_fields_sub; [|exact I]; congruence). destruct (zero n E t) as [z|] eqn:F; [|congruence]. rewrite (zero_mono E n D t z) by (try assumption; lia). discriminate.
Qed.
(** Put a value into a field of a struct that is otherwise zero. *)
Lemma put_field fs l n f t x : zero_fields (zero n E) fs = Some l -> NoDup (map fst fs) -> (forall f t, In (f, t) fs -> wf_ty D E t) -> In (f, t) fs -> fits t x ->
  has_fields E fs (update f x l) /\ lookup f (update f x l) = Some x /\ (forall g, g <> f -> lookup g (update f x l) = lookup g l) /\
  exists k, forall g u, In (g, u) fs -> exists y, lookup g (update f x l) = Some y /\ snug k E u y.
Proof.
  intros Z Nd Wf I (T & k & S). assert (Hf : has_fields E fs l) by (eapply zero_fields_ty; [intros; eapply zero_ty; eassumption|exact Z]).
  destruct (zero_fields_lookup E _ _ _ _ _ Z Nd I) as (z & F & _). split; [eapply has_fields_update; eassumption|]. split; [eapply lookup_update_same, F|]. split; [intros g Ng; apply lookup_update_other; congruence|].
  exists (Nat.max n k). intros g u Ig. destruct (String.eqb_spec g f) as [->|Ne].
  - exists x. split; [eapply lookup_update_same, F|]. assert (u = t) as -> by (pose proof (lookup_nodup _ _ _ Nd I); pose proof (lookup_nodup _ _ _ Nd Ig); congruence). eapply snug_le; [|exact S]. lia.
  - destruct (zero_fields_lookup E _ _ _ _ _ Z Nd Ig) as (y & Fy & Zy). exists y. split; [rewrite lookup_update_other by congruence; exact Fy|]. eapply snug_le; [|eapply zero_snug; [exact Henv|exact (Wf _ _ Ig)|exact Zy]]. lia.
Qed.
Section B.
Variable dt : declType.
Lemma can_wf :
  (forall t p, can K E dt t p -> forall c, el K t = Some c -> wf_ty D E c -> exists cl, el_dt K dt = Some cl /\ wf_ty D E cl) /\
  (forall t p, can_dt K E dt t p -> forall c, el_dt K t = Some c -> wf_ty D E c -> exists cl, el_dt K dt = Some cl /\ wf_ty D E cl).
Proof.
  apply can_mutind.
  - intros items u n p I _ IH c A W. rewrite (el_struct ds) in A. destruct (el_items ds items) as [fs|] eqn:A1; [|discriminate]. injection A as <-.
    destruct (el_items_in ds _ _ _ _ I A1) as (cu & C & Ic). inversion W as [| | | | | | | | | |fs' Nd Wf| |]; subst. exact (IH cu C (Wf _ _ Ic)).
  - intros st sn cases def cst dv d u n p A1 Td Hd Ch _ IH c A W. rewrite (el_union ds) in A. fold K in A. rewrite A1 in A. cbn [pbind] in A.
    destruct (el_arms ds cases) as [arms|] eqn:A2; [|discriminate]. cbn [pbind] in A. destruct (match def with Some d => do a <- el_arm K d ; Some (Some a) | None => Some None end) as [ed|] eqn:A3; [|discriminate]. injection A as <-.
    destruct (chosen_el ds _ _ _ _ _ _ Ch A2 A3) as (a & Ea & _ & Ia). destruct (el_dt_name ds _ _ _ _ eq_refl Ea) as (cu & C & ->). specialize (Ia _ eq_refl). inversion W as [| | | | | | | | | | |sw' st' arms' def' Nd Dt Wf|]; subst.
    exact (IH cu C (Wf (cap n) cu (or_intror Ia))).
  - intros c A W. eauto.
  - intros t p _ IH c A W. exact (IH c A W).
  - intros t p _ IH c A W. change (pbind (el K t) (fun c => Some (CPtr c)) = Some c) in A. destruct (el K t) as [ct|] eqn:A1; [|discriminate]. injection A as <-. inversion W as [| | | | | | | | |t' Wt _| | |]; subst. exact (IH ct eq_refl Wt).
Qed.
Variable cl : cty.
Variable lf : val.
Hypothesis Hcl : el_dt K dt = Some cl.
Hypothesis Hlf : fits cl lf.
Lemma build :
  (forall t p, can K E dt t p -> forall c, el K t = Some c -> wf_ty D E c -> zero D E c <> None -> exists v, fits c v /\ reach K dt t v p /\ path_load v p = Some lf) /\
  (forall t p, can_dt K E dt t p -> forall c, el_dt K t = Some c -> wf_ty D E c -> zero D E c <> None -> exists v, fits c v /\ reach_dt K dt t v p /\ path_load v p = Some lf).
Proof.
  apply can_mutind.
  - intros items u n p I _ IH c A W Z. rewrite (el_struct ds) in A. destruct (el_items ds items) as [fs|] eqn:A1; [|discriminate]. injection A as <-.
    destruct (el_items_in ds _ _ _ _ I A1) as (cu & C & Ic). inversion W as [| | | | | | | | | |fs' Nd Wf| |]; subst.
    destruct (zero_struct _ _ _ Z) as (D' & l & Zf & LD). clear Z.
    destruct (IH cu C (Wf _ _ Ic) (zero_pred fs l D' Zf LD _ _ Ic)) as (w & Fw & Rw & Lw). destruct (put_field fs l D' (cap n) cu w Zf Nd Wf Ic Fw) as (Hf & Fs & _ & k & Sk).
    exists (VStruct (update (cap n) w l)). split; [split; [constructor; exact Hf|exists (Datatypes.S k); exact Sk]|]. split; [eapply rc_struct; eassumption|]. cbn [path_load step_load]. rewrite Fs. exact Lw.
  - intros st sn cases def cst dv d u n p A1 Td Hd Ch _ IH c A W Z. rewrite (el_union ds) in A. fold K in A. rewrite A1 in A. cbn [pbind] in A.
    destruct (el_arms ds cases) as [arms|] eqn:A2; [|discriminate]. cbn [pbind] in A. destruct (match def with Some d => do a <- el_arm K d ; Some (Some a) | None => Some None end) as [ed|] eqn:A3; [|discriminate]. injection A as <-.
    destruct (chosen_el ds _ _ _ _ _ _ Ch A2 A3) as (a & Ea & _ & Ia). destruct (el_dt_name ds _ _ _ _ eq_refl Ea) as (cu & C & ->). specialize (Ia _ eq_refl). inversion W as [| | | | | | | | | | |sw' st' arms' def' Nd Dt Wf|]; subst.
    assert (Iu : In (cap n, cu) (union_fields (cap sn) cst arms ed)) by (right; exact Ia).
    assert (Ne : cap sn <> cap n).
    { intros X. unfold union_fields in Nd. cbn [map fst] in Nd. inversion Nd as [|y ys Y _]; subst. apply Y. rewrite X. apply (in_map fst) in Ia. exact Ia. }
    destruct (zero_union _ _ _ _ _ _ Z) as (D' & l & Zf & LD). clear Z.
    destruct (IH cu C (Wf _ _ Iu) (zero_pred _ l D' Zf LD _ _ Iu)) as (w & Fw & Rw & Lw). destruct (put_field _ l D' (cap n) cu w Zf Nd Wf Iu Fw) as (Hf & Fs & Fo & k & Sk).
    destruct (disc_snug E _ Dt _ Td) as (kd & Sd). set (l1 := update (cap n) w l) in *. set (l2 := update (cap sn) dv l1).
    destruct (zero_fields_lookup E _ _ _ _ _ Zf Nd (or_introl eq_refl : In (cap sn, cst) (union_fields (cap sn) cst arms ed))) as (z & Fz & _).
    assert (F1 : lookup (cap sn) l1 = Some z) by (rewrite Fo by congruence; exact Fz).
    assert (Fn : lookup (cap n) l2 = Some w) by (unfold l2; rewrite lookup_update_other by congruence; exact Fs).
    assert (Fd : lookup (cap sn) l2 = Some dv) by (unfold l2; eapply lookup_update_same, F1).
    exists (VStruct l2). split; [split|].
    + constructor. unfold l2. eapply has_fields_update; [exact Hf|exact Nd|left; reflexivity|exact Td].
    + exists (Datatypes.S (Nat.max k kd)). cbn [snug]. intros g t Ig. destruct (String.eqb_spec g (cap sn)) as [->|Ng].
      * exists dv. split; [exact Fd|]. assert (t = cst) as -> by (pose proof (lookup_nodup _ _ _ Nd Ig); pose proof (lookup_nodup _ _ _ Nd (or_introl eq_refl : In (cap sn, cst) (union_fields (cap sn) cst arms ed))); congruence). eapply snug_le; [|exact Sd]. lia.
      * destruct (Sk g t Ig) as (y & Fy & Sy). exists y. split; [unfold l2; rewrite lookup_update_other by congruence; exact Fy|]. eapply snug_le; [|exact Sy]. lia.
    + split; [eapply rc_union; eassumption|]. cbn [path_load step_load]. rewrite Fn. exact Lw.
  - intros c A W Z. assert (c = cl) as -> by congruence. exists lf. split; [exact Hlf|]. split; [constructor|reflexivity].
  - intros t p _ IH c A W Z. destruct (IH c A W Z) as (v & Fv & Rv & Lv). exists v. split; [exact Fv|]. split; [constructor; exact Rv|exact Lv].
  - intros t p _ IH c A W _. change (pbind (el K t) (fun c => Some (CPtr c)) = Some c) in A. destruct (el K t) as [ct|] eqn:A1; [|discriminate]. injection A as <-. inversion W as [| | | | | | | | |t' Wt Zt| | |]; subst.
    destruct (IH ct eq_refl Wt Zt) as (v & (Tv & k & Sv) & Rv & Lv). exists (VPtr (Some v)). split; [split; [constructor; exact Tv|exists (Datatypes.S k); exact Sv]|]. split; [constructor; exact Rv|exact Lv].
Qed.
End B.

Lemma fits_arr m c l : (forall e, In e l -> fits c e) -> within m (zlen l) -> fits (CVarArray m c) (VSlice (Some l)).
Proof.
  intros H W. split; [constructor; cbn [elems]; rewrite has_tys_Forall, Forall_forall; intros e I; apply (H e I)|].
  assert (exists k, forall e, In e l -> snug k E c e) as (k & S).
  { clear W. induction l as [|a l IH]; [exists O; intros e []|]. destruct IH as (k1 & S1); [intros e I; apply H; right; exact I|]. destruct (H a (or_introl eq_refl)) as (_ & k2 & S2). exists (Nat.max k1 k2). intros e [<-|I]; [eapply snug_le; [|exact S2]; lia|eapply snug_le; [|exact (S1 e I)]; lia]. }
  exists (Datatypes.S k). cbn [snug]. split; [exact W|exact S].
Qed.
(** A method run on a writer panics or returns without an error. *)
Theorem call_safe x v n : wf_ty D E (CIdent x) -> snug n E (CIdent x) v ->
  exists m0, forall m a, (m0 <= m)%nat -> call G m x (MakeWriter a) v = GPanic \/ exists s', call G m x (MakeWriter a) v = GRet (s', v) /\ wok s'.
Proof.
  intros W S. inversion W as [| | | | | | | | | | | |x' t F]; subst. pose proof (NestB.type_rel _ _ _ _ Hsup x) as R. rewrite F in R. destruct R as (g & body & _ & Lb & R). destruct (Henv _ _ F) as (Wt & _).
  destruct n as [|n]; [destruct S|]. cbn [snug] in S. destruct S as (t' & F' & S). assert (t' = t) as -> by congruence. clear F'.
  assert (Sb : safe G v body []).
  { destruct R as [u g body cu _ C B Nu|u g body cu _ C B Nu].
    - eapply (safe_all fl ds E G Hsup D Henv n v u cu false (EVar "v") body [] 0%nat C Wt Nu B); [|apply okloc_nil|apply iloc_false]. intros k. left. exists [], v. split; [constructor|]. split; [reflexivity|exact S].
    - inversion Wt as [| | | | | | | | | |fs' _ W1| |]; subst.
      eapply (safe_all fl ds E G Hsup D Henv n v (declTypePtr u) (CPtr cu) false (EAddr (ESel (EVar "v") "P")) body [] 0%nat); [change (pbind (el K u) (fun c => Some (CPtr c)) = Some (CPtr cu)); unfold K; rewrite C; reflexivity|apply (W1 "P"); left; reflexivity|exact Nu|exact B| |apply okloc_nil|apply iloc_false].
      intros k. left. destruct n as [|n]; [destruct S|]. cbn [snug] in S. destruct v as [| | | | | | |l]; try (exfalso; exact S). destruct (S "P" _ (or_introl eq_refl)) as (y & Fy & Sy).
      exists [PField "P"], y. split; [constructor|]. split; [cbn; rewrite Fy; reflexivity|]. apply snug_S, Sy. }
  destruct Sb as (m0 & Sb). exists m0. intros m a Lm. unfold call. rewrite Lb.
  destruct (okr_block G v [] m (MakeWriter a) body (Sb m (MakeWriter a) Lm (conj eq_refl eq_refl))) as [X|(s' & X & W')]; unfold frame0; rewrite X; [left; reflexivity|right]. exists s'. auto.
Qed.

(** ** Arrays inside arrays *)
Theorem nest_panics d x t p0 t1 sz1 p t2 sz2 q m1 m2 :
  In d ds -> root d = Some (x, t, p0) -> wf_ty D E (CIdent x) -> zero D E (CIdent x) <> None ->
  can_dt K E (declTypeVarArray t1 sz1) t p -> can K E (declTypeVarArray t2 sz2) t1 q -> touches t2 = true ->
  xbound K sz1 = Some m1 -> xbound K sz2 = Some m2 -> (within m1 1 /\ within m2 2) \/ (within m1 2 /\ within m2 1) ->
  exists v b, has_ty E (CIdent x) v /\ Encode E (CIdent x) v b None /\
    exists m0, forall m a, (m0 <= m)%nat -> call G m x (MakeWriter a) v = GPanic.
Proof.
  intros Id R Wx Zx C1 C2 Tc B1 B2 Bd. destruct (root_inv fl ds E G Hsup _ _ _ _ Id R) as (c & body & A & Lx & _ & _ & _ & Ep). fold K in A.
  destruct (Henv _ _ Lx) as (Wr & Zr). change (id p0 = match t with declTypePtr _ => [PField "P"] | _ => [] end) in Ep.
  assert (Wc : wf_ty D E c /\ zero D E c <> None).
  { unfold root_ty in *. destruct t; try (split; assumption). inversion Wr as [| | | | | | | | | |fs' _ W1| |]; subst. split; [apply (W1 "P"); left; reflexivity|]. 
    change (pbind (el K t) (fun c => Some (CPtr c)) = Some c) in A. destruct (el K t) as [ct|]; [|discriminate]. injection A as <-. destruct D as [|D']; [cbn in Zr; congruence|cbn; discriminate]. }
  destruct Wc as (Wc & Zc). destruct (proj2 (can_wf (declTypeVarArray t1 sz1)) _ _ C1 _ A Wc) as (cl1 & L1 & W1). pose proof L1 as L1'.
  change (pbind (xbound K sz1) (fun m => do c <- el K t1 ; Some (CVarArray m c)) = Some cl1) in L1. rewrite B1 in L1. cbn [pbind] in L1. destruct (el K t1) as [ct1|] eqn:E1; [|discriminate]. injection L1 as <-.
  inversion W1 as [| | | | | | | |m' t' _ Wt1 Zt1| | | |]; subst.
  destruct (proj1 (can_wf (declTypeVarArray t2 sz2)) _ _ C2 _ E1 Wt1) as (cl2 & L2 & W2). pose proof L2 as L2'.
  change (pbind (xbound K sz2) (fun m => do c <- el K t2 ; Some (CVarArray m c)) = Some cl2) in L2. rewrite B2 in L2. cbn [pbind] in L2. destruct (el K t2) as [ct2|] eqn:E2; [|discriminate]. injection L2 as <-.
  inversion W2 as [| | | | | | | |m' t' _ Wt2 Zt2| | | |]; subst.
  destruct (zero D E ct2) as [z|] eqn:Z2; [|congruence]. assert (Fz : fits ct2 z) by (split; [eapply zero_ty, Z2|exists D; eapply zero_snug; eassumption]).
  (* elements of the outer array *)
  assert (El : forall l, (forall e, In e l -> e = z) -> within m2 (zlen l) -> exists e, fits ct1 e /\ reach K (declTypeVarArray t2 sz2) t1 e q /\ path_load e q = Some (VSlice (Some l))).
  { intros l Hl Wl. destruct (build (declTypeVarArray t2 sz2) _ (VSlice (Some l)) L2') as (Bt & _); [apply fits_arr; [intros e Ie; rewrite (Hl e Ie); exact Fz|exact Wl]|]. exact (Bt _ _ C2 _ E1 Wt1 Zt1). }
  (* the whole value *)
  assert (Wh : forall l, (forall e, In e l -> fits ct1 e) -> within m1 (zlen l) -> exists v w, fits (CIdent x) v /\ path_load v p0 = Some w /\ reach_dt K (declTypeVarArray t1 sz1) t w p /\ path_load w p = Some (VSlice (Some l))).
  { intros l Hl Wl. destruct (build (declTypeVarArray t1 sz1) _ (VSlice (Some l)) L1') as (_ & Bt); [apply fits_arr; assumption|]. destruct (Bt _ _ C1 _ A Wc Zc) as (w & (Tw & k & Sw) & Rw & Lw).
    assert (Q : exists v, fits (root_ty t c) v /\ path_load v p0 = Some w).
    { unfold root_ty. unfold id in Ep. subst p0. destruct t; try (exists w; split; [split; eauto|reflexivity]). exists (VStruct [("P", w)]). split; [split; [constructor; constructor; [exact Tw|constructor]|]|reflexivity].
      exists (Datatypes.S k). cbn [snug]. intros f u [If|[]]. injection If as <- <-. exists w. split; [reflexivity|exact Sw]. }
    destruct Q as (v & (Tv & kv & Sv) & Lv). exists v, w. split; [split; [econstructor; eassumption|exists (Datatypes.S kv); cbn [snug]; eauto]|]. auto. }
  assert (Fin : forall v w l j ej lj i, fits (CIdent x) v -> path_load v p0 = Some w -> reach_dt K (declTypeVarArray t1 sz1) t w p -> path_load w p = Some (VSlice (Some l)) ->
     nth_error l j = Some ej -> reach K (declTypeVarArray t2 sz2) t1 ej q -> path_load ej q = Some (VSlice (Some lj)) -> (i < List.length lj)%nat ->
     ((List.length l <= i)%nat \/ exists ei oi, nth_error l i = Some ei /\ path_load ei q = Some (VSlice oi) /\ (List.length (elems oi) <= i)%nat) ->
     exists v b, has_ty E (CIdent x) v /\ Encode E (CIdent x) v b None /\ exists m0, forall m a, (m0 <= m)%nat -> call G m x (MakeWriter a) v = GPanic).
  { intros v w l j ej lj i (Tv & k & Sv) Lv Rw Lw Nj Rj Lj Li Hb. assert (Gd : good D E (CIdent x)) by (split; [exact Henv|split; assumption]).
    destruct (g03 D E (CIdent x) Gd v Tv) as ((b & e & En) & Eb & _). assert (e = None) as -> by (apply (Eb _ _ En); eapply snug_bounded; eassumption).
    exists v, b. split; [exact Tv|]. split; [exact En|]. destruct (call_safe x v k Wx Sv) as (m0 & Cs). exists m0. intros m a Lm. destruct (Cs m a Lm) as [X|(s' & X & Ws)]; [exact X|].
    exfalso. exact (nest_never fl ds E G Hsup D d x t p0 v w p t1 sz1 l j ej q t2 sz2 lj i Id R Gd Tv Lv Rw Lw Nj Rj Lj Tc Li Hb m a s' v X (proj2 Ws)). }
  destruct Bd as [(Wa & Wb)|(Wa & Wb)].
  - destruct (El [z; z]) as (e & Fe & Re & Le); [intros e [<-|[<-|[]]]; reflexivity|exact Wb|]. destruct (Wh [e]) as (v & w & Fv & Lv & Rw & Lw); [intros e' [<-|[]]; exact Fe|exact Wa|].
    eapply (Fin v w [e] 0%nat e [z; z] 1%nat); try eassumption; [reflexivity|cbn; lia|]. left. cbn. lia.
  - destruct (El []) as (e0 & Fe0 & Re0 & Le0); [intros e []|eapply within_le; [|exact Wb]; cbn; lia|]. destruct (El [z]) as (e1 & Fe1 & Re1 & Le1); [intros e [<-|[]]; reflexivity|exact Wb|].
    destruct (Wh [e0; e1]) as (v & w & Fv & Lv & Rw & Lw); [intros e' [<-|[<-|[]]]; assumption|exact Wa|].
    eapply (Fin v w [e0; e1] 1%nat e1 [z] 0%nat); try eassumption; [reflexivity|cbn; lia|]. right. exists e0, (Some []). split; [reflexivity|]. split; [exact Le0|cbn; lia].
Qed.
End S.
Theorem nest_panics_good fl ds E G : supportedx fl ds = Some (E, G) ->
  forall D d x t p0 t1 sz1 p t2 sz2 q m1 m2, In d ds -> root d = Some (x, t, p0) -> good D E (CIdent x) ->
  can_dt (xconsts ds) E (declTypeVarArray t1 sz1) t p -> can (xconsts ds) E (declTypeVarArray t2 sz2) t1 q -> touches t2 = true ->
  xbound (xconsts ds) sz1 = Some m1 -> xbound (xconsts ds) sz2 = Some m2 ->
  (within m1 1 /\ within m2 2) \/ (within m1 2 /\ within m2 1) ->
  exists v b, has_ty E (CIdent x) v /\ Encode E (CIdent x) v b None /\
    exists M, forall m a, (M <= m)%nat -> call G m x (MakeWriter a) v = GPanic.
Proof. intros Hs D d x t p0 t1 sz1 p t2 sz2 q m1 m2 I R (We & Wx & Zx). eapply nest_panics; eassumption. Qed.
