(** More codec properties: sequences, sticky errors, bounds, unions, depth, stale targets. *)
From Verif Require Import Bytes XdrLib Types Interp Spec Prim Meta Enc Dec Total Canon Local Runs Codec.
Open Scope string_scope.
Open Scope Z_scope.
Open Scope list_scope.

(** *** C08 *)
Definition encodable (D : nat) (E : env) (t : cty) (v : val) : Prop :=
  good D E t /\ has_ty E t v /\ bounded ENC E t v.

Lemma c08 D E ts vs : Forall2 (encodable D E) ts vs -> forall b, exists w,
  runs_seq E ts (MakeWriter b) vs (MakeWriter (b ++ w)) vs /\
  forall rest zs, Forall2 (fresh E) ts zs -> exists xs,
    runs_seq E ts (MakeReader (w ++ rest)) zs (MakeReader rest) xs /\
    (forall i t v x, nth_error ts i = Some t -> nth_error vs i = Some v -> nth_error xs i = Some x ->
       same E t v x /\ (canon E t v -> x = v)) /\
    List.length xs = List.length vs.
Proof.
  induction 1 as [|t v ts vs (Hg & Hv & Hb) _ IH]; intros b.
  - exists []. rewrite app_nil_r. split; [constructor|]. intros rest zs Hz. inversion Hz; subst.
    exists []. split; [constructor|]. split; [|reflexivity]. intros [|i]; discriminate.
  - destruct Hg as (Hwf & Ht & Hz0).
    destruct (proj1 (bounded_Wire D E ENC Hwf) _ _ Hb Ht Hv) as [w1 Hw1].
    destruct (IH (b ++ w1)) as (w2 & HW & HR). exists (w1 ++ w2). split.
    + econstructor; [|rewrite <- app_assoc in HW; exact HW].
      eapply (enc_wire D E t Hwf Ht ENC); auto using strict_ENC.
    + intros rest zs Hzs. inversion Hzs as [|t' z ts' zs' Hz Hzs']; subst.
      destruct (HR rest zs' Hzs') as (xs & Hrun & Hsame & Hlen).
      destruct (c04 D E t Hwf Ht Hz0 v w1 (w2 ++ rest) z Hv) as (x & Hx & Hs & Hc & Hxt & He); auto.
      { apply (Encode_ok_wire D E t Hwf Ht); auto. }
      exists (x :: xs). split; [|split].
      * econstructor; [|exact Hrun]. rewrite <- app_assoc. exact Hx.
      * intros [|i] t0 v0 x0; cbn; [|apply Hsame]. intros [= <-] [= <-] [= <-]. auto.
      * cbn. congruence.
Qed.

(** *** C12 *)
Definition call_ok (D : nat) (E : env) (c : call) : Prop :=
  match c with KGen t _ => wf_ty D E t | _ => True end.

Lemma run_call_sticky D E n c s e r : wf_env D E -> call_ok D E c ->
  x_err s = Some e -> run_call n E c s = Ret r -> r = (s, c).
Proof.
  intros Hwf Hc He H. destruct c; cbn [run_call] in H.
  - erewrite XdrBool_err in H by eassumption. congruence.
  - erewrite XdrU32_err in H by eassumption. congruence.
  - erewrite XdrS32_err in H by eassumption. congruence.
  - erewrite XdrU64_err in H by eassumption. congruence.
  - erewrite XdrS64_err in H by eassumption. congruence.
  - erewrite XdrArray_err in H by eassumption. congruence.
  - erewrite XdrVarArray_err in H by eassumption. congruence.
  - erewrite XdrString_err in H by eassumption. congruence.
  - erewrite EncodingSetSize_err in H by eassumption. congruence.
  - bind_inv H as s1 v1 K. eapply (sticky_xdr D E Hwf) in K; eauto. injection K as -> ->. congruence.
Qed.

Lemma run_calls_sticky D E n cs s e s' cs' : wf_env D E -> Forall (call_ok D E) cs ->
  x_err s = Some e -> run_calls n E cs s = Ret (s', cs') -> s' = s /\ cs' = cs.
Proof.
  intros Hwf Hc He. revert s' cs'. induction Hc as [|c cs Hc Hcs IH]; cbn; intros s' cs' H.
  - injection H as <- <-. auto.
  - bind_inv H as s1 c1 K. eapply run_call_sticky in K; eauto. injection K as -> ->.
    bind_inv H as s2 cs2 K2. injection H as <- <-.
    apply IH in K2. destruct K2 as [-> ->]. auto.
Qed.

Lemma run_calls_app n E cs1 cs2 s s' cs' : run_calls n E (cs1 ++ cs2) s = Ret (s', cs') ->
  exists s1 a b, run_calls n E cs1 s = Ret (s1, a) /\ run_calls n E cs2 s1 = Ret (s', b) /\ cs' = a ++ b.
Proof.
  revert s cs'. induction cs1 as [|c cs1 IH]; cbn; intros s cs' H; [eauto 10|].
  bind_inv H as s1 c1 K. bind_inv H as s2 cs3 K2. injection H as <- <-.
  destruct (IH _ _ K2) as (s3 & a & b & H1 & H2 & ->).
  rewrite K. cbn [obind]. rewrite H1. cbn [obind]. exists s3, (c1 :: a), b. auto.
Qed.

Lemma c12 D E n cs1 cs2 s s' cs' : wf_env D E -> Forall (call_ok D E) cs2 ->
  run_calls n E (cs1 ++ cs2) s = Ret (s', cs') ->
  exists s1 a b, run_calls n E cs1 s = Ret (s1, a) /\ run_calls n E cs2 s1 = Ret (s', b) /\
    cs' = a ++ b /\ (Error s1 <> None -> s' = s1 /\ b = cs2) /\ (Error s' = None -> Error s1 = None).
Proof.
  intros Hwf Hc H. destruct (run_calls_app _ _ _ _ _ _ _ H) as (s1 & a & b & H1 & H2 & ->).
  exists s1, a, b. repeat split; auto.
  - destruct (x_err s1) eqn:Ee; [|unfold Error in *; congruence].
    eapply (run_calls_sticky D E); eauto.
  - destruct (x_err s1) eqn:Ee; [|unfold Error in *; congruence].
    eapply (run_calls_sticky D E); eauto.
  - unfold Error. intros He. destruct (x_err s1) eqn:Ee; [|reflexivity].
    eapply (run_calls_sticky D E) in H2; eauto. destruct H2 as [-> _]. congruence.
Qed.

(** *** C13 *)
Definition fits_max (m n : Z) : Prop := n < 2 ^ 32 /\ (0 <= m -> n <= m).

Lemma fits_max_iff m n : fits m n = true <-> fits_max m n.
Proof.
  unfold fits, fits_max, MaxUint32. rewrite andb_true_iff, orb_true_iff, Z.ltb_lt, !Z.leb_le.
  rewrite pow32. lia.
Qed.

Lemma in_bound_iff m n : in_bound m n = true <-> (0 <= m -> n <= m).
Proof. unfold in_bound. rewrite orb_true_iff, Z.ltb_lt, Z.leb_le. lia. Qed.

Lemma c13_opaque_enc b m o :
  (fits_max m (zlen (bytes_of o)) ->
     exists w, XdrVarArray (MakeWriter b) m o = (MakeWriter (b ++ w), o)) /\
  (~ fits_max m (zlen (bytes_of o)) ->
     exists e, XdrVarArray (MakeWriter b) m o = (mkXst (Some e) false b, o)).
Proof.
  unfold MakeWriter. rewrite XdrVarArray_W, <- fits_max_iff.
  destruct (fits m (zlen (bytes_of o))); split; intros H; try congruence; eexists; reflexivity.
Qed.

Lemma c13_string_enc b m o :
  (fits_max m (zlen o) -> exists w, XdrString (MakeWriter b) m o = (MakeWriter (b ++ w), o)) /\
  (~ fits_max m (zlen o) -> exists e, XdrString (MakeWriter b) m o = (mkXst (Some e) false b, o)).
Proof.
  unfold MakeWriter. rewrite XdrString_W, <- fits_max_iff.
  destruct (fits m (zlen o)); split; intros H; try congruence; eexists; reflexivity.
Qed.

Lemma padlen_is n k : (k < 4)%nat -> Z.of_nat (n + k) mod 4 = 0 -> k = padlen n.
Proof. apply pad_unique. Qed.

Lemma c13_opaque_dec hd data pad rest m o :
  List.length hd = 4%nat ->
  (0 <= m < be_val hd ->
     exists e, XdrVarArray (MakeReader (hd ++ rest)) m o = (mkXst (Some e) true rest, o)) /\
  ((0 <= m -> be_val hd <= m) -> be_val hd = zlen data ->
     (List.length pad < 4)%nat -> zlen (data ++ pad) mod 4 = 0 ->
     XdrVarArray (MakeReader (hd ++ data ++ pad ++ rest)) m o = (MakeReader rest, Some data)).
Proof.
  intros Hl. split.
  - intros Hm. unfold MakeReader. rewrite XdrVarArray_over; [eexists; reflexivity|exact Hl|].
    apply not_true_is_false. rewrite in_bound_iff. lia.
  - intros Hm Hv Hp Hp4. unfold MakeReader. apply XdrVarArray_R; auto.
    + apply padlen_is; auto. rewrite <- Hp4. unfold zlen. rewrite app_length. reflexivity.
    + apply in_bound_iff. rewrite <- Hv. exact Hm.
Qed.

Lemma c13_string_dec hd data pad rest m o :
  List.length hd = 4%nat ->
  (0 <= m < be_val hd ->
     exists e, XdrString (MakeReader (hd ++ rest)) m o = (mkXst (Some e) true rest, o)) /\
  ((0 <= m -> be_val hd <= m) -> be_val hd = zlen data ->
     (List.length pad < 4)%nat -> zlen (data ++ pad) mod 4 = 0 ->
     XdrString (MakeReader (hd ++ data ++ pad ++ rest)) m o = (MakeReader rest, data)).
Proof.
  intros Hl. split.
  - intros Hm. unfold MakeReader. rewrite XdrString_over; [eexists; reflexivity|exact Hl|].
    apply not_true_is_false. rewrite in_bound_iff. lia.
  - intros Hm Hv Hp Hp4. unfold MakeReader. apply XdrString_R; auto.
    + apply padlen_is; auto. rewrite <- Hp4. unfold zlen. rewrite app_length. reflexivity.
    + apply in_bound_iff. rewrite <- Hv. exact Hm.
Qed.

Lemma c13_array_dec E t hd rest k o :
  List.length hd = 4%nat -> k < be_val hd ->
  exists e, runs E (CVarArray (Some k) t) (MakeReader (hd ++ rest)) (VSlice o)
              (mkXst (Some e) true rest) (VSlice o).
Proof.
  intros Hl Hk. exists (EMsg "array too large"), 1%nat. cbn [xdr].
  unfold EncodingSetSize, MakeReader. cbn [x_err x_reader]. rewrite XdrU32_R by exact Hl.
  destruct (Z.gtb_spec (be_val hd) k); [reflexivity|lia].
Qed.

(** *** C21 *)
Lemma selects_pick d arms def r : selects d arms def r <-> pick_arm d arms def = r.
Proof.
  unfold pick_arm. split.
  - intros H. destruct H as [pre ls a post -> Hin Hpre|Hno].
    + induction pre as [|[ls' a'] pre IH]; cbn.
      * assert (existsb (Z.eqb d) ls = true) as ->; [|reflexivity].
        apply existsb_exists. exists d. split; [exact Hin|apply Z.eqb_refl].
      * destruct (existsb (Z.eqb d) ls') eqn:Ee.
        -- apply existsb_exists in Ee. destruct Ee as (y & Hy & Hd). apply Z.eqb_eq in Hd. subst y.
           exfalso. apply (Hpre ls' a'); [left; reflexivity|exact Hy].
        -- apply IH. intros l' b' Hl. apply (Hpre l' b'). right. exact Hl.
    + induction arms as [|[ls a] arms IH]; cbn; [reflexivity|].
      destruct (existsb (Z.eqb d) ls) eqn:Ee.
      * apply existsb_exists in Ee. destruct Ee as (y & Hy & Hd). apply Z.eqb_eq in Hd. subst y.
        exfalso. apply (Hno ls a); [left; reflexivity|exact Hy].
      * apply IH. intros l' b' Hl. apply (Hno l' b'). right. exact Hl.
  - intros <-. induction arms as [|[ls a] arms IH]; cbn.
    + apply Sel_default. intros ls a [].
    + destruct (existsb (Z.eqb d) ls) eqn:Ee.
      * apply Sel_case with (pre := []) (ls := ls) (post := arms); [reflexivity| |intros ? ? []].
        apply existsb_exists in Ee. destruct Ee as (y & Hy & Hd). apply Z.eqb_eq in Hd. subst y. exact Hy.
      * assert (Hno : ~ In d ls).
        { intros Hin. assert (existsb (Z.eqb d) ls = true); [|congruence].
          apply existsb_exists. exists d. split; [exact Hin|apply Z.eqb_refl]. }
        revert IH. generalize (match find (fun a0 => existsb (Z.eqb d) (fst a0)) arms with
          | Some a0 => Some (snd a0) | None => def end). intros r IH.
        inversion IH as [pre ls' a' post -> Hin Hpre|Hno']; subst.
        -- apply Sel_case with (pre := (ls, a) :: pre) (ls := ls') (post := post); auto.
           intros l b [[= -> ->]|Hl]; [exact Hno|eauto].
        -- apply Sel_default. intros l b [[= -> ->]|Hl]; [exact Hno|eauto].
Qed.

(** A discriminant as a number: an integer, or a Go bool with false = 0 and true = 1. *)
Definition disc_val (v : val) (d : Z) : Prop :=
  v = VInt d \/ (v = VBool false /\ d = 0) \/ (v = VBool true /\ d = 1).

Lemma disc_val_of v d : disc_val v d <-> disc_of v = Some d.
Proof.
  split.
  - intros [->|[[-> ->]|[-> ->]]]; reflexivity.
  - destruct v; try discriminate; intros [= <-]; [left; reflexivity|].
    right. destruct b; auto.
Qed.

Section Union.
Variables (D : nat) (E : env) (sw : string) (st : cty)
  (arms : list (list Z * option (string * cty))) (def : option (option (string * cty))).
Let U := CUnion sw st arms def.
Hypothesis Hwf : wf_env D E.
Hypothesis Ht : wf_ty D E U.

Lemma Hu_parts : NoDup (map fst (union_fields sw st arms def)) /\ disc_ty E st /\
  (forall f t, In (f, t) (union_fields sw st arms def) -> wf_ty D E t).
Proof. inversion Ht; subst. auto. Qed.

Lemma union_run n s l s' v' : xdr (S n) E U s (VStruct l) = Ret (s', v') ->
  exists dv s1 dv' d l', lookup sw l = Some dv /\ xdr n E st s dv = Ret (s1, dv') /\
    v' = VStruct l' /\ disc_val dv' d /\ lookup sw l' = Some dv' /\
    ((exists f t x x', selects d arms def (Some (Some (f, t))) /\ lookup f l = Some x /\
        xdr n E t s1 x = Ret (s', x') /\ lookup f l' = Some x' /\
        (forall g, g <> sw -> g <> f -> lookup g l' = lookup g l))
     \/ ((selects d arms def (Some None) \/ selects d arms def None) /\ s' = s1 /\
        (forall g, g <> sw -> lookup g l' = lookup g l))).
Proof.
  destruct Hu_parts as (Hnd & _ & _).
  cbn [xdr U]. intros H. bind_inv H as s1 v1 K. apply on_field_ret in K.
  destruct K as (l0 & dv & s2 & dv' & [= <-] & Hdv & K & [= <- ->]).
  cbn [field_disc] in H. rewrite (lookup_update_same _ _ _ _ Hdv) in H.
  destruct (disc_of dv') as [d|] eqn:Ed; [|discriminate]. apply disc_val_of in Ed.
  destruct (pick_arm d arms def) as [[[f t]|]|] eqn:Ep.
  - assert (Hne : sw <> f).
    { intros ->. cbn in Hnd. inversion Hnd as [|? ? Hni _]; subst. apply Hni.
      apply (in_map fst) with (x := (f, t)). eapply pick_arm_In; eauto. }
    apply on_field_ret in H. destruct H as (l0 & x & s3 & x' & [= <-] & Hx & H & [= <- ->]).
    rewrite lookup_update_other in Hx by exact Hne.
    exists dv, s1, dv', d, (update f x' (update sw dv' l)). repeat split; auto.
    + rewrite lookup_update_other by congruence. eapply lookup_update_same; eauto.
    + left. exists f, t, x, x'. repeat split; auto.
      * apply selects_pick. exact Ep.
      * eapply lookup_update_same. rewrite lookup_update_other by exact Hne. exact Hx.
      * intros g H1 H2. rewrite !lookup_update_other by congruence. reflexivity.
  - injection H as <- <-. exists dv, s1, dv', d, (update sw dv' l). repeat split; auto.
    + eapply lookup_update_same; eauto.
    + right. split; [left; apply selects_pick; exact Ep|]. split; [reflexivity|].
      intros g Hg. apply lookup_update_other. congruence.
  - injection H as <- <-. exists dv, s1, dv', d, (update sw dv' l). repeat split; auto.
    + eapply lookup_update_same; eauto.
    + right. split; [right; apply selects_pick; exact Ep|]. split; [reflexivity|].
      intros g Hg. apply lookup_update_other. congruence.
Qed.

Lemma c21_run s l s' v' : runs E U s (VStruct l) s' v' ->
  exists dv s1 dv' d l', lookup sw l = Some dv /\ runs E st s dv s1 dv' /\
    v' = VStruct l' /\ disc_val dv' d /\ lookup sw l' = Some dv' /\
    ((exists f t x x', selects d arms def (Some (Some (f, t))) /\ lookup f l = Some x /\
        runs E t s1 x s' x' /\ lookup f l' = Some x' /\
        (forall g, g <> sw -> g <> f -> lookup g l' = lookup g l))
     \/ ((selects d arms def (Some None) \/ selects d arms def None) /\ s' = s1 /\
        (forall g, g <> sw -> lookup g l' = lookup g l))).
Proof.
  intros [n H]. destruct n as [|n]; [discriminate|]. apply union_run in H.
  destruct H as (dv & s1 & dv' & d & l' & H1 & H2 & H3 & H4 & H5 & H6).
  exists dv, s1, dv', d, l'. repeat split; auto.
  - exists n. exact H2.
  - destruct H6 as [(f & t & x & x' & K1 & K2 & K3 & K4 & K5)|H6]; [left|right; exact H6].
    exists f, t, x, x'. repeat split; auto. exists n. exact K3.
Qed.

(** Conversely the parts' success is the union's. *)
Lemma c21_arm s l dv s1 dv' d f t x s' x' :
  lookup sw l = Some dv -> runs E st s dv s1 dv' -> disc_val dv' d ->
  selects d arms def (Some (Some (f, t))) -> lookup f l = Some x -> runs E t s1 x s' x' ->
  exists v', runs E U s (VStruct l) s' v'.
Proof.
  intros Hdv [n H] Hd Hs Hx [m K]. apply selects_pick in Hs. apply disc_val_of in Hd.
  destruct Hu_parts as (Hnd & _ & _).
  assert (Hne : sw <> f).
  { intros ->. cbn in Hnd. inversion Hnd as [|? ? Hni _]; subst. apply Hni.
    apply (in_map fst) with (x := (f, t)). eapply pick_arm_In; eauto. }
  eexists. exists (S (n + m)). cbn [xdr U]. unfold on_field at 1. rewrite Hdv.
  rewrite (xdr_mono n (n + m) _ _ _ _ _ ltac:(lia) H). cbn [obind field_disc].
  rewrite (lookup_update_same _ _ _ _ Hdv), Hd, Hs. unfold on_field.
  rewrite lookup_update_other by exact Hne. rewrite Hx.
  rewrite (xdr_mono m (n + m) _ _ _ _ _ ltac:(lia) K). reflexivity.
Qed.

Lemma c21_void s l dv s1 dv' d :
  lookup sw l = Some dv -> runs E st s dv s1 dv' -> disc_val dv' d ->
  (selects d arms def (Some None) \/ selects d arms def None) ->
  exists v', runs E U s (VStruct l) s1 v'.
Proof.
  intros Hdv [n H] Hd Hs. rewrite !selects_pick in Hs. apply disc_val_of in Hd.
  eexists. exists (S n). cbn [xdr U]. unfold on_field at 1. rewrite Hdv, H.
  cbn [obind field_disc]. rewrite (lookup_update_same _ _ _ _ Hdv), Hd.
  destruct Hs as [-> | ->]; reflexivity.
Qed.

End Union.

(** *** C18: types without pointers outside slices *)
Inductive no_ptr (E : env) : cty -> Prop :=
| NP_u32 : no_ptr E CU32
| NP_s32 : no_ptr E CS32
| NP_u64 : no_ptr E CU64
| NP_s64 : no_ptr E CS64
| NP_bool : no_ptr E CBool
| NP_opaque n : no_ptr E (COpaque n)
| NP_varopaque m : no_ptr E (CVarOpaque m)
| NP_string m : no_ptr E (CString m)
| NP_vararray m t : no_ptr E (CVarArray m t)
| NP_struct fs : (forall f t, In (f, t) fs -> no_ptr E t) -> no_ptr E (CStruct fs)
| NP_union sw st arms def :
    (forall f t, In (f, t) (union_fields sw st arms def) -> no_ptr E t) ->
    no_ptr E (CUnion sw st arms def)
| NP_ident x t : lookup x E = Some t -> no_ptr E t -> no_ptr E (CIdent x).

Lemma no_ptr_stale E :
  (forall t v, has_ty E t v -> no_ptr E t -> no_stale v = true) /\
  (forall t l, has_tys E t l -> True) /\
  (forall fs l, has_fields E fs l -> (forall f t, In (f, t) fs -> no_ptr E t) ->
     forallb (fun fv => no_stale (snd fv)) l = true).
Proof.
  apply has_ty_mutind; auto.
  - intros t v _ _ H. inversion H.
  - intros fs l _ IH H. inversion H; subst. cbn. auto.
  - intros sw st arms def l _ IH H. inversion H; subst. cbn [no_stale]. auto.
  - intros x t v Hx _ IH H. inversion H; subst. apply IH. congruence.
  - intros f t v fs l _ IH1 _ IH2 H. cbn. apply andb_true_iff. split.
    + apply IH1. eapply H. left. reflexivity.
    + apply IH2. intros g u Hg. eapply H. right. exact Hg.
Qed.

Lemma c18_no_ptr D E t b u v : wf_env D E -> wf_ty D E t -> zero D E t <> None -> no_ptr E t ->
  has_ty E t u -> has_ty E t v ->
  exists e x y, Decode E t b u e x /\ Decode E t b v e y /\ (e = None -> same E t x y).
Proof.
  intros Hwf Ht Hz Hp Hu Hv.
  destruct (runs_dec D E t Hwf Ht Hz b u Hu) as (s & x & Hx).
  destruct (runs_dec D E t Hwf Ht Hz b v Hv) as (s' & y & Hy).
  pose proof (runs_indep D E t Hwf Ht (RD b) _ _ _ _ _ _ eq_refl Hu Hv Hx Hy) as <-.
  assert (H1 : Decode E t b u (x_err s) x) by (apply Decode_runs; eauto).
  assert (H2 : Decode E t b v (x_err s) y) by (apply Decode_runs; eauto).
  exists (x_err s), x, y. split; [exact H1|]. split; [exact H2|]. intros He. rewrite He in *.
  eapply (c18_data D E t Hwf Ht Hz b u v); eauto; apply (proj1 (no_ptr_stale E) t); auto.
Qed.

(** *** C16: linked lists really are decoded recursively *)
Definition list_env : env :=
  [("node", CStruct [("Val", CU32); ("Next", CPtr (CIdent "node"))])].

Fixpoint chain (k : nat) : list byte :=
  match k with
  | O => put_u32 0 ++ put_u32 0
  | S k => put_u32 0 ++ put_u32 1 ++ chain k
  end.

Lemma chain_len k : List.length (chain k) = (8 * (k + 1))%nat.
Proof. induction k as [|k IH]; [reflexivity|]. cbn [chain]. rewrite !app_length, IH, !put_u32_length. lia. Qed.

Lemma c16_deep : forall n k r, (n <= k)%nat ->
  xdr n list_env (CIdent "node") (MakeReader (chain k ++ r))
    (VStruct [("Val", VInt 0); ("Next", VPtr None)]) = NoFuel.
Proof.
  assert (H : forall m n k r, (n < m)%nat -> (n <= k)%nat ->
    xdr n list_env (CIdent "node") (RD (chain k ++ r))
      (VStruct [("Val", VInt 0); ("Next", VPtr None)]) = NoFuel).
  2:{ intros n k r Hn. apply (H (S n)); lia. }
  induction m as [|m IH]; intros n k r Hm Hk; [lia|].
  destruct n as [|n]; [reflexivity|]. destruct k as [|k]; [lia|].
  cbn [xdr]. change (lookup "node" list_env) with
    (Some (CStruct [("Val", CU32); ("Next", CPtr (CIdent "node"))])).
  destruct n as [|n]; [reflexivity|]. cbn [xdr xdr_fields].
  destruct n as [|n]; [reflexivity|].
  unfold on_field at 1. change (lookup "Val" _) with (Some (VInt 0)).
  cbn [xdr chain]. rewrite <- app_assoc. rewrite XdrU32_R by reflexivity. cbn [obind].
  unfold on_field. cbn [update lookup String.eqb Ascii.eqb Bool.eqb].
  rewrite Encoding_R. cbn [obind]. rewrite Decoding_R, <- app_assoc.
  rewrite XdrBool_R by reflexivity.
  change (be_val (put_u32 1) =? 0) with false. cbn [negb].
  destruct (zero n list_env (CIdent "node")) as [z|] eqn:Ez; [|reflexivity].
  assert (z = VStruct [("Val", VInt 0); ("Next", VPtr None)]) as ->.
  { eapply (zero_det list_env n 3); [exact Ez|reflexivity]. }
  rewrite IH by lia. reflexivity.
Qed.
