(** The heap interpreter computes what Interp.v computes. *)
From Verif Require Import Bytes XdrLib Types Interp Heap HeapP.
Open Scope string_scope.
Open Scope Z_scope.
Open Scope list_scope.

Definition mapf {A B} (g : A -> B) (l : list (string * A)) : list (string * B) := map (fun fx => (fst fx, g (snd fx))) l.
Lemma lookup_mapf {A B} (g : A -> B) f l : lookup f (mapf g l) = option_map g (lookup f l).
Proof. induction l as [|[y a] l IH]; [reflexivity|]. cbn. destruct (String.eqb f y); [reflexivity|exact IH]. Qed.
Lemma update_mapf {A B} (g : A -> B) f x l : mapf g (update f x l) = update f (g x) (mapf g l).
Proof.
  induction l as [|[y a] l IH]; [reflexivity|]. cbn. destruct (String.eqb f y); [reflexivity|].
  cbn. f_equal. exact IH.
Qed.
Lemma update_in {A} f (x : A) l g y : In (g, y) (update f x l) -> y = x \/ In (g, y) l.
Proof.
  induction l as [|[k a] l IH]; [auto|]. cbn. destruct (String.eqb f k); cbn; intros [H|H]; auto.
  - injection H as _ <-. auto.
  - destruct (IH H); auto.
Qed.
Lemma lookup_In {A} f (x : A) l : lookup f l = Some x -> exists g, In (g, x) l.
Proof.
  induction l as [|[k a] l IH]; [discriminate|]. cbn. destruct (String.eqb f k).
  - intros [= <-]. exists k. auto.
  - intros H. destruct (IH H) as [g Hg]. exists g. auto.
Qed.

Lemma map_rep {A B} (g : A -> B) x k : map g (repeat x k) = repeat (g x) k.
Proof. induction k as [|k IH]; [reflexivity|]. cbn. rewrite IH. reflexivity. Qed.

(** ** Zero values *)
Lemma zero_lift n E : forall t z, zero n E t = Some z -> forall h, deref h (hlift z) = z /\ hslices (hlift z) = [].
Proof.
  induction n as [|n IH]; intros t z H h; [discriminate|].
  assert (HF : forall fs l, zero_fields (zero n E) fs = Some l ->
    map (fun fx => (fst fx, deref h (snd fx))) (map (fun fx => (fst fx, hlift (snd fx))) l) = l /\
    flat_map (fun fx => hslices (snd fx)) (map (fun fx : string * val => (fst fx, hlift (snd fx))) l) = []).
  { induction fs as [|[f t'] fs IHf]; intros l Hl; cbn in Hl; [injection Hl as <-; auto|].
    destruct (zero n E t') as [v|] eqn:E1; [|discriminate].
    destruct (zero_fields (zero n E) fs) as [l'|]; [|discriminate]. injection Hl as <-.
    destruct (IHf l' eq_refl) as [H1 H2]. destruct (IH t' v E1 h) as [H3 H4]. cbn [map fst snd flat_map].
    rewrite H1, H2, H3, H4. auto. }
  destruct t; cbn [zero] in H; try (injection H as <-; cbn; auto; fail).
  - destruct (zero_fields (zero n E) fs) as [l|] eqn:E1; [|discriminate]. injection H as <-.
    destruct (HF _ _ E1) as [H1 H2]. cbn [hlift deref hslices]. rewrite H1, H2. auto.
  - destruct (zero_fields (zero n E) _) as [l|] eqn:E1; [|discriminate]. injection H as <-.
    destruct (HF _ _ E1) as [H1 H2]. cbn [hlift deref hslices]. rewrite H1, H2. auto.
  - destruct (lookup x E) as [t|]; [|discriminate]. eapply IH; eassumption.
Qed.
Lemma hzero_spec n E t h : match hzero n E t with
  | Some z => zero n E t = Some (deref h z) /\ hslices z = []
  | None => zero n E t = None end.
Proof.
  unfold hzero. destruct (zero n E t) as [z|] eqn:Ez; cbn; [|reflexivity].
  destruct (zero_lift n E t z Ez h) as [-> H]. auto.
Qed.

Section Grow.
Variable grow : nat -> nat -> nat.
Hypothesis grow_ok : forall c n, (n <= grow c n)%nat.

Definition outrel {A B} (D : heap -> A -> B) (S : heap -> hst -> A -> Prop) (h : heap) (s : hst)
    (r : outcome (heap * hst * A)) (q : outcome (xst * B)) : Prop :=
  match r with
  | Ret (h', s', a) => q = Ret (habs h' s', D h' a) /\ hstep h s h' s' /\ S h' s' a
  | Panic => q = Panic
  | NoFuel => q = NoFuel
  end.
Definition refines (X : hcode) (Y : xst -> val -> outcome (xst * val)) : Prop :=
  forall h s v, gvalid h (h_buf s) -> safe h s v -> outrel deref safe h s (X h s v) (Y (habs h s) (deref h v)).

Lemma safe_field h s l f x : safe h s (HStruct l) -> lookup f l = Some x -> safe h s x.
Proof.
  intros Hs Hl. destruct (lookup_In _ _ _ Hl) as [g Hg]. unfold safe in *. rewrite Forall_forall in *.
  intros sl Hi. apply Hs. cbn. apply in_flat_map. exists (g, x). auto.
Qed.
Lemma safe_update h s l f x : safe h s (HStruct l) -> safe h s x -> safe h s (HStruct (update f x l)).
Proof.
  unfold safe. rewrite !Forall_forall. intros Hl Hx sl Hi. cbn in Hi. apply in_flat_map in Hi.
  destruct Hi as ([g y] & Hg & Hs). destruct (update_in _ _ _ _ _ Hg) as [->|Hg']; [apply Hx; exact Hs|].
  apply Hl. cbn. apply in_flat_map. exists (g, y). auto.
Qed.

Lemma field_ref X Y f h s v : refines X Y -> gvalid h (h_buf s) -> safe h s v ->
  outrel deref safe h s (hon_field X h s v f) (on_field Y (habs h s) (deref h v) f).
Proof.
  intros HX Hv Hs. destruct v as [| | |[?|]| | | |l]; try reflexivity.
  cbn [deref on_field hon_field]. change (map (fun fx => (fst fx, deref h (snd fx))) l) with (mapf (deref h) l).
  rewrite lookup_mapf. destruct (lookup f l) as [x|] eqn:El; [|reflexivity]. cbn [option_map].
  pose proof (HX h s x Hv (safe_field _ _ _ _ _ Hs El)) as K. destruct (X h s x) as [[[h1 s1] x1]| |]; cbn [outrel] in K; [|rewrite K; reflexivity|rewrite K; reflexivity].
  destruct K as (-> & Hst & Hs1). cbn [obind outrel]. split; [|split; [exact Hst|]].
  - do 2 f_equal. cbn [deref]. f_equal. change (map (fun fx => (fst fx, deref h1 (snd fx))) (update f x1 l)) with (mapf (deref h1) (update f x1 l)).
    rewrite update_mapf. f_equal.
    pose proof (hstep_deref _ _ _ _ _ Hst Hs) as HH. cbn [deref] in HH. injection HH as HH. symmetry. exact HH.
  - apply safe_update; [|exact Hs1]. eapply hstep_safe; eassumption.
Qed.

Lemma fields_ref X Y fs : (forall t, refines (X t) (Y t)) -> forall h s v, gvalid h (h_buf s) -> safe h s v ->
  outrel deref safe h s (hxdr_fields X fs h s v) (xdr_fields Y fs (habs h s) (deref h v)).
Proof.
  intros HX. induction fs as [|[f t] fs IH]; intros h s v Hv Hs; cbn [hxdr_fields xdr_fields].
  - split; [reflexivity|]. split; [apply hstep_refl; exact Hv|exact Hs].
  - pose proof (field_ref (X t) (Y t) f h s v (HX t) Hv Hs) as K.
    destruct (hon_field (X t) h s v f) as [[[h1 s1] v1]| |]; cbn [outrel] in K; [|rewrite K; reflexivity|rewrite K; reflexivity].
    destruct K as (-> & Hst & Hs1). cbn [obind].
    pose proof (IH h1 s1 v1 (hstep_valid _ _ _ _ Hst) Hs1) as K.
    destruct (hxdr_fields X fs h1 s1 v1) as [[[h2 s2] v2]| |]; cbn [outrel] in *; auto.
    destruct K as (K1 & K2 & K3). split; [exact K1|]. split; [eapply hstep_trans; eassumption|exact K3].
Qed.

Definition derefs (h : heap) (l : list hval) : list val := map (deref h) l.
Definition safes (h : heap) (s : hst) (l : list hval) : Prop := Forall (safe h s) l.

Lemma hstep_derefs h s h' s' l : hstep h s h' s' -> safes h s l -> derefs h' l = derefs h l.
Proof.
  intros H Hs. apply map_ext_in. intros x Hx. unfold safes in Hs. rewrite Forall_forall in Hs.
  eapply hstep_deref; [exact H|]. apply Hs. exact Hx.
Qed.
Lemma hstep_safes h s h' s' l : hstep h s h' s' -> safes h s l -> safes h' s' l.
Proof. intros H Hs. eapply Forall_impl; [|exact Hs]. intros v. apply hstep_safe. exact H. Qed.

Lemma elems_ref X Y k : refines X Y -> forall l h s, gvalid h (h_buf s) -> safes h s l ->
  outrel derefs safes h s (hxdr_elems X k l h s) (xdr_elems Y k (derefs h l) (habs h s)).
Proof.
  intros HX. induction k as [|k IH]; intros l h s Hv Hs; cbn [hxdr_elems xdr_elems].
  - split; [reflexivity|]. split; [apply hstep_refl; exact Hv|exact Hs].
  - destruct l as [|x l]; [reflexivity|]. cbn [derefs map]. inversion Hs as [|? ? Hx Hl]; subst.
    pose proof (HX h s x Hv Hx) as K. destruct (X h s x) as [[[h1 s1] x1]| |]; cbn [outrel] in K; [|rewrite K; reflexivity|rewrite K; reflexivity].
    destruct K as (-> & Hst & Hs1). cbn [obind].
    pose proof (IH l h1 s1 (hstep_valid _ _ _ _ Hst) (hstep_safes _ _ _ _ _ Hst Hl)) as K.
    rewrite (hstep_derefs _ _ _ _ _ Hst Hl) in K. unfold derefs in K at 2.
    destruct (hxdr_elems X k l h1 s1) as [[[h2 s2] l2]| |]; cbn [outrel] in K; [|rewrite K; reflexivity|rewrite K; reflexivity].
    destruct K as (-> & Hst2 & Hs2). cbn [obind outrel]. split; [|split].
    + do 2 f_equal. cbn [derefs map]. f_equal. symmetry. eapply hstep_deref; eassumption.
    + eapply hstep_trans; eassumption.
    + constructor; [eapply hstep_safe; eassumption|exact Hs2].
Qed.

Lemma safe_nil h s v : hslices v = [] -> safe h s v.
Proof. intros H. unfold safe. rewrite H. constructor. Qed.
Lemma safes_flat h s l : safes h s l <-> Forall (apart h s) (flat_map hslices l).
Proof.
  unfold safes. induction l as [|x l IH]; cbn; [split; constructor|]. rewrite Forall_app, <- IH.
  split; [intros H; inversion H; auto|intros []; constructor; auto].
Qed.
Lemma safes_repeat h s z k : hslices z = [] -> safes h s (repeat z k).
Proof. intros H. apply Forall_forall. intros x Hx. apply repeat_spec in Hx. subst. apply safe_nil. exact H. Qed.
Lemma field_disc_deref h v f : field_disc (deref h v) f = hfield_disc v f.
Proof.
  destruct v as [| | |[?|]| | | |l]; try reflexivity. cbn [deref field_disc hfield_disc].
  change (map (fun fx => (fst fx, deref h (snd fx))) l) with (mapf (deref h) l). rewrite lookup_mapf.
  destruct (lookup f l) as [x|]; [|reflexivity]. destruct x as [| | |[?|]| | | |]; reflexivity.
Qed.
Lemma setsize_rel h s a len : gvalid h (h_buf s) ->
  let '(s', z) := HEncodingSetSize s a len in EncodingSetSize (habs h s) a len = (habs h s', z) /\ hstep h s h s'.
Proof.
  intros Hv. unfold HEncodingSetSize, EncodingSetSize, habs. cbn [x_err x_reader].
  destruct (h_err s) eqn:Ee; [unfold habs; rewrite ?Ee; split; [reflexivity|apply hstep_refl; exact Hv]|].
  destruct (h_reader s) eqn:Er; [rewrite ?Ee, ?Er; split; [reflexivity|apply hstep_refl; exact Hv]|].
  destruct (len >? MaxUint32); cbn [HSetError hset_err h_err h_reader h_buf]; rewrite ?Ee, ?Er; (split; [reflexivity|]).
  - apply (hstep_err h s h s). apply hstep_refl; exact Hv.
  - apply hstep_refl; exact Hv.
Qed.

Theorem heap_refines n E t : refines (hxdr grow n E t) (xdr n E t).
Proof.
  revert t. induction n as [|n IH]; intros t h s v Hv Hs; [reflexivity|].
  destruct t; try (destruct v as [| | |[?|]| |[?|]|[?|]|]; try reflexivity; fail).
  - (* CU32 *) destruct v as [z| | |[?|]| |[?|]|[?|]|]; try reflexivity. cbn [hxdr xdr deref].
    pose proof (U32_rel grow grow_ok h s z Hv) as K. destruct (HXdrU32 grow h s z) as [[h1 s1] z1]. destruct K as [-> Hst].
    split; [reflexivity|]. split; [exact Hst|apply safe_nil; reflexivity].
  - (* CS32 *) destruct v as [z| | |[?|]| |[?|]|[?|]|]; try reflexivity. cbn [hxdr xdr deref].
    pose proof (S32_rel grow grow_ok h s z Hv) as K. destruct (HXdrS32 grow h s z) as [[h1 s1] z1]. destruct K as [-> Hst].
    split; [reflexivity|]. split; [exact Hst|apply safe_nil; reflexivity].
  - (* CU64 *) destruct v as [z| | |[?|]| |[?|]|[?|]|]; try reflexivity. cbn [hxdr xdr deref].
    pose proof (U64_rel grow grow_ok h s z Hv) as K. destruct (HXdrU64 grow h s z) as [[h1 s1] z1]. destruct K as [-> Hst].
    split; [reflexivity|]. split; [exact Hst|apply safe_nil; reflexivity].
  - (* CS64 *) destruct v as [z| | |[?|]| |[?|]|[?|]|]; try reflexivity. cbn [hxdr xdr deref].
    pose proof (S64_rel grow grow_ok h s z Hv) as K. destruct (HXdrS64 grow h s z) as [[h1 s1] z1]. destruct K as [-> Hst].
    split; [reflexivity|]. split; [exact Hst|apply safe_nil; reflexivity].
  - (* CBool *) destruct v as [|b| |[?|]| |[?|]|[?|]|]; try reflexivity. cbn [hxdr xdr deref].
    pose proof (Bool_rel grow grow_ok h s b Hv) as K. destruct (HXdrBool grow h s b) as [[h1 s1] z1]. destruct K as [-> Hst].
    split; [reflexivity|]. split; [exact Hst|apply safe_nil; reflexivity].
  - (* COpaque *) destruct v as [| |bs|[?|]| |[?|]|[?|]|]; try reflexivity. cbn [hxdr xdr deref].
    pose proof (Array_rel grow grow_ok h s bs Hv) as K. destruct (HXdrArray grow h s bs) as [[h1 s1] z1]. destruct K as [-> Hst].
    split; [reflexivity|]. split; [exact Hst|apply safe_nil; reflexivity].
  - (* CVarOpaque *) destruct v as [| | |o| |[?|]|[?|]|]; try reflexivity.
    assert (Ha : gapart h s o). { destruct o as [sl|]; [|exact I]. inversion Hs; assumption. }
    pose proof (VarArray_rel grow grow_ok h s (maxlen_of max) o Hv Ha) as K.
    assert (ED : deref h (HBytes o) = VBytes (option_map (sread h) o)) by (destruct o; reflexivity). rewrite ED.
    cbn [hxdr xdr]. destruct (HXdrVarArray grow h s (maxlen_of max) o) as [[h1 s1] o1]. destruct K as (-> & Hst & Ha1).
    split; [destruct o1; reflexivity|]. split; [exact Hst|]. destruct o1; [|apply safe_nil; reflexivity]. constructor; [exact Ha1|constructor].
  - (* CString *) destruct v as [| | |[?|]|bs|[?|]|[?|]|]; try reflexivity. cbn [hxdr xdr deref].
    pose proof (String_rel grow grow_ok h s (maxlen_of max) bs Hv) as K. destruct (HXdrString grow h s (maxlen_of max) bs) as [[h1 s1] z1]. destruct K as [-> Hst].
    split; [reflexivity|]. split; [exact Hst|apply safe_nil; reflexivity].
  - (* CVarArray *) destruct v as [| | |[?|]| |o|[?|]|]; try reflexivity. cbn [hxdr xdr deref].
    assert (Hes : safes h s (helems o)). { destruct o as [l|]; [|constructor]. apply safes_flat. exact Hs. }
    assert (Eel : elems (option_map (map (deref h)) o) = derefs h (helems o)) by (destruct o; reflexivity).
    assert (Eln : zlen (elems (option_map (map (deref h)) o)) = zlen (helems o)).
    { rewrite Eel. unfold zlen, derefs. rewrite map_length. reflexivity. }
    rewrite Eln. pose proof (setsize_rel h s 0 (zlen (helems o)) Hv) as K.
    destruct (HEncodingSetSize s 0 (zlen (helems o))) as [s1 sz0]. destruct K as [-> Hst1].
    pose proof (U32_rel grow grow_ok h s1 sz0 (hstep_valid _ _ _ _ Hst1)) as K.
    destruct (HXdrU32 grow h s1 sz0) as [[h2 s2] sz]. destruct K as [-> Hst2].
    pose proof (hstep_trans _ _ _ _ _ _ Hst1 Hst2) as Hst. clear Hst1 Hst2.
    destruct (match max with Some k => sz >? k | None => false end).
    { split; [|split].
      - do 2 f_equal. change (VSlice (option_map (map (deref h)) o)) with (deref h (HSlice o)).
        symmetry. eapply hstep_deref; eassumption.
      - apply hstep_err. exact Hst.
      - eapply (hstep_safe h s h2 s2); eassumption. }
    change (Decoding (habs h2 s2)) with (HDecoding s2). destruct (HDecoding s2).
    + pose proof (hzero_spec n E t h2) as K. destruct (hzero n E t) as [z|]; [|rewrite K; reflexivity]. destruct K as [-> Hz].
      pose proof (elems_ref (hxdr grow n E t) (xdr n E t) (Z.to_nat sz) (IH t) (repeat z (Z.to_nat sz)) h2 s2
                   (hstep_valid _ _ _ _ Hst) (safes_repeat _ _ _ _ Hz)) as K.
      unfold derefs in K at 2. rewrite map_rep in K.
      destruct (hxdr_elems (hxdr grow n E t) (Z.to_nat sz) (repeat z (Z.to_nat sz)) h2 s2) as [[[h3 s3] l3]| |];
        cbn [outrel] in K; [|rewrite K; reflexivity|rewrite K; reflexivity].
      destruct K as (-> & Hst3 & Hs3). cbn [obind outrel]. split; [reflexivity|]. split; [eapply hstep_trans; eassumption|].
      apply safes_flat. exact Hs3.
    + pose proof (elems_ref (hxdr grow n E t) (xdr n E t) (Z.to_nat sz) (IH t) (helems o) h2 s2
                   (hstep_valid _ _ _ _ Hst) (hstep_safes _ _ _ _ _ Hst Hes)) as K.
      rewrite (hstep_derefs _ _ _ _ _ Hst Hes), <- Eel in K.
      destruct (hxdr_elems (hxdr grow n E t) (Z.to_nat sz) (helems o) h2 s2) as [[[h3 s3] l3]| |];
        cbn [outrel] in K; [|rewrite K; reflexivity|rewrite K; reflexivity].
      destruct K as (-> & Hst3 & Hs3). cbn [obind outrel]. split; [destruct o; reflexivity|].
      split; [eapply hstep_trans; eassumption|]. destruct o; [apply safes_flat; exact Hs3|apply safe_nil; reflexivity].
  - (* CPtr *) destruct v as [| | |[?|]| |[?|]|o|]; try reflexivity. cbn [hxdr xdr deref].
    change (Encoding (habs h s)) with (HEncoding s).
    set (A := if HEncoding s then _ else _).
    set (B := if HEncoding s then _ else _ : outcome (xst * option val)).
    assert (HAB : outrel (fun h o => option_map (deref h) o) (fun h s o => safe h s (HPtr o)) h s A B).
    { subst A B. destruct (HEncoding s).
      - replace (match option_map (deref h) o with Some _ => true | None => false end)
          with (match o with Some _ => true | None => false end) by (destruct o; reflexivity).
        pose proof (Bool_rel grow grow_ok h s (match o with Some _ => true | None => false end) Hv) as K.
        destruct (HXdrBool grow h s _) as [[h1 s1] opted]. destruct K as [-> Hst]. destruct opted.
        + destruct o as [x|]; [|reflexivity]. cbn [option_map].
          assert (Hx : safe h s x) by exact Hs.
          pose proof (IH t h1 s1 x (hstep_valid _ _ _ _ Hst) (hstep_safe _ _ _ _ _ Hst Hx)) as K.
          rewrite (hstep_deref _ _ _ _ _ Hst Hx) in K.
          destruct (hxdr grow n E t h1 s1 x) as [[[h2 s2] x2]| |]; cbn [outrel] in K; [|rewrite K; reflexivity|rewrite K; reflexivity].
          destruct K as (-> & Hst2 & Hs2). cbn [obind outrel]. split; [reflexivity|]. split; [eapply hstep_trans; eassumption|exact Hs2].
        + split; [|split; [exact Hst|eapply hstep_safe; eassumption]]. do 2 f_equal.
          pose proof (hstep_deref _ _ _ _ _ Hst Hs) as HH. cbn [deref] in HH. injection HH as HH. symmetry. exact HH.
      - split; [reflexivity|]. split; [apply hstep_refl; exact Hv|exact Hs]. }
    clearbody A B. destruct A as [[[h1 s1] o1]| |]; cbn [outrel] in HAB; [|rewrite HAB; reflexivity|rewrite HAB; reflexivity].
    destruct HAB as (-> & Hst & Hs1). cbn [obind]. change (Decoding (habs h1 s1)) with (HDecoding s1). destruct (HDecoding s1).
    + pose proof (Bool_rel grow grow_ok h1 s1 false (hstep_valid _ _ _ _ Hst)) as K.
      destruct (HXdrBool grow h1 s1 false) as [[h2 s2] opted]. destruct K as [-> Hst2].
      pose proof (hstep_trans _ _ _ _ _ _ Hst Hst2) as Hst12. destruct opted.
      * pose proof (hzero_spec n E t h2) as K. destruct (hzero n E t) as [z|]; [|rewrite K; reflexivity]. destruct K as [-> Hz].
        pose proof (IH t h2 s2 z (hstep_valid _ _ _ _ Hst2) (safe_nil _ _ _ Hz)) as K.
        destruct (hxdr grow n E t h2 s2 z) as [[[h3 s3] x3]| |]; cbn [outrel] in K; [|rewrite K; reflexivity|rewrite K; reflexivity].
        destruct K as (-> & Hst3 & Hs3). cbn [obind outrel]. split; [reflexivity|]. split; [eapply hstep_trans; eassumption|exact Hs3].
      * split; [|split; [exact Hst12|eapply hstep_safe; [exact Hst2|exact Hs1]]]. do 2 f_equal.
        change (VPtr (option_map (deref h1) o1)) with (deref h1 (HPtr o1)). symmetry. eapply hstep_deref; eassumption.
    + split; [reflexivity|]. split; [exact Hst|exact Hs1].
  - (* CStruct *) destruct v as [| | |[?|]| |[?|]|[?|]|l]; try reflexivity.
    exact (fields_ref (hxdr grow n E) (xdr n E) fs IH h s (HStruct l) Hv Hs).
  - (* CUnion *) destruct v as [| | |[?|]| |[?|]|[?|]|l]; try reflexivity.
    cbn [hxdr]. change (xdr (S n) E (CUnion sw t arms def) (habs h s) (deref h (HStruct l))) with
      ('(s1, v1) <- on_field (xdr n E t) (habs h s) (deref h (HStruct l)) sw ;;
          match field_disc v1 sw with
          | None => Panic
          | Some d =>
              match pick_arm d arms def with
              | Some (Some (f, t)) => on_field (xdr n E t) s1 v1 f
              | _ => Ret (s1, v1)
              end
          end).
    pose proof (field_ref (hxdr grow n E t) (xdr n E t) sw h s (HStruct l) (IH t) Hv Hs) as K.
    destruct (hon_field (hxdr grow n E t) h s (HStruct l) sw) as [[[h1 s1] v1]| |]; cbn [outrel] in K; [|rewrite K; reflexivity|rewrite K; reflexivity].
    destruct K as (-> & Hst & Hs1). cbn [obind]. rewrite field_disc_deref. destruct (hfield_disc v1 sw) as [d|]; [|reflexivity].
    destruct (pick_arm d arms def) as [[[f ta]|]|].
    + pose proof (field_ref (hxdr grow n E ta) (xdr n E ta) f h1 s1 v1 (IH ta) (hstep_valid _ _ _ _ Hst) Hs1) as K.
      destruct (hon_field (hxdr grow n E ta) h1 s1 v1 f) as [[[h2 s2] v2]| |]; cbn [outrel] in *; auto.
      destruct K as (K1 & K2 & K3). split; [exact K1|]. split; [eapply hstep_trans; eassumption|exact K3].
    + split; [reflexivity|]. split; [exact Hst|exact Hs1].
    + split; [reflexivity|]. split; [exact Hst|exact Hs1].
  - (* CIdent *) cbn [hxdr]. destruct (lookup x E) as [t|] eqn:El.
    + pose proof (IH t h s v Hv Hs) as K. cbn [xdr]. rewrite El.
      destruct (hxdr grow n E t h s v) as [[[h1 s1] v1]| |]; destruct (deref h v); exact K.
    + cbn [xdr]. rewrite El. destruct (deref h v); reflexivity.
Qed.
End Grow.
