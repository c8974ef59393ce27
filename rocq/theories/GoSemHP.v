(** The emitted code with byte slices in memory computes what GoSem.v says of the values those
    slices hold, whatever the package. *)
From Coq Require Import Ascii.
From Verif Require Import Bytes XdrLib Types GoLex XLex Gram GParse Emit GoAst Interp Heap HeapP HeapX GoSem GoSemH.
Open Scope string_scope.
Open Scope Z_scope.
Open Scope list_scope.

Section Sem.
Variable G : gpkg.
Variable grow : nat -> nat -> nat.
Hypothesis grow_ok : forall c n, (n <= grow c n)%nat.

(** ** Reading a frame in memory *)
Definition derefF (h : heap) (fr : hframe) : frame := mkFrame (deref h (hf_recv fr)) (mapf (deref h) (hf_locs fr)).
Definition derefG (h : heap) (g : gvalH) : gval :=
  match g with HGV v => GV (deref h v) | HGP p => GP p | HGS p => GS p | HGX => GX end.
Definition derefO (h : heap) (o : operandH) : operand :=
  match o with HOPl p => OPl p | HOVal g => OVal (derefG h g) end.
Definition gmap {A B} (f : A -> B) (r : gor A) : gor B :=
  match r with GRet a => GRet (f a) | GPanic => GPanic | GStuck => GStuck | GOut => GOut end.

Definition safeF (h : heap) (s : hst) (fr : hframe) : Prop :=
  safe h s (hf_recv fr) /\ Forall (fun fx => safe h s (snd fx)) (hf_locs fr).
Definition safeG (h : heap) (s : hst) (g : gvalH) : Prop := match g with HGV v => safe h s v | _ => True end.
Definition safeO (h : heap) (s : hst) (o : operandH) : Prop := match o with HOVal g => safeG h s g | _ => True end.

Lemma derefF_step h s h' s' fr : hstep h s h' s' -> safeF h s fr -> derefF h' fr = derefF h fr.
Proof.
  intros Hs [H1 H2]. unfold derefF. f_equal; [eapply hstep_deref; eassumption|].
  unfold mapf. apply map_ext_in. intros [x v] Hx. rewrite Forall_forall in H2. f_equal.
  eapply hstep_deref; [exact Hs|]. exact (H2 _ Hx).
Qed.
Lemma safeF_step h s h' s' fr : hstep h s h' s' -> safeF h s fr -> safeF h' s' fr.
Proof.
  intros Hs [H1 H2]. split; [eapply hstep_safe; eassumption|].
  eapply Forall_impl; [|exact H2]. intros fx. apply hstep_safe. exact Hs.
Qed.
Lemma safeG_step h s h' s' g : hstep h s h' s' -> safeG h s g -> safeG h' s' g.
Proof. intros Hs. destruct g; cbn; auto. apply hstep_safe. exact Hs. Qed.
Lemma derefG_step h s h' s' g : hstep h s h' s' -> safeG h s g -> derefG h' g = derefG h g.
Proof. intros Hs. destruct g; cbn; auto. intros H. f_equal. eapply hstep_deref; eassumption. Qed.

(** ** Paths *)
Lemma set_nth_map {A B} (f : A -> B) l : forall k x, set_nth k (f x) (map f l) = option_map (map f) (set_nth k x l).
Proof.
  induction l as [|a l IH]; intros [|k] x; try reflexivity. cbn. rewrite IH. destruct (set_nth k x l); reflexivity.
Qed.
Lemma step_load_ok h v p : step_load (deref h v) p = option_map (deref h) (step_loadH v p).
Proof.
  destruct v as [| | |[?|]| |[l|]|[x|]|l], p; try reflexivity; cbn [deref step_load step_loadH option_map].
  - apply nth_error_map.
  - change (map (fun fx => (fst fx, deref h (snd fx))) l) with (mapf (deref h) l). apply lookup_mapf.
Qed.
Lemma step_store_ok h v p x : step_store (deref h v) p (deref h x) = option_map (deref h) (step_storeH v p x).
Proof.
  destruct v as [| | |[?|]| |[l|]|[y|]|l], p; try reflexivity; cbn [deref step_store step_storeH option_map].
  - rewrite set_nth_map. destruct (set_nth k x l); reflexivity.
  - change (map (fun fx => (fst fx, deref h (snd fx))) l) with (mapf (deref h) l). rewrite lookup_mapf.
    destruct (lookup f l); [|reflexivity]. cbn [option_map deref]. rewrite <- update_mapf. reflexivity.
Qed.
Lemma path_load_ok h p : forall v, path_load (deref h v) p = option_map (deref h) (path_loadH v p).
Proof.
  induction p as [|a p IH]; intros v; [reflexivity|]. cbn [path_load path_loadH]. rewrite step_load_ok.
  destruct (step_loadH v a); [apply IH|reflexivity].
Qed.
Lemma path_store_ok h x p : forall v, path_store (deref h v) p (deref h x) = option_map (deref h) (path_storeH v p x).
Proof.
  induction p as [|a p IH]; intros v; [reflexivity|]. cbn [path_store path_storeH]. rewrite step_load_ok.
  destruct (step_loadH v a) as [w|]; [|reflexivity]. cbn [option_map]. rewrite IH.
  destruct (path_storeH w p x); [apply step_store_ok|reflexivity].
Qed.
Lemma mapf_length {A B} (g : A -> B) l : List.length (mapf g l) = List.length l.
Proof. apply map_length. Qed.
Lemma loc_get_ok h k l : loc_get k (mapf (deref h) l) = option_map (deref h) (loc_getH k l).
Proof.
  induction l as [|[y v] l IH]; [reflexivity|]. cbn [mapf map fst snd loc_get loc_getH].
  rewrite map_length. destruct (Nat.eqb _ _); [reflexivity|exact IH].
Qed.
Lemma loc_set_ok h k x l : loc_set k (deref h x) (mapf (deref h) l) = option_map (mapf (deref h)) (loc_setH k x l).
Proof.
  induction l as [|[y v] l IH]; [reflexivity|]. cbn [mapf map fst snd loc_set loc_setH].
  rewrite map_length. destruct (Nat.eqb _ _); [reflexivity|]. unfold mapf in IH at 1. rewrite IH.
  destruct (loc_setH k x l); reflexivity.
Qed.
Lemma loc_find_ok h x l : loc_find x (mapf (deref h) l) = loc_findH x l.
Proof.
  induction l as [|[y v] l IH]; [reflexivity|]. cbn [mapf map fst snd loc_find loc_findH].
  rewrite map_length. destruct (String.eqb _ _); [reflexivity|exact IH].
Qed.
Lemma load_ok h fr p : load (derefF h fr) p = option_map (deref h) (loadH fr p).
Proof. destruct p; [apply path_load_ok|apply loc_get_ok]. Qed.
Lemma store_ok h fr p x : store (derefF h fr) p (deref h x) = option_map (derefF h) (storeH fr p x).
Proof.
  destruct p; unfold store, storeH, derefF; cbn [f_recv f_locs].
  - rewrite path_store_ok. destruct (path_storeH _ _ _); reflexivity.
  - rewrite loc_set_ok. destruct (loc_setH _ _ _); reflexivity.
Qed.

(** ** Slices stay out of the way of the buffer *)
Section Safe.
Variables (h : heap) (s : hst).
Lemma step_load_safe v p x : safe h s v -> step_loadH v p = Some x -> safe h s x.
Proof.
  destruct v as [| | |[?|]| |[l|]|[y|]|l], p; try discriminate; cbn [step_loadH].
  - intros Hs Hn. unfold safe in *. rewrite Forall_forall in *. intros sl Hi. apply Hs. cbn.
    apply in_flat_map. exists x. split; [eapply nth_error_In; exact Hn|exact Hi].
  - intros Hs [= <-]. exact Hs.
  - apply safe_field.
Qed.
Lemma set_nth_in {A} l : forall k (x : A) l' y, set_nth k x l = Some l' -> In y l' -> y = x \/ In y l.
Proof.
  induction l as [|a l IH]; intros [|k] x l' y; try discriminate; cbn.
  - intros [= <-] [H|H]; auto.
  - destruct (set_nth k x l) as [l1|] eqn:E; [|discriminate]. intros [= <-] [H|H]; auto.
    destruct (IH _ _ _ _ E H); auto.
Qed.
Lemma step_store_safe v p x v' : safe h s v -> safe h s x -> step_storeH v p x = Some v' -> safe h s v'.
Proof.
  destruct v as [| | |[?|]| |[l|]|[y|]|l], p; try discriminate; cbn [step_storeH]; intros Hs Hx.
  - destruct (set_nth k x l) as [l1|] eqn:E; [|discriminate]. intros [= <-]. unfold safe in *.
    rewrite Forall_forall in *. intros sl Hi. cbn in Hi. apply in_flat_map in Hi. destruct Hi as (y & Hy & Hi).
    destruct (set_nth_in _ _ _ _ _ E Hy) as [->|H']; [apply Hx; exact Hi|]. apply Hs. cbn. apply in_flat_map. eauto.
  - intros [= <-]. exact Hx.
  - destruct (lookup f l); [|discriminate]. intros [= <-]. apply safe_update; assumption.
Qed.
Lemma path_load_safe p : forall v x, safe h s v -> path_loadH v p = Some x -> safe h s x.
Proof.
  induction p as [|a p IH]; intros v x Hs; cbn [path_loadH]; [intros [= <-]; exact Hs|].
  destruct (step_loadH v a) as [w|] eqn:E; [|discriminate]. apply IH. eapply step_load_safe; eassumption.
Qed.
Lemma path_store_safe x p : forall v v', safe h s v -> safe h s x -> path_storeH v p x = Some v' -> safe h s v'.
Proof.
  induction p as [|a p IH]; intros v v' Hs Hx; cbn [path_storeH]; [intros [= <-]; exact Hx|].
  destruct (step_loadH v a) as [w|] eqn:E; [|discriminate].
  destruct (path_storeH w p x) as [w'|] eqn:E'; [|discriminate]. intros Hv'.
  eapply step_store_safe; [exact Hs| |exact Hv']. eapply IH; [|exact Hx|exact E']. eapply step_load_safe; [exact Hs|exact E].
Qed.
Lemma loc_get_safe k l x : Forall (fun fx : string * hval => safe h s (snd fx)) l -> loc_getH k l = Some x -> safe h s x.
Proof.
  induction l as [|[y v] l IH]; [discriminate|]. intros Hl. inversion Hl as [|? ? H1 H2]; subst. cbn.
  destruct (Nat.eqb _ _); [intros [= <-]; exact H1|apply IH; exact H2].
Qed.
Lemma loc_set_safe k x l : forall l', Forall (fun fx : string * hval => safe h s (snd fx)) l -> safe h s x -> loc_setH k x l = Some l' ->
  Forall (fun fx => safe h s (snd fx)) l'.
Proof.
  induction l as [|[y v] l IH]; intros l' Hl Hx; [discriminate|]. inversion Hl as [|? ? H1 H2]; subst. cbn.
  destruct (Nat.eqb _ _); [intros [= <-]; constructor; assumption|].
  destruct (loc_setH k x l) as [l1|]; [|discriminate]. intros [= <-]. constructor; [exact H1|]. apply IH; auto.
Qed.
Lemma load_safe fr p x : safeF h s fr -> loadH fr p = Some x -> safe h s x.
Proof. intros [H1 H2]. destruct p; [apply path_load_safe; exact H1|apply loc_get_safe; exact H2]. Qed.
Lemma store_safe fr p x fr' : safeF h s fr -> safe h s x -> storeH fr p x = Some fr' -> safeF h s fr'.
Proof.
  intros [H1 H2] Hx. destruct p; cbn [storeH].
  - destruct (path_storeH _ _ _) as [v|] eqn:E; [|discriminate]. intros [= <-]. split; [|exact H2].
    eapply path_store_safe; [exact H1|exact Hx|exact E].
  - destruct (loc_setH _ _ _) as [l|] eqn:E; [|discriminate]. intros [= <-]. split; [exact H1|].
    eapply loc_set_safe; eassumption.
Qed.
End Safe.

(** ** Zero values *)
Lemma gzero_lift n : forall t z, gzero G n t = Some z -> forall h, deref h (hlift z) = z /\ hslices (hlift z) = [].
Proof.
  induction n as [|n IH]; intros t z H h; [discriminate|].
  assert (HF : forall fs l, gzero_fields (gzero G n) fs = Some l ->
    map (fun fx => (fst fx, deref h (snd fx))) (map (fun fx => (fst fx, hlift (snd fx))) l) = l /\
    flat_map (fun fx => hslices (snd fx)) (map (fun fx : string * val => (fst fx, hlift (snd fx))) l) = []).
  { induction fs as [|[f t'] fs IHf]; intros l Hl; cbn in Hl; [injection Hl as <-; auto|].
    destruct (gzero G n t') as [v|] eqn:E1; [|discriminate].
    fold (gzero_fields (gzero G n)) in Hl.
    destruct (gzero_fields (gzero G n) fs) as [l'|]; [|discriminate]. injection Hl as <-.
    destruct (IHf l' eq_refl) as [H1 H2]. destruct (IH t' v E1 h) as [H3 H4]. cbn [map fst snd flat_map].
    rewrite H1, H2, H3, H4. auto. }
  cbn [gzero] in H. destruct t.
  - destruct (mem _ _); [injection H as <-; auto|]. destruct (String.eqb _ _); [injection H as <-; auto|].
    destruct (String.eqb _ _); [injection H as <-; auto|discriminate].
  - destruct (lookup _ _); [|discriminate]. eapply IH; eassumption.
  - injection H as <-; auto.
  - repeat match type of H with
    | match ?x with _ => _ end = Some _ => destruct x
    | Some _ = Some _ => injection H as <-
    | None = Some _ => discriminate
    end; auto.
  - repeat match type of H with
    | match ?x with _ => _ end = Some _ => destruct x
    | Some _ = Some _ => injection H as <-
    | None = Some _ => discriminate
    end; auto.
  - destruct (gzero_fields (gzero G n) fs) as [l|] eqn:E1; [|discriminate]. injection H as <-.
    destruct (HF _ _ E1) as [H1 H2]. cbn [hlift deref hslices]. rewrite H1, H2. auto.
Qed.
Lemma gzeroH_spec n t h : match gzeroH G n t with
  | Some z => gzero G n t = Some (deref h z) /\ hslices z = []
  | None => gzero G n t = None end.
Proof.
  unfold gzeroH. destruct (gzero G n t) as [z|] eqn:Ez; cbn; [|reflexivity].
  destruct (gzero_lift n t z Ez h) as [-> H]. auto.
Qed.

(** ** Expressions *)
Lemma rval_ok h fr o : rval (derefF h fr) (derefO h o) = gmap (derefG h) (rvalH fr o).
Proof.
  destruct o as [p|g]; [|reflexivity]. cbn [derefO rval rvalH]. rewrite load_ok.
  destruct (loadH fr p) as [v|]; [|reflexivity]. cbn [option_map].
  destruct v as [| | |[?|]| |[l|]|[y|]|l]; try reflexivity. cbn [deref option_map]. destruct (sub p PDeref); reflexivity.
Qed.
Lemma rval_safe h s fr o g : safeF h s fr -> safeO h s o -> rvalH fr o = GRet g -> safeG h s g.
Proof.
  intros Hf Ho. destruct o as [p|g']; cbn [rvalH]; [|intros [= <-]; exact Ho].
  destruct (loadH fr p) as [v|] eqn:E; [|discriminate]. pose proof (load_safe _ _ _ _ _ Hf E) as Hv.
  destruct v as [| | |[?|]| |[l|]|[y|]|l]; try (intros [= <-]; exact Hv); [|intros [= <-]; exact I].
  destruct (sub p PDeref); [|discriminate]. intros [= <-]. exact I.
Qed.
Lemma conv_ok h t g : conv_val t (derefG h g) = gmap (derefG h) (conv_valH t g).
Proof.
  destruct t, g as [v| | |]; try reflexivity; destruct v as [| | |[?|]| |[l|]|[y|]|l]; try reflexivity.
  cbn [derefG deref conv_val conv_valH]. destruct (String.eqb _ _); [reflexivity|]. destruct (String.eqb _ _); reflexivity.
Qed.
Lemma conv_safe h s t g g' : conv_valH t g = GRet g' -> safeG h s g'.
Proof.
  destruct t, g as [v| | |]; try discriminate; cbn [conv_valH]; try (intros [= <-]; exact I).
  destruct v as [| | |[?|]| |[l|]|[y|]|l]; try discriminate.
  destruct (String.eqb _ _); [intros [= <-]; constructor|]. destruct (String.eqb _ _); [intros [= <-]; constructor|discriminate].
Qed.
Lemma compare_ok h f a b : compare f (derefG h a) (derefG h b) = gmap (derefO h) (compareH f a b).
Proof.
  destruct a as [v| | |]; try reflexivity; destruct v as [| | |[?|]| |[l|]|[y|]|l]; try reflexivity;
  destruct b as [w| | |]; try reflexivity; destruct w as [| | |[?|]| |[l'|]|[y'|]|l']; reflexivity.
Qed.
Lemma compare_safe h s f a b o : compareH f a b = GRet o -> safeO h s o.
Proof.
  destruct a as [v| | |]; try discriminate; destruct v as [| | |[?|]| |[l|]|[y|]|l]; try discriminate;
  destruct b as [w| | |]; try discriminate; destruct w as [| | |[?|]| |[l'|]|[y'|]|l']; try discriminate.
  intros [= <-]. constructor.
Qed.

Lemma helems_len h l : zlen (elems (option_map (map (deref h)) l)) = zlen (helems l).
Proof. destruct l; [|reflexivity]. unfold zlen. cbn. rewrite map_length. reflexivity. Qed.

Ltac evl IH := rewrite IH; match goal with |- context [gmap _ (evH ?G ?n ?s ?fr ?e)] => destruct (evH G n s fr e); [|reflexivity..] end; cbn [gmap gbind].
Ltac rvl := rewrite rval_ok; match goal with |- context [gmap _ (rvalH ?fr ?o)] => destruct (rvalH fr o); [|reflexivity..] end; cbn [gmap gbind].

Lemma ev_ok n h s fr e : ev G n (habs h s) (derefF h fr) e = gmap (derefO h) (evH G n s fr e).
Proof.
  induction e; cbn [ev evH]; try (rewrite loc_find_ok).
  - cbn [f_locs derefF]. rewrite loc_find_ok. destruct (loc_findH x (hf_locs fr)); [reflexivity|].
    destruct (String.eqb x "v"); [reflexivity|]. destruct (String.eqb x "xs"); [reflexivity|].
    destruct (cval G x); [reflexivity|]. destruct (String.eqb x "nil"); [reflexivity|].
    destruct (String.eqb x "true"); [reflexivity|]. destruct (String.eqb x "false"); reflexivity.
  - destruct (num_val _); reflexivity.
  - reflexivity.
  - exact IHe.
  - evl IHe. rvl. destruct a0 as [v|[p|]| |]; reflexivity.
  - evl IHe. destruct a; reflexivity.
  - evl IHe. rvl. destruct a0 as [v|[p|]| |]; cbn [derefG].
    + destruct a; cbn [derefO]; [|reflexivity]. destruct (sub _ _); reflexivity.
    + destruct (sub _ _); reflexivity.
    + reflexivity.
    + destruct a; cbn [derefO]; [|reflexivity]. destruct (sub _ _); reflexivity.
    + destruct a; cbn [derefO]; [|reflexivity]. destruct (sub _ _); reflexivity.
  - evl IHe1. evl IHe2. rvl. rvl. destruct a as [p|]; [|reflexivity]. cbn [derefO].
    destruct a2 as [v| | |]; try reflexivity; destruct v as [| | |[?|]| |l|[y|]|l]; try reflexivity. cbn [derefG deref].
    destruct a1 as [w| | |]; try reflexivity; destruct w as [| | |[?|]| |l'|[y'|]|l']; try reflexivity. cbn [derefG deref].
    rewrite helems_len. destruct (_ && _); [|reflexivity]. destruct (sub _ _); reflexivity.
  - evl IHe. destruct a; reflexivity.
  - evl IHe. rvl. rewrite conv_ok. destruct (conv_valH _ _); reflexivity.
  - evl IHe. rvl. destruct a0 as [v| | |]; try reflexivity; destruct v as [| | |[?|]| |l|[y|]|l]; try reflexivity. cbn [derefG deref].
    rewrite helems_len. reflexivity.
  - evl IHe. rvl. destruct t; try reflexivity.
    destruct a0 as [v| | |]; try reflexivity; destruct v as [| | |[?|]| |l|[y|]|l]; try reflexivity. cbn [derefG deref].
    pose proof (gzeroH_spec n t h) as K. destruct (gzeroH G n t) as [zz|]; [|rewrite K; reflexivity].
    destruct K as [-> _]. cbn [some_or gbind gmap derefO derefG deref option_map]. rewrite map_rep. reflexivity.
  - pose proof (gzeroH_spec n t h) as K. destruct (gzeroH G n t) as [zz|]; [|rewrite K; reflexivity].
    destruct K as [-> _]. reflexivity.
  - cbn [f_locs derefF]. rewrite loc_find_ok. destruct (loc_findH x (hf_locs fr)); [reflexivity|].
    destruct (negb _); [reflexivity|]. destruct (String.eqb m "Encoding"); [reflexivity|].
    destruct (String.eqb m "Decoding"); reflexivity.
  - evl IHe1. rvl. evl IHe2. rvl. destruct a0 as [v|p| |]; try reflexivity. destruct a2 as [v|[q|]| |]; reflexivity.
  - evl IHe1. rvl. evl IHe2. rvl. apply compare_ok.
  - evl IHe1. rvl. evl IHe2. rvl. apply compare_ok.
Qed.

Ltac evs IH := match goal with |- gbind (evH ?G ?n ?s ?fr ?e) _ = _ -> _ =>
  destruct (evH G n s fr e) as [?o| | |] eqn:?; [|discriminate..]; cbn [gbind] end.
Ltac rvs := match goal with |- gbind (rvalH ?fr ?o) _ = _ -> _ =>
  destruct (rvalH fr o) as [?g| | |] eqn:?; [|discriminate..]; cbn [gbind] end.
Lemma ev_safe n h s fr e : safeF h s fr -> forall o, evH G n s fr e = GRet o -> safeO h s o.
Proof.
  intros Hf. induction e; intros r; cbn [evH].
  - destruct (loc_findH x (hf_locs fr)); [intros [= <-]; exact I|].
    destruct (String.eqb x "v"); [intros [= <-]; exact I|]. destruct (String.eqb x "xs"); [intros [= <-]; exact I|].
    destruct (cval G x); [intros [= <-]; constructor|]. destruct (String.eqb x "nil"); [intros [= <-]; exact I|].
    destruct (String.eqb x "true"); [intros [= <-]; constructor|]. destruct (String.eqb x "false"); [intros [= <-]; constructor|discriminate].
  - destruct (num_val _); [intros [= <-]; constructor|discriminate].
  - discriminate.
  - apply IHe.
  - evs IHe. rvs. destruct g as [v|[p|]| |]; try discriminate. intros [= <-]. exact I.
  - evs IHe. destruct o; [|discriminate]. intros [= <-]. exact I.
  - evs IHe. rvs.
    assert (D : match o with HOPl p => match sub p (PField f) with Some q => GRet (HOPl q) | None => GStuck end | HOVal _ => GStuck end = GRet r -> safeO h s r).
    { destruct o; [|discriminate]. destruct (sub _ _); [intros [= <-]; exact I|discriminate]. }
    destruct g as [v|[p|]| |]; auto; [|discriminate]. destruct (sub _ _); [intros [= <-]; exact I|discriminate].
  - evs IHe1. evs IHe2. rvs. rvs. destruct o as [p|]; [|discriminate].
    destruct g0 as [v| | |]; try discriminate; destruct v as [| | |[?|]| |l|[y|]|l]; try discriminate.
    destruct g as [w| | |]; try discriminate; destruct w as [| | |[?|]| |l'|[y'|]|l']; try discriminate.
    destruct (_ && _); [|discriminate]. destruct (sub _ _); [intros [= <-]; exact I|discriminate].
  - evs IHe. destruct o; [|discriminate]. intros [= <-]. exact I.
  - evs IHe. rvs. destruct (conv_valH t g) as [g'| | |] eqn:E; try discriminate. intros [= <-]. eapply conv_safe; exact E.
  - evs IHe. rvs. destruct g as [v| | |]; try discriminate; destruct v as [| | |[?|]| |l|[y|]|l]; try discriminate. intros [= <-]. constructor.
  - evs IHe. rvs. destruct t; try discriminate.
    destruct g as [v| | |]; try discriminate; destruct v as [| | |[?|]| |l|[y|]|l]; try discriminate.
    pose proof (gzeroH_spec n t h) as K. destruct (gzeroH G n t) as [zz|]; [|discriminate]. intros [= <-].
    apply (proj1 (safes_flat h s _)). apply safes_repeat. apply K.
  - pose proof (gzeroH_spec n t h) as K. destruct (gzeroH G n t) as [zz|]; [|discriminate]. intros [= <-].
    apply safe_nil. apply K.
  - destruct (loc_findH x (hf_locs fr)); [discriminate|].
    destruct (negb _); [discriminate|]. destruct (String.eqb m "Encoding"); [intros [= <-]; constructor|].
    destruct (String.eqb m "Decoding"); [intros [= <-]; constructor|discriminate].
  - evs IHe1. rvs. evs IHe2. rvs. destruct g as [v|p| |]; try discriminate. destruct g0 as [v|[q|]| |]; try discriminate.
    intros [= <-]. constructor.
  - evs IHe1. rvs. evs IHe2. rvs. apply compare_safe.
  - evs IHe1. rvs. evs IHe2. rvs. apply compare_safe.
Qed.
Lemma evv_ok n h s fr e : evv G n (habs h s) (derefF h fr) e = gmap (derefG h) (evvH G n s fr e).
Proof.
  unfold evv, evvH. rewrite ev_ok. destruct (evH G n s fr e); [|reflexivity..]. cbn [gmap gbind]. apply rval_ok.
Qed.
Lemma evv_safe n h s fr e g : safeF h s fr -> evvH G n s fr e = GRet g -> safeG h s g.
Proof.
  unfold evvH. intros Hf. destruct (evH G n s fr e) as [o| | |] eqn:E; [|discriminate..]. cbn [gbind].
  apply rval_safe; [exact Hf|]. eapply ev_safe; eassumption.
Qed.
Lemma ev_bool_ok n h s fr e : ev_bool G n (habs h s) (derefF h fr) e = ev_boolH G n s fr e.
Proof.
  unfold ev_bool, ev_boolH. rewrite evv_ok. destruct (evvH G n s fr e) as [g| | |]; [|reflexivity..]. cbn [gmap gbind].
  destruct g as [v| | |]; try reflexivity; destruct v as [| | |[?|]| |[l|]|[y|]|l]; reflexivity.
Qed.
Lemma find_clause_ok n h s fr g cs :
  find_clause G n (habs h s) (derefF h fr) (derefG h g) cs = find_clauseH G n s fr g cs.
Proof.
  induction cs as [|[[[l|] ss] ft] cs IH]; [reflexivity| |exact IH]. cbn [find_clause find_clauseH]. rewrite evv_ok.
  destruct (evvH G n s fr l) as [gl| | |]; [|reflexivity..]. cbn [gmap gbind].
  destruct g as [v| | |]; try reflexivity; destruct v as [| | |[?|]| |[l0|]|[y|]|l0]; try reflexivity;
  destruct gl as [w| | |]; try reflexivity; destruct w as [| | |[?|]| |[l'|]|[y'|]|l']; try reflexivity; cbn [derefG deref].
  - destruct (_ =? _); [reflexivity|exact IH].
  - destruct (Bool.eqb _ _); [reflexivity|exact IH].
Qed.
Lemma find_default_ok cs : find_defaultH cs = find_default cs.
Proof. induction cs as [|[[[l|] ss] ft] cs IH]; [reflexivity|exact IH|reflexivity]. Qed.

(** ** Statements *)
(** A run in memory and one over values, with corresponding outcomes. *)
Definition gorel {A B} (D : heap -> A -> B) (S : heap -> hst -> A -> Prop) (h : heap) (s : hst)
    (r : gor (heap * hst * A)) (q : gor (xst * B)) : Prop :=
  match r with
  | GRet (h', s', a) => q = GRet (habs h' s', D h' a) /\ hstep h s h' s' /\ S h' s' a
  | GPanic => q = GPanic
  | GStuck => q = GStuck
  | GOut => q = GOut
  end.
Lemma gorel_bind {A B A' B'} (D : heap -> A -> B) S (D' : heap -> A' -> B') S' h s r q k l :
  gorel D S h s r q ->
  (forall h' s' a, hstep h s h' s' -> gvalid h' (h_buf s') -> S h' s' a -> gorel D' S' h' s' (k (h', s', a)) (l (habs h' s', D h' a))) ->
  gorel D' S' h s (gbind r k) (gbind q l).
Proof.
  intros Hr Hk. destruct r as [[[h' s'] a]| | |]; cbn [gorel] in Hr; [|subst; reflexivity..].
  destruct Hr as (-> & Hs & Ha). cbn [gbind]. pose proof (Hk h' s' a Hs (hstep_valid _ _ _ _ Hs) Ha) as K.
  destruct (k (h', s', a)) as [[[h2 s2] a2]| | |]; cbn [gorel] in *; auto.
  destruct K as (K1 & K2 & K3). split; [exact K1|]. split; [eapply hstep_trans; eassumption|exact K3].
Qed.

Lemma through_ok h s fr g F f : gvalid h (h_buf s) -> safeF h s fr ->
  (forall x, safe h s x -> gorel deref safe h s (F x) (f (deref h x))) ->
  gorel derefF safeF h s (throughH fr g F) (through (derefF h fr) (derefG h g) f).
Proof.
  intros Hv Hf HF.
  assert (P : forall p, gorel derefF safeF h s
    (let! x := some_or (loadH fr p) GStuck in let! (h, s, x) := F x in let! fr := some_or (storeH fr p x) GStuck in GRet (h, s, fr))
    (let! x := some_or (load (derefF h fr) p) GStuck in let! (s, x) := f x in let! fr := some_or (store (derefF h fr) p x) GStuck in GRet (s, fr))).
  { intros p. rewrite load_ok. destruct (loadH fr p) as [x|] eqn:El; [|reflexivity]. cbn [option_map some_or gbind].
    eapply gorel_bind; [apply HF; eapply load_safe; eassumption|].
    intros h' s' x' Hs Hv' Hx. rewrite <- (derefF_step _ _ _ _ _ Hs Hf), store_ok.
    destruct (storeH fr p x') as [fr'|] eqn:Est; [|reflexivity]. cbn [option_map some_or gbind gorel].
    split; [reflexivity|]. split; [apply hstep_refl; exact Hv'|].
    eapply store_safe; [eapply safeF_step; [exact Hs|exact Hf]|exact Hx|exact Est]. }
  destruct g as [v|[p|]|p|]; cbn [throughH through derefG]; try reflexivity; apply P.
Qed.

Lemma rel_gorel {A} (mk : A -> hval) (mk' : A -> val) h s (r : heap * hst * A) q :
  (forall h a, deref h (mk a) = mk' a) -> (forall a, hslices (mk a) = []) -> rel h s r q ->
  gorel deref safe h s (let '(h, s, a) := r in GRet (h, s, mk a)) (let '(s, a) := q in GRet (s, mk' a)).
Proof.
  intros Hd Hn K. destruct r as [[h' s'] a]. destruct K as [-> Hs]. cbn [gorel]. rewrite Hd.
  split; [reflexivity|]. split; [exact Hs|]. apply safe_nil. apply Hn.
Qed.
Lemma lib_ok fn h s m x : gvalid h (h_buf s) -> safe h s x ->
  gorel deref safe h s (lib_funH grow fn h s m x) (lib_fun fn (habs h s) m (deref h x)).
Proof.
  intros Hv Hx. destruct m as [m|], x as [z|b|bs|o|bs|o|o|l]; try reflexivity; cbn [lib_funH lib_fun deref];
  try (destruct o; reflexivity).
  - pose proof (VarArray_rel grow grow_ok h s m o Hv) as K.
    assert (D : deref h (HBytes o) = VBytes (option_map (sread h) o)) by (destruct o; reflexivity).
    cbn [deref] in D. rewrite D. destruct (String.eqb fn "XdrVarArray"); [|reflexivity].
    assert (Ha : gapart h s o).
    { destruct o as [sl|]; [|exact I]. unfold safe in Hx. cbn in Hx. inversion Hx; assumption. }
    specialize (K Ha). destruct (HXdrVarArray grow h s m o) as [[h' s'] o']. destruct K as (K & Hs & Ha'). rewrite K.
    cbn [gorel]. split; [destruct o'; reflexivity|]. split; [exact Hs|].
    unfold safe. destruct o'; cbn; [constructor; [exact Ha'|constructor]|constructor].
  - destruct (String.eqb fn "XdrString"); [|reflexivity]. apply (rel_gorel HStr VStr); auto. apply String_rel; assumption.
  - destruct (String.eqb fn "XdrU32"); [apply (rel_gorel HInt VInt); auto; apply U32_rel; assumption|].
    destruct (String.eqb fn "XdrS32"); [apply (rel_gorel HInt VInt); auto; apply S32_rel; assumption|].
    destruct (String.eqb fn "XdrU64"); [apply (rel_gorel HInt VInt); auto; apply U64_rel; assumption|].
    destruct (String.eqb fn "XdrS64"); [apply (rel_gorel HInt VInt); auto; apply S64_rel; assumption|]. reflexivity.
  - destruct (String.eqb fn "XdrBool"); [apply (rel_gorel HBool VBool); auto; apply Bool_rel; assumption|]. reflexivity.
  - destruct (String.eqb fn "XdrArray"); [apply (rel_gorel HArr VArr); auto; apply Array_rel; assumption|]. reflexivity.
Qed.

Lemma pop_ok h k fr : derefF h (popH k fr) = pop k (derefF h fr).
Proof. unfold popH, pop, derefF, mapf. cbn [hf_recv hf_locs f_recv f_locs]. rewrite map_length, skipn_map. reflexivity. Qed.
Lemma pop_safe h s k fr : safeF h s fr -> safeF h s (popH k fr).
Proof.
  intros [H1 H2]. split; [exact H1|]. cbn. rewrite Forall_forall in *. intros x Hx. apply H2.
  rewrite <- (firstn_skipn (List.length (hf_locs fr) - k) (hf_locs fr)). apply in_or_app. right. exact Hx.
Qed.
Lemma depth_ok h fr : depth (derefF h fr) = depthH fr.
Proof. apply map_length. Qed.
Lemma push_ok h x v fr : derefF h (pushH x v fr) = push x (deref h v) (derefF h fr).
Proof. reflexivity. Qed.
Lemma push_safe h s x v fr : safe h s v -> safeF h s fr -> safeF h s (pushH x v fr).
Proof. intros Hv [H1 H2]. split; [exact H1|]. constructor; assumption. Qed.
Lemma ret_ok h s fr : gvalid h (h_buf s) -> safeF h s fr ->
  gorel derefF safeF h s (GRet (h, s, fr)) (GRet (habs h s, derefF h fr)).
Proof. intros Hv Hf. split; [reflexivity|]. split; [apply hstep_refl; exact Hv|exact Hf]. Qed.

Section Exec.
Variable XH : heap -> hst -> hframe -> stmt -> gor (heap * hst * hframe).
Variable X : xst -> frame -> stmt -> gor (xst * frame).
Hypothesis HX : forall h s fr st, gvalid h (h_buf s) -> safeF h s fr ->
  gorel derefF safeF h s (XH h s fr st) (X (habs h s) (derefF h fr) st).

Lemma seq_ok ss : forall h s fr, gvalid h (h_buf s) -> safeF h s fr ->
  gorel derefF safeF h s (seqH XH h s fr ss) (seq X (habs h s) (derefF h fr) ss).
Proof.
  induction ss as [|a ss IH]; intros h s fr Hv Hf; cbn [seqH seq]; [apply ret_ok; assumption|].
  eapply gorel_bind; [apply HX; assumption|]. intros h' s' fr' _ Hv' Hf'. apply IH; assumption.
Qed.
Lemma block_ok ss h s fr : gvalid h (h_buf s) -> safeF h s fr ->
  gorel derefF safeF h s (blockH XH h s fr ss) (GoSem.block X (habs h s) (derefF h fr) ss).
Proof.
  intros Hv Hf. unfold blockH, GoSem.block. eapply gorel_bind; [apply seq_ok; assumption|].
  intros h' s' fr' _ Hv' Hf'. rewrite depth_ok, <- pop_ok. apply ret_ok; [exact Hv'|]. apply pop_safe. exact Hf'.
Qed.
Lemma incr_ok x h s fr : safeF h s fr ->
  match incrH x fr with
  | GRet fr' => incr x (derefF h fr) = GRet (derefF h fr') /\ safeF h s fr'
  | GPanic => incr x (derefF h fr) = GPanic
  | GStuck => incr x (derefF h fr) = GStuck
  | GOut => incr x (derefF h fr) = GOut
  end.
Proof.
  intros Hf. unfold incrH, incr. cbn [f_locs derefF]. rewrite loc_find_ok.
  destruct (loc_findH x (hf_locs fr)) as [k|]; [|reflexivity]. rewrite loc_get_ok.
  destruct (loc_getH k (hf_locs fr)) as [v|]; [|reflexivity].
  destruct v as [z| | |[?|]| |[l|]|[y|]|l]; try reflexivity. cbn [option_map deref].
  pose proof (store_ok h fr (PLoc k) (HInt (z + 1))) as K. cbn [deref] in K. rewrite K.
  destruct (storeH fr (PLoc k) (HInt (z + 1))) as [fr'|] eqn:E; [|reflexivity]. cbn [option_map some_or].
  split; [reflexivity|]. eapply store_safe; [exact Hf| |exact E]. constructor.
Qed.
Lemma loop_ok n x c ss k : forall h s fr, gvalid h (h_buf s) -> safeF h s fr ->
  gorel derefF safeF h s (loopH G XH n k x c ss h s fr) (loop G X n k x c ss (habs h s) (derefF h fr)).
Proof.
  induction k as [|k IH]; intros h s fr Hv Hf; cbn [loopH loop]; [reflexivity|]. rewrite ev_bool_ok.
  destruct (ev_boolH G n s fr c) as [t| | |]; [|reflexivity..]. cbn [gbind]. destruct t; [|apply ret_ok; assumption].
  eapply gorel_bind; [apply block_ok; assumption|]. intros h' s' fr' _ Hv' Hf'. cbn beta iota.
  pose proof (incr_ok x h' s' fr' Hf') as K. destruct (incrH x fr') as [fr2| | |]; [|rewrite K; reflexivity..].
  destruct K as [-> Hf2]. cbn [gbind]. apply IH; assumption.
Qed.
Lemma run_ok cs : forall h s fr, gvalid h (h_buf s) -> safeF h s fr ->
  gorel derefF safeF h s (runH XH h s fr cs) (GoSem.run X (habs h s) (derefF h fr) cs).
Proof.
  induction cs as [|[[l ss] ft] cs IH]; intros h s fr Hv Hf; cbn [runH GoSem.run]; [apply ret_ok; assumption|].
  eapply gorel_bind; [apply block_ok; assumption|]. intros h' s' fr' _ Hv' Hf'. cbn beta iota.
  destruct ft; [apply IH; assumption|apply ret_ok; assumption].
Qed.
Lemma recv_ok h s fr0 body : gvalid h (h_buf s) -> safe h s fr0 ->
  gorel deref safe h s (let! (h, s, fr) := blockH XH h s (frame0H fr0) body in GRet (h, s, hf_recv fr))
    (let! (s, fr) := GoSem.block X (habs h s) (frame0 (deref h fr0)) body in GRet (s, f_recv fr)).
Proof.
  intros Hv Hs. assert (H0 : safeF h s (frame0H fr0)) by (split; [exact Hs|constructor]).
  eapply gorel_bind; [exact (block_ok body h s (frame0H fr0) Hv H0)|].
  intros h' s' fr' _ Hv' Hf'. cbn beta iota. split; [reflexivity|]. split; [apply hstep_refl; exact Hv'|apply Hf'].
Qed.
End Exec.

Lemma setsize_ok h s len x : gvalid h (h_buf s) -> safe h s x ->
  gorel deref safe h s
    (match x with HInt z => let '(s, z) := HEncodingSetSize s z len in GRet (h, s, HInt z) | _ => GStuck end)
    (match deref h x with VInt z => let '(s, z) := EncodingSetSize (habs h s) z len in GRet (s, VInt z) | _ => GStuck end).
Proof.
  intros Hv Hx. destruct x as [z| | |[?|]| |[l|]|[y|]|l]; try reflexivity. cbn [deref].
  unfold HEncodingSetSize, EncodingSetSize. destruct s as [[e|] rd o]; cbn [habs h_err x_err h_reader x_reader].
  - split; [reflexivity|]. split; [apply hstep_refl; exact Hv|constructor].
  - destruct rd; [split; [reflexivity|]; split; [apply hstep_refl; exact Hv|constructor]|].
    destruct (len >? MaxUint32); (split; [reflexivity|]; split; [|constructor]).
    + apply hstep_err. apply hstep_refl. exact Hv.
    + apply hstep_refl. exact Hv.
Qed.

Lemma NXS {A} x (a b : A) : x <> "xs" -> match x with "xs" => a | _ => b end = b.
Proof. intros H. repeat match goal with |- context [match ?y with _ => _ end] => destruct y; try reflexivity end; congruence. Qed.

Theorem exec_sim n : forall h s fr st, gvalid h (h_buf s) -> safeF h s fr ->
  gorel derefF safeF h s (execH G grow n h s fr st) (exec G n (habs h s) (derefF h fr) st).
Proof.
  induction n as [|n IH]; intros h s fr st Hv Hf; [reflexivity|]. cbn [execH exec].
  assert (EV : forall e (k : gvalH -> gor (heap * hst * hframe)) l,
    (forall g, safeG h s g -> gorel derefF safeF h s (k g) (l (derefG h g))) ->
    gorel derefF safeF h s (let! g := evvH G n s fr e in k g) (let! g := evv G n (habs h s) (derefF h fr) e in l g)).
  { intros e k l Hk. rewrite evv_ok. destruct (evvH G n s fr e) as [g| | |] eqn:E; [|reflexivity..]. cbn [gmap gbind].
    apply Hk. eapply evv_safe; eassumption. }
  destruct st as [fn args|e m args|x t|x e|a b|ss|c a b|x init c ss|e cs].
  - destruct args as [|[x| | | | | | | | | | | | | | | |] args]; try reflexivity.
    destruct (string_dec x "xs") as [->|Hne].
    2: rewrite !NXS by exact Hne; reflexivity.
    destruct args as [|e1 [|e2 [|e3 args]]]; try reflexivity.
    + apply EV. intros g Hg. apply through_ok; [assumption..|]. intros x Hx. apply lib_ok; assumption.
    + apply EV. intros g1 Hg1. apply EV. intros g2 Hg2.
      destruct g1 as [v| | |]; try reflexivity; destruct v as [z| | |[?|]| |[l|]|[y|]|l]; try reflexivity. cbn [derefG deref].
      apply through_ok; [assumption..|]. intros x Hx. apply lib_ok; assumption.
  - destruct e as [x| | | | | | | | |t e| | | | | | |]; try reflexivity.
    + destruct (string_dec x "xs") as [->|Hne]; [|rewrite !NXS by exact Hne; reflexivity].
      destruct (String.eqb m "EncodingSetSize").
      * destruct args as [|p [|l [|e3 args]]]; try reflexivity. apply EV. intros gp Hgp. apply EV. intros gl Hgl.
        destruct gl as [v| | |]; try reflexivity; destruct v as [z| | |[?|]| |[l0|]|[y|]|l0]; try reflexivity. cbn [derefG deref].
        apply through_ok; [assumption..|]. intros x Hx. apply setsize_ok; assumption.
      * destruct (String.eqb m "SetError"); [|reflexivity].
        destruct args as [|a args]; [reflexivity|]. destruct args; [|destruct a; reflexivity]. destruct a; try reflexivity.
        split; [reflexivity|]. split; [apply hstep_err; apply hstep_refl; exact Hv|exact Hf].
    + destruct t as [| |[|x| | | |]| | |]; try reflexivity.
      destruct args as [|[y| | | | | | | | | | | | | | | |] args]; try reflexivity.
      destruct (string_dec y "xs") as [->|Hne]; [|rewrite !NXS by exact Hne; reflexivity].
      destruct args; [|reflexivity]. destruct (String.eqb m "Xdr"); [|reflexivity].
      destruct (lookup x (g_meths G)) as [body|]; [|reflexivity]. apply EV. intros g Hg.
      apply through_ok; [assumption..|]. intros x' Hx. apply recv_ok; assumption.
  - pose proof (gzeroH_spec n t h) as K. destruct (gzeroH G n t) as [zz|]; [|rewrite K; reflexivity].
    destruct K as [-> Hz]. cbn [some_or gbind]. rewrite <- push_ok. apply ret_ok; [exact Hv|].
    apply push_safe; [|exact Hf]. apply safe_nil. exact Hz.
  - apply EV. intros g Hg. destruct g as [v| | |]; try reflexivity. cbn [derefG]. rewrite <- push_ok.
    apply ret_ok; [exact Hv|]. apply push_safe; [exact Hg|exact Hf].
  - rewrite ev_ok. destruct (evH G n s fr a) as [o| | |]; [|reflexivity..]. cbn [gmap gbind]. apply EV. intros g Hg.
    destruct o as [p|]; [|reflexivity]. destruct g as [v| | |]; try reflexivity. cbn [derefO derefG].
    rewrite store_ok. destruct (storeH fr p v) as [fr'|] eqn:E; [|reflexivity]. cbn [option_map some_or gbind].
    apply ret_ok; [exact Hv|]. eapply store_safe; [exact Hf|exact Hg|exact E].
  - apply block_ok; assumption.
  - rewrite ev_bool_ok. destruct (ev_boolH G n s fr c) as [t| | |]; [|reflexivity..]. cbn [gbind].
    destruct t; [apply block_ok; assumption|]. destruct b; [apply block_ok; assumption|apply ret_ok; assumption].
  - apply EV. intros g Hg.
    destruct g as [v| | |]; try reflexivity; destruct v as [z| | |[?|]| |[l|]|[y|]|l]; try reflexivity. cbn [derefG deref].
    eapply gorel_bind.
    + change (push x (VInt z) (derefF h fr)) with (derefF h (pushH x (HInt z) fr)). apply loop_ok; [exact IH|exact Hv|]. apply push_safe; [constructor|exact Hf].
    + intros h' s' fr' _ Hv' Hf'. cbn beta iota. rewrite depth_ok, <- pop_ok. apply ret_ok; [exact Hv'|]. apply pop_safe. exact Hf'.
  - apply EV. intros g Hg. rewrite find_clause_ok. destruct (find_clauseH G n s fr g cs) as [o| | |]; [|reflexivity..]. cbn [gbind].
    destruct o as [cs'|]; [apply run_ok; assumption|]. rewrite find_default_ok.
    destruct (find_default cs); [apply run_ok; assumption|apply ret_ok; assumption].
Qed.

Theorem call_sim n x h s v : gvalid h (h_buf s) -> safe h s v ->
  gorel deref safe h s (callH G grow n x h s v) (call G n x (habs h s) (deref h v)).
Proof.
  intros Hv Hs. unfold callH, call. destruct (lookup x (g_meths G)); [|reflexivity].
  apply recv_ok; [apply exec_sim|assumption..].
Qed.
End Sem.
