(** A named type with an array inside the element of an array: the values its method does not
    return from without an error. *)
From Coq Require Import Lia.
From Verif Require Import GoLex XLex Gram GParse Emit Bytes XdrLib Types Interp Meta GoAst GoSem GElab GSimA GSimB GSimC NestA NestB NestC.
Open Scope string_scope.
Open Scope Z_scope.
Open Scope list_scope.

(** The type a definition gives to a name and where a value of it is in the Go value
    (a typedef of an optional declares a struct with a field P, out.go:452-460). *)
Definition root (d : defn) : option (string * declType * list step) :=
  match d with
  | defTypedef (declName t n) => Some (cap n, t, match t with declTypePtr _ => [PField "P"] | _ => [] end)
  | defStruct n items => Some (cap n, declTypeTypespec (typeStruct items), [])
  | defUnion n s c df => Some (cap n, declTypeTypespec (typeUnion s c df), [])
  | _ => None
  end.

Lemma list_eq_nil_or_last {A} (l : list A) : l = [] \/ exists l' a, l = l' ++ [a].
Proof. destruct l as [|x l]; [auto|]. right. destruct (exists_last (l := x :: l)) as (l1 & a & E1); [discriminate|]. eauto. Qed.
(** No index on the path. *)
Definition noidx (q : list step) : Prop := forall k, ~ In (PIdx k) q.
Lemma reidx_noidx i q : noidx q -> reidx i q = q.
Proof.
  intros H. induction q as [|a q IH]; [reflexivity|]. unfold reidx in *. cbn [map]. rewrite IH by (intros k I; apply (H k); right; exact I). destruct a; try reflexivity. exfalso. apply (H k). left. reflexivity.
Qed.
Lemma reach_noidx K dt : (forall t v p, reach K dt t v p -> noidx p) /\ (forall t v p, reach_dt K dt t v p -> noidx p).
Proof.
  apply reach_mutind; try (intros; assumption).
  - intros items u n l w p _ _ _ IH k [X|I]; [discriminate X|exact (IH k I)].
  - intros st sn cases def l dv d u n w p _ _ _ _ _ IH k [X|I]; [discriminate X|exact (IH k I)].
  - intros w k [].
  - intros t w p _ IH k [X|I]; [discriminate X|exact (IH k I)].
Qed.

Section S.
Variable fl : flags.
Variable ds : list defn.
Variable E : env.
Variable G : gpkg.
Hypothesis Hsup : supportedx fl ds = Some (E, G).
Let K := xconsts ds.

Lemma defs_names l : forallb (nokx_defn K E) l = true -> forall a b m, all_decls (el_defn fl K) l = Some a -> all_decls (ty_decl fl) l = Some b -> all_decls (meth_decl fl) l = Some m ->
  map fst a = map fst b /\ map fst m = map fst b.
Proof.
  induction l as [|d l IH]; cbn; intros N a b m A B M.
  - injection A as <-. injection B as <-. injection M as <-. auto.
  - apply andb_true_iff in N. destruct N as (N1 & N2).
    destruct (el_defn fl K d) as [a1|] eqn:A1; [|discriminate]. destruct (all_decls (el_defn fl K) l) as [a2|]; [|discriminate]. injection A as <-.
    destruct (ty_decl fl d) as [b1|] eqn:B1; [|discriminate]. destruct (all_decls (ty_decl fl) l) as [b2|]; [|discriminate]. injection B as <-.
    destruct (meth_decl fl d) as [m1|] eqn:M1; [|discriminate]. destruct (all_decls (meth_decl fl) l) as [m2|]; [|discriminate]. injection M as <-.
    destruct (IH N2 _ _ _ eq_refl eq_refl eq_refl) as (I1 & I2).
    destruct (NestB.def_one fl ds E d a1 b1 m1 N1 A1 B1 M1) as [(-> & -> & ->)|(y & c & g & body & -> & -> & -> & R)]; [auto|].
    cbn. rewrite I1, I2. auto.
Qed.
Lemma in_decls {A} (f : defn -> option (list A)) l d : In d l -> forall r, all_decls f l = Some r -> exists a, f d = Some a /\ forall x, In x a -> In x r.
Proof.
  induction l as [|e l IH]; intros I r H; [destruct I|]. cbn in H. destruct (f e) as [a|] eqn:F; [|discriminate]. destruct (all_decls f l) as [b|]; [|discriminate]. injection H as <-.
  destruct I as [->|I]; [exists a; split; [exact F|intros x X; apply in_or_app; auto]|]. destruct (IH I _ eq_refl) as (a' & F' & S). exists a'. split; [exact F'|]. intros x X. apply in_or_app. right. auto.
Qed.
Lemma lookup_nodup {A} f (t : A) fs : NoDup (map fst fs) -> In (f, t) fs -> lookup f fs = Some t.
Proof.
  induction fs as [|[g u] fs IH]; intros N I; [destruct I|]. cbn in N. inversion N as [|x y X Y]; subst. cbn. destruct I as [I|I].
  - injection I as -> ->. rewrite String.eqb_refl. reflexivity.
  - destruct (String.eqb_spec f g) as [->|_]; [|auto]. destruct X. apply (in_map fst) in I. exact I.
Qed.
(** The pointer that goXdr starts with (goRef, out.go:455-459) and the declared type. *)
Definition root_expr (t : declType) : expr := match t with declTypePtr _ => EAddr (ESel (EVar "v") "P") | _ => EVar "v" end.
Definition root_ty (t : declType) (c : cty) : cty := match t with declTypePtr _ => CStruct [("P", c)] | _ => c end.
Lemma root_inv d x t p : In d ds -> root d = Some (x, t, p) ->
  exists c body, el_dt K t = Some c /\ lookup x E = Some (root_ty t c) /\ gx_dt t (root_expr t) = Some body /\ lookup x (g_meths G) = Some body /\ nokx_dt K E t = true /\
    p = match t with declTypePtr _ => [PField "P"] | _ => [] end.
Proof.
  intros I R. destruct (NestB.sup_inv _ _ _ _ Hsup) as (A & B & N & ND & _). unfold pkg_of in B. destruct (all_decls (ty_decl fl) ds) as [ts|] eqn:B1; [|discriminate].
  cbn [pbind] in B. destruct (all_decls (meth_decl fl) ds) as [ms|] eqn:B2; [|discriminate]. cbn [pbind] in B. injection B as <-. unfold pkg_names in ND. cbn [g_types g_meths g_consts] in *.
  apply nodup_app_l in ND. unfold el_spec in A. fold K in A. destruct (defs_names ds N _ _ _ A B1 B2) as (M1 & M2).
  assert (NE : NoDup (map fst E)) by (rewrite M1; exact ND). assert (NM : NoDup (map fst ms)) by (rewrite M2; exact ND).
  destruct (in_decls _ _ _ I _ A) as (a & Fa & Sa). destruct (in_decls _ _ _ I _ B2) as (m & Fm & Sm). rewrite forallb_forall in N. specialize (N _ I).
  destruct d as [n v|[|u n]|n items|n items|n s cs df|pd]; cbn [root] in R; try discriminate R; injection R as <- <- <-.
  - cbn [el_defn] in Fa. destruct (el_dt K u) as [c|] eqn:Hc; [|discriminate]. injection Fa as <-. cbn [meth_decl] in Fm. fold (root_expr u) in Fm. destruct (gx_dt u (root_expr u)) as [b|] eqn:Hb; [|discriminate]. injection Fm as <-.
    exists c, b. split; [reflexivity|]. split; [apply lookup_nodup; [exact NE|]; apply Sa; left; unfold root_ty; destruct u; reflexivity|]. split; [reflexivity|]. split; [apply lookup_nodup; [exact NM|]; apply Sm; left; reflexivity|]. split; [exact N|reflexivity].
  - change (pbind (el K (typeStruct items)) (fun c => Some [(cap n, c)]) = Some a) in Fa. change (pbind (GoAst.gx (typeStruct items) (EVar "v")) (fun b => Some [(cap n, b)]) = Some m) in Fm.
    destruct (el K (typeStruct items)) as [c|] eqn:Hc; [|discriminate]. injection Fa as <-. destruct (GoAst.gx (typeStruct items) (EVar "v")) as [b|] eqn:Hb; [|discriminate]. injection Fm as <-.
    exists c, b. split; [exact Hc|]. split; [apply lookup_nodup; [exact NE|]; apply Sa; left; reflexivity|]. split; [exact Hb|]. split; [apply lookup_nodup; [exact NM|]; apply Sm; left; reflexivity|]. split; [exact N|reflexivity].
  - change (pbind (el K (typeUnion s cs df)) (fun c => Some [(cap n, c)]) = Some a) in Fa. change (pbind (GoAst.gx (typeUnion s cs df) (EVar "v")) (fun b => Some [(cap n, b)]) = Some m) in Fm.
    destruct (el K (typeUnion s cs df)) as [c|] eqn:Hc; [|discriminate]. injection Fa as <-. destruct (GoAst.gx (typeUnion s cs df) (EVar "v")) as [b|] eqn:Hb; [|discriminate]. injection Fm as <-.
    exists c, b. split; [exact Hc|]. split; [apply lookup_nodup; [exact NE|]; apply Sa; left; reflexivity|]. split; [exact Hb|]. split; [apply lookup_nodup; [exact NM|]; apply Sm; left; reflexivity|]. split; [exact N|reflexivity].
Qed.

Section V.
Variable v0 : val.
Lemma pth_miss i b P q : pth i b P q -> forall qa qb o, q = qa ++ PIdx i :: qb -> path_load v0 qa = Some (VSlice o) -> nth_error (elems o) i = None -> miss v0 i P.
Proof.
  induction 1 as [| |b P q n D IH|b P q D IH|b P q D IH]; intros qa qb o Q L N.
  - destruct qa; discriminate Q.
  - destruct qa as [|a [|a' qa]]; discriminate Q.
  - destruct (list_eq_nil_or_last qb) as [->|(qb' & a & ->)].
    + apply app_inj_tail in Q. destruct Q as (_ & Q). discriminate Q.
    + rewrite app_comm_cons, app_assoc in Q. apply app_inj_tail in Q. destruct Q as (Q & _). apply ms_field. eapply IH; eassumption.
  - destruct (list_eq_nil_or_last qb) as [->|(qb' & a & ->)].
    + apply app_inj_tail in Q. destruct Q as (-> & _). eapply ms_idx; eassumption.
    + rewrite app_comm_cons, app_assoc in Q. apply app_inj_tail in Q. destruct Q as (Q & _). apply ms_elem. eapply IH; eassumption.
  - destruct (list_eq_nil_or_last qb) as [->|(qb' & a & ->)].
    + apply app_inj_tail in Q. destruct Q as (_ & Q). discriminate Q.
    + rewrite app_comm_cons, app_assoc in Q. apply app_inj_tail in Q. destruct Q as (Q & _). apply ms_deref. eapply IH; eassumption.
Qed.
End V.

(** The element the emitted code asks for at iteration [i] of the inner loop is outer[i].inner[i]. *)
Theorem nest_never D d x t p0 v w p t1 sz1 l j ej q t2 sz2 lj i :
  In d ds -> root d = Some (x, t, p0) -> good D E (CIdent x) -> has_ty E (CIdent x) v -> path_load v p0 = Some w ->
  reach_dt K (declTypeVarArray t1 sz1) t w p -> path_load w p = Some (VSlice (Some l)) ->
  nth_error l j = Some ej -> reach K (declTypeVarArray t2 sz2) t1 ej q -> path_load ej q = Some (VSlice (Some lj)) ->
  touches t2 = true -> (i < List.length lj)%nat ->
  ((List.length l <= i)%nat \/ exists ei oi, nth_error l i = Some ei /\ path_load ei q = Some (VSlice oi) /\ (List.length (elems oi) <= i)%nat) ->
  forall m a s' v', call G m x (MakeWriter a) v = GRet (s', v') -> x_err s' <> None.
Proof.
  intros I R (We & Wx & _) T L0 R1 L1 Nj R2 L2 Tc Li Hb m a s' v' H.
  destruct (root_inv _ _ _ _ I R) as (c & body & A & Lx & B & Lm & N & ->). destruct (We _ _ Lx) as (W & _). inversion T as [| | | | | | | | | | | | |y u v1 F Tv]; subst. rewrite Lx in F. injection F as <-.
  unfold call in H. rewrite Lm in H. destruct (block (exec G m) (MakeWriter a) (frame0 v) body) as [[s1 f1]| | |] eqn:Bk; try discriminate H. cbn in H. injection H as <- <-.
  (* the value the pointer points to *)
  assert (Q : exists q0, pth 0 false (root_expr t) q0 /\ noidx q0 /\ path_load v q0 = Some w /\ has_ty E c w /\ wf_ty D E c).
  { unfold root_ty in *. destruct t as [t|t sz|t sz|sz|sz|sz|t]; try (exists []; cbn in L0; injection L0 as <-; split; [constructor|]; split; [intros k []|]; split; [reflexivity|auto]).
    exists [PField "P"]. split; [constructor|]. split; [intros k [X|[]]; discriminate X|]. split; [exact L0|]. inversion Tv as [| | | | | | | | | | |fs l' Tf| |]; subst. inversion W as [| | | | | | | | | |fs Nd Wf| |]; subst.
    destruct (has_fields_lookup E _ _ "P" c Tf Nd (or_introl eq_refl)) as (w' & F' & Tw). cbn in L0. rewrite F' in L0. injection L0 as ->. split; [exact Tw|]. exact (Wf _ _ (or_introl eq_refl)). }
  destruct Q as (q0 & Q0 & X0 & Lw & Tw & Wc).
  revert Bk. apply (bad_block G v m (MakeWriter a) body []); [|reflexivity].
  destruct (way_both fl ds E G Hsup v D 0 (declTypeVarArray t1 sz1)) as (_ & Wy).
  eapply (Wy _ _ _ R1 c false (root_expr t) q0 []); [exact A|exact Tw|exact Wc|exact N|exact B|exact Q0|apply okloc_nil|apply iloc_false|exact Lw|].
  (* the outer array *)
  intros w1 Lw1. assert (w1 = VSlice (Some l)) as -> by congruence. clear Lw1. intros P locs ss c1 A1 T1 W1 N1 B1 Q1 O1 I1.
  change (pbind (xbound K sz1) (fun m => do c <- el K t1 ; Some (CVarArray m c)) = Some c1) in A1. destruct (xbound K sz1) as [m1|]; [|discriminate]. cbn [pbind] in A1. destruct (el K t1) as [ct1|] eqn:E1; [|discriminate]. injection A1 as <-.
  cbn [gx_dt] in B1. destruct (gt t1) as [g1|]; [|discriminate]. cbn [pbind] in B1. destruct (GoAst.gx t1 (elemP P)) as [b1|] eqn:Gb1; [|discriminate]. injection B1 as <-.
  inversion T1 as [| | | | | | | |m' t' o' Ts| | | | |]; subst. inversion W1 as [| | | | | | | |m' t' Mx Wt1 Zt1| | | |]; subst. cbn [nokx_dt] in N1. apply andb_true_iff in N1. destruct N1 as (_ & Nt1).
  assert (Lv : path_load v (q0 ++ p) = Some (VSlice (Some l))) by (rewrite path_load_app2, Lw; exact L1).
  assert (X1 : noidx (q0 ++ p)) by (intros k Ik; apply in_app_or in Ik; destruct Ik as [Ik|Ik]; [exact (X0 k Ik)|exact (proj2 (reach_noidx _ _) _ _ _ R1 k Ik)]).
  assert (Lj : (j < List.length l)%nat) by (apply nth_error_Some; congruence).
  eapply (arr_bad fl ds E G Hsup v P sz1 g1 b1 locs 0 false (q0 ++ p) l j); [eapply gx_em, Gb1|exact Q1|exact O1|exact I1|exact Lv|exact Lj|].
  assert (O2 : okloc (("i", VInt (Z.of_nat j)) :: ("__arraysz", VInt (zlen l)) :: locs)) by (apply okloc_push; [apply okloc_push; [exact O1|]|]; cbn; tauto).
  assert (Q1j : forall k, pth k false P (q0 ++ p)) by (intros k; pose proof (pth_reidx 0 k _ _ _ Q1) as Z; rewrite (reidx_noidx _ _ X1) in Z; exact Z).
  assert (Lej : path_load v ((q0 ++ p) ++ [PIdx j]) = Some ej) by (rewrite path_load_app, Lv; exact Nj).
  assert (Tej : has_ty E ct1 ej) by (cbn in Ts; rewrite has_tys_Forall in Ts; rewrite Forall_forall in Ts; apply Ts; eapply nth_error_In, Nj).
  destruct (way_both fl ds E G Hsup v D j (declTypeVarArray t2 sz2)) as (Wy2 & _).
  eapply (Wy2 _ _ _ R2 ct1 true (elemP P) ((q0 ++ p) ++ [PIdx j])); [exact E1|exact Tej|exact Wt1|exact Nt1|exact Gb1|eapply pt_elem, Q1j|exact O2|apply iloc_top|exact Lej|].
  (* the inner array *)
  intros w2 Lw2. assert (w2 = VSlice (Some lj)) as -> by congruence. clear Lw2. intros P2 locs2 ss2 c2 A2 T2 W2 N2 B2 Q2 O3 I3.
  cbn [gx_dt] in B2. destruct (gt t2) as [g2|]; [|discriminate]. cbn [pbind] in B2. destruct (GoAst.gx t2 (elemP P2)) as [b2|] eqn:Gb2; [|discriminate]. injection B2 as <-.
  cbn [nokx_dt] in N2. apply andb_true_iff in N2. destruct N2 as (_ & Nt2).
  eapply (arr_bad fl ds E G Hsup v P2 sz2 g2 b2 locs2 j true _ lj i); [eapply gx_em, Gb2|exact Q2|exact O3|exact I3|rewrite path_load_app2, Lej; exact L2|exact Li|].
  eapply (touch_miss fl ds E G Hsup v i t2 (elemP P2)); [exact Tc|exact Nt2|exact Gb2| |apply okloc_push; [apply okloc_push; [exact O3|]|]; cbn; tauto|apply iloc_top].
  pose proof (pth_reidx j i _ _ _ Q2) as Q3. unfold reidx in Q3. rewrite !map_app in Q3. cbn [map] in Q3. fold (reidx i q0) in Q3. fold (reidx i p) in Q3. fold (reidx i q) in Q3.
  rewrite (reidx_noidx i q0 X0), (reidx_noidx i p (proj2 (reach_noidx _ _) _ _ _ R1)), (reidx_noidx i q (proj1 (reach_noidx _ _) _ _ _ R2)) in Q3.
  destruct Hb as [Hb|(ei & oi & Ni & Lq & Hb)].
  - eapply (pth_miss v i true (elemP P2)); [eapply pt_elem, Q3| |exact Lv|apply nth_error_None; exact Hb]. rewrite <- app_assoc. rewrite <- app_assoc. reflexivity.
  - eapply (pth_miss v i true (elemP P2)); [eapply pt_elem, Q3|reflexivity| |apply nth_error_None; exact Hb]. rewrite path_load_app2, path_load_app, Lv. cbn [step_load]. rewrite Ni. exact Lq.
Qed.
End S.
