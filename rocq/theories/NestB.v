(** Specifications that satisfy every condition of [supported] (GElab.v) except that a variable
    array may be given inline inside the element of another one.  Names in the emitted Go refer
    to what they refer to in the specification. *)
From Coq Require Import Lia.
From Verif Require Import GoLex XLex Gram GParse Emit Bytes XdrLib Types Interp Meta GoAst GoSem GElab GSimA GSimB.
Open Scope string_scope.
Open Scope Z_scope.
Open Scope list_scope.

Section NamesX.
Variable K : list xconst.
Variable E : env.
(** [nok] (GElab.v) without the condition that no variable array is inside the element of
    another (out.go:72-90 emits one loop variable i for both). *)
Fixpoint nokx (t : typespec) : bool :=
  match t with
  | typeStruct items => (fix go l := match l with [] => true | d :: l => nokx_d d && go l end) items
  | typeUnion sw cases def =>
      match sw with declVoid => false | declName st _ => disc_ok K E st cases && nokx_dt st end &&
      (fix go (l : list (list string * decl)) := match l with [] => true | c :: l => nokx_d (snd c) && go l end) cases &&
      match def with Some d => nokx_d d | None => true end
  | _ => true
  end
with nokx_dt (t : declType) : bool :=
  match t with
  | declTypeTypespec t => nokx t
  | declTypeArray _ _ => false
  | declTypeVarArray t sz => bound_ok K sz && nokx t
  | declTypeOpaqueArray sz => use_ok K sz
  | declTypeOpaqueVarArray sz | declTypeString sz => bound_ok K sz
  | declTypePtr t => nokx t
  end
with nokx_d (d : decl) : bool :=
  match d with declVoid => true | declName t _ => nokx_dt t end.
Definition nokx_defn (d : defn) : bool :=
  match d with
  | defTypedef d => nokx_d d
  | defEnum _ items => forallb (fun it => use_ok K (snd it)) items
  | defStruct _ items => nokx (typeStruct items)
  | defUnion _ s c d => nokx (typeUnion s c d)
  | defConst _ v => use_ok K v
  | defProg _ => true
  end.
End NamesX.

(** ** Inline types inside an inline type *)
Section Reach.
Variable K : list xconst.
(** The arm of a union for discriminant [d] (the switch of out.go:313-333). *)
Fixpoint chosen (d : Z) (cases : list (list string * decl)) (def : option decl) : option decl :=
  match cases with
  | [] => def
  | (ls, dc) :: r => match xlabels K ls with Some ks => if existsb (Z.eqb d) ks then Some dc else chosen d r def | None => None end
  end.
(** In a value of a type, the path [p] along members, chosen arms and optionals that are there
    ends at an inline type [dt] (the pointers of out.go:144-163, 274-283, 303-335). *)
Inductive reach (dt : declType) : typespec -> val -> list step -> Prop :=
| rc_struct items du n l w p :
    In (declName du n) items -> lookup (cap n) l = Some w -> reach_dt dt du w p ->
    reach dt (typeStruct items) (VStruct l) (PField (cap n) :: p)
| rc_union st sn cases def l dv d du n w p :
    lookup (cap sn) l = Some dv -> disc_of dv = Some d -> chosen d cases def = Some (declName du n) ->
    lookup (cap n) l = Some w -> reach_dt dt du w p ->
    reach dt (typeUnion (declName st sn) cases def) (VStruct l) (PField (cap n) :: p)
with reach_dt (dt : declType) : declType -> val -> list step -> Prop :=
| rc_here w : reach_dt dt dt w []
| rc_spec t w p : reach dt t w p -> reach_dt dt (declTypeTypespec t) w p
| rc_ptr t w p : reach dt t w p -> reach_dt dt (declTypePtr t) (VPtr (Some w)) (PDeref :: p).
End Reach.
Scheme reach_mind := Minimality for reach Sort Prop
  with reach_dt_mind := Minimality for reach_dt Sort Prop.
Combined Scheme reach_mutind from reach_mind, reach_dt_mind.

(** As [supported] in GElab.v, with [nokx] for [nok]. *)
Definition supportedx (fl : flags) (ds : list defn) : option (env * gpkg) :=
  do E <- el_spec fl ds ;
  do G <- pkg_of fl ds ;
  if forallb (nokx_defn (xconsts ds) E) ds && nodupb (pkg_names G) && forallb (fun x => negb (mem x reserved)) (pkg_names G)
  then Some (E, G) else None.

Section Names.
Variable fl : flags.
Variable ds : list defn.
Variable E : env.
Variable G : gpkg.
Hypothesis Hsup : supportedx fl ds = Some (E, G).
Let K := xconsts ds.

Lemma sup_inv : el_spec fl ds = Some E /\ pkg_of fl ds = Some G /\ forallb (nokx_defn K E) ds = true /\ NoDup (pkg_names G) /\
  (forall x, In x (pkg_names G) -> ~ In x reserved).
Proof.
  unfold supportedx in Hsup. destruct (el_spec fl ds) as [e|]; [|discriminate]. destruct (pkg_of fl ds) as [g|]; [|discriminate]. cbn [pbind] in Hsup.
  destruct (forallb (nokx_defn (xconsts ds) e) ds && nodupb (pkg_names g) && forallb (fun x => negb (mem x reserved)) (pkg_names g)) eqn:B; [|discriminate].
  injection Hsup as -> ->. apply andb_true_iff in B. destruct B as (B & B3). apply andb_true_iff in B. destruct B as (B1 & B2).
  repeat split; auto using nodupb_NoDup. intros x I R. rewrite forallb_forall in B3. specialize (B3 _ I). apply mem_In in R. rewrite R in B3. discriminate.
Qed.
Lemma g_consts_eq : g_consts G = flat_map (const_decl fl) ds.
Proof.
  destruct sup_inv as (_ & H & _). unfold pkg_of in H. destruct (all_decls (ty_decl fl) ds); [|discriminate]. cbn [pbind] in H.
  destruct (all_decls (meth_decl fl) ds); [|discriminate]. cbn [pbind] in H. injection H as <-. reflexivity.
Qed.

Lemma xconsts_go c : In c K -> exists ty, In (mkC (xc_go c) ty (xc_val c)) (g_consts G).
Proof.
  rewrite g_consts_eq. unfold K, xconsts. intros H. apply in_flat_map in H. destruct H as (d & D & C).
  enough (exists ty, In (mkC (xc_go c) ty (xc_val c)) (const_decl fl d)) as (ty & T) by (exists ty; apply in_flat_map; eauto).
  destruct d; cbn in *; try destruct C as [<-|[]]; try destruct C; eauto.
  apply in_map_iff in C. destruct C as (it & <- & I). cbn. eexists. apply in_map_iff. exists it. eauto.
Qed.
Lemma len_xconsts : (List.length K <= List.length (g_consts G))%nat.
Proof.
  rewrite g_consts_eq. unfold K, xconsts. generalize ds. intros l. induction l as [|d l IH]; cbn; [lia|]. rewrite !app_length.
  enough (List.length (xconsts_of d) <= List.length (const_decl fl d))%nat by lia. destruct d; cbn; rewrite ?map_length; lia.
Qed.
Lemma consts_use c : In c K -> use_ok K (xc_val c) = true.
Proof.
  unfold K at 1, xconsts. intros H. apply in_flat_map in H. destruct H as (d & D & C).
  destruct sup_inv as (_ & _ & N & _). rewrite forallb_forall in N. specialize (N _ D).
  destruct d; cbn in *; try destruct C as [<-|[]]; try destruct C; [exact N|].
  apply in_map_iff in C. destruct C as (it & <- & I). cbn. rewrite forallb_forall in N. apply (N _ I).
Qed.

Lemma const_val_mono n : forall m x k, (n <= m)%nat -> const_val G n x = Some k -> const_val G m x = Some k.
Proof.
  induction n as [|n IH]; intros m x k L H; [discriminate|]. destruct m as [|m]; [lia|]. cbn in *. destruct (find_const x (g_consts G)) as [c|]; [|discriminate].
  destruct (head_is is_digit (c_val c)); [exact H|]. apply IH; [lia|exact H].
Qed.
Lemma named_go s g c : find_x s K = Some c -> named K s g = true -> exists ty, find_const g (g_consts G) = Some (mkC g ty (xc_val c)).
Proof.
  intros F N. unfold named in N. rewrite F in N. apply String.eqb_eq in N. destruct (find_x_in _ _ _ F) as (I & _).
  destruct (xconsts_go _ I) as (ty & T). exists ty. rewrite N in T. destruct sup_inv as (_ & _ & _ & D & _).
  apply nodup_app_r in D. apply (find_const_nodup _ _ D T).
Qed.
Lemma xval_go n : forall s g k, xval_n K n s = Some k -> named K s g = true -> const_val G n g = Some k.
Proof.
  induction n as [|n IH]; intros s g k H N; [discriminate|]. cbn in *. destruct (find_x s K) as [c|] eqn:F; [|discriminate].
  destruct (named_go _ _ _ F N) as (ty & ->). cbn. destruct (head_is is_digit (xc_val c)) eqn:D; [exact H|].
  eapply IH; [exact H|]. destruct (find_x_in _ _ _ F) as (I & _). apply consts_use in I. unfold use_ok in I. rewrite D in I. exact I.
Qed.
Lemma named_res s g : named K s g = true -> ~ In g reserved.
Proof.
  unfold named. destruct (find_x s K) as [c|] eqn:F; [|discriminate]. intros N. apply String.eqb_eq in N. subst g. destruct (find_x_in _ _ _ F) as (I & _).
  destruct (xconsts_go _ I) as (ty & T). destruct sup_inv as (_ & _ & _ & _ & R). apply R. unfold pkg_names. apply in_or_app. right.
  apply (in_map c_name) in T. exact T.
Qed.
Lemma res_const x : In x reserved -> cval G x = None.
Proof.
  intros R. unfold cval. cbn. destruct (find_const x (g_consts G)) as [c|] eqn:F; [|reflexivity]. exfalso. destruct (find_const_in _ _ _ F) as (I & <-).
  destruct sup_inv as (_ & _ & _ & _ & N). apply (N (c_name c)); [|exact R]. unfold pkg_names. apply in_or_app. right. apply in_map, I.
Qed.
Lemma use_val s k : use_ok K s = true -> xval K s = Some k -> size_val G s = Some k.
Proof.
  unfold use_ok, xval, size_val. destruct (head_is is_digit s); [auto|]. cbn [orb]. intros N H. unfold cval.
  eapply const_val_mono; [|eapply xval_go; eassumption]. pose proof len_xconsts. lia.
Qed.

(** An identifier that is a constant of the package. *)
Lemma ev_const n st v locs s g k : okloc locs -> named K s g = true -> xval_n K (S (List.length K)) s = Some k ->
  ev G n st (mkFrame v locs) (EVar g) = GRet (OVal (GV (VInt k))).
Proof.
  intros O N H. pose proof (named_res _ _ N) as R. cbn [ev f_locs].
  rewrite (okloc_find _ g O) by (intros I; apply R; cbn in *; tauto).
  destruct (String.eqb_spec g "v") as [->|_]; [destruct R; cbn; tauto|]. destruct (String.eqb_spec g "xs") as [->|_]; [destruct R; cbn; tauto|].
  unfold cval. erewrite const_val_mono; [reflexivity| |eapply xval_go; eassumption]. pose proof len_xconsts. lia.
Qed.
Lemma ev_use n st v locs s k : okloc locs -> use_ok K s = true -> xval K s = Some k ->
  ev G n st (mkFrame v locs) (val_expr s) = GRet (OVal (GV (VInt k))).
Proof.
  intros O U H. unfold val_expr. unfold use_ok in U. unfold xval in H. destruct (head_is is_digit s).
  - cbn [ev]. rewrite H. reflexivity.
  - eapply ev_const; eassumption.
Qed.
Lemma ev_label_int n st v locs s k : okloc locs -> label_ok K false s = true -> xlabel K s = Some k ->
  ev G n st (mkFrame v locs) (val_expr (cap s)) = GRet (OVal (GV (VInt k))).
Proof.
  intros O L H. unfold label_ok in L. unfold xlabel in H. destruct (String.eqb s "TRUE"); [discriminate|]. destruct (String.eqb s "FALSE"); [discriminate|].
  cbn [orb negb andb] in L. unfold val_expr, xval in *. rewrite cap_digit. destruct (head_is is_digit s) eqn:D.
  - rewrite (digit_cap _ D). cbn [ev]. rewrite H. reflexivity.
  - eapply ev_const; eassumption.
Qed.
Lemma ev_pre n st v locs x g : okloc locs -> In (x, g) [("nil", GP None); ("true", GV (VBool true)); ("false", GV (VBool false))] ->
  ev G n st (mkFrame v locs) (EVar x) = GRet (OVal g).
Proof.
  intros O I. cbn [ev f_locs]. rewrite (okloc_find _ x O) by (intros J; cbn in I, J; intuition congruence).
  assert (In x reserved) as R by (cbn in *; intuition congruence). rewrite (res_const _ R). cbn in I. intuition (match goal with H : (_, _) = _ |- _ => injection H as <- <- end; reflexivity).
Qed.
Lemma ev_label_bool n st v locs s k : okloc locs -> label_ok K true s = true -> xlabel K s = Some k ->
  exists b, ev G n st (mkFrame v locs) (val_expr (cap s)) = GRet (OVal (GV (VBool b))) /\ k = if b then 1 else 0.
Proof.
  intros O L H. unfold label_ok in L. unfold xlabel in H. destruct (String.eqb_spec s "TRUE") as [->|_]; [|destruct (String.eqb_spec s "FALSE") as [->|_]; [|discriminate]].
  - exists true. split; [|congruence]. apply (ev_pre n st v locs "true"); [exact O|]. cbn. tauto.
  - exists false. split; [|congruence]. apply (ev_pre n st v locs "false"); [exact O|]. cbn. tauto.
Qed.

(** ** Named types (emitTypedef, out.go:448-468) *)
Inductive defrel : gty -> list stmt -> cty -> Prop :=
| dr_dt t g body c : gt_dt t = Some g -> el_dt K t = Some c -> gx_dt t (EVar "v") = Some body -> nokx_dt K E t = true -> defrel g body c
| dr_ptr t g body c : gt t = Some g -> el K t = Some c -> gx_dt (declTypePtr t) (EAddr (ESel (EVar "v") "P")) = Some body -> nokx K E t = true ->
    defrel (GStruct [("P", GPtr g)]) body (CStruct [("P", CPtr c)]).


Lemma def_one d a b m : nokx_defn K E d = true -> el_defn fl K d = Some a -> ty_decl fl d = Some b -> meth_decl fl d = Some m ->
  (a = [] /\ b = [] /\ m = []) \/ exists x c g body, a = [(x, c)] /\ b = [(x, g)] /\ m = [(x, body)] /\ defrel g body c.
Proof.
  intros N A B M. destruct d as [n v|[|t n]|n items|n items|n s cs df|p]; cbn [el_defn ty_decl meth_decl] in A, B, M; try (left; repeat split; congruence).
  - destruct (el_dt K t) as [c|] eqn:A1; [|discriminate]. destruct (gt_dt t) as [g|] eqn:B1; [|discriminate]. cbn [pbind] in A, B. injection A as <-. injection B as <-.
    destruct (gx_dt t _) as [body|] eqn:M1; [|discriminate]. injection M as <-. right. do 4 eexists. do 3 (split; [reflexivity|]).
    change (nokx_dt K E t = true) in N. destruct t; try (eapply dr_dt; eassumption).
    change (pbind (el K t) (fun c => Some (CPtr c)) = Some c) in A1. change (pbind (gt t) (fun r => Some (GPtr r)) = Some g) in B1. destruct (el K t) as [c'|] eqn:A2; [|discriminate]. destruct (gt t) as [g'|] eqn:B2; [|discriminate]. cbn [pbind] in *. injection A1 as <-. injection B1 as <-.
    eapply dr_ptr; eassumption.
  - injection A as <-. injection B as <-. injection M as <-. right. do 4 eexists. do 3 (split; [reflexivity|]).
    apply (dr_dt (declTypeTypespec (typeInt (fl_unsigned fl)))); reflexivity.
  - change (pbind (el K (typeStruct items)) (fun c => Some [(cap n, c)]) = Some a) in A. change (pbind (gt (typeStruct items)) (fun g => Some [(cap n, g)]) = Some b) in B.
    change (pbind (gx (typeStruct items) (EVar "v")) (fun b => Some [(cap n, b)]) = Some m) in M.
    destruct (el K (typeStruct items)) as [c|] eqn:A1; [|discriminate]. destruct (gt (typeStruct items)) as [g|] eqn:B1; [|discriminate].
    destruct (gx (typeStruct items) _) as [body|] eqn:M1; [|discriminate]. injection A as <-. injection B as <-. injection M as <-.
    right. do 4 eexists. do 3 (split; [reflexivity|]). apply (dr_dt (declTypeTypespec (typeStruct items))); assumption.
  - change (pbind (el K (typeUnion s cs df)) (fun c => Some [(cap n, c)]) = Some a) in A. change (pbind (gt (typeUnion s cs df)) (fun g => Some [(cap n, g)]) = Some b) in B.
    change (pbind (gx (typeUnion s cs df) (EVar "v")) (fun b => Some [(cap n, b)]) = Some m) in M.
    destruct (el K (typeUnion s cs df)) as [c|] eqn:A1; [|discriminate]. destruct (gt (typeUnion s cs df)) as [g|] eqn:B1; [|discriminate].
    destruct (gx (typeUnion s cs df) _) as [body|] eqn:M1; [|discriminate]. injection A as <-. injection B as <-. injection M as <-.
    right. do 4 eexists. do 3 (split; [reflexivity|]). apply (dr_dt (declTypeTypespec (typeUnion s cs df))); assumption.
Qed.

Lemma defs_rel l : forallb (nokx_defn K E) l = true -> forall a b m, all_decls (el_defn fl K) l = Some a -> all_decls (ty_decl fl) l = Some b -> all_decls (meth_decl fl) l = Some m ->
  forall x, match lookup x a with
            | Some c => exists g body, lookup x b = Some g /\ lookup x m = Some body /\ defrel g body c
            | None => lookup x b = None /\ lookup x m = None
            end.
Proof.
  induction l as [|d l IH]; cbn; intros N a b m A B M x.
  - injection A as <-. injection B as <-. injection M as <-. cbn. auto.
  - apply andb_true_iff in N. destruct N as (N1 & N2).
    destruct (el_defn fl K d) as [a1|] eqn:A1; [|discriminate]. destruct (all_decls (el_defn fl K) l) as [a2|]; [|discriminate]. injection A as <-.
    destruct (ty_decl fl d) as [b1|] eqn:B1; [|discriminate]. destruct (all_decls (ty_decl fl) l) as [b2|]; [|discriminate]. injection B as <-.
    destruct (meth_decl fl d) as [m1|] eqn:M1; [|discriminate]. destruct (all_decls (meth_decl fl) l) as [m2|]; [|discriminate]. injection M as <-.
    specialize (IH N2 _ _ _ eq_refl eq_refl eq_refl x).
    destruct (def_one _ _ _ _ N1 A1 B1 M1) as [(-> & -> & ->)|(y & c & g & body & -> & -> & -> & R)]; [exact IH|].
    cbn. destruct (String.eqb x y); [eauto|exact IH].
Qed.
Lemma type_rel x : match lookup x E with
                   | Some c => exists g body, lookup x (g_types G) = Some g /\ lookup x (g_meths G) = Some body /\ defrel g body c
                   | None => lookup x (g_types G) = None /\ lookup x (g_meths G) = None
                   end.
Proof.
  destruct sup_inv as (A & B & N & _). unfold pkg_of in B. destruct (all_decls (ty_decl fl) ds) as [b|] eqn:B1; [|discriminate].
  cbn [pbind] in B. destruct (all_decls (meth_decl fl) ds) as [m|] eqn:B2; [|discriminate]. cbn [pbind] in B. injection B as <-. cbn [g_types g_meths].
  eapply defs_rel; eassumption.
Qed.

End Names.
