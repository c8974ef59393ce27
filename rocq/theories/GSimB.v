(** Names in the emitted Go refer to what they refer to in a supported specification. *)
From Coq Require Import Lia.
From Verif Require Import GoLex XLex Gram GParse Emit Bytes XdrLib Types Interp Meta GoAst GoSem GElab GSimA.
Open Scope string_scope.
Open Scope Z_scope.
Open Scope list_scope.

Lemma mem_In x l : mem x l = true <-> In x l.
Proof.
  unfold mem. rewrite existsb_exists. split; [intros (y & I & E); apply String.eqb_eq in E; congruence|].
  intros I. exists x. split; [exact I|apply String.eqb_refl].
Qed.
Lemma nodupb_NoDup l : nodupb l = true -> NoDup l.
Proof.
  induction l as [|x l IH]; cbn; intros H; [constructor|]. apply andb_true_iff in H. destruct H as (A & B). constructor; [|auto].
  intros I. apply mem_In in I. rewrite I in A. discriminate.
Qed.
Lemma nodup_app_r {A} (a b : list A) : NoDup (a ++ b) -> NoDup b.
Proof. induction a; cbn; [auto|]. intros H. apply IHa. inversion H; assumption. Qed.
Lemma nodup_app_l {A} (a b : list A) : NoDup (a ++ b) -> NoDup a.
Proof. induction a as [|x a IH]; cbn; [constructor|]. intros H. inversion H; subst. constructor; [|auto]. intros I. apply H2. apply in_or_app. auto. Qed.

Lemma digit_upper c : is_digit (upper c) = is_digit c.
Proof. destruct c as [[] [] [] [] [] [] [] []]; reflexivity. Qed.
Lemma upper_digit c : is_digit c = true -> upper c = c.
Proof. destruct c as [[] [] [] [] [] [] [] []]; vm_compute; congruence. Qed.
Lemma cap_digit s : head_is is_digit (cap s) = head_is is_digit s.
Proof.
  unfold cap. destruct (String.eqb_spec s "TRUE") as [->|_]; [reflexivity|]. destruct (String.eqb_spec s "FALSE") as [->|_]; [reflexivity|].
  destruct s; [reflexivity|]. cbn. apply digit_upper.
Qed.
Lemma digit_cap s : head_is is_digit s = true -> cap s = s.
Proof.
  unfold cap. destruct (String.eqb_spec s "TRUE") as [->|_]; [discriminate|]. destruct (String.eqb_spec s "FALSE") as [->|_]; [discriminate|].
  destruct s; [reflexivity|]. cbn. intros H. rewrite (upper_digit _ H). reflexivity.
Qed.

Lemma find_const_in x l c : find_const x l = Some c -> In c l /\ c_name c = x.
Proof.
  induction l as [|d l IH]; cbn; [discriminate|]. destruct (String.eqb_spec x (c_name d)) as [->|_]; [intros [= <-]; auto|].
  intros H. destruct (IH H). auto.
Qed.
Lemma find_const_nodup c l : NoDup (map c_name l) -> In c l -> find_const (c_name c) l = Some c.
Proof.
  induction l as [|d l IH]; cbn; intros N I; [destruct I|]. inversion N as [|? ? N1 N2]; subst. destruct I as [->|I]; [rewrite String.eqb_refl; reflexivity|].
  destruct (String.eqb_spec (c_name c) (c_name d)) as [X|_]; [|auto]. destruct N1. rewrite <- X. apply in_map, I.
Qed.
Lemma find_x_in x l c : find_x x l = Some c -> In c l /\ xc_name c = x.
Proof.
  induction l as [|d l IH]; cbn; [discriminate|]. destruct (String.eqb_spec x (xc_name d)) as [->|_]; [intros [= <-]; auto|].
  intros H. destruct (IH H). auto.
Qed.

Section Names.
Variable fl : flags.
Variable ds : list defn.
Variable E : env.
Variable G : gpkg.
Hypothesis Hsup : supported fl ds = Some (E, G).
Let K := xconsts ds.

Lemma sup_inv : el_spec fl ds = Some E /\ pkg_of fl ds = Some G /\ forallb (nok_defn K E) ds = true /\ NoDup (pkg_names G) /\
  (forall x, In x (pkg_names G) -> ~ In x reserved).
Proof.
  unfold supported in Hsup. destruct (el_spec fl ds) as [e|]; [|discriminate]. destruct (pkg_of fl ds) as [g|]; [|discriminate]. cbn [pbind] in Hsup.
  destruct (forallb (nok_defn (xconsts ds) e) ds && nodupb (pkg_names g) && forallb (fun x => negb (mem x reserved)) (pkg_names g)) eqn:B; [|discriminate].
  injection Hsup as -> ->. apply andb_true_iff in B. destruct B as (B & B3). apply andb_true_iff in B. destruct B as (B1 & B2).
  repeat split; auto using nodupb_NoDup. intros x I R. rewrite forallb_forall in B3. specialize (B3 _ I). apply mem_In in R. rewrite R in B3. discriminate.
Qed.
Lemma g_consts_eq : g_consts G = flat_map (const_decl fl) ds.
Proof.
  destruct sup_inv as (_ & H & _). unfold pkg_of in H. destruct (all_decls (ty_decl fl) ds); [|discriminate]. cbn [pbind] in H.
  destruct (all_decls (meth_decl fl) ds); [|discriminate]. cbn [pbind] in H. injection H as <-. reflexivity.
Qed.

Lemma xconsts_go c : In c K -> exists ty, In (mkC (xc_go c) ty (xc_val c)) (g_consts G).
Proof.
  rewrite g_consts_eq. unfold K, xconsts. intros H. apply in_flat_map in H. destruct H as (d & D & C).
  enough (exists ty, In (mkC (xc_go c) ty (xc_val c)) (const_decl fl d)) as (ty & T) by (exists ty; apply in_flat_map; eauto).
  destruct d; cbn in *; try destruct C as [<-|[]]; try destruct C; eauto.
  apply in_map_iff in C. destruct C as (it & <- & I). cbn. eexists. apply in_map_iff. exists it. eauto.
Qed.
Lemma len_xconsts : (List.length K <= List.length (g_consts G))%nat.
Proof.
  rewrite g_consts_eq. unfold K, xconsts. generalize ds. intros l. induction l as [|d l IH]; cbn; [lia|]. rewrite !app_length.
  enough (List.length (xconsts_of d) <= List.length (const_decl fl d))%nat by lia. destruct d; cbn; rewrite ?map_length; lia.
Qed.
Lemma consts_use c : In c K -> use_ok K (xc_val c) = true.
Proof.
  unfold K at 1, xconsts. intros H. apply in_flat_map in H. destruct H as (d & D & C).
  destruct sup_inv as (_ & _ & N & _). rewrite forallb_forall in N. specialize (N _ D).
  destruct d; cbn in *; try destruct C as [<-|[]]; try destruct C; [exact N|].
  apply in_map_iff in C. destruct C as (it & <- & I). cbn. rewrite forallb_forall in N. apply (N _ I).
Qed.

Lemma const_val_mono n : forall m x k, (n <= m)%nat -> const_val G n x = Some k -> const_val G m x = Some k.
Proof.
  induction n as [|n IH]; intros m x k L H; [discriminate|]. destruct m as [|m]; [lia|]. cbn in *. destruct (find_const x (g_consts G)) as [c|]; [|discriminate].
  destruct (head_is is_digit (c_val c)); [exact H|]. apply IH; [lia|exact H].
Qed.
Lemma named_go s g c : find_x s K = Some c -> named K s g = true -> exists ty, find_const g (g_consts G) = Some (mkC g ty (xc_val c)).
Proof.
  intros F N. unfold named in N. rewrite F in N. apply String.eqb_eq in N. destruct (find_x_in _ _ _ F) as (I & _).
  destruct (xconsts_go _ I) as (ty & T). exists ty. rewrite N in T. destruct sup_inv as (_ & _ & _ & D & _).
  apply nodup_app_r in D. apply (find_const_nodup _ _ D T).
Qed.
Lemma xval_go n : forall s g k, xval_n K n s = Some k -> named K s g = true -> const_val G n g = Some k.
Proof.
  induction n as [|n IH]; intros s g k H N; [discriminate|]. cbn in *. destruct (find_x s K) as [c|] eqn:F; [|discriminate].
  destruct (named_go _ _ _ F N) as (ty & ->). cbn. destruct (head_is is_digit (xc_val c)) eqn:D; [exact H|].
  eapply IH; [exact H|]. destruct (find_x_in _ _ _ F) as (I & _). apply consts_use in I. unfold use_ok in I. rewrite D in I. exact I.
Qed.
Lemma named_res s g : named K s g = true -> ~ In g reserved.
Proof.
  unfold named. destruct (find_x s K) as [c|] eqn:F; [|discriminate]. intros N. apply String.eqb_eq in N. subst g. destruct (find_x_in _ _ _ F) as (I & _).
  destruct (xconsts_go _ I) as (ty & T). destruct sup_inv as (_ & _ & _ & _ & R). apply R. unfold pkg_names. apply in_or_app. right.
  apply (in_map c_name) in T. exact T.
Qed.
Lemma res_const x : In x reserved -> cval G x = None.
Proof.
  intros R. unfold cval. cbn. destruct (find_const x (g_consts G)) as [c|] eqn:F; [|reflexivity]. exfalso. destruct (find_const_in _ _ _ F) as (I & <-).
  destruct sup_inv as (_ & _ & _ & _ & N). apply (N (c_name c)); [|exact R]. unfold pkg_names. apply in_or_app. right. apply in_map, I.
Qed.
Lemma use_val s k : use_ok K s = true -> xval K s = Some k -> size_val G s = Some k.
Proof.
  unfold use_ok, xval, size_val. destruct (head_is is_digit s); [auto|]. cbn [orb]. intros N H. unfold cval.
  eapply const_val_mono; [|eapply xval_go; eassumption]. pose proof len_xconsts. lia.
Qed.

(** An identifier that is a constant of the package. *)
Lemma ev_const n st v locs s g k : okloc locs -> named K s g = true -> xval_n K (S (List.length K)) s = Some k ->
  ev G n st (mkFrame v locs) (EVar g) = GRet (OVal (GV (VInt k))).
Proof.
  intros O N H. pose proof (named_res _ _ N) as R. cbn [ev f_locs].
  rewrite (okloc_find _ g O) by (intros I; apply R; cbn in *; tauto).
  destruct (String.eqb_spec g "v") as [->|_]; [destruct R; cbn; tauto|]. destruct (String.eqb_spec g "xs") as [->|_]; [destruct R; cbn; tauto|].
  unfold cval. erewrite const_val_mono; [reflexivity| |eapply xval_go; eassumption]. pose proof len_xconsts. lia.
Qed.
Lemma ev_use n st v locs s k : okloc locs -> use_ok K s = true -> xval K s = Some k ->
  ev G n st (mkFrame v locs) (val_expr s) = GRet (OVal (GV (VInt k))).
Proof.
  intros O U H. unfold val_expr. unfold use_ok in U. unfold xval in H. destruct (head_is is_digit s).
  - cbn [ev]. rewrite H. reflexivity.
  - eapply ev_const; eassumption.
Qed.
Lemma ev_label_int n st v locs s k : okloc locs -> label_ok K false s = true -> xlabel K s = Some k ->
  ev G n st (mkFrame v locs) (val_expr (cap s)) = GRet (OVal (GV (VInt k))).
Proof.
  intros O L H. unfold label_ok in L. unfold xlabel in H. destruct (String.eqb s "TRUE"); [discriminate|]. destruct (String.eqb s "FALSE"); [discriminate|].
  cbn [orb negb andb] in L. unfold val_expr, xval in *. rewrite cap_digit. destruct (head_is is_digit s) eqn:D.
  - rewrite (digit_cap _ D). cbn [ev]. rewrite H. reflexivity.
  - eapply ev_const; eassumption.
Qed.
Lemma ev_pre n st v locs x g : okloc locs -> In (x, g) [("nil", GP None); ("true", GV (VBool true)); ("false", GV (VBool false))] ->
  ev G n st (mkFrame v locs) (EVar x) = GRet (OVal g).
Proof.
  intros O I. cbn [ev f_locs]. rewrite (okloc_find _ x O) by (intros J; cbn in I, J; intuition congruence).
  assert (In x reserved) as R by (cbn in *; intuition congruence). rewrite (res_const _ R). cbn in I. intuition (match goal with H : (_, _) = _ |- _ => injection H as <- <- end; reflexivity).
Qed.
Lemma ev_label_bool n st v locs s k : okloc locs -> label_ok K true s = true -> xlabel K s = Some k ->
  exists b, ev G n st (mkFrame v locs) (val_expr (cap s)) = GRet (OVal (GV (VBool b))) /\ k = if b then 1 else 0.
Proof.
  intros O L H. unfold label_ok in L. unfold xlabel in H. destruct (String.eqb_spec s "TRUE") as [->|_]; [|destruct (String.eqb_spec s "FALSE") as [->|_]; [|discriminate]].
  - exists true. split; [|congruence]. apply (ev_pre n st v locs "true"); [exact O|]. cbn. tauto.
  - exists false. split; [|congruence]. apply (ev_pre n st v locs "false"); [exact O|]. cbn. tauto.
Qed.

(** ** Named types *)
Inductive defrel : gty -> list stmt -> cty -> Prop :=
| dr_dt t g body c : gt_dt t = Some g -> el_dt K t = Some c -> gx_dt t (EVar "v") = Some body -> nok_dt K E false t = true -> defrel g body c
| dr_ptr t g body c : gt t = Some g -> el K t = Some c -> gx_dt (declTypePtr t) (EAddr (ESel (EVar "v") "P")) = Some body -> nok K E false t = true ->
    defrel (GStruct [("P", GPtr g)]) body (CStruct [("P", CPtr c)]).

Lemma lookup_app {A} x (a b : list (string * A)) : lookup x (a ++ b) = match lookup x a with Some v => Some v | None => lookup x b end.
Proof. induction a as [|[y v] a IH]; cbn; [reflexivity|]. destruct (String.eqb x y); [reflexivity|exact IH]. Qed.

Lemma def_one d a b m : nok_defn K E d = true -> el_defn fl K d = Some a -> ty_decl fl d = Some b -> meth_decl fl d = Some m ->
  (a = [] /\ b = [] /\ m = []) \/ exists x c g body, a = [(x, c)] /\ b = [(x, g)] /\ m = [(x, body)] /\ defrel g body c.
Proof.
  intros N A B M. destruct d as [n v|[|t n]|n items|n items|n s cs df|p]; cbn [el_defn ty_decl meth_decl] in A, B, M; try (left; repeat split; congruence).
  - destruct (el_dt K t) as [c|] eqn:A1; [|discriminate]. destruct (gt_dt t) as [g|] eqn:B1; [|discriminate]. cbn [pbind] in A, B. injection A as <-. injection B as <-.
    destruct (gx_dt t _) as [body|] eqn:M1; [|discriminate]. injection M as <-. right. do 4 eexists. do 3 (split; [reflexivity|]).
    change (nok_dt K E false t = true) in N. destruct t; try (eapply dr_dt; eassumption).
    change (pbind (el K t) (fun c => Some (CPtr c)) = Some c) in A1. change (pbind (gt t) (fun r => Some (GPtr r)) = Some g) in B1. destruct (el K t) as [c'|] eqn:A2; [|discriminate]. destruct (gt t) as [g'|] eqn:B2; [|discriminate]. cbn [pbind] in *. injection A1 as <-. injection B1 as <-.
    eapply dr_ptr; eassumption.
  - injection A as <-. injection B as <-. injection M as <-. right. do 4 eexists. do 3 (split; [reflexivity|]).
    apply (dr_dt (declTypeTypespec (typeInt (fl_unsigned fl)))); reflexivity.
  - change (pbind (el K (typeStruct items)) (fun c => Some [(cap n, c)]) = Some a) in A. change (pbind (gt (typeStruct items)) (fun g => Some [(cap n, g)]) = Some b) in B.
    change (pbind (gx (typeStruct items) (EVar "v")) (fun b => Some [(cap n, b)]) = Some m) in M.
    destruct (el K (typeStruct items)) as [c|] eqn:A1; [|discriminate]. destruct (gt (typeStruct items)) as [g|] eqn:B1; [|discriminate].
    destruct (gx (typeStruct items) _) as [body|] eqn:M1; [|discriminate]. injection A as <-. injection B as <-. injection M as <-.
    right. do 4 eexists. do 3 (split; [reflexivity|]). apply (dr_dt (declTypeTypespec (typeStruct items))); assumption.
  - change (pbind (el K (typeUnion s cs df)) (fun c => Some [(cap n, c)]) = Some a) in A. change (pbind (gt (typeUnion s cs df)) (fun g => Some [(cap n, g)]) = Some b) in B.
    change (pbind (gx (typeUnion s cs df) (EVar "v")) (fun b => Some [(cap n, b)]) = Some m) in M.
    destruct (el K (typeUnion s cs df)) as [c|] eqn:A1; [|discriminate]. destruct (gt (typeUnion s cs df)) as [g|] eqn:B1; [|discriminate].
    destruct (gx (typeUnion s cs df) _) as [body|] eqn:M1; [|discriminate]. injection A as <-. injection B as <-. injection M as <-.
    right. do 4 eexists. do 3 (split; [reflexivity|]). apply (dr_dt (declTypeTypespec (typeUnion s cs df))); assumption.
Qed.

Lemma defs_rel l : forallb (nok_defn K E) l = true -> forall a b m, all_decls (el_defn fl K) l = Some a -> all_decls (ty_decl fl) l = Some b -> all_decls (meth_decl fl) l = Some m ->
  forall x, match lookup x a with
            | Some c => exists g body, lookup x b = Some g /\ lookup x m = Some body /\ defrel g body c
            | None => lookup x b = None /\ lookup x m = None
            end.
Proof.
  induction l as [|d l IH]; cbn; intros N a b m A B M x.
  - injection A as <-. injection B as <-. injection M as <-. cbn. auto.
  - apply andb_true_iff in N. destruct N as (N1 & N2).
    destruct (el_defn fl K d) as [a1|] eqn:A1; [|discriminate]. destruct (all_decls (el_defn fl K) l) as [a2|]; [|discriminate]. injection A as <-.
    destruct (ty_decl fl d) as [b1|] eqn:B1; [|discriminate]. destruct (all_decls (ty_decl fl) l) as [b2|]; [|discriminate]. injection B as <-.
    destruct (meth_decl fl d) as [m1|] eqn:M1; [|discriminate]. destruct (all_decls (meth_decl fl) l) as [m2|]; [|discriminate]. injection M as <-.
    specialize (IH N2 _ _ _ eq_refl eq_refl eq_refl x).
    destruct (def_one _ _ _ _ N1 A1 B1 M1) as [(-> & -> & ->)|(y & c & g & body & -> & -> & -> & R)]; [exact IH|].
    cbn. destruct (String.eqb x y); [eauto|exact IH].
Qed.
Lemma type_rel x : match lookup x E with
                   | Some c => exists g body, lookup x (g_types G) = Some g /\ lookup x (g_meths G) = Some body /\ defrel g body c
                   | None => lookup x (g_types G) = None /\ lookup x (g_meths G) = None
                   end.
Proof.
  destruct sup_inv as (A & B & N & _). unfold pkg_of in B. destruct (all_decls (ty_decl fl) ds) as [b|] eqn:B1; [|discriminate].
  cbn [pbind] in B. destruct (all_decls (meth_decl fl) ds) as [m|] eqn:B2; [|discriminate]. cbn [pbind] in B. injection B as <-. cbn [g_types g_meths].
  eapply defs_rel; eassumption.
Qed.

(** ** Zero values *)
Fixpoint gt_items (l : list decl) : option (list (string * gty)) :=
  match l with [] => Some [] | d :: l => do a <- gt_field d ; do b <- gt_items l ; Some (a ++ b) end.
Fixpoint el_items (l : list decl) : option (list (string * cty)) :=
  match l with [] => Some [] | d :: l => do a <- el_arm K d ; do b <- el_items l ; Some (opt_list a ++ b) end.
Fixpoint el_arms (l : list (list string * decl)) : option (list (list Z * option (string * cty))) :=
  match l with [] => Some [] | c :: l => do ls <- xlabels K (fst c) ; do a <- el_arm K (snd c) ; do b <- el_arms l ; Some ((ls, a) :: b) end.
Fixpoint gt_cases (l : list (list string * decl)) : option (list (string * gty)) :=
  match l with [] => Some [] | c :: l => do a <- gt_field (snd c) ; do b <- gt_cases l ; Some (a ++ b) end.

Lemma gt_struct items : gt (typeStruct items) = do fs <- gt_items items ; Some (GStruct fs). Proof. reflexivity. Qed.
Lemma el_struct items : el K (typeStruct items) = do fs <- el_items items ; Some (CStruct fs). Proof. reflexivity. Qed.
Lemma gt_union sw cases def : gt (typeUnion sw cases def) =
  do a <- gt_field sw ; do b <- gt_cases cases ; do c <- match def with Some d => gt_field d | None => Some [] end ; Some (GStruct (a ++ b ++ c)).
Proof. reflexivity. Qed.
Lemma el_union st sn cases def : el K (typeUnion (declName st sn) cases def) =
  do st <- el_dt K st ; do arms <- el_arms cases ; do d <- match def with Some d => do a <- el_arm K d ; Some (Some a) | None => Some None end ;
  Some (CUnion (cap sn) st arms d).
Proof. reflexivity. Qed.

Lemma gzero_app Z0 a b : gzero_fields Z0 (a ++ b) = match gzero_fields Z0 a, gzero_fields Z0 b with Some x, Some y => Some (x ++ y) | _, _ => None end.
Proof.
  induction a as [|[f t] a IH]; cbn; [destruct (gzero_fields Z0 b); reflexivity|]. rewrite IH. destruct (Z0 t); [|reflexivity].
  destruct (gzero_fields Z0 a); [|reflexivity]. destruct (gzero_fields Z0 b); reflexivity.
Qed.
Lemma zero_app Z0 a b : zero_fields Z0 (a ++ b) = match zero_fields Z0 a, zero_fields Z0 b with Some x, Some y => Some (x ++ y) | _, _ => None end.
Proof.
  induction a as [|[f t] a IH]; cbn; [destruct (zero_fields Z0 b); reflexivity|]. rewrite IH. destruct (Z0 t); [|reflexivity].
  destruct (zero_fields Z0 a); [|reflexivity]. destruct (zero_fields Z0 b); reflexivity.
Qed.

Section Zero.
Variable n : nat.
Hypothesis IH : forall arr t g c, gt_dt t = Some g -> el_dt K t = Some c -> nok_dt K E arr t = true -> gzero G n g = zero n E c.
Lemma zf_field arr d fs a : gt_field d = Some fs -> el_arm K d = Some a -> nok_d K E arr d = true ->
  gzero_fields (gzero G n) fs = zero_fields (zero n E) (opt_list a).
Proof.
  destruct d as [|t f]; [intros [= <-] [= <-]; reflexivity|]. intros A B N. change (nok_dt K E arr t = true) in N.
  change (pbind (gt_dt t) (fun r => Some [(cap f, r)]) = Some fs) in A. change (pbind (el_dt K t) (fun c => Some (Some (cap f, c))) = Some a) in B. revert A B N. destruct (gt_dt t) as [g|] eqn:A; [|discriminate]. destruct (el_dt K t) as [c|] eqn:B; [|discriminate].
  cbn [pbind]. intros [= <-] [= <-] N. cbn. rewrite (IH _ _ _ _ A B N). reflexivity.
Qed.
Lemma zf_items arr l : forall fs cs, gt_items l = Some fs -> el_items l = Some cs -> nok K E arr (typeStruct l) = true ->
  gzero_fields (gzero G n) fs = zero_fields (zero n E) cs.
Proof.
  induction l as [|d l IHl]; cbn [gt_items el_items]; intros fs cs A B N; [injection A as <-; injection B as <-; reflexivity|].
  destruct (gt_field d) as [f1|] eqn:A1; [|discriminate]. cbn [pbind] in A. destruct (gt_items l) as [f2|]; [|discriminate]. injection A as <-.
  destruct (el_arm K d) as [c1|] eqn:B1; [|discriminate]. cbn [pbind] in B. destruct (el_items l) as [c2|]; [|discriminate]. injection B as <-.
  change (nok_d K E arr d && nok K E arr (typeStruct l) = true) in N. apply andb_true_iff in N. destruct N as (N1 & N2). rewrite gzero_app, zero_app, (zf_field _ _ _ _ A1 B1 N1), (IHl _ _ eq_refl eq_refl N2). reflexivity.
Qed.
Lemma zf_cases arr l : forall fs cs, gt_cases l = Some fs -> el_arms l = Some cs -> forallb (fun c => nok_d K E arr (snd c)) l = true ->
  gzero_fields (gzero G n) fs = zero_fields (zero n E) (arm_fields cs).
Proof.
  induction l as [|d l IHl]; cbn [gt_cases el_arms forallb]; intros fs cs A B N; [injection A as <-; injection B as <-; reflexivity|].
  destruct (gt_field (snd d)) as [f1|] eqn:A1; [|discriminate]. cbn [pbind] in A. destruct (gt_cases l) as [f2|]; [|discriminate]. injection A as <-.
  destruct (xlabels K (fst d)); [|discriminate]. cbn [pbind] in B.
  destruct (el_arm K (snd d)) as [c1|] eqn:B1; [|discriminate]. cbn [pbind] in B. destruct (el_arms l) as [c2|]; [|discriminate]. injection B as <-.
  apply andb_true_iff in N. destruct N as (N1 & N2). change (arm_fields ((l0, c1) :: c2)) with (opt_list c1 ++ arm_fields c2).
  rewrite gzero_app, zero_app, (zf_field _ _ _ _ A1 B1 N1), (IHl _ _ eq_refl eq_refl N2). reflexivity.
Qed.
End Zero.

Lemma nok_union arr st sn cases def : nok K E arr (typeUnion (declName st sn) cases def) =
  disc_ok K E st cases && nok_dt K E arr st && forallb (fun c => nok_d K E arr (snd c)) cases && match def with Some d => nok_d K E arr d | None => true end.
Proof. reflexivity. Qed.

Lemma gt_not_byte t : gt t <> Some (GBasic "byte").
Proof.
  destruct t as [u|u| | | | |its|items|sw cases def|x]; try (cbn; discriminate); try (destruct u; discriminate).
  - rewrite gt_struct. destruct (gt_items items); discriminate.
  - rewrite gt_union. repeat match goal with |- context [pbind ?o _] => destruct o; cbn [pbind]; try discriminate end.
Qed.

Lemma gzero_eq n : forall arr t g c, gt_dt t = Some g -> el_dt K t = Some c -> nok_dt K E arr t = true -> gzero G n g = zero n E c.
Proof.
  induction n as [|n IH]; intros arr t g c A B N; [reflexivity|].
  destruct t as [t|t sz|t sz|sz|sz|sz|t].
  - change (gt t = Some g) in A. change (el K t = Some c) in B. change (nok K E arr t = true) in N.
    destruct t as [u|u| | | | |its|items|sw cases def|x]; try discriminate; try (injection A as <-; injection B as <-); try (destruct u; reflexivity); try reflexivity.
    + rewrite gt_struct in A. rewrite el_struct in B. destruct (gt_items items) as [fs|] eqn:A1; [|discriminate]. destruct (el_items items) as [cs|] eqn:B1; [|discriminate].
      injection A as <-. injection B as <-. cbn. rewrite (zf_items n IH _ _ _ _ A1 B1 N). reflexivity.
    + destruct sw as [|st sn]; [discriminate|]. rewrite gt_union in A. rewrite el_union in B. rewrite nok_union in N.
      apply andb_true_iff in N. destruct N as (N & N4). apply andb_true_iff in N. destruct N as (N & N3). apply andb_true_iff in N. destruct N as (N1 & N2).
      change (gt_field (declName st sn)) with (pbind (gt_dt st) (fun r => Some [(cap sn, r)])) in A. destruct (gt_dt st) as [gs|] eqn:A1; [|discriminate]. destruct (el_dt K st) as [cst|] eqn:B1; [|discriminate]. cbn [pbind] in A, B.
      destruct (gt_cases cases) as [gc|] eqn:A2; [|discriminate]. destruct (el_arms cases) as [ca|] eqn:B2; [|discriminate]. cbn [pbind] in A, B.
      destruct (match def with Some d => gt_field d | None => Some [] end) as [gd|] eqn:A3; [|discriminate]. injection A as <-.
      destruct (match def with Some d => do a <- el_arm K d ; Some (Some a) | None => Some None end) as [cd|] eqn:B3; [|discriminate]. injection B as <-.
      cbn [gzero zero]. unfold union_fields. change ([(cap sn, gs)] ++ gc ++ gd) with ((cap sn, gs) :: gc ++ gd). cbn [gzero_fields zero_fields].
      rewrite (IH _ _ _ _ A1 B1 N2), gzero_app, zero_app, (zf_cases n IH _ _ _ _ A2 B2 N3).
      assert (gzero_fields (gzero G n) gd = zero_fields (zero n E) (def_fields cd)) as ->; [|reflexivity].
      destruct def as [d|]; [|injection A3 as <-; injection B3 as <-; reflexivity]. destruct (el_arm K d) as [o|] eqn:B4; [|discriminate]. injection B3 as <-.
      rewrite (zf_field n IH _ _ _ _ A3 B4 N4). destruct o; reflexivity.
    + cbn. pose proof (type_rel (cap x)) as R. destruct (lookup (cap x) E) as [c|]; [|destruct R as (-> & _); reflexivity].
      destruct R as (g & body & -> & _ & R). destruct R as [t g body c A B _ N'|t g body c]; [eapply IH; eassumption|]. destruct n as [|[|n]]; reflexivity.
  - discriminate.
  - change (pbind (gt t) (fun r => Some (GSlice r)) = Some g) in A. change (pbind (xbound K sz) (fun m => do c <- el K t ; Some (CVarArray m c)) = Some c) in B.
    destruct (gt t) as [e|] eqn:A1; [|discriminate]. injection A as <-. destruct (xbound K sz); [|discriminate]. cbn [pbind] in B. destruct (el K t); [|discriminate]. injection B as <-.
    pose proof (gt_not_byte t) as Q. cbn. destruct e as [b|b|e|e|b e|fs]; try reflexivity. destruct (String.eqb_spec b "byte") as [->|X]; [destruct (Q A1)|].
    clear - X. destruct b as [|a1 b]; [reflexivity|]. repeat (match goal with |- context [match ?a with Ascii.Ascii _ _ _ _ _ _ _ _ => _ end] => destruct a as [[] [] [] [] [] [] [] []]; try reflexivity end;
      match goal with |- context [match ?s with EmptyString => _ | _ => _ end] => destruct s; try reflexivity end). congruence.
  - cbn in A, B, N. injection A as <-. destruct (xval K sz) as [k|] eqn:X; [|discriminate]. cbn in B. destruct ((0 <=? k) && (k <=? MaxUint32)); [|discriminate]. injection B as <-.
    cbn. rewrite (use_val _ _ N X). reflexivity.
  - cbn in A, B. injection A as <-. destruct (xbound K sz); [|discriminate]. injection B as <-. reflexivity.
  - cbn in A, B. injection A as <-. destruct (xbound K sz); [|discriminate]. injection B as <-. reflexivity.
  - change (pbind (gt t) (fun r => Some (GPtr r)) = Some g) in A. change (pbind (el K t) (fun c => Some (CPtr c)) = Some c) in B.
    destruct (gt t); [|discriminate]. injection A as <-. destruct (el K t); [|discriminate]. injection B as <-. reflexivity.
Qed.
End Names.
