(** From the emitted methods to the package. *)
From Coq Require Import Lia Btauto.
From Verif Require Import GoLex XLex Gram GParse Emit GEmitP Bytes XdrLib Types Interp GoAst GoSem GElab GSimB GoRes GoType GoTypeS GoTypeP.
Open Scope string_scope.
Open Scope Z_scope.
Open Scope list_scope.

Ltac sinv H := match type of H with pbind ?a _ = Some _ => let E := fresh "E" in destruct a eqn:E; [cbn [pbind] in H|discriminate H] end.

(** ** Declared types *)
Section Valid.
Variable G : gpkg.
Hypothesis Hres : forall x, In x (pkg_names G) -> ~ In x ("xdr.XdrState" :: reserved).
Lemma valid_struct fs : valid_ty G [] (GStruct fs) = distinct_members (map fst fs) && forallb (fun f => valid_ty G [] (snd f)) fs.
Proof. cbn [valid_ty]. unfold distinct_members. f_equal. induction fs as [|[f t] fs IH]; [reflexivity|]. cbn [forallb snd]. rewrite IH. reflexivity. Qed.
Lemma valid_app a b : forallb (fun f => valid_ty G [] (snd f)) (a ++ b : list (string * gty)) = forallb (fun f => valid_ty G [] (snd f)) a && forallb (fun f => valid_ty G [] (snd f)) b.
Proof. apply forallb_app. Qed.
Definition gt_its : list decl -> option (list (string * gty)) := fix go l := match l with [] => Some [] | d :: l => do a <- gt_field d ; do b <- go l ; Some (a ++ b) end.
Lemma gt_vok :
  (forall t g, gt t = Some g -> valid_ty G [] g = vok G t) /\
  (forall t g, gt_dt t = Some g -> valid_ty G [] g = vok_dt G t) /\
  (forall d fs, gt_field d = Some fs -> map fst fs = member d /\ forallb (fun f => valid_ty G [] (snd f)) fs = vok_d G d).
Proof.
  apply ast_ind; try (intros; discriminate).
  - intros [] g [= <-]; cbn [vok]; apply valid_basic; auto.
  - intros [] g [= <-]; cbn [vok]; apply valid_basic; auto.
  - intros g [= <-]; cbn [vok]; apply valid_basic; auto.
  - intros g [= <-]; cbn [vok]; apply valid_basic; auto.
  - intros g [= <-]; cbn [vok]; apply valid_basic; auto.
  - intros l g [= <-]; cbn [vok]; apply valid_basic; auto.
  - intros l Hl g H. change (pbind (gt_its l) (fun fs => Some (GStruct fs)) = Some g) in H. destruct (gt_its l) as [fs|] eqn:E; [|discriminate]. injection H as <-. rewrite valid_struct. cbn [vok].
    assert (map fst fs = flat_map member l /\ forallb (fun f => valid_ty G [] (snd f)) fs = (fix go l := match l with [] => true | d :: l => vok_d G d && go l end) l) as (-> & ->); [|reflexivity].
    revert fs E. induction Hl as [|d l Hd _ IH]; intros fs E; cbn [gt_its] in E; [injection E as <-; auto|]. fold gt_its in E. sinv E. sinv E. injection E as <-.
    destruct (Hd _ eq_refl) as (A & B). destruct (IH _ eq_refl) as (C & D). rewrite map_app, A, C, valid_app, B, D. auto.
  - intros sw c d Hs Hc Hd g H.
    change (gt (typeUnion sw c d)) with (do a <- gt_field sw ; do b <- gt_cs c ; do e <- match d with Some d => gt_field d | None => Some [] end ; Some (GStruct (a ++ b ++ e))) in H.
    sinv H. sinv H. sinv H. injection H as <-. rewrite valid_struct.
    change (vok G (typeUnion sw c d)) with (distinct_members (member sw ++ flat_map (fun c => member (snd c)) c ++ match d with Some d => member d | None => [] end) &&
      vok_d G sw && (fix go (l : list (list string * decl)) := match l with [] => true | c :: l => vok_d G (snd c) && go l end) c && match d with Some d => vok_d G d | None => true end).
    rewrite !map_app, !valid_app. destruct (Hs _ eq_refl) as (-> & ->).
    assert (map fst l0 = flat_map (fun c => member (snd c)) c /\ forallb (fun f => valid_ty G [] (snd f)) l0 = (fix go (l : list (list string * decl)) := match l with [] => true | c :: l => vok_d G (snd c) && go l end) c) as (-> & ->).
    { revert l0 E0. clear - Hc. induction Hc as [|x c Hx _ IH]; intros l0 E; cbn [gt_cs] in E; [injection E as <-; auto|]. fold gt_cs in E. sinv E. sinv E. injection E as <-.
      destruct (Hx _ eq_refl) as (A & B). destruct (IH _ eq_refl) as (C & D). rewrite map_app, A, C, valid_app, B, D. auto. }
    assert (map fst l1 = match d with Some d => member d | None => [] end /\ forallb (fun f => valid_ty G [] (snd f)) l1 = match d with Some d => vok_d G d | None => true end) as (-> & ->).
    { destruct d as [d|]; [apply (Hd d eq_refl), E1|]. injection E1 as <-. auto. }
    btauto.
  - intros m g [= <-]. cbn [valid_ty vok map mem existsb negb]. destruct (lookup (cap m) (g_types G)) as [g|] eqn:E.
    + apply lookup_some_dom, mem_In in E. rewrite E. reflexivity.
    + symmetry. apply lookup_dom in E. apply mem_false. exact E.
  - intros t IH g H. exact (IH g H).
  - intros t sz IH g H. cbn [gt_dt] in H. sinv H. injection H as <-. cbn [valid_ty vok_dt map mem existsb negb]. rewrite orb_true_r, andb_true_r, (IH _ eq_refl). reflexivity.
  - intros t sz IH g H. cbn [gt_dt] in H. sinv H. injection H as <-. cbn [valid_ty vok_dt]. apply IH. reflexivity.
  - intros sz g [= <-]. assert (valid_ty G [] gByte = true) as Vb by (apply valid_basic; auto). remember gByte as gb. cbn [valid_ty vok_dt map mem existsb negb]. rewrite Vb, orb_true_r, !andb_true_r. reflexivity.
  - intros sz g [= <-]. cbn [vok_dt]. apply (valid_basic G Hres "byte"). reflexivity.
  - intros sz g [= <-]. cbn [vok_dt]. apply (valid_basic G Hres "string"). reflexivity.
  - intros t IH g H. cbn [gt_dt] in H. sinv H. injection H as <-. cbn [valid_ty vok_dt]. apply IH. reflexivity.
  - intros fs [= <-]. auto.
  - intros t m IH fs H. cbn [gt_field] in H. sinv H. injection H as <-. cbn [map fst forallb snd member vok_d]. rewrite (IH _ eq_refl), andb_true_r. auto.
Qed.
Lemma def_vok fl d b : ty_decl fl d = Some b -> forallb (fun p => valid_ty G [] (snd p)) b = spec_type G d.
Proof.
  destruct d as [m v|[|t m]|m items|m items|m s c d|p]; cbn [ty_decl spec_type]; intros H; try (injection H as <-; reflexivity).
  - destruct (gt_dt t) as [g|] eqn:E; [|discriminate]. cbn [pbind] in H. injection H as <-. cbn [forallb snd]. rewrite andb_true_r. rewrite <- (proj1 (proj2 gt_vok) _ _ E).
    destruct t; try reflexivity. rewrite valid_struct. cbn [map fst forallb snd]. apply andb_true_r.
  - injection H as <-. cbn [forallb snd]. rewrite andb_true_r. destruct (fl_unsigned fl); apply valid_basic; auto.
  - destruct (gt (typeStruct items)) as [g|] eqn:E; [|discriminate]. cbn [pbind] in H. injection H as <-. cbn [forallb snd]. rewrite andb_true_r. apply (proj1 gt_vok _ _ E).
  - destruct (gt (typeUnion s c d)) as [g|] eqn:E; [|discriminate]. cbn [pbind] in H. injection H as <-. cbn [forallb snd]. rewrite andb_true_r. apply (proj1 gt_vok _ _ E).
Qed.
End Valid.

Lemma all_decls_forall {A} (f : defn -> option (list A)) (q : A -> bool) (r : defn -> bool) ds : (forall d b, In d ds -> f d = Some b -> forallb q b = r d) ->
  forall l, all_decls f ds = Some l -> forallb q l = forallb r ds.
Proof.
  induction ds as [|d ds IH]; intros H l E; cbn [all_decls] in E; [injection E as <-; reflexivity|]. sinv E. sinv E. injection E as <-.
  rewrite forallb_app. cbn [forallb]. rewrite (H d _ (or_introl eq_refl) E0). f_equal. apply IH; [intros x b I; apply H; right; exact I|reflexivity].
Qed.
Lemma all_decls_in {A} (f : defn -> option (list A)) ds : forall l d b x, all_decls f ds = Some l -> In d ds -> f d = Some b -> In x b -> In x l.
Proof.
  induction ds as [|e ds IH]; intros l d b x E I F X; cbn [all_decls] in E; [destruct I|]. sinv E. sinv E. injection E as <-. apply in_or_app.
  destruct I as [->|I]; [left; congruence|right; eapply IH; eauto].
Qed.
Lemma all_decls_inv {A} (f : defn -> option (list A)) ds : forall l x, all_decls f ds = Some l -> In x l -> exists d b, In d ds /\ f d = Some b /\ In x b.
Proof.
  induction ds as [|e ds IH]; intros l x E X; cbn [all_decls] in E; [injection E as <-; destruct X|]. sinv E. sinv E. injection E as <-. apply in_app_or in X.
  destruct X as [X|X]; [exists e, l0; cbn; auto|]. destruct (IH _ _ eq_refl X) as (d & b & I & F & J). exists d, b. cbn. auto.
Qed.
Lemma lookup_nodup {A} (l : list (string * A)) x v : NoDup (map fst l) -> In (x, v) l -> lookup x l = Some v.
Proof.
  induction l as [|[y w] l IH]; cbn [map fst]; intros N I; [destruct I|]. inversion N as [|? ? N1 N2]; subst. cbn [lookup]. destruct I as [[= -> ->]|I]; [rewrite String.eqb_refl; reflexivity|].
  destruct (String.eqb_spec x y) as [->|_]; [|auto]. destruct N1. apply (in_map fst) in I. exact I.
Qed.
Lemma nodupb_iff l : nodupb l = true <-> NoDup l.
Proof.
  split; [apply nodupb_NoDup|]. induction 1 as [|x l N _ IH]; [reflexivity|]. cbn [nodupb]. apply mem_false in N. rewrite N, IH. reflexivity.
Qed.

Section Pkg.
Variable fl : flags.
Variable ds : list defn.
Variable G : gpkg.
Variable n : nat.
Hypothesis Hpkg : pkg_of fl ds = Some G.
Hypothesis Hclean : clean G ds = true.

Lemma pkg_inv : all_decls (ty_decl fl) ds = Some (g_types G) /\ all_decls (meth_decl fl) ds = Some (g_meths G) /\ g_consts G = flat_map (const_decl fl) ds.
Proof. unfold pkg_of in Hpkg. sinv Hpkg. sinv Hpkg. injection Hpkg as <-. auto. Qed.
Lemma clean_inv : (forall d, In d ds -> cln_defn d = true) /\ forall x, In x (pkg_names G) -> ~ In x ("xdr.XdrState" :: reserved).
Proof.
  unfold clean in Hclean. apply andb_true_iff in Hclean. destruct Hclean as (A & B). rewrite forallb_forall in A, B. split; [exact A|].
  intros x I J. specialize (B _ I). apply mem_In in J. rewrite J in B. discriminate.
Qed.
Lemma Hres x : In x (pkg_names G) -> ~ In x ("xdr.XdrState" :: reserved).
Proof. apply clean_inv. Qed.
Lemma names_eq : map fst (g_meths G) = map fst (g_types G).
Proof.
  destruct pkg_inv as (A & B & _). revert A B. generalize (g_types G) (g_meths G). clear. induction ds as [|d l IH]; intros ts ms A B; cbn [all_decls] in A, B; [injection A as <-; injection B as <-; reflexivity|].
  sinv A. sinv A. injection A as <-. sinv B. sinv B. injection B as <-. pose proof (IH _ _ eq_refl eq_refl) as Q. rewrite !map_app. unfold tydecl, method in *. rewrite Q. f_equal. clear Q.
  destruct d as [m v|[|t m]|m items|m items|m s c d|p]; cbn [ty_decl meth_decl] in E, E1; repeat first [sinv E|sinv E1]; injection E as <-; injection E1 as <-; reflexivity.
Qed.
Lemma const_named c t : In c (g_consts G) -> c_ty c = Some t -> has_name t = true.
Proof.
  destruct pkg_inv as (_ & _ & ->). intros I H. apply in_flat_map in I. destruct I as (d & _ & I).
  destruct d as [m v|[|t' m]|m items|m items|m s cs d|p]; cbn [const_decl] in I; try (destruct I; fail).
  - destruct I as [<-|[]]. cbn in H. destruct (String.eqb (fl_const fl) ""); [discriminate|]. injection H as <-. reflexivity.
  - apply in_map_iff in I. destruct I as (it & <- & _). injection H as <-. reflexivity.
  - destruct I as [<-|I]; [injection H as <-; reflexivity|]. apply in_flat_map in I. destruct I as (v & _ & [<-|I]); [injection H as <-; reflexivity|].
    apply in_map_iff in I. destruct I as (it & <- & _). injection H as <-. reflexivity.
Qed.
Lemma gt_noptr t g e : gt t = Some g -> g <> GPtr e.
Proof. intros H. destruct (gt_shape _ _ H) as [(b & ->)|[(x & ->)|(fs & ->)]]; discriminate. Qed.
Lemma decl_noptr x g e : lookup x (g_types G) = Some g -> g <> GPtr e.
Proof.
  intros H. apply lookup_in in H. destruct pkg_inv as (A & _). destruct (all_decls_inv _ _ _ _ A H) as (d & b & _ & F & I).
  destruct d as [m v|[|t m]|m items|m items|m s cs d|p]; cbn [ty_decl] in F; try (injection F as <-; destruct I; fail).
  - sinv F. injection F as <-. destruct I as [I|[]]. injection I as <- <-. destruct t; cbn [gt_dt] in E; try discriminate; try (eapply gt_noptr; exact E); try sinv E; injection E as <-; discriminate.
  - injection F as <-. destruct I as [I|[]]. injection I as <- <-. destruct (fl_unsigned fl); discriminate.
  - sinv F. injection F as <-. destruct I as [I|[]]. injection I as <- <-. eapply gt_noptr; exact E.
  - sinv F. injection F as <-. destruct I as [I|[]]. injection I as <- <-. eapply gt_noptr; exact E.
Qed.

Section Typed.
Hypothesis Hnd : NoDup (pkg_names G).
Hypothesis Hty : forallb (tc_type G n) (g_types G) = true.
Lemma types_sized x : In x (map fst (g_types G)) -> sized G n (GNamed x) = true.
Proof. intros I. apply in_map_iff in I. destruct I as ([y g] & <- & I). rewrite forallb_forall in Hty. specialize (Hty _ I). apply andb_true_iff in Hty. apply Hty. Qed.
Lemma types_valid x g : lookup x (g_types G) = Some g -> valid_ty G [] g = true.
Proof. intros I. apply lookup_in in I. rewrite forallb_forall in Hty. specialize (Hty _ I). apply andb_true_iff in Hty. apply Hty. Qed.
Definition start (x : string) : locals := [("v", GPtr (GNamed x)); ("xs", gState)].
Definition tc_code (m : method) : bool := tc_block G n (tc_s G n) (start (fst m)) ["v"; "xs"] (snd m).
Lemma start_ok x : okL x (start x).
Proof. constructor; try reflexivity; [|discriminate]. intros y [<-|[<-|[]]]; cbn; auto. Qed.
Lemma code_flat x body : forallb flat body = true -> tc_code (x, body) = forallb (tc_s G n (start x)) body.
Proof. intros F. unfold tc_code. cbn [fst snd]. apply block_flat, F. Qed.
Lemma def_code d m : In d ds -> meth_decl fl d = Some m -> forallb tc_code m = spec_code G n d.
Proof.
  intros I M. pose proof (proj1 clean_inv _ I) as C. destruct pkg_inv as (A & _ & _). pose proof (nodup_app_l _ _ Hnd) as Nt.
  assert (Look : forall x g b, ty_decl fl d = Some b -> In (x, g) b -> lookup x (g_types G) = Some g).
  { intros x g b B J. apply lookup_nodup; [exact Nt|]. eapply all_decls_in; eassumption. }
  assert (Code : forall t x g body, gt_dt t = Some g -> lookup x (g_types G) = Some g -> gx_dt t (EVar "v") = Some body -> cln_dt t = true -> forallb tc_code [(x, body)] = uok_dt G n t).
  { intros t x g body T L X K. cbn [forallb]. rewrite andb_true_r, (code_flat _ _ (proj1 (proj2 gx_flat) _ _ _ X)).
    apply (proj1 (proj2 (good_code G n Hres types_sized names_eq const_named decl_noptr x)) t false (EVar "v") (GNamed x) g body (start x) T X (types_valid _ _ L)); auto using start_ok, good_v. right. eauto. }
  destruct d as [nm v|[|t nm]|nm items|nm items|nm s cs d|p]; cbn [meth_decl] in M; try (injection M as <-; reflexivity); cbn [cln_defn cln_d] in C; cbn [spec_code].
  - destruct (gt_dt t) as [g|] eqn:T.
    2: { exfalso. cbn [all_decls] in A. clear - A I T. revert A. generalize (g_types G). induction ds as [|e l IH]; intros ts A; [destruct I|]. cbn [all_decls] in A. destruct I as [->|I].
         - cbn [ty_decl] in A. rewrite T in A. discriminate.
         - sinv A. sinv A. eapply IH; [exact I|reflexivity]. }
    assert (Lk : lookup (cap nm) (g_types G) = Some (match t with declTypePtr _ => GStruct [("P", g)] | _ => g end)).
    { eapply Look; [cbn [ty_decl]; rewrite T; reflexivity|left; reflexivity]. }
    destruct (match t with declTypePtr _ => true | _ => false end) eqn:Ep.
    + destruct t; try discriminate. sinv M. injection M as <-. cbn [gt_dt] in T. sinv T. injection T as <-. cbn [forallb]. rewrite andb_true_r, (code_flat _ _ (proj1 (proj2 gx_flat) _ _ _ E)).
      pose proof (types_valid _ _ Lk) as V. pose proof (valid_fields G [] _ V "P" (GPtr g0) (or_introl eq_refl)) as V2.
      destruct (under_decl G n types_sized _ _ Lk) as (u & U1 & U2). rewrite (under_struct G n types_sized) in U2. injection U2 as <-.
      apply (proj1 (proj2 (good_code G n Hres types_sized names_eq const_named decl_noptr (cap nm))) (declTypePtr t) false (EAddr (ESel (EVar "v") "P")) (GPtr g0) (GPtr g0) l (start (cap nm))); auto using start_ok; try discriminate.
      * cbn [gt_dt]. rewrite E0. reflexivity.
      * left. reflexivity.
      * intros L O _. exists (KVal (GPtr (GPtr g0))). split; [|right; reflexivity]. cbn [tc]. unfold tc_ident. rewrite (okL_v _ _ O). cbn [pbind]. unfold tc_field. change (String.eqb "P" "_") with false. cbv iota.
        cbn [ktype]. rewrite (under_ptr G n types_sized), U1. reflexivity.
    + sinv M. injection M as <-. eapply Code; [exact T| | |exact C].
      * rewrite Lk. destruct t; try reflexivity; discriminate.
      * rewrite <- E. destruct t; try reflexivity; discriminate.
  - sinv M. injection M as <-. change true with (uok_dt G n (declTypeTypespec (typeInt (fl_unsigned fl)))).
    apply (Code (declTypeTypespec (typeInt (fl_unsigned fl))) (cap nm) (if fl_unsigned fl then gU32 else gS32) l); try reflexivity; [|exact E].
    eapply Look; [reflexivity|left; reflexivity].
  - sinv M. injection M as <-. destruct (gt (typeStruct items)) as [g|] eqn:T.
    2: { exfalso. clear - A I T. revert A. generalize (g_types G). induction ds as [|e l IH]; intros ts A; [destruct I|]. cbn [all_decls] in A. destruct I as [->|I].
         - cbn [ty_decl] in A. rewrite T in A. discriminate.
         - sinv A. sinv A. eapply IH; [exact I|reflexivity]. }
    apply (Code (declTypeTypespec (typeStruct items)) (cap nm) g l T); [|exact E|exact C]. eapply Look; [cbn [ty_decl]; rewrite T; reflexivity|left; reflexivity].
  - sinv M. injection M as <-. destruct (gt (typeUnion s cs d)) as [g|] eqn:T.
    2: { exfalso. clear - A I T. revert A. generalize (g_types G). induction ds as [|e l IH]; intros ts A; [destruct I|]. cbn [all_decls] in A. destruct I as [->|I].
         - cbn [ty_decl] in A. rewrite T in A. discriminate.
         - sinv A. sinv A. eapply IH; [exact I|reflexivity]. }
    apply (Code (declTypeTypespec (typeUnion s cs d)) (cap nm) g l T); [|exact E|exact C]. eapply Look; [cbn [ty_decl]; rewrite T; reflexivity|left; reflexivity].
Qed.
Lemma meths_code : forallb (tc_method G n) (g_meths G) = forallb (fun x => negb (mem "Xdr" (fields_of G n x))) (map fst (g_types G)) && forallb (spec_code G n) ds.
Proof.
  destruct pkg_inv as (_ & B & _). rewrite <- (all_decls_forall (meth_decl fl) tc_code _ ds def_code _ B), <- names_eq.
  assert (forall m, In m (g_meths G) -> match under G n (GNamed (fst m)) with Some (GPtr _) | None => false | _ => true end = true) as U.
  { intros m I. apply (in_map fst) in I. rewrite names_eq in I. destruct (sized_under G n _ (types_sized _ I)) as (u & Eu). unfold under. rewrite Eu.
    destruct u; try reflexivity. destruct (named_noptr G n decl_noptr (fst m) u Eu). }
  revert U. generalize (g_meths G). intros l. induction l as [|m l IH]; intros U; [reflexivity|]. cbn [map forallb]. rewrite (IH (fun x i => U x (or_intror i))).
  unfold tc_method, tc_code, start. rewrite (U m (or_introl eq_refl)). btauto.
Qed.
End Typed.

Lemma tc_types l : forallb (tc_type G n) l = forallb (fun p => valid_ty G [] (snd p)) l && forallb (fun x => sized G n (GNamed x)) (map fst l).
Proof. induction l as [|t l IH]; [reflexivity|]. cbn [map forallb]. rewrite IH. unfold tc_type. btauto. Qed.
Theorem check_spec : check G n = spec_ok G n ds.
Proof.
  unfold check, spec_ok. destruct (nodupb (pkg_names G)) eqn:D; [|reflexivity]. pose proof (proj1 (nodupb_iff _) D) as Hnd.
  assert (forallb (fun x => negb (mem x ["xdr"; "init"; "_"])) (pkg_names G) = true) as ->.
  { apply forallb_forall. intros x I. apply negb_true_iff, mem_false. intros J. apply (Hres _ I). cbn in *. intuition. }
  assert (nodupb (map fst (g_meths G)) = true) as -> by (rewrite names_eq; apply nodupb_iff; eapply nodup_app_l; exact Hnd).
  cbn [andb]. assert (forallb (tc_type G n) (g_types G) = forallb (spec_type G) ds && forallb (fun x => sized G n (GNamed x)) (map fst (g_types G))) as T.
  { destruct pkg_inv as (A & _). rewrite <- (all_decls_forall (ty_decl fl) (fun p => valid_ty G [] (snd p)) (spec_type G) ds (fun d b _ => def_vok G Hres fl d b) _ A).
    apply tc_types. }
  destruct (forallb (tc_type G n) (g_types G)) eqn:Y.
  - symmetry in T. apply andb_true_iff in T. destruct T as (T1 & T2). rewrite T1, T2, (meths_code Hnd Y). btauto.
  - rewrite <- !andb_assoc. rewrite (andb_assoc (forallb (spec_type G) ds)), <- T. btauto.
Qed.
End Pkg.
