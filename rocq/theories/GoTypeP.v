(** The Go emitted for a specification is well typed exactly when the specification satisfies
    [spec_ok]. *)
From Coq Require Import Lia Btauto.
From Verif Require Import GoLex XLex Gram GParse Emit GEmitP Bytes XdrLib Types Interp GoAst GoSem GElab GSimB GoRes GoType GoTypeS.
Open Scope string_scope.
Open Scope Z_scope.
Open Scope list_scope.

Lemma lookup_in {A} x (l : list (string * A)) v : lookup x l = Some v -> In (x, v) l.
Proof. induction l as [|[y w] l IH]; cbn; [discriminate|]. destruct (String.eqb_spec x y) as [->|_]; [intros [= ->]; auto|auto]. Qed.
Lemma lookup_dom {A} x (l : list (string * A)) : lookup x l = None <-> ~ In x (map fst l).
Proof.
  induction l as [|[y w] l IH]; cbn; [tauto|]. destruct (String.eqb_spec x y) as [->|Hn]; [split; [discriminate|intros H; destruct H; auto]|].
  rewrite IH. split; [intros H [E|I]; [congruence|auto]|tauto].
Qed.
Lemma lookup_some_dom {A} x (l : list (string * A)) v : lookup x l = Some v -> In x (map fst l).
Proof. intros H. apply lookup_in in H. apply (in_map fst) in H. exact H. Qed.
Lemma bool_eq_true (a b : bool) : (a = true <-> b = true) -> a = b.
Proof. destruct a, b; intuition congruence. Qed.
Lemma mem_false x l : mem x l = false <-> ~ In x l.
Proof. rewrite <- mem_In. destruct (mem x l); intuition congruence. Qed.

Section P.
Variable G : gpkg.
Variable n : nat.
Hypothesis Hres : forall x, In x (pkg_names G) -> ~ In x ("xdr.XdrState" :: reserved).
Hypothesis Hsz : forall x, In x (map fst (g_types G)) -> sized G n (GNamed x) = true.
Hypothesis Hval : forall x g, lookup x (g_types G) = Some g -> valid_ty G [] g = true.
Hypothesis Hm : map fst (g_meths G) = map fst (g_types G).
Hypothesis Hct : forall c t, In c (g_consts G) -> c_ty c = Some t -> has_name t = true.
Hypothesis Hptr : forall x g e, lookup x (g_types G) = Some g -> g <> GPtr e.

Notation under := (under G n).
Notation same_ty := (same_ty G).
Notation tc := (tc G n).
Notation tc_s := (tc_s G n).

(** ** Types *)
Lemma gty_ind' (P : gty -> Prop) : (forall b, P (GBasic b)) -> (forall x, P (GNamed x)) -> (forall t, P t -> P (GPtr t)) -> (forall t, P t -> P (GSlice t)) ->
  (forall s t, P t -> P (GArr s t)) -> (forall fs, Forall (fun f => P (snd f)) fs -> P (GStruct fs)) -> forall t, P t.
Proof.
  intros A B C D E F. fix go 1. intros [b|x|t|t|s t|fs]; [apply A|apply B|apply C, go|apply D, go|apply E, go|]. apply F. induction fs as [|[f t] fs IH]; [constructor|constructor; [apply go|exact IH]].
Qed.
Lemma same_refl t : same_ty t t = true.
Proof.
  induction t as [b|x|t IH|t IH|s t IH|fs IH] using gty_ind'; cbn; auto using String.eqb_refl.
  - unfold same_size. rewrite String.eqb_refl. exact IH.
  - induction IH as [|[f t] fs H _ IH]; [reflexivity|]. cbn in H. rewrite String.eqb_refl, H. exact IH.
Qed.
Lemma under_mono m : forall k t u, under_n G m t = Some u -> (m <= k)%nat -> under_n G k t = Some u.
Proof.
  induction m as [|m IH]; intros k t u H L; destruct t; try (destruct k; exact H); [discriminate|]. destruct k as [|k]; [lia|]. cbn in *.
  destruct (lookup x (g_types G)); [|discriminate]. apply IH; [exact H|lia].
Qed.
Lemma sized_under m : forall t, sized G m t = true -> exists u, under_n G m t = Some u.
Proof.
  induction m as [|m IH]; intros t H; destruct t; try (eexists; reflexivity); [discriminate|]. cbn in *. destruct (lookup x (g_types G)); [|discriminate]. apply IH, H.
Qed.
Lemma under_decl x g : lookup x (g_types G) = Some g -> exists u, under (GNamed x) = Some u /\ under g = Some u.
Proof.
  intros H. destruct (sized_under n (GNamed x) (Hsz _ (lookup_some_dom _ _ _ H))) as (u & U). exists u. split; [exact U|].
  unfold GoType.under in *. destruct n as [|k]; [discriminate|]. cbn in U. rewrite H in U. apply (under_mono k); [exact U|lia].
Qed.
Lemma valid_under L t : valid_ty G L t = true -> exists u, under t = Some u.
Proof.
  destruct t; intros H; try (unfold GoType.under; destruct n; eexists; reflexivity). cbn in H. destruct (lookup x (g_types G)) as [g|] eqn:E; [|discriminate].
  destruct (under_decl _ _ E) as (u & U & _). eauto.
Qed.
Lemma under_basic b : under (GBasic b) = Some (GBasic b). Proof. unfold GoType.under. destruct n; reflexivity. Qed.
Lemma under_ptr t : under (GPtr t) = Some (GPtr t). Proof. unfold GoType.under. destruct n; reflexivity. Qed.
Lemma under_slice t : under (GSlice t) = Some (GSlice t). Proof. unfold GoType.under. destruct n; reflexivity. Qed.
Lemma under_arr s t : under (GArr s t) = Some (GArr s t). Proof. unfold GoType.under. destruct n; reflexivity. Qed.
Lemma under_struct fs : under (GStruct fs) = Some (GStruct fs). Proof. unfold GoType.under. destruct n; reflexivity. Qed.
Lemma gt_shape t g : gt t = Some g -> (exists b, g = GBasic b) \/ (exists x, g = GNamed x) \/ exists fs, g = GStruct fs.
Proof.
  destruct t as [[]|[]| | | | |l|l|s c d|x]; cbn [gt]; try (intros [= <-]; unfold gU32, gS32, gU64, gS64, gBool; eauto; fail); try discriminate.
  - match goal with |- pbind ?a _ = _ -> _ => destruct a as [fs|]; [|discriminate] end. intros [= <-]. eauto.
  - destruct (gt_field s); [|discriminate]. cbn [pbind]. match goal with |- pbind ?a _ = _ -> _ => destruct a; [|discriminate] end. cbn [pbind].
    match goal with |- pbind ?a _ = _ -> _ => destruct a; [|discriminate] end. intros [= <-]. eauto.
Qed.
Lemma named_noptr x e : under (GNamed x) <> Some (GPtr e).
Proof.
  unfold GoType.under. generalize n. intros m. revert x. induction m as [|m IH]; intros x; [discriminate|]. cbn. destruct (lookup x (g_types G)) as [g|] eqn:E; [|discriminate].
  destruct g as [b|y|g|g|r g|fs]; try (destruct m; discriminate); [apply IH|]. destruct (Hptr _ _ g E eq_refl).
Qed.
Lemma under_noptr t g e : gt t = Some g -> under g <> Some (GPtr e).
Proof.
  intros H. destruct (gt_shape _ _ H) as [(b & ->)|[(x & ->)|(fs & ->)]]; rewrite ?under_basic, ?under_struct; try discriminate. apply named_noptr.
Qed.

(** ** Scopes of the emitted code *)
Variable X : string.
Record okL (L : locals) : Prop := mkOkL {
  okL_dom : forall x, In x (map fst L) -> In x local_names;
  okL_v : lookup "v" L = Some (GPtr (GNamed X));
  okL_xs : lookup "xs" L = Some gState;
  okL_i : forall t, lookup "i" L = Some t -> t = gInt \/ t = gU64 }.
Lemma okL_push L x t : okL L -> In x ["i"; "opted"; "__arraysz"] -> (x = "i" -> t = gInt \/ t = gU64) -> okL ((x, t) :: L).
Proof.
  intros [A B C D] I T. constructor.
  - intros y [<-|Y]; [cbn in *; tauto|auto].
  - cbn [lookup]. destruct (String.eqb_spec "v" x) as [<-|_]; [|exact B]. cbn in I. intuition congruence.
  - cbn [lookup]. destruct (String.eqb_spec "xs" x) as [<-|_]; [|exact C]. cbn in I. intuition congruence.
  - cbn [lookup]. destruct (String.eqb_spec "i" x) as [<-|_]; [intros s [= <-]; auto|exact D].
Qed.
Lemma pkg_nl x : In x (pkg_names G) -> ~ In x local_names.
Proof. intros I J. apply (Hres _ I). cbn in *. tauto. Qed.
Lemma okL_hid L x : okL L -> In x (pkg_names G) -> mem x (map fst L) = false.
Proof. intros O I. apply mem_false. intros J. apply (pkg_nl _ I). apply (okL_dom _ O), J. Qed.
Lemma okL_look L x : okL L -> not_local x = true -> lookup x L = None.
Proof. intros O H. apply lookup_dom. intros I. apply (okL_dom _ O), mem_In in I. unfold not_local in H. rewrite I in H. discriminate. Qed.
Lemma unhid L x : okL L -> In x reserved -> ~ In x local_names -> unhidden G L x = true.
Proof.
  intros O R N. unfold unhidden. assert (mem x (map fst L) = false) as -> by (apply mem_false; intros J; apply N, (okL_dom _ O), J).
  assert (mem x (pkg_names G) = false) as ->; [|reflexivity]. apply mem_false. intros J. apply (Hres _ J). right. exact R.
Qed.
Lemma unhid0 x : In x reserved -> unhidden G [] x = true.
Proof. intros R. unfold unhidden. cbn [map mem existsb negb andb]. assert (mem x (pkg_names G) = false) as ->; [|reflexivity]. apply mem_false. intros J. apply (Hres _ J). right. exact R. Qed.
Ltac inlist := repeat first [left; reflexivity | right].
Ltac unhides := first [apply unhid; [assumption|inlist|cbn; intuition discriminate] | apply unhid0; inlist].
Lemma cval_in s k : cval G s = Some k -> In s (pkg_names G).
Proof.
  unfold cval. cbn. destruct (find_const s (g_consts G)) as [c|] eqn:F; [|discriminate]. intros _. destruct (find_const_in _ _ _ F) as (I & <-).
  unfold pkg_names. apply in_or_app. right. apply in_map, I.
Qed.
Lemma type_in x g : lookup x (g_types G) = Some g -> In x (pkg_names G).
Proof. intros H. unfold pkg_names. apply in_or_app. left. eapply lookup_some_dom, H. Qed.
Lemma basic_res b : mem b basics = true -> In b reserved /\ ~ In b local_names.
Proof. intros H. apply mem_In in H. cbn in H. repeat destruct H as [<-|H]; try (split; [inlist|cbn; intuition discriminate]). destruct H. Qed.
Lemma valid_any L t : okL L -> valid_ty G L t = valid_ty G [] t.
Proof.
  intros O. induction t as [b|x|t IH|t IH|s t IH|fs IH] using gty_ind'; cbn [valid_ty]; auto.
  - destruct (mem b basics) eqn:E; [|reflexivity]. destruct (basic_res _ E) as (R & N). rewrite (unhid L b O R N), (unhid0 b R). reflexivity.
  - destruct (lookup x (g_types G)) as [g|] eqn:E; [|reflexivity]. rewrite (okL_hid L x O (type_in _ _ E)). reflexivity.
  - rewrite IH. unfold size_val. destruct (head_is is_digit s) eqn:D; [reflexivity|]. destruct (cval G s) as [k|] eqn:E; [|reflexivity].
    rewrite (okL_hid L s O (cval_in _ _ E)). reflexivity.
  - f_equal. induction IH as [|[f t] fs H _ IH]; [reflexivity|]. cbn [snd] in H. rewrite H. f_equal. exact IH.
Qed.

(** ** Constants *)
Lemma tc_val_any L s : okL L -> not_local s = true -> tc L (val_expr s) = tc [] (val_expr s).
Proof. intros O N. unfold val_expr. destruct (head_is is_digit s); [reflexivity|]. cbn [GoType.tc]. unfold tc_ident. rewrite (okL_look _ _ O N). reflexivity. Qed.
Lemma not_local_size s : not_local s = true -> not_local s = true \/ s = "". Proof. auto. Qed.
Lemma tc_size_any L s : okL L -> not_local s = true -> tc L (size_expr s) = tc [] (size_expr s).
Proof. intros O N. unfold size_expr. destruct (String.eqb s ""); [reflexivity|]. apply tc_val_any; assumption. Qed.
Inductive ckind : opk -> Prop :=
| ck_con t z : (forall s, t = Some s -> has_name s = true) -> ckind (KCon t z)
| ck_nil : ckind KNil
| ck_bool : ckind KBool.
Lemma const_ty_name m : forall x t s, const_ty_n G m x = Some t -> t = Some s -> has_name s = true.
Proof.
  induction m as [|m IH]; intros x t s H E; [discriminate|]. cbn in H. destruct (find_const x (g_consts G)) as [c|] eqn:F; [|discriminate].
  destruct (find_const_in _ _ _ F) as (I & _). destruct (c_ty c) as [u|] eqn:C.
  - injection H as <-. injection E as <-. eapply Hct; eassumption.
  - destruct (head_is is_digit (c_val c)); [congruence|]. eapply IH; eassumption.
Qed.
Lemma tc_const_kind s k : tc [] (val_expr s) = Some k -> ckind k.
Proof.
  unfold val_expr. destruct (head_is is_digit s); cbn [GoType.tc].
  - destruct (num_val s); [|discriminate]. intros [= <-]. constructor. discriminate.
  - unfold tc_ident. cbn [lookup]. destruct (mem s (pkg_names G)).
    + destruct (const_ty G s) as [t|] eqn:E; [|discriminate]. destruct (cval G s); [|discriminate]. intros [= <-]. constructor. intros u ->. eapply const_ty_name; [exact E|reflexivity].
    + destruct (String.eqb s "nil"); [intros [= <-]; constructor|]. destruct (String.eqb s "true" || String.eqb s "false"); [intros [= <-]; constructor|discriminate].
Qed.

(** ** Pointers *)
Definition isp (k : opk) (b : gty) : Prop := k = KVar (GPtr b) \/ k = KVal (GPtr b).
Definition hasi (L : locals) : bool := match lookup "i" L with Some _ => true | None => false end.
(** [P] points to a [b] wherever it is in scope; [hi]: it uses i. *)
Definition good_ptr (hi : bool) (P : expr) (b : gty) : Prop :=
  forall L, okL L -> (hi = true -> hasi L = true) -> exists k, tc L P = Some k /\ isp k b.
(** [P] is ill typed. *)
Definition bad_ptr (P : expr) : Prop := forall L, okL L -> tc L P = None.
(** [b] is the type [g], or a name declared for it. *)
Definition stands (b g : gty) : Prop := b = g \/ exists x, b = GNamed x /\ lookup x (g_types G) = Some g.
Lemma stands_under b g : stands b g -> valid_ty G [] g = true -> exists u, under b = Some u /\ under g = Some u.
Proof.
  intros [->|(x & -> & H)] V; [destruct (valid_under _ _ V) as (u & U); eauto|]. apply under_decl, H.
Qed.
Lemma isp_type k b : isp k b -> ktype k = Some (GPtr b). Proof. intros [->| ->]; reflexivity. Qed.
Lemma hasi_push L t : hasi (("i", t) :: L) = true. Proof. reflexivity. Qed.
Lemma hasi_keep L x t : hasi L = true -> hasi ((x, t) :: L) = true.
Proof. unfold hasi. cbn [lookup]. destruct (String.eqb "i" x); auto. Qed.

Lemma tc_xs L : okL L -> tc L (EVar "xs") = Some (KVar gState).
Proof. intros O. cbn [GoType.tc]. unfold tc_ident. rewrite (okL_xs _ O). reflexivity. Qed.
Lemma xs_arg L : okL L -> match tc L (EVar "xs") with Some k => assignable G n k gState | None => false end = true.
Proof. intros O. rewrite (tc_xs _ O). cbn [assignable]. rewrite same_refl. reflexivity. Qed.
Lemma tc_query L m : okL L -> In m ["Encoding"; "Decoding"] -> tc L (EQuery "xs" m) = Some (KVal gBool).
Proof. intros O I. cbn [GoType.tc]. rewrite (okL_xs _ O), same_refl. apply mem_In in I. rewrite I. reflexivity. Qed.
Lemma cond_query L m : okL L -> In m ["Encoding"; "Decoding"] -> tc_cond G n L (EQuery "xs" m) = true.
Proof. intros O I. unfold tc_cond. rewrite (tc_query _ _ O I). cbn [ktype]. unfold is_basic, gBool. rewrite under_basic. reflexivity. Qed.

(** A conversion of [P]. *)
Lemma tc_conv_ptr L P b t u k : tc L P = Some k -> isp k b -> okL L -> valid_ty G [] t = true -> under b = Some u -> under t = Some u ->
  tc L (EConv (GPtr t) P) = Some (KVal (GPtr t)).
Proof.
  intros T I O V Ub Ut. cbn [GoType.tc]. rewrite T. cbn [pbind]. rewrite (valid_any L (GPtr t) O). cbn [valid_ty]. rewrite V.
  assert (converts G n (GPtr b) (GPtr t) = true) as Hc.
  { unfold converts, same_under. rewrite Ub, Ut, same_refl. rewrite !orb_true_r. reflexivity. }
  destruct I as [->| ->]; cbn [tc_conv]; rewrite Hc; reflexivity.
Qed.
Lemma arg_conv L P b t u k : tc L P = Some k -> isp k b -> okL L -> valid_ty G [] t = true -> under b = Some u -> under t = Some u ->
  match tc L (EConv (GPtr t) P) with Some k => assignable G n k (GPtr t) | None => false end = true.
Proof. intros. erewrite tc_conv_ptr; try eassumption. cbn [assignable]. rewrite same_refl. reflexivity. Qed.
Lemma arg_conv_bad L P t s : tc L P = None -> match tc L (EConv t P) with Some k => assignable G n k s | None => false end = false.
Proof. intros H. cbn [GoType.tc]. rewrite H. reflexivity. Qed.
Lemma valid_basic b : mem b basics = true -> valid_ty G [] (GBasic b) = true.
Proof. intros H. cbn [valid_ty]. rewrite H. destruct (basic_res _ H) as (R & _). rewrite (unhid0 b R). reflexivity. Qed.
Lemma valid_u32 : valid_ty G [] gU32 = true. Proof. apply valid_basic. reflexivity. Qed.
Lemma valid_u64 : valid_ty G [] gU64 = true. Proof. apply valid_basic. reflexivity. Qed.
Lemma valid_bool : valid_ty G [] gBool = true. Proof. apply valid_basic. reflexivity. Qed.
Lemma valid_int : valid_ty G [] gInt = true. Proof. apply valid_basic. reflexivity. Qed.
Lemma call1 L P b t k fn : okL L -> tc L P = Some k -> isp k b -> valid_ty G [] t = true -> (exists u, under b = Some u /\ under t = Some u) ->
  lib_sig fn = Some [gState; GPtr t] -> tc_s L (SPkg fn [EVar "xs"; EConv (GPtr t) P]) = true.
Proof.
  intros O T I V (u & Ub & Ut) S. cbn [GoType.tc_s]. rewrite S. assert (unhidden G L "xdr" = true) as -> by unhides. cbn [tc_args andb].
  rewrite (xs_arg _ O), (arg_conv _ _ _ _ _ _ T I O V Ub Ut). reflexivity.
Qed.
Lemma call1_bad L P t fn ts : tc L P = None -> lib_sig fn = Some [gState; ts] -> tc_s L (SPkg fn [EVar "xs"; EConv t P]) = false.
Proof. intros H S. cbn [GoType.tc_s]. rewrite S. cbn [tc_args]. rewrite (arg_conv_bad _ _ _ _ H). rewrite !andb_false_l, !andb_false_r. reflexivity. Qed.

(** The pointers the generator forms. *)
Lemma good_v : good_ptr false (EVar "v") (GNamed X).
Proof. intros L O _. exists (KVar (GPtr (GNamed X))). cbn [GoType.tc]. unfold tc_ident. rewrite (okL_v _ O). split; [reflexivity|left; reflexivity]. Qed.
Lemma good_field hi P b fs m t : good_ptr hi P b -> under b = Some (GStruct fs) -> lookup (cap m) fs = Some t -> String.eqb (cap m) "_" = false ->
  good_ptr hi (fieldP P m) t.
Proof.
  intros H U F N L O I. destruct (H L O I) as (k & T & K). unfold fieldP. cbn [GoType.tc]. rewrite T. cbn [pbind]. unfold tc_field.
  rewrite N, (isp_type _ _ K), under_ptr, U, F. cbn [pbind]. eexists. split; [reflexivity|right; reflexivity].
Qed.
Lemma sel_field L hi P b fs m t : good_ptr hi P b -> okL L -> (hi = true -> hasi L = true) -> under b = Some (GStruct fs) -> lookup (cap m) fs = Some t ->
  String.eqb (cap m) "_" = false -> tc L (ESel (EParen P) (cap m)) = Some (KVar t).
Proof.
  intros H O I U F N. destruct (H L O I) as (k & T & K). cbn [GoType.tc]. rewrite T. cbn [pbind]. unfold tc_field. rewrite N, (isp_type _ _ K), under_ptr, U, F. reflexivity.
Qed.
Lemma sel_blank L P m : String.eqb (cap m) "_" = true -> tc L (ESel (EParen P) (cap m)) = None.
Proof. intros H. cbn [GoType.tc]. unfold tc_field. rewrite H. destruct (tc L P); reflexivity. Qed.
Lemma bad_field P m : bad_ptr P -> bad_ptr (fieldP P m).
Proof. intros H L O. unfold fieldP. cbn [GoType.tc]. rewrite (H L O). reflexivity. Qed.
Lemma bad_blank P m : String.eqb (cap m) "_" = true -> bad_ptr (fieldP P m).
Proof. intros H L O. unfold fieldP. change (tc L (EAddr (EParen (ESel (EParen P) (cap m))))) with (pbind (tc L (ESel (EParen P) (cap m))) (fun k => match k with KVar t => Some (KVal (GPtr t)) | _ => None end)). rewrite (sel_blank _ _ _ H). reflexivity. Qed.
Lemma tc_i L : okL L -> hasi L = true -> exists t, tc L (EVar "i") = Some (KVar t) /\ is_int G n t = true.
Proof.
  intros O I. unfold hasi in I. cbn [GoType.tc]. unfold tc_ident. destruct (lookup "i" L) as [t|] eqn:E; [|discriminate]. exists t. split; [reflexivity|].
  destruct (okL_i _ O _ E) as [->| ->]; unfold is_int, gInt, gU64; rewrite under_basic; reflexivity.
Qed.
Lemma good_elem hi P b e : good_ptr hi P b -> under b = Some (GSlice e) -> good_ptr true (elemP P) e.
Proof.
  intros H U L O I. specialize (I eq_refl). destruct (H L O (fun _ => I)) as (k & T & K). destruct (tc_i L O I) as (t & Ti & It). unfold elemP.
  cbn [GoType.tc] in *. rewrite T. cbn [pbind]. rewrite (isp_type _ _ K). cbn [pbind]. rewrite under_ptr. cbn [pbind]. rewrite Ti. cbn [pbind]. unfold tc_index. cbn [index_ok ktype].
  rewrite It, U. cbn [pbind]. eexists. split; [reflexivity|right; reflexivity].
Qed.
Lemma bad_elem P : bad_ptr P -> bad_ptr (elemP P).
Proof. intros H L O. unfold elemP. cbn [GoType.tc]. rewrite (H L O). reflexivity. Qed.
Lemma good_deref hi P e : good_ptr hi P (GPtr e) -> good_ptr hi (derefP P) e.
Proof.
  intros H L O I. destruct (H L O I) as (k & T & K). unfold derefP. cbn [GoType.tc]. rewrite T. cbn [pbind]. rewrite (isp_type _ _ K). cbn [pbind]. rewrite under_ptr.
  eexists. split; [reflexivity|left; reflexivity].
Qed.
Lemma bad_deref P : bad_ptr P -> bad_ptr (derefP P).
Proof. intros H L O. unfold derefP. cbn [GoType.tc]. rewrite (H L O). reflexivity. Qed.
(** out.go:58 *)
Lemma fixed_bad hi P b sz e t : good_ptr hi P b -> under b = Some (GArr sz e) -> gt t = Some e -> bad_ptr (fixedP P).
Proof.
  intros H U Ht L O. unfold fixedP. cbn [GoType.tc]. destruct (hasi L) eqn:I.
  - destruct (H L O (fun _ => I)) as (k & T & K). rewrite T. cbn [pbind].
    destruct (tc_ident G L "i") as [j|]; [|reflexivity]. cbn [pbind]. unfold tc_index. destruct (index_ok G n j); [|reflexivity].
    rewrite (isp_type _ _ K), under_ptr, U. cbn [pbind ktype]. destruct (under e) as [u|] eqn:Ue; [|reflexivity].
    destruct u; try reflexivity. destruct (under_noptr _ _ u Ht Ue).
  - destruct (tc L P); [|reflexivity]. cbn [pbind]. unfold tc_ident. unfold hasi in I. destruct (lookup "i" L); [discriminate|].
    assert (mem "i" (pkg_names G) = false) as ->; [|reflexivity]. apply mem_false. intros J. apply (Hres _ J). right. inlist.
Qed.
Lemma bad_fixed P : bad_ptr P -> bad_ptr (fixedP P).
Proof. intros H L O. unfold fixedP. cbn [GoType.tc]. rewrite (H L O). reflexivity. Qed.

(** ** Blocks *)
Definition flat (s : stmt) : bool := match s with SVar _ _ | SDef _ _ => false | _ => true end.
Lemma block_flat f ss : forallb flat ss = true -> forall L cur, tc_block G n f L cur ss = forallb (f L) ss.
Proof.
  induction ss as [|s ss IH]; intros H L cur; [reflexivity|]. cbn [forallb] in H. apply andb_true_iff in H. destruct H as (A & B). cbn [forallb]. rewrite <- (IH B L cur).
  destruct s; try reflexivity; discriminate.
Qed.
Lemma block_one f s ss L cur : flat s = true -> tc_block G n f L cur (s :: ss) = f L s && tc_block G n f L cur ss.
Proof. destruct s; try reflexivity; discriminate. Qed.
Lemma block_var f x t ss L cur : tc_block G n f L cur (SVar x t :: ss) = negb (mem x ("_" :: cur)) && valid_ty G L t && uses x ss && tc_block G n f ((x, t) :: L) (x :: cur) ss.
Proof. reflexivity. Qed.
Lemma block_def f x e ss L cur k t : tc L e = Some k -> def_ty G n k = Some t ->
  tc_block G n f L cur (SDef x e :: ss) = negb (mem x ("_" :: cur)) && uses x ss && tc_block G n f ((x, t) :: L) (x :: cur) ss.
Proof. intros A B. cbn [tc_block]. rewrite A, B. reflexivity. Qed.
Lemma uses_one x s ss : flat s = true -> occ_s x s = true -> uses x (s :: ss) = true.
Proof. intros F H. unfold uses. destruct s; try discriminate; cbn [occ_block]; rewrite H; reflexivity. Qed.

Definition gx_items (P : expr) : list decl -> option (list stmt) :=
  fix gx_items l := match l with [] => Some [] | d :: l => do a <- gx_field d P ; do b <- gx_items l ; Some (a ++ b) end.
Definition gx_cases (P : expr) : list (list string * decl) -> option (list (option expr * list stmt * bool)) :=
  fix gx_cases l := match l with [] => Some [] | c :: l => do a <- gx_field (snd c) P ; do b <- gx_cases l ; Some (label_clauses (fst c) a ++ b) end.
Definition gx_def (P : expr) (d : option decl) : option (list (option expr * list stmt * bool)) :=
  match d with Some d => do a <- gx_field d P ; Some [(None, a, false)] | None => Some [] end.
Lemma gx_struct_eq P l : gx (typeStruct l) P = gx_items P l. Proof. reflexivity. Qed.
Lemma gx_union_eq P st sn c d : gx (typeUnion (declName st sn) c d) P =
  do a <- gx_dt st (fieldP P sn) ; do b <- gx_cases P c ; do c <- gx_def P d ; Some (a ++ [SSwitch (ESel (EParen P) (cap sn)) (b ++ c)]).
Proof. reflexivity. Qed.

Ltac sinv H := match type of H with pbind ?a _ = Some _ => let E := fresh "E" in destruct a eqn:E; [cbn [pbind] in H|discriminate H] end.
Lemma gx_flat : (forall t P b, gx t P = Some b -> forallb flat b = true) /\ (forall t P b, gx_dt t P = Some b -> forallb flat b = true) /\ (forall d P b, gx_field d P = Some b -> forallb flat b = true).
Proof.
  apply ast_ind; try (intros; discriminate).
  - intros [] P b [= <-]; reflexivity.
  - intros [] P b [= <-]; reflexivity.
  - intros P b [= <-]; reflexivity.
  - intros l Hl P b H. rewrite gx_struct_eq in H. revert b H. induction Hl as [|d l Hd _ IH]; intros b H; cbn [gx_items] in H; [injection H as <-; reflexivity|].
    sinv H. sinv H. injection H as <-. rewrite forallb_app, (Hd _ _ E), (IH _ eq_refl). reflexivity.
  - intros sw c d Hs Hc Hd P b H. destruct sw as [|st sn]; [discriminate|]. rewrite gx_union_eq in H. sinv H. sinv H. sinv H. injection H as <-.
    rewrite forallb_app, (Hs P l E). reflexivity.
  - intros m P b [= <-]; reflexivity.
  - intros t IH P b H. apply (IH P b H).
  - intros t sz IH P b H. cbn [gx_dt] in H. sinv H. injection H as <-. reflexivity.
  - intros t sz IH P b H. cbn [gx_dt] in H. sinv H. sinv H. injection H as <-. reflexivity.
  - intros sz P b [= <-]; reflexivity.
  - intros sz P b [= <-]; reflexivity.
  - intros sz P b [= <-]; reflexivity.
  - intros t IH P b H. cbn [gx_dt] in H. sinv H. sinv H. injection H as <-. reflexivity.
  - intros P b [= <-]; reflexivity.
  - intros t m IH P b H. apply (IH (fieldP P m) b H).
Qed.

(** ** Comparison with a constant *)
Lemma cmp_fits b k : In b ["int"; "uint32"; "uint64"] -> ckind k -> tc_cmp G n (fun _ => ordered G n) (KVar (GBasic b)) k = assignable G n k (GBasic b).
Proof.
  intros I K. assert (ordered G n (GBasic b) = true) as O.
  { unfold ordered, is_int. rewrite under_basic. cbn in I. repeat destruct I as [<-|I]; try reflexivity. destruct I. }
  destruct K as [[s|] z N| |]; unfold tc_cmp; cbn [ktype assignable].
  - specialize (N s eq_refl). rewrite O, N. cbn [has_name andb negb]. rewrite !andb_false_r, orb_false_r.
    destruct s as [c|x| | | |]; try discriminate; cbn [GoType.same_ty].
    + rewrite (String.eqb_sym b c), orb_diag. destruct (String.eqb_spec c b) as [->|_]; [rewrite O; reflexivity|reflexivity].
    + reflexivity.
  - rewrite O, andb_true_r. reflexivity.
  - rewrite O, andb_true_r. reflexivity.
  - rewrite O, andb_true_r. reflexivity.
Qed.
Lemma cond_cmp L x b s (op : expr -> expr -> expr) : (op = ELt \/ op = EGt) -> okL L -> not_local s = true -> lookup x L = Some (GBasic b) -> In b ["int"; "uint32"; "uint64"] ->
  tc_cond G n L (op (EVar x) (val_expr s)) = cfits G n (GBasic b) s.
Proof.
  intros Hop O N Hx Ib. unfold tc_cond, cfits. assert (tc L (op (EVar x) (val_expr s)) = do k <- tc L (EVar x) ; do j <- tc L (val_expr s) ; if tc_cmp G n (fun _ => ordered G n) k j then Some KBool else None) as -> by (destruct Hop as [-> | ->]; reflexivity).
  assert (tc L (EVar x) = Some (KVar (GBasic b))) as -> by (cbn [GoType.tc]; unfold tc_ident; rewrite Hx; reflexivity). cbn [pbind]. rewrite (tc_val_any L s O N). destruct (tc [] (val_expr s)) as [k|] eqn:E; [|reflexivity]. cbn [pbind].
  rewrite (cmp_fits b k Ib (tc_const_kind _ _ E)). destruct (assignable G n k (GBasic b)); reflexivity.
Qed.
Lemma for_fixed L sz b : okL L -> not_local sz = true -> forallb flat b = true ->
  tc_s L (SFor "i" (ENum "0") (ELt (EVar "i") (val_expr sz)) b) = cfits G n gInt sz && forallb (tc_s (("i", gInt) :: L)) b.
Proof.
  intros O N F. cbn [GoType.tc_s]. change (tc L (ENum "0")) with (Some (KCon None 0)). cbv iota. cbn [def_ty]. unfold fits_in, gInt at 1. rewrite under_basic.
  change (in_range "int" 0) with true. cbv iota. change (negb (String.eqb "i" "_")) with true. unfold is_int, gInt at 1. rewrite under_basic. change (mem "int" int_types) with true.
  cbn [occ]. change (String.eqb "i" "i") with true. cbn [orb andb].
  assert (okL (("i", gInt) :: L)) as O' by (apply okL_push; [exact O|inlist|auto]).
  rewrite (cond_cmp (("i", gInt) :: L) "i" "int" sz ELt (or_introl eq_refl) O' N eq_refl ltac:(cbn; auto)). rewrite (block_flat _ _ F). reflexivity.
Qed.

(** ** Code for an ill-typed pointer *)
Lemma conv_bad L t P : tc L P = None -> tc L (EConv t P) = None. Proof. intros H. cbn [GoType.tc]. rewrite H. reflexivity. Qed.
Lemma deref_bad L P : tc L P = None -> tc L (EDeref P) = None. Proof. intros H. cbn [GoType.tc]. rewrite H. reflexivity. Qed.
Lemma arr_bad L P sz e body : okL L -> bad_ptr P -> tc_s L (SBlock (arr_body P sz e body)) = false.
Proof.
  intros O B. cbn [GoType.tc_s]. unfold arr_body. cbn [app]. rewrite block_var. assert (okL (("__arraysz", gU32) :: L)) as O' by (apply okL_push; [exact O|inlist|discriminate]).
  assert (tc_s (("__arraysz", gU32) :: L) (SMeth (EVar "xs") "EncodingSetSize" [EAddr (EVar "__arraysz"); ELen (EDeref P)]) = false) as H.
  { cbn [GoType.tc_s]. rewrite (tc_xs _ O'). unfold gState at 1. rewrite same_refl. cbn [state_sig String.eqb]. change (state_sig "EncodingSetSize") with (Some [GPtr gU32; gInt]). cbv iota. cbn [tc_args].
    assert (tc (("__arraysz", gU32) :: L) (ELen (EDeref P)) = None) as -> by (cbn [GoType.tc]; rewrite (B _ O'); reflexivity). rewrite !andb_false_l, andb_false_r. reflexivity. }
  rewrite block_one by reflexivity. rewrite H. rewrite andb_false_l, andb_false_r. reflexivity.
Qed.
Lemma ptr_bad L P e body : okL L -> bad_ptr P -> forallb (tc_s L) (ptr_body P e body) = false.
Proof.
  intros O B. unfold ptr_body. cbn [forallb]. cbn [GoType.tc_s]. 
  assert (forall f ss, tc_block G n f L [] (SDef "opted" (ENe (derefP P) (EVar "nil")) :: ss) = false) as ->.
  { intros f ss. cbn [tc_block]. assert (tc L (ENe (derefP P) (EVar "nil")) = None) as ->; [|reflexivity]. cbn [GoType.tc derefP]. rewrite (B _ O). reflexivity. }
  rewrite !andb_false_r. reflexivity.
Qed.
Lemma bad_code : (forall t P body L, gx t P = Some body -> bad_ptr P -> okL L -> cln t = true -> forallb (tc_s L) body = nop G n t) /\
  (forall t P body L, gx_dt t P = Some body -> bad_ptr P -> okL L -> cln_dt t = true -> forallb (tc_s L) body = nop_dt G n t) /\
  (forall d P body L, gx_field d P = Some body -> bad_ptr P -> okL L -> cln_d d = true -> forallb (tc_s L) body = nop_d G n d).
Proof.
  apply ast_ind; try (intros; discriminate).
  - intros [] P b L [= <-] B O _; cbn [forallb]; unfold xU32; erewrite call1_bad; try reflexivity; apply B, O.
  - intros [] P b L [= <-] B O _; cbn [forallb]; erewrite call1_bad; try reflexivity; apply B, O.
  - intros P b L [= <-] B O _; cbn [forallb]; unfold xBool; erewrite call1_bad; try reflexivity; apply B, O.
  - intros l Hl P b L H B O. rewrite gx_struct_eq in H. cbn [cln nop]. revert b H. induction Hl as [|d l Hd _ IH]; intros b H C; cbn [gx_items] in H; [injection H as <-; reflexivity|].
    sinv H. sinv H. injection H as <-. apply andb_true_iff in C. destruct C as (C1 & C2). rewrite forallb_app, (Hd _ _ _ E B O C1). rewrite (IH _ eq_refl C2). reflexivity.
  - intros sw c d Hs Hc Hd P b L H B O C. destruct sw as [|st sn]; [discriminate|]. rewrite gx_union_eq in H. sinv H. sinv H. sinv H. injection H as <-.
    rewrite forallb_app. cbn [forallb]. assert (tc_s L (SSwitch (ESel (EParen P) (cap sn)) (l0 ++ l1)) = false) as ->; [|rewrite andb_false_r; reflexivity].
    cbn [GoType.tc_s]. assert (tc L (ESel (EParen P) (cap sn)) = None) as ->; [|reflexivity]. cbn [GoType.tc]. rewrite (B L O). reflexivity.
  - intros m P b L [= <-] B O _. cbn [forallb nop]. cbn [GoType.tc_s]. rewrite (conv_bad _ _ _ (B L O)). reflexivity.
  - intros t IH P b L H B O C. apply (IH P b L H B O C).
  - intros t sz IH P b L H B O C. cbn [gx_dt] in H. sinv H. injection H as <-. cbn [cln_dt] in C. apply andb_true_iff in C. destruct C as (C1 & C2). cbn [forallb nop_dt].
    rewrite (for_fixed L sz _ O C1 (proj1 gx_flat _ _ _ E)). rewrite (IH _ _ (("i", gInt) :: L) E (bad_fixed _ B) ltac:(apply okL_push; [exact O|inlist|auto]) C2). apply andb_true_r.
  - intros t sz IH P b L H B O C. cbn [gx_dt] in H. sinv H. sinv H. injection H as <-. cbn [forallb nop_dt]. rewrite (arr_bad _ _ _ _ _ O B). reflexivity.
  - intros sz P b L [= <-] B O _. cbn [forallb nop_dt GoType.tc_s]. change (lib_sig "XdrArray") with (Some [gState; GSlice gByte]). cbv iota. cbn [tc_args].
    assert (tc L (EAll (EParen (EDeref P))) = None) as -> by (cbn [GoType.tc]; rewrite (B L O); reflexivity). btauto.
  - intros sz P b L [= <-] B O _. cbn [forallb nop_dt GoType.tc_s]. change (lib_sig "XdrVarArray") with (Some [gState; gInt; GPtr (GSlice gByte)]). cbv iota. cbn [tc_args].
    rewrite (conv_bad _ _ _ (B L O)). btauto.
  - intros sz P b L [= <-] B O _. cbn [forallb nop_dt GoType.tc_s]. change (lib_sig "XdrString") with (Some [gState; gInt; GPtr gString]). cbv iota. cbn [tc_args].
    rewrite (conv_bad _ _ _ (B L O)). btauto.
  - intros t IH P b L H B O C. cbn [gx_dt] in H. sinv H. sinv H. injection H as <-. cbn [nop_dt]. apply ptr_bad; assumption.
  - intros P b L [= <-] B O _. reflexivity.
  - intros t m IH P b L H B O C. apply (IH _ _ _ H (bad_field _ _ B) O C).
Qed.

(** ** Code for a pointer to the type *)
Lemma tc_local L x t : lookup x L = Some t -> tc L (EVar x) = Some (KVar t).
Proof. intros H. cbn [GoType.tc]. unfold tc_ident. rewrite H. reflexivity. Qed.
Lemma assign_same k t : (k = KVar t \/ k = KVal t \/ exists z, k = KCon (Some t) z) -> assignable G n k t = true.
Proof. intros [->|[->|(z & ->)]]; cbn [assignable]; rewrite same_refl; reflexivity. Qed.
Lemma tc_addr L x t : lookup x L = Some t -> tc L (EAddr (EVar x)) = Some (KVal (GPtr t)).
Proof. intros H. pose proof (tc_local _ _ _ H) as T. cbn [GoType.tc] in *. rewrite T. reflexivity. Qed.
Lemma call_local L x b fn : okL L -> lookup x L = Some (GBasic b) -> mem b basics = true -> lib_sig fn = Some [gState; GPtr (GBasic b)] ->
  tc_s L (SPkg fn [EVar "xs"; EConv (GPtr (GBasic b)) (EAddr (EVar x))]) = true.
Proof.
  intros O H B S. eapply call1; [exact O|apply tc_addr; exact H|right; reflexivity|apply valid_basic; exact B| |exact S]. exists (GBasic b). rewrite under_basic. auto.
Qed.
Lemma tc_deref L P b k : tc L P = Some k -> isp k b -> tc L (EDeref P) = Some (KVar b).
Proof. intros T K. cbn [GoType.tc]. rewrite T. cbn [pbind]. rewrite (isp_type _ _ K). cbn [pbind]. rewrite under_ptr. reflexivity. Qed.

Lemma arr_good hi L P b sz e body : okL L -> (hi = true -> hasi L = true) -> good_ptr hi P b -> under b = Some (GSlice e) -> valid_ty G [] e = true ->
  not_local sz = true -> forallb flat body = true ->
  tc_s L (SBlock (arr_body P sz e body)) = (String.eqb sz "" || cfits G n gU32 sz) && forallb (tc_s (("i", gU64) :: ("__arraysz", gU32) :: L)) body.
Proof.
  intros O I Hp U V N F. cbn [GoType.tc_s]. unfold arr_body. cbn [app]. rewrite block_var. set (L1 := ("__arraysz", gU32) :: L).
  assert (okL L1) as O1 by (apply okL_push; [exact O|inlist|discriminate]).
  assert (okL (("i", gU64) :: L1)) as O2 by (apply okL_push; [exact O1|inlist|auto]).
  assert (lookup "__arraysz" L1 = Some gU32) as A1 by reflexivity.
  destruct (Hp L1 O1 (fun h => hasi_keep _ _ _ (I h))) as (k & T & K). pose proof (tc_deref _ _ _ _ T K) as Td.
  replace (mem "__arraysz" ["_"]) with false by reflexivity. rewrite (valid_any _ _ O), valid_u32. cbn [negb andb].
  rewrite uses_one by reflexivity. cbn [andb].
  assert (tc_s L1 (SMeth (EVar "xs") "EncodingSetSize" [EAddr (EVar "__arraysz"); ELen (EDeref P)]) = true) as S1.
  { cbn [GoType.tc_s]. rewrite (tc_xs _ O1). unfold gState at 1. rewrite same_refl. change (state_sig "EncodingSetSize") with (Some [GPtr gU32; gInt]). cbv iota. cbn [tc_args].
    rewrite (tc_addr L1 _ _ A1). rewrite (assign_same (KVal (GPtr gU32))) by auto.
    assert (tc L1 (ELen (EDeref P)) = Some (KVal gInt)) as ->.
    { change (tc L1 (ELen (EDeref P))) with (do k <- tc L1 (EDeref P) ; if unhidden G L1 "len" && has_len G n k then Some (KVal gInt) else None). rewrite Td. cbn [pbind].
      assert (unhidden G L1 "len" = true) as -> by unhides. unfold has_len. cbn [ktype]. rewrite U. reflexivity. }
    rewrite (assign_same (KVal gInt)) by auto. reflexivity. }
  rewrite block_one by reflexivity. rewrite S1. cbn [andb]. rewrite block_one by reflexivity. unfold xU32, gU32 at 1. rewrite (call_local L1 "__arraysz" "uint32" "XdrU32" O1 A1 eq_refl eq_refl). cbn [andb].
  assert (forall cur, tc_block G n tc_s L1 cur [SIf (EQuery "xs" "Decoding") [SAssign (EDeref P) (EMake (GSlice e) (EVar "__arraysz"))] None;
     SFor "i" (EConv gU64 (ENum "0")) (ELt (EVar "i") (EConv gU64 (EVar "__arraysz"))) body] = forallb (tc_s (("i", gU64) :: L1)) body) as R.
  { intros cur. rewrite block_flat by reflexivity. cbn [forallb]. rewrite andb_true_r.
    assert (tc_s L1 (SIf (EQuery "xs" "Decoding") [SAssign (EDeref P) (EMake (GSlice e) (EVar "__arraysz"))] None) = true) as ->.
    { cbn [GoType.tc_s]. rewrite (cond_query L1 "Decoding" O1) by (cbn; auto). rewrite block_flat by reflexivity. cbn [forallb GoType.tc_s]. rewrite Td.
      assert (tc L1 (EMake (GSlice e) (EVar "__arraysz")) = Some (KVal (GSlice e))) as ->.
      { change (tc L1 (EMake (GSlice e) (EVar "__arraysz"))) with (do k <- tc L1 (EVar "__arraysz") ;
          if unhidden G L1 "make" && valid_ty G L1 (GSlice e) && index_ok G n k && match under (GSlice e) with Some (GSlice _) => true | _ => false end then Some (KVal (GSlice e)) else None).
        rewrite (tc_local _ _ _ A1). cbn [pbind index_ok]. assert (unhidden G L1 "make" = true) as -> by unhides. rewrite (valid_any _ _ O1). cbn [valid_ty]. rewrite V, under_slice.
        unfold is_int, gU32. rewrite under_basic. reflexivity. }
      cbn [assignable]. unfold same_under. rewrite under_slice, U, same_refl. cbn [has_name andb negb]. rewrite orb_true_r. reflexivity. }
    cbn [andb]. cbn [GoType.tc_s].
    assert (tc L1 (EConv gU64 (ENum "0")) = Some (KCon (Some gU64) 0)) as ->.
    { change (tc L1 (EConv gU64 (ENum "0"))) with (if valid_ty G L1 gU64 then tc_conv G n (KCon None 0) gU64 else None). rewrite (valid_any _ _ O1), valid_u64.
      cbn [tc_conv]. unfold fits_in, gU64. rewrite under_basic. reflexivity. }
    cbn [def_ty]. change (negb (String.eqb "i" "_")) with true. unfold is_int, gU64 at 1. rewrite under_basic. change (mem "uint64" int_types) with true.
    cbn [occ]. change (String.eqb "i" "i") with true. cbn [orb andb]. rewrite (block_flat _ _ F). enough (tc_cond G n (("i", gU64) :: L1) (ELt (EVar "i") (EConv gU64 (EVar "__arraysz"))) = true) as -> by reflexivity.
    unfold tc_cond. assert (tc (("i", gU64) :: L1) (ELt (EVar "i") (EConv gU64 (EVar "__arraysz"))) = Some KBool) as ->; [|reflexivity].
    assert (tc (("i", gU64) :: L1) (EVar "i") = Some (KVar gU64)) as Ti by (apply tc_local; reflexivity).
    assert (tc (("i", gU64) :: L1) (EConv gU64 (EVar "__arraysz")) = Some (KVal gU64)) as Ta.
    { assert (tc (("i", gU64) :: L1) (EVar "__arraysz") = Some (KVar gU32)) as Tz by (apply tc_local; reflexivity).
      change (tc (("i", gU64) :: L1) (EConv gU64 (EVar "__arraysz"))) with (do k <- tc (("i", gU64) :: L1) (EVar "__arraysz") ; if valid_ty G (("i", gU64) :: L1) gU64 then tc_conv G n k gU64 else None).
      rewrite Tz. cbn [pbind]. rewrite (valid_any _ _ O2), valid_u64. cbn [tc_conv].
      assert (converts G n gU32 gU64 = true) as ->; [|reflexivity]. unfold converts, is_int, gU32, gU64. rewrite !under_basic. cbn [mem existsb]. rewrite !orb_true_r. reflexivity. }
    change (tc (("i", gU64) :: L1) (ELt (EVar "i") (EConv gU64 (EVar "__arraysz")))) with
      (do k <- tc (("i", gU64) :: L1) (EVar "i") ; do j <- tc (("i", gU64) :: L1) (EConv gU64 (EVar "__arraysz")) ; if tc_cmp G n (fun _ => ordered G n) k j then Some KBool else None).
    rewrite Ti, Ta. cbn [pbind]. unfold tc_cmp. cbn [ktype]. rewrite (assign_same (KVal gU64) gU64) by auto. unfold ordered, is_int, gU64. rewrite under_basic. reflexivity. }
  destruct (String.eqb sz "") eqn:Z; [apply R|]. rewrite block_flat by reflexivity. cbn [forallb orb]. rewrite andb_true_r. cbn [GoType.tc_s].
  rewrite (R []). rewrite (cond_cmp L1 "__arraysz" "uint32" sz EGt (or_intror eq_refl) O1 N A1) by (cbn; auto). rewrite block_flat by reflexivity. cbn [forallb GoType.tc_s].
  rewrite (tc_xs _ O1). unfold gState at 1. rewrite same_refl. change (state_sig "SetError") with (Some [gString]). cbv iota. cbn [tc_args GoType.tc assignable].
  unfold is_basic, gString. rewrite under_basic. change (String.eqb "string" "string") with true. fold gU32. cbn [andb]. btauto.
Qed.
Lemma tc_nil L : okL L -> tc L (EVar "nil") = Some KNil.
Proof.
  intros O. cbn [GoType.tc]. unfold tc_ident. rewrite (okL_look L "nil" O eq_refl). assert (mem "nil" (pkg_names G) = false) as ->; [|reflexivity].
  apply mem_false. intros J. apply (Hres _ J). right. inlist.
Qed.
Lemma ptr_good hi L P e body : okL L -> (hi = true -> hasi L = true) -> good_ptr hi P (GPtr e) -> valid_ty G [] e = true -> forallb flat body = true ->
  forallb (tc_s L) (ptr_body P e body) = forallb (tc_s (("opted", gBool) :: L)) body.
Proof.
  intros O I Hp V F. set (L1 := ("opted", gBool) :: L). assert (okL L1) as O1 by (apply okL_push; [exact O|inlist|discriminate]).
  assert (lookup "opted" L1 = Some gBool) as A1 by reflexivity. pose proof (good_deref _ _ _ Hp) as Hd.
  destruct (Hp L O I) as (k & T & K). pose proof (tc_deref L (EParen P) _ _ T K) as Td.
  destruct (Hp L1 O1 (fun h => hasi_keep _ _ _ (I h))) as (k1 & T1 & K1). pose proof (tc_deref L1 (EParen P) _ _ T1 K1) as Td1. clear T K T1 K1 k k1.
  assert (xb : tc_s L1 (xBool (EAddr (EVar "opted"))) = true) by (unfold xBool, gBool at 1; apply (call_local L1 "opted" "bool" "XdrBool" O1 A1 eq_refl eq_refl)).
  assert (tc_cond G n L1 (EVar "opted") = true) as C by (unfold tc_cond; rewrite (tc_local _ _ _ A1); cbn [ktype]; unfold is_basic, gBool; rewrite under_basic; reflexivity).
  assert (tc L (ENe (derefP P) (EVar "nil")) = Some KBool) as Tn.
  { unfold derefP. change (tc L (ENe (EDeref (EParen P)) (EVar "nil"))) with (do k <- tc L (EDeref (EParen P)) ; do j <- tc L (EVar "nil") ; if tc_cmp G n (comparable G n) k j then Some KBool else None).
    rewrite Td, (tc_nil _ O). cbn [pbind]. unfold tc_cmp. cbn [ktype assignable]. unfold nilable, comparable. rewrite under_ptr. reflexivity. }
  unfold ptr_body. cbn [forallb]. cbn [GoType.tc_s]. rewrite (cond_query L "Encoding" O), (cond_query L "Decoding" O) by (cbn; auto).
  rewrite (block_def _ _ _ _ _ _ KBool gBool Tn eq_refl). rewrite block_var. replace (mem "opted" ["_"]) with false by reflexivity.
  rewrite (valid_any _ _ O), valid_bool. rewrite !uses_one by reflexivity. cbn [negb andb].
  rewrite !block_flat by reflexivity. cbn [forallb]. fold L1. rewrite xb. cbn [andb GoType.tc_s]. rewrite C. rewrite (block_flat _ _ F).
  rewrite block_flat by (cbn [forallb flat]; exact F). cbn [forallb]. cbn [GoType.tc_s]. unfold derefP. rewrite Td1.
  assert (tc L1 (ENew e) = Some (KVal (GPtr e))) as ->.
  { cbn [GoType.tc]. assert (unhidden G L1 "new" = true) as -> by unhides. rewrite (valid_any _ _ O1), V. reflexivity. }
  rewrite (assign_same (KVal (GPtr e))) by auto. cbn [andb]. btauto.
Qed.
Lemma cint_arg L sz : okL L -> not_local sz = true ->
  match tc L (EConv gInt (size_expr sz)) with Some k => assignable G n k gInt | None => false end = cint G n sz.
Proof.
  intros O N. unfold cint. cbn [GoType.tc]. rewrite (tc_size_any L sz O N). rewrite (valid_any L gInt O), valid_int.
  destruct (tc [] (size_expr sz)) as [k|] eqn:E; [|reflexivity]. cbn [pbind].
  destruct (tc_conv G n k gInt) as [j|] eqn:J; [|reflexivity]. apply assign_same.
  destruct k as [t|t|[t|] z| | |]; cbn [tc_conv] in J; repeat match type of J with (if ?c then _ else _) = _ => destruct c end; try discriminate; injection J as <-; eauto.
Qed.
Lemma lookup_distinct {A} (fs : list (string * A)) f t : nodupb (filter (fun f => negb (String.eqb f "_")) (map fst fs)) = true -> In (f, t) fs -> String.eqb f "_" = false -> lookup f fs = Some t.
Proof.
  induction fs as [|[g u] fs IH]; cbn [map fst filter]; intros N I B; [destruct I|]. cbn [lookup]. destruct I as [[= -> ->]|I]; [rewrite String.eqb_refl; reflexivity|].
  destruct (String.eqb_spec f g) as [->|_].
  - rewrite B in N. cbn [negb nodupb] in N. apply andb_true_iff in N. destruct N as (N & _). apply negb_true_iff, mem_false in N. destruct N. apply filter_In. rewrite B. split; [|reflexivity]. apply (in_map fst) in I. exact I.
  - apply IH; [|exact I|exact B]. destruct (negb (String.eqb g "_")); [|exact N]. cbn [nodupb] in N. apply andb_true_iff in N. apply N.
Qed.
Lemma valid_fields L fs : valid_ty G L (GStruct fs) = true -> forall f t, In (f, t) fs -> valid_ty G L t = true.
Proof.
  cbn [valid_ty]. intros H. apply andb_true_iff in H. destruct H as (_ & H). revert H. induction fs as [|[g u] fs IH]; intros H f t I; [destruct I|].
  apply andb_true_iff in H. destruct H as (H1 & H2). destruct I as [[= -> ->]|I]; [exact H1|eapply IH; eassumption].
Qed.

Section Struct.
Variables (hi : bool) (P : expr) (b : gty) (fs : list (string * gty)) (L : locals).
Hypothesis Hu : under b = Some (GStruct fs).
Hypothesis Hv : valid_ty G [] (GStruct fs) = true.
Hypothesis Hp : good_ptr hi P b.
Hypothesis Ho : okL L.
Hypothesis Hi : hi = true -> hasi L = true.
(** The code of a member. *)
Definition member_ok (d : decl) : Prop :=
  forall fl body, gt_field d = Some fl -> (forall f, In f fl -> In f fs) -> gx_field d P = Some body -> cln_d d = true -> forallb (tc_s L) body = uok_d G n d.
Lemma items_ok l : Forall member_ok l -> forall fl body, (fix go l := match l with [] => Some [] | d :: l => do a <- gt_field d ; do b <- go l ; Some (a ++ b) end) l = Some fl ->
  (forall f, In f fl -> In f fs) -> gx_items P l = Some body -> cln (typeStruct l) = true -> forallb (tc_s L) body = uok G n (typeStruct l).
Proof.
  cbn [cln uok]. induction 1 as [|d l Hd _ IH]; intros fl body Hf Hin H C; cbn [gx_items] in H; [injection H as <-; reflexivity|].
  fold (gx_items P) in H. sinv H. sinv H. injection H as <-. sinv Hf. sinv Hf. injection Hf as <-. apply andb_true_iff in C. destruct C as (C1 & C2).
  rewrite forallb_app, (Hd _ _ E1 (fun f i => Hin f (in_or_app _ _ _ (or_introl i))) E C1), (IH _ _ eq_refl (fun f i => Hin f (in_or_app _ _ _ (or_intror i))) eq_refl C2). reflexivity.
Qed.

Definition chk (t : gty) (c : option expr * list stmt * bool) : bool :=
  match fst (fst c) with Some l => match tc L l with Some j => assignable G n j t | None => false end | None => true end && tc_block G n tc_s L [] (snd (fst c)).
Lemma labels_chk t body ls : ls <> [] -> forallb (fun s => not_local (cap s)) ls = true -> forallb flat body = true ->
  forallb (chk t) (label_clauses ls body) = forallb (fun s => cfits G n t (cap s)) ls && forallb (tc_s L) body.
Proof.
  intros Hn N F. assert (One : forall c bd, not_local (cap c) = true -> forallb flat bd = true -> forall fl, chk t (Some (val_expr (cap c)), bd, fl) = cfits G n t (cap c) && forallb (tc_s L) bd).
  { intros c bd Nc Fb fl. unfold chk. cbn [fst snd]. rewrite (tc_val_any L _ Ho Nc), (block_flat _ _ Fb). reflexivity. }
  induction ls as [|c ls IH]; [destruct (Hn eq_refl)|]. cbn [forallb] in N. apply andb_true_iff in N. destruct N as (N1 & N2). destruct ls as [|c2 ls].
  - cbn [label_clauses forallb]. rewrite (One c body N1 F). btauto.
  - change (label_clauses (c :: c2 :: ls) body) with ((Some (val_expr (cap c)), [], true) :: label_clauses (c2 :: ls) body).
    cbn [forallb]. rewrite (IH ltac:(discriminate) N2), (One c [] N1 eq_refl). cbn [forallb]. btauto.
Qed.
Lemma label_vals_app a c : label_vals G n L (a ++ c) = label_vals G n L a ++ label_vals G n L c.
Proof. induction a as [|[[[l|] s] fl] a IH]; [reflexivity| |exact IH]. cbn [label_vals app]. rewrite IH, app_assoc. reflexivity. Qed.
Lemma labels_vals body ls : forallb (fun s => not_local (cap s)) ls = true -> label_vals G n L (label_clauses ls body) = flat_map (fun s => cvalue G n (cap s)) ls.
Proof.
  intros N. assert (One : forall c, not_local (cap c) = true -> match tc L (val_expr (cap c)) with Some (KCon _ z) => [z] | _ => [] end = cvalue G n (cap c)).
  { intros c Nc. unfold cvalue. rewrite (tc_val_any L _ Ho Nc). reflexivity. }
  induction ls as [|c ls IH]; [reflexivity|]. cbn [forallb] in N. apply andb_true_iff in N. destruct N as (N1 & N2). destruct ls as [|c2 ls].
  - cbn [label_clauses label_vals flat_map]. rewrite (One c N1). reflexivity.
  - change (label_clauses (c :: c2 :: ls) body) with ((Some (val_expr (cap c)), [], true) :: label_clauses (c2 :: ls) body).
    cbn [label_vals]. rewrite (IH N2), (One c N1). reflexivity.
Qed.
Lemma labels_falls body ls r : ls <> [] -> falls_ok r = true -> falls_ok (label_clauses ls body ++ r) = true.
Proof.
  intros Hn Hr. induction ls as [|c ls IH]; [destruct (Hn eq_refl)|]. destruct ls as [|c2 ls].
  - cbn [label_clauses app falls_ok]. destruct r; [reflexivity|exact Hr].
  - change (label_clauses (c :: c2 :: ls) body) with ((Some (val_expr (cap c)), [], true) :: label_clauses (c2 :: ls) body). specialize (IH ltac:(discriminate)).
    cbn [app]. destruct (label_clauses (c2 :: ls) body ++ r) as [|x y] eqn:E; [destruct ls; discriminate|exact IH].
Qed.
Lemma labels_defs body ls : defaults (label_clauses ls body) = [].
Proof.
  induction ls as [|c ls IH]; [reflexivity|]. destruct ls as [|c2 ls]; [reflexivity|].
  change (label_clauses (c :: c2 :: ls) body) with ((Some (val_expr (cap c)), [], true) :: label_clauses (c2 :: ls) body). exact IH.
Qed.
Definition cln_cases : list (list string * decl) -> bool :=
  fix go l := match l with
              | [] => true
              | c :: l => negb (match fst c with [] => true | _ => false end) && forallb (fun s => not_local (cap s)) (fst c) && cln_d (snd c) && go l
              end.
Definition uok_cases : list (list string * decl) -> bool := fix go l := match l with [] => true | c :: l => uok_d G n (snd c) && go l end.
Definition gt_cs : list (list string * decl) -> option (list (string * gty)) := fix go l := match l with [] => Some [] | c :: l => do a <- gt_field (snd c) ; do b <- go l ; Some (a ++ b) end.
Lemma cases_ok t l : Forall (fun c => member_ok (snd c)) l -> forall fl cls, gt_cs l = Some fl -> (forall f, In f fl -> In f fs) -> gx_cases P l = Some cls -> cln_cases l = true ->
  forallb (chk t) cls = forallb (fun c => forallb (fun s => cfits G n t (cap s)) (fst c)) l && uok_cases l /\
  label_vals G n L cls = flat_map (fun c => flat_map (fun s => cvalue G n (cap s)) (fst c)) l /\ defaults cls = [] /\
  forall r, falls_ok r = true -> falls_ok (cls ++ r) = true.
Proof.
  induction 1 as [|c l Hd _ IH]; intros fl cls Hf Hin H C.
  - injection H as <-. repeat split; auto.
  - cbn [gx_cases] in H. fold (gx_cases P) in H. sinv H. sinv H. injection H as <-. cbn [gt_cs] in Hf. fold gt_cs in Hf. sinv Hf. sinv Hf. injection Hf as <-.
    cbn [cln_cases] in C. fold cln_cases in C. repeat (apply andb_true_iff in C; destruct C as (C & ?)).
    destruct (IH _ _ eq_refl (fun f i => Hin f (in_or_app _ _ _ (or_intror i))) eq_refl H) as (I1 & I2 & I3 & I4).
    assert (fst c <> []) as Hn by (destruct (fst c); discriminate).
    split; [|split; [|split]].
    + cbn [forallb uok_cases]. fold uok_cases. rewrite forallb_app, (labels_chk t _ _ Hn H1 (proj2 (proj2 gx_flat) _ _ _ E)), I1. rewrite (Hd _ _ E1 (fun f i => Hin f (in_or_app _ _ _ (or_introl i))) E H0). btauto.
    + cbn [flat_map]. rewrite label_vals_app, I2, (labels_vals _ _ H1). reflexivity.
    + unfold defaults in *. rewrite filter_app, I3. fold (defaults (label_clauses (fst c) l0)). rewrite labels_defs. reflexivity.
    + intros r Hr. rewrite <- app_assoc. apply labels_falls; auto.
Qed.
End Struct.

Lemma stands_basic b x : mem x basics = true -> stands b (GBasic x) -> exists u, under b = Some u /\ under (GBasic x) = Some u.
Proof. intros M S. apply stands_under; [exact S|apply valid_basic, M]. Qed.

Lemma good_code :
  (forall t hi P b g body L, gt t = Some g -> gx t P = Some body -> valid_ty G [] g = true -> stands b g -> good_ptr hi P b -> okL L -> (hi = true -> hasi L = true) -> cln t = true ->
     forallb (tc_s L) body = uok G n t) /\
  (forall t hi P b g body L, gt_dt t = Some g -> gx_dt t P = Some body -> valid_ty G [] g = true -> stands b g -> good_ptr hi P b -> okL L -> (hi = true -> hasi L = true) -> cln_dt t = true ->
     forallb (tc_s L) body = uok_dt G n t) /\
  (forall d hi P b fs L, under b = Some (GStruct fs) -> valid_ty G [] (GStruct fs) = true -> good_ptr hi P b -> okL L -> (hi = true -> hasi L = true) -> member_ok P fs L d).
Proof.
  apply ast_ind; try (intros; discriminate).
  - intros u hi P b g body L [= <-] [= <-] V S Hp O I _. destruct (Hp L O I) as (k & T & K). cbn [forallb uok]. unfold xU32.
    destruct u; erewrite call1; try eassumption; try reflexivity; apply stands_basic; try assumption; reflexivity.
  - intros u hi P b g body L [= <-] [= <-] V S Hp O I _. destruct (Hp L O I) as (k & T & K). cbn [forallb uok].
    destruct u; erewrite call1; try eassumption; try reflexivity; apply stands_basic; try assumption; reflexivity.
  - intros hi P b g body L [= <-] [= <-] V S Hp O I _. destruct (Hp L O I) as (k & T & K). cbn [forallb uok]. unfold xBool.
    erewrite call1; try eassumption; try reflexivity; apply stands_basic; try assumption; reflexivity.
  - intros l Hl hi P b g body L Hg H V S Hp O I C. rewrite gx_struct_eq in H. cbn [gt] in Hg.
    match type of Hg with pbind ?a _ = _ => destruct a as [fs|] eqn:Ef; [|discriminate] end. injection Hg as <-.
    assert (under b = Some (GStruct fs)) as U by (destruct (stands_under _ _ S V) as (w & A & B); rewrite under_struct in B; congruence).
    eapply items_ok; [|exact Ef|intros f i; exact i|exact H|exact C]. eapply Forall_impl; [|exact Hl]. intros d Hd. eapply Hd; eassumption.
  - intros sw c d Hs Hc Hd hi P b g body L Hg H V S Hp O I C. destruct sw as [|st sn]; [discriminate|]. rewrite gx_union_eq in H. sinv H. sinv H. sinv H. injection H as <-.
    change (gt (typeUnion (declName st sn) c d)) with (do a <- gt_field (declName st sn) ; do b <- gt_cs c ; do e <- match d with Some d => gt_field d | None => Some [] end ; Some (GStruct (a ++ b ++ e))) in Hg.
    cbn [gt_field] in Hg. destruct (gt_dt st) as [tg|] eqn:Et; [|discriminate]. cbn [pbind] in Hg. sinv Hg. sinv Hg. injection Hg as <-. set (fs := [(cap sn, tg)] ++ l2 ++ l3) in *.
    assert (under b = Some (GStruct fs)) as U by (destruct (stands_under _ _ S V) as (w & A & B); rewrite under_struct in B; rewrite A; symmetry; exact B).
    change (cln (typeUnion (declName st sn) c d)) with (cln_dt st && cln_cases c && match d with Some d => cln_d d | None => true end) in C.
    apply andb_true_iff in C. destruct C as (C & C3). apply andb_true_iff in C. destruct C as (C1 & C2).
    assert (dty st = tg) as Hdt by (unfold dty; rewrite Et; reflexivity).
    change (uok G n (typeUnion (declName st sn) c d)) with
      (uok_dt G n st && negb (String.eqb (cap sn) "_") && comparable G n KBool (dty st) && forallb (fun c => forallb (fun s => cfits G n (dty st) (cap s)) (fst c)) c &&
       distinct (flat_map (fun c => flat_map (fun s => cvalue G n (cap s)) (fst c)) c) && uok_cases c && match d with Some d => uok_d G n d | None => true end). rewrite Hdt.
    rewrite forallb_app. cbn [forallb]. rewrite andb_true_r. destruct (String.eqb (cap sn) "_") eqn:Eb.
    { cbn [negb]. rewrite andb_false_r. cbn [andb GoType.tc_s]. rewrite (sel_blank _ _ _ Eb). apply andb_false_r. }
    pose proof V as V'. cbn [valid_ty] in V'. apply andb_true_iff in V'. destruct V' as (Vn & _).
    assert (lookup (cap sn) fs = Some tg) as Fl by (apply lookup_distinct; [exact Vn|left; reflexivity|exact Eb]).
    assert (forallb (tc_s L) l = uok_dt G n st) as ->.
    { pose proof (Hs hi P b fs L U V Hp O I _ l (f_equal (fun o => do r <- o ; Some [(cap sn, r)]) Et) (fun f i => or_introl (match i with or_introl e => e | or_intror e => False_ind _ e end)) E C1) as Q.
      unfold uok_d in Q. rewrite Eb in Q. exact Q. }
    cbn [GoType.tc_s]. rewrite (sel_field L hi P b fs sn tg Hp O I U Fl Eb). cbn [ktype].
    assert (Forall (fun c => member_ok P fs L (snd c)) c) as Fc by (eapply Forall_impl; [|exact Hc]; intros x Hx; eapply Hx; eassumption).
    destruct (cases_ok P fs L O tg c Fc _ _ E2 (fun f i => or_intror (in_or_app _ _ _ (or_introl i))) E0 C2) as (R1 & R2 & R3 & R4).
    change (fun c0 : option expr * list stmt * bool => match fst (fst c0) with Some l => match tc L l with Some j => assignable G n j tg | None => false end | None => true end && tc_block G n tc_s L [] (snd (fst c0)))
      with (chk L tg). rewrite forallb_app, R1. rewrite label_vals_app, R2. unfold defaults. rewrite filter_app. fold (defaults l0). rewrite R3. cbn [app negb].
    assert (forallb (chk L tg) l1 = match d with Some d => uok_d G n d | None => true end /\ label_vals G n L l1 = [] /\ falls_ok l1 = true /\
            (List.length (filter (fun c0 : option expr * list stmt * bool => match fst (fst c0) with None => true | Some _ => false end) l1) <=? 1)%nat = true) as (Q1 & Q2 & Q3 & Q4).
    { destruct d as [dd|]; cbn [gx_def] in E1; [|injection E1 as <-; repeat split]. sinv E1. injection E1 as <-.
      cbn [forallb]. unfold chk. cbn [fst snd]. rewrite (block_flat _ _ (proj2 (proj2 gx_flat) _ _ _ E4)).
      rewrite (Hd dd eq_refl hi P b fs L U V Hp O I _ _ E3 (fun f i => or_intror (in_or_app _ _ _ (or_intror i))) E4 C3). repeat split. btauto. }
    rewrite Q1, Q2, Q4, (R4 _ Q3), app_nil_r. btauto.
  - intros m hi P b g body L [= <-] [= <-] V S Hp O I _. destruct (Hp L O I) as (k & T & K). destruct (stands_under _ _ S V) as (u & Ub & Ug).
    cbn [forallb uok]. rewrite andb_true_r. cbn [GoType.tc_s]. rewrite (tc_conv_ptr _ _ _ _ _ _ T K O V Ub Ug).
    cbn [valid_ty] in V. destruct (lookup (cap m) (g_types G)) as [g|] eqn:E; [|discriminate].
    assert (same_ty (GPtr (GNamed (cap m))) gState = false) as ->.
    { unfold gState. cbn [GoType.same_ty]. destruct (String.eqb_spec (cap m) "xdr.XdrState") as [X1|_]; [|reflexivity]. destruct (Hres _ (type_in _ _ E)). left. congruence. }
    rewrite Hm. assert (mem (cap m) (map fst (g_types G)) = true) as -> by (apply mem_In; eapply lookup_some_dom; exact E). cbn [tc_args]. rewrite (xs_arg _ O). reflexivity.
  - intros t IH hi P b g body L Hg H V S Hp O I C. exact (IH hi P b g body L Hg H V S Hp O I C).
  - intros t sz IH hi P b g body L Hg H V S Hp O I C. cbn [gt_dt gx_dt] in Hg, H. destruct (gt t) as [e|] eqn:Et; [|discriminate]. injection Hg as <-. sinv H. injection H as <-.
    cbn [cln_dt] in C. apply andb_true_iff in C. destruct C as (C1 & C2). cbn [forallb uok_dt]. rewrite (for_fixed L sz _ O C1 (proj1 gx_flat _ _ _ E)).
    assert (under b = Some (GArr sz e)) as U by (destruct (stands_under _ _ S V) as (w & A & B); rewrite under_arr in B; congruence).
    rewrite (proj1 bad_code t (fixedP P) _ (("i", gInt) :: L) E (fixed_bad _ _ _ _ _ _ Hp U Et) ltac:(apply okL_push; [exact O|inlist|auto]) C2). apply andb_true_r.
  - intros t sz IH hi P b g body L Hg H V S Hp O I C. cbn [gt_dt gx_dt] in Hg, H. destruct (gt t) as [e|] eqn:Et; [|discriminate]. injection Hg as <-. cbn [pbind] in H. sinv H. injection H as <-.
    cbn [cln_dt] in C. apply andb_true_iff in C. destruct C as (C1 & C2). cbn [forallb uok_dt].
    assert (under b = Some (GSlice e)) as U by (destruct (stands_under _ _ S V) as (w & A & B); rewrite under_slice in B; congruence).
    rewrite (arr_good hi L P b sz e _ O I Hp U V C1 (proj1 gx_flat _ _ _ E)). rewrite andb_true_r. f_equal.
    apply (IH true (elemP P) e e); try assumption; try reflexivity; [left; reflexivity|eapply good_elem; eassumption|].
    apply okL_push; [apply okL_push; [exact O|inlist|discriminate]|inlist|auto].
  - intros sz hi P b g body L [= <-] [= <-] V S Hp O I _. destruct (Hp L O I) as (k & T & K). destruct (stands_under _ _ S V) as (u & Ub & Ug). rewrite under_arr in Ug. injection Ug as <-.
    cbn [forallb uok_dt]. rewrite andb_true_r. cbn [GoType.tc_s]. change (lib_sig "XdrArray") with (Some [gState; GSlice gByte]). cbv iota. cbn [tc_args].
    assert (unhidden G L "xdr" = true) as -> by unhides. rewrite (xs_arg _ O).
    assert (tc L (EAll (EParen (EDeref P))) = Some (KVal (GSlice gByte))) as ->.
    { change (tc L (EAll (EParen (EDeref P)))) with (do k <- tc L (EDeref P) ; tc_slice G n k). rewrite (tc_deref _ _ _ _ T K). cbn [pbind]. unfold tc_slice. cbn [ktype]. rewrite Ub. reflexivity. }
    rewrite (assign_same (KVal (GSlice gByte))) by auto. reflexivity.
  - intros sz hi P b g body L [= <-] [= <-] V S Hp O I C. destruct (Hp L O I) as (k & T & K). destruct (stands_under _ _ S V) as (u & Ub & Ug).
    cbn [forallb uok_dt]. rewrite andb_true_r. cbn [GoType.tc_s]. change (lib_sig "XdrVarArray") with (Some [gState; gInt; GPtr (GSlice gByte)]). cbv iota. cbn [tc_args].
    assert (unhidden G L "xdr" = true) as -> by unhides. rewrite (xs_arg _ O), (cint_arg L sz O C), (arg_conv _ _ _ _ _ _ T K O V Ub Ug). btauto.
  - intros sz hi P b g body L [= <-] [= <-] V S Hp O I C. destruct (Hp L O I) as (k & T & K). destruct (stands_under _ _ S V) as (u & Ub & Ug).
    cbn [forallb uok_dt]. rewrite andb_true_r. cbn [GoType.tc_s]. change (lib_sig "XdrString") with (Some [gState; gInt; GPtr gString]). cbv iota. cbn [tc_args].
    assert (unhidden G L "xdr" = true) as -> by unhides. rewrite (xs_arg _ O), (cint_arg L sz O C), (arg_conv _ _ _ _ _ _ T K O V Ub Ug). btauto.
  - intros t IH hi P b g body L Hg H V S Hp O I C. cbn [gt_dt gx_dt] in Hg, H. destruct (gt t) as [e|] eqn:Et; [|discriminate]. injection Hg as <-. cbn [pbind] in H. sinv H. injection H as <-.
    assert (b = GPtr e) as -> by (destruct S as [S|(x & _ & S)]; [exact S|destruct (Hptr _ _ e S eq_refl)]).
    rewrite (ptr_good hi L P e _ O I Hp V (proj1 gx_flat _ _ _ E)). cbn [uok_dt].
    apply (IH hi (derefP P) e e); try assumption; try reflexivity; [left; reflexivity|apply good_deref; exact Hp|apply okL_push; [exact O|inlist|discriminate]].
  - intros hi P b fs L U V Hp O I fl body [= <-] _ [= <-] _. reflexivity.
  - intros t m IH hi P b fs L U V Hp O I fl body Hf Hin H C. cbn [gt_field gx_field cln_d uok_d] in *. destruct (gt_dt t) as [g|] eqn:Eg; [|discriminate]. injection Hf as <-.
    destruct (String.eqb (cap m) "_") eqn:Eb; [apply (proj1 (proj2 bad_code) t (fieldP P m) body L H (bad_blank _ _ Eb) O C)|].
    pose proof (Hin _ (or_introl eq_refl)) as Hi. pose proof V as V'. cbn [valid_ty] in V'. apply andb_true_iff in V'. destruct V' as (Vn & _).
    apply (IH hi (fieldP P m) g g body L eq_refl H (valid_fields _ _ V _ _ Hi) (or_introl eq_refl)); try assumption.
    eapply good_field; try eassumption. apply lookup_distinct; assumption.
Qed.
End P.
