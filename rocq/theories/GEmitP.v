(** When emission panics. *)
From Verif Require Import GoLex XLex Gram GParse GParseP Emit.
Open Scope string_scope.
Open Scope list_scope.

(** ** Induction over declarations *)
Section Ind.
Variables (P : typespec -> Prop) (Q : declType -> Prop) (R : decl -> Prop).
Hypotheses
  (Hint : forall u, P (typeInt u)) (Hhyper : forall u, P (typeHyper u)) (Hfloat : P typeFloat) (Hdouble : P typeDouble)
  (Hquad : P typeQuadruple) (Hbool : P typeBool) (Henum : forall l, P (typeEnum l))
  (Hstruct : forall l, Forall R l -> P (typeStruct l))
  (Hunion : forall s c d, R s -> Forall (fun x => R (snd x)) c -> (forall e, d = Some e -> R e) -> P (typeUnion s c d))
  (Hident : forall n, P (typeIdent n))
  (Hts : forall t, P t -> Q (declTypeTypespec t)) (Harr : forall t sz, P t -> Q (declTypeArray t sz))
  (Hvarr : forall t sz, P t -> Q (declTypeVarArray t sz)) (Hop : forall sz, Q (declTypeOpaqueArray sz))
  (Hvop : forall sz, Q (declTypeOpaqueVarArray sz)) (Hstr : forall sz, Q (declTypeString sz)) (Hptr : forall t, P t -> Q (declTypePtr t))
  (Hvoid : R declVoid) (Hname : forall t n, Q t -> R (declName t n)).
Fixpoint ts_ind (t : typespec) : P t :=
  match t with
  | typeInt u => Hint u | typeHyper u => Hhyper u | typeFloat => Hfloat | typeDouble => Hdouble | typeQuadruple => Hquad
  | typeBool => Hbool | typeEnum l => Henum l
  | typeStruct l => Hstruct l ((fix go l : Forall R l := match l with [] => Forall_nil _ | d :: l => Forall_cons _ (d_ind d) (go l) end) l)
  | typeUnion s c d =>
      Hunion s c d (d_ind s)
        ((fix go c : Forall (fun x => R (snd x)) c :=
            match c with [] => Forall_nil _ | x :: c => Forall_cons (P := fun x : list string * decl => R (snd x)) x (d_ind (snd x)) (go c) end) c)
        (match d return forall e, d = Some e -> R e with
         | Some d => fun e E => match E in _ = o return match o with Some e => R e | None => True end with eq_refl => d_ind d end
         | None => fun e E => match E in _ = o return match o with Some e => R e | None => True end with eq_refl => I end
         end)
  | typeIdent n => Hident n
  end
with dt_ind (t : declType) : Q t :=
  match t with
  | declTypeTypespec t => Hts t (ts_ind t) | declTypeArray t sz => Harr t sz (ts_ind t) | declTypeVarArray t sz => Hvarr t sz (ts_ind t)
  | declTypeOpaqueArray sz => Hop sz | declTypeOpaqueVarArray sz => Hvop sz | declTypeString sz => Hstr sz | declTypePtr t => Hptr t (ts_ind t)
  end
with d_ind (d : decl) : R d :=
  match d with declVoid => Hvoid | declName t n => Hname t n (dt_ind t) end.
Lemma ast_ind : (forall t, P t) /\ (forall t, Q t) /\ (forall d, R d).
Proof. exact (conj ts_ind (conj dt_ind d_ind)). Qed.
End Ind.

(** ** Unsupported types *)
(** A type that cannot be encoded: float, double, quadruple, an anonymous enum or a union
    switched on void occurs in it. *)
Inductive unenc : typespec -> Prop :=
| un_float : unenc typeFloat
| un_double : unenc typeDouble
| un_quad : unenc typeQuadruple
| un_enum l : unenc (typeEnum l)
| un_struct l d : In d l -> unenc_d d -> unenc (typeStruct l)
| un_void c d : unenc (typeUnion declVoid c d)
| un_switch s c d : unenc_d s -> unenc (typeUnion s c d)
| un_case s c d x : In x c -> unenc_d (snd x) -> unenc (typeUnion s c d)
| un_default s c d : unenc_d d -> unenc (typeUnion s c (Some d))
with unenc_dt : declType -> Prop :=
| un_ts t : unenc t -> unenc_dt (declTypeTypespec t)
| un_arr t sz : unenc t -> unenc_dt (declTypeArray t sz)
| un_varr t sz : unenc t -> unenc_dt (declTypeVarArray t sz)
| un_ptr t : unenc t -> unenc_dt (declTypePtr t)
with unenc_d : decl -> Prop :=
| un_name t n : unenc_dt t -> unenc_d (declName t n).
(** A type without a Go type: quadruple occurs in it. *)
Inductive quad : typespec -> Prop :=
| q_quad : quad typeQuadruple
| q_struct l d : In d l -> quad_d d -> quad (typeStruct l)
| q_switch s c d : quad_d s -> quad (typeUnion s c d)
| q_case s c d x : In x c -> quad_d (snd x) -> quad (typeUnion s c d)
| q_default s c d : quad_d d -> quad (typeUnion s c (Some d))
with quad_dt : declType -> Prop :=
| q_ts t : quad t -> quad_dt (declTypeTypespec t)
| q_arr t sz : quad t -> quad_dt (declTypeArray t sz)
| q_varr t sz : quad t -> quad_dt (declTypeVarArray t sz)
| q_ptr t : quad t -> quad_dt (declTypePtr t)
with quad_d : decl -> Prop :=
| q_name t n : quad_dt t -> quad_d (declName t n).

Inductive unsupported : defn -> Prop :=
| us_typedef d : unenc_d d -> unsupported (defTypedef d)
| us_struct n l d : In d l -> unenc_d d -> unsupported (defStruct n l)
| us_union n s c d : unenc (typeUnion s c d) -> unsupported (defUnion n s c d)
| us_prog p v c t : In v (pd_vers p) -> In c (pv_calls v) -> pc_arg c = Some t \/ pc_res c = Some t -> quad t -> unsupported (defProg p).

(** ** goType *)
Definition items_type := fix go (l : list decl) := match l with [] => Some "" | d :: l => do a <- nameGotype d ; do b <- go l ; Some (a +++ b) end.
Definition cases_type := fix go (l : list (list string * decl)) := match l with [] => Some "" | c :: l => do a <- nameGotype (snd c) ; do b <- go l ; Some (a +++ b) end.
Lemma goType_struct l : goType (typeStruct l) = do r <- items_type l ; Some ("struct { " +++ r +++ "}").
Proof. reflexivity. Qed.
Lemma goType_union s c d : goType (typeUnion s c d) =
  do a <- nameGotype s ; do b <- cases_type c ; do e <- match d with Some d => nameGotype d | None => Some "" end ; Some ("struct { " +++ a +++ b +++ e +++ "}").
Proof. reflexivity. Qed.

Lemma bind_none {A B} (o : option A) (f : A -> B) : (do a <- o ; Some (f a)) = None <-> o = None.
Proof. destruct o; cbn; split; congruence. Qed.
Lemma items_none (l : list decl) : items_type l = None <-> exists d, In d l /\ nameGotype d = None.
Proof.
  induction l as [|d l IH]; cbn [items_type]; [split; [discriminate|intros (d & [] & _)]|]. split.
  - destruct (nameGotype d) eqn:E; [|intros _; exists d; split; [left; reflexivity|exact E]]. cbn. intros H. fold items_type in H. destruct (items_type l); [discriminate|].
    destruct (proj1 IH eq_refl) as (e & I & N). exists e. split; [right; exact I|exact N].
  - intros (e & [->|I] & N); [rewrite N; reflexivity|]. destruct (nameGotype d); [|reflexivity]. cbn. fold items_type. rewrite (proj2 IH); [reflexivity|eauto].
Qed.
Lemma cases_none (l : list (list string * decl)) : cases_type l = None <-> exists d, In d l /\ nameGotype (snd d) = None.
Proof.
  induction l as [|d l IH]; cbn [cases_type]; [split; [discriminate|intros (d & [] & _)]|]. split.
  - destruct (nameGotype (snd d)) eqn:E; [|intros _; exists d; split; [left; reflexivity|exact E]]. cbn. intros H. fold cases_type in H. destruct (cases_type l); [discriminate|].
    destruct (proj1 IH eq_refl) as (e & I & N). exists e. split; [right; exact I|exact N].
  - intros (e & [->|I] & N); [rewrite N; reflexivity|]. destruct (nameGotype (snd d)); [|reflexivity]. cbn. fold cases_type. rewrite (proj2 IH); [reflexivity|eauto].
Qed.

Lemma goType_none : (forall t, goType t = None <-> quad t) /\ (forall t, declGoType t = None <-> quad_dt t) /\ (forall d, nameGotype d = None <-> quad_d d).
Proof.
  apply ast_ind; try (intros; cbn; split; [discriminate|inversion 1]; fail); try (cbn; split; [constructor|reflexivity]; fail).
  - intros l IH. rewrite goType_struct, bind_none, items_none. rewrite Forall_forall in IH. split.
    + intros (d & I & N). apply (q_struct l d I). apply IH; assumption.
    + inversion 1 as [|l' d I N| | |]; subst. exists d. split; [exact I|]. apply IH; assumption.
  - intros s c d Hs Hc Hd. rewrite goType_union. rewrite Forall_forall in Hc.
    destruct (nameGotype s) eqn:Es; cbn [pbind].
    2: { split; [intros _; apply q_switch, Hs; reflexivity|reflexivity]. }
    destruct (cases_type c) eqn:Ec; cbn [pbind].
    2: { split; [intros _|reflexivity]. apply cases_none in Ec. destruct Ec as (x & I & N). apply (q_case s c d x I). apply Hc; assumption. }
    destruct d as [d|]; [|cbn; split; [discriminate|]].
    + rewrite bind_none, (Hd d eq_refl). split; [apply q_default|]. inversion 1 as [| |s' c' d' N|s' c' d' x I N|s' c' d' N]; subst; [| |exact N].
      * apply Hs in N. congruence.
      * apply Hc in N; [|exact I]. assert (cases_type c = None) by (apply cases_none; eauto). congruence.
    + inversion 1 as [| |s' c' d' N|s' c' d' x I N|s' c' d' N]; subst.
      * apply Hs in N. congruence.
      * apply Hc in N; [|exact I]. assert (cases_type c = None) by (apply cases_none; eauto). congruence.
  - intros t IH. cbn. rewrite IH. split; [apply q_ts|inversion 1; assumption].
  - intros t sz IH. cbn. rewrite bind_none, IH. split; [apply q_arr|inversion 1; assumption].
  - intros t sz IH. cbn. rewrite bind_none, IH. split; [apply q_varr|inversion 1; assumption].
  - intros t IH. cbn. rewrite bind_none, IH. split; [apply q_ptr|inversion 1; assumption].
  - intros t n IH. cbn. rewrite bind_none, IH. split; [apply q_name|inversion 1; assumption].
Qed.
Lemma quad_unenc : (forall t, quad t -> unenc t) /\ (forall t, quad_dt t -> unenc_dt t) /\ (forall d, quad_d d -> unenc_d d).
Proof.
  apply ast_ind; try (intros; inversion H; fail); try (inversion 1; fail).
  - intros _. apply un_quad.
  - intros l IH H. rewrite Forall_forall in IH. inversion H as [|l' d I N| | |]; subst. apply (un_struct l d I). apply IH; assumption.
  - intros s c d Hs Hc Hd H. rewrite Forall_forall in Hc. inversion H as [| |s' c' d' N|s' c' d' x I N|s' c' d' N]; subst.
    + apply un_switch, Hs, N.
    + apply (un_case s c d x I). apply Hc; assumption.
    + apply un_default, (Hd d' eq_refl), N.
  - intros t IH H. inversion H. constructor. auto.
  - intros t sz IH H. inversion H. constructor. auto.
  - intros t sz IH H. inversion H. constructor. auto.
  - intros t IH H. inversion H. constructor. auto.
  - intros t n IH H. inversion H. constructor. auto.
Qed.

(** ** goXdr *)
Definition items_xdr (p : string) := fix go (l : list decl) := match l with [] => Some "" | d :: l => do a <- fieldXdr d p ; do b <- go l ; Some (a +++ b) end.
Definition cases_xdr (p : string) := fix go (l : list (list string * decl)) :=
  match l with [] => Some "" | c :: l => do a <- fieldXdr (snd c) p ; do b <- go l ; Some (case_labels (fst c) +++ a +++ b) end.
Lemma goXdr_struct l p : goXdr (typeStruct l) p = items_xdr p l. Proof. reflexivity. Qed.
Lemma goXdr_union st sn c d p : goXdr (typeUnion (declName st sn) c d) p =
  let switchName := "(" +++ p +++ ")." +++ cap sn in
  do a <- declXdr st ("&(" +++ switchName +++ ")") ; do b <- cases_xdr p c ;
  do e <- match d with Some d => do a <- fieldXdr d p ; Some ("default:" +++ NL +++ a) | None => Some "" end ;
  Some (a +++ "switch " +++ switchName +++ " {" +++ NL +++ b +++ e +++ "}" +++ NL).
Proof. reflexivity. Qed.
Lemma items_xdr_none p (l : list decl) : items_xdr p l = None <-> exists d, In d l /\ fieldXdr d p = None.
Proof.
  induction l as [|d l IH]; cbn [items_xdr]; [split; [discriminate|intros (d & [] & _)]|]. fold (items_xdr p). split.
  - destruct (fieldXdr d p) eqn:E; [|intros _; exists d; split; [left; reflexivity|exact E]]. cbn. intros H. destruct (items_xdr p l); [discriminate|].
    destruct (proj1 IH eq_refl) as (e & I & N). exists e. split; [right; exact I|exact N].
  - intros (e & [->|I] & N); [rewrite N; reflexivity|]. destruct (fieldXdr d p); [|reflexivity]. cbn. rewrite (proj2 IH); [reflexivity|eauto].
Qed.
Lemma cases_xdr_none p (l : list (list string * decl)) : cases_xdr p l = None <-> exists d, In d l /\ fieldXdr (snd d) p = None.
Proof.
  induction l as [|d l IH]; cbn [cases_xdr]; [split; [discriminate|intros (d & [] & _)]|]. fold (cases_xdr p). split.
  - destruct (fieldXdr (snd d) p) eqn:E; [|intros _; exists d; split; [left; reflexivity|exact E]]. cbn. intros H. destruct (cases_xdr p l); [discriminate|].
    destruct (proj1 IH eq_refl) as (e & I & N). exists e. split; [right; exact I|exact N].
  - intros (e & [->|I] & N); [rewrite N; reflexivity|]. destruct (fieldXdr (snd d) p); [|reflexivity]. cbn. rewrite (proj2 IH); [reflexivity|eauto].
Qed.

Definition decl_ok (d : decl) : Prop :=
  match d with declVoid => True | declName t n => forall p, declXdr t p = None <-> unenc_d d end.
Lemma field_none d p : decl_ok d -> (fieldXdr d p = None <-> unenc_d d).
Proof. destruct d as [|t n]; [split; [discriminate|inversion 1]|]. intros H. apply H. Qed.

Lemma goXdr_none_aux : (forall t, forall p, goXdr t p = None <-> unenc t) /\ (forall t, forall p, declXdr t p = None <-> unenc_dt t) /\ (forall d, decl_ok d).
Proof.
  apply ast_ind; try (intros; cbn; split; [discriminate|inversion 1]; fail); try (intros; cbn; split; [constructor|reflexivity]; fail).
  - intros l IH p. rewrite goXdr_struct, items_xdr_none. rewrite Forall_forall in IH. split.
    + intros (d & I & N). apply (un_struct l d I). apply (field_none d p (IH d I)); assumption.
    + inversion 1 as [| | | |l' d I N| | | |]; subst. exists d. split; [exact I|]. apply field_none; [apply IH; exact I|assumption].
  - intros s c d Hs Hc Hd p. rewrite Forall_forall in Hc. destruct s as [|st sn]; [split; [constructor|reflexivity]|].
    rewrite goXdr_union. cbn zeta. cbn [decl_ok] in Hs. destruct (declXdr st _) eqn:Es; cbn [pbind].
    2: { apply Hs in Es. split; [intros _; apply un_switch, Es|reflexivity]. }
    assert (Ns : ~ unenc_d (declName st sn)) by (intros N; apply (Hs ("&(" +++ ("(" +++ p +++ ")." +++ cap sn) +++ ")")) in N; congruence).
    destruct (cases_xdr p c) eqn:Ec; cbn [pbind].
    2: { split; [intros _|reflexivity]. apply cases_xdr_none in Ec. destruct Ec as (x & I & N). apply (un_case _ c d x I). apply (field_none _ p); [apply Hc, I|exact N]. }
    assert (Nc : forall x, In x c -> ~ unenc_d (snd x)).
    { intros x I N. apply (field_none _ p) in N; [|apply Hc, I]. assert (cases_xdr p c = None) by (apply cases_xdr_none; eauto). congruence. }
    destruct d as [d|]; cbn [pbind].
    + rewrite !bind_none, (field_none _ p (Hd d eq_refl)). split; [apply un_default|].
      inversion 1 as [| | | | | |s' c' d' N|s' c' d' x I N|s' c' d' N]; subst; [contradiction|exfalso; eapply Nc; eassumption|exact N].
    + split; [discriminate|]. inversion 1 as [| | | | | |s' c' d' N|s' c' d' x I N|s' c' d' N]; subst; [contradiction|exfalso; eapply Nc; eassumption].
  - intros t IH p. cbn. rewrite IH. split; [apply un_ts|inversion 1; assumption].
  - intros t sz IH p. cbn. rewrite bind_none, IH. split; [apply un_arr|inversion 1; assumption].
  - intros t sz IH p. cbn. destruct (goType t) eqn:Et; cbn [pbind].
    + rewrite bind_none, IH. split; [apply un_varr|inversion 1; assumption].
    + apply goType_none, quad_unenc in Et. split; [intros _; apply un_varr, Et|reflexivity].
  - intros t IH p. cbn. destruct (goType t) eqn:Et; cbn [pbind].
    + rewrite bind_none, IH. split; [apply un_ptr|inversion 1; assumption].
    + apply goType_none, quad_unenc in Et. split; [intros _; apply un_ptr, Et|reflexivity].
  - exact I.
  - intros t n IH p. cbn. rewrite IH. split; [apply un_name|inversion 1; assumption].
Qed.
Lemma goXdr_none t p : goXdr t p = None <-> unenc t. Proof. apply goXdr_none_aux. Qed.
Lemma declXdr_none t p : declXdr t p = None <-> unenc_dt t. Proof. apply goXdr_none_aux. Qed.
Lemma fieldXdr_none d p : fieldXdr d p = None <-> unenc_d d. Proof. apply field_none, goXdr_none_aux. Qed.

(** ** Emission *)
Lemma cat_opt_none {A} (f : A -> option string) l : cat_opt f l = None <-> exists a, In a l /\ f a = None.
Proof.
  induction l as [|d l IH]; cbn; [split; [discriminate|intros (d & [] & _)]|]. split.
  - destruct (f d) eqn:E; [|intros _; exists d; split; [left; reflexivity|exact E]]. cbn. intros H. destruct (cat_opt f l); [discriminate|].
    destruct (proj1 IH eq_refl) as (e & I & N). exists e. split; [right; exact I|exact N].
  - intros (e & [->|I] & N); [rewrite N; reflexivity|]. destruct (f d); [|reflexivity]. cbn. rewrite (proj2 IH); [reflexivity|eauto].
Qed.
Lemma emit_list_none {A} (f : A -> option (list write)) l : emit_list f l = None <-> exists a, In a l /\ f a = None.
Proof.
  induction l as [|d l IH]; cbn; [split; [discriminate|intros (d & [] & _)]|]. split.
  - destruct (f d) eqn:E; [|intros _; exists d; split; [left; reflexivity|exact E]]. cbn. intros H. destruct (emit_list f l); [discriminate|].
    destruct (proj1 IH eq_refl) as (e & I & N). exists e. split; [right; exact I|exact N].
  - intros (e & [->|I] & N); [rewrite N; reflexivity|]. destruct (f d); [|reflexivity]. cbn. rewrite (proj2 IH); [reflexivity|eauto].
Qed.
Lemma struct_line_none d : struct_line d = None <-> quad_d d.
Proof.
  destruct d as [|t n]; cbn; [split; [discriminate|inversion 1]|]. rewrite bind_none, (proj1 (proj2 goType_none)).
  split; [apply q_name|inversion 1; assumption].
Qed.
Lemma maybe_none o : maybeGoType o = None <-> exists t, o = Some t /\ quad t.
Proof.
  destruct o as [t|]; cbn; [|split; [discriminate|intros (t & E & _); discriminate]]. rewrite (proj1 goType_none).
  split; [eauto|intros (t' & [= <-] & H); exact H].
Qed.
Definition call_quad (c : progCall) : Prop := exists t, (pc_arg c = Some t \/ pc_res c = Some t) /\ quad t.
Lemma call_none {B} c (f : string -> string -> B) : (do a <- maybeGoType (pc_arg c) ; do r <- maybeGoType (pc_res c) ; Some (f a r)) = None <-> call_quad c.
Proof.
  destruct (maybeGoType (pc_arg c)) eqn:Ea; cbn [pbind].
  - rewrite bind_none, maybe_none. split; [intros (t & E & H); exists t; auto|]. intros (t & [E|E] & H); [|eauto].
    assert (maybeGoType (pc_arg c) = None) by (apply maybe_none; eauto). congruence.
  - apply maybe_none in Ea. destruct Ea as (t & E & H). split; [exists t; auto|reflexivity].
Qed.
Lemma emitVer_none n v : emitVer n v = None <-> exists c, In c (pv_calls v) /\ call_quad c.
Proof.
  unfold emitVer. cbn zeta. destruct (cat_opt iface_line (pv_calls v)) eqn:E1; cbn [pbind].
  - rewrite bind_none, cat_opt_none. split; intros (c & I & H); exists c; (split; [exact I|]); unfold wrapper in *; [apply call_none in H; exact H|].
    apply call_none. exact H.
  - split; [intros _|reflexivity]. apply cat_opt_none in E1. destruct E1 as (c & I & H). exists c. split; [exact I|]. unfold iface_line in H. apply call_none in H. exact H.
Qed.
Theorem emit_none fl d : emit fl d = None <-> unsupported d.
Proof.
  destruct d as [n v|d|n l|n l|n s c d|p]; cbn [emit].
  - split; [discriminate|inversion 1].
  - split.
    + destruct d as [|t n]; [discriminate|]. cbn. destruct (declGoType t) eqn:E; cbn [pbind].
      * intros H. constructor. constructor. destruct t; cbn [pbind] in H; apply bind_none, declXdr_none in H; exact H.
      * intros _. constructor. constructor. apply quad_unenc. apply goType_none. exact E.
    + inversion 1 as [d' N| | |]; subst. destruct N as [t n N]. cbn. destruct (declGoType t); [|reflexivity]. cbn [pbind].
      destruct t; apply bind_none, declXdr_none; exact N.
  - split; [discriminate|inversion 1].
  - unfold emitStruct. split.
    + destruct (cat_opt struct_line l) eqn:E; cbn [pbind].
      * rewrite bind_none, goXdr_none. inversion 1 as [| | | |l' d I N| | | |]; subst. econstructor; eassumption.
      * intros _. apply cat_opt_none in E. destruct E as (d & I & N). apply struct_line_none in N. apply (us_struct n l d I). apply quad_unenc, N.
    + inversion 1 as [|n' l' d I N| |]; subst. destruct (cat_opt struct_line l); [|reflexivity]. cbn [pbind]. apply bind_none, goXdr_none. econstructor; eassumption.
  - unfold emitUnion. split.
    + destruct (goType _) eqn:E; cbn [pbind]; [rewrite bind_none, goXdr_none; apply us_union|].
      intros _. apply us_union, quad_unenc, goType_none, E.
    + inversion 1 as [| |n' s' c' d' N|]; subst. destruct (goType _); [|reflexivity]. cbn [pbind]. apply bind_none, goXdr_none. exact N.
  - unfold emitProg. rewrite bind_none, emit_list_none. split.
    + intros (v & I & H). apply emitVer_none in H. destruct H as (c & J & t & O & Q). econstructor; eassumption.
    + inversion 1 as [| | |p' v c t I J O Q]; subst. exists v. split; [exact I|]. apply emitVer_none. exists c. split; [exact J|]. exists t. auto.
Qed.
Theorem generate_none fl src ds : front src = Some ds -> (generate fl src = None <-> exists d, In d ds /\ unsupported d).
Proof.
  intros H. unfold generate. rewrite H. cbn [pbind]. rewrite bind_none, emit_list_none.
  split; intros (d & I & N); exists d; (split; [exact I|]); apply (emit_none fl); exact N.
Qed.
Lemma reject_none fl src ts : x_tokens src = Some ts -> (forall l, ~ D_spec l ts) -> generate fl src = None.
Proof.
  intros E N. unfold generate, front. rewrite E. destruct (parse ts) as [l|] eqn:P; [|reflexivity]. exfalso. apply (N l), GParseP.parse_iff, P.
Qed.
