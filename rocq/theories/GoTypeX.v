(** Fixed-size arrays and the other declarations: consequences of [check_spec]. *)
From Verif Require Import GoLex XLex Gram GParse Emit GEmitP GoText GoTop GoRes GoPkg GoWf RepoText GenText.
From Verif Require Import Bytes XdrLib Types Interp GoAst GoSem GElab GoType GoTypeS GoTypeP GoTypeQ GoTypeG.
Open Scope string_scope.
Open Scope Z_scope.
Open Scope list_scope.

Lemma vacuous_fixed :
  (forall t, vacuous t = true -> fixed t = false) /\ (forall t, vacuous_dt t = true -> fixed_dt t = false) /\ (forall d, vacuous_d d = true -> fixed_d d = false).
Proof.
  apply ast_ind; try (intros; discriminate); try (intros; reflexivity).
  - intros l. cbn [vacuous fixed]. induction l as [|d l IH]; intros F H; [reflexivity|]. inversion F as [|? ? Hd Hl]; subst. apply andb_true_iff in H. destruct H as [H1 H2]. rewrite (Hd H1). exact (IH Hl H2).
  - intros t IH H. exact (IH H).
  - intros t sz IH H. cbn [vacuous_dt fixed_dt] in *. rewrite H, (IH H). reflexivity.
  - intros t m IH H. exact (IH H).
Qed.
Section Nop.
Variable G : gpkg.
Variable n : nat.
Lemma nop_vacuous :
  (forall t, nop G n t = true -> vacuous t = true) /\ (forall t, nop_dt G n t = true -> vacuous_dt t = true) /\ (forall d, nop_d G n d = true -> vacuous_d d = true).
Proof.
  apply ast_ind; try (intros; discriminate); try (intros; reflexivity).
  - intros l. cbn [nop vacuous]. induction l as [|d l IH]; intros F H; [reflexivity|]. inversion F as [|? ? Hd Hl]; subst. apply andb_true_iff in H. destruct H as [H1 H2]. rewrite (Hd H1). exact (IH Hl H2).
  - intros t IH H. exact (IH H).
  - intros t sz IH H. cbn [nop_dt vacuous_dt] in *. apply andb_true_iff in H. exact (IH (proj2 H)).
  - intros t m IH H. exact (IH H).
Qed.
Lemma uok_fixed :
  (forall t, uok G n t = true -> fixed t = false) /\ (forall t, uok_dt G n t = true -> fixed_dt t = false) /\ (forall d, uok_d G n d = true -> fixed_d d = false).
Proof.
  apply ast_ind; try (intros; discriminate); try (intros; reflexivity).
  - intros l. cbn [uok fixed]. induction l as [|d l IH]; intros F H; [reflexivity|]. inversion F as [|? ? Hd Hl]; subst. apply andb_true_iff in H. destruct H as [H1 H2]. rewrite (Hd H1). exact (IH Hl H2).
  - intros sw cases def Hs Hc Hd H. cbn [uok fixed] in *. apply andb_true_iff in H. destruct H as [H H3]. apply andb_true_iff in H. destruct H as [H1 H2].
    assert (fixed_d sw = false) as ->.
    { destruct sw as [|st sn]; [reflexivity|]. apply Hs. repeat (apply andb_true_iff in H1; destruct H1 as [H1 ?]). cbn [uok_d]. apply negb_true_iff in H5. rewrite H5. exact H1. }
    cbn [orb]. apply orb_false_iff. split.
    + clear H1 H3 Hs Hd. revert H2. induction Hc as [|c l Hx _ IH]; intros H2; [reflexivity|]. apply andb_true_iff in H2. destruct H2 as [Ha Hb]. rewrite (Hx Ha). exact (IH Hb).
    + destruct def as [d|]; [|reflexivity]. exact (Hd d eq_refl H3).
  - intros t IH H. exact (IH H).
  - intros t sz IH H. cbn [uok_dt fixed_dt] in *. apply andb_true_iff in H. destruct H as [_ H]. apply nop_vacuous in H. rewrite H. exact (proj1 vacuous_fixed _ H).
  - intros t sz IH H. cbn [uok_dt fixed_dt] in *. apply andb_true_iff in H. exact (IH (proj2 H)).
  - intros t IH H. exact (IH H).
  - intros t m IH H. cbn [uok_d fixed_d] in *. destruct (String.eqb (cap m) "_").
    + apply nop_vacuous in H. exact (proj1 (proj2 vacuous_fixed) _ H).
    + exact (IH H).
Qed.
End Nop.
Lemma uok_code G n d : spec_code G n d = true -> fixed_defn d = false.
Proof.
  intros C. destruct (uok_fixed G n) as (U1 & U2 & U3). destruct d as [nm v|[|t nm]|nm items|nm items|nm s cs d|p]; cbn [fixed_defn fixed_d spec_code] in *; try reflexivity; auto.
Qed.
(** ** The generated texts *)
Lemma typed_text fl src ds o : ok_flags fl = true -> front src = Some ds -> forallb wd_defn ds = true -> generate fl src = Some o ->
  exists P, prog_of fl ds = Some P /\ declares (fl_pkg fl) (files_of o) P /\ (clean_prog P ds = true -> (compiles P <-> exists n, prog_ok P n ds = true)).
Proof.
  intros F Fr W Ge. destruct (gen_files fl src ds o F Fr W Ge) as (P & Pr & D). exists P. split; [exact Pr|]. split; [exact D|]. intros C. unfold compiles.
  split; intros (n & H); exists n; [rewrite <- (check_prog_spec fl ds P n Pr C)|rewrite (check_prog_spec fl ds P n Pr C)]; exact H.
Qed.
Lemma fixed_rejected fl src ds o pkg P d : ok_flags fl = true -> front src = Some ds -> forallb wd_defn ds = true -> generate fl src = Some o -> declares pkg (files_of o) P ->
  clean_prog P ds = true -> In d ds -> fixed_defn d = true -> ~ compiles P.
Proof.
  intros F Fr W Ge D C I X H. destruct (typed_text fl src ds o F Fr W Ge) as (P' & _ & D' & T). rewrite (declares_det _ _ _ _ _ D D') in *. apply (T C) in H. destruct H as (n & H).
  unfold prog_ok in H. do 2 (apply andb_true_iff in H; destruct H as (H & _)). apply andb_true_iff in H. destruct H as (_ & H). unfold spec_ok in H. apply andb_true_iff in H. destruct H as (_ & H).
  rewrite forallb_forall in H. rewrite (uok_code _ _ _ (H _ I)) in X. discriminate.
Qed.
(** The element of a fixed-size array is not a pointer. *)
Lemma fixed_deref fl ds G n t e L a k : pkg_of fl ds = Some G -> clean G ds = true -> gt t = Some e ->
  tc G n L (EIdx a (EVar "i")) = Some k -> ktype k = Some e -> tc G n L (EDeref (EIdx a (EVar "i"))) = None.
Proof.
  intros Hp Hc T E K. assert (Q : tc G n L (EDeref (EIdx a (EVar "i"))) = (do k <- tc G n L (EIdx a (EVar "i")) ; do t <- ktype k ; match under G n t with Some (GPtr b) => Some (KVar b) | _ => None end)) by reflexivity.
  rewrite Q, E. cbn [pbind]. rewrite K. cbn [pbind]. destruct (under G n e) as [u|] eqn:U; [|reflexivity]. destruct u; try reflexivity. exfalso.
  destruct e; try (unfold under in U; destruct n; discriminate U).
  - exact (named_noptr G n (decl_noptr fl ds G Hp Hc) x u U).
  - exact (gt_noptr t _ e T eq_refl).
Qed.
(** ** Computing *)
Definition check_src (fl : flags) (src : string) (n : nat) : option bool := do ds <- front src ; do P <- prog_of fl ds ; Some (check_prog P n).
Lemma check_src_ok fl src n P files p : declares p files P -> (exists ds, front src = Some ds /\ prog_of fl ds = Some P) -> check_src fl src n = Some true -> compiles P.
Proof. intros _ (ds & Fr & Pr) H. unfold check_src in H. rewrite Fr in H. cbn [pbind] in H. rewrite Pr in H. cbn [pbind] in H. exists n. congruence. Qed.
Lemma committed_compiles fl src p files E n : (exists P, spec_prog fl src = Some (E, P) /\ declares p files P) -> check_src fl src n = Some true ->
  forall P, declares p files P -> compiles P.
Proof.
  intros (P' & S & D') H P D. rewrite (declares_det _ _ _ _ _ D D'). apply spec_prog_inv in S. destruct S as (ds & Fr & S & _). apply supported_prog_inv in S. destruct S as (_ & _ & Pr & _).
  eapply check_src_ok; eauto.
Qed.
(** ** Both halves of the claim as first stated fail *)
(** A fixed-size array occurs in the specification. *)
Fixpoint arr (t : typespec) : bool :=
  match t with
  | typeStruct items => (fix go l := match l with [] => false | d :: l => arr_d d || go l end) items
  | typeUnion sw cases def =>
      arr_d sw ||
      (fix go (l : list (list string * decl)) := match l with [] => false | c :: l => arr_d (snd c) || go l end) cases ||
      match def with Some d => arr_d d | None => false end
  | _ => false
  end
with arr_dt (t : declType) : bool :=
  match t with
  | declTypeTypespec t | declTypeVarArray t _ | declTypePtr t => arr t
  | declTypeArray _ _ => true
  | declTypeOpaqueArray _ | declTypeOpaqueVarArray _ | declTypeString _ => false
  end
with arr_d (d : decl) : bool := match d with declVoid => false | declName t _ => arr_dt t end.
Definition arr_defn (d : defn) : bool :=
  match d with
  | defTypedef d => arr_d d
  | defStruct _ items => arr (typeStruct items)
  | defUnion _ s c d => arr (typeUnion s c d)
  | defEnum _ _ | defConst _ _ | defProg _ => false
  end.
Definition src_empty : string := "typedef struct { } a[3];".
Definition src_bound : string := "enum e { A = 1 }; struct s { int x<A>; };".
Lemma accepted fl src n : check_src fl src n = Some true -> ok_flags fl = true -> (match front src with Some ds => forallb wd_defn ds | None => false end) = true -> generate fl src <> None ->
  exists ds o P, front src = Some ds /\ generate fl src = Some o /\ declares (fl_pkg fl) (files_of o) P /\ compiles P.
Proof.
  intros C F W Ge. destruct (front src) as [ds|] eqn:Fr; [|discriminate]. destruct (generate fl src) as [o|] eqn:Go; [|congruence]. destruct (typed_text fl src ds o F Fr W Go) as (P & Pr & D & _).
  exists ds, o, P. repeat split; [exact D|]. eapply check_src_ok; [exact D|eauto|exact C].
Qed.
Lemma every_element_refuted : ~ (forall fl src ds o pkg P d, ok_flags fl = true -> front src = Some ds -> generate fl src = Some o -> declares pkg (files_of o) P ->
  In d ds -> arr_defn d = true -> ~ compiles P).
Proof.
  intros H. destruct (accepted (make_flags "p") src_empty 4) as (ds & o & P & Fr & Ge & D & C); try (vm_compute; reflexivity); [vm_compute; discriminate|].
  assert (exists d, In d ds /\ arr_defn d = true) as (d & I & A).
  { assert (match front src_empty with Some ds => existsb arr_defn ds | None => false end = true) as Q by (vm_compute; reflexivity). rewrite Fr in Q. apply existsb_exists in Q. exact Q. }
  exact (H (make_flags "p") src_empty ds o _ P d eq_refl Fr Ge D I A C).
Qed.
Lemma all_other_refuted : ~ (forall fl src E P, ok_flags fl = true -> spec_prog fl src = Some (E, P) -> compiles P).
Proof.
  intros H. destruct (spec_prog (make_flags "p") src_bound) as [[E P]|] eqn:S; [|vm_compute in S; discriminate].
  specialize (H (make_flags "p") src_bound E P eq_refl S). destruct H as (n & H). destruct (spec_prog_inv _ _ _ _ S) as (ds & Fr & Sp & _). apply supported_prog_inv in Sp. destruct Sp as (_ & _ & Pr & _).
  assert (clean_prog P ds = true) as C.
  { assert (match front src_bound with Some ds => match prog_of (make_flags "p") ds with Some P => clean_prog P ds | None => false end | None => false end = true) as Q by (vm_compute; reflexivity). rewrite Fr, Pr in Q. exact Q. }
  rewrite (check_prog_spec _ ds P n Pr C) in H. unfold prog_ok in H. do 2 (apply andb_true_iff in H; destruct H as (H & _)). apply andb_true_iff in H. destruct H as (_ & H). unfold spec_ok in H. apply andb_true_iff in H. destruct H as (_ & H).
  vm_compute in Fr. apply some_eq in Fr. subst ds. vm_compute in Pr. apply some_eq in Pr. subst P. cbn [forallb] in H. apply andb_true_iff in H. destruct H as (_ & H). vm_compute in H. discriminate.
Qed.
Lemma rfc1057_compiles : forall P, declares "rfc1057" [rfc1057_xdr_go; rfc1057_types_go] P -> compiles P.
Proof. apply (committed_compiles _ _ _ _ _ 16 rfc1057_committed). vm_compute. reflexivity. Qed.
Lemma rfc1813_compiles : forall P, declares "rfc1813" [rfc1813_xdr_go; rfc1813_types_go] P -> compiles P.
Proof. apply (committed_compiles _ _ _ _ _ 16 rfc1813_committed). vm_compute. reflexivity. Qed.
