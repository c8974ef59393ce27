(** Constants where a specification uses them: the limits and labels of the types in GElab.v are
    the numbers the specification says. *)
From Coq Require Import Ascii String List ZArith Lia Bool.
From Verif Require Import Bytes XdrLib GoLex XLex Gram GParse Emit Types GoAst GoSem GElab GSimB GoTypeG GoCap NumLit NumLitC.
Import ListNotations.
Open Scope string_scope.
Open Scope Z_scope.
Open Scope list_scope.

(** ** In terms of the specification (RFC 4506, 4.17, 6.2, 6.4) *)
Inductive named (ds : list defn) : string -> string -> Prop :=
| Na_const n v : In (defConst n v) ds -> named ds n v
| Na_item e items x v : In (defEnum e items) ds -> In (x, v) items -> named ds x v.
(** A literal, or a name given to what stands for the number. *)
Inductive stands (ds : list defn) : string -> Z -> Prop :=
| St_lit s z : go_int s z -> stands ds s z
| St_ref s v z : head_is is_digit s = false -> named ds s v -> stands ds v z -> stands ds s z.
(** No name is given two values. *)
Definition unambiguous (ds : list defn) : Prop := forall s v v', named ds s v -> named ds s v' -> v = v'.

(** ** Proofs *)
Lemma named_iff ds n v : named ds n v <-> exists c, In c (xconsts ds) /\ xc_name c = n /\ xc_val c = v.
Proof.
  unfold xconsts. split.
  - intros [n' v' H|e items x v' H I].
    + eexists. split; [apply in_flat_map; exists (defConst n' v'); split; [exact H|left; reflexivity]|split; reflexivity].
    + eexists. split; [apply in_flat_map; exists (defEnum e items); split; [exact H|]; cbn [xconsts_of]; apply in_map; exact I|split; reflexivity].
  - intros (c & H & <- & <-). apply in_flat_map in H. destruct H as (d & Id & H). destruct d as [n' v'|dd|n' m|n' m|n' s cs dd|p]; cbn [xconsts_of] in H; try (destruct H; fail).
    + destruct H as [<-|[]]. apply Na_const, Id.
    + apply in_map_iff in H. destruct H as ([x v'] & <- & I). exact (Na_item ds n' m x v' Id I).
Qed.
Lemma find_x_in x l c : find_x x l = Some c -> In c l /\ xc_name c = x.
Proof.
  induction l as [|a l IH]; [discriminate|]. cbn [find_x]. destruct (String.eqb x (xc_name a)) eqn:E; [intros [= <-]; apply String.eqb_eq in E; split; [left; reflexivity|auto]|]. intros H. destruct (IH H). split; [right|]; assumption.
Qed.
Lemma find_x_some x l : In x (map xc_name l) -> exists c, find_x x l = Some c.
Proof. induction l as [|a l IH]; [intros []|]. cbn [map find_x]. intros H. destruct (String.eqb x (xc_name a)) eqn:E; [eauto|]. destruct H as [H|H]; [subst x; rewrite String.eqb_refl in E; discriminate|exact (IH H)]. Qed.
Section Spec.
Variable ds : list defn.
Hypothesis U : unambiguous ds.
Let K := xconsts ds.
Lemma find_named n v : named ds n v <-> exists c, find_x n K = Some c /\ xc_val c = v.
Proof.
  split.
  - intros D. assert (I : In n (map xc_name K)). { apply named_iff in D. destruct D as (c & I & <- & _). apply in_map, I. }
    destruct (find_x_some n K I) as (c & F). exists c. split; [exact F|]. destruct (find_x_in _ _ _ F) as [J N]. apply (U n); [|exact D]. apply named_iff. exists c. auto.
  - intros (c & F & V). destruct (find_x_in _ _ _ F) as [I N]. apply named_iff. exists c. auto.
Qed.
(** From a name to a literal, without repetition. *)
Inductive way : list string -> string -> Z -> Prop :=
| Wa_lit n v z : named ds n v -> go_int v z -> way [n] n z
| Wa_ref n v z l : named ds n v -> head_is is_digit v = false -> way l v z -> way (n :: l) n z.
Lemma way_cut l n z : way l n z -> forall m, In m l -> exists a l', l = a ++ l' /\ way l' m z.
Proof.
  induction 1 as [n v z D V|n v z l D V H IH]; intros m I.
  - destruct I as [<-|[]]. exists [], [n]. split; [reflexivity|eapply Wa_lit; eauto].
  - destruct I as [<-|I]; [exists [], (n :: l); split; [reflexivity|eapply Wa_ref; eauto]|]. destruct (IH m I) as (a & l' & -> & Q). exists (n :: a), l'. auto.
Qed.
Lemma stands_way s z : stands ds s z -> go_int s z \/ head_is is_digit s = false /\ exists l, way l s z /\ NoDup l.
Proof.
  induction 1 as [s z V|s v z Hs D H IH]; [left; exact V|right]. split; [exact Hs|]. destruct IH as [V|(Hv & l & W & N)].
  - exists [s]. split; [eapply Wa_lit; eauto|]. constructor; [intros []|constructor].
  - destruct (in_dec string_dec s l) as [I|I].
    + destruct (way_cut _ _ _ W s I) as (a & l' & -> & W'). exists l'. split; [exact W'|exact (nodup_r _ _ N)].
    + exists (s :: l). split; [eapply Wa_ref; eauto|constructor; auto].
Qed.
Lemma way_names l n z : way l n z -> incl l (map xc_name K).
Proof.
  assert (B : forall m v, named ds m v -> In m (map xc_name K)). { intros m v D. apply named_iff in D. destruct D as (c & I & <- & _). apply in_map, I. }
  induction 1 as [n v z D V|n v z l D V H IH]; intros m [<-|I]; eauto. destruct I.
Qed.
Lemma way_val l n z : way l n z -> forall k, (List.length l <= k)%nat -> xval_n K k n = Some z.
Proof.
  induction 1 as [n v z D V|n v z l D V H IH]; intros [|k] L; cbn [List.length] in L; try lia; cbn [xval_n].
  - apply find_named in D. destruct D as (c & -> & ->). pose proof (go_int_digit _ _ V) as A. rewrite A. apply num_val_go; assumption.
  - apply find_named in D. destruct D as (c & -> & ->). rewrite V. apply IH. lia.
Qed.
Lemma val_stands k : forall n z, head_is is_digit n = false -> xval_n K k n = Some z -> stands ds n z.
Proof.
  induction k as [|k IH]; intros n z Hn H; [discriminate|]. cbn [xval_n] in H. destruct (find_x n K) as [c|] eqn:F; [|discriminate].
  assert (D : named ds n (xc_val c)) by (apply find_named; eauto). apply (St_ref ds n _ z Hn D). destruct (head_is is_digit (xc_val c)) eqn:A.
  - apply St_lit. apply num_val_go; assumption.
  - exact (IH _ _ A H).
Qed.
Lemma stands_val s z : stands ds s z <-> xval K s = Some z.
Proof.
  unfold xval. split.
  - intros H. destruct (stands_way _ _ H) as [V|(Hs & l & W & N)].
    + pose proof (go_int_digit _ _ V) as A. rewrite A. apply num_val_go; assumption.
    + rewrite Hs. apply (way_val _ _ _ W). rewrite <- (map_length xc_name). apply le_S. exact (NoDup_incl_length N (way_names _ _ _ W)).
  - intros H. destruct (head_is is_digit s) eqn:A; [apply St_lit; apply num_val_go; assumption|exact (val_stands _ _ _ A H)].
Qed.
Lemma stands_nonneg s z : stands ds s z -> 0 <= z.
Proof. induction 1 as [s z V|s v z Hs D H IH]; [exact (go_int_nonneg _ _ V)|exact IH]. Qed.
Lemma stands_fun s z z' : stands ds s z -> stands ds s z' -> z = z'.
Proof. intros A B. apply stands_val in A. apply stands_val in B. congruence. Qed.
Lemma limits s z : s <> "" -> stands ds s z -> z <= MaxUint32 ->
  xbound K s = Some (Some z) /\ el_dt K (declTypeString s) = Some (CString (Some z)) /\ el_dt K (declTypeOpaqueVarArray s) = Some (CVarOpaque (Some z)) /\
  el_dt K (declTypeOpaqueArray s) = Some (COpaque (Z.to_nat z)) /\ (forall t c, el K t = Some c -> el_dt K (declTypeVarArray t s) = Some (CVarArray (Some z) c)).
Proof.
  intros N H L. pose proof (stands_nonneg _ _ H) as P. apply stands_val in H.
  assert (R : (0 <=? z) && (z <=? MaxUint32) = true) by (apply andb_true_iff; split; apply Z.leb_le; assumption).
  assert (B : xbound K s = Some (Some z)). { unfold xbound. apply String.eqb_neq in N. rewrite N, H, R. reflexivity. }
  split; [exact B|]. split; [cbn [el_dt]; rewrite B; reflexivity|]. split; [cbn [el_dt]; rewrite B; reflexivity|]. split; [cbn [el_dt]; rewrite H; cbn; rewrite R; reflexivity|].
  intros t c E. cbn [el_dt]. rewrite B. fold (el K t). rewrite E. reflexivity.
Qed.
Lemma labels_are ls zs : (forall s, In s ls -> s <> "TRUE" /\ s <> "FALSE") -> (Forall2 (stands ds) ls zs <-> xlabels K ls = Some zs).
Proof.
  intros N. revert zs. induction ls as [|s ls IH]; intros zs.
  - split; [intros H; inversion H; reflexivity|intros [= <-]; constructor].
  - assert (X : xlabel K s = xval K s). { destruct (N s (or_introl eq_refl)) as [A B]. unfold xlabel. apply String.eqb_neq in A, B. rewrite A, B. reflexivity. }
    change (xlabels K (s :: ls)) with (match xlabel K s, xlabels K ls with Some b, Some r => Some (b :: r) | _, _ => None end). rewrite X. specialize (IH (fun x I => N x (or_intror I))). split.
    + intros H. inversion H as [|? z ? zs' A B]; subst. apply stands_val in A. apply IH in B. rewrite A, B. reflexivity.
    + destruct (xval K s) as [z|] eqn:V; [|discriminate]. destruct (xlabels K ls) as [r|] eqn:R; [|discriminate]. intros [= <-]. constructor; [apply stands_val; exact V|apply IH; reflexivity].
Qed.
End Spec.
