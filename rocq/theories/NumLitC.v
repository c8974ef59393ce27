(** Constants of the generated package: the value the package gives one is the value its text has,
    directly or through other constants. *)
From Coq Require Import Ascii String List ZArith Lia Bool.
From Verif Require Import GoLex XLex Gram GParse Emit GoText GoTop GoRes GoPkg GoWf Types GoAst GoSem GElab GSimB GoTypeG GoCap NumLit.
Import ListNotations.
Open Scope string_scope.
Open Scope list_scope.

(** ** In terms of the specification *)
(** The names a package declares and the texts it gives them: constants under their own name
    (out.go:444-446), enumeration members, programs, versions and procedures under the exported one
    (out.go:381-387, 482-484). *)
Inductive declared (ds : list defn) : string -> string -> Prop :=
| De_const n v : In (defConst n v) ds -> declared ds n v
| De_item e items x v : In (defEnum e items) ds -> In (x, v) items -> declared ds (cap x) v
| De_prog p : In (defProg p) ds -> declared ds (cap (pd_name p)) (pd_id p)
| De_vers p v : In (defProg p) ds -> In v (pd_vers p) -> declared ds (cap (pv_name v)) (pv_id v)
| De_proc p v c : In (defProg p) ds -> In v (pd_vers p) -> In c (pv_calls v) -> declared ds (cap (pc_name c)) (pc_id c).
(** A name means a number: its text is a literal of that value, or a name that means it. *)
Inductive means (ds : list defn) : string -> Z -> Prop :=
| Me_lit n v z : declared ds n v -> go_int v z -> means ds n z
| Me_ref n v z : declared ds n v -> head_is is_digit v = false -> means ds v z -> means ds n z.

(** ** Proofs *)
Lemma declared_iff fl ds n v : declared ds n v <-> exists c, In c (flat_map (const_decl fl) ds) /\ c_name c = n /\ c_val c = v.
Proof.
  split.
  - intros [n' v' H|e items x v' H I|p H|p pv H I|p pv c H I J].
    + eexists. split; [apply in_flat_map; exists (defConst n' v'); split; [exact H|left; reflexivity]|split; reflexivity].
    + eexists. split; [apply in_flat_map; exists (defEnum e items); split; [exact H|]; cbn [const_decl]; apply in_map; exact I|split; reflexivity].
    + eexists. split; [apply in_flat_map; exists (defProg p); split; [exact H|left; reflexivity]|split; reflexivity].
    + eexists. split; [apply in_flat_map; exists (defProg p); split; [exact H|]; cbn [const_decl]; right; apply in_flat_map; exists pv; split; [exact I|left; reflexivity]|split; reflexivity].
    + eexists. split; [apply in_flat_map; exists (defProg p); split; [exact H|]; cbn [const_decl]; right; apply in_flat_map; exists pv; split; [exact I|right; apply in_map; exact J]|split; reflexivity].
  - intros (c & H & <- & <-). apply in_flat_map in H. destruct H as (d & Id & H). destruct d as [n' v'|dd|n' m|n' m|n' s cs dd|p]; cbn [const_decl] in H; try (destruct H; fail).
    + destruct H as [<-|[]]. apply De_const, Id.
    + apply in_map_iff in H. destruct H as ([x v'] & <- & I). exact (De_item ds n' m x v' Id I).
    + destruct H as [<-|H]; [exact (De_prog ds p Id)|]. apply in_flat_map in H. destruct H as (pv & I & [<-|H]); [exact (De_vers ds p pv Id I)|]. apply in_map_iff in H. destruct H as (pc & <- & J). exact (De_proc ds p pv pc Id I J).
Qed.
Section Consts.
Variable fl : flags.
Variable ds : list defn.
Variable P : gprog.
Hypothesis Hp : prog_of fl ds = Some P.
Hypothesis Hc : compiles P.
Let G := gp_pkg P.
Lemma consts_are : g_consts G = flat_map (const_decl fl) ds.
Proof. exact (proj1 (proj2 (proj2 (GoCap.prog_parts fl ds P Hp)))). Qed.
Lemma nodup_names : NoDup (map c_name (g_consts G)).
Proof. unfold G. rewrite (proj2 (names_declared _ _ _ Hp)). exact (nodup_r _ _ (compiles_nodup _ _ _ Hp Hc)). Qed.
Lemma find_declared n v : declared ds n v <-> exists c, find_const n (g_consts G) = Some c /\ c_val c = v.
Proof.
  rewrite (declared_iff fl), <- consts_are. split.
  - intros (c & I & <- & V). exists c. split; [exact (find_const_nodup c _ nodup_names I)|exact V].
  - intros (c & F & V). destruct (GSimB.find_const_in _ _ _ F) as [I N]. exists c. auto.
Qed.
(** Names met on the way to a literal, without repetition. *)
Inductive path : list string -> string -> Z -> Prop :=
| Pa_lit n v z : declared ds n v -> go_int v z -> path [n] n z
| Pa_ref n v z l : declared ds n v -> head_is is_digit v = false -> path l v z -> path (n :: l) n z.
Lemma path_cut l n z : path l n z -> forall m, In m l -> exists a l', l = a ++ l' /\ path l' m z.
Proof.
  induction 1 as [n v z D V|n v z l D V H IH]; intros m I.
  - destruct I as [<-|[]]. exists [], [n]. split; [reflexivity|eapply Pa_lit; eauto].
  - destruct I as [<-|I]; [exists [], (n :: l); split; [reflexivity|eapply Pa_ref; eauto]|]. destruct (IH m I) as (a & l' & -> & Q). exists (n :: a), l'. auto.
Qed.
Lemma means_path n z : means ds n z -> exists l, path l n z /\ NoDup l.
Proof.
  induction 1 as [n v z D V|n v z D V H (l & Q & N)].
  - exists [n]. split; [eapply Pa_lit; eauto|]. constructor; [intros []|constructor].
  - destruct (in_dec string_dec n l) as [I|I].
    + destruct (path_cut _ _ _ Q n I) as (a & l' & -> & Q'). exists l'. split; [exact Q'|]. exact (nodup_r _ _ N).
    + exists (n :: l). split; [eapply Pa_ref; eauto|constructor; auto].
Qed.
Lemma path_declared l n z : path l n z -> incl l (map c_name (g_consts G)).
Proof.
  assert (B : forall m v, declared ds m v -> In m (map c_name (g_consts G))).
  { intros m v D. apply find_declared in D. destruct D as (c & F & _). destruct (GSimB.find_const_in _ _ _ F) as [I <-]. apply in_map, I. }
  induction 1 as [n v z D V|n v z l D V H IH]; intros m [<-|I]; eauto. destruct I.
Qed.
Lemma path_val l n z : path l n z -> const_val G (List.length l) n = Some z.
Proof.
  induction 1 as [n v z D V|n v z l D V H IH]; cbn [List.length const_val].
  - apply find_declared in D. destruct D as (c & -> & ->). pose proof (go_int_digit _ _ V) as A. rewrite A. apply num_val_go; assumption.
  - apply find_declared in D. destruct D as (c & -> & ->). rewrite V. exact IH.
Qed.
Lemma val_means k : forall n z, const_val G k n = Some z -> means ds n z.
Proof.
  induction k as [|k IH]; intros n z H; [discriminate|]. cbn [const_val] in H. destruct (find_const n (g_consts G)) as [c|] eqn:F; [|discriminate].
  assert (D : declared ds n (c_val c)) by (apply find_declared; eauto). destruct (head_is is_digit (c_val c)) eqn:A.
  - apply (Me_lit ds n _ z D). apply num_val_go; assumption.
  - exact (Me_ref ds n _ z D A (IH _ _ H)).
Qed.
Lemma means_val n z : means ds n z <-> cval G n = Some z.
Proof.
  split; [|apply val_means]. intros H. destruct (means_path _ _ H) as (l & Q & N). unfold cval. apply (const_val_mono G (List.length l)); [|exact (path_val _ _ _ Q)].
  rewrite <- (map_length c_name). apply le_S. exact (NoDup_incl_length N (path_declared _ _ _ Q)).
Qed.
End Consts.
Lemma text_consts fl src ds P : generated fl src ds P -> compiles P -> forall n z, means ds n z <-> cval (gp_pkg P) n = Some z.
Proof. intros H C n z. exact (means_val fl ds P (proj1 (generated_prog _ _ _ _ H)) C n z). Qed.
Lemma means_nonneg ds n z : means ds n z -> (0 <= z)%Z.
Proof. induction 1 as [n v z D V|n v z D V H IH]; [exact (go_int_nonneg _ _ V)|exact IH]. Qed.
Lemma no_minus fl src ts : go_tokens src = Some ts -> In (GOp "-") ts -> front src = None /\ generate fl src = None.
Proof.
  intros H I. assert (X : x_tokens src = None).
  { unfold x_tokens. rewrite H. clear H. induction ts as [|t ts IH]; [destruct I|]. cbn [all_some]. destruct I as [->|I]; [reflexivity|]. rewrite (IH I). destruct (Lex t); reflexivity. }
  assert (F : front src = None) by (unfold front; rewrite X; reflexivity). split; [exact F|]. unfold generate. rewrite F. reflexivity.
Qed.
Lemma xdr_num s z : xdr_int s z -> head_is is_digit s = true /\ num_val s = Some z.
Proof. intros H. apply xdr_go in H. pose proof (go_int_digit _ _ H) as D. split; [exact D|]. apply num_val_go; assumption. Qed.
Lemma text_sizes fl src ds P : generated fl src ds P -> compiles P -> forall s z, size_val (gp_pkg P) s = Some z <-> go_int s z \/ head_is is_digit s = false /\ means ds s z.
Proof.
  intros H C s z. unfold size_val. destruct (head_is is_digit s) eqn:A.
  - rewrite (num_val_go s z A). split; [auto|intros [V|[X _]]; [exact V|discriminate X]].
  - rewrite <- (text_consts _ _ _ _ H C). split; [auto|]. intros [V|[_ M]]; [apply go_int_digit in V; congruence|exact M].
Qed.
