(** A result of the parser of GoCst.v does not depend on its bound. *)
From Verif Require Import GoLex GLexP XLex Gram GParse Emit GoAst GLexQ GoCst GoCstP GoText GoTop.
Open Scope string_scope.
Open Scope list_scope.

Definition up {A} (f g : gparser A) : Prop := forall ts x, f ts = Some x -> g ts = Some x.
Lemma up_use {A} (f g : gparser A) ts x : up f g -> f ts = Some x -> g ts = Some x.
Proof. intros U. apply U. Qed.
Ltac mstep :=
  match goal with
  | |- Some _ = Some _ -> _ => exact (fun H => H)
  | |- None = Some _ -> _ => discriminate
  | U : up ?f ?g |- ?f _ = Some _ -> _ => exact (U _ _)
  | U : forall b, up (?f ?n b) _ |- ?f ?n ?b _ = Some _ -> _ => exact (U b _ _)
  | U : forall b c, up (?f ?n b c) _ |- ?f ?n ?b ?c _ = Some _ -> _ => exact (U b c _ _)
  | |- pbind ?a ?k = Some _ -> _ => 
      first [ match goal with
              | U : up ?f _ |- _ => match a with f ?ts => let E := fresh "E" in destruct a as [[? ?]|] eqn:E; [rewrite (U _ _ E)|discriminate] end
              | U : forall b, up (?f ?n b) _ |- _ => match a with f n ?b ?ts => let E := fresh "E" in destruct a as [[? ?]|] eqn:E; [rewrite (U b _ _ E)|discriminate] end
              end
            | match a with match ?z with _ => _ end => destruct z end
            | match a with pbind ?z _ => 
                first [ match goal with U : up ?f _ |- _ => match z with f ?ts => let E := fresh "E" in destruct z as [[? ?]|] eqn:E; [rewrite (U _ _ E)|discriminate] end end
                      | destruct z as [[? ?]|]; [|discriminate] ] end
            | destruct a as [[? ?]|]; [|discriminate]
            | destruct a as [?|]; [|discriminate] ]; cbn [pbind]
  | |- match ?z with _ => _ end = Some _ -> _ => destruct z
  | |- (let '(_, _) := ?z in _) = Some _ -> _ => destruct z
  end.
Ltac mono := repeat mstep.
Lemma ty_up : forall n m, (n <= m)%nat -> up (p_ty n) (p_ty m) /\ up (p_fields n) (p_fields m).
Proof.
  induction n as [|n I]; [split; intros ts x H1; discriminate|]. intros [|m] L; [inversion L|]. destruct (I m (le_S_n _ _ L)) as [I1 I2]. clear I L.
  split; intros ts x; cbn [p_ty p_fields]; mono.
Qed.
Lemma ex_up : forall n m, (n <= m)%nat -> (forall l, up (p_un n l) (p_un m l)) /\ (forall l c, up (p_post n l c) (p_post m l c)) /\ (forall l, up (p_ex n l) (p_ex m l)) /\ up (p_args n) (p_args m) /\ up (p_elems n) (p_elems m).
Proof.
  induction n as [|n I]; [repeat split; repeat intro; discriminate|]. intros [|m] L; [inversion L|]. destruct (I m (le_S_n _ _ L)) as (I1 & I2 & I3 & I4 & I5). destruct (ty_up n m (le_S_n _ _ L)) as [T1 T2]. clear I L.
  split; [|split; [|split; [|split]]]; intros; intros ts x; cbn [p_un p_post p_ex p_args p_elems]; mono.
Qed.
Lemma exs_up : forall n m, (n <= m)%nat -> up (p_exs n) (p_exs m).
Proof.
  induction n as [|n I]; [repeat intro; discriminate|]. intros [|m] L; [inversion L|]. specialize (I m (le_S_n _ _ L)). destruct (ex_up n m (le_S_n _ _ L)) as (I1 & I2 & I3 & I4 & I5).
  intros ts x; cbn [p_exs]; mono.
Qed.
Lemma stmt_up : forall n m, (n <= m)%nat -> up (p_stmt n) (p_stmt m) /\ up (p_stmts n) (p_stmts m) /\ up (p_cls n) (p_cls m).
Proof.
  induction n as [|n I]; [repeat split; repeat intro; discriminate|]. intros [|m] L; [inversion L|]. destruct (I m (le_S_n _ _ L)) as (J1 & J2 & J3). destruct (ex_up n m (le_S_n _ _ L)) as (I1 & I2 & I3 & I4 & I5). destruct (ty_up n m (le_S_n _ _ L)) as [T1 T2]. pose proof (exs_up n m (le_S_n _ _ L)) as X. clear I L.
  split; [|split]; intros ts x; cbn [p_stmt p_stmts p_cls]; mono.
Qed.
Lemma meths_up : forall n m, (n <= m)%nat -> up (p_meths n) (p_meths m) /\ up (p_params n) (p_params m).
Proof.
  induction n as [|n I]; [repeat split; repeat intro; discriminate|]. intros [|m] L; [inversion L|]. destruct (I m (le_S_n _ _ L)) as (J1 & J2). destruct (ty_up n m (le_S_n _ _ L)) as [T1 T2]. clear I L.
  split; intros ts x; cbn [p_meths p_params]; mono.
Qed.
Lemma top_up n m : (n <= m)%nat -> up (p_top n) (p_top m).
Proof.
  intros L. destruct (meths_up n m L) as [M1 M2]. destruct (stmt_up n m L) as (J1 & J2 & J3). destruct (ty_up n m L) as [T1 T2].
  intros ts x; unfold p_top; mono.
Qed.
Lemma file_up : forall n m, (n <= m)%nat -> forall ts l, p_file n ts = Some l -> p_file m ts = Some l.
Proof.
  induction n as [|n I]; [repeat intro; discriminate|]. intros [|m] L; [inversion L|]. specialize (I m (le_S_n _ _ L)). pose proof (top_up n m (le_S_n _ _ L)) as T. intros ts l. cbn [p_file]. destruct ts as [|t ts]; [exact (fun H => H)|].
  destruct (p_top n (t :: ts)) as [[d r]|] eqn:E; [|discriminate]. rewrite (T _ _ E). cbn [pbind]. destruct (psemi r) as [r'|]; [|discriminate]. cbn [pbind]. destruct (p_file n r') as [l'|] eqn:F; [|discriminate]. rewrite (I _ _ F). exact (fun H => H).
Qed.
Lemma reads_of n s ts l : go_tokens s = Some ts -> p_file n ts = Some l -> reads s l.
Proof. intros E H. exists ts. split; [exact E|]. exists n. intros m L. exact (file_up n m L ts l H). Qed.
