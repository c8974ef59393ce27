(** Emitted methods without loops or recursion need a fixed amount of the model's fuel, and so do
    the types without arrays and pointers. *)
From Coq Require Import Ascii.
From Verif Require Import Bytes XdrLib Types GoLex XLex Gram GParse Emit GoAst Interp GoSem.
Open Scope string_scope.
Open Scope Z_scope.
Open Scope list_scope.

Section Fit.
Variable G : gpkg.

(** Enough fuel for an expression, whatever the state. *)
Fixpoint fitsE (n : nat) (e : expr) : bool :=
  match e with
  | EVar _ | ENum _ | EStr _ | EQuery _ _ => true
  | EParen e | EDeref e | EAddr e | ESel e _ | EAll e | EConv _ e | ELen e => fitsE n e
  | EIdx a b | ENe a b | EGt a b | ELt a b => fitsE n a && fitsE n b
  | EMake t e => fitsE n e && match t with GSlice t => match gzero G n t with Some _ => true | None => false end | _ => true end
  | ENew t => match gzero G n t with Some _ => true | None => false end
  end.
(** The same for a statement; none is enough for a loop. *)
Fixpoint fits (n : nat) (st : stmt) : bool :=
  match n with
  | O => false
  | S n =>
      match st with
      | SPkg _ args => forallb (fitsE n) args
      | SMeth e _ args =>
          fitsE n e && forallb (fitsE n) args &&
          match e with
          | EConv (GPtr (GNamed x)) _ => match lookup x (g_meths G) with Some body => forallb (fits n) body | None => true end
          | _ => true
          end
      | SVar _ t => match gzero G n t with Some _ => true | None => false end
      | SDef _ e => fitsE n e
      | SAssign a b => fitsE n a && fitsE n b
      | SBlock ss => forallb (fits n) ss
      | SIf c a b => fitsE n c && forallb (fits n) a && match b with Some b => forallb (fits n) b | None => true end
      | SFor _ _ _ _ => false
      | SSwitch e cs =>
          fitsE n e && forallb (fun c => match fst (fst c) with Some l => fitsE n l | None => true end && forallb (fits n) (snd (fst c))) cs
      end
  end.

Lemma bind_out {A B} (o : gor A) (k : A -> gor B) : o <> GOut -> (forall a, k a <> GOut) -> gbind o k <> GOut.
Proof. destruct o; cbn; auto; discriminate. Qed.
Lemma some_out {A} (o : option A) : some_or o GStuck <> GOut.
Proof. destruct o; discriminate. Qed.
Lemma rval_out fr o : rval fr o <> GOut.
Proof.
  destruct o as [p|g]; cbn [rval]; [|discriminate]. destruct (load fr p) as [v|]; [|discriminate].
  destruct v as [| | | | | |[y|]|]; try discriminate. destruct (sub p PDeref); discriminate.
Qed.
Ltac br := repeat match goal with |- context [match ?x with _ => _ end] => destruct x end; try discriminate.

Lemma ev_out n s fr e : fitsE n e = true -> ev G n s fr e <> GOut.
Proof.
  induction e; cbn [fitsE ev]; intros H; rewrite ?andb_true_iff in *;
  repeat match goal with
    | |- gbind (ev _ _ _ _ _) _ <> _ => apply bind_out; [tauto|intros ?]
    | |- gbind (rval _ _) _ <> _ => apply bind_out; [apply rval_out|intros ?]
    end.
  - br.
  - apply bind_out; [apply some_out|discriminate].
  - discriminate.
  - tauto.
  - br.
  - br.
  - br.
  - br.
  - br.
  - apply bind_out; [|discriminate]. unfold conv_val. br.
  - br.
  - destruct H as [_ H]. destruct t; try discriminate. destruct a0 as [v| | |]; try discriminate. destruct v; try discriminate.
    destruct (gzero G n t); [|discriminate]. discriminate.
  - destruct (gzero G n t); [|discriminate]. discriminate.
  - br.
  - br.
  - unfold compare. br.
  - unfold compare. br.
Qed.
Lemma evv_out n s fr e : fitsE n e = true -> evv G n s fr e <> GOut.
Proof. intros H. apply bind_out; [apply ev_out; exact H|intros o; apply rval_out]. Qed.
Lemma ev_bool_out n s fr e : fitsE n e = true -> ev_bool G n s fr e <> GOut.
Proof. intros H. apply bind_out; [apply evv_out; exact H|]. intros g. br. Qed.
Lemma through_out fr g f : (forall x, f x <> GOut) -> through fr g f <> GOut.
Proof.
  intros H. assert (P : forall p, (let! x := some_or (load fr p) GStuck in let! (s, x) := f x in let! fr := some_or (store fr p x) GStuck in GRet (s, fr)) <> GOut).
  { intros p. apply bind_out; [apply some_out|]. intros x. apply bind_out; [apply H|]. intros [s x']. apply bind_out; [apply some_out|discriminate]. }
  destruct g as [|[p|]|p|]; cbn [through]; try discriminate; apply P.
Qed.
Lemma lib_out fn s m x : lib_fun fn s m x <> GOut.
Proof. unfold lib_fun. destruct m, x; br. Qed.
Lemma find_clause_out n s fr g cs :
  forallb (fun c : option expr * list stmt * bool => match fst (fst c) with Some l => fitsE n l | None => true end) cs = true -> find_clause G n s fr g cs <> GOut.
Proof.
  induction cs as [|[[[l|] ss] ft] cs IH]; cbn [find_clause forallb fst]; [discriminate| |exact IH].
  rewrite andb_true_iff. intros [H1 H2]. apply bind_out; [apply evv_out; exact H1|]. intros gl.
  specialize (IH H2). destruct g as [v| | |]; try discriminate. destruct v; try discriminate;
  destruct gl as [w| | |]; try discriminate; destruct w; try discriminate.
  - destruct (_ =? _); [discriminate|exact IH].
  - destruct (Bool.eqb _ _); [discriminate|exact IH].
Qed.
Lemma find_clause_sub n s fr g cs cs' : find_clause G n s fr g cs = GRet (Some cs') -> forall c, In c cs' -> In c cs.
Proof.
  induction cs as [|[[[l|] ss] ft] cs IH]; cbn [find_clause]; [discriminate| |intros H c Hc; right; apply IH; assumption].
  intros H c Hc. destruct (evv G n s fr l) as [gl| | |]; try discriminate. cbn [gbind] in H.
  destruct g as [v| | |]; try discriminate. destruct v; try discriminate;
  destruct gl as [w| | |]; try discriminate; destruct w; try discriminate.
  - destruct (_ =? _); [injection H as <-; exact Hc|right; apply IH; assumption].
  - destruct (Bool.eqb _ _); [injection H as <-; exact Hc|right; apply IH; assumption].
Qed.
Lemma find_default_sub cs cs' : find_default cs = Some cs' -> forall c, In c cs' -> In c cs.
Proof.
  induction cs as [|[[[l|] ss] ft] cs IH]; cbn [find_default]; [discriminate| |].
  - intros H c Hc. right. apply IH; assumption.
  - intros H c Hc. injection H as <-. exact Hc.
Qed.

Section Exec.
Variable n : nat.
Hypothesis HX : forall s fr st, fits n st = true -> exec G n s fr st <> GOut.
Lemma seq_out ss : forallb (fits n) ss = true -> forall s fr, seq (exec G n) s fr ss <> GOut.
Proof.
  induction ss as [|a ss IH]; cbn [seq forallb]; [discriminate|]. rewrite andb_true_iff. intros [H1 H2] s fr.
  apply bind_out; [apply HX; exact H1|]. intros [s' fr']. apply IH. exact H2.
Qed.
Lemma block_out ss s fr : forallb (fits n) ss = true -> block (exec G n) s fr ss <> GOut.
Proof. intros H. apply bind_out; [apply seq_out; exact H|]. intros [s' fr']. discriminate. Qed.
Lemma run_out cs : forallb (fun c : option expr * list stmt * bool => forallb (fits n) (snd (fst c))) cs = true -> forall s fr, run (exec G n) s fr cs <> GOut.
Proof.
  induction cs as [|[[l ss] ft] cs IH]; cbn [run forallb fst snd]; [discriminate|]. rewrite andb_true_iff. intros [H1 H2] s fr.
  apply bind_out; [apply block_out; exact H1|]. intros [s' fr']. destruct ft; [apply IH; exact H2|discriminate].
Qed.
End Exec.

Lemma exec_out n : forall s fr st, fits n st = true -> exec G n s fr st <> GOut.
Proof.
  induction n as [|n IH]; intros s fr st H; [discriminate|]. cbn [fits] in H. cbn [exec].
  destruct st as [fn args|e m args|x t|x e|a b|ss|c a b|x init c ss|e cs].
  - destruct args as [|[x| | | | | | | | | | | | | | | |] args]; try discriminate.
    assert (D : forall a b : gor (xst * frame), a <> GOut -> b <> GOut -> match x with "xs" => a | _ => b end <> GOut).
    { intros a b Ha Hb. repeat match goal with |- context [match ?y with _ => _ end] => destruct y; try exact Hb end; exact Ha. }
    apply D; [|discriminate]. cbn [forallb] in H. rewrite !andb_true_iff in H. destruct H as [_ H].
    destruct args as [|e1 [|e2 [|e3 args]]]; try discriminate; cbn [forallb] in H; rewrite !andb_true_iff in H.
    + apply bind_out; [apply evv_out; tauto|]. intros g. apply through_out. intros y. apply lib_out.
    + apply bind_out; [apply evv_out; tauto|]. intros g1. apply bind_out; [apply evv_out; tauto|]. intros g2.
      destruct g1 as [v| | |]; try discriminate. destruct v; try discriminate. apply through_out. intros y. apply lib_out.
  - rewrite !andb_true_iff in H. destruct H as [[H1 H2] H3].
    destruct e as [x| | | | | | | | |t e| | | | | | |]; try discriminate.
    + assert (D : forall a b : gor (xst * frame), a <> GOut -> b <> GOut -> match x with "xs" => a | _ => b end <> GOut).
      { intros a b Ha Hb. repeat match goal with |- context [match ?y with _ => _ end] => destruct y; try exact Hb end; exact Ha. }
      apply D; [|discriminate]. destruct (String.eqb m "EncodingSetSize").
      * destruct args as [|p [|l [|e3 args]]]; try discriminate; cbn [forallb] in H2; rewrite !andb_true_iff in H2.
        apply bind_out; [apply evv_out; tauto|]. intros gp. apply bind_out; [apply evv_out; tauto|]. intros gl.
        destruct gl as [v| | |]; try discriminate. destruct v; try discriminate. apply through_out. intros y. destruct y; try discriminate.
        destruct (EncodingSetSize s z0 z). discriminate.
      * destruct (String.eqb m "SetError"); [|discriminate]. destruct args as [|[] [|]]; discriminate.
    + destruct t as [| |[|x| | | |]| | |]; try discriminate.
      destruct args as [|[y| | | | | | | | | | | | | | | |] args]; try discriminate.
      assert (D : forall a b : gor (xst * frame), a <> GOut -> b <> GOut -> match y with "xs" => a | _ => b end <> GOut).
      { intros a b Ha Hb. repeat match goal with |- context [match ?z with _ => _ end] => destruct z; try exact Hb end; exact Ha. }
      apply D; [|discriminate]. destruct args; [|discriminate]. destruct (String.eqb m "Xdr"); [|discriminate].
      destruct (lookup x (g_meths G)) as [body|]; [|discriminate]. cbn [fitsE] in H1. apply bind_out; [apply evv_out; exact H1|]. intros g.
      apply through_out. intros z. apply bind_out; [apply block_out; [exact IH|exact H3]|]. intros [s' fr']. discriminate.
  - destruct (gzero G n t); discriminate.
  - apply bind_out; [apply evv_out; exact H|]. intros g. destruct g; discriminate.
  - rewrite andb_true_iff in H. apply bind_out; [apply ev_out; tauto|]. intros o. apply bind_out; [apply evv_out; tauto|]. intros g.
    destruct o as [p|]; [|discriminate]. destruct g; try discriminate. apply bind_out; [apply some_out|discriminate].
  - apply block_out; assumption.
  - rewrite !andb_true_iff in H. destruct H as [[H1 H2] H3]. apply bind_out; [apply ev_bool_out; exact H1|]. intros t.
    destruct t; [apply block_out; assumption|]. destruct b; [apply block_out; assumption|discriminate].
  - discriminate.
  - rewrite andb_true_iff in H. destruct H as [H1 H2]. rewrite forallb_forall in H2.
    apply bind_out; [apply evv_out; exact H1|]. intros g.
    assert (R : forall cs', (forall c, In c cs' -> In c cs) -> run (exec G n) s fr cs' <> GOut).
    { intros cs' Hc. apply run_out; [exact IH|]. apply forallb_forall. intros c Hi. specialize (H2 c (Hc c Hi)).
      rewrite andb_true_iff in H2. apply H2. }
    destruct (find_clause G n s fr g cs) as [o| | |] eqn:E; try discriminate.
    + cbn [gbind]. destruct o as [cs'|].
      * apply R. apply (find_clause_sub _ _ _ _ _ _ E).
      * destruct (find_default cs) as [cs'|] eqn:Ed; [|discriminate]. apply R. apply (find_default_sub _ _ Ed).
    + exfalso. eapply find_clause_out; [|exact E]. apply forallb_forall. intros c Hi. specialize (H2 c Hi).
      rewrite andb_true_iff in H2. apply H2.
Qed.
Lemma call_out n x body : lookup x (g_meths G) = Some body -> forallb (fits n) body = true -> forall s v, call G n x s v <> GOut.
Proof.
  intros H F s v. unfold call. rewrite H. apply bind_out; [apply block_out; [apply exec_out|exact F]|]. intros [s' fr']. discriminate.
Qed.
End Fit.
