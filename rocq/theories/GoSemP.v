(** The fuel of GoSem.v only bounds how long the model looks: a result other than running out
    of fuel stays the same with more. *)
From Coq Require Import Ascii.
From Verif Require Import GoLex XLex Gram GParse Emit Bytes XdrLib Types GoAst GoSem.
Open Scope string_scope.
Open Scope Z_scope.
Open Scope list_scope.

(** [b] is [a] unless [a] ran out of fuel. *)
Definition ext {A} (a b : gor A) : Prop := a = GOut \/ b = a.
Lemma ext_refl {A} (a : gor A) : ext a a.
Proof. right. reflexivity. Qed.
Lemma ext_bind {A B} (a b : gor A) (f g : A -> gor B) : ext a b -> (forall x, ext (f x) (g x)) -> ext (gbind a f) (gbind b g).
Proof. intros [->| ->] H; [left; reflexivity|]. destruct a; cbn; auto using ext_refl. Qed.
Lemma ext_out {A} (b : gor A) : ext GOut b.
Proof. left. reflexivity. Qed.

Section Mono.
Variable G : gpkg.

Lemma gzero_fields_mono (f g : gty -> option val) : (forall t v, f t = Some v -> g t = Some v) ->
  forall fs l, gzero_fields f fs = Some l -> gzero_fields g fs = Some l.
Proof.
  intros H. induction fs as [|[x t] fs IH]; cbn; intros l Hl; [exact Hl|].
  destruct (f t) as [v|] eqn:Ev; [|discriminate]. rewrite (H _ _ Ev).
  destruct (gzero_fields f fs) as [r|]; [|discriminate]. rewrite (IH r eq_refl). exact Hl.
Qed.
Lemma gzero_step n : forall t v, gzero G n t = Some v -> gzero G (S n) t = Some v.
Proof.
  induction n as [|n IH]; [discriminate|]. intros t v H. cbn [gzero] in H. 
  destruct t; try exact H.
  - cbn [gzero]. destruct (lookup x (g_types G)); [|discriminate]. apply IH. exact H.
  - cbn [gzero]. destruct (gzero_fields (gzero G n) fs) as [l|] eqn:El; [|discriminate].
    change (option_map VStruct (gzero_fields (gzero G (S n)) fs) = Some v). rewrite (gzero_fields_mono _ _ IH _ _ El). exact H.
Qed.
Lemma gzero_le n m t v : (n <= m)%nat -> gzero G n t = Some v -> gzero G m t = Some v.
Proof. induction 1; auto using gzero_step. Qed.
Lemma zero_ext n m t : (n <= m)%nat -> ext (some_or (gzero G n t) GOut) (some_or (gzero G m t) GOut).
Proof.
  intros H. destruct (gzero G n t) as [v|] eqn:E; [|left; reflexivity]. rewrite (gzero_le _ _ _ _ H E). apply ext_refl.
Qed.

Ltac ex := repeat first [apply ext_refl | apply ext_bind; [|intros ?]| progress auto using ext_refl].
Lemma ev_ext n m s fr e : (n <= m)%nat -> ext (ev G n s fr e) (ev G m s fr e).
Proof.
  intros H. induction e; cbn [ev]; try apply ext_refl; ex.
  - destruct t; try apply ext_refl. destruct x0 as [[]| | |]; try apply ext_refl. apply ext_bind; [apply zero_ext; exact H|]. intros; apply ext_refl.
  - apply zero_ext. exact H.
Qed.
Lemma evv_ext n m s fr e : (n <= m)%nat -> ext (evv G n s fr e) (evv G m s fr e).
Proof. intros H. unfold evv. apply ext_bind; auto using ev_ext, ext_refl. Qed.
Lemma ev_bool_ext n m s fr e : (n <= m)%nat -> ext (ev_bool G n s fr e) (ev_bool G m s fr e).
Proof. intros H. unfold ev_bool. apply ext_bind; auto using evv_ext, ext_refl. Qed.
Lemma find_clause_ext n m s fr g cs : (n <= m)%nat -> ext (find_clause G n s fr g cs) (find_clause G m s fr g cs).
Proof.
  intros H. induction cs as [|[[[l|] ss] ft] cs IH]; cbn [find_clause]; auto using ext_refl.
  apply ext_bind; [apply evv_ext; exact H|]. intros gl.
  destruct g as [[]| | |], gl as [[]| | |]; auto using ext_refl; match goal with |- context [if ?b then _ else _] => destruct b end; auto using ext_refl.
Qed.

Section Steps.
Variables X Y : xst -> frame -> stmt -> gor (xst * frame).
Hypothesis HXY : forall s fr a, ext (X s fr a) (Y s fr a).
Lemma seq_ext ss : forall s fr, ext (seq X s fr ss) (seq Y s fr ss).
Proof. induction ss as [|a ss IH]; intros s fr; cbn [seq]; [apply ext_refl|]. apply ext_bind; [apply HXY|]. intros [s' fr']. apply IH. Qed.
Lemma block_ext ss s fr : ext (block X s fr ss) (block Y s fr ss).
Proof. unfold block. apply ext_bind; [apply seq_ext|]. intros [s' fr']. apply ext_refl. Qed.
Lemma loop_ext n m x c ss : (n <= m)%nat -> forall k l, (k <= l)%nat -> forall s fr, ext (loop G X n k x c ss s fr) (loop G Y m l x c ss s fr).
Proof.
  intros H. induction k as [|k IH]; intros l Hl s fr; cbn [loop]; [apply ext_out|].
  destruct l as [|l]; [lia|]. cbn [loop]. apply ext_bind; [apply ev_bool_ext; exact H|]. intros [|]; [|apply ext_refl].
  apply ext_bind; [apply block_ext|]. intros [s' fr']. apply ext_bind; [apply ext_refl|]. intros fr2. apply IH. lia.
Qed.
Lemma run_ext cs : forall s fr, ext (run X s fr cs) (run Y s fr cs).
Proof.
  induction cs as [|[[l ss] ft] cs IH]; intros s fr; cbn [run]; [apply ext_refl|]. apply ext_bind; [apply block_ext|]. intros [s' fr'].
  destruct ft; [apply IH|apply ext_refl].
Qed.
End Steps.

Lemma through_ext fr g f h : (forall v, ext (f v) (h v)) -> ext (through fr g f) (through fr g h).
Proof.
  intros H. destruct g as [v|[p|]|p|]; cbn [through]; try apply ext_refl; (apply ext_bind; [apply ext_refl|]; intros x; apply ext_bind; [apply H|]; intros [? ?]; apply ext_refl).
Qed.

Lemma exec_ext n : forall m, (n <= m)%nat -> forall s fr st, ext (exec G n s fr st) (exec G m s fr st).
Proof.
  induction n as [|n IH]; intros m Hm s fr st; [apply ext_out|]. destruct m as [|m]; [lia|].
  assert (H : (n <= m)%nat) by lia. specialize (IH m H).
  destruct st; cbn [exec].
  - destruct args as [|a0 args]; try apply ext_refl. destruct a0; try apply ext_refl.
    repeat match goal with |- ext (match ?x with _ => _ end) _ => destruct x; try apply ext_refl end;
      repeat (apply ext_bind; [apply evv_ext; exact H|]; intros ?);
      repeat match goal with |- ext (match ?x with _ => _ end) _ => destruct x; try apply ext_refl end; apply ext_refl.
  - destruct e; try apply ext_refl.
    + repeat match goal with |- ext (match ?x with _ => _ end) _ => destruct x; try apply ext_refl end;
      repeat (apply ext_bind; [apply evv_ext; exact H|]; intros ?);
      repeat match goal with |- ext (match ?x with _ => _ end) _ => destruct x; try apply ext_refl end; apply ext_refl.
    + destruct t; try apply ext_refl. destruct t; try apply ext_refl. destruct args as [|a0 args]; try apply ext_refl.
      destruct a0; try apply ext_refl.
      repeat match goal with |- ext (match ?x with _ => _ end) _ => destruct x; try apply ext_refl end.
      all: apply ext_bind; [apply evv_ext; exact H|]; intros g; apply through_ext; intros v; apply ext_bind; [apply block_ext; exact IH|]; intros [? ?]; apply ext_refl.
  - apply ext_bind; [apply zero_ext; exact H|]. intros; apply ext_refl.
  - apply ext_bind; [apply evv_ext; exact H|]. intros; apply ext_refl.
  - apply ext_bind; [apply ev_ext; exact H|]. intros o. apply ext_bind; [apply evv_ext; exact H|]. intros; apply ext_refl.
  - apply block_ext. exact IH.
  - apply ext_bind; [apply ev_bool_ext; exact H|]. intros [|]; [apply block_ext; exact IH|]. destruct b; [apply block_ext; exact IH|apply ext_refl].
  - apply ext_bind; [apply evv_ext; exact H|]. intros g. destruct g as [[]| | |]; try apply ext_refl.
    apply ext_bind; [apply loop_ext; auto|]. intros [? ?]. apply ext_refl.
  - apply ext_bind; [apply evv_ext; exact H|]. intros g. apply ext_bind; [apply find_clause_ext; exact H|]. intros [cs1|].
    + apply run_ext. exact IH.
    + destruct (find_default cs); [apply run_ext; exact IH|apply ext_refl].
Qed.

Lemma call_mono n m x s v r : (n <= m)%nat -> call G n x s v = r -> r <> GOut -> call G m x s v = r.
Proof.
  intros H Hn Hr. assert (K : ext (call G n x s v) (call G m x s v)).
  { unfold call. destruct (lookup x (g_meths G)) as [body|]; [|apply ext_refl]. apply ext_bind; [apply block_ext; apply exec_ext; exact H|]. intros [? ?]. apply ext_refl. }
  destruct K as [K|K]; congruence.
Qed.
End Mono.
