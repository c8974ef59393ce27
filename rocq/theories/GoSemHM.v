(** More fuel does not change what GoSemH.v says: GoSemP.v again. *)
From Coq Require Import Ascii.
From Verif Require Import GoLex XLex Gram GParse Emit Bytes XdrLib Types GoAst Heap GoSem GoSemP GoSemH.
Open Scope string_scope.
Open Scope Z_scope.
Open Scope list_scope.

Section Mono.
Variable G : gpkg.
Variable grow : nat -> nat -> nat.
Lemma gzeroH_le n m t v : (n <= m)%nat -> gzeroH G n t = Some v -> gzeroH G m t = Some v.
Proof.
  unfold gzeroH. intros H. destruct (gzero G n t) as [z|] eqn:E; [|discriminate]. rewrite (gzero_le G _ _ _ _ H E). auto.
Qed.
Lemma zero_ext n m t : (n <= m)%nat -> ext (some_or (gzeroH G n t) GOut) (some_or (gzeroH G m t) GOut).
Proof.
  intros H. destruct (gzeroH G n t) as [v|] eqn:E; [|left; reflexivity]. rewrite (gzeroH_le _ _ _ _ H E). apply ext_refl.
Qed.

Ltac ex := repeat first [apply ext_refl | apply ext_bind; [|intros ?]| progress auto using ext_refl].
Lemma ev_ext n m s fr e : (n <= m)%nat -> ext (evH G n s fr e) (evH G m s fr e).
Proof.
  intros H. induction e; cbn [evH]; try apply ext_refl; ex.
  - destruct t; try apply ext_refl. destruct x0 as [[]| | |]; try apply ext_refl. apply ext_bind; [apply zero_ext; exact H|]. intros; apply ext_refl.
  - apply zero_ext. exact H.
Qed.
Lemma evvH_ext n m s fr e : (n <= m)%nat -> ext (evvH G n s fr e) (evvH G m s fr e).
Proof. intros H. unfold evvH. apply ext_bind; auto using ev_ext, ext_refl. Qed.
Lemma ev_bool_ext n m s fr e : (n <= m)%nat -> ext (ev_boolH G n s fr e) (ev_boolH G m s fr e).
Proof. intros H. unfold ev_boolH. apply ext_bind; auto using evvH_ext, ext_refl. Qed.
Lemma find_clause_ext n m s fr g cs : (n <= m)%nat -> ext (find_clauseH G n s fr g cs) (find_clauseH G m s fr g cs).
Proof.
  intros H. induction cs as [|[[[l|] ss] ft] cs IH]; cbn [find_clauseH]; auto using ext_refl.
  apply ext_bind; [apply evvH_ext; exact H|]. intros gl.
  destruct g as [[]| | |], gl as [[]| | |]; auto using ext_refl; match goal with |- context [if ?b then _ else _] => destruct b end; auto using ext_refl.
Qed.

Section Steps.
Variables X Y : heap -> hst -> hframe -> stmt -> gor (heap * hst * hframe).
Hypothesis HXY : forall h s fr a, ext (X h s fr a) (Y h s fr a).
Lemma seq_ext ss : forall h s fr, ext (seqH X h s fr ss) (seqH Y h s fr ss).
Proof. induction ss as [|a ss IH]; intros h s fr; cbn [seqH]; [apply ext_refl|]. apply ext_bind; [apply HXY|]. intros [[h' s'] fr']. apply IH. Qed.
Lemma block_ext ss h s fr : ext (blockH X h s fr ss) (blockH Y h s fr ss).
Proof. unfold blockH. apply ext_bind; [apply seq_ext|]. intros [[h' s'] fr']. apply ext_refl. Qed.
Lemma loop_ext n m x c ss : (n <= m)%nat -> forall k l, (k <= l)%nat -> forall h s fr, ext (loopH G X n k x c ss h s fr) (loopH G Y m l x c ss h s fr).
Proof.
  intros H. induction k as [|k IH]; intros l Hl h s fr; cbn [loopH]; [apply ext_out|].
  destruct l as [|l]; [lia|]. cbn [loopH]. apply ext_bind; [apply ev_bool_ext; exact H|]. intros [|]; [|apply ext_refl].
  apply ext_bind; [apply block_ext|]. intros [[h' s'] fr']. apply ext_bind; [apply ext_refl|]. intros fr2. apply IH. lia.
Qed.
Lemma run_ext cs : forall h s fr, ext (runH X h s fr cs) (runH Y h s fr cs).
Proof.
  induction cs as [|[[l ss] ft] cs IH]; intros h s fr; cbn [runH]; [apply ext_refl|]. apply ext_bind; [apply block_ext|]. intros [[h' s'] fr'].
  destruct ft; [apply IH|apply ext_refl].
Qed.
End Steps.

Lemma through_ext fr g f k : (forall v, ext (f v) (k v)) -> ext (throughH fr g f) (throughH fr g k).
Proof.
  intros H. destruct g as [v|[p|]|p|]; cbn [throughH]; try apply ext_refl; (apply ext_bind; [apply ext_refl|]; intros x; apply ext_bind; [apply H|]; intros [[? ?] ?]; apply ext_refl).
Qed.

Lemma exec_ext n : forall m, (n <= m)%nat -> forall h s fr st, ext (execH G grow n h s fr st) (execH G grow m h s fr st).
Proof.
  induction n as [|n IH]; intros m Hm h s fr st; [apply ext_out|]. destruct m as [|m]; [lia|].
  assert (H : (n <= m)%nat) by lia. specialize (IH m H).
  destruct st; cbn [execH].
  - destruct args as [|a0 args]; try apply ext_refl. destruct a0; try apply ext_refl.
    repeat match goal with |- ext (match ?x with _ => _ end) _ => destruct x; try apply ext_refl end;
      repeat (apply ext_bind; [apply evvH_ext; exact H|]; intros ?);
      repeat match goal with |- ext (match ?x with _ => _ end) _ => destruct x; try apply ext_refl end; apply ext_refl.
  - destruct e; try apply ext_refl.
    + repeat match goal with |- ext (match ?x with _ => _ end) _ => destruct x; try apply ext_refl end;
      repeat (apply ext_bind; [apply evvH_ext; exact H|]; intros ?);
      repeat match goal with |- ext (match ?x with _ => _ end) _ => destruct x; try apply ext_refl end; apply ext_refl.
    + destruct t; try apply ext_refl. destruct t; try apply ext_refl. destruct args as [|a0 args]; try apply ext_refl.
      destruct a0; try apply ext_refl.
      repeat match goal with |- ext (match ?x with _ => _ end) _ => destruct x; try apply ext_refl end.
      all: apply ext_bind; [apply evvH_ext; exact H|]; intros g; apply through_ext; intros v; apply ext_bind; [apply block_ext; exact IH|]; intros [[? ?] ?]; apply ext_refl.
  - apply ext_bind; [apply zero_ext; exact H|]. intros; apply ext_refl.
  - apply ext_bind; [apply evvH_ext; exact H|]. intros; apply ext_refl.
  - apply ext_bind; [apply ev_ext; exact H|]. intros o. apply ext_bind; [apply evvH_ext; exact H|]. intros; apply ext_refl.
  - apply block_ext. exact IH.
  - apply ext_bind; [apply ev_bool_ext; exact H|]. intros [|]; [apply block_ext; exact IH|]. destruct b; [apply block_ext; exact IH|apply ext_refl].
  - apply ext_bind; [apply evvH_ext; exact H|]. intros g. destruct g as [[]| | |]; try apply ext_refl.
    apply ext_bind; [apply loop_ext; auto|]. intros [[? ?] ?]. apply ext_refl.
  - apply ext_bind; [apply evvH_ext; exact H|]. intros g. apply ext_bind; [apply find_clause_ext; exact H|]. intros [cs1|].
    + apply run_ext. exact IH.
    + destruct (find_defaultH cs); [apply run_ext; exact IH|apply ext_refl].
Qed.

Lemma callH_mono n m x h s v r : (n <= m)%nat -> callH G grow n x h s v = r -> r <> GOut -> callH G grow m x h s v = r.
Proof.
  intros H Hn Hr. assert (K : ext (callH G grow n x h s v) (callH G grow m x h s v)).
  { unfold callH. destruct (lookup x (g_meths G)) as [body|]; [|apply ext_refl]. apply ext_bind; [apply block_ext; apply exec_ext; exact H|]. intros [[? ?] ?]. apply ext_refl. }
  destruct K as [K|K]; congruence.
Qed.
End Mono.
