(** Automata that pass [lr_ok] accept what the grammar derives, and nothing else, and always stop. *)
From Coq Require Import Lia.
From Verif Require Import GoLex XLex Gram GParse MainSem MainScan YaccAst YaccSem YaccLR.
Open Scope string_scope.
Open Scope list_scope.

Lemma uassoc_in {A} x (l : list (string * A)) a : uassoc x l = Some a -> In (x, a) l.
Proof. induction l as [|[y b] l IH]; cbn; [discriminate|]. destruct (String.eqb_spec x y) as [->|]; [intros [= ->]; auto|auto]. Qed.
Lemma ysym_in y : In (ysym y) tok_syms.
Proof. apply mem_in. destruct y; reflexivity. Qed.
Lemma ysym_end y : ysym y <> endsym.
Proof. destruct y; discriminate. Qed.
Lemma la_not_empty ts : la ts <> "".
Proof. destruct ts as [|y ts]; [discriminate|]. destruct y; discriminate. Qed.
Lemma la_end ts : la ts = endsym -> ts = [].
Proof. destruct ts as [|y ts]; [reflexivity|]. intros E. destruct (ysym_end _ E). Qed.
Lemma ok_trees_app G xs ts ys us : ok_trees G xs ts -> ok_trees G ys us -> ok_trees G (xs ++ ys) (ts ++ us).
Proof. induction 1; cbn; [auto|]. constructor; auto. Qed.
Lemma skipn_nth {A} (l : list A) i a r : skipn i l = a :: r -> nth_error l i = Some a /\ skipn (S i) l = r.
Proof. revert i. induction l as [|b l IH]; intros [|i] E; try discriminate; cbn in *; [injection E as -> ->; auto|apply IH, E]. Qed.
Lemma firstn_snoc {A} (l : list A) i a : nth_error l i = Some a -> firstn (S i) l = firstn i l ++ [a].
Proof. revert i. induction l as [|b l IH]; intros [|i] E; try discriminate; cbn in *; [injection E as ->; reflexivity|rewrite IH by exact E; reflexivity]. Qed.

Fixpoint tsize (t : pt) : nat := match t with PTok _ => 1 | PNode _ cs => S (list_sum (map tsize cs)) end.

Section Ok.
Variable G : list prod.
Variable start : string.
Variable T : lrtab.
Hypothesis OK : lr_ok G start T = true.
Notation G' := (augment G start).
Notation state := (state T). Notation action := (action T). Notation goto := (goto T). Notation rank := (rank T).
Notation trans := (trans G start T). Notation has_item := (has_item T). Notation some_item := (some_item T). Notation lrt := (lrt G T).
Notation is_nt := (is_nt G start). Notation firsts := (firsts G start T). Notation first := (first T). Notation nullable := (nullable T).

Lemma ok_parts : first_ok G start T = true /\ zero_ok G T = true /\ (forall y, is_nt (ysym y) = false) /\
  (forall s, s < List.length (t_states T) -> forallb (item_ok G start T s) (l_items (state s)) = true /\ reduce_ok G start T s = true /\ trans_ok G start T s = true /\ goto_ok G T s = true /\
     acc_ok G T s = true /\ rank_ok G T s = true).
Proof.
  unfold lr_ok in OK. repeat (apply andb_true_iff in OK; destruct OK as [OK ?]).
  repeat match goal with H : _ && _ = true |- _ => apply andb_true_iff in H; destruct H end.
  refine (conj _ (conj _ (conj _ _))); try assumption.
  - intros y. match goal with H : forallb _ tok_syms = true |- _ => rewrite forallb_forall in H; specialize (H _ (ysym_in y)); apply negb_true_iff in H; exact H end.
  - intros s L. match goal with A : all_states _ _ = true |- _ => unfold all_states in A; rewrite forallb_forall in A; specialize (A s ltac:(apply in_seq; lia)) end.
    repeat match goal with H : _ && _ = true |- _ => apply andb_true_iff in H; destruct H end. repeat split; assumption.
Qed.
Definition tok_term := proj1 (proj2 (proj2 ok_parts)).

(** *** Items *)
Lemma in_range s it : In it (l_items (state s)) -> s < List.length (t_states T).
Proof. intros I. destruct (le_lt_dec (List.length (t_states T)) s) as [L|L]; [|exact L]. unfold YaccLR.state in I. rewrite nth_overflow in I by exact L. destruct I. Qed.
Lemma has_item_in s k i a : has_item s k i a = true <-> exists las, In (k, i, las) (l_items (state s)) /\ In a las.
Proof.
  unfold YaccLR.has_item. rewrite existsb_exists. split.
  - intros ([[k' i'] las] & I & E). cbn [fst snd] in E. apply andb_true_iff in E. destruct E as [E M]. apply andb_true_iff in E. destruct E as [E E']. apply Nat.eqb_eq in E, E'. subst. apply mem_in in M. eauto.
  - intros (las & I & M). exists (k, i, las). split; [exact I|]. cbn [fst snd]. rewrite !Nat.eqb_refl. apply mem_in in M. rewrite M. reflexivity.
Qed.
Lemma some_item_in s k i : some_item s k i = true <-> exists las, In (k, i, las) (l_items (state s)).
Proof.
  unfold YaccLR.some_item. rewrite existsb_exists. split.
  - intros ([[k' i'] las] & I & E). cbn [fst snd] in E. apply andb_true_iff in E. destruct E as [E E']. apply Nat.eqb_eq in E, E'. subst. eauto.
  - intros (las & I). exists (k, i, las). split; [exact I|]. cbn [fst snd]. rewrite !Nat.eqb_refl. reflexivity.
Qed.
Lemma item_fact s k i las : In (k, i, las) (l_items (state s)) -> item_ok G start T s (k, i, las) = true.
Proof. intros I. destruct (proj2 (proj2 (proj2 ok_parts)) s (in_range _ _ I)) as (A & _). rewrite forallb_forall in A. apply A, I. Qed.
Lemma advance s k i a p X : has_item s k i a = true -> nth_error G' k = Some p -> nth_error (p_rhs p) i = Some X ->
  exists s', trans s X = Some s' /\ has_item s' k (S i) a = true.
Proof.
  intros H E N. apply has_item_in in H. destruct H as (las & I & M). apply item_fact in I. unfold item_ok in I. rewrite E, N in I. apply andb_true_iff in I. destruct I as [I _].
  destruct (trans s X) as [s'|]; [|discriminate]. exists s'. split; [reflexivity|]. rewrite forallb_forall in I. apply I, M.
Qed.
Lemma close s k i a p X k' p' b : has_item s k i a = true -> nth_error G' k = Some p -> nth_error (p_rhs p) i = Some X -> is_nt X = true ->
  nth_error G' k' = Some p' -> p_lhs p' = X -> In b (firsts (skipn (S i) (p_rhs p)) a) -> has_item s k' 0 b = true.
Proof.
  intros H E N NT E' L F. apply has_item_in in H. destruct H as (las & I & M). apply item_fact in I. unfold item_ok in I. rewrite E, N, NT in I. apply andb_true_iff in I. destruct I as [_ I].
  rewrite forallb_forall in I. specialize (I k'). rewrite E' in I. rewrite L, String.eqb_refl in I. cbn [implb] in I.
  assert (In k' (seq 0 (List.length G'))) as R by (apply in_seq; split; [lia|]; cbn; apply nth_error_Some; congruence). specialize (I R). rewrite forallb_forall in I. apply I. apply in_flat_map. exists a. split; assumption.
Qed.
Lemma finish s k a p : has_item s k (List.length (p_rhs p)) a = true -> nth_error G' k = Some p -> action s a = LReduce k.
Proof.
  intros H E. apply has_item_in in H. destruct H as (las & I & M). apply item_fact in I. unfold item_ok in I. rewrite E in I.
  rewrite (proj2 (nth_error_None (p_rhs p) (List.length (p_rhs p)))) in I by lia. apply andb_true_iff in I. destruct I as [_ I]. rewrite forallb_forall in I. specialize (I a M).
  destruct (action s a); try discriminate. apply Nat.eqb_eq in I. congruence.
Qed.
Lemma in_G' k p : nth_error G k = Some p -> nth_error G' k = Some p.
Proof. intros E. unfold augment. rewrite nth_error_app1; [exact E|]. apply nth_error_Some. congruence. Qed.
Lemma acc_prod : nth_error G' (List.length G) = Some (mkProd "$accept" [start] None).
Proof. unfold augment. rewrite nth_error_app2 by lia. rewrite Nat.sub_diag. reflexivity. Qed.
Lemma nt_lhs k p : nth_error G' k = Some p -> is_nt (p_lhs p) = true.
Proof. intros E. unfold YaccLR.is_nt. apply existsb_exists. exists p. split; [eapply nth_error_In, E|apply String.eqb_refl]. Qed.

(** *** What a derivation begins with *)
Lemma firsts_app Xs Ys a x : In x (firsts (Xs ++ Ys) a) -> (forall b, In x (firsts Xs b)) \/ (forallb nullable Xs = true /\ In x (firsts Ys a)).
Proof.
  induction Xs as [|X Xs IH]; cbn [app YaccLR.firsts forallb]; [auto|]. destruct (is_nt X); [|auto]. intros I. apply in_app_or in I. destruct I as [I|I]; [left; intros b; apply in_or_app; auto|].
  destruct (nullable X) eqn:N; [|destruct I]. destruct (IH I) as [F|[F F']]; [left; intros b; apply in_or_app; auto|right; cbn; auto].
Qed.
Lemma first_prod k p x Ys a : nth_error G k = Some p -> x <> "" -> In x (firsts (p_rhs p ++ Ys) a) -> In x (firsts (p_lhs p :: Ys) a).
Proof.
  intros E N I. cbn [YaccLR.firsts]. rewrite (nt_lhs k p) by apply in_G', E. pose proof (proj1 ok_parts) as F. unfold first_ok in F. rewrite forallb_forall in F. specialize (F p (nth_error_In _ _ E)).
  apply andb_true_iff in F. destruct F as [F1 F2]. apply in_or_app. destruct (firsts_app _ _ _ _ I) as [H|[H H']].
  - left. rewrite forallb_forall in F2. specialize (F2 x (H "")). apply orb_true_iff in F2. destruct F2 as [F2|F2]; [apply String.eqb_eq in F2; contradiction|apply mem_in, F2].
  - right. rewrite H in F1. cbn in F1. rewrite F1. exact H'.
Qed.
Lemma first_sound :
  (forall X t, ok_tree G X t -> forall rest Ys a, In (la rest) (firsts Ys a) -> In (la (yield t ++ rest)) (firsts (X :: Ys) a)) /\
  (forall Xs ts, ok_trees G Xs ts -> forall rest Ys a, In (la rest) (firsts Ys a) -> In (la (flat_map yield ts ++ rest)) (firsts (Xs ++ Ys) a)).
Proof.
  apply ok_tree_mutind.
  - intros y rest Ys a _. cbn [YaccLR.firsts yield app la]. rewrite tok_term. left. reflexivity.
  - intros k p cs E _ IH rest Ys a I. cbn [yield]. eapply first_prod; [exact E|apply la_not_empty|apply IH, I].
  - intros rest Ys a I. exact I.
  - intros X Xs t ts _ IH _ IHs rest Ys a I. cbn [flat_map]. rewrite <- app_assoc. apply (IH _ (Xs ++ Ys)). apply IHs, I.
Qed.

(** *** Derivations are found *)
Lemma complete :
  (forall X t, ok_tree G X t -> forall stk rest k p i a, has_item (top stk) k i a = true -> nth_error G' k = Some p -> nth_error (p_rhs p) i = Some X ->
     In (la rest) (firsts (skipn (S i) (p_rhs p)) a) ->
     exists s', trans (top stk) X = Some s' /\ forall j, lrt (tsize t + j) stk (yield t ++ rest) = lrt j ((s', t) :: stk) rest) /\
  (forall Xs ts, ok_trees G Xs ts -> forall stk rest k p i, has_item (top stk) k i (la rest) = true -> nth_error G' k = Some p -> i <= List.length (p_rhs p) -> skipn i (p_rhs p) = Xs ->
     exists stk', map snd stk' = rev ts /\ has_item (top (stk' ++ stk)) k (List.length (p_rhs p)) (la rest) = true /\
       forall j, lrt (list_sum (map tsize ts) + j) stk (flat_map yield ts ++ rest) = lrt j (stk' ++ stk) rest).
Proof.
  apply ok_tree_mutind.
  - intros y stk rest k p i a H E N _. destruct (advance _ _ _ _ _ _ H E N) as (s' & Tr & _). exists s'. split; [exact Tr|]. intros j. cbn [tsize Nat.add yield app YaccLR.lrt la].
    unfold YaccLR.trans in Tr. rewrite tok_term in Tr. unfold YaccLR.action. rewrite Tr. reflexivity.
  - intros k' p' cs E' O IH stk rest k p i a H E N F. destruct (advance _ _ _ _ _ _ H E N) as (s' & Tr & _). exists s'. split; [exact Tr|]. intros j.
    pose proof (nt_lhs _ _ (in_G' _ _ E')) as NT.
    pose proof (close _ _ _ _ _ _ _ _ _ H E N NT (in_G' _ _ E') eq_refl F) as H0.
    destruct (IH stk rest k' p' 0 H0 (in_G' _ _ E') ltac:(lia) eq_refl) as (stk' & M & H1 & R). cbn [tsize yield].
    replace (S (list_sum (map tsize cs)) + j) with (list_sum (map tsize cs) + S j) by lia. rewrite R. cbn [YaccLR.lrt]. rewrite (finish _ _ _ _ H1 (in_G' _ _ E')), E'.
    assert (L : List.length stk' = List.length (p_rhs p')).
    { transitivity (List.length cs); [rewrite <- (rev_length cs), <- M, map_length; reflexivity|]. clear -O. induction O; cbn; auto. }
    rewrite app_length, L. destruct (Nat.ltb_spec (List.length (p_rhs p') + List.length stk) (List.length (p_rhs p'))) as [X|_]; [lia|].
    rewrite <- L, skipn_app, firstn_app, skipn_all, Nat.sub_diag, firstn_all. cbn [firstn skipn app]. rewrite app_nil_r, M, rev_involutive.
    unfold YaccLR.trans in Tr. rewrite NT in Tr. rewrite Tr. reflexivity.
  - intros stk rest k p i H E L S. exists []. split; [reflexivity|]. split; [|reflexivity]. cbn [app]. assert (i = List.length (p_rhs p)) as <-; [|exact H]. pose proof (skipn_length i (p_rhs p)) as Q. rewrite S in Q. cbn in Q. lia.
  - intros X Xs t ts _ IH O IHs stk rest k p i H E L S. destruct (skipn_nth _ _ _ _ S) as [N S'].
    assert (F : In (la (flat_map yield ts ++ rest)) (firsts (skipn (Datatypes.S i) (p_rhs p)) (la rest))).
    { rewrite S'. rewrite <- (app_nil_r Xs). apply (proj2 first_sound _ _ O). left. reflexivity. }
    destruct (IH stk (flat_map yield ts ++ rest) k p i (la rest) H E N F) as (s' & Tr & R).
    destruct (advance _ _ _ _ _ _ H E N) as (s'' & Tr' & H'). assert (s'' = s') by congruence. subst s''.
    assert (i < List.length (p_rhs p)) by (apply nth_error_Some; congruence).
    destruct (IHs ((s', t) :: stk) rest k p (Datatypes.S i) H' E ltac:(lia) S') as (stk' & M & H1 & R').
    exists (stk' ++ [(s', t)]). repeat split.
    + rewrite map_app, M. reflexivity.
    + rewrite <- app_assoc. exact H1.
    + intros j. change (list_sum (map tsize (t :: ts))) with (tsize t + list_sum (map tsize ts)). cbn [flat_map]. rewrite <- !app_assoc. cbn [app]. rewrite <- Nat.add_assoc, R, R'. reflexivity.
Qed.
Theorem lr_complete t : ok_tree G start t -> forall j, lrt (S (tsize t) + j) [] (yield t) = LAcc t.
Proof.
  intros O j. pose proof (proj1 (proj2 ok_parts)) as Z. unfold zero_ok in Z. apply andb_true_iff in Z. destruct Z as [_ Z].
  destruct (proj1 complete _ _ O [] [] (List.length G) _ 0 endsym Z acc_prod eq_refl (or_introl eq_refl)) as (s' & Tr & R).
  destruct (advance _ _ _ _ _ _ Z acc_prod eq_refl) as (s'' & Tr' & H). assert (s'' = s') by (cbn [top] in Tr; congruence). subst s''.
  rewrite app_nil_r in R. replace (S (tsize t) + j) with (tsize t + S j) by lia. rewrite R. cbn [YaccLR.lrt top la]. rewrite (finish s' _ endsym (mkProd "$accept" [start] None) H acc_prod).
  rewrite (proj2 (nth_error_None G (List.length G))) by lia. reflexivity.
Qed.

(** *** Only derivations are found *)
Inductive inv : list (nat * pt) -> Prop :=
| inv_nil : inv []
| inv_cons s X t stk : trans (top stk) X = Some s -> ok_tree G X t -> inv stk -> inv ((s, t) :: stk).
Definition syield (stk : list (nat * pt)) : list ytok := flat_map yield (rev (map snd stk)).
Lemma trans_range s X s' : trans s X = Some s' -> s < List.length (t_states T) /\ In (X, s') (l_shift (state s) ++ l_goto (state s)).
Proof.
  intros E. split.
  - destruct (le_lt_dec (List.length (t_states T)) s) as [L|L]; [|exact L]. unfold YaccLR.trans, YaccLR.goto, YaccLR.state in E. rewrite nth_overflow in E by exact L. destruct (is_nt X); discriminate.
  - apply in_or_app. unfold YaccLR.trans in E. destruct (is_nt X); [right|left]; apply uassoc_in, E.
Qed.
Lemma back s X s' k i p : trans s X = Some s' -> some_item s' k (S i) = true -> nth_error G' k = Some p -> nth_error (p_rhs p) i = Some X /\ some_item s k i = true.
Proof.
  intros Tr H E. destruct (trans_range _ _ _ Tr) as [L I]. destruct (proj2 (proj2 (proj2 ok_parts)) s L) as (_ & _ & A & _). unfold trans_ok in A.
  apply andb_true_iff in A. destruct A as [A _]. apply andb_true_iff in A. destruct A as [A _]. rewrite forallb_forall in A. specialize (A _ I). rewrite forallb_forall in A.
  apply some_item_in in H. destruct H as [las H]. specialize (A _ H). cbn [fst snd] in A. rewrite E in A. apply andb_true_iff in A. destruct A as [A B].
  destruct (nth_error (p_rhs p) i) as [Y|]; [|discriminate]. apply String.eqb_eq in A. subst. auto.
Qed.
Lemma path stk : inv stk -> forall k p i, nth_error G' k = Some p -> some_item (top stk) k i = true -> i <= List.length (p_rhs p) ->
  i <= List.length stk /\ ok_trees G (firstn i (p_rhs p)) (rev (map snd (firstn i stk))) /\ some_item (top (skipn i stk)) k 0 = true /\ inv (skipn i stk).
Proof.
  induction 1 as [|s X t stk Tr O V IH]; intros k p i E H L.
  - assert (i = 0) as ->.
    { pose proof (proj1 (proj2 ok_parts)) as Z. unfold zero_ok in Z. apply andb_true_iff in Z. destruct Z as [Z _]. rewrite forallb_forall in Z.
      apply some_item_in in H. destruct H as [las H]. specialize (Z _ H). apply Nat.eqb_eq in Z. exact Z. }
    cbn. repeat split; [lia|constructor|exact H|constructor].
  - destruct i as [|i]; [cbn; repeat split; [lia|constructor|exact H|econstructor; eassumption]|].
    destruct (back _ _ _ _ _ _ Tr H E) as [N H']. destruct (IH k p i E H' ltac:(lia)) as (A & B & C & D). cbn [List.length skipn]. repeat split; [lia| |exact C|exact D].
    rewrite (firstn_snoc _ _ _ N). cbn [firstn map rev]. apply ok_trees_app; [exact B|]. constructor; [exact O|constructor].
Qed.
Lemma reduces s a k : action s a = LReduce k -> exists p, nth_error G' k = Some p /\ some_item s k (List.length (p_rhs p)) = true /\ (k = List.length G -> a = endsym) /\ In k (reductions T s) /\ s < List.length (t_states T).
Proof.
  unfold YaccLR.action. intros E. destruct (uassoc a (l_shift (state s))); [discriminate|].
  assert (L : s < List.length (t_states T)).
  { destruct (le_lt_dec (List.length (t_states T)) s) as [L|L]; [|exact L]. unfold YaccLR.state in E. rewrite nth_overflow in E by exact L. discriminate. }
  destruct (proj2 (proj2 (proj2 ok_parts)) s L) as (_ & A & _). unfold reduce_ok in A. apply andb_true_iff in A. destruct A as [A B].
  destruct (uassoc a (l_reduce (state s))) as [k'|] eqn:R.
  - injection E as <-. apply uassoc_in in R. rewrite forallb_forall in A. specialize (A _ R). cbn [fst snd] in A. apply andb_true_iff in A. destruct A as [A C].
    destruct (nth_error G' k') as [p|]; [|discriminate]. exists p. repeat split; [exact A| | |exact L].
    + intros ->. rewrite Nat.eqb_refl in C. cbn in C. apply String.eqb_eq, C.
    + unfold reductions. apply in_or_app. left. exact (in_map snd _ _ R).
  - destruct (l_default (state s)) as [k'|] eqn:D; [|discriminate]. injection E as <-. apply andb_true_iff in B. destruct B as [B C].
    destruct (nth_error G' k') as [p|]; [|discriminate]. exists p. repeat split; [exact B| | |exact L].
    + intros ->. rewrite Nat.eqb_refl in C. discriminate.
    + unfold reductions. rewrite D. apply in_or_app. right. left. reflexivity.
Qed.
Definition maxrank : nat := list_max (t_rank T).
Lemma rank_max s : rank s <= maxrank.
Proof.
  unfold YaccLR.rank, maxrank. destruct (le_lt_dec (List.length (t_rank T)) s) as [L|L]; [rewrite nth_overflow by exact L; lia|].
  pose proof (proj1 (list_max_le (t_rank T) (list_max (t_rank T))) ltac:(lia)) as F. rewrite Forall_forall in F. apply F, nth_In, L.
Qed.
Definition weight (stk : list (nat * pt)) (rest : list ytok) : nat := List.length stk + rank (top stk) + (maxrank + 2) * List.length rest.
(** One step. *)
Lemma no_shift_end s s' : action s endsym <> LShift s'.
Proof.
  intros A. unfold YaccLR.action in A. destruct (uassoc endsym (l_shift (state s))) as [s0|] eqn:U; [|destruct (uassoc endsym (l_reduce _)); [discriminate|destruct (l_default _); discriminate]].
  assert (Lt : s < List.length (t_states T)). { destruct (le_lt_dec (List.length (t_states T)) s) as [X|X]; [|exact X]. unfold YaccLR.state in U. rewrite nth_overflow in U by exact X. discriminate. }
  destruct (proj2 (proj2 (proj2 ok_parts)) _ Lt) as (_ & _ & Tk & _). unfold trans_ok in Tk. apply andb_true_iff in Tk. destruct Tk as [Tk _]. apply andb_true_iff in Tk. destruct Tk as [_ Tk].
  rewrite forallb_forall in Tk. specialize (Tk _ (uassoc_in _ _ _ U)). cbn [fst] in Tk. rewrite String.eqb_refl in Tk. rewrite andb_false_r in Tk. discriminate.
Qed.
Lemma shift_step stk y rest s : inv stk -> action (top stk) (ysym y) = LShift s ->
  inv ((s, PTok y) :: stk) /\ weight ((s, PTok y) :: stk) rest < weight stk (y :: rest) /\ syield ((s, PTok y) :: stk) ++ rest = syield stk ++ y :: rest.
Proof.
  intros V A. unfold YaccLR.action in A. destruct (uassoc (ysym y) (l_shift (state (top stk)))) as [s0|] eqn:U; [|destruct (uassoc (ysym y) (l_reduce _)); [discriminate|destruct (l_default _); discriminate]].
  injection A as ->. split; [|split].
  - apply inv_cons with (X := ysym y); [|constructor|exact V]. unfold YaccLR.trans. rewrite tok_term. exact U.
  - unfold weight in *. cbn [List.length top] in *. pose proof (rank_max s). lia.
  - unfold syield. cbn [map snd rev]. rewrite flat_map_app. cbn [flat_map yield app]. rewrite <- app_assoc. reflexivity.
Qed.
Lemma reduce_step stk a k p : inv stk -> action (top stk) a = LReduce k -> nth_error G k = Some p -> let c := List.length (p_rhs p) in
  c <= List.length stk /\ ok_trees G (p_rhs p) (rev (map snd (firstn c stk))) /\ exists s, goto (top (skipn c stk)) (p_lhs p) = Some s /\
  let stk' := (s, PNode k (rev (map snd (firstn c stk)))) :: skipn c stk in inv stk' /\ syield stk' = syield stk /\ forall rest, weight stk' rest < weight stk rest.
Proof.
  intros V A E' c. destruct (reduces _ _ _ A) as (p' & E & H & End & R & Lt). assert (p' = p) by (rewrite (in_G' _ _ E') in E; congruence). subst p'.
  destruct (path stk V k p _ E H ltac:(lia)) as (Ls & O & H0 & V'). rewrite firstn_all in O. fold c in Ls, O, H0, V'.
  assert (K : k < List.length G) by (apply nth_error_Some; congruence). refine (conj Ls (conj O _)).
  set (s0 := top (skipn c stk)) in *. assert (exists s1, goto s0 (p_lhs p) = Some s1 /\ 1 + rank s1 < rank (top stk) + c) as (s1 & Gt & Rk).
  { apply some_item_in in H0. destruct H0 as [las I]. pose proof (in_range _ _ I) as Lt0. destruct (proj2 (proj2 (proj2 ok_parts)) _ Lt0) as (_ & _ & _ & Go & _ & _).
    unfold goto_ok in Go. rewrite forallb_forall in Go. specialize (Go _ I). cbn [Nat.eqb andb] in Go. destruct (Nat.ltb_spec k (List.length G)) as [_|X]; [|lia]. rewrite E' in Go.
    destruct (goto s0 (p_lhs p)) as [s1|] eqn:Gt; [|discriminate]. exists s1. split; [reflexivity|].
    destruct (proj2 (proj2 (proj2 ok_parts)) _ Lt) as (_ & _ & _ & _ & _ & Rk). unfold rank_ok in Rk. rewrite forallb_forall in Rk. specialize (Rk _ R). rewrite E' in Rk. unfold all_states in Rk.
    rewrite forallb_forall in Rk. specialize (Rk s0 ltac:(apply in_seq; lia)). rewrite (proj2 (some_item_in s0 k 0)) in Rk by eauto. fold c in Rk.
    assert (negb (Nat.eqb c 0) || Nat.eqb s0 (top stk) = true) as Q.
    { destruct (Nat.eqb_spec c 0) as [Z|]; [|reflexivity]. cbn. unfold s0. rewrite Z. cbn [skipn]. apply Nat.eqb_refl. }
    rewrite Q in Rk. cbn [andb implb] in Rk. rewrite Gt in Rk. apply Nat.ltb_lt in Rk. exact Rk. }
  exists s1. split; [exact Gt|]. cbv zeta. set (t := PNode k (rev (map snd (firstn c stk)))). split; [|split].
  - apply inv_cons with (X := p_lhs p); [|econstructor; eassumption|exact V']. unfold YaccLR.trans. rewrite (nt_lhs _ _ E). exact Gt.
  - unfold syield. cbn [map snd rev]. rewrite flat_map_app. unfold t. cbn [flat_map yield]. rewrite app_nil_r, <- flat_map_app, <- rev_app_distr, <- map_app, firstn_skipn. reflexivity.
  - intros rest. unfold weight in *. cbn [List.length top]. rewrite skipn_length. lia.
Qed.
Lemma accept_step stk a k : inv stk -> action (top stk) a = LReduce k -> nth_error G k = None -> a = endsym /\ exists s t, stk = [(s, t)] /\ ok_tree G start t.
Proof.
  intros V A E'. destruct (reduces _ _ _ A) as (p & E & H & End & R & Lt). destruct (path stk V k p _ E H ltac:(lia)) as (Ls & O & H0 & V'). rewrite firstn_all in O.
  assert (K : k = List.length G).
  { apply nth_error_None in E'. assert (k < List.length G') by (apply nth_error_Some; congruence). unfold augment in *. rewrite app_length in *. cbn in *. lia. }
  subst k. rewrite acc_prod in E. injection E as <-. cbn [p_rhs List.length] in *. split; [exact (End eq_refl)|].
  destruct stk as [|[s t] stk]; [cbn in Ls; lia|]. cbn in O, H0, V'. destruct stk as [|[s2 t2] stk].
  - exists s, t. split; [reflexivity|]. inversion O; subst. assumption.
  - exfalso. inversion V'; subst. cbn [top] in H0. match goal with Tr : trans _ _ = Some s2 |- _ => destruct (trans_range _ _ _ Tr) as [Lt2 I2] end.
    destruct (proj2 (proj2 (proj2 ok_parts)) _ Lt2) as (_ & _ & _ & _ & Ac & _). unfold acc_ok in Ac. apply andb_true_iff in Ac. destruct Ac as [_ Ac]. rewrite forallb_forall in Ac. specialize (Ac _ I2). cbn [snd] in Ac.
    pose proof H0 as H1. apply some_item_in in H1. destruct H1 as [las I]. pose proof (in_range _ _ I) as Lt3. destruct (proj2 (proj2 (proj2 ok_parts)) _ Lt3) as (_ & _ & _ & _ & Ac' & _).
    unfold acc_ok in Ac'. apply andb_true_iff in Ac'. destruct Ac' as [Ac' _]. rewrite H0 in Ac'. cbn [implb] in Ac'. rewrite Ac' in Ac. discriminate.
Qed.
Lemma lr_sound j : forall stk rest, inv stk -> weight stk rest < j ->
  match lrt j stk rest with
  | LAcc t => ok_tree G start t /\ yield t = syield stk ++ rest
  | LErr stk' rest' => inv stk' /\ syield stk' ++ rest' = syield stk ++ rest
  | LOut => False
  end.
Proof.
  induction j as [|j IH]; [lia|]. intros stk rest V L. cbn [YaccLR.lrt]. destruct (action (top stk) (la rest)) as [s|k|] eqn:A.
  - destruct rest as [|y rest]; [destruct (no_shift_end _ _ A)|]. destruct (shift_step stk y rest s V A) as (V' & W & Q). specialize (IH _ rest V' ltac:(lia)). rewrite Q in IH. exact IH.
  - destruct (nth_error G k) as [p|] eqn:E.
    + destruct (reduce_step _ _ _ _ V A E) as (Ls & O & s & Gt & V' & Q & W). destruct (Nat.ltb_spec (List.length stk) (List.length (p_rhs p))) as [X|_]; [lia|].
      rewrite Gt. specialize (IH _ rest V' ltac:(specialize (W rest); lia)). rewrite Q in IH. exact IH.
    + destruct (accept_step _ _ _ V A E) as (End & s & t & -> & O). apply la_end in End. subst rest. split; [exact O|]. unfold syield. cbn. rewrite !app_nil_r. reflexivity.
  - split; [exact V|reflexivity].
Qed.
(** Enough steps for a text. *)
Definition lrfuel (ts : list ytok) : nat := S (weight [] ts).
Lemma lrt_more i j : forall stk ts, lrt j stk ts <> LOut -> lrt (j + i) stk ts = lrt j stk ts.
Proof.
  induction j as [|j IH]; intros stk ts N; [destruct N; reflexivity|]. cbn [Nat.add YaccLR.lrt] in *. destruct (action (top stk) (la ts)) as [s|k|].
  - destruct ts; [destruct N; reflexivity|]. apply IH, N.
  - destruct (nth_error G k) as [p|]; [|reflexivity]. destruct (Nat.ltb _ _); [destruct N; reflexivity|]. destruct (goto _ _); [|destruct N; reflexivity]. apply IH, N.
  - reflexivity.
Qed.
Theorem lr_correct ts j : lrfuel ts <= j ->
  match lrt j [] ts with
  | LAcc t => ok_tree G start t /\ yield t = ts
  | LErr stk rest => inv stk /\ syield stk ++ rest = ts /\ forall t, ok_tree G start t -> yield t <> ts
  | LOut => False
  end.
Proof.
  intros Lj. pose proof (lr_sound j [] ts inv_nil ltac:(unfold lrfuel in Lj; lia)) as S. destruct (lrt j [] ts) as [t|stk rest|] eqn:E; try exact S. destruct S as [V Y]. repeat split; [exact V|exact Y|].
  intros t O <-. pose proof (lr_complete t O j) as C. rewrite Nat.add_comm in C. rewrite lrt_more in C by congruence. congruence.
Qed.
(** So the grammar is not ambiguous. *)
Theorem lr_unique t t' : ok_tree G start t -> ok_tree G start t' -> yield t = yield t' -> t = t'.
Proof.
  intros O O' Y. pose proof (lr_complete t O (S (tsize t'))) as C. pose proof (lr_complete t' O' (S (tsize t))) as C'. rewrite Y, Nat.add_comm, C' in C. congruence.
Qed.
End Ok.
