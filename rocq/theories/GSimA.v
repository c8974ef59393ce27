(** Memory and evaluation of the emitted code: paths, locals, the pointers passed as valPtr. *)
From Coq Require Import Lia.
From Verif Require Import Bytes XdrLib Types Interp Meta GoLex XLex Gram GParse Emit GoAst GoSem GElab.
Open Scope string_scope.
Open Scope Z_scope.
Open Scope list_scope.

(** ** Paths *)
Lemma set_nth_same {A} k (x : A) l : nth_error l k = Some x -> set_nth k x l = Some l.
Proof.
  revert k. induction l as [|a l IH]; intros [|k] H; cbn in *; try discriminate; [congruence|]. rewrite (IH _ H). reflexivity.
Qed.
Lemma set_nth_some {A} k (x : A) l : (k < List.length l)%nat -> exists l', set_nth k x l = Some l' /\ List.length l' = List.length l /\ nth_error l' k = Some x.
Proof.
  revert k. induction l as [|a l IH]; intros [|k] H; cbn in *; try lia; [eauto|].
  destruct (IH k) as (l' & -> & L & N); [lia|]. cbn. exists (a :: l'). cbn. auto.
Qed.
Lemma set_nth_lt {A} k (x : A) l l' : set_nth k x l = Some l' -> (k < List.length l)%nat.
Proof. revert k l'. induction l as [|a l IH]; intros [|k] l' H; cbn in *; try discriminate; [lia|]. destruct (set_nth k x l) eqn:E; [|discriminate]. apply IH in E. lia. Qed.
Lemma set_nth_twice {A} k (x y : A) l l' : set_nth k x l = Some l' -> set_nth k y l' = set_nth k y l.
Proof.
  revert k l'. induction l as [|a l IH]; intros [|k] l' H; cbn in *; try discriminate; [injection H as <-; reflexivity|].
  destruct (set_nth k x l) eqn:E; [|discriminate]. injection H as <-. cbn. rewrite (IH _ _ E). reflexivity.
Qed.
Lemma set_nth_app {A} (a : list A) x y b : set_nth (List.length a) y (a ++ x :: b) = Some (a ++ y :: b).
Proof. induction a as [|z a IH]; cbn; [reflexivity|]. rewrite IH. reflexivity. Qed.
Lemma update_twice {A} f (x y : A) l : update f y (update f x l) = update f y l.
Proof. induction l as [|[g z] l IH]; cbn; [reflexivity|]. destruct (String.eqb f g) eqn:E; cbn; rewrite E; congruence. Qed.

Lemma step_store_same v a x : step_load v a = Some x -> step_store v a x = Some v.
Proof.
  destruct v, a; cbn; try discriminate.
  - destruct o; discriminate.
  - destruct o as [l|]; [|discriminate]. intros H. rewrite (set_nth_same _ _ _ H). reflexivity.
  - destruct o; [|discriminate]. congruence.
  - destruct o; discriminate.
  - destruct o; discriminate.
  - destruct o; [|discriminate]. congruence.
  - intros H. rewrite H, update_id by exact H. reflexivity.
Qed.
Lemma step_store_some v a w x : step_load v a = Some w ->
  exists v', step_store v a x = Some v' /\ step_load v' a = Some x /\ forall y, step_store v' a y = step_store v a y.
Proof.
  intros H. destruct v as [z|b|l|o|l|o|o|l], a as [f|k|]; cbn in H; try discriminate; try (destruct o as [l|]; try discriminate).
  - cbn. destruct (set_nth_some k x l) as (l' & E & L & N); [apply nth_error_Some; congruence|]. rewrite E. cbn. eexists. split; [reflexivity|].
    split; [exact N|]. intros y. cbn. rewrite (set_nth_twice _ _ _ _ _ E). reflexivity.
  - cbn. eexists. split; [reflexivity|]. split; reflexivity.
  - cbn. rewrite H. eexists. split; [reflexivity|]. cbn. rewrite (lookup_update_same _ _ _ _ H). split; [reflexivity|]. intros y. rewrite update_twice. reflexivity.
Qed.
Lemma step_store_load v a x v' : step_store v a x = Some v' -> exists w, step_load v a = Some w.
Proof.
  destruct v as [z|b|l|o|l|o|o|l], a as [f|k|]; cbn; try discriminate; try (destruct o as [l|]; try discriminate).
  - destruct (set_nth k x l) eqn:E; [|discriminate]. intros _. apply set_nth_lt in E. destruct (nth_error l k) eqn:N; [eauto|]. apply nth_error_None in N. lia.
  - eauto.
  - destruct (lookup f l); [eauto|discriminate].
Qed.

Lemma path_store_some p : forall v w x, path_load v p = Some w ->
  exists v', path_store v p x = Some v' /\ path_load v' p = Some x /\ forall y, path_store v' p y = path_store v p y.
Proof.
  induction p as [|a p IH]; intros v w x H; cbn in *; [exists x; auto|].
  destruct (step_load v a) as [u|] eqn:E; [|discriminate]. destruct (IH _ _ x H) as (u' & S & L & Q). rewrite S.
  destruct (step_store_some v a u u' E) as (v' & S' & L' & Q'). exists v'. split; [exact S'|]. rewrite L'. split; [exact L|].
  intros y. rewrite Q. destruct (path_store u p y); [apply Q'|reflexivity].
Qed.
Lemma path_store_valid p : forall v x v', path_store v p x = Some v' -> exists w, path_load v p = Some w.
Proof.
  induction p as [|a p IH]; intros v x v' H; cbn in *; [eauto|]. destruct (step_load v a) as [u|]; [|discriminate].
  destruct (path_store u p x) eqn:E; [|discriminate]. eapply IH, E.
Qed.
Lemma path_store_same p : forall v w, path_load v p = Some w -> path_store v p w = Some v.
Proof.
  induction p as [|a p IH]; intros v w H; cbn in *; [congruence|]. destruct (step_load v a) as [u|] eqn:E; [|discriminate].
  rewrite (IH _ _ H). apply step_store_same, E.
Qed.
Lemma path_load_app p a : forall v, path_load v (p ++ [a]) = match path_load v p with Some w => step_load w a | None => None end.
Proof. induction p as [|b p IH]; intros v; cbn; [destruct (step_load v a); reflexivity|]. destruct (step_load v b); [apply IH|reflexivity]. Qed.
Lemma path_store_app p a x : forall v w u, path_load v p = Some w -> step_load w a = Some u ->
  path_store v (p ++ [a]) x = match step_store w a x with Some w' => path_store v p w' | None => None end.
Proof.
  induction p as [|b p IH]; intros v w u H1 H2; cbn in *; [injection H1 as ->; rewrite H2; destruct (step_store w a x); reflexivity|].
  destruct (step_load v b) as [y|]; [|discriminate]. rewrite (IH _ _ _ H1 H2). destruct (step_store w a x); reflexivity.
Qed.

(** ** Locals *)
Lemma loc_find_lt x l k : loc_find x l = Some k -> (k < List.length l)%nat.
Proof. induction l as [|[y v] l IH]; cbn; [discriminate|]. destruct (String.eqb x y); [intros [= <-]; lia|]. intros H. apply IH in H. lia. Qed.
Lemma loc_get_push k y v l : (k < List.length l)%nat -> loc_get k ((y, v) :: l) = loc_get k l.
Proof. intros H. cbn. destruct (Nat.eqb_spec k (List.length l)); [lia|reflexivity]. Qed.
Lemma loc_get_top y v l : loc_get (List.length l) ((y, v) :: l) = Some v.
Proof. cbn. rewrite Nat.eqb_refl. reflexivity. Qed.
Lemma loc_set_top y v x l : loc_set (List.length l) x ((y, v) :: l) = Some ((y, x) :: l).
Proof. cbn. rewrite Nat.eqb_refl. reflexivity. Qed.
Lemma pop_push v locs x w : pop (List.length locs) (mkFrame v ((x, w) :: locs)) = mkFrame v locs.
Proof. unfold pop. cbn [f_recv f_locs List.length]. replace (S (List.length locs) - List.length locs)%nat with 1%nat by lia. reflexivity. Qed.
Lemma pop_same v locs : pop (List.length locs) (mkFrame v locs) = mkFrame v locs.
Proof. unfold pop. cbn [f_recv f_locs]. rewrite Nat.sub_diag. reflexivity. Qed.

(** The locals the emitted code has. *)
Definition okloc (l : list (string * val)) : Prop := forall x, In x (map fst l) -> In x ["i"; "opted"; "__arraysz"].
Lemma okloc_find l x : okloc l -> ~ In x ["i"; "opted"; "__arraysz"] -> loc_find x l = None.
Proof.
  intros H N. induction l as [|[y v] l IH]; [reflexivity|]. cbn. destruct (String.eqb_spec x y) as [->|_].
  - destruct N. apply H. left. reflexivity.
  - apply IH. intros z Z. apply H. right. exact Z.
Qed.
Lemma okloc_push l x v : okloc l -> In x ["i"; "opted"; "__arraysz"] -> okloc ((x, v) :: l).
Proof. intros H I y [<-|Y]; [exact I|apply H, Y]. Qed.
Lemma okloc_nil : okloc []. Proof. intros x []. Qed.

(** ** The pointer expressions *)
Section Ptr.
Variable G : gpkg.
(** valPtr; [true] when it mentions i. *)
Inductive pexpr : bool -> expr -> Prop :=
| pe_v : pexpr false (EVar "v")
| pe_p : pexpr false (EAddr (ESel (EVar "v") "P"))
| pe_field b P n : pexpr b P -> pexpr b (fieldP P n)
| pe_elem b P : pexpr b P -> pexpr true (elemP P)
| pe_deref b P : pexpr b P -> pexpr b (derefP P).

(** [P] points to [path], whatever is there. *)
Definition ok_ptr (v0 : val) (locs : list (string * val)) (P : expr) (path : list step) : Prop :=
  forall n s x v1, path_store v0 path x = Some v1 -> evv G n s (mkFrame v1 locs) P = GRet (GP (Some (PRecv path))).

Lemma ok_ptr_now v0 locs P path n s w : ok_ptr v0 locs P path -> path_load v0 path = Some w ->
  evv G n s (mkFrame v0 locs) P = GRet (GP (Some (PRecv path))).
Proof. intros H L. eapply H. apply path_store_same, L. Qed.
Lemma ok_ptr_store v0 locs P path x v1 : ok_ptr v0 locs P path -> path_store v0 path x = Some v1 -> ok_ptr v1 locs P path.
Proof.
  intros H S n s y v2 S2. destruct (path_store_valid _ _ _ _ S) as (w & L). destruct (path_store_some _ _ _ x L) as (v' & S' & _ & Q).
  assert (v' = v1) by congruence. subst v'. apply (H n s y v2). rewrite <- Q. exact S2.
Qed.
Lemma store_load v p x v1 : path_store v p x = Some v1 -> path_load v1 p = Some x.
Proof. intros S. destruct (path_store_valid _ _ _ _ S) as (w & L). destruct (path_store_some _ _ _ x L) as (v' & S' & L' & _). congruence. Qed.
Lemma store_store v p x y v1 : path_store v p x = Some v1 -> path_store v1 p y = path_store v p y.
Proof. intros S. destruct (path_store_valid _ _ _ _ S) as (w & L). destruct (path_store_some _ _ _ x L) as (v' & S' & _ & Q). replace v1 with v' by congruence. apply Q. Qed.

Lemma evv_inv n s fr P g : evv G n s fr P = GRet g -> exists o, ev G n s fr P = GRet o /\ rval fr o = GRet g.
Proof. unfold evv. destruct (ev G n s fr P); cbn; try discriminate. eauto. Qed.

Lemma ok_field v0 locs P path n l x : ok_ptr v0 locs P path -> path_load v0 path = Some (VStruct l) -> lookup (cap n) l = Some x ->
  ok_ptr v0 locs (fieldP P n) (path ++ [PField (cap n)]).
Proof.
  intros H L F m s y v1 S. rewrite (path_store_app _ _ _ _ (VStruct l) x) in S by assumption. cbn [step_store] in S. rewrite F in S.
  destruct (evv_inv _ _ _ _ _ (H m s _ _ S)) as (o & E & R). unfold fieldP, evv. cbn [ev]. rewrite E. cbn [gbind]. rewrite R. reflexivity.
Qed.
Lemma ok_v_p v0 locs l x : okloc locs -> v0 = VStruct l -> lookup "P" l = Some x -> ok_ptr v0 locs (EAddr (ESel (EVar "v") "P")) [PField "P"].
Proof. intros O -> F m s y v1 S. unfold evv. cbn [ev f_locs]. rewrite (okloc_find _ "v" O) by (cbn; intuition discriminate). reflexivity. Qed.
Lemma ok_v v0 locs : okloc locs -> ok_ptr v0 locs (EVar "v") [].
Proof. intros O m s y v1 S. unfold evv. cbn [ev f_locs]. rewrite (okloc_find _ "v" O) by (cbn; intuition discriminate). reflexivity. Qed.

Lemma ok_deref v0 locs P path x : ok_ptr v0 locs P path -> path_load v0 path = Some (VPtr (Some x)) -> ok_ptr v0 locs (derefP P) (path ++ [PDeref]).
Proof.
  intros H L m s y v1 S. rewrite (path_store_app _ PDeref _ _ _ x L eq_refl) in S. cbn [step_store] in S.
  destruct (evv_inv _ _ _ _ _ (H m s _ _ S)) as (o & E & R). unfold derefP, evv. cbn [ev]. rewrite E. cbn [gbind]. rewrite R. cbn [gbind rval load f_recv].
  rewrite (store_load _ _ _ _ S). reflexivity.
Qed.
Lemma ok_elem v0 locs P path l lv k x : ok_ptr v0 locs P path -> path_load v0 path = Some (VSlice (Some l)) ->
  nth_error l k = Some x -> loc_find "i" locs = Some lv -> loc_get lv locs = Some (VInt (Z.of_nat k)) ->
  ok_ptr v0 locs (elemP P) (path ++ [PIdx k]).
Proof.
  intros H L N F Q m s y v1 S. rewrite (path_store_app _ _ _ _ (VSlice (Some l)) x) in S by assumption. cbn [step_store] in S.
  destruct (set_nth k y l) as [l'|] eqn:T; [|discriminate]. cbn [option_map] in S.
  destruct (evv_inv _ _ _ _ _ (H m s _ _ S)) as (o & E & R). unfold elemP, evv. cbn [ev]. rewrite E. cbn [gbind]. rewrite R. cbn [gbind f_locs]. rewrite F.
  cbn [gbind rval load f_locs f_recv]. rewrite Q. cbn [gbind]. rewrite (store_load _ _ _ _ S). cbn [gbind elems sub].
  assert (Z.of_nat k <? zlen l' = true) as ->.
  { pose proof (set_nth_lt _ _ _ _ T). destruct (set_nth_some k y l) as (l2 & T2 & L2 & _); [assumption|]. replace l2 with l' in L2 by congruence. unfold zlen. apply Z.ltb_lt. lia. }
  assert (0 <=? Z.of_nat k = true) as -> by (apply Z.leb_le; lia). cbn [andb]. rewrite Nat2Z.id. reflexivity.
Qed.

(** A variable declared later does not change what [P] is, unless it is called [i] and [P] uses [i]. *)
Definition nolc (o : operand) : Prop :=
  match o with OPl (PLoc _) | OVal (GP (Some (PLoc _))) => False | _ => True end.
Lemma rval_push o v y w locs : nolc o -> rval (mkFrame v ((y, w) :: locs)) o = rval (mkFrame v locs) o.
Proof. destruct o as [[p|k]|[x|[[p|k]|]|p|]]; cbn; intros H; try reflexivity; destruct H. Qed.
Lemma rval_nolc fr o g : nolc o -> rval fr o = GRet g -> nolc (OVal g).
Proof.
  destruct o as [[p|k]|g']; cbn [nolc]; intros H; [| |cbn; intros [= <-]; exact H]; [|destruct H].
  cbn. destruct (path_load (f_recv fr) p) as [[| | | | | |o|]|]; try discriminate; try destruct o; intros [= <-]; exact I.
Qed.
Lemma ev_push b P y w v locs n s : pexpr b P -> okloc locs -> y <> "v" -> (b = true -> y <> "i") ->
  ev G n s (mkFrame v ((y, w) :: locs)) P = ev G n s (mkFrame v locs) P /\
  forall o, ev G n s (mkFrame v locs) P = GRet o -> nolc o.
Proof.
  intros D O Nv Ni. pose proof (okloc_find _ "v" O ltac:(cbn; intuition discriminate)) as Fv.
  destruct (String.eqb_spec "v" y) as [X|Ev]; [congruence|]. apply String.eqb_neq in Ev.
  induction D as [| |b P m D IH|b P D IH|b P D IH].
  - cbn [ev f_locs loc_find]. rewrite Ev, Fv. cbn. split; [reflexivity|]. intros o [= <-]. exact I.
  - cbn [ev f_locs loc_find]. rewrite Ev, Fv. cbn. split; [reflexivity|]. intros o [= <-]. exact I.
  - destruct (IH Ni) as (E & N). unfold fieldP. cbn [ev]. rewrite E. destruct (ev G n s (mkFrame v locs) P) as [o| | |]; cbn [gbind]; try (split; [reflexivity|discriminate]).
    specialize (N o eq_refl). rewrite (rval_push _ _ _ _ _ N). destruct (rval (mkFrame v locs) o) as [g| | |] eqn:R; cbn [gbind]; try (split; [reflexivity|discriminate]).
    split; [reflexivity|]. pose proof (rval_nolc _ _ _ N R) as Q.
    destruct g as [x|[[q|k]|]|q|]; cbn in Q; try destruct Q; destruct o as [[q'|k']|[x'|[[q'|k']|]|q'|]]; cbn in N; try destruct N; cbn; intros o'; try discriminate; intros [= <-]; exact I.
  - assert (Ni' : b = true -> y <> "i") by (intros _; apply Ni; reflexivity). destruct (IH Ni') as (E & N). unfold elemP. cbn [ev]. rewrite E.
    destruct (ev G n s (mkFrame v locs) P) as [o| | |]; cbn [gbind]; try (split; [reflexivity|discriminate]).
    specialize (N o eq_refl). rewrite (rval_push _ _ _ _ _ N). destruct (rval (mkFrame v locs) o) as [g| | |] eqn:R; cbn [gbind]; try (split; [reflexivity|discriminate]).
    pose proof (rval_nolc _ _ _ N R) as Q. destruct g as [x|[[q|k]|]|q|]; cbn in Q; try destruct Q; cbn [gbind]; try (split; [reflexivity|discriminate]).
    cbn [f_locs loc_find]. destruct (String.eqb_spec "i" y) as [X|_]; [destruct (Ni eq_refl); congruence|].
    destruct (loc_find "i" locs) as [k|] eqn:F.
    + cbn [gbind rval load f_locs]. rewrite (loc_get_push k y w locs (loc_find_lt _ _ _ F)). split.
      * destruct (loc_get k locs) as [[]|]; reflexivity.
      * destruct (loc_get k locs) as [x|]; [|discriminate]. destruct x as [z| | | | | |[o0|]|]; cbn [gbind sub]; try discriminate; cbn [f_recv];
          destruct (path_load v q) as [[| | | | |o1|[|]|]|]; cbn [gbind]; try discriminate.
        destruct ((0 <=? z) && (z <? zlen (elems o1))); cbn [gbind sub]; [|discriminate]. intros o' [= <-]. exact I.
    + replace ("i" =? "v")%string with false by reflexivity. replace ("i" =? "xs")%string with false by reflexivity.
      destruct (cval G "i") as [z|]; cbn [gbind]; [|split; [reflexivity|discriminate]].
      cbn [rval gbind load f_recv sub]. split; [reflexivity|]. intros o'.
      destruct (path_load v q) as [[| | | | |o1|[|]|]|]; cbn [gbind]; try discriminate.
      destruct ((0 <=? z) && (z <? zlen (elems o1))); cbn [gbind]; [|discriminate]. intros [= <-]. exact I.
  - destruct (IH Ni) as (E & N). unfold derefP. cbn [ev]. rewrite E. destruct (ev G n s (mkFrame v locs) P) as [o| | |]; cbn [gbind]; try (split; [reflexivity|discriminate]).
    specialize (N o eq_refl). rewrite (rval_push _ _ _ _ _ N). destruct (rval (mkFrame v locs) o) as [g| | |] eqn:R; cbn [gbind]; try (split; [reflexivity|discriminate]).
    pose proof (rval_nolc _ _ _ N R) as Q. split; [reflexivity|]. destruct g as [x|[[q|k]|]|q|]; cbn in Q; try destruct Q; intros o'; try discriminate. intros [= <-]. exact I.
Qed.
Lemma ok_ptr_push v0 locs P path b y w : pexpr b P -> okloc locs -> y <> "v" -> (b = true -> y <> "i") ->
  ok_ptr v0 locs P path -> ok_ptr v0 ((y, w) :: locs) P path.
Proof.
  intros D O Nv Ni H n s x v1 S. specialize (H n s x v1 S). destruct (ev_push b P y w v1 locs n s D O Nv Ni) as (E & N).
  unfold evv in *. rewrite E. destruct (ev G n s (mkFrame v1 locs) P) as [o| | |]; try discriminate. cbn [gbind] in *. rewrite rval_push; auto.
Qed.
End Ptr.
