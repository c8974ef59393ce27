(** Emitted code run on a writer: it changes no value and no variable it did not declare, and an
    error once set stays.  No condition on the specification. *)
From Coq Require Import Lia Ascii.
From Verif Require Import GoLex XLex Gram GParse Emit Bytes XdrLib Types Interp GoAst GoSem GSimA.
Open Scope string_scope.
Open Scope Z_scope.
Open Scope list_scope.

(** The shape of the code goXdr emits (out.go:42-163, 195-241, 274-344). *)
Inductive em : list stmt -> Prop :=
| em_nil : em []
| em_app a b : em a -> em b -> em (a ++ b)
| em_pkg fn l : em [SPkg fn l]
| em_call x e : em [SMeth (EConv (GPtr (GNamed x)) e) "Xdr" [EVar "xs"]]
| em_for init c body : em body -> em [SFor "i" init c body]
| em_arr P bound g body : em body -> em [SBlock (arr_body P bound g body)]
| em_ptr P e body : em body -> em (ptr_body P e body)
| em_switch e cs : (forall c, In c cs -> em (snd (fst c))) -> em [SSwitch e cs].

Lemma label_clauses_in ls body c : In c (label_clauses ls body) -> snd (fst c) = body \/ snd (fst c) = [].
Proof.
  induction ls as [|l ls IH]; [intros []|]. destruct ls as [|l2 ls].
  - intros [<-|[]]. left. reflexivity.
  - change (label_clauses (l :: l2 :: ls) body) with ((Some (val_expr (cap l)), [], true) :: label_clauses (l2 :: ls) body). intros [<-|I]; [right; reflexivity|apply IH, I].
Qed.
Fixpoint gx_em (t : typespec) {struct t} : forall P ss, GoAst.gx t P = Some ss -> em ss
with gx_dt_em (t : declType) {struct t} : forall P ss, gx_dt t P = Some ss -> em ss
with gx_field_em (d : decl) {struct d} : forall P ss, gx_field d P = Some ss -> em ss.
Proof.
  - destruct t as [u|u| | | | |its|items|sw cases def|n]; intros P ss H; cbn [GoAst.gx] in H; try discriminate; try (injection H as <-; constructor).
    + injection H as <-. destruct u; constructor.
    + injection H as <-. destruct u; constructor.
    + revert ss H. induction items as [|d items IH]; intros ss H; [injection H as <-; constructor|].
      destruct (gx_field d P) as [a|] eqn:A; [|discriminate]. cbn [pbind] in H.
      match type of H with pbind ?o _ = _ => destruct o as [b|] eqn:B; [|discriminate] end. injection H as <-.
      apply em_app; [exact (gx_field_em d P a A)|apply IH; reflexivity].
    + destruct sw as [|st sn]; [discriminate|]. destruct (gx_dt st (fieldP P sn)) as [a|] eqn:A; [|discriminate]. cbn [pbind] in H.
      pose proof (gx_dt_em st _ _ A) as EA.
      match type of H with pbind ?o _ = _ => destruct o as [b|] eqn:B; [|discriminate] end. cbn [pbind] in H.
      match type of H with pbind ?o _ = _ => destruct o as [c|] eqn:C; [|discriminate] end. injection H as <-.
      apply em_app; [exact EA|]. apply em_switch. intros cl I. apply in_app_or in I. destruct I as [I|I].
      * clear - gx_field_em B I. revert b B I. induction cases as [|cs cases IH]; intros b B I; [injection B as <-; destruct I|].
        destruct cs as [ls dc]. cbn [fst snd] in B. destruct (gx_field dc P) as [x|] eqn:X; [|discriminate]. cbn [pbind] in B.
        match type of B with pbind ?o _ = _ => destruct o as [y|] eqn:Y; [|discriminate] end. injection B as <-.
        apply in_app_or in I. destruct I as [I|I]; [|exact (IH y eq_refl I)].
        destruct (label_clauses_in _ _ _ I) as [->| ->]; [exact (gx_field_em dc P x X)|constructor].
      * destruct def as [d|]; [|injection C as <-; destruct I]. destruct (gx_field d P) as [x|] eqn:X; [|discriminate]. injection C as <-. destruct I as [<-|[]]. exact (gx_field_em d P x X).
  - destruct t as [t|t sz|t sz|sz|sz|sz|t]; intros P ss H; cbn [gx_dt] in H; try (injection H as <-; constructor).
    + exact (gx_em t P ss H).
    + destruct (GoAst.gx t (fixedP P)) as [b|] eqn:B; [|discriminate]. injection H as <-. apply em_for. exact (gx_em t _ _ B).
    + destruct (gt t) as [g|]; [|discriminate]. cbn [pbind] in H. destruct (GoAst.gx t (elemP P)) as [b|] eqn:B; [|discriminate]. injection H as <-. apply em_arr. exact (gx_em t _ _ B).
    + destruct (gt t) as [g|]; [|discriminate]. cbn [pbind] in H. destruct (GoAst.gx t (derefP P)) as [b|] eqn:B; [|discriminate]. injection H as <-. apply em_ptr. exact (gx_em t _ _ B).
  - destruct d as [|t n]; intros P ss H; cbn [gx_field] in H; [injection H as <-; constructor|exact (gx_dt_em t _ _ H)].
Qed.

Lemma gx_union_em st sn cases def P ss : GoAst.gx (typeUnion (declName st sn) cases def) P = Some ss ->
  exists a b, gx_dt st (fieldP P sn) = Some a /\ ss = a ++ b /\ em a /\ em b.
Proof.
  intros H. cbn [GoAst.gx] in H. destruct (gx_dt st (fieldP P sn)) as [a|] eqn:A; [|discriminate]. cbn [pbind] in H.
  match type of H with pbind ?o _ = _ => destruct o as [b|] eqn:B; [|discriminate] end. cbn [pbind] in H.
  match type of H with pbind ?o _ = _ => destruct o as [c|] eqn:C; [|discriminate] end. injection H as <-. do 2 eexists. split; [reflexivity|]. split; [reflexivity|]. split; [eapply gx_dt_em, A|].
  apply em_switch. intros cl I. apply in_app_or in I. destruct I as [I|I].
  - revert b B I. induction cases as [|cs cases IH]; intros b B I; [injection B as <-; destruct I|].
    destruct cs as [ls dc]. cbn [fst snd] in B. destruct (gx_field dc P) as [x|] eqn:X; [|discriminate]. cbn [pbind] in B.
    match type of B with pbind ?o _ = _ => destruct o as [y|] eqn:Y; [|discriminate] end. injection B as <-.
    apply in_app_or in I. destruct I as [I|I]; [|exact (IH y eq_refl I)].
    destruct (label_clauses_in _ _ _ I) as [->| ->]; [eapply gx_field_em, X|constructor].
  - destruct def as [d|]; [|injection C as <-; destruct I]. destruct (gx_field d P) as [x|] eqn:X; [|discriminate]. injection C as <-. destruct I as [<-|[]]. eapply gx_field_em, X.
Qed.

(** ** States *)
Definition stk (s s' : xst) : Prop := x_reader s' = x_reader s /\ (x_err s' = None -> x_err s = None).
Lemma stk_refl s : stk s s. Proof. split; auto. Qed.
Lemma stk_trans s1 s2 s3 : stk s1 s2 -> stk s2 s3 -> stk s1 s3.
Proof. intros (A & B) (C & D). split; [congruence|auto]. Qed.
Lemma rw_w s v : x_reader s = false -> snd (xdrRW s v) = v /\ stk s (fst (xdrRW s v)).
Proof. intros R. unfold xdrRW. destruct (x_err s) eqn:X; [split; [reflexivity|apply stk_refl]|]. rewrite R. split; [reflexivity|]. split; [reflexivity|]. cbn. congruence. Qed.
Lemma stk_set s e : stk s (set_err s e). Proof. split; [reflexivity|]. discriminate. Qed.
Lemma dec_w s : x_reader s = false -> Decoding s = false.
Proof. unfold Decoding. intros ->. destruct (x_err s); reflexivity. Qed.
Lemma prim_w {A} (s : xst) (b : list byte) (f : list byte -> A) (v : A) : x_reader s = false ->
  let r := let '(s1, b1) := xdrRW s b in if Decoding s1 then (s1, f b1) else (s1, v) in snd r = v /\ stk s (fst r).
Proof.
  intros R. destruct (rw_w s b R) as (A1 & A2). destruct (xdrRW s b) as [s1 b1]. cbn in *. rewrite (dec_w s1) by (rewrite (proj1 A2); exact R). split; [reflexivity|exact A2].
Qed.
Lemma lib_w fn s m x s' x' : x_reader s = false -> lib_fun fn s m x = GRet (s', x') -> x' = x /\ stk s s'.
Proof.
  intros R H. unfold lib_fun in H.
  assert (Enc : x_err s = None -> Encoding s = true) by (unfold Encoding; intros ->; rewrite R; reflexivity).
  destruct m as [m|]; destruct x as [z|b|bs|o|bs|o|o|l]; try discriminate H.
  - (* XdrVarArray *)
    destruct (String.eqb fn "XdrVarArray"); [|discriminate H]. unfold XdrVarArray in H. destruct (x_err s) as [e|] eqn:Xe; [injection H as <- <-; split; [reflexivity|apply stk_refl]|].
    rewrite (Enc eq_refl) in H. destruct ((zlen (bytes_of o) >? MaxUint32) || ((m >=? 0) && (zlen (bytes_of o) >? m))); [injection H as <- <-; split; [reflexivity|apply stk_set]|].
    destruct (rw_w s (put_u32 (to_u32 (zlen (bytes_of o)))) R) as (_ & S1). set (s1 := fst (xdrRW s (put_u32 (to_u32 (zlen (bytes_of o)))))) in *.
    assert (R1 : x_reader s1 = false) by (rewrite (proj1 S1); exact R). destruct (rw_w s1 (bytes_of o) R1) as (_ & S2). set (s2 := fst (xdrRW s1 (bytes_of o))) in *.
    assert (R2 : x_reader s2 = false) by (rewrite (proj1 S2); exact R1). destruct (rw_w s2 (pad_make (List.length (bytes_of o))) R2) as (_ & S3).
    destruct (negb (Z.rem (zlen (bytes_of o)) 4 =? 0)); injection H as <- <-; split; try reflexivity; eauto using stk_trans.
  - (* XdrString *)
    destruct (String.eqb fn "XdrString"); [|discriminate H]. unfold XdrString in H. destruct (x_err s) as [e|] eqn:Xe; [injection H as <- <-; split; [reflexivity|apply stk_refl]|].
    rewrite (Enc eq_refl) in H. destruct ((zlen bs >? MaxUint32) || ((m >=? 0) && (zlen bs >? m))); [injection H as <- <-; split; [reflexivity|apply stk_set]|].
    destruct (rw_w s (put_u32 (to_u32 (zlen bs))) R) as (_ & S1). set (s1 := fst (xdrRW s (put_u32 (to_u32 (zlen bs))))) in *.
    assert (R1 : x_reader s1 = false) by (rewrite (proj1 S1); exact R). destruct (rw_w s1 bs R1) as (_ & S2). set (s2 := fst (xdrRW s1 bs)) in *.
    assert (R2 : x_reader s2 = false) by (rewrite (proj1 S2); exact R1). destruct (rw_w s2 (pad_make (List.length bs)) R2) as (_ & S3).
    injection H as <- <-; split; try reflexivity; eauto using stk_trans.
  - assert (Q : forall (Xf : xst -> Z -> xst * Z) p f, (forall s z, Xf s z = match x_err s with Some _ => (s, z) | None => let '(s1, b1) := xdrRW s (p s z) in if Decoding s1 then (s1, f b1) else (s1, z) end) ->
       (let '(s, z) := Xf s z in GRet (s, VInt z)) = GRet (s', x') -> x' = VInt z /\ stk s s').
    { intros Xf p f Hx Hq. rewrite Hx in Hq. destruct (x_err s) eqn:Xe; [injection Hq as <- <-; split; [reflexivity|apply stk_refl]|].
      destruct (prim_w s (p s z) f z R) as (A1 & A2). destruct (let '(s1, b1) := xdrRW s (p s z) in if Decoding s1 then (s1, f b1) else (s1, z)) as [s2 z2]. cbn in A1, A2. injection Hq as <- <-. subst. auto. }
    destruct (String.eqb fn "XdrU32"); [eapply Q; [|exact H]; intros; reflexivity|].
    destruct (String.eqb fn "XdrS32"); [eapply (Q XdrS32 _ (fun b => to_s32 (get_u32 b))); [|exact H]; intros; reflexivity|].
    destruct (String.eqb fn "XdrU64"); [eapply Q; [|exact H]; intros; reflexivity|].
    destruct (String.eqb fn "XdrS64"); [eapply (Q XdrS64 _ (fun b => to_s64 (get_u64 b))); [|exact H]; intros; reflexivity|discriminate H].
  - destruct (String.eqb fn "XdrBool"); [|discriminate H]. unfold XdrBool in H. destruct (x_err s) eqn:Xe; [injection H as <- <-; split; [reflexivity|apply stk_refl]|].
    destruct (prim_w s (if Encoding s then if b then put_u32 1 else put_u32 0 else zeros 4) (fun b1 => if get_u32 b1 =? 0 then false else true) b R) as (A1 & A2).
    cbv zeta in H, A1, A2. destruct (xdrRW s (if Encoding s then if b then put_u32 1 else put_u32 0 else zeros 4)) as [s1 b1]. destruct (Decoding s1); cbn in A1, A2; injection H as <- <-; [rewrite A1|]; auto.
  - destruct (String.eqb fn "XdrArray"); [|discriminate H]. unfold XdrArray in H. destruct (x_err s) eqn:Xe; [injection H as <- <-; split; [reflexivity|apply stk_refl]|].
    destruct (rw_w s bs R) as (A1 & S1). destruct (xdrRW s bs) as [s1 v1]. cbn in A1, S1. subst v1.
    assert (R1 : x_reader s1 = false) by (rewrite (proj1 S1); exact R). destruct (rw_w s1 (pad_make (List.length bs)) R1) as (_ & S2).
    destruct (negb (Z.rem (zlen bs) 4 =? 0)); injection H as <- <-; split; try reflexivity; eauto using stk_trans.
Qed.

(** ** Frames *)
Lemma loc_set_same k v l : loc_get k l = Some v -> loc_set k v l = Some l.
Proof. induction l as [|[y w] l IH]; cbn; [discriminate|]. destruct (Nat.eqb k (List.length l)); [intros [= ->]; reflexivity|]. intros H. rewrite (IH H). reflexivity. Qed.
Lemma store_same fr p x : load fr p = Some x -> store fr p x = Some fr.
Proof. destruct fr as [v l], p as [p|k]; cbn; intros H; [rewrite (path_store_same _ _ _ H)|rewrite (loc_set_same _ _ _ H)]; reflexivity. Qed.
Lemma through_w s fr g f s' fr' : (forall x s' x', f x = GRet (s', x') -> x' = x /\ stk s s') -> through fr g f = GRet (s', fr') -> fr' = fr /\ stk s s'.
Proof.
  intros Hf H. unfold through in H. assert (Q : forall p, (let! x := some_or (load fr p) GStuck in let! (s, x) := f x in let! fr := some_or (store fr p x) GStuck in GRet (s, fr)) = GRet (s', fr') -> fr' = fr /\ stk s s').
  { intros p Hp. destruct (load fr p) as [x|] eqn:L; [|discriminate Hp]. cbn [some_or gbind] in Hp. destruct (f x) as [[s1 x1]| | |] eqn:F; try discriminate Hp. cbn [gbind] in Hp.
    destruct (Hf _ _ _ F) as (-> & S). rewrite (store_same _ _ _ L) in Hp. cbn in Hp. injection Hp as <- <-. auto. }
  destruct g as [v|[p|]|p|]; try discriminate H; eauto.
Qed.
Lemma pop_here fr : pop (depth fr) fr = fr.
Proof. destruct fr as [v l]. unfold pop, depth. cbn. rewrite Nat.sub_diag. reflexivity. Qed.

Section N.
Variable G : gpkg.
Hypothesis Hm : forall x body, lookup x (g_meths G) = Some body -> em body.
Notation ex := (exec G).
(** Code that leaves the frame as it was, whatever it does to the stream. *)
Definition neutral (n : nat) (ss : list stmt) : Prop :=
  forall s fr s' fr', x_reader s = false -> seq (ex n) s fr ss = GRet (s', fr') -> fr' = fr /\ stk s s'.
Lemma seq_app' X s fr a b : seq X s fr (a ++ b) = gbind (seq X s fr a) (fun r => let (s, fr) := r in seq X s fr b).
Proof. revert s fr. induction a as [|x a IH]; intros s fr; [reflexivity|]. cbn. destruct (X s fr x) as [[s1 fr1]| | |]; cbn; auto. Qed.
Lemma seq_one' X s fr a : seq X s fr [a] = X s fr a.
Proof. cbn. destruct (X s fr a) as [[? ?]| | |]; reflexivity. Qed.
Lemma block_w n ss s fr s' fr' : neutral n ss -> x_reader s = false -> block (ex n) s fr ss = GRet (s', fr') -> fr' = fr /\ stk s s'.
Proof.
  intros N R H. unfold block in H. destruct (seq (ex n) s fr ss) as [[s1 fr1]| | |] eqn:Q; try discriminate H. destruct (N _ _ _ _ R Q) as (-> & S). cbn in H. rewrite pop_here in H. injection H as <- <-. auto.
Qed.
(** The loop variable counts, nothing else changes. *)
Lemma loop_w n body : neutral n body -> forall k z c s v locs s' fr', x_reader s = false ->
  loop G (ex n) n k "i" c body s (mkFrame v (("i", VInt z) :: locs)) = GRet (s', fr') -> (exists z', fr' = mkFrame v (("i", VInt z') :: locs)) /\ stk s s'.
Proof.
  intros N k. induction k as [|k IH]; intros z c s v locs s' fr' R H; [discriminate H|]. cbn [loop] in H. destruct (ev_bool G n s (mkFrame v (("i", VInt z) :: locs)) c) as [[|]| | |]; try discriminate H; cbn [gbind] in H.
  - destruct (block (ex n) s (mkFrame v (("i", VInt z) :: locs)) body) as [[s1 fr1]| | |] eqn:B; try discriminate H. destruct (block_w _ _ _ _ _ _ N R B) as (-> & S1). cbn [gbind] in H.
    assert (incr "i" (mkFrame v (("i", VInt z) :: locs)) = GRet (mkFrame v (("i", VInt (z + 1)) :: locs))) as E1.
    { unfold incr. cbn [f_locs loc_find]. change (String.eqb "i" "i") with true. cbv iota. rewrite loc_get_top. cbn [store f_locs]. rewrite loc_set_top. reflexivity. }
    rewrite E1 in H. cbn [gbind] in H. destruct (IH _ _ _ _ _ _ _ (eq_trans (proj1 S1) R) H) as (Q & S2). split; [exact Q|eapply stk_trans; eassumption].
  - injection H as <- <-. split; [eauto|apply stk_refl].
Qed.
Lemma for_w n init c body s fr s' fr' : neutral n body -> x_reader s = false -> ex (S n) s fr (SFor "i" init c body) = GRet (s', fr') -> fr' = fr /\ stk s s'.
Proof.
  intros N R H. cbn [exec] in H. destruct (evv G n s fr init) as [[[z| | | | | | |]| | |]| | |]; try discriminate H. cbn [gbind] in H. destruct fr as [v locs]. unfold push in H. cbn [f_recv f_locs] in H.
  match type of H with gbind ?o _ = _ => destruct o as [[s1 fr1]| | |] eqn:L; try discriminate H end. destruct (loop_w n body N _ _ _ _ _ _ _ _ R L) as ((z' & ->) & S1).
  cbn [gbind] in H. unfold depth in H. cbn [f_locs] in H. rewrite pop_push in H. injection H as <- <-. auto.
Qed.
Lemma ev_local n s v x w locs : ev G n s (mkFrame v ((x, w) :: locs)) (EVar x) = GRet (OPl (PLoc (List.length locs))).
Proof. cbn [ev f_locs loc_find]. rewrite String.eqb_refl. reflexivity. Qed.
Lemma through_local v x w locs f : through (mkFrame v ((x, w) :: locs)) (GP (Some (PLoc (List.length locs)))) f =
  let! (s, y) := f w in GRet (s, mkFrame v ((x, y) :: locs)).
Proof. unfold through. cbn [load f_locs]. rewrite loc_get_top. cbn [some_or gbind]. destruct (f w) as [[s y]| | |]; try reflexivity. cbn [gbind store f_locs]. rewrite loc_set_top. reflexivity. Qed.
Lemma setsize_w s z len : stk s (fst (EncodingSetSize s z len)).
Proof. unfold EncodingSetSize. destruct (x_err s); [apply stk_refl|]. destruct (x_reader s); [apply stk_refl|]. destruct (len >? MaxUint32); [apply stk_set|apply stk_refl]. Qed.
(** A block that declared variables. *)
Definition grown (n : nat) (ss : list stmt) : Prop :=
  forall s v locs s' fr', x_reader s = false -> seq (ex n) s (mkFrame v locs) ss = GRet (s', fr') -> (exists l, fr' = mkFrame v (l ++ locs)) /\ stk s s'.
Lemma grown_block n ss s fr s' fr' : grown n ss -> x_reader s = false -> block (ex n) s fr ss = GRet (s', fr') -> fr' = fr /\ stk s s'.
Proof.
  intros N R H. unfold block in H. destruct fr as [v locs]. destruct (seq (ex n) s (mkFrame v locs) ss) as [[s1 fr1]| | |] eqn:Q; try discriminate H. destruct (N _ _ _ _ _ R Q) as ((l & ->) & S).
  cbn [gbind] in H. unfold pop, depth in H. cbn [f_locs f_recv] in H. rewrite List.app_length, Nat.add_sub, skipn_app, skipn_all, Nat.sub_diag in H. cbn in H. injection H as <- <-. auto.
Qed.
Lemma neutral_nil n : neutral n [].
Proof. intros s fr s' fr' _ [= <- <-]. split; [reflexivity|apply stk_refl]. Qed.
Lemma neutral_app n a b : neutral n a -> neutral n b -> neutral n (a ++ b).
Proof.
  intros A B s fr s' fr' R H. rewrite seq_app' in H. destruct (seq (ex n) s fr a) as [[s1 fr1]| | |] eqn:Q; try discriminate H. destruct (A _ _ _ _ R Q) as (-> & S1). cbn [gbind] in H.
  destruct (B _ _ _ _ (eq_trans (proj1 S1) R) H) as (-> & S2). split; [reflexivity|eapply stk_trans; eassumption].
Qed.
Lemma neutral_one n a : (forall s fr s' fr', x_reader s = false -> ex n s fr a = GRet (s', fr') -> fr' = fr /\ stk s s') -> neutral n [a].
Proof. intros A s fr s' fr' R H. rewrite seq_one' in H. eauto. Qed.
Lemma neutral_cons n a b : (forall s fr s' fr', x_reader s = false -> ex n s fr a = GRet (s', fr') -> fr' = fr /\ stk s s') -> neutral n b -> neutral n (a :: b).
Proof. intros A B. apply (neutral_app n [a] b); [apply neutral_one, A|exact B]. Qed.
Lemma pkg_w n fn l s fr s' fr' : x_reader s = false -> ex n s fr (SPkg fn l) = GRet (s', fr') -> fr' = fr /\ stk s s'.
Proof.
  intros R H. destruct n as [|n]; [discriminate H|]. cbn [exec] in H. 
  destruct l as [|[x| | | | | | | | | | | | | | | |] l]; try discriminate H. repeat match type of H with context [match ?x with EmptyString => _ | String _ _ => _ end] => destruct x; try discriminate H | context [match ?a with Ascii _ _ _ _ _ _ _ _ => _ end] => destruct a | context [if ?b then _ else _] => is_var b; destruct b; try discriminate H end.
  destruct l as [|e [|e2 [|e3 l]]]; try discriminate H.
  - destruct (evv G n s fr e) as [g| | |]; try discriminate H. cbn [gbind] in H. revert H. apply through_w. intros x s1 x1. apply lib_w, R.
  - destruct (evv G n s fr e) as [m| | |]; try discriminate H. cbn [gbind] in H. destruct (evv G n s fr e2) as [g| | |]; try discriminate H. cbn [gbind] in H.
    destruct m as [[z| | | | | | |]| | |]; try discriminate H. revert H. apply through_w. intros x s1 x1. apply lib_w, R.
Qed.

Lemma evv_local n s v x z locs : evv G n s (mkFrame v ((x, VInt z) :: locs)) (EVar x) = GRet (GV (VInt z)).
Proof. unfold evv. rewrite ev_local. cbn [gbind rval load f_locs]. rewrite loc_get_top. reflexivity. Qed.
Lemma evv_addr n s v x w locs : evv G n s (mkFrame v ((x, w) :: locs)) (EAddr (EVar x)) = GRet (GP (Some (PLoc (List.length locs)))).
Proof. unfold evv. cbn [ev]. cbn [f_locs loc_find]. rewrite String.eqb_refl. reflexivity. Qed.
Lemma ex_var n s fr x t : ex (S n) s fr (SVar x t) = let! z := some_or (gzero G n t) GOut in GRet (s, push x z fr). Proof. reflexivity. Qed.
Lemma ex_size n s fr p l : ex (S n) s fr (SMeth (EVar "xs") "EncodingSetSize" [p; l]) = let! gp := evv G n s fr p in let! gl := evv G n s fr l in
  match gl with
  | GV (VInt len) => through fr gp (fun x => match x with VInt z => let '(s, z) := EncodingSetSize s z len in GRet (s, VInt z) | _ => GStuck end)
  | _ => GStuck
  end.
Proof. reflexivity. Qed.
Lemma ex_pkg1 n s fr fn e : ex (S n) s fr (SPkg fn [EVar "xs"; e]) = let! g := evv G n s fr e in through fr g (lib_fun fn s None). Proof. reflexivity. Qed.
Lemma ex_if n s fr c a b : ex (S n) s fr (SIf c a b) = let! t := ev_bool G n s fr c in if t then block (ex n) s fr a else match b with Some b => block (ex n) s fr b | None => GRet (s, fr) end. Proof. reflexivity. Qed.
(** What a run of the code of a variable array went through. *)
Lemma arr_w n P bound g body s v locs s' fr' : (forall m, (m <= n)%nat -> neutral m body) -> x_reader s = false ->
  seq (ex n) s (mkFrame v locs) (arr_body P bound g body) = GRet (s', fr') ->
  (exists l, fr' = mkFrame v (l ++ locs)) /\ stk s s' /\
  (x_err s' = None -> exists m1 m2 len s1 s2 fr2,
     evv G m1 s (mkFrame v (("__arraysz", VInt 0) :: locs)) (ELen (EDeref P)) = GRet (GV (VInt len)) /\ len <= MaxUint32 /\ x_reader s1 = false /\
     ex m2 s1 (mkFrame v (("__arraysz", VInt (to_u32 len)) :: locs)) (SFor "i" (EConv gU64 (ENum "0")) (ELt (EVar "i") (EConv gU64 (EVar "__arraysz"))) body) = GRet (s2, fr2) /\ x_err s2 = None).
Proof.
  intros Nb R H. unfold arr_body in H. destruct n as [|n]; [discriminate H|].
  set (rest := [SIf (EQuery "xs" "Decoding") [SAssign (EDeref P) (EMake (GSlice g) (EVar "__arraysz"))] None; SFor "i" (EConv gU64 (ENum "0")) (ELt (EVar "i") (EConv gU64 (EVar "__arraysz"))) body]) in *.
  (* the rest, in a frame with __arraysz on top *)
  assert (Q : forall k s1 z s2 fr2, (k <= S n)%nat -> x_reader s1 = false -> seq (ex k) s1 (mkFrame v (("__arraysz", VInt z) :: locs)) rest = GRet (s2, fr2) ->
    fr2 = mkFrame v (("__arraysz", VInt z) :: locs) /\ stk s1 s2 /\ exists m2 s3, x_reader s3 = false /\ stk s1 s3 /\
      ex m2 s3 (mkFrame v (("__arraysz", VInt z) :: locs)) (SFor "i" (EConv gU64 (ENum "0")) (ELt (EVar "i") (EConv gU64 (EVar "__arraysz"))) body) = GRet (s2, fr2)).
  { intros k s1 z s2 fr2 Lk R1 Hq. unfold rest in Hq. cbn [seq] in Hq. destruct k as [|k]; [discriminate Hq|].
    assert (E1 : ex (S k) s1 (mkFrame v (("__arraysz", VInt z) :: locs)) (SIf (EQuery "xs" "Decoding") [SAssign (EDeref P) (EMake (GSlice g) (EVar "__arraysz"))] None) = GRet (s1, mkFrame v (("__arraysz", VInt z) :: locs)) \/ ex (S k) s1 (mkFrame v (("__arraysz", VInt z) :: locs)) (SIf (EQuery "xs" "Decoding") [SAssign (EDeref P) (EMake (GSlice g) (EVar "__arraysz"))] None) = GStuck).
    { cbn [exec]. unfold ev_bool, evv. cbn [ev f_locs]. destruct (loc_find "xs" (("__arraysz", VInt z) :: locs)); [right; reflexivity|left]. cbn. rewrite (dec_w _ R1). reflexivity. }
    destruct E1 as [E1|E1]; rewrite E1 in Hq; [|discriminate Hq]. cbn [gbind] in Hq.
    match type of Hq with gbind ?o _ = _ => destruct o as [[s3 fr3]| | |] eqn:F; try discriminate Hq end. cbn [gbind] in Hq. injection Hq as -> ->.
    destruct (for_w k _ _ _ _ _ _ _ (Nb k ltac:(lia)) R1 F) as (-> & S3). split; [reflexivity|]. split; [exact S3|]. exists (S k), s1. split; [exact R1|]. split; [apply stk_refl|exact F]. }
  (* the first three statements *)
  rewrite seq_app' in H. cbn [seq] in H. rewrite ex_var in H.
  destruct n as [|n]; [discriminate H|]. change (gzero G (S n) gU32) with (Some (VInt 0)) in H. cbn [some_or gbind push f_recv f_locs] in H.
  set (F0 := mkFrame v (("__arraysz", VInt 0) :: locs)) in *.
  rewrite ex_size in H. change (push "__arraysz" (VInt 0) (mkFrame v locs)) with F0 in H. unfold F0 in H at 1. rewrite evv_addr in H. cbn [gbind] in H. fold F0 in H.
  destruct (evv G (S n) s F0 (ELen (EDeref P))) as [gl| | |] eqn:L; try discriminate H. cbn [gbind] in H. destruct gl as [[len| | | | | | |]| | |]; try discriminate H.
  unfold F0 in H. rewrite through_local in H. fold F0 in H. pose proof (setsize_w s 0 len) as S1. destruct (EncodingSetSize s 0 len) as [s1 z1] eqn:Es. cbn [fst] in S1. cbn [gbind] in H.
  assert (R1 : x_reader s1 = false) by (rewrite (proj1 S1); exact R).
  assert (Ec : evv G (S n) s1 (mkFrame v (("__arraysz", VInt z1) :: locs)) (EConv (GPtr gU32) (EAddr (EVar "__arraysz"))) = GRet (GP (Some (PLoc (List.length locs))))).
  { unfold evv. cbn [ev f_locs loc_find]. rewrite String.eqb_refl. reflexivity. }
  unfold xU32 in H. rewrite ex_pkg1, Ec in H. cbn [gbind] in H. rewrite through_local in H.
  destruct (lib_fun "XdrU32" s1 None (VInt z1)) as [[s2 x2]| | |] eqn:U; try discriminate H. destruct (lib_w _ _ _ _ _ _ R1 U) as (-> & S2). cbn [gbind] in H.
  assert (R2 : x_reader s2 = false) by (rewrite (proj1 S2); exact R1).
  assert (Z1 : x_err s1 = None -> z1 = to_u32 len /\ len <= MaxUint32).
  { intros E1. unfold EncodingSetSize in Es. destruct (x_err s) eqn:E0; [injection Es as <- <-; congruence|]. rewrite R in Es. destruct (len >? MaxUint32) eqn:C; injection Es as <- <-; [discriminate E1|]. split; [reflexivity|lia]. }
  assert (K : forall k s3 fr3, (k <= S (S n))%nat -> seq (ex k) s2 (mkFrame v (("__arraysz", VInt z1) :: locs)) rest = GRet (s3, fr3) ->
    fr3 = mkFrame v (("__arraysz", VInt z1) :: locs) /\ stk s s3 /\ (x_err s3 = None -> exists m1 m2 len s1 s4 fr2,
     evv G m1 s F0 (ELen (EDeref P)) = GRet (GV (VInt len)) /\ len <= MaxUint32 /\ x_reader s1 = false /\
     ex m2 s1 (mkFrame v (("__arraysz", VInt (to_u32 len)) :: locs)) (SFor "i" (EConv gU64 (ENum "0")) (ELt (EVar "i") (EConv gU64 (EVar "__arraysz"))) body) = GRet (s4, fr2) /\ x_err s4 = None)).
  { intros k s3 fr3 Lk Hk. destruct (Q k _ _ _ _ Lk R2 Hk) as (-> & S3 & m2 & s4 & R4 & S4 & F). split; [reflexivity|]. split; [eauto using stk_trans|]. intros E3.
    assert (E1 : x_err s1 = None) by (apply (proj2 S2), (proj2 S3), E3). destruct (Z1 E1) as (-> & Hl). exists (S n), m2, len, s4, s3, (mkFrame v (("__arraysz", VInt (to_u32 len)) :: locs)). auto. }
  destruct (String.eqb bound "").
  - destruct (K _ _ _ (le_n _) H) as (-> & S3 & X). split; [exists [("__arraysz", VInt z1)]; reflexivity|]. split; [exact S3|exact X].
  - rewrite seq_one', ex_if in H.
    destruct (ev_bool G (S n) s2 (mkFrame v (("__arraysz", VInt z1) :: locs)) (EGt (EVar "__arraysz") (val_expr bound))) as [[|]| | |]; try discriminate H; cbn [gbind] in H.
    + unfold block in H. rewrite seq_one' in H.
      change (ex (S n) s2 (mkFrame v (("__arraysz", VInt z1) :: locs)) (SMeth (EVar "xs") "SetError" [EStr "array too large"])) with (GRet (SetError s2 "array too large", mkFrame v (("__arraysz", VInt z1) :: locs))) in H.
      cbn [gbind] in H. rewrite pop_here in H. injection H as <- <-. split; [exists [("__arraysz", VInt z1)]; reflexivity|]. split; [split; [exact (eq_trans (proj1 S2) (proj1 S1))|discriminate]|discriminate].
    + unfold block in H. destruct (seq (ex (S n)) s2 (mkFrame v (("__arraysz", VInt z1) :: locs)) rest) as [[s3 fr3]| | |] eqn:Hs; try discriminate H. destruct (K (S n) _ _ ltac:(lia) Hs) as (-> & S3 & X).
      cbn [gbind] in H. rewrite pop_here in H. injection H as <- <-. split; [exists [("__arraysz", VInt z1)]; reflexivity|]. split; [exact S3|exact X].
Qed.
Lemma arr_neutral n P bound g body : (forall m, (m <= n)%nat -> neutral m body) -> neutral (S n) [SBlock (arr_body P bound g body)].
Proof.
  intros Nb. apply neutral_one. intros s fr s' fr' R H. cbn [exec] in H. revert H. apply grown_block; [|exact R].
  intros s1 v locs s2 fr2 R1 H. destruct (arr_w n P bound g body s1 v locs s2 fr2 Nb R1 H) as (A & B & _). auto.
Qed.
(** The encoding half of an optional (out.go:146-151). *)
Definition enc_opt (P : expr) (body : list stmt) : list stmt := [SDef "opted" (ENe (derefP P) (EVar "nil")); xBool (EAddr (EVar "opted")); SIf (EVar "opted") body None].
Lemma enc_opt_grown n P body : (forall m, (m <= n)%nat -> neutral m body) -> grown n (enc_opt P body).
Proof.
  intros Nb s v locs s' fr' R H. destruct n as [|n]; [discriminate H|]. unfold enc_opt in H. cbn [seq] in H.
  change (ex (S n) s (mkFrame v locs) (SDef "opted" (ENe (derefP P) (EVar "nil")))) with (let! g := evv G n s (mkFrame v locs) (ENe (derefP P) (EVar "nil")) in match g with GV x => GRet (s, mkFrame v (("opted", x) :: locs)) | _ => GStuck end) in H.
  destruct (evv G n s (mkFrame v locs) (ENe (derefP P) (EVar "nil"))) as [[x| | |]| | |]; try discriminate H. cbn [gbind] in H.
  unfold xBool in H. rewrite ex_pkg1 in H.
  assert (Ec : evv G n s (mkFrame v (("opted", x) :: locs)) (EConv (GPtr gBool) (EAddr (EVar "opted"))) = GRet (GP (Some (PLoc (List.length locs))))).
  { unfold evv. cbn [ev f_locs loc_find]. rewrite String.eqb_refl. reflexivity. }
  rewrite Ec in H. cbn [gbind] in H. rewrite through_local in H. destruct (lib_fun "XdrBool" s None x) as [[s1 x1]| | |] eqn:U; try discriminate H. destruct (lib_w _ _ _ _ _ _ R U) as (-> & S1). cbn [gbind] in H.
  assert (R1 : x_reader s1 = false) by (rewrite (proj1 S1); exact R). rewrite ex_if in H.
  destruct (ev_bool G n s1 (mkFrame v (("opted", x) :: locs)) (EVar "opted")) as [[|]| | |]; try discriminate H; cbn [gbind] in H.
  - destruct (block (ex n) s1 (mkFrame v (("opted", x) :: locs)) body) as [[s2 fr2]| | |] eqn:B; try discriminate H. destruct (block_w _ _ _ _ _ _ (Nb n ltac:(lia)) R1 B) as (-> & S2). cbn in H. injection H as <- <-.
    split; [exists [("opted", x)]; reflexivity|eauto using stk_trans].
  - injection H as <- <-. split; [exists [("opted", x)]; reflexivity|exact S1].
Qed.
Lemma query_enc n s fr : ev_bool G n s fr (EQuery "xs" "Encoding") = GRet (Encoding s) \/ ev_bool G n s fr (EQuery "xs" "Encoding") = GStuck.
Proof. unfold ev_bool, evv. cbn [ev]. destruct (loc_find "xs" (f_locs fr)); [right|left]; reflexivity. Qed.
Lemma query_dec n s fr : x_reader s = false -> ev_bool G n s fr (EQuery "xs" "Decoding") = GRet false \/ ev_bool G n s fr (EQuery "xs" "Decoding") = GStuck.
Proof. intros R. unfold ev_bool, evv. cbn [ev]. destruct (loc_find "xs" (f_locs fr)); [right; reflexivity|left]. cbn. rewrite (dec_w _ R). reflexivity. Qed.
(** What a run of the code of an optional went through. *)
Lemma ptr_w n P e body s fr s' fr' : (forall m, (m <= n)%nat -> neutral m body) -> x_reader s = false ->
  seq (ex (S n)) s fr (ptr_body P e body) = GRet (s', fr') ->
  fr' = fr /\ stk s s' /\ (x_err s = None -> block (ex n) s fr (enc_opt P body) = GRet (s', fr)).
Proof.
  intros Nb R H. unfold ptr_body in H. cbn [seq] in H. rewrite ex_if in H. destruct (query_enc n s fr) as [Q|Q]; rewrite Q in H; [|discriminate H]. cbn [gbind] in H. fold (enc_opt P body) in H.
  assert (D : forall s1 fr1 s2 fr2 b, x_reader s1 = false -> ex (S n) s1 fr1 (SIf (EQuery "xs" "Decoding") b None) = GRet (s2, fr2) -> s2 = s1 /\ fr2 = fr1).
  { intros s1 fr1 s2 fr2 b R1 Hd. rewrite ex_if in Hd. destruct (query_dec n s1 fr1 R1) as [Q1|Q1]; rewrite Q1 in Hd; [|discriminate Hd]. injection Hd as <- <-. auto. }
  destruct (Encoding s) eqn:En.
  - destruct (block (ex n) s fr (enc_opt P body)) as [[s1 fr1]| | |] eqn:B; try discriminate H. destruct (grown_block _ _ _ _ _ _ (enc_opt_grown n P body Nb) R B) as (-> & S1). cbn [gbind] in H.
    match type of H with gbind ?o _ = _ => destruct o as [[s2 fr2]| | |] eqn:F; try discriminate H end. destruct (D _ _ _ _ _ (eq_trans (proj1 S1) R) F) as (-> & ->). cbn in H. injection H as <- <-. auto.
  - cbn [gbind] in H. match type of H with gbind ?o _ = _ => destruct o as [[s2 fr2]| | |] eqn:F; try discriminate H end. destruct (D _ _ _ _ _ R F) as (-> & ->). cbn in H. injection H as <- <-. split; [reflexivity|]. split; [apply stk_refl|].
    unfold Encoding in En. intros X. rewrite X, R in En. discriminate En.
Qed.
Lemma run_w n cs : (forall c, In c cs -> neutral n (snd (fst c))) -> forall s fr s' fr', x_reader s = false -> run (ex n) s fr cs = GRet (s', fr') -> fr' = fr /\ stk s s'.
Proof.
  induction cs as [|[[l ss] ft] cs IH]; intros N s fr s' fr' R H; cbn [run] in H; [injection H as <- <-; split; [reflexivity|apply stk_refl]|].
  destruct (block (ex n) s fr ss) as [[s1 fr1]| | |] eqn:B; try discriminate H. destruct (block_w _ _ _ _ _ _ (N _ (or_introl eq_refl)) R B) as (-> & S1). cbn [gbind] in H.
  destruct ft; [|injection H as <- <-; auto]. destruct (IH (fun c I => N c (or_intror I)) _ _ _ _ (eq_trans (proj1 S1) R) H) as (-> & S2). split; [reflexivity|eauto using stk_trans].
Qed.
Lemma find_clause_suffix n s fr g cs r : find_clause G n s fr g cs = GRet (Some r) -> exists a, cs = a ++ r.
Proof.
  revert r. induction cs as [|[[[l|] ss] ft] cs IH]; intros r H; cbn [find_clause] in H; [discriminate H| |].
  - destruct (evv G n s fr l) as [gl| | |]; try discriminate H. cbn [gbind] in H. assert (Q : find_clause G n s fr g cs = GRet (Some r) -> exists a, (Some l, ss, ft) :: cs = a ++ r).
    { intros Hq. destruct (IH _ Hq) as (a & ->). exists ((Some l, ss, ft) :: a). reflexivity. }
    destruct g as [[z|b| | | | | |]| | |]; try discriminate H; destruct gl as [[z'|b'| | | | | |]| | |]; try discriminate H.
    + destruct (z =? z'); [injection H as <-; exists []; reflexivity|auto].
    + destruct (Bool.eqb b b'); [injection H as <-; exists []; reflexivity|auto].
  - destruct (IH _ H) as (a & ->). exists ((None, ss, ft) :: a). reflexivity.
Qed.
Lemma find_default_suffix cs r : find_default cs = Some r -> exists a, cs = a ++ r.
Proof.
  induction cs as [|[[[l|] ss] ft] cs IH]; cbn [find_default]; intros H; [discriminate H| |injection H as <-; exists []; reflexivity].
  destruct (IH H) as (a & ->). exists ((Some l, ss, ft) :: a). reflexivity.
Qed.
Lemma em_neutral n : forall m, (m <= n)%nat -> forall ss, em ss -> neutral m ss.
Proof.
  induction n as [|n IHn]; intros m Lm ss E.
  - assert (m = O) as -> by lia. intros s fr s' fr' R H. destruct ss as [|a ss]; [injection H as <- <-; split; [reflexivity|apply stk_refl]|discriminate H].
  - destruct (Nat.eq_dec m (S n)) as [->|D]; [clear Lm|apply IHn; [lia|exact E]].
    induction E as [|a b Ea IHa Eb IHb|fn l|x e|init c body Eb _|P bound g body Eb _|P e body Eb _|e cs Ec _].
    + apply neutral_nil.
    + apply neutral_app; assumption.
    + apply neutral_one. intros s fr s' fr' R H. exact (pkg_w (S n) fn l s fr s' fr' R H).
    + apply neutral_one. intros s fr s' fr' R H. cbn [exec] in H. change (String.eqb "Xdr" "Xdr") with true in H. cbv iota in H.
      destruct (lookup x (g_meths G)) as [body|] eqn:L; [|discriminate H]. destruct (evv G n s fr e) as [g| | |]; try discriminate H. cbn [gbind] in H. revert H. apply through_w. intros w s1 w1 H.
      destruct (block (ex n) s (frame0 w) body) as [[s2 fr2]| | |] eqn:B; try discriminate H. destruct (block_w _ _ _ _ _ _ (IHn n (le_n _) _ (Hm _ _ L)) R B) as (-> & S1). cbn in H. injection H as <- <-. auto.
    + apply neutral_one. intros s fr s' fr' R H. exact (for_w n _ _ _ _ _ _ _ (IHn n (le_n _) _ Eb) R H).
    + apply arr_neutral. intros k Lk. apply IHn; assumption.
    + intros s fr s' fr' R H. destruct (ptr_w n P e body s fr s' fr' (fun k Lk => IHn k Lk _ Eb) R H) as (A & B & _). auto.
    + apply neutral_one. intros s fr s' fr' R H. cbn [exec] in H. destruct (evv G n s fr e) as [g| | |]; try discriminate H. cbn [gbind] in H.
      assert (Q : forall r, (exists a, cs = a ++ r) -> run (ex n) s fr r = GRet (s', fr') -> fr' = fr /\ stk s s').
      { intros r (a & ->) Hr. revert Hr. apply run_w; [|exact R]. intros c I. apply IHn; [lia|]. apply Ec, in_or_app. right. exact I. }
      destruct (find_clause G n s fr g cs) as [[r|]| | |] eqn:F; try discriminate H; cbn [gbind] in H.
      * exact (Q r (find_clause_suffix _ _ _ _ _ _ F) H).
      * destruct (find_default cs) as [r|] eqn:Fd; [exact (Q r (find_default_suffix _ _ Fd) H)|]. injection H as <- <-. split; [reflexivity|apply stk_refl].
Qed.
End N.
