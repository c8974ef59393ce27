(** The emitted statements compute what [xdr] does, for every type of a supported specification. *)
From Coq Require Import Lia.
From Verif Require Import GoLex XLex Gram GParse Emit Bytes XdrLib Types Interp Meta GoAst GoSem GElab GSimA GSimB.
Open Scope string_scope.
Open Scope Z_scope.
Open Scope list_scope.

(** From some fuel on. *)
Definition evt (Q : nat -> Prop) : Prop := exists m0, forall m, (m0 <= m)%nat -> Q m.
Lemma evt_now (Q : nat -> Prop) : (forall m, Q m) -> evt Q. Proof. intros H. exists O. auto. Qed.
Lemma evt_impl (P Q : nat -> Prop) : (forall m, P m -> Q m) -> evt P -> evt Q.
Proof. intros H (m0 & A). exists m0. auto. Qed.
Lemma evt_and (P Q R : nat -> Prop) : (forall m, P m -> Q m -> R m) -> evt P -> evt Q -> evt R.
Proof. intros H (a & A) (b & B). exists (a + b)%nat. intros m L. apply H; [apply A|apply B]; lia. Qed.
Lemma evt_S (Q : nat -> Prop) : evt (fun m => Q (S m)) -> evt Q.
Proof. intros (a & A). exists (S a). intros [|m] L; [lia|]. apply A. lia. Qed.

Lemma seq_app X s fr a b : seq X s fr (a ++ b) = gbind (seq X s fr a) (fun r => let (s, fr) := r in seq X s fr b).
Proof.
  revert s fr. induction a as [|x a IH]; intros s fr; [reflexivity|]. cbn [seq app]. destruct (X s fr x) as [[s1 fr1]| | |]; cbn [gbind]; [apply IH|reflexivity..].
Qed.
Lemma seq_one X s fr a : seq X s fr [a] = X s fr a.
Proof. cbn. destruct (X s fr a) as [[? ?]| | |]; reflexivity. Qed.

Lemma XdrU32_range s z s' z' : 0 <= z < 2 ^ 32 -> XdrU32 s z = (s', z') -> 0 <= z' < 2 ^ 32.
Proof.
  intros R H. unfold XdrU32 in H. destruct (x_err s); [congruence|]. destruct (xdrRW s _) as [s1 b]. destruct (Decoding s1); injection H as _ <-; [apply get_u32_range|exact R].
Qed.
Lemma SetSize_range s len s' z' : EncodingSetSize s 0 len = (s', z') -> 0 <= z' < 2 ^ 32.
Proof.
  unfold EncodingSetSize. destruct (x_err s); [intros [= _ <-]; lia|]. destruct (x_reader s); [intros [= _ <-]; lia|]. destruct (len >? MaxUint32); intros [= _ <-]; [lia|].
  apply Z.mod_pos_bound. lia.
Qed.
Lemma to_u64_id z : 0 <= z < 2 ^ 32 -> to_u64 z = z.
Proof. intros H. unfold to_u64. apply Z.mod_small. lia. Qed.
Lemma to_s64_id z : - 1 <= z <= MaxUint32 -> to_s64 z = z.
Proof. intros H. unfold to_s64, MaxUint32 in *. rewrite Z.mod_small; lia. Qed.

Section Sim.
Variable fl : flags.
Variable ds : list defn.
Variable E : env.
Variable G : gpkg.
Hypothesis Hsup : supported fl ds = Some (E, G).
Let K := xconsts ds.
Notation ex := (exec G).

(** Running [ss] turns the value at [path] from what it is into [x']. *)
Definition sim (v0 : val) (locs : list (string * val)) (path : list step) (s : xst) (ss : list stmt) (s' : xst) (x' : val) : Prop :=
  exists v1, path_store v0 path x' = Some v1 /\ evt (fun m => seq (ex m) s (mkFrame v0 locs) ss = GRet (s', mkFrame v1 locs)).

Lemma sim_nil v0 locs path s x : path_load v0 path = Some x -> sim v0 locs path s [] s x.
Proof. intros L. exists v0. split; [apply path_store_same, L|]. apply evt_now. reflexivity. Qed.
Lemma sim_app v0 locs path s a b s1 x1 s2 x2 : sim v0 locs path s a s1 x1 ->
  (forall v1, path_store v0 path x1 = Some v1 -> sim v1 locs path s1 b s2 x2) -> sim v0 locs path s (a ++ b) s2 x2.
Proof.
  intros (v1 & S1 & A) H. destruct (H v1 S1) as (v2 & S2 & B). exists v2. split; [rewrite <- (store_store _ _ _ _ _ S1); exact S2|].
  revert A B. apply evt_and. intros m A B. rewrite seq_app, A. exact B.
Qed.
Lemma sim_sub v0 locs path a w s ss s' x' w' : path_load v0 path = Some w -> step_load w a <> None -> step_store w a x' = Some w' ->
  sim v0 locs (path ++ [a]) s ss s' x' -> sim v0 locs path s ss s' w'.
Proof.
  intros L N S (v1 & S1 & A). destruct (step_load w a) as [u|] eqn:F; [|congruence]. exists v1. rewrite (path_store_app _ _ _ _ _ _ L F), S in S1. auto.
Qed.
Lemma block_of m s fr ss s' v1 locs' : depth fr = List.length locs' -> seq (ex m) s fr ss = GRet (s', mkFrame v1 locs') -> block (ex m) s fr ss = GRet (s', mkFrame v1 locs').
Proof. intros D H. unfold block. rewrite H. cbn [gbind]. rewrite D, pop_same. reflexivity. Qed.
Lemma block_of1 m s fr ss s' v1 y w locs' : depth fr = List.length locs' -> seq (ex m) s fr ss = GRet (s', mkFrame v1 ((y, w) :: locs')) -> block (ex m) s fr ss = GRet (s', mkFrame v1 locs').
Proof. intros D H. unfold block. rewrite H. cbn [gbind]. rewrite D, pop_push. reflexivity. Qed.

(** ** Calls into the library *)
Lemma ex_prim m s fr fn g P q x s' x' fr' : evv G m s fr P = GRet (GP (Some q)) -> load fr q = Some x ->
  lib_fun fn s None x = GRet (s', x') -> store fr q x' = Some fr' -> ex (S m) s fr (SPkg fn [EVar "xs"; EConv (GPtr g) P]) = GRet (s', fr').
Proof.
  intros H L F S. destruct (evv_inv _ _ _ _ _ _ H) as (o & A & B). cbn [exec]. unfold evv. cbn [ev]. rewrite A. cbn [gbind]. rewrite B. cbn [gbind conv_val rval through some_or].
  rewrite L. cbn [some_or gbind]. rewrite F. cbn [gbind]. rewrite S. reflexivity.
Qed.
Lemma sim_prim v0 locs P path s x fn g s' x' : ok_ptr G v0 locs P path -> path_load v0 path = Some x -> lib_fun fn s None x = GRet (s', x') ->
  sim v0 locs path s [SPkg fn [EVar "xs"; EConv (GPtr g) P]] s' x'.
Proof.
  intros O L F. destruct (path_store_some _ _ _ x' L) as (v1 & S & _). exists v1. split; [exact S|]. apply evt_S, evt_now. intros m.
  rewrite seq_one. eapply ex_prim; [eapply ok_ptr_now; eassumption|exact L|exact F|]. cbn. rewrite S. reflexivity.
Qed.
Lemma ev_bound m s v locs sz b : okloc locs -> bound_ok K sz = true -> xbound K sz = Some b ->
  evv G m s (mkFrame v locs) (EConv gInt (size_expr sz)) = GRet (GV (VInt (maxlen_of b))).
Proof.
  intros O B H. unfold bound_ok in B. unfold xbound in H. unfold evv, size_expr. destruct (String.eqb sz ""); cbn [orb] in B.
  - injection H as <-. reflexivity.
  - destruct (xval K sz) as [k|] eqn:X; [|discriminate]. destruct ((0 <=? k) && (k <=? MaxUint32)) eqn:R; [|discriminate]. injection H as <-.
    cbn [ev]. rewrite (ev_use _ _ _ _ Hsup m s v locs sz k O B X). cbn. rewrite to_s64_id; [reflexivity|]. apply andb_true_iff in R. rewrite !Z.leb_le in R. lia.
Qed.
Lemma sim_bound v0 locs P path s x fn g sz b s' x' : okloc locs -> bound_ok K sz = true -> xbound K sz = Some b -> ok_ptr G v0 locs P path -> path_load v0 path = Some x ->
  lib_fun fn s (Some (maxlen_of b)) x = GRet (s', x') -> sim v0 locs path s [SPkg fn [EVar "xs"; EConv gInt (size_expr sz); EConv (GPtr g) P]] s' x'.
Proof.
  intros Q B1 B2 O L F. destruct (path_store_some _ _ _ x' L) as (v1 & S & _). exists v1. split; [exact S|]. apply evt_S, evt_now. intros m.
  rewrite seq_one. cbn [exec]. rewrite (ev_bound m s v0 locs sz b Q B1 B2). cbn [gbind].
  destruct (evv_inv _ _ _ _ _ _ (ok_ptr_now _ _ _ _ _ m s _ O L)) as (o & A & B). unfold evv. cbn [ev]. rewrite A. cbn [gbind]. rewrite B. cbn [gbind conv_val rval through load f_recv].
  rewrite L. cbn [some_or gbind]. rewrite F. cbn [gbind store f_recv]. rewrite S. reflexivity.
Qed.
Lemma sim_opaque v0 locs P path s bs s' bs' : ok_ptr G v0 locs P path -> path_load v0 path = Some (VArr bs) -> XdrArray s bs = (s', bs') ->
  sim v0 locs path s [SPkg "XdrArray" [EVar "xs"; EAll (EParen (EDeref P))]] s' (VArr bs').
Proof.
  intros O L F. destruct (path_store_some _ _ _ (VArr bs') L) as (v1 & S & _). exists v1. split; [exact S|]. apply evt_S, evt_now. intros m.
  rewrite seq_one. cbn [exec]. destruct (evv_inv _ _ _ _ _ _ (ok_ptr_now _ _ _ _ _ m s _ O L)) as (o & A & B). unfold evv. cbn [ev]. rewrite A. cbn [gbind]. rewrite B.
  cbn [gbind rval through load f_recv]. rewrite L. cbn [some_or gbind lib_fun String.eqb Ascii.eqb Bool.eqb]. rewrite F. cbn [gbind store f_recv]. rewrite S. reflexivity.
Qed.

(** ** Members *)
Section Step.
Variable n : nat.
Hypothesis IH : forall t c P ss b arr path v0 locs s x s' x',
  el_dt K t = Some c -> gx_dt t P = Some ss -> nok_dt K E arr t = true -> pexpr b P -> (b = true -> arr = true) -> okloc locs ->
  ok_ptr G v0 locs P path -> path_load v0 path = Some x -> xdr n E c s x = Ret (s', x') -> sim v0 locs path s ss s' x'.

Lemma sim_field t f c P ss b arr path v0 locs s x s' x' :
  el_dt K t = Some c -> gx_dt t (fieldP P f) = Some ss -> nok_dt K E arr t = true -> pexpr b P -> (b = true -> arr = true) -> okloc locs ->
  ok_ptr G v0 locs P path -> path_load v0 path = Some x -> on_field (xdr n E c) s x (cap f) = Ret (s', x') -> sim v0 locs path s ss s' x'.
Proof.
  intros C X N Pb Ba O Q L H. unfold on_field in H. destruct x as [| | | | | | |l]; try discriminate. destruct (lookup (cap f) l) as [y|] eqn:F; [|discriminate].
  destruct (xdr n E c s y) as [[s1 y1]| |] eqn:D; try discriminate. cbn in H. injection H as <- <-.
  assert (F' : step_load (VStruct l) (PField (cap f)) = Some y) by exact F.
  eapply (sim_sub _ _ _ (PField (cap f))); [exact L|congruence|cbn; rewrite F; reflexivity|].
  eapply IH; [exact C|exact X|exact N|apply pe_field, Pb|exact Ba|exact O|eapply ok_field; eassumption|rewrite path_load_app, L; exact F|exact D].
Qed.
Lemma sim_arm d a P ss b arr path v0 locs s x s' x' :
  el_arm K d = Some a -> gx_field d P = Some ss -> nok_d K E arr d = true -> pexpr b P -> (b = true -> arr = true) -> okloc locs ->
  ok_ptr G v0 locs P path -> path_load v0 path = Some x -> xdr_fields (xdr n E) (opt_list a) s x = Ret (s', x') -> sim v0 locs path s ss s' x'.
Proof.
  intros A X N Pb Ba O Q L H. destruct d as [|t f].
  - injection A as <-. injection X as <-. injection H as <- <-. apply sim_nil, L.
  - change (pbind (el_dt K t) (fun c => Some (Some (cap f, c))) = Some a) in A. destruct (el_dt K t) as [c|] eqn:C; [|discriminate]. injection A as <-.
    cbn [opt_list xdr_fields] in H. destruct (on_field (xdr n E c) s x (cap f)) as [[s1 x1]| |] eqn:F; try discriminate. injection H as <- <-.
    eapply sim_field; eassumption.
Qed.
Lemma sim_fields items : forall fs P ss b arr path v0 locs s x s' x',
  el_items ds items = Some fs -> gx (typeStruct items) P = Some ss -> nok K E arr (typeStruct items) = true -> pexpr b P -> (b = true -> arr = true) -> okloc locs ->
  ok_ptr G v0 locs P path -> path_load v0 path = Some x -> xdr_fields (xdr n E) fs s x = Ret (s', x') -> sim v0 locs path s ss s' x'.
Proof.
  induction items as [|d items IHi]; intros fs P ss b arr path v0 locs s x s' x' A X N Pb Ba O Q L H.
  - injection A as <-. injection X as <-. injection H as <- <-. apply sim_nil, L.
  - cbn [el_items] in A. fold K in A. destruct (el_arm K d) as [a|] eqn:A1; [|discriminate]. destruct (el_items ds items) as [fs2|]; [|discriminate]. injection A as <-.
    change (pbind (gx_field d P) (fun a => do b <- gx (typeStruct items) P ; Some (a ++ b)) = Some ss) in X.
    destruct (gx_field d P) as [s1|] eqn:X1; [|discriminate]. cbn [pbind] in X. destruct (gx (typeStruct items) P) as [s2|] eqn:X2; [|discriminate]. injection X as <-.
    change (nok_d K E arr d && nok K E arr (typeStruct items) = true) in N. apply andb_true_iff in N. destruct N as (N1 & N2).
    assert (exists sm xm, xdr_fields (xdr n E) (opt_list a) s x = Ret (sm, xm) /\ xdr_fields (xdr n E) fs2 sm xm = Ret (s', x')) as (sm & xm & H1 & H2).
    { destruct a as [[f c]|]; cbn [opt_list app xdr_fields] in *; [|eauto]. destruct (on_field (xdr n E c) s x f) as [[s3 x3]| |]; try discriminate. cbn [obind] in *. eauto. }
    eapply sim_app; [eapply sim_arm; eassumption|]. intros v1 S1. eapply IHi; try eassumption; [reflexivity|eapply ok_ptr_store; eassumption|eapply store_load; exact S1].
Qed.

(** ** Single statements *)
Notation stp s fr a r := (evt (fun m => ex m s fr a = GRet r)).
Notation sqp s fr a r := (evt (fun m => seq (ex m) s fr a = GRet r)).
Lemma sq_cons s fr a ss s1 fr1 r : stp s fr a (s1, fr1) -> sqp s1 fr1 ss r -> sqp s fr (a :: ss) r.
Proof. apply evt_and. intros m A B. cbn [seq]. rewrite A. exact B. Qed.
Lemma sq_nil s fr : sqp s fr [] (s, fr). Proof. apply evt_now. reflexivity. Qed.
Lemma st_block s v locs ss s1 v1 y : sqp s (mkFrame v locs) ss (s1, mkFrame v1 (y :: locs)) -> stp s (mkFrame v locs) (SBlock ss) (s1, mkFrame v1 locs).
Proof. intros H. apply evt_S. revert H. apply evt_impl. intros m H. cbn [exec]. destruct y as [y w]. eapply block_of1; [reflexivity|exact H]. Qed.
Lemma st_if_true s v locs c a b s1 v1 : (forall m, ev_bool G m s (mkFrame v locs) c = GRet true) -> sqp s (mkFrame v locs) a (s1, mkFrame v1 locs) ->
  stp s (mkFrame v locs) (SIf c a b) (s1, mkFrame v1 locs).
Proof. intros C H. apply evt_S. revert H. apply evt_impl. intros m H. cbn [exec]. rewrite C. cbn [gbind]. eapply block_of; [reflexivity|exact H]. Qed.
Lemma st_if_true1 s v locs c a b s1 v1 y : (forall m, ev_bool G m s (mkFrame v locs) c = GRet true) -> sqp s (mkFrame v locs) a (s1, mkFrame v1 (y :: locs)) ->
  stp s (mkFrame v locs) (SIf c a b) (s1, mkFrame v1 locs).
Proof. intros C H. apply evt_S. revert H. apply evt_impl. intros m H. cbn [exec]. rewrite C. cbn [gbind]. destruct y as [y w]. eapply block_of1; [reflexivity|exact H]. Qed.
Lemma st_if_false s fr c a : (forall m, ev_bool G m s fr c = GRet false) -> stp s fr (SIf c a None) (s, fr).
Proof. intros C. apply evt_S, evt_now. intros m. cbn [exec]. rewrite C. reflexivity. Qed.
Lemma st_if_else s v locs c a b s1 v1 : (forall m, ev_bool G m s (mkFrame v locs) c = GRet false) -> sqp s (mkFrame v locs) b (s1, mkFrame v1 locs) ->
  stp s (mkFrame v locs) (SIf c a (Some b)) (s1, mkFrame v1 locs).
Proof. intros C H. apply evt_S. revert H. apply evt_impl. intros m H. cbn [exec]. rewrite C. cbn [gbind]. eapply block_of; [reflexivity|exact H]. Qed.
Lemma evb_mode m s v locs : okloc locs -> ev_bool G m s (mkFrame v locs) (EQuery "xs" "Encoding") = GRet (Encoding s) /\ ev_bool G m s (mkFrame v locs) (EQuery "xs" "Decoding") = GRet (Decoding s).
Proof. intros O. unfold ev_bool, evv. cbn [ev f_locs]. rewrite (okloc_find _ "xs" O) by (cbn; intuition discriminate). split; reflexivity. Qed.
Lemma st_var s v locs x g z : (exists k, gzero G k g = Some z) -> (forall k k' z, (k <= k')%nat -> gzero G k g = Some z -> gzero G k' g = Some z) ->
  stp s (mkFrame v locs) (SVar x g) (s, mkFrame v ((x, z) :: locs)).
Proof.
  intros (k & Hk) Hm. apply evt_S. exists k. intros m L. cbn [exec]. rewrite (Hm _ _ _ L Hk). reflexivity.
Qed.
Lemma st_var_basic s v locs x b z : gzero G 1 (GBasic b) = Some z -> stp s (mkFrame v locs) (SVar x (GBasic b)) (s, mkFrame v ((x, z) :: locs)).
Proof. intros H. apply st_var; [eauto|]. intros [|k] [|k'] w L; try discriminate; try lia. auto. Qed.
Lemma st_local s v locs fn g x w s' w' : lib_fun fn s None w = GRet (s', w') -> (match w with VPtr _ => False | _ => True end) ->
  stp s (mkFrame v ((x, w) :: locs)) (SPkg fn [EVar "xs"; EConv (GPtr g) (EAddr (EVar x))]) (s', mkFrame v ((x, w') :: locs)).
Proof.
  intros F N. apply evt_S, evt_now. intros m. eapply (ex_prim m s _ fn g _ (PLoc (List.length locs)) w); [|cbn [load f_locs]; apply loc_get_top|exact F|cbn [store f_locs]; rewrite loc_set_top; reflexivity].
  unfold evv. cbn [ev f_locs loc_find]. rewrite String.eqb_refl. reflexivity.
Qed.
Lemma evv_local m s v locs x w : (match w with VPtr _ => False | _ => True end) -> evv G m s (mkFrame v ((x, w) :: locs)) (EVar x) = GRet (GV w).
Proof. intros N. unfold evv. cbn [ev f_locs loc_find]. rewrite String.eqb_refl. cbn [gbind rval load f_locs]. rewrite loc_get_top. destruct w; try reflexivity. destruct N. Qed.
Lemma evv_deref m s v0 locs P path x : ok_ptr G v0 locs P path -> path_load v0 path = Some x -> ev G m s (mkFrame v0 locs) (EDeref P) = GRet (OPl (PRecv path)).
Proof. intros Q L. destruct (evv_inv _ _ _ _ _ _ (ok_ptr_now _ _ _ _ _ m s _ Q L)) as (o & A & B). cbn [ev]. rewrite A. cbn [gbind]. rewrite B. reflexivity. Qed.

(** ** Arrays *)
Section Arr.
Variables (t : typespec) (c : cty) (P : expr) (body : list stmt) (path : list step) (locs : list (string * val)) (sz : Z).
Hypothesis Hc : el K t = Some c.
Hypothesis Hx : gx t (elemP P) = Some body.
Hypothesis Hn : nok K E true t = true.
Hypothesis HP : pexpr false P.
Hypothesis Hl : okloc locs.
Hypothesis Hsz : 0 <= sz < 2 ^ 32.
Let l1 := ("__arraysz", VInt sz) :: locs.
Let l2 (k : Z) := ("i", VInt k) :: l1.
Let cond := ELt (EVar "i") (EConv gU64 (EVar "__arraysz")).

Lemma okl1 : okloc l1. Proof. apply okloc_push; [exact Hl|cbn; tauto]. Qed.
Lemma okl2 k : okloc (l2 k). Proof. apply okloc_push; [apply okl1|cbn; tauto]. Qed.
Lemma ok1 v : ok_ptr G v locs P path -> ok_ptr G v l1 P path.
Proof. intros Q. eapply ok_ptr_push; eauto; discriminate. Qed.
Lemma ok2 v k : ok_ptr G v locs P path -> ok_ptr G v (l2 k) P path.
Proof. intros Q. eapply ok_ptr_push; eauto; [apply okl1|discriminate|discriminate|apply ok1, Q]. Qed.
Lemma ev_cond m s v k : ev_bool G m s (mkFrame v (l2 k)) cond = GRet (k <? sz).
Proof.
  unfold ev_bool, evv, cond. cbn [ev f_locs loc_find l2 l1]. change (String.eqb "i" "i") with true. change (String.eqb "__arraysz" "i") with false. rewrite String.eqb_refl.
  cbn [gbind rval load f_locs]. unfold l2, l1. rewrite loc_get_top. cbn [gbind]. rewrite loc_get_push by (cbn; lia). rewrite loc_get_top. cbn. rewrite (to_u64_id _ Hsz). reflexivity.
Qed.
Lemma incr_i v k : incr "i" (mkFrame v (l2 k)) = GRet (mkFrame v (l2 (k + 1))).
Proof. unfold incr, l2. cbn [f_locs loc_find]. change (String.eqb "i" "i") with true. cbv iota. rewrite loc_get_top. cbn [store f_locs]. rewrite loc_set_top. reflexivity. Qed.
Lemma sim_loop j : forall a r s v s' r', xdr_elems (xdr n E c) j r s = Ret (s', r') -> sz = Z.of_nat (List.length a + j) ->
  path_load v path = Some (VSlice (Some (a ++ r))) -> ok_ptr G v locs P path ->
  exists v1, path_store v path (VSlice (Some (a ++ r'))) = Some v1 /\
    exists m0, forall m q, (m0 <= m)%nat -> (m0 <= q)%nat -> loop G (ex m) m q "i" cond body s (mkFrame v (l2 (Z.of_nat (List.length a)))) = GRet (s', mkFrame v1 (l2 sz)).
Proof.
  induction j as [|j IHj]; intros a r s v s' r' H Z L Q; cbn in H.
  - injection H as <- <-. exists v. split; [apply path_store_same, L|]. exists 1%nat. intros m [|q] _ Lq; [lia|]. cbn [loop]. rewrite ev_cond.
    replace (Z.of_nat (List.length a) <? sz) with false by (symmetry; apply Z.ltb_ge; lia). cbn [gbind]. replace (Z.of_nat (List.length a)) with sz by lia. reflexivity.
  - destruct r as [|x r]; [discriminate|]. destruct (xdr n E c s x) as [[s1 x1]| |] eqn:X; try discriminate. cbn in H.
    destruct (xdr_elems (xdr n E c) j r s1) as [[s2 r2]| |] eqn:R; try discriminate. cbn in H. injection H as <- <-.
    set (k := List.length a) in *.
    assert (Nk : nth_error (a ++ x :: r) k = Some x) by (unfold k; rewrite nth_error_app2, Nat.sub_diag by lia; reflexivity).
    assert (Qe : ok_ptr G v (l2 (Z.of_nat k)) (elemP P) (path ++ [PIdx k])).
    { eapply ok_elem; [apply ok2, Q|exact L|exact Nk|reflexivity|apply loc_get_top]. }
    assert (B : sim v (l2 (Z.of_nat k)) (path ++ [PIdx k]) s body s1 x1).
    { eapply (IH (declTypeTypespec t)); [exact Hc|exact Hx|exact Hn|apply (pe_elem _ _ HP)|reflexivity|apply okl2|exact Qe| |exact X]. rewrite path_load_app, L. exact Nk. }
    eapply (sim_sub _ _ _ (PIdx k)) in B; [|exact L|cbn; congruence|cbn; unfold k; rewrite set_nth_app; reflexivity].
    destruct B as (v1 & S1 & (m1 & B)).
    destruct (IHj (a ++ [x1]) r s1 v1 s2 r2 R) as (v2 & S2 & m2 & W).
    { rewrite app_length. cbn. lia. }
    { rewrite <- app_assoc. eapply store_load, S1. }
    { eapply ok_ptr_store; eassumption. }
    exists v2. split; [rewrite <- app_assoc in S2; cbn in S2; rewrite <- S2; symmetry; apply (store_store _ _ _ _ _ S1)|].
    exists (S (m1 + m2)). intros m [|q] Lm Lq; [lia|]. cbn [loop]. rewrite ev_cond.
    replace (Z.of_nat k <? sz) with true by (symmetry; apply Z.ltb_lt; unfold k; lia). cbn [gbind].
    rewrite (block_of m s (mkFrame v (l2 (Z.of_nat k))) body s1 v1 (l2 (Z.of_nat k)) eq_refl (B m ltac:(lia))). cbn [gbind]. rewrite incr_i. cbn [gbind].
    rewrite app_length in W. cbn [List.length] in W. replace (Z.of_nat k + 1) with (Z.of_nat (List.length a + 1)) by (unfold k; lia). apply W; lia.
Qed.
Lemma st_for s v s' v1 : (exists m0, forall m q, (m0 <= m)%nat -> (m0 <= q)%nat -> loop G (ex m) m q "i" cond body s (mkFrame v (l2 0)) = GRet (s', mkFrame v1 (l2 sz))) ->
  stp s (mkFrame v l1) (SFor "i" (EConv gU64 (ENum "0")) cond body) (s', mkFrame v1 l1).
Proof.
  intros (m0 & H). apply evt_S. exists m0. intros m L. cbn [exec]. change (evv G m s (mkFrame v l1) (EConv gU64 (ENum "0"))) with (GRet (GV (VInt 0))). cbn [gbind].
  match goal with |- gbind ?o _ = _ => replace o with (GRet (s', mkFrame v1 (l2 sz))) by (symmetry; exact (H m m L L)) end. cbn [gbind]. unfold l2, depth. cbn [f_locs]. rewrite pop_push. reflexivity.
Qed.
End Arr.

Lemma gzero_el arr t g c k : gt t = Some g -> el K t = Some c -> nok K E arr t = true -> gzero G k g = zero k E c.
Proof. intros A B N. apply (gzero_eq _ _ _ _ Hsup k arr (declTypeTypespec t)); assumption. Qed.
Lemma evt_zero arr t g c z : gt t = Some g -> el K t = Some c -> nok K E arr t = true -> zero n E c = Some z -> evt (fun m => gzero G m g = Some z).
Proof. intros A B N H. exists n. intros m L. rewrite (gzero_el _ _ _ _ _ A B N). eapply zero_mono; eassumption. Qed.

Lemma sim_arr t c P g body bound b path v0 locs s o s' x' :
  el K t = Some c -> gx t (elemP P) = Some body -> nok K E true t = true -> pexpr false P -> okloc locs -> gt t = Some g ->
  bound_ok K bound = true -> xbound K bound = Some b ->
  ok_ptr G v0 locs P path -> path_load v0 path = Some (VSlice o) -> xdr (S n) E (CVarArray b c) s (VSlice o) = Ret (s', x') ->
  sim v0 locs path s [SBlock (arr_body P bound g body)] s' x'.
Proof.
  intros Hc Hx Hn HP Hl Hg B1 B2 Q L H. cbn [xdr] in H.
  destruct (EncodingSetSize s 0 (zlen (elems o))) as [s1 sz0] eqn:D1. destruct (XdrU32 s1 sz0) as [s2 sz] eqn:D2.
  pose proof (SetSize_range _ _ _ _ D1) as R0. pose proof (XdrU32_range _ _ _ _ R0 D2) as R1.
  assert (Q1 : forall z, ok_ptr G v0 (("__arraysz", VInt z) :: locs) P path) by (intros z; eapply ok_ptr_push; eauto; discriminate).
  assert (O1 : forall z, okloc (("__arraysz", VInt z) :: locs)) by (intros z; apply okloc_push; [exact Hl|cbn; tauto]).
  (* the three statements before the bound test *)
  enough (exists v1, path_store v0 path x' = Some v1 /\ sqp s2 (mkFrame v0 (("__arraysz", VInt sz) :: locs)) (skipn 3 (arr_body P bound g body)) (s', mkFrame v1 (("__arraysz", VInt sz) :: locs))) as (v1 & S1 & T).
  { exists v1. split; [exact S1|]. eapply evt_impl; [intros m A; rewrite seq_one; exact A|]. eapply st_block. unfold arr_body. cbn [app].
    eapply sq_cons; [apply st_var_basic; reflexivity|]. eapply sq_cons; [|eapply sq_cons; [apply (st_local s1 v0 locs "XdrU32" gU32 "__arraysz" (VInt sz0) s2 (VInt sz)); [cbn; rewrite D2; reflexivity|exact I]|exact T]].
    apply evt_S, evt_now. intros m. cbn [exec]. change (String.eqb "EncodingSetSize" "EncodingSetSize") with true. cbv iota.
    assert (evv G m s (mkFrame v0 (("__arraysz", VInt 0) :: locs)) (EAddr (EVar "__arraysz")) = GRet (GP (Some (PLoc (List.length locs))))) as -> by reflexivity.
    cbn [gbind].
    assert (evv G m s (mkFrame v0 (("__arraysz", VInt 0) :: locs)) (ELen (EDeref P)) = GRet (GV (VInt (zlen (elems o))))) as ->.
    { unfold evv. change (ev G m s (mkFrame v0 (("__arraysz", VInt 0) :: locs)) (ELen (EDeref P))) with (let! o := ev G m s (mkFrame v0 (("__arraysz", VInt 0) :: locs)) (EDeref P) in let! g := rval (mkFrame v0 (("__arraysz", VInt 0) :: locs)) o in
      match g with GV (VSlice l) => GRet (OVal (GV (VInt (zlen (elems l))))) | _ => GStuck end). rewrite (evv_deref m s _ _ _ _ _ (Q1 0) L). cbn [gbind rval load f_recv]. rewrite L. reflexivity. }
    cbn [gbind through load f_locs]. rewrite loc_get_top. cbn [some_or gbind]. rewrite D1. cbn [gbind store f_locs]. rewrite loc_set_top. reflexivity. }
  (* the loop, when the bound is kept *)
  set (rest := [SIf (EQuery "xs" "Decoding") [SAssign (EDeref P) (EMake (GSlice g) (EVar "__arraysz"))] None;
     SFor "i" (EConv gU64 (ENum "0")) (ELt (EVar "i") (EConv gU64 (EVar "__arraysz"))) body]).
  assert (HR : (if Decoding s2 then
            match zero n E c with
            | None => NoFuel
            | Some z => '(s3, l3) <- xdr_elems (xdr n E c) (Z.to_nat sz) (repeat z (Z.to_nat sz)) s2 ;; Ret (s3, VSlice (Some l3))
            end
          else '(s3, l3) <- xdr_elems (xdr n E c) (Z.to_nat sz) (elems o) s2 ;; Ret (s3, VSlice (match o with Some _ => Some l3 | None => None end))) = Ret (s', x') ->
     exists v1, path_store v0 path x' = Some v1 /\ sqp s2 (mkFrame v0 (("__arraysz", VInt sz) :: locs)) rest (s', mkFrame v1 (("__arraysz", VInt sz) :: locs))).
  { clear H. intros H. destruct (Decoding s2) eqn:Dec.
    - destruct (zero n E c) as [z|] eqn:Hz; [|discriminate].
      destruct (xdr_elems (xdr n E c) (Z.to_nat sz) (repeat z (Z.to_nat sz)) s2) as [[s3 l3]| |] eqn:X; try discriminate. injection H as <- <-.
      destruct (path_store_some _ _ _ (VSlice (Some (repeat z (Z.to_nat sz)))) L) as (va & Sa & La & Qa).
      destruct (sim_loop t c P body path locs sz Hc Hx Hn HP Hl R1 (Z.to_nat sz) [] _ s2 va s3 l3 X) as (v1 & S1 & W).
      { cbn. lia. } { exact La. } { eapply ok_ptr_store; eassumption. }
      exists v1. split; [rewrite <- Qa; exact S1|]. unfold rest. eapply sq_cons.
      + apply st_if_true; [intros m; rewrite (proj2 (evb_mode m s2 v0 _ (O1 sz))), Dec; reflexivity|].
        eapply evt_impl; [intros m A; rewrite seq_one; exact A|]. apply evt_S. generalize (evt_zero _ _ _ _ _ Hg Hc Hn Hz). apply evt_impl. intros m Zm. cbn [exec].
        rewrite (evv_deref m s2 _ _ _ _ _ (Q1 sz) L). cbn [gbind]. unfold evv at 1. cbn [ev f_locs loc_find]. rewrite String.eqb_refl. cbn [gbind rval load f_locs]. rewrite loc_get_top. cbn [gbind].
        rewrite Zm. cbn [some_or gbind rval store f_recv]. rewrite Sa. reflexivity.
      + eapply sq_cons; [|apply sq_nil]. eapply st_for; exact W.
    - destruct (xdr_elems (xdr n E c) (Z.to_nat sz) (elems o) s2) as [[s3 l3]| |] eqn:X; try discriminate. injection H as <- <-.
      assert (Hno : stp s2 (mkFrame v0 (("__arraysz", VInt sz) :: locs)) (SIf (EQuery "xs" "Decoding") [SAssign (EDeref P) (EMake (GSlice g) (EVar "__arraysz"))] None) (s2, mkFrame v0 (("__arraysz", VInt sz) :: locs))).
      { apply st_if_false. intros m. rewrite (proj2 (evb_mode m s2 v0 _ (O1 sz))), Dec. reflexivity. }
      destruct o as [l|].
      + destruct (sim_loop t c P body path locs sz Hc Hx Hn HP Hl R1 (Z.to_nat sz) [] _ s2 v0 s3 l3 X) as (v1 & S1 & W).
        { cbn. lia. } { exact L. } { exact Q. }
        exists v1. split; [exact S1|]. unfold rest. eapply sq_cons; [exact Hno|]. eapply sq_cons; [|apply sq_nil]. eapply st_for; exact W.
      + cbn [elems] in X. destruct (Z.to_nat sz) eqn:Ez; [|discriminate]. injection X as <- <-. exists v0. split; [apply path_store_same, L|].
        unfold rest. eapply sq_cons; [exact Hno|]. eapply sq_cons; [|apply sq_nil]. eapply st_for. exists 1%nat. intros m [|q] _ Lq; [lia|].
        cbn [loop]. rewrite (ev_cond _ _ R1). replace (0 <? sz) with false by (symmetry; apply Z.ltb_ge; lia). replace sz with 0 by lia. reflexivity. }
  unfold bound_ok in B1. unfold xbound in B2. unfold arr_body. fold rest. destruct (String.eqb bound ""); cbn [orb] in B1.
  - injection B2 as <-. apply HR, H.
  - destruct (xval K bound) as [k|] eqn:X; [|discriminate]. destruct ((0 <=? k) && (k <=? MaxUint32)); [|discriminate]. injection B2 as <-.
    assert (Cb : forall m, ev_bool G m s2 (mkFrame v0 (("__arraysz", VInt sz) :: locs)) (EGt (EVar "__arraysz") (val_expr bound)) = GRet (sz >? k)).
    { intros m. unfold ev_bool, evv. change (ev G m s2 (mkFrame v0 (("__arraysz", VInt sz) :: locs)) (EGt (EVar "__arraysz") (val_expr bound))) with
        (let! ga := evv G m s2 (mkFrame v0 (("__arraysz", VInt sz) :: locs)) (EVar "__arraysz") in let! ob := ev G m s2 (mkFrame v0 (("__arraysz", VInt sz) :: locs)) (val_expr bound) in
         let! gb := rval (mkFrame v0 (("__arraysz", VInt sz) :: locs)) ob in compare Z.gtb ga gb).
      rewrite evv_local by exact I. cbn [gbind]. rewrite (ev_use _ _ _ _ Hsup m s2 v0 _ bound k (O1 sz) B1 X). reflexivity. }
    cbn [app skipn]. destruct (sz >? k).
    + injection H as <- <-. exists v0. split; [apply path_store_same, L|]. eapply sq_cons; [|apply sq_nil]. apply st_if_true; [exact Cb|].
      eapply evt_impl; [intros m A; rewrite seq_one; exact A|]. apply evt_S, evt_now. intros m. reflexivity.
    + destruct (HR H) as (v1 & S1 & T). exists v1. split; [exact S1|]. eapply sq_cons; [|apply sq_nil]. apply st_if_else; [exact Cb|exact T].
Qed.

(** ** Pointers *)
Lemma sim_ptr t c P g body b arr path v0 locs s o s' x' :
  el K t = Some c -> gx t (derefP P) = Some body -> nok K E arr t = true -> pexpr b P -> (b = true -> arr = true) -> okloc locs -> gt t = Some g ->
  ok_ptr G v0 locs P path -> path_load v0 path = Some (VPtr o) -> xdr (S n) E (CPtr c) s (VPtr o) = Ret (s', x') ->
  sim v0 locs path s (ptr_body P g body) s' x'.
Proof.
  intros Hc Hx Hn HP Hb Hl Hg Q L H. cbn [xdr] in H.
  assert (Q1 : forall v w, ok_ptr G v locs P path -> ok_ptr G v (("opted", w) :: locs) P path) by (intros v w Qv; eapply ok_ptr_push; eauto; discriminate).
  assert (O1 : forall w, okloc (("opted", w) :: locs)) by (intros w; apply okloc_push; [exact Hl|cbn; tauto]).
  (* the pointee, once there is one *)
  assert (Body : forall v w st x st' y, ok_ptr G v locs P path -> path_load v path = Some (VPtr (Some x)) -> xdr n E c st x = Ret (st', y) ->
            sim v (("opted", w) :: locs) path st body st' (VPtr (Some y))).
  { intros v w st x st' y Qv Lv X. eapply (sim_sub _ _ _ PDeref); [exact Lv|cbn; discriminate|reflexivity|].
    eapply (IH (declTypeTypespec t)); [exact Hc|exact Hx|exact Hn|apply pe_deref, HP|exact Hb|apply O1|eapply ok_deref; [apply Q1, Qv|exact Lv]| |exact X].
    rewrite path_load_app, Lv. reflexivity. }
  assert (Opt : forall m st v w, ev_bool G m st (mkFrame v (("opted", VBool w) :: locs)) (EVar "opted") = GRet w) by (intros; unfold ev_bool; rewrite evv_local by exact I; reflexivity).
  match type of H with obind ?A _ = _ => destruct A as [[s1 o1]| |] eqn:Enc end; try discriminate. cbn [obind] in H.
  change (ptr_body P g body) with ([nth 0 (ptr_body P g body) (SBlock [])] ++ [nth 1 (ptr_body P g body) (SBlock [])]). unfold ptr_body. cbn [nth].
  apply (sim_app _ _ _ _ _ _ s1 (VPtr o1)).
  - (* encoding *)
    enough (exists v1, path_store v0 path (VPtr o1) = Some v1 /\ stp s (mkFrame v0 locs)
       (SIf (EQuery "xs" "Encoding") [SDef "opted" (ENe (derefP P) (EVar "nil")); xBool (EAddr (EVar "opted")); SIf (EVar "opted") body None] None) (s1, mkFrame v1 locs)) as (v1 & S1 & T).
    { exists v1. split; [exact S1|]. eapply evt_impl; [intros m A; rewrite seq_one; exact A|]. exact T. }
    destruct (Encoding s) eqn:En.
    + set (op := match o with Some _ => true | None => false end) in *. destruct (XdrBool s op) as [s2 op2] eqn:XB.
      assert (Pre : forall v1 w, sqp s2 (mkFrame v0 (("opted", VBool op2) :: locs)) [SIf (EVar "opted") body None] (s1, mkFrame v1 (("opted", w) :: locs)) ->
        stp s (mkFrame v0 locs) (SIf (EQuery "xs" "Encoding") [SDef "opted" (ENe (derefP P) (EVar "nil")); xBool (EAddr (EVar "opted")); SIf (EVar "opted") body None] None) (s1, mkFrame v1 locs)).
      { intros v1 w T. eapply st_if_true1; [intros m; rewrite (proj1 (evb_mode m s v0 _ Hl)), En; reflexivity|].
        eapply sq_cons; [|eapply sq_cons; [|exact T]]; [|apply (st_local s v0 locs "XdrBool" gBool "opted" (VBool op) s2 (VBool op2)); [cbn; rewrite XB; reflexivity|exact I]].
        apply evt_S, evt_now. intros m. cbn [exec]. unfold evv.
        change (ev G m s (mkFrame v0 locs) (ENe (derefP P) (EVar "nil"))) with (let! oa := ev G m s (mkFrame v0 locs) (derefP P) in let! ga := rval (mkFrame v0 locs) oa in
          let! ob := ev G m s (mkFrame v0 locs) (EVar "nil") in let! gb := rval (mkFrame v0 locs) ob in
          match ga, gb with GP p, GP None => GRet (OVal (GV (VBool (match p with Some _ => true | None => false end)))) | _, _ => GStuck end).
        change (ev G m s (mkFrame v0 locs) (derefP P)) with (ev G m s (mkFrame v0 locs) (EDeref P)). rewrite (evv_deref m s _ _ _ _ _ Q L). cbn [gbind rval load f_recv]. rewrite L.
        rewrite (ev_pre _ _ _ _ Hsup m s v0 locs "nil" (GP None) Hl) by (cbn; tauto). unfold op. destruct o; reflexivity. }
      destruct op2.
      * destruct o as [x|]; [|discriminate]. destruct (xdr n E c s2 x) as [[s3 x3]| |] eqn:X; try discriminate. injection Enc as <- <-.
        destruct (Body v0 (VBool true) s2 x s3 x3 Q L X) as (v1 & S1 & T). exists v1. split; [exact S1|]. eapply Pre.
        eapply sq_cons; [|apply sq_nil]. apply st_if_true; [intros; apply Opt|exact T].
      * injection Enc as <- <-. exists v0. split; [apply path_store_same, L|]. eapply Pre. eapply sq_cons; [|apply sq_nil]. apply st_if_false. intros; apply Opt.
    + injection Enc as <- <-. exists v0. split; [apply path_store_same, L|]. apply st_if_false. intros m. rewrite (proj1 (evb_mode m s v0 _ Hl)), En. reflexivity.
  - (* decoding *)
    intros va Sa. pose proof (store_load _ _ _ _ Sa) as La. pose proof (ok_ptr_store _ _ _ _ _ _ _ Q Sa) as Qa.
    enough (exists v1, path_store va path x' = Some v1 /\ stp s1 (mkFrame va locs)
       (SIf (EQuery "xs" "Decoding") [SVar "opted" gBool; xBool (EAddr (EVar "opted")); SIf (EVar "opted") (SAssign (derefP P) (ENew g) :: body) None] None) (s', mkFrame v1 locs)) as (v1 & S1 & T).
    { exists v1. split; [exact S1|]. eapply evt_impl; [intros m A; rewrite seq_one; exact A|]. exact T. }
    destruct (Decoding s1) eqn:De.
    + destruct (XdrBool s1 false) as [s2 op] eqn:XB.
      assert (Pre : forall v1 w, sqp s2 (mkFrame va (("opted", VBool op) :: locs)) [SIf (EVar "opted") (SAssign (derefP P) (ENew g) :: body) None] (s', mkFrame v1 (("opted", w) :: locs)) ->
        stp s1 (mkFrame va locs) (SIf (EQuery "xs" "Decoding") [SVar "opted" gBool; xBool (EAddr (EVar "opted")); SIf (EVar "opted") (SAssign (derefP P) (ENew g) :: body) None] None) (s', mkFrame v1 locs)).
      { intros v1 w T. eapply st_if_true1; [intros m; rewrite (proj2 (evb_mode m s1 va _ Hl)), De; reflexivity|].
        eapply sq_cons; [apply st_var_basic; reflexivity|eapply sq_cons; [|exact T]]. apply (st_local s1 va locs "XdrBool" gBool "opted" (VBool false) s2 (VBool op)); [cbn; rewrite XB; reflexivity|exact I]. }
      destruct op.
      * destruct (zero n E c) as [z|] eqn:Hz; [|discriminate]. destruct (xdr n E c s2 z) as [[s3 x3]| |] eqn:X; try discriminate. injection H as <- <-.
        destruct (path_store_some _ _ _ (VPtr (Some z)) La) as (vb & Sb & Lb & Qb).
        destruct (Body vb (VBool true) s2 z s3 x3 (ok_ptr_store _ _ _ _ _ _ _ Qa Sb) Lb X) as (v1 & S1 & T). exists v1. split; [rewrite <- Qb; exact S1|]. eapply Pre.
        eapply sq_cons; [|apply sq_nil]. apply st_if_true; [intros; apply Opt|]. eapply sq_cons; [|exact T].
        apply evt_S. generalize (evt_zero _ _ _ _ _ Hg Hc Hn Hz). apply evt_impl. intros m Zm. cbn [exec].
        change (ev G m s2 (mkFrame va (("opted", VBool true) :: locs)) (derefP P)) with (ev G m s2 (mkFrame va (("opted", VBool true) :: locs)) (EDeref P)).
        rewrite (evv_deref m s2 _ _ _ _ _ (Q1 _ (VBool true) Qa) La). cbn [gbind]. unfold evv. cbn [ev]. rewrite Zm. cbn [some_or gbind rval store f_recv]. rewrite Sb. reflexivity.
      * injection H as <- <-. exists va. split; [apply path_store_same, La|]. eapply Pre. eapply sq_cons; [|apply sq_nil]. apply st_if_false. intros; apply Opt.
    + injection H as <- <-. exists va. split; [apply path_store_same, La|]. apply st_if_false. intros m. rewrite (proj2 (evb_mode m s1 va _ Hl)), De. reflexivity.
Qed.

(** ** Unions *)
Definition clause : Type := (option expr * list stmt * bool)%type.
(** Clauses that lead to [body]. *)
Inductive falls (body : list stmt) : list clause -> Prop :=
| fa_here l r : falls body ((l, body, false) :: r)
| fa_next l r : falls body r -> falls body ((l, [], true) :: r).
Lemma run_falls body cs s v locs s1 v1 : falls body cs -> sqp s (mkFrame v locs) body (s1, mkFrame v1 locs) ->
  evt (fun m => run (ex m) s (mkFrame v locs) cs = GRet (s1, mkFrame v1 locs)).
Proof.
  intros F H. revert H. apply evt_impl. intros m H. induction F as [l r|l r F IHF]; cbn [run].
  - rewrite (block_of m s (mkFrame v locs) body s1 v1 locs eq_refl H). reflexivity.
  - rewrite (block_of m s (mkFrame v locs) [] s v locs eq_refl eq_refl). cbn [gbind]. exact IHF.
Qed.

Definition kind_ok (bk : bool) (v : val) : Prop := match v with VInt _ => bk = false | VBool _ => bk = true | _ => False end.
Lemma disc_kind_val k : forall m c bk s x s' x', disc_kind E k c = Some bk -> xdr m E c s x = Ret (s', x') -> kind_ok bk x'.
Proof.
  induction k as [|k IHk]; intros m c bk s x s' x' D H; [discriminate|]. destruct m as [|m]; [discriminate|].
  destruct c; cbn [disc_kind] in D; try discriminate; try (injection D as <-; destruct x; cbn [xdr] in H; try discriminate;
    match type of H with (let '(_, _) := ?o in _) = _ => destruct o end; injection H as _ <-; reflexivity).
  cbn [xdr] in H. destruct (lookup x0 E) as [u|]; [|discriminate]. eapply IHk; [exact D|]. destruct x; exact H.
Qed.

Section Switch.
Variables (bk : bool) (dv : val) (d : Z) (v : val) (locs : list (string * val)) (st : xst).
Notation fc m cs := (find_clause G m st (mkFrame v locs) (GV dv) cs).
Hypothesis Hk : kind_ok bk dv.
Hypothesis Hd : disc_of dv = Some d.
Hypothesis Hl : okloc locs.
Lemma find_label m l k ss ft r : label_ok K bk l = true -> xlabel K l = Some k ->
  find_clause G m st (mkFrame v locs) (GV dv) ((Some (val_expr (cap l)), ss, ft) :: r) =
  if d =? k then GRet (Some ((Some (val_expr (cap l)), ss, ft) :: r)) else find_clause G m st (mkFrame v locs) (GV dv) r.
Proof.
  intros L X. cbn [find_clause]. unfold evv. destruct dv as [z|b| | | | | |]; try destruct Hk; injection Hd as <-; cbn in Hk; subst bk.
  - rewrite (ev_label_int _ _ _ _ Hsup m st v locs l k Hl L X). cbn [gbind rval]. reflexivity.
  - destruct (ev_label_bool _ _ _ _ Hsup m st v locs l k Hl L X) as (b' & -> & ->). cbn [gbind rval]. destruct b, b'; reflexivity.
Qed.
Lemma find_labels ls : forall ks body r, forallb (label_ok K bk) ls = true -> xlabels K ls = Some ks ->
  if existsb (Z.eqb d) ks then exists cs, (forall m, fc m (label_clauses ls body ++ r) = GRet (Some cs)) /\ falls body cs
  else forall m, fc m (label_clauses ls body ++ r) = fc m r.
Proof.
  induction ls as [|l ls IHl]; intros ks body r A B.
  - injection B as <-. cbn [existsb]. intros m. reflexivity.
  - cbn [forallb] in A. apply andb_true_iff in A. destruct A as (A1 & A2). unfold xlabels in B. cbn [all_some] in B. destruct (xlabel K l) as [k|] eqn:X; [|discriminate]. cbn [pbind] in B.
    destruct (all_some (xlabel K) ls) as [ks2|] eqn:Y; [|discriminate]. injection B as <-. specialize (IHl ks2 body r A2 Y). cbn [existsb].
    destruct ls as [|l2 ls].
    + injection Y as <-. cbn [label_clauses app existsb]. rewrite orb_false_r. destruct (d =? k) eqn:Ed; [|intros m; rewrite (find_label _ _ _ _ _ _ A1 X), Ed; reflexivity].
      eexists. split; [intros m; rewrite (find_label _ _ _ _ _ _ A1 X), Ed; reflexivity|constructor].
    + change (label_clauses (l :: l2 :: ls) body ++ r) with ((Some (val_expr (cap l)), [], true) :: label_clauses (l2 :: ls) body ++ r). 
      destruct (d =? k) eqn:Ed; cbn [orb].
      2:{ destruct (existsb (Z.eqb d) ks2).
          - destruct IHl as (cs & F1 & F2). exists cs. split; [|exact F2]. intros m. rewrite (find_label _ _ _ _ _ _ A1 X), Ed. apply F1.
          - intros m. rewrite (find_label _ _ _ _ _ _ A1 X), Ed. apply IHl. }
      eexists. split; [intros m; rewrite (find_label _ _ _ _ _ _ A1 X), Ed; reflexivity|]. constructor. clear.
      revert l2. induction ls as [|a ls IHls]; intros l2; [constructor|]. change (label_clauses (l2 :: a :: ls) body ++ r) with ((Some (val_expr (cap l2)), [], true) :: label_clauses (a :: ls) body ++ r). constructor. apply IHls.
Qed.
Fixpoint gx_cases (P : expr) (l : list (list string * decl)) : option (list clause) :=
  match l with [] => Some [] | c :: l => do a <- gx_field (snd c) P ; do b <- gx_cases P l ; Some (label_clauses (fst c) a ++ b) end.
Lemma find_cases P cases : forall arms cls r, el_arms ds cases = Some arms -> gx_cases P cases = Some cls -> forallb (fun x => forallb (label_ok K bk) (fst x)) cases = true ->
  match find (fun a => existsb (Z.eqb d) (fst a)) arms with
  | Some a => exists dc body cs, In dc (map snd cases) /\ el_arm K dc = Some (snd a) /\ gx_field dc P = Some body /\
                (forall m, fc m (cls ++ r) = GRet (Some cs)) /\ falls body cs
  | None => forall m, fc m (cls ++ r) = fc m r
  end.
Proof.
  induction cases as [|[ls dc] cases IHc]; intros arms cls r A B N.
  - injection A as <-. injection B as <-. cbn [find]. intros m. reflexivity.
  - cbn [el_arms fst snd] in A. fold K in A. destruct (xlabels K ls) as [ks|] eqn:A1; [|discriminate]. destruct (el_arm K dc) as [a|] eqn:A2; [|discriminate].
    destruct (el_arms ds cases) as [arms2|] eqn:A3; [|discriminate]. injection A as <-.
    cbn [gx_cases fst snd] in B. destruct (gx_field dc P) as [body|] eqn:B1; [|discriminate]. destruct (gx_cases P cases) as [cls2|] eqn:B2; [|discriminate]. injection B as <-.
    cbn [forallb fst] in N. apply andb_true_iff in N. destruct N as (N1 & N2). specialize (IHc _ _ r eq_refl eq_refl N2).
    rewrite <- app_assoc. pose proof (find_labels ls ks body (cls2 ++ r) N1 A1) as F. cbn [find fst]. destruct (existsb (Z.eqb d) ks).
    + destruct F as (cs & F1 & F2). exists dc, body, cs. cbn [map snd]. split; [left; reflexivity|]. auto.
    + destruct (find (fun a => existsb (Z.eqb d) (fst a)) arms2); [|intros m; rewrite F; apply IHc].
      destruct IHc as (dc' & body' & cs & I & R1 & R2 & R3 & R4). exists dc', body', cs. split; [right; exact I|]. do 2 (split; [assumption|]). split; [|exact R4]. intros m. rewrite F. apply R3.
Qed.
End Switch.

Lemma find_default_labels ls body r : find_default (label_clauses ls body ++ r) = find_default r.
Proof.
  induction ls as [|l ls IHl]; [reflexivity|]. destruct ls as [|l2 ls]; [reflexivity|].
  change (label_clauses (l :: l2 :: ls) body ++ r) with ((Some (val_expr (cap l)), [], true) :: label_clauses (l2 :: ls) body ++ r). exact IHl.
Qed.
Lemma find_default_cases P cases : forall cls r, gx_cases P cases = Some cls -> find_default (cls ++ r) = find_default r.
Proof.
  induction cases as [|[ls dc] cases IHc]; intros cls r B; [injection B as <-; reflexivity|].
  cbn [gx_cases fst snd] in B. destruct (gx_field dc P) as [body|]; [|discriminate]. destruct (gx_cases P cases) as [cls2|] eqn:B2; [|discriminate]. injection B as <-.
  rewrite <- app_assoc, find_default_labels. apply IHc. reflexivity.
Qed.

Lemma gx_union st sn cases def P : gx (typeUnion (declName st sn) cases def) P =
  do a <- gx_dt st (fieldP P sn) ; do b <- gx_cases P cases ; do c <- match def with Some d => do a <- gx_field d P ; Some [(None, a, false)] | None => Some [] end ;
  Some (a ++ [SSwitch (ESel (EParen P) (cap sn)) (b ++ c)]).
Proof.
  set (go := fix go (l : list (list string * decl)) : option (list clause) :=
       match l with [] => Some [] | c :: l => do a <- gx_field (snd c) P ; do b <- go l ; Some (label_clauses (fst c) a ++ b) end).
  assert (gx_cases P cases = go cases) as -> by (induction cases as [|c l IHl]; cbn; [reflexivity|rewrite IHl; reflexivity]). reflexivity.
Qed.

Lemma pick_fields d arms def s x : match pick_arm d arms def with Some (Some (f, u)) => on_field (xdr n E u) s x f | _ => Ret (s, x) end =
  xdr_fields (xdr n E) (match pick_arm d arms def with Some a => opt_list a | None => [] end) s x.
Proof.
  destruct (pick_arm d arms def) as [[[f u]|]|]; cbn; try reflexivity. destruct (on_field (xdr n E u) s x f) as [[? ?]| |]; reflexivity.
Qed.

Lemma sim_union stt sn cases def c P ss b arr path v0 locs s x s' x' :
  el K (typeUnion (declName stt sn) cases def) = Some c -> gx (typeUnion (declName stt sn) cases def) P = Some ss -> nok K E arr (typeUnion (declName stt sn) cases def) = true ->
  pexpr b P -> (b = true -> arr = true) -> okloc locs -> ok_ptr G v0 locs P path -> path_load v0 path = Some x -> xdr (S n) E c s x = Ret (s', x') -> sim v0 locs path s ss s' x'.
Proof.
  intros A B N HP Hb Hl Q L H. rewrite (el_union ds) in A. fold K in A. rewrite gx_union in B. rewrite (nok_union ds) in N. fold K in N.
  apply andb_true_iff in N. destruct N as (N & N4). apply andb_true_iff in N. destruct N as (N & N3). apply andb_true_iff in N. destruct N as (N1 & N2).
  destruct (el_dt K stt) as [cst|] eqn:A1; [|discriminate]. cbn [pbind] in A. destruct (el_arms ds cases) as [arms|] eqn:A2; [|discriminate]. cbn [pbind] in A.
  destruct (match def with Some d => do a <- el_arm K d ; Some (Some a) | None => Some None end) as [ed|] eqn:A3; [|discriminate]. injection A as <-.
  destruct (gx_dt stt (fieldP P sn)) as [ss1|] eqn:B1; [|discriminate]. cbn [pbind] in B. destruct (gx_cases P cases) as [cls|] eqn:B2; [|discriminate]. cbn [pbind] in B.
  destruct (match def with Some d => do a <- gx_field d P ; Some [(None, a, false)] | None => Some [] end) as [cd|] eqn:B3; [|discriminate]. injection B as <-.
  unfold disc_ok in N1. rewrite A1 in N1. destruct (disc_kind E (S (List.length E)) cst) as [bk|] eqn:Dk; [|discriminate].
  destruct x as [| | | | | | |l]; try discriminate. cbn [xdr] in H. destruct (on_field (xdr n E cst) s (VStruct l) (cap sn)) as [[s1 x1]| |] eqn:F; try discriminate. cbn [obind] in H.
  destruct (field_disc x1 (cap sn)) as [d|] eqn:Fd; [|discriminate]. rewrite pick_fields in H.
  (* the discriminant *)
  eapply sim_app; [eapply sim_field; eassumption|]. intros v1 S1. pose proof (store_load _ _ _ _ S1) as L1. pose proof (ok_ptr_store _ _ _ _ _ _ _ Q S1) as Q1.
  unfold on_field in F. destruct (lookup (cap sn) l) as [y|] eqn:Fy; [|discriminate]. destruct (xdr n E cst s y) as [[s2 y1]| |] eqn:X; try discriminate. cbn in F. injection F as <- <-.
  pose proof (disc_kind_val _ _ _ _ _ _ _ _ Dk X) as Kd. cbn [field_disc] in Fd. rewrite (lookup_update_same _ _ _ _ Fy) in Fd.
  assert (Ev : forall m, evv G m s2 (mkFrame v1 locs) (ESel (EParen P) (cap sn)) = GRet (GV y1)).
  { intros m. destruct (evv_inv _ _ _ _ _ _ (ok_ptr_now _ _ _ _ _ m s2 _ Q1 L1)) as (o & E1 & E2). unfold evv. cbn [ev]. rewrite E1. cbn [gbind]. rewrite E2. cbn [gbind sub rval load f_recv].
    rewrite path_load_app, L1. cbn [step_load]. rewrite (lookup_update_same _ _ _ _ Fy). destruct y1; try reflexivity. destruct Kd. }
  assert (Arm : forall dc a body, nok_d K E arr dc = true -> el_arm K dc = Some a -> gx_field dc P = Some body -> xdr_fields (xdr n E) (opt_list a) s2 (VStruct (update (cap sn) y1 l)) = Ret (s', x') ->
            sim v1 locs path s2 body s' x').
  { intros dc a body Na Aa Ba Ha. eapply sim_arm; eassumption. }
  unfold pick_arm in H. destruct (find (fun a => existsb (Z.eqb d) (fst a)) arms) as [a|] eqn:Fi.
  - (* a case *)
    pose proof (find_cases bk y1 d v1 locs s2 Kd Fd Hl P cases arms cls cd A2 B2 N1) as F0. rewrite Fi in F0. destruct F0 as (dc & body & cs & I & Ea & Eb & F1 & F2).
    assert (Nd : nok_d K E arr dc = true). { apply in_map_iff in I. destruct I as (cc & <- & I). rewrite forallb_forall in N3. apply (N3 _ I). }
    destruct (Arm dc (snd a) body Nd Ea Eb H) as (v2 & S2 & T). exists v2. split; [exact S2|]. eapply evt_impl; [intros m W; rewrite seq_one; exact W|].
    apply evt_S. generalize (run_falls _ _ _ _ _ _ _ F2 T). apply evt_impl. intros m W. cbn [exec]. rewrite Ev. cbn [gbind]. rewrite F1. cbn [gbind]. exact W.
  - (* no case *)
    pose proof (find_cases bk y1 d v1 locs s2 Kd Fd Hl P cases arms cls cd A2 B2 N1) as F0. rewrite Fi in F0.
    assert (F1 : forall m, find_clause G m s2 (mkFrame v1 locs) (GV y1) (cls ++ cd) = GRet None).
    { intros m. rewrite F0. destruct def as [dd|]; [|injection B3 as <-; reflexivity]. destruct (gx_field dd P); [|discriminate]. injection B3 as <-. reflexivity. }
    destruct def as [dd|].
    + destruct (el_arm K dd) as [a|] eqn:Ea; [|discriminate]. injection A3 as <-. destruct (gx_field dd P) as [body|] eqn:Eb; [|discriminate]. injection B3 as <-.
      destruct (Arm dd a body N4 Ea Eb H) as (v2 & S2 & T). exists v2. split; [exact S2|]. eapply evt_impl; [intros m W; rewrite seq_one; exact W|].
      apply evt_S. generalize (run_falls body [(None, body, false)] _ _ _ _ _ (fa_here _ _ _) T). apply evt_impl. intros m W. cbn [exec]. rewrite Ev. cbn [gbind]. rewrite F1. cbn [gbind].
      rewrite (find_default_cases _ _ _ _ B2). cbn [find_default]. exact W.
    + injection A3 as <-. injection B3 as <-. injection H as <- <-. exists v1. split; [apply path_store_same, L1|]. eapply evt_impl; [intros m W; rewrite seq_one; exact W|].
      apply evt_S, evt_now. intros m. cbn [exec]. rewrite Ev. cbn [gbind]. rewrite F1. cbn [gbind]. rewrite (find_default_cases _ _ _ _ B2). reflexivity.
Qed.

(** ** Named types *)
Lemma sim_call x body v s s' y P path v0 locs : lookup x (g_meths G) = Some body -> ok_ptr G v0 locs P path -> path_load v0 path = Some v ->
  evt (fun m => seq (ex m) s (frame0 v) body = GRet (s', frame0 y)) ->
  sim v0 locs path s [SMeth (EConv (GPtr (GNamed x)) P) "Xdr" [EVar "xs"]] s' y.
Proof.
  intros F Q L H. destruct (path_store_some _ _ _ y L) as (v1 & S1 & _). exists v1. split; [exact S1|]. eapply evt_impl; [intros m W; rewrite seq_one; exact W|].
  apply evt_S. revert H. apply evt_impl. intros m W. cbn [exec]. change (String.eqb "Xdr" "Xdr") with true. cbv iota. rewrite F.
  rewrite (ok_ptr_now _ _ _ _ _ m s _ Q L). cbn [gbind through load f_recv]. rewrite L. cbn [some_or gbind].
  rewrite (block_of m s (frame0 v) body s' y [] eq_refl W). cbn [gbind f_recv store]. rewrite S1. reflexivity.
Qed.
End Step.

Lemma sim_def g body c n s x s' x' : (forall m, (m <= n)%nat -> forall t c P ss b arr path v0 locs s x s' x',
  el_dt K t = Some c -> gx_dt t P = Some ss -> nok_dt K E arr t = true -> pexpr b P -> (b = true -> arr = true) -> okloc locs ->
  ok_ptr G v0 locs P path -> path_load v0 path = Some x -> xdr m E c s x = Ret (s', x') -> sim v0 locs path s ss s' x') ->
  defrel ds E g body c -> xdr n E c s x = Ret (s', x') -> evt (fun m => seq (ex m) s (frame0 x) body = GRet (s', frame0 x')).
Proof.
  intros IH R H. destruct R as [t g body c A B C N|t g body c A B C N].
  - destruct (IH n ltac:(lia) t c (EVar "v") body false false [] x [] s x s' x' B C N pe_v ltac:(discriminate) okloc_nil (ok_v _ _ _ okloc_nil) eq_refl H) as (v1 & S1 & T).
    injection S1 as ->. exact T.
  - destruct n as [|n]; [discriminate|]. destruct x as [| | | | | | |l]; try discriminate. cbn [xdr xdr_fields] in H. unfold on_field in H.
    destruct (lookup "P" l) as [y|] eqn:F; [|discriminate]. destruct (xdr n E (CPtr c) s y) as [[s1 y1]| |] eqn:X; try discriminate. injection H as <- <-.
    assert (sim (VStruct l) [] [PField "P"] s body s1 y1) as (v1 & S1 & T).
    { eapply (IH n ltac:(lia) (declTypePtr t)); [|exact C|exact N|apply pe_p|discriminate|apply okloc_nil|eapply ok_v_p; [apply okloc_nil|reflexivity|exact F]| |exact X].
      - change (pbind (el K t) (fun c => Some (CPtr c)) = Some (CPtr c)). fold K in B. rewrite B. reflexivity.
      - cbn. rewrite F. reflexivity. }
    cbn in S1. rewrite F in S1. injection S1 as <-. exact T.
Qed.

Theorem sim_main n : forall t c P ss b arr path v0 locs s x s' x',
  el_dt K t = Some c -> gx_dt t P = Some ss -> nok_dt K E arr t = true -> pexpr b P -> (b = true -> arr = true) -> okloc locs ->
  ok_ptr G v0 locs P path -> path_load v0 path = Some x -> xdr n E c s x = Ret (s', x') -> sim v0 locs path s ss s' x'.
Proof.
  induction n as [n IHn] using lt_wf_ind. intros t c P ss b arr path v0 locs s x s' x' A B N HP Hb Hl Q L H. destruct n as [|n]; [discriminate|].
  pose proof (IHn n (Nat.lt_succ_diag_r n)) as IH.
  destruct t as [t|t sz|t sz|sz|sz|sz|t].
  - change (gx t P = Some ss) in B. change (el K t = Some c) in A. change (nok K E arr t = true) in N.
    destruct t as [u|u| | | | |its|items|sw cases def|y]; try discriminate.
    + injection A as <-. injection B as <-. destruct u; destruct x; try discriminate; cbn [xdr] in H; (eapply sim_prim; [exact Q|exact L|]); cbn [lib_fun String.eqb Ascii.eqb Bool.eqb];
        match type of H with (let '(_, _) := ?o in _) = _ => destruct o end; injection H as <- <-; reflexivity.
    + injection A as <-. injection B as <-. destruct u; destruct x; try discriminate; cbn [xdr] in H; (eapply sim_prim; [exact Q|exact L|]); cbn [lib_fun String.eqb Ascii.eqb Bool.eqb];
        match type of H with (let '(_, _) := ?o in _) = _ => destruct o end; injection H as <- <-; reflexivity.
    + injection A as <-. injection B as <-. destruct x; try discriminate; cbn [xdr] in H; (eapply sim_prim; [exact Q|exact L|]); cbn [lib_fun String.eqb Ascii.eqb Bool.eqb];
        match type of H with (let '(_, _) := ?o in _) = _ => destruct o end; injection H as <- <-; reflexivity.
    + rewrite (el_struct ds) in A. destruct (el_items ds items) as [fs|] eqn:A1; [|discriminate]. injection A as <-. destruct x; try discriminate. cbn [xdr] in H.
      eapply sim_fields; eassumption.
    + destruct sw as [|st sn]; [discriminate|]. eapply sim_union; eassumption.
    + injection A as <-. injection B as <-. pose proof (type_rel _ _ _ _ Hsup (cap y)) as R. 
      assert (H' : match lookup (cap y) E with Some t => xdr n E t s x | None => Panic end = Ret (s', x')) by (destruct x; exact H).
      destruct (lookup (cap y) E) as [cc|]; [|discriminate]. destruct R as (g & body & _ & F & R).
      eapply sim_call; [exact F|exact Q|exact L|]. eapply sim_def; [|exact R|exact H']. intros m Lm. apply IHn. lia.
  - discriminate.
  - change (pbind (xbound K sz) (fun m => do c <- el K t ; Some (CVarArray m c)) = Some c) in A. change (pbind (gt t) (fun e => do b <- gx t (elemP P) ; Some [SBlock (arr_body P sz e b)]) = Some ss) in B.
    change (negb arr && bound_ok K sz && nok K E true t = true) in N. apply andb_true_iff in N. destruct N as (N & N3). apply andb_true_iff in N. destruct N as (N1 & N2).
    assert (b = false) as -> by (destruct b; [rewrite (Hb eq_refl) in N1; discriminate|reflexivity]).
    destruct (xbound K sz) as [m|] eqn:A1; [|discriminate]. cbn [pbind] in A. destruct (el K t) as [ce|] eqn:A2; [|discriminate]. injection A as <-.
    destruct (gt t) as [g|] eqn:B1; [|discriminate]. cbn [pbind] in B. destruct (gx t (elemP P)) as [body|] eqn:B2; [|discriminate]. injection B as <-.
    destruct x; try discriminate. eapply sim_arr; eassumption.
  - change (pbind (xval K sz) (fun k => if (0 <=? k) && (k <=? MaxUint32) then Some (COpaque (Z.to_nat k)) else None) = Some c) in A. destruct (xval K sz) as [k|]; [|discriminate]. cbn [pbind] in A.
    destruct ((0 <=? k) && (k <=? MaxUint32)); [|discriminate]. injection A as <-. injection B as <-. destruct x; try discriminate. cbn [xdr] in H. destruct (XdrArray s bs) as [s1 bs1] eqn:X. injection H as <- <-.
    eapply sim_opaque; eassumption.
  - change (pbind (xbound K sz) (fun m => Some (CVarOpaque m)) = Some c) in A. destruct (xbound K sz) as [m|] eqn:A1; [|discriminate]. injection A as <-. injection B as <-.
    destruct x; try discriminate. cbn [xdr] in H. eapply sim_bound; try eassumption. cbn [lib_fun String.eqb Ascii.eqb Bool.eqb].
    match type of H with (let '(_, _) := ?o in _) = _ => destruct o end; injection H as <- <-; reflexivity.
  - change (pbind (xbound K sz) (fun m => Some (CString m)) = Some c) in A. destruct (xbound K sz) as [m|] eqn:A1; [|discriminate]. injection A as <-. injection B as <-.
    destruct x; try discriminate. cbn [xdr] in H. eapply sim_bound; try eassumption. cbn [lib_fun String.eqb Ascii.eqb Bool.eqb].
    match type of H with (let '(_, _) := ?o in _) = _ => destruct o end; injection H as <- <-; reflexivity.
  - change (pbind (el K t) (fun c => Some (CPtr c)) = Some c) in A. change (pbind (gt t) (fun e => do b <- gx t (derefP P) ; Some (ptr_body P e b)) = Some ss) in B.
    destruct (el K t) as [ce|] eqn:A2; [|discriminate]. injection A as <-.
    destruct (gt t) as [g|] eqn:B1; [|discriminate]. cbn [pbind] in B. destruct (gx t (derefP P)) as [body|] eqn:B2; [|discriminate]. injection B as <-.
    destruct x; try discriminate. eapply sim_ptr; eassumption.
Qed.

(** A call of the generated method. *)
Theorem sim_method x c n s v r : lookup x E = Some c -> xdr n E (CIdent x) s v = Ret r -> evt (fun m => call G m x s v = GRet r).
Proof.
  intros F H. destruct n as [|n]; [discriminate|]. destruct r as [s' v'].
  assert (H' : xdr n E c s v = Ret (s', v')) by (cbn [xdr] in H; rewrite F in H; destruct v; exact H).
  pose proof (type_rel _ _ _ _ Hsup x) as R. rewrite F in R. destruct R as (g & body & _ & M & R).
  generalize (sim_def g body c n s v s' v' (fun m _ => sim_main m) R H'). apply evt_impl. intros m W. unfold call. rewrite M.
  rewrite (block_of m s (frame0 v) body s' v' [] eq_refl W). reflexivity.
Qed.
End Sim.
