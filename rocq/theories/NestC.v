(** An array inside an array shares its loop variable: where the emitted code asks for
    outer[i].inner[i] and there is no such element, it does not return without an error. *)
From Coq Require Import Lia.
From Verif Require Import GoLex XLex Gram GParse Emit Bytes XdrLib Types Interp Meta GoAst GoSem GElab GSimA GSimB GSimC NestA NestB.
Open Scope string_scope.
Open Scope Z_scope.
Open Scope list_scope.

(** ** Pointer expressions and what they point to when the variable i is [i] (the valPtr of
    out.go:83, 150, 279, 310-311, 323, 330, and goRef of out.go:455-459) *)
Inductive pth (i : nat) : bool -> expr -> list step -> Prop :=
| pt_v : pth i false (EVar "v") []
| pt_p : pth i false (EAddr (ESel (EVar "v") "P")) [PField "P"]
| pt_field b P q n : pth i b P q -> pth i b (fieldP P n) (q ++ [PField (cap n)])
| pt_elem b P q : pth i b P q -> pth i true (elemP P) (q ++ [PIdx i])
| pt_deref b P q : pth i b P q -> pth i b (derefP P) (q ++ [PDeref]).
(** If [b], the innermost variable i holds [i]. *)
Definition iloc (b : bool) (locs : list (string * val)) (i : nat) : Prop :=
  b = true -> exists lv, loc_find "i" locs = Some lv /\ loc_get lv locs = Some (VInt (Z.of_nat i)).
Lemma iloc_push b locs i y w : y <> "i" -> iloc b locs i -> iloc b ((y, w) :: locs) i.
Proof.
  intros N H B. destruct (H B) as (lv & F & L). exists lv. cbn [loc_find]. destruct (String.eqb_spec "i" y); [congruence|]. split; [exact F|].
  rewrite loc_get_push; [exact L|]. eapply loc_find_lt, F.
Qed.
Lemma iloc_top b locs i : iloc b (("i", VInt (Z.of_nat i)) :: locs) i.
Proof. intros _. exists (List.length locs). split; [reflexivity|]. apply loc_get_top. Qed.
Lemma iloc_false locs i : iloc false locs i. Proof. discriminate. Qed.

(** The path with every index replaced: all pointers index with the same variable. *)
Definition reidx (i : nat) (q : list step) : list step := map (fun a => match a with PIdx _ => PIdx i | _ => a end) q.
Lemma pth_reidx i j b P q : pth i b P q -> pth j b P (reidx j q).
Proof.
  unfold reidx. induction 1; rewrite ?map_app; cbn [map]; try (constructor; assumption). eapply pt_elem. eassumption.
Qed.
Lemma path_load_app2 q r : forall v, path_load v (q ++ r) = match path_load v q with Some w => path_load w r | None => None end.
Proof. induction q as [|a q IH]; intros v; cbn; [reflexivity|]. destruct (step_load v a); [apply IH|reflexivity]. Qed.

Section S.
Variable fl : flags.
Variable ds : list defn.
Variable E : env.
Variable G : gpkg.
Hypothesis Hsup : supportedx fl ds = Some (E, G).
Let K := xconsts ds.
Notation ex := (exec G).

Lemma meths_em x body : lookup x (g_meths G) = Some body -> em body.
Proof.
  intros H. pose proof (NestB.type_rel _ _ _ _ Hsup x) as R. destruct (lookup x E) as [c|]; [|destruct R as (_ & R); congruence].
  destruct R as (g & body' & _ & L & D). assert (body' = body) as -> by congruence. destruct D as [t g body c _ _ X _|t g body c _ _ X _]; eapply gx_dt_em, X.
Qed.
Lemma em_neut n ss : em ss -> neutral G n ss. Proof. intros E1. eapply em_neutral; [apply meths_em|apply le_n|exact E1]. Qed.

Section V.
Variable v0 : val.
Notation fr locs := (mkFrame v0 locs).
Lemma pth_at i b P q locs : pth i b P q -> okloc locs -> iloc b locs i -> forall w, path_load v0 q = Some w ->
  forall n s, evv G n s (fr locs) P = GRet (GP (Some (PRecv q))).
Proof.
  intros D O. induction D as [| |b P q m D IH|b P q D IH|b P q D IH]; intros I w L n s.
  - unfold evv. cbn [ev f_locs]. rewrite (okloc_find _ "v" O) by (cbn; intuition discriminate). reflexivity.
  - unfold evv. cbn [ev f_locs]. rewrite (okloc_find _ "v" O) by (cbn; intuition discriminate). reflexivity.
  - rewrite path_load_app in L. destruct (path_load v0 q) as [x|] eqn:Lq; [|discriminate].
    destruct (evv_inv _ _ _ _ _ _ (IH I x eq_refl n s)) as (o & E1 & R). unfold fieldP, evv. cbn [ev]. rewrite E1. cbn [gbind]. rewrite R. reflexivity.
  - rewrite path_load_app in L. destruct (path_load v0 q) as [x|] eqn:Lq; [|discriminate]. destruct (I eq_refl) as (lv & F & Q).
    destruct (evv_inv _ _ _ _ _ _ (IH (fun _ => I eq_refl) x eq_refl n s)) as (o & E1 & R). unfold elemP, evv. cbn [ev]. rewrite E1. cbn [gbind]. rewrite R. cbn [gbind f_locs]. rewrite F.
    cbn [gbind rval load f_locs f_recv]. rewrite Q. cbn [gbind]. rewrite Lq. destruct x as [| | | | |[l|]|[y|]|]; try discriminate L. cbn [gbind elems sub]. cbn [step_load] in L.
    assert (Z.of_nat i <? zlen l = true) as -> by (unfold zlen; apply Z.ltb_lt; apply Nat2Z.inj_lt, nth_error_Some; congruence).
    assert (0 <=? Z.of_nat i = true) as -> by (apply Z.leb_le; lia). cbn [andb gbind]. rewrite Nat2Z.id. reflexivity.
  - rewrite path_load_app in L. destruct (path_load v0 q) as [x|] eqn:Lq; [|discriminate]. destruct x as [| | | | |[l|]|[y|]|]; try discriminate L.
    destruct (evv_inv _ _ _ _ _ _ (IH I _ eq_refl n s)) as (o & E1 & R). unfold derefP, evv. cbn [ev]. rewrite E1. cbn [gbind]. rewrite R. cbn [gbind rval load f_recv]. rewrite Lq. reflexivity.
Qed.

(** Expressions that index past the end of a slice. *)
Inductive miss (i : nat) : expr -> Prop :=
| ms_idx b P q o : pth i b P q -> path_load v0 q = Some (VSlice o) -> nth_error (elems o) i = None -> miss i (elemP P)
| ms_field P n : miss i P -> miss i (fieldP P n)
| ms_elem P : miss i P -> miss i (elemP P)
| ms_deref P : miss i P -> miss i (derefP P).
Lemma miss_pan i P locs : miss i P -> okloc locs -> iloc true locs i -> forall n s, ev G n s (fr locs) P = GPanic.
Proof.
  intros D O I n s. induction D as [b P q o D L N|P m D IH|P D IH|P D IH].
  - destruct (I eq_refl) as (lv & F & Q). assert (I' : iloc b locs i) by (intros _; exact (I eq_refl)).
    destruct (evv_inv _ _ _ _ _ _ (pth_at _ _ _ _ _ D O I' _ L n s)) as (oo & E1 & R). unfold elemP. cbn [ev]. rewrite E1. cbn [gbind]. rewrite R. cbn [gbind f_locs]. rewrite F.
    cbn [gbind rval load f_locs f_recv]. rewrite Q. cbn [gbind]. rewrite L. cbn [gbind].
    assert (Z.of_nat i <? zlen (elems o) = false) as -> by (unfold zlen; apply Z.ltb_ge, Nat2Z.inj_le, nth_error_None; exact N). rewrite andb_false_r. reflexivity.
  - unfold fieldP. cbn [ev]. rewrite IH. reflexivity.
  - unfold elemP. cbn [ev]. rewrite IH. reflexivity.
  - unfold derefP. cbn [ev]. rewrite IH. reflexivity.
Qed.

(** Code that does not return without an error. *)
Definition bad (ss : list stmt) (locs : list (string * val)) : Prop :=
  forall n s s' fr', x_reader s = false -> seq (ex n) s (fr locs) ss = GRet (s', fr') -> x_err s' <> None.
Lemma bad_l a b locs : em a -> bad a locs -> em b -> bad (a ++ b) locs.
Proof.
  intros Ma B M n s s' fr' R H X. rewrite seq_app' in H. destruct (seq (ex n) s (fr locs) a) as [[s1 f1]| | |] eqn:Q; try discriminate H. cbn [gbind] in H.
  destruct (em_neut n a Ma _ _ _ _ R Q) as (-> & S1). destruct (em_neut n b M _ _ _ _ (eq_trans (proj1 S1) R) H) as (_ & S2). exact (B _ _ _ _ R Q (proj2 S2 X)).
Qed.
Lemma bad_r a b locs : em a -> bad b locs -> bad (a ++ b) locs.
Proof.
  intros Ma B n s s' fr' R H X. rewrite seq_app' in H. destruct (seq (ex n) s (fr locs) a) as [[s1 f1]| | |] eqn:Q; try discriminate H. cbn [gbind] in H.
  destruct (em_neut n a Ma _ _ _ _ R Q) as (-> & S1). exact (B _ _ _ _ (eq_trans (proj1 S1) R) H X).
Qed.
Lemma bad_one a locs : (forall n s s' fr', x_reader s = false -> ex n s (fr locs) a = GRet (s', fr') -> x_err s' <> None) -> bad [a] locs.
Proof. intros H n s s' fr' R Q. rewrite seq_one' in Q. eauto. Qed.
Lemma bad_block n s ss locs s' fr' : bad ss locs -> x_reader s = false -> block (ex n) s (fr locs) ss = GRet (s', fr') -> x_err s' <> None.
Proof. intros B R H. unfold block in H. destruct (seq (ex n) s (fr locs) ss) as [[s1 f1]| | |] eqn:Q; try discriminate H. cbn in H. injection H as <- <-. eauto. Qed.

(** The code of a type evaluates the pointer it is given (all goXdr except that of a struct
    without members, out.go:274-283). *)
Fixpoint touches (t : typespec) : bool :=
  match t with
  | typeStruct items => (fix go l := match l with [] => false | d :: l => touches_d d || go l end) items
  | _ => true
  end
with touches_dt (t : declType) : bool :=
  match t with declTypeTypespec t => touches t | declTypeArray _ _ => false | _ => true end
with touches_d (d : decl) : bool := match d with declVoid => false | declName t _ => touches_dt t end.

Lemma arr_bad_len P bound g body locs : em body ->
  (forall n s x, evv G n s (fr (("__arraysz", VInt 0) :: locs)) (ELen (EDeref P)) <> GRet x) -> bad [SBlock (arr_body P bound g body)] locs.
Proof.
  intros M N. apply bad_one. intros n s s' fr' R H X. destruct n as [|n]; [discriminate H|]. cbn [exec] in H. unfold block in H.
  destruct (seq (ex n) s (fr locs) (arr_body P bound g body)) as [[s1 f1]| | |] eqn:Q; try discriminate H. cbn in H. injection H as <- <-.
  destruct (arr_w G n P bound g body s v0 locs s1 f1 (fun m _ => em_neut m body M) R Q) as (_ & _ & W). destruct (W X) as (m1 & m2 & len & _ & _ & _ & L & _). exact (N _ _ _ L).
Qed.
Lemma ptr_bad_ne P e body locs : em body -> (forall n s x, evv G n s (fr locs) (ENe (derefP P) (EVar "nil")) <> GRet x) -> bad (ptr_body P e body) locs.
Proof.
  intros M N n s s' fr' R H X. destruct n as [|n]; [discriminate H|].
  destruct (ptr_w G n P e body s (fr locs) s' fr' (fun m _ => em_neut m body M) R H) as (-> & S1 & W). specialize (W (proj2 S1 X)). unfold block, enc_opt in W. cbn [seq] in W. destruct n as [|n]; [discriminate W|].
  cbn [exec] in W. destruct (evv G n s (fr locs) (ENe (derefP P) (EVar "nil"))) as [x| | |] eqn:V; try discriminate W. exact (N _ _ _ V).
Qed.
Section Pan.
Variable i : nat.
Lemma pkg1_bad fn t P locs : miss i P -> okloc locs -> iloc true locs i -> bad [SPkg fn [EVar "xs"; EConv t P]] locs.
Proof.
  intros D O I. apply bad_one. intros n s s' fr' R H X. destruct n as [|n]; [discriminate H|]. cbn [exec] in H. unfold evv in H. cbn [ev] in H. rewrite (miss_pan _ _ _ D O I) in H. discriminate H.
Qed.
Lemma pkg2_bad fn t b P locs : miss i P -> okloc locs -> iloc true locs i -> bad [SPkg fn [EVar "xs"; b; EConv t P]] locs.
Proof.
  intros D O I. apply bad_one. intros n s s' fr' R H X. destruct n as [|n]; [discriminate H|]. cbn [exec] in H. destruct (evv G n s (fr locs) b) as [g| | |]; try discriminate H. cbn [gbind] in H. unfold evv in H. cbn [ev] in H. rewrite (miss_pan _ _ _ D O I) in H. discriminate H.
Qed.
Lemma ok_sz locs z : okloc locs -> okloc (("__arraysz", VInt z) :: locs). Proof. intros O. apply okloc_push; [exact O|cbn; tauto]. Qed.
Lemma il_sz b locs z : iloc b locs i -> iloc b (("__arraysz", VInt z) :: locs) i. Proof. apply iloc_push. discriminate. Qed.
End Pan.
Lemma touch_dt_miss i (t : declType) P ss locs : (forall u P ss, t = declTypeTypespec u -> touches u = true -> nokx K E u = true -> GoAst.gx u P = Some ss -> miss i P -> bad ss locs) ->
  touches_dt t = true -> nokx_dt K E t = true -> gx_dt t P = Some ss -> miss i P -> okloc locs -> iloc true locs i -> bad ss locs.
Proof.
  intros IH T N H D O I. destruct t as [t|t sz|t sz|sz|sz|sz|t]; cbn [gx_dt] in H; try discriminate N.
  - eapply IH; [reflexivity|exact T|exact N|exact H|exact D].
  - destruct (gt t) as [g|]; [|discriminate]. cbn [pbind] in H. destruct (GoAst.gx t (elemP P)) as [b|] eqn:B; [|discriminate]. injection H as <-. apply arr_bad_len; [eapply gx_em, B|].
    intros n s x V. unfold evv in V. cbn [ev] in V. rewrite (miss_pan _ _ _ D (ok_sz _ _ O) (il_sz _ _ _ _ I)) in V. discriminate V.
  - injection H as <-. apply bad_one. intros n s s' fr' R H X. destruct n as [|n]; [discriminate H|]. cbn [exec] in H. unfold evv in H. cbn [ev] in H. rewrite (miss_pan _ _ _ D O I) in H. discriminate H.
  - injection H as <-. eapply pkg2_bad; eassumption.
  - injection H as <-. eapply pkg2_bad; eassumption.
  - destruct (gt t) as [g|]; [|discriminate]. cbn [pbind] in H. destruct (GoAst.gx t (derefP P)) as [b|] eqn:B; [|discriminate]. injection H as <-. apply ptr_bad_ne; [eapply gx_em, B|].
    intros n s x V. unfold evv in V. cbn [ev derefP] in V. rewrite (miss_pan _ _ _ D O I) in V. discriminate V.
Qed.
Lemma disc_touches st cases u : disc_ok K E st cases = true -> st = declTypeTypespec u -> exists b x, u = typeInt b \/ u = typeHyper b \/ u = typeBool \/ u = typeIdent x.
Proof.
  intros D ->. unfold disc_ok in D. change (el_dt K (declTypeTypespec u)) with (el K u) in D. destruct u as [b|b| | | | |its|items|sw cs def|x]; try discriminate D.
  - exists b, "". auto.
  - exists b, "". auto.
  - exists true, "". auto.
  - rewrite (el_struct ds) in D. destruct (el_items ds items); discriminate D.
  - destruct sw as [|st sn]; [discriminate D|]. rewrite (el_union ds) in D. destruct (el_dt (xconsts ds) st); [|discriminate D]. cbn [pbind] in D. destruct (el_arms ds cs); [|discriminate D]. cbn [pbind] in D.
    destruct (match def with Some d => do a <- el_arm (xconsts ds) d ; Some (Some a) | None => Some None end); discriminate D.
  - exists true, x. auto.
Qed.
Fixpoint touch_miss i (t : typespec) {struct t} : forall P ss locs, touches t = true -> nokx K E t = true -> GoAst.gx t P = Some ss -> miss i P -> okloc locs -> iloc true locs i -> bad ss locs
with touch_miss_dt i (t : declType) {struct t} : forall P ss locs, touches_dt t = true -> nokx_dt K E t = true -> gx_dt t P = Some ss -> miss i P -> okloc locs -> iloc true locs i -> bad ss locs
with touch_miss_d i (d : decl) {struct d} : forall P ss locs, touches_d d = true -> nokx_d K E d = true -> gx_field d P = Some ss -> miss i P -> okloc locs -> iloc true locs i -> bad ss locs.
Proof.
  - destruct t as [u|u| | | | |its|items|sw cases def|x]; intros P ss locs T N H D O I; cbn [GoAst.gx] in H; try discriminate H.
    + injection H as <-. destruct u; eapply pkg1_bad; eassumption.
    + injection H as <-. destruct u; eapply pkg1_bad; eassumption.
    + injection H as <-. eapply pkg1_bad; eassumption.
    + cbn [touches nokx] in T, N. revert ss H T N. induction items as [|d items IH]; intros ss H T N; [discriminate T|].
      destruct (gx_field d P) as [a|] eqn:A; [|discriminate]. cbn [pbind] in H.
      match type of H with pbind ?o _ = _ => destruct o as [b|] eqn:B; [|discriminate] end. injection H as <-.
      apply andb_true_iff in N. destruct N as (N1 & N2).
      assert (Mb : em b) by (apply (gx_em (typeStruct items) P), B). pose proof (gx_field_em d P a A) as Ma.
      apply orb_true_iff in T. destruct T as [T|T].
      * apply bad_l; [exact Ma| |exact Mb]. exact (touch_miss_d i d P a locs T N1 A D O I).
      * apply bad_r; [exact Ma|]. apply IH; [reflexivity|exact T|exact N2].
    + destruct sw as [|st sn]; [discriminate|]. destruct (gx_union_em _ _ _ _ _ _ H) as (a & b & A & -> & Ma & Mb).
      cbn [nokx] in N. apply andb_true_iff in N. destruct N as (N & _). apply andb_true_iff in N. destruct N as (N & _). apply andb_true_iff in N. destruct N as (N1 & N2).
      apply bad_l; [exact Ma| |exact Mb]. eapply (touch_miss_dt i st); [|exact N2|exact A|apply ms_field, D|exact O|exact I].
      destruct st as [u|u sz|u sz|sz|sz|sz|u]; try reflexivity; [|discriminate N2]. destruct (disc_touches _ _ _ N1 eq_refl) as (bb & x & [->|[->|[->| ->]]]); reflexivity.
    + injection H as <-. apply bad_one. intros n s s' fr' R H X. destruct n as [|n]; [discriminate H|]. cbn [exec] in H. change (String.eqb "Xdr" "Xdr") with true in H. cbv iota in H. destruct (lookup (cap x) (g_meths G)); [|discriminate H].
      unfold evv in H. rewrite (miss_pan _ _ _ D O I) in H. discriminate H.
  - intros P ss locs T N H D O I. revert T N H D O I. destruct t as [u|u sz|u sz|sz|sz|sz|u]; intros T N H D O I; [exact (touch_miss i u P ss locs T N H D O I)|discriminate T|..];
      (eapply touch_dt_miss; [|exact T|exact N|exact H|exact D|exact O|exact I]; intros u' P' ss' X; discriminate X).
  - destruct d as [|t n]; intros P ss locs T N H D O I; [discriminate T|]. cbn [gx_field] in H. eapply touch_miss_dt; [exact T|exact N|exact H|apply ms_field, D|exact O|exact I].
Qed.

(** ** Loops *)
Lemma cond_ev n s z sz locs : 0 <= sz < 2 ^ 32 -> ev_bool G n s (fr (("i", VInt z) :: ("__arraysz", VInt sz) :: locs)) (ELt (EVar "i") (EConv gU64 (EVar "__arraysz"))) = GRet (z <? sz).
Proof.
  intros B. unfold ev_bool, evv. cbn [ev f_locs loc_find]. change (String.eqb "i" "i") with true. change (String.eqb "__arraysz" "i") with false. rewrite String.eqb_refl.
  cbn [gbind rval load f_locs]. rewrite loc_get_top. cbn [gbind]. rewrite loc_get_push by (cbn; lia). rewrite loc_get_top. cbn. rewrite to_u64_id by lia. reflexivity.
Qed.
Lemma loop_bad n body j sz locs : em body -> 0 <= sz < 2 ^ 32 -> Z.of_nat j < sz -> bad body (("i", VInt (Z.of_nat j)) :: ("__arraysz", VInt sz) :: locs) ->
  forall k z s s' fr', 0 <= z <= Z.of_nat j -> x_reader s = false ->
  loop G (ex n) n k "i" (ELt (EVar "i") (EConv gU64 (EVar "__arraysz"))) body s (fr (("i", VInt z) :: ("__arraysz", VInt sz) :: locs)) = GRet (s', fr') -> x_err s' <> None.
Proof.
  intros M B Lj Bd. induction k as [|k IH]; intros z s s' fr' Lz R H; [discriminate H|]. pose proof H as H0. cbn [loop] in H. rewrite cond_ev in H by exact B. cbn [gbind] in H.
  assert (z <? sz = true) as Eb by (apply Z.ltb_lt; lia). rewrite Eb in H. cbv iota in H.
  destruct (block (ex n) s (fr (("i", VInt z) :: ("__arraysz", VInt sz) :: locs)) body) as [[s1 f1]| | |] eqn:Q; try discriminate H. destruct (block_w _ _ _ _ _ _ _ (em_neut n body M) R Q) as (-> & S1). cbn [gbind] in H.
  assert (incr "i" (fr (("i", VInt z) :: ("__arraysz", VInt sz) :: locs)) = GRet (fr (("i", VInt (z + 1)) :: ("__arraysz", VInt sz) :: locs))) as E1.
  { unfold incr. cbn [f_locs loc_find]. change (String.eqb "i" "i") with true. cbv iota. rewrite loc_get_top. cbn [store f_locs]. rewrite loc_set_top. reflexivity. }
  rewrite E1 in H. cbn [gbind] in H. destruct (Z.eq_dec z (Z.of_nat j)) as [->|Nz].
  - intros X. destruct (loop_w G n body (em_neut n body M) _ _ _ _ _ _ _ _ (eq_trans (proj1 S1) R) H) as (_ & S2). exact (bad_block _ _ _ _ _ _ Bd R Q (proj2 S2 X)).
  - eapply IH; [|exact (eq_trans (proj1 S1) R)|exact H]. lia.
Qed.
Lemma arr_bad P bound g body locs i b q l j : em body -> pth i b P q -> okloc locs -> iloc b locs i -> path_load v0 q = Some (VSlice (Some l)) -> (j < List.length l)%nat ->
  bad body (("i", VInt (Z.of_nat j)) :: ("__arraysz", VInt (zlen l)) :: locs) -> bad [SBlock (arr_body P bound g body)] locs.
Proof.
  intros M D O I L Lj Bd. apply bad_one. intros n s s' fr' R H X. destruct n as [|n]; [discriminate H|]. cbn [exec] in H. unfold block in H.
  destruct (seq (ex n) s (fr locs) (arr_body P bound g body)) as [[s1 f1]| | |] eqn:Q; try discriminate H. cbn in H. injection H as <- <-.
  destruct (arr_w G n P bound g body s v0 locs s1 f1 (fun m _ => em_neut m body M) R Q) as (_ & _ & W). destruct (W X) as (m1 & m2 & len & s2 & s3 & fr2 & Hl & Bl & R2 & F & X3).
  assert (len = zlen l) as ->.
  { unfold evv in Hl. cbn [ev] in Hl. destruct (evv_inv _ _ _ _ _ _ (pth_at _ _ _ _ _ D (ok_sz _ 0 O) (il_sz _ _ _ 0 I) _ L m1 s)) as (o & E1 & Rv). rewrite E1 in Hl. cbn [gbind] in Hl. rewrite Rv in Hl. cbn [gbind rval load f_recv] in Hl. rewrite L in Hl.
    cbn in Hl. congruence. }
  assert (Eu : to_u32 (zlen l) = zlen l) by (unfold to_u32; apply Z.mod_small; unfold MaxUint32 in Bl; unfold zlen in *; lia). rewrite Eu in F.
  destruct m2 as [|m2]; [discriminate F|]. cbn [exec] in F. change (evv G m2 s2 (fr (("__arraysz", VInt (zlen l)) :: locs)) (EConv gU64 (ENum "0"))) with (GRet (GV (VInt 0)) : gor gval) in F. cbn [gbind] in F. unfold push in F. cbn [f_recv f_locs] in F.
  match type of F with gbind ?o _ = _ => destruct o as [[s4 f4]| | |] eqn:Lp; try discriminate F end. cbn in F. injection F as <- <-.
  revert X3. eapply (loop_bad m2 body j (zlen l) locs M); [unfold MaxUint32 in Bl; unfold zlen in *; lia|unfold zlen; lia|exact Bd|split; [apply Z.le_refl|lia]|exact R2|exact Lp].
Qed.

(** ** Switches *)
Section Switch.
Variables (bk : bool) (dv : val) (d : Z) (locs : list (string * val)) (st : xst).
Notation fc m cs := (find_clause G m st (fr locs) (GV dv) cs).
Hypothesis Hk : kind_ok bk dv.
Hypothesis Hd : disc_of dv = Some d.
Hypothesis Hl : okloc locs.
Lemma find_label m l k ss ft r : label_ok K bk l = true -> xlabel K l = Some k ->
  fc m ((Some (val_expr (cap l)), ss, ft) :: r) = if d =? k then GRet (Some ((Some (val_expr (cap l)), ss, ft) :: r)) else fc m r.
Proof.
  intros L X. cbn [find_clause]. unfold evv. destruct dv as [z|b| | | | | |]; try destruct Hk; injection Hd as <-; cbn in Hk; subst bk.
  - rewrite (NestB.ev_label_int _ _ _ _ Hsup m st v0 locs l k Hl L X). cbn [gbind rval]. reflexivity.
  - destruct (NestB.ev_label_bool _ _ _ _ Hsup m st v0 locs l k Hl L X) as (b' & -> & ->). cbn [gbind rval]. destruct b, b'; reflexivity.
Qed.
Lemma find_labels ls : forall ks body r, forallb (label_ok K bk) ls = true -> xlabels K ls = Some ks ->
  if existsb (Z.eqb d) ks then exists cs, (forall m, fc m (label_clauses ls body ++ r) = GRet (Some cs)) /\ falls body cs
  else forall m, fc m (label_clauses ls body ++ r) = fc m r.
Proof.
  induction ls as [|l ls IHl]; intros ks body r A B.
  - injection B as <-. cbn [existsb]. intros m. reflexivity.
  - cbn [forallb] in A. apply andb_true_iff in A. destruct A as (A1 & A2). unfold xlabels in B. cbn [all_some] in B. destruct (xlabel K l) as [k|] eqn:X; [|discriminate]. cbn [pbind] in B.
    destruct (all_some (xlabel K) ls) as [ks2|] eqn:Y; [|discriminate]. injection B as <-. specialize (IHl ks2 body r A2 Y). cbn [existsb].
    destruct ls as [|l2 ls].
    + injection Y as <-. cbn [label_clauses app existsb]. rewrite orb_false_r. destruct (d =? k) eqn:Ed; [|intros m; rewrite (find_label _ _ _ _ _ _ A1 X), Ed; reflexivity].
      eexists. split; [intros m; rewrite (find_label _ _ _ _ _ _ A1 X), Ed; reflexivity|constructor].
    + change (label_clauses (l :: l2 :: ls) body ++ r) with ((Some (val_expr (cap l)), [], true) :: label_clauses (l2 :: ls) body ++ r).
      destruct (d =? k) eqn:Ed; cbn [orb].
      2:{ destruct (existsb (Z.eqb d) ks2).
          - destruct IHl as (cs & F1 & F2). exists cs. split; [|exact F2]. intros m. rewrite (find_label _ _ _ _ _ _ A1 X), Ed. apply F1.
          - intros m. rewrite (find_label _ _ _ _ _ _ A1 X), Ed. apply IHl. }
      eexists. split; [intros m; rewrite (find_label _ _ _ _ _ _ A1 X), Ed; reflexivity|]. constructor. clear.
      revert l2. induction ls as [|a ls IHls]; intros l2; [constructor|]. change (label_clauses (l2 :: a :: ls) body ++ r) with ((Some (val_expr (cap l2)), [], true) :: label_clauses (a :: ls) body ++ r). constructor. apply IHls.
Qed.
Lemma find_chosen P cases def dc : forall cls cd, chosen K d cases def = Some dc -> gx_cases P cases = Some cls -> forallb (fun x => forallb (label_ok K bk) (fst x)) cases = true ->
  match def with Some d => do a <- gx_field d P ; Some [(None, a, false)] | None => Some [] end = Some cd ->
  exists body cs, gx_field dc P = Some body /\ falls body cs /\
    forall m, fc m (cls ++ cd) = GRet (Some cs) \/ (fc m (cls ++ cd) = GRet None /\ find_default (cls ++ cd) = Some cs).
Proof.
  induction cases as [|[ls dc1] cases IHc]; intros cls cd C B N D.
  - injection B as <-. cbn [chosen] in C. subst def. destruct (gx_field dc P) as [a|]; [|discriminate]. injection D as <-. exists a, [(None, a, false)]. split; [reflexivity|]. split; [constructor|]. intros m. right. split; reflexivity.
  - cbn [chosen] in C. destruct (xlabels K ls) as [ks|] eqn:A1; [|discriminate].
    cbn [gx_cases fst snd] in B. destruct (gx_field dc1 P) as [body|] eqn:B1; [|discriminate]. destruct (gx_cases P cases) as [cls2|] eqn:B2; [|discriminate]. injection B as <-.
    cbn [forallb fst] in N. apply andb_true_iff in N. destruct N as (N1 & N2). pose proof (find_labels ls ks body (cls2 ++ cd) N1 A1) as F.
    destruct (existsb (Z.eqb d) ks).
    + injection C as <-. destruct F as (cs & F1 & F2). exists body, cs. split; [exact B1|]. split; [exact F2|]. intros m. left. rewrite <- app_assoc. apply F1.
    + destruct (IHc _ _ C eq_refl N2 D) as (body' & cs & R1 & R2 & R3). exists body', cs. split; [exact R1|]. split; [exact R2|]. intros m. rewrite <- app_assoc, F, find_default_labels. apply R3.
Qed.
End Switch.
Lemma run_bad n body cs locs s s' fr' : em body -> falls body cs -> bad body locs -> x_reader s = false -> run (ex n) s (fr locs) cs = GRet (s', fr') -> x_err s' <> None.
Proof.
  intros M F B R. revert s R. induction F as [l r|l r F IHF]; intros s R H; cbn [run] in H.
  - destruct (block (ex n) s (fr locs) body) as [[s1 f1]| | |] eqn:Q; try discriminate H. cbn in H. injection H as <- <-. exact (bad_block _ _ _ _ _ _ B R Q).
  - destruct (block (ex n) s (fr locs) []) as [[s1 f1]| | |] eqn:Q; try discriminate H. destruct (block_w _ _ _ _ _ _ _ (neutral_nil G n) R Q) as (-> & S1). cbn [gbind] in H. exact (IHF s1 (eq_trans (proj1 S1) R) H).
Qed.
Lemma disc_kind_ty k : forall c bk x, disc_kind E k c = Some bk -> has_ty E c x -> kind_ok bk x.
Proof.
  induction k as [|k IHk]; intros c bk x D H; [discriminate|]. destruct c; cbn [disc_kind] in D; try discriminate; try (injection D as <-; inversion H; reflexivity).
  inversion H as [| | | | | | | | | | | | |y u v F T]; subst. rewrite F in D. eapply IHk; eassumption.
Qed.

(** ** Following a path to an inline type *)
Lemma in_items_bad d items P ss locs a : In d items -> GoAst.gx (typeStruct items) P = Some ss -> gx_field d P = Some a -> bad a locs -> bad ss locs.
Proof.
  intros I H A B. revert ss H. induction items as [|d' items IH]; intros ss H; [destruct I|]. 
  change (pbind (gx_field d' P) (fun a => do b <- GoAst.gx (typeStruct items) P ; Some (a ++ b)) = Some ss) in H.
  destruct (gx_field d' P) as [a'|] eqn:A'; [|discriminate]. cbn [pbind] in H. destruct (GoAst.gx (typeStruct items) P) as [b|] eqn:Hb; [|discriminate]. injection H as <-.
  pose proof (gx_field_em _ _ _ A') as Ma. pose proof (gx_em _ _ _ Hb) as Mb. destruct I as [->|I].
  - assert (a' = a) as -> by congruence. apply bad_l; assumption.
  - apply bad_r; [exact Ma|]. apply IH; [exact I|reflexivity].
Qed.
Lemma in_items_some d items P ss : In d items -> GoAst.gx (typeStruct items) P = Some ss -> exists a, gx_field d P = Some a.
Proof.
  intros I. revert ss. induction items as [|d' items IH]; intros ss H; [destruct I|].
  change (pbind (gx_field d' P) (fun a => do b <- GoAst.gx (typeStruct items) P ; Some (a ++ b)) = Some ss) in H.
  destruct (gx_field d' P) as [a'|] eqn:A'; [|discriminate]. cbn [pbind] in H. destruct (GoAst.gx (typeStruct items) P) as [b|] eqn:Hb; [|discriminate]. destruct I as [->|I]; [eauto|]. exact (IH I b eq_refl).
Qed.
Lemma in_items_nok d items : In d items -> nokx K E (typeStruct items) = true -> nokx_d K E d = true.
Proof.
  intros I N. induction items as [|d' items IH]; [destruct I|]. change (nokx_d K E d' && nokx K E (typeStruct items) = true) in N. apply andb_true_iff in N. destruct N as (N1 & N2). destruct I as [->|I]; auto.
Qed.

Lemma el_dt_name d u n a : d = declName u n -> el_arm K d = Some a -> exists c, el_dt K u = Some c /\ a = Some (cap n, c).
Proof.
  intros -> H. change (pbind (el_dt K u) (fun c => Some (Some (cap n, c))) = Some a) in H. destruct (el_dt K u) as [c|]; [|discriminate]. injection H as <-. eauto.
Qed.
Lemma el_items_in u n items : forall fs, In (declName u n) items -> el_items ds items = Some fs -> exists c, el_dt K u = Some c /\ In (cap n, c) fs.
Proof.
  induction items as [|d items IH]; intros fs I H; [destruct I|]. cbn [el_items] in H. fold K in H. destruct (el_arm K d) as [a|] eqn:A; [|discriminate]. cbn [pbind] in H. destruct (el_items ds items) as [b|]; [|discriminate]. injection H as <-.
  destruct I as [->|I].
  - destruct (el_dt_name _ _ _ _ eq_refl A) as (c & C & ->). exists c. split; [exact C|]. left. reflexivity.
  - destruct (IH _ I eq_refl) as (c & C & F). exists c. split; [exact C|]. apply in_or_app. right. exact F.
Qed.
Lemma chosen_el d cases def dc : forall arms ed, chosen K d cases def = Some dc -> el_arms ds cases = Some arms ->
  match def with Some d => do a <- el_arm K d ; Some (Some a) | None => Some None end = Some ed ->
  exists a, el_arm K dc = Some a /\ pick_arm d arms ed = Some a /\ forall ft, a = Some ft -> In ft (arm_fields arms ++ def_fields ed).
Proof.
  induction cases as [|[ls dc1] cases IH]; intros arms ed C A D.
  - cbn [chosen] in C. subst def. injection A as <-. destruct (el_arm K dc) as [a|]; [|discriminate]. injection D as <-. exists a. split; [reflexivity|]. split; [reflexivity|]. intros ft ->. left. reflexivity.
  - cbn [chosen] in C. cbn [el_arms fst snd] in A. fold K in A. destruct (xlabels K ls) as [ks|]; [|discriminate]. cbn [pbind] in A. destruct (el_arm K dc1) as [a1|] eqn:A1; [|discriminate]. cbn [pbind] in A.
    destruct (el_arms ds cases) as [arms2|]; [|discriminate]. injection A as <-. unfold pick_arm. cbn [find fst]. destruct (existsb (Z.eqb d) ks).
    + injection C as <-. exists a1. split; [exact A1|]. split; [reflexivity|]. intros ft ->. left. reflexivity.
    + destruct (IH _ _ C eq_refl D) as (a & R1 & R2 & R3). exists a. split; [exact R1|]. split; [exact R2|]. intros ft X. unfold arm_fields. cbn [flat_map snd]. apply in_or_app.
      specialize (R3 ft X). apply in_app_or in R3. destruct R3 as [R3|R3]; [left; apply in_or_app; right; exact R3|right; exact R3].
Qed.
Variable D : nat.
Section Way.
Variable i : nat.
Variable dt : declType.
Definition leaf (b : bool) (q : list step) (w : val) : Prop :=
  forall P locs ss c, el_dt K dt = Some c -> has_ty E c w -> wf_ty D E c -> nokx_dt K E dt = true -> gx_dt dt P = Some ss -> pth i b P q -> okloc locs -> iloc b locs i -> bad ss locs.
Lemma way_both :
  (forall t v p, reach K dt t v p -> forall c b P q locs ss, el K t = Some c -> has_ty E c v -> wf_ty D E c -> nokx K E t = true -> GoAst.gx t P = Some ss -> pth i b P q -> okloc locs -> iloc b locs i ->
     path_load v0 q = Some v -> (forall w, path_load v p = Some w -> leaf b (q ++ p) w) -> bad ss locs) /\
  (forall t v p, reach_dt K dt t v p -> forall c b P q locs ss, el_dt K t = Some c -> has_ty E c v -> wf_ty D E c -> nokx_dt K E t = true -> gx_dt t P = Some ss -> pth i b P q -> okloc locs -> iloc b locs i ->
     path_load v0 q = Some v -> (forall w, path_load v p = Some w -> leaf b (q ++ p) w) -> bad ss locs).
Proof.
  apply reach_mutind.
  - (* a member *)
    intros items u n l w p I F _ IH c b P q locs ss A T W N B Q O Il L Lf. rewrite (el_struct ds) in A. destruct (el_items ds items) as [fs|] eqn:A1; [|discriminate]. injection A as <-.
    destruct (el_items_in _ _ _ _ I A1) as (cu & C & Ic). inversion T as [| | | | | | | | | | |fs' l' Tf|  |]; subst. inversion W as [| | | | | | | | | |fs' Nd Wf| |]; subst.
    destruct (has_fields_lookup E _ _ _ _ Tf Nd Ic) as (w' & F' & Tw). assert (w' = w) as -> by congruence.
    destruct (in_items_some _ _ _ _ I B) as (a & Ba). eapply in_items_bad; [exact I|exact B|exact Ba|]. cbn [gx_field] in Ba.
    eapply (IH cu b (fieldP P n) (q ++ [PField (cap n)])); [exact C|exact Tw|exact (Wf _ _ Ic)|exact (in_items_nok _ _ I N)|exact Ba|apply pt_field, Q|exact O|exact Il| |].
    + rewrite path_load_app, L. exact F.
    + intros x Lx. rewrite <- app_assoc. apply Lf. cbn [path_load step_load]. rewrite F. exact Lx.
  - (* an arm *)
    intros st sn cases def l dv d u n w p Fd Hd Ch F _ IH c b P q locs ss A T W N B Q O Il L Lf. rewrite (el_union ds) in A. fold K in A.
    destruct (el_dt K st) as [cst|] eqn:A1; [|discriminate]. cbn [pbind] in A. destruct (el_arms ds cases) as [arms|] eqn:A2; [|discriminate]. cbn [pbind] in A.
    destruct (match def with Some d => do a <- el_arm K d ; Some (Some a) | None => Some None end) as [ed|] eqn:A3; [|discriminate]. injection A as <-.
    destruct (chosen_el _ _ _ _ _ _ Ch A2 A3) as (a & Ea & _ & Ia). destruct (el_dt_name _ _ _ _ eq_refl Ea) as (cu & C & ->). specialize (Ia _ eq_refl).
    inversion T as [| | | | | | | | | | | |sw' st' arms' def' l' Tf|]; subst. inversion W as [| | | | | | | | | | |sw' st' arms' def' Nd Dt Wf|]; subst.
    assert (Iu : In (cap n, cu) (union_fields (cap sn) cst arms ed)) by (right; exact Ia).
    destruct (has_fields_lookup E _ _ _ _ Tf Nd Iu) as (w' & F' & Tw). assert (w' = w) as -> by congruence.
    destruct (has_fields_lookup E _ _ (cap sn) cst Tf Nd (or_introl eq_refl)) as (dv' & Fd' & Td). assert (dv' = dv) as -> by congruence.
    rewrite gx_union in B. destruct (gx_dt st (fieldP P sn)) as [ss1|] eqn:B1; [|discriminate]. cbn [pbind] in B. destruct (gx_cases P cases) as [cls|] eqn:B2; [|discriminate]. cbn [pbind] in B.
    destruct (match def with Some d => do a <- gx_field d P ; Some [(None, a, false)] | None => Some [] end) as [cd|] eqn:B3; [|discriminate]. injection B as <-.
    cbn [nokx] in N. apply andb_true_iff in N. destruct N as (N & N4). apply andb_true_iff in N. destruct N as (N & N3). apply andb_true_iff in N. destruct N as (N1 & N2).
    unfold disc_ok in N1. rewrite A1 in N1. destruct (disc_kind E (S (List.length E)) cst) as [bk|] eqn:Dk; [|discriminate].
    pose proof (disc_kind_ty _ _ _ _ Dk Td) as Kd.
    assert (Nu : nokx_dt K E u = true).
    { clear - N3 N4 Ch. revert N3 Ch. induction cases as [|[ls dc] cases IHc]; cbn [chosen]; intros N3 Ch; [subst def; exact N4|]. apply andb_true_iff in N3. destruct N3 as (N3 & N5). cbn [snd] in N3.
      destruct (xlabels K ls) as [ks|]; [|discriminate]. destruct (existsb (Z.eqb d) ks); [injection Ch as ->; exact N3|auto]. }
    apply bad_r; [eapply gx_dt_em, B1|]. apply bad_one. intros m s s' fr' R H X. destruct m as [|m]; [discriminate H|]. cbn [exec] in H.
    assert (Ev : evv G m s (fr locs) (ESel (EParen P) (cap sn)) = GRet (GV dv)).
    { destruct (evv_inv _ _ _ _ _ _ (pth_at _ _ _ _ _ Q O Il _ L m s)) as (o & E1 & E2). unfold evv. cbn [ev]. rewrite E1. cbn [gbind]. rewrite E2. cbn [gbind sub rval load f_recv].
      rewrite path_load_app, L. cbn [step_load]. rewrite Fd. destruct dv; try reflexivity. destruct Kd. }
    rewrite Ev in H. cbn [gbind] in H. destruct (find_chosen bk dv d locs s Kd Hd O P cases def (declName u n) cls cd Ch B2 N1 B3) as (body & cs & Gb & Fl & Fc).
    cbn [gx_field] in Gb. assert (Bb : bad body locs).
    { eapply (IH cu b (fieldP P n) (q ++ [PField (cap n)])); [exact C|exact Tw|exact (Wf _ _ Iu)|exact Nu|exact Gb|apply pt_field, Q|exact O|exact Il| |].
      - rewrite path_load_app, L. exact F.
      - intros x Lx. rewrite <- app_assoc. apply Lf. cbn [path_load step_load]. rewrite F. exact Lx. }
    pose proof (gx_dt_em _ _ _ Gb) as Mb. destruct (Fc m) as [Fm|(Fm & Fdm)]; rewrite Fm in H; cbn [gbind] in H.
    + exact (run_bad m body cs locs s s' fr' Mb Fl Bb R H X).
    + rewrite Fdm in H. exact (run_bad m body cs locs s s' fr' Mb Fl Bb R H X).
  - (* here *)
    intros w c b P q locs ss A T W N B Q O Il L Lf. specialize (Lf w eq_refl). rewrite app_nil_r in Lf. exact (Lf P locs ss c A T W N B Q O Il).
  - intros t w p _ IH c b P q locs ss A T W N B Q O Il L Lf. exact (IH c b P q locs ss A T W N B Q O Il L Lf).
  - (* an optional *)
    intros t w p _ IH c b P q locs ss A T W N B Q O Il L Lf. change (pbind (el K t) (fun c => Some (CPtr c)) = Some c) in A. destruct (el K t) as [ct|] eqn:A1; [|discriminate]. injection A as <-.
    inversion T as [| | | | | | | | | |t' w' Tw| | |]; subst. inversion W as [| | | | | | | | |t' Wt _| | |]; subst.
    cbn [gx_dt] in B. destruct (gt t) as [g|]; [|discriminate]. cbn [pbind] in B. destruct (GoAst.gx t (derefP P)) as [body|] eqn:B1; [|discriminate]. injection B as <-.
    pose proof (gx_em _ _ _ B1) as Mb. intros m s s' fr' R H X. destruct m as [|m]; [discriminate H|].
    destruct (ptr_w G m P g body s (fr locs) s' fr' (fun k _ => em_neut k body Mb) R H) as (-> & S1 & Wp). specialize (Wp (proj2 S1 X)). clear H.
    unfold block, enc_opt in Wp. cbn [seq] in Wp. destruct m as [|m]; [discriminate Wp|].
    change (ex (S m) s (fr locs) (SDef "opted" (ENe (derefP P) (EVar "nil")))) with (let! g := evv G m s (fr locs) (ENe (derefP P) (EVar "nil")) in match g with GV x => GRet (s, fr (("opted", x) :: locs)) | _ => GStuck end) in Wp.
    assert (Qd : pth i b (derefP P) (q ++ [PDeref])) by (apply pt_deref, Q). assert (Ld : path_load v0 (q ++ [PDeref]) = Some w) by (rewrite path_load_app, L; reflexivity).
    assert (En : evv G m s (fr locs) (ENe (derefP P) (EVar "nil")) = GRet (GV (VBool true))).
    { unfold evv. change (ev G m s (fr locs) (ENe (derefP P) (EVar "nil"))) with (let! oa := ev G m s (fr locs) (derefP P) in let! ga := rval (fr locs) oa in
          let! ob := ev G m s (fr locs) (EVar "nil") in let! gb := rval (fr locs) ob in
          match ga, gb with GP p, GP None => GRet (OVal (GV (VBool (match p with Some _ => true | None => false end)))) | _, _ => GStuck end).
      destruct (evv_inv _ _ _ _ _ _ (pth_at _ _ _ _ _ Qd O Il _ Ld m s)) as (o & E1 & E2). rewrite E1. cbn [gbind]. rewrite E2. cbn [gbind].
      rewrite (NestB.ev_pre _ _ _ _ Hsup m s v0 locs "nil" (GP None) O) by (cbn; tauto). reflexivity. }
    rewrite En in Wp. cbn [gbind] in Wp. unfold xBool in Wp. rewrite ex_pkg1 in Wp.
    assert (Ec : evv G m s (fr (("opted", VBool true) :: locs)) (EConv (GPtr gBool) (EAddr (EVar "opted"))) = GRet (GP (Some (PLoc (List.length locs))))).
    { unfold evv. cbn [ev f_locs loc_find]. rewrite String.eqb_refl. reflexivity. }
    rewrite Ec in Wp. cbn [gbind] in Wp. rewrite through_local in Wp. destruct (lib_fun "XdrBool" s None (VBool true)) as [[s1 x1]| | |] eqn:U; try discriminate Wp. destruct (lib_w _ _ _ _ _ _ R U) as (-> & S2). cbn [gbind] in Wp.
    rewrite ex_if in Wp. assert (Eb : ev_bool G m s1 (fr (("opted", VBool true) :: locs)) (EVar "opted") = GRet true).
    { unfold ev_bool, evv. cbn [ev f_locs loc_find]. rewrite String.eqb_refl. cbn [gbind rval load f_locs]. rewrite loc_get_top. reflexivity. }
    rewrite Eb in Wp. cbn [gbind] in Wp. destruct (block (ex m) s1 (fr (("opted", VBool true) :: locs)) body) as [[s2 f2]| | |] eqn:Bk; try discriminate Wp. cbn [gbind] in Wp. injection Wp as <-.
    revert X. eapply bad_block; [|exact (eq_trans (proj1 S2) R)|exact Bk].
    eapply (IH ct b (derefP P) (q ++ [PDeref])); [reflexivity|exact Tw|exact Wt|exact N|exact B1|exact Qd|apply okloc_push; [exact O|cbn; tauto]|apply iloc_push; [discriminate|exact Il]|exact Ld|].
    intros x Lx. rewrite <- app_assoc. apply Lf. exact Lx.
Qed.
End Way.
End V.
End S.
