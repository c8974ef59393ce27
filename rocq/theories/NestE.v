(** An array inside an array: run on a writer, on a value whose lengths are all within their
    bounds, the emitted code either panics or returns without an error; it does neither get
    stuck nor run forever. *)
From Coq Require Import Lia.
From Verif Require Import GoLex XLex Gram GParse Emit Bytes XdrLib Types Interp Meta Spec GoAst GoSem GElab GSimA GSimB GSimC NestA NestB NestC.
Open Scope string_scope.
Open Scope Z_scope.
Open Scope list_scope.

(** ** Values whose lengths are within bounds, of height at most [n] *)
Fixpoint snug (n : nat) (E : env) (c : cty) (v : val) : Prop :=
  match n with
  | O => False
  | S n =>
      match c, v with
      | CU32, VInt _ | CS32, VInt _ | CU64, VInt _ | CS64, VInt _ | CBool, VBool _ | COpaque _, VArr _ => True
      | CVarOpaque m, VBytes o => within m (zlen (bytes_of o))
      | CString m, VStr bs => within m (zlen bs)
      | CVarArray m c, VSlice o => within m (zlen (elems o)) /\ forall e, In e (elems o) -> snug n E c e
      | CPtr _, VPtr None => True
      | CPtr c, VPtr (Some x) => snug n E c x
      | CStruct fs, VStruct l => forall f t, In (f, t) fs -> exists x, lookup f l = Some x /\ snug n E t x
      | CUnion sw st arms def, VStruct l => forall f t, In (f, t) (union_fields sw st arms def) -> exists x, lookup f l = Some x /\ snug n E t x
      | CIdent x, _ => exists t, lookup x E = Some t /\ snug n E t v
      | _, _ => False
      end
  end.

Lemma snug_S E n : forall c v, snug n E c v -> snug (S n) E c v.
Proof.
  induction n as [|n IH]; intros c v H; [destruct H|]. change (snug (S (S n)) E c v) with (match c, v with
      | CU32, VInt _ | CS32, VInt _ | CU64, VInt _ | CS64, VInt _ | CBool, VBool _ | COpaque _, VArr _ => True
      | CVarOpaque m, VBytes o => within m (zlen (bytes_of o))
      | CString m, VStr bs => within m (zlen bs)
      | CVarArray m c, VSlice o => within m (zlen (elems o)) /\ forall e, In e (elems o) -> snug (S n) E c e
      | CPtr _, VPtr None => True
      | CPtr c, VPtr (Some x) => snug (S n) E c x
      | CStruct fs, VStruct l => forall f t, In (f, t) fs -> exists x, lookup f l = Some x /\ snug (S n) E t x
      | CUnion sw st arms def, VStruct l => forall f t, In (f, t) (union_fields sw st arms def) -> exists x, lookup f l = Some x /\ snug (S n) E t x
      | CIdent x, _ => exists t, lookup x E = Some t /\ snug (S n) E t v
      | _, _ => False
      end).
  cbn [snug] in H. destruct c; destruct v as [| | | | | |[y0|]|]; try exact H; auto.
  - destruct H as (A & B). split; [exact A|]. auto.
  - intros f t I. destruct (H f t I) as (y & F & S). eauto.
  - intros f t I. destruct (H f t I) as (y & F & S). eauto.
  - destruct H as (t & F & S). eauto.
  - destruct H as (t & F & S). eauto.
  - destruct H as (t & F & S). eauto.
  - destruct H as (t & F & S). eauto.
  - destruct H as (t & F & S). eauto.
  - destruct H as (t & F & S). eauto.
  - destruct H as (t & F & S). eauto.
  - destruct H as (t & F & S). eauto.
  - destruct H as (t & F & S). eauto.
Qed.
Lemma snug_le E n m c v : (n <= m)%nat -> snug n E c v -> snug m E c v.
Proof. induction 1; auto using snug_S. Qed.

(** ** The library on a writer without error *)
Definition wok (s : xst) : Prop := x_reader s = false /\ x_err s = None.
Lemma wok_rw s v : wok s -> xdrRW s v = (set_buf s (x_buf s ++ v), v) /\ wok (set_buf s (x_buf s ++ v)).
Proof. intros (R & X). unfold xdrRW. rewrite X, R. split; [reflexivity|]. split; assumption. Qed.
Lemma wok_rw1 s v : wok s -> wok (fst (xdrRW s v)).
Proof. intros H. destruct (wok_rw s v H) as (-> & A). exact A. Qed.
Lemma wok_enc s : wok s -> Encoding s = true. Proof. intros (R & X). unfold Encoding. rewrite X, R. reflexivity. Qed.
Lemma wok_dec s : wok s -> Decoding s = false. Proof. intros (R & X). unfold Decoding. rewrite X, R. reflexivity. Qed.
Lemma prim_ok {A} (s : xst) (b : list byte) (f : list byte -> A) (v : A) : wok s ->
  exists s', (let '(s1, b1) := xdrRW s b in if Decoding s1 then (s1, f b1) else (s1, v)) = (s', v) /\ wok s'.
Proof. intros H. destruct (wok_rw s b H) as (-> & A1). rewrite (wok_dec _ A1). eauto. Qed.
Lemma u32_ok s z : wok s -> exists s', XdrU32 s z = (s', z) /\ wok s'.
Proof. intros H. unfold XdrU32. rewrite (proj2 H). apply (prim_ok s _ get_u32 z H). Qed.
Lemma s32_ok s z : wok s -> exists s', XdrS32 s z = (s', z) /\ wok s'.
Proof. intros H. unfold XdrS32. rewrite (proj2 H). apply (prim_ok s _ (fun b => to_s32 (get_u32 b)) z H). Qed.
Lemma u64_ok s z : wok s -> exists s', XdrU64 s z = (s', z) /\ wok s'.
Proof. intros H. unfold XdrU64. rewrite (proj2 H). apply (prim_ok s _ get_u64 z H). Qed.
Lemma s64_ok s z : wok s -> exists s', XdrS64 s z = (s', z) /\ wok s'.
Proof. intros H. unfold XdrS64. rewrite (proj2 H). apply (prim_ok s _ (fun b => to_s64 (get_u64 b)) z H). Qed.
Lemma bool_ok s b : wok s -> exists s', XdrBool s b = (s', b) /\ wok s'.
Proof. intros H. unfold XdrBool. rewrite (proj2 H). cbv zeta. apply (prim_ok s _ (fun b1 => if get_u32 b1 =? 0 then false else true) b H). Qed.
Lemma within_ok m n : within m n -> (n >? MaxUint32) || ((maxlen_of m >=? 0) && (n >? maxlen_of m)) = false.
Proof.
  intros (A & B). unfold MaxUint32. apply orb_false_iff. split; [lia|]. destruct m as [k|]; cbn [maxlen_of]; [|reflexivity]. destruct (k >=? 0); [cbn; lia|reflexivity].
Qed.
Lemma var_ok s m o : wok s -> within m (zlen (bytes_of o)) -> exists s', XdrVarArray s (maxlen_of m) o = (s', o) /\ wok s'.
Proof.
  intros H W. unfold XdrVarArray. rewrite (proj2 H), (wok_enc _ H), (within_ok _ _ W).
  assert (H2 : wok (fst (xdrRW (fst (xdrRW s (put_u32 (to_u32 (zlen (bytes_of o)))))) (bytes_of o)))) by (apply wok_rw1, wok_rw1, H).
  destruct (negb _); eexists; (split; [reflexivity|]); auto using wok_rw1.
Qed.
Lemma str_ok s m bs : wok s -> within m (zlen bs) -> exists s', XdrString s (maxlen_of m) bs = (s', bs) /\ wok s'.
Proof.
  intros H W. unfold XdrString. rewrite (proj2 H), (wok_enc _ H), (within_ok _ _ W). eexists. split; [reflexivity|]. apply wok_rw1, wok_rw1, wok_rw1, H.
Qed.
Lemma array_ok s bs : wok s -> exists s', XdrArray s bs = (s', bs) /\ wok s'.
Proof.
  intros H. unfold XdrArray. rewrite (proj2 H). destruct (wok_rw s bs H) as (-> & A). destruct (negb _); eexists; (split; [reflexivity|]); auto using wok_rw1.
Qed.

Section S.
Variable fl : flags.
Variable ds : list defn.
Variable E : env.
Variable G : gpkg.
Hypothesis Hsup : supportedx fl ds = Some (E, G).
Let K := xconsts ds.
Notation ex := (exec G).

Section V.
Variable v0 : val.
Notation fr locs := (mkFrame v0 locs).
(** Runs that panic or return with nothing changed but what is written. *)
Definition okr (locs : list (string * val)) (r : gor (xst * frame)) : Prop := r = GPanic \/ exists s', r = GRet (s', fr locs) /\ wok s'.
Definition safe (ss : list stmt) (locs : list (string * val)) : Prop :=
  exists m0, forall m s, (m0 <= m)%nat -> wok s -> okr locs (seq (ex m) s (fr locs) ss).
Lemma okr_bind locs locs' r f : okr locs r -> (forall s, wok s -> okr locs' (f (s, fr locs))) -> okr locs' (gbind r f).
Proof. intros [->|(s & -> & W)] F; [left; reflexivity|]. apply F, W. Qed.
Lemma okr_ret locs s : wok s -> okr locs (GRet (s, fr locs)). Proof. right. eauto. Qed.
Lemma okr_pan locs : okr locs GPanic. Proof. left. reflexivity. Qed.
Lemma okr_block locs m s ss : okr locs (seq (ex m) s (fr locs) ss) -> okr locs (block (ex m) s (fr locs) ss).
Proof. intros [H|(s' & H & W)]; unfold block; rewrite H; [left; reflexivity|]. cbn [gbind]. rewrite pop_here. apply okr_ret, W. Qed.
Lemma safe_nil locs : safe [] locs. Proof. exists 0%nat. intros m s _ W. apply okr_ret, W. Qed.
Lemma safe_app a b locs : safe a locs -> safe b locs -> safe (a ++ b) locs.
Proof.
  intros (m1 & A) (m2 & B). exists (Nat.max m1 m2). intros m s L W. rewrite seq_app'. eapply okr_bind; [apply A; [lia|exact W]|]. intros s1 W1. apply B; [lia|exact W1].
Qed.
Lemma safe_one a locs : (exists m0, forall m s, (m0 <= m)%nat -> wok s -> okr locs (ex (S m) s (fr locs) a)) -> safe [a] locs.
Proof. intros (m0 & A). exists (S m0). intros m s L W. rewrite seq_one'. destruct m as [|m]; [lia|]. apply A; [lia|exact W]. Qed.

(** ** Pointers that are there, and pointers every use of which panics *)
Definition dead (i : nat) (b : bool) (P : expr) : Prop :=
  forall locs, okloc locs -> iloc b locs i -> (forall m s, ev G m s (fr locs) P = GPanic) \/ (forall m s, evv G m s (fr locs) P = GRet (GP None)).
Definition PQ (b : bool) (P : expr) (c : cty) (n : nat) : Prop :=
  forall i, (exists q w, pth i b P q /\ path_load v0 q = Some w /\ snug n E c w) \/ dead i b P.
Lemma dead_evv i b P locs : dead i b P -> okloc locs -> iloc b locs i -> (forall m s, evv G m s (fr locs) P = GPanic) \/ (forall m s, evv G m s (fr locs) P = GRet (GP None)).
Proof. intros D O I. destruct (D locs O I) as [H|H]; [left|right; exact H]. intros m s. unfold evv. rewrite H. reflexivity. Qed.
(** What dereferences it panics. *)
Lemma dead_bind {B} i b P locs (k : gval -> gor B) m s : dead i b P -> okloc locs -> iloc b locs i -> k (GP None) = GPanic ->
  gbind (ev G m s (fr locs) P) (fun o => gbind (rval (fr locs) o) k) = GPanic.
Proof.
  intros D O I N. destruct (D locs O I) as [H|H]; [rewrite H; reflexivity|]. destruct (evv_inv _ _ _ _ _ _ (H m s)) as (o & -> & R). cbn [gbind]. rewrite R. exact N.
Qed.
Lemma dead_deref i b P locs m s : dead i b P -> okloc locs -> iloc b locs i -> ev G m s (fr locs) (EDeref P) = GPanic.
Proof.
  intros D O I. cbn [ev]. apply (dead_bind i b P locs (fun g => match g with GP (Some p) => GRet (OPl p) | GP None => GPanic | _ => GStuck end)); auto.
Qed.
Lemma dead_sel i b P locs m s f : dead i b P -> okloc locs -> iloc b locs i -> ev G m s (fr locs) (ESel (EParen P) f) = GPanic.
Proof.
  intros D O I. cbn [ev]. destruct (D locs O I) as [H|H]; [rewrite H; reflexivity|]. destruct (evv_inv _ _ _ _ _ _ (H m s)) as (o & -> & R). cbn [gbind]. rewrite R. reflexivity.
Qed.
Lemma dead_conv i b P locs m s t : dead i b P -> okloc locs -> iloc b locs i ->
  evv G m s (fr locs) (EConv (GPtr t) P) = GPanic \/ evv G m s (fr locs) (EConv (GPtr t) P) = GRet (GP None).
Proof.
  intros D O I. destruct (D locs O I) as [H|H]; [left; unfold evv; cbn [ev]; rewrite H; reflexivity|right]. destruct (evv_inv _ _ _ _ _ _ (H m s)) as (o & A & R). unfold evv. cbn [ev]. rewrite A. cbn [gbind]. rewrite R. reflexivity.
Qed.
Lemma dead_field i b P n : dead i b P -> dead i b (fieldP P n).
Proof. intros D locs O I. left. intros m s. unfold fieldP. cbn [ev]. pose proof (dead_sel i b P locs m s (cap n) D O I) as H. cbn [ev] in H. rewrite H. reflexivity. Qed.
Lemma dead_elem i b P : dead i b P -> dead i true (elemP P).
Proof. intros D locs O I. left. intros m s. unfold elemP. cbn [ev]. pose proof (dead_deref i b P locs m s D O (fun _ => I eq_refl)) as H. cbn [ev] in H. rewrite H. reflexivity. Qed.
Lemma dead_derefP i b P : dead i b P -> dead i b (derefP P).
Proof. intros D locs O I. left. intros m s. unfold derefP. pose proof (dead_deref i b P locs m s D O I) as H. cbn [ev] in *. exact H. Qed.

Lemma PQ_struct b P fs n f t : PQ b P (CStruct fs) (S n) -> In (cap f, t) fs -> PQ b (fieldP P f) t n.
Proof.
  intros H I i. destruct (H i) as [(q & w & Q & L & S)|D]; [left|right; apply dead_field, D]. cbn [snug] in S. destruct w as [| | | | | | |l]; try destruct S. destruct (S _ _ I) as (x & F & Sx).
  exists (q ++ [PField (cap f)]), x. split; [apply pt_field, Q|]. split; [rewrite path_load_app, L; exact F|exact Sx].
Qed.
Lemma PQ_union b P sw st arms def n f t : PQ b P (CUnion sw st arms def) (S n) -> In (cap f, t) (union_fields sw st arms def) -> PQ b (fieldP P f) t n.
Proof.
  intros H I i. destruct (H i) as [(q & w & Q & L & S)|D]; [left|right; apply dead_field, D]. cbn [snug] in S. destruct w as [| | | | | | |l]; try destruct S. destruct (S _ _ I) as (x & F & Sx).
  exists (q ++ [PField (cap f)]), x. split; [apply pt_field, Q|]. split; [rewrite path_load_app, L; exact F|exact Sx].
Qed.
Lemma PQ_elem b P m c n : PQ b P (CVarArray m c) (S n) -> PQ true (elemP P) c n.
Proof.
  intros H i. destruct (H i) as [(q & w & Q & L & S)|D]; [|right; eapply dead_elem, D]. cbn [snug] in S. destruct w as [| | | | |o| |]; try (exfalso; exact S).
  destruct S as (Wn & Se). destruct (nth_error (elems o) i) as [e|] eqn:Ne.
  - left. exists (q ++ [PIdx i]), e. split; [eapply pt_elem, Q|]. split; [|apply Se; eapply nth_error_In, Ne]. rewrite path_load_app, L. destruct o as [l|]; [exact Ne|destruct i; discriminate Ne].
  - right. intros locs O I. left. intros m' s. eapply (miss_pan G v0 i (elemP P)); [eapply ms_idx; eassumption|exact O|exact I].
Qed.
Lemma PQ_deref b P c n : PQ b P (CPtr c) (S n) -> PQ b (derefP P) c n.
Proof.
  intros H i. destruct (H i) as [(q & w & Q & L & S)|D]; [|right; apply dead_derefP, D]. cbn [snug] in S. destruct w as [| | | | | |[x|]|]; try destruct S.
  - left. exists (q ++ [PDeref]), x. split; [apply pt_deref, Q|]. split; [rewrite path_load_app, L; reflexivity|exact S].
  - right. intros locs O I. right. intros m s. destruct (evv_inv _ _ _ _ _ _ (pth_at G v0 _ _ _ _ _ Q O I _ L m s)) as (o & E1 & E2). unfold derefP, evv. cbn [ev]. rewrite E1. cbn [gbind]. rewrite E2. cbn [gbind rval load f_recv]. rewrite L. reflexivity.
Qed.

(** ** Code whose pointer is dead *)
Lemma ex_meth n s f x e : ex (S n) s f (SMeth (EConv (GPtr (GNamed x)) e) "Xdr" [EVar "xs"]) =
  match lookup x (g_meths G) with
  | None => GStuck
  | Some body => let! g := evv G n s f e in through f g (fun x => let! (s, f1) := block (ex n) s (frame0 x) body in GRet (s, f_recv f1))
  end.
Proof. reflexivity. Qed.
Lemma ex_pkg2 n s f fn b e : ex (S n) s f (SPkg fn [EVar "xs"; b; e]) = let! m := evv G n s f b in let! g := evv G n s f e in
  match m with GV (VInt m) => through f g (lib_fun fn s (Some m)) | _ => GStuck end.
Proof. reflexivity. Qed.
Lemma ev_bound m s locs sz b : okloc locs -> bound_ok K sz = true -> xbound K sz = Some b ->
  evv G m s (fr locs) (EConv gInt (size_expr sz)) = GRet (GV (VInt (maxlen_of b))).
Proof.
  intros O B H. unfold bound_ok in B. unfold xbound in H. unfold evv, size_expr. destruct (String.eqb sz ""); cbn [orb] in B.
  - injection H as <-. reflexivity.
  - destruct (xval K sz) as [k|] eqn:X; [|discriminate]. destruct ((0 <=? k) && (k <=? MaxUint32)) eqn:R; [|discriminate]. injection H as <-.
    cbn [ev]. rewrite (NestB.ev_use _ _ _ _ Hsup m s v0 locs sz k O B X). cbn. rewrite to_s64_id; [reflexivity|]. apply andb_true_iff in R. rewrite !Z.leb_le in R. lia.
Qed.
Lemma dead_pkg1 i b P locs fn t : dead i b P -> okloc locs -> iloc b locs i -> safe [SPkg fn [EVar "xs"; EConv (GPtr t) P]] locs.
Proof.
  intros D O I. apply safe_one. exists 0%nat. intros m s _ W. rewrite ex_pkg1. destruct (dead_conv i b P locs m s t D O I) as [H|H]; rewrite H; apply okr_pan.
Qed.
Lemma dead_pkg2 i b P locs fn t sz bd : bound_ok K sz = true -> xbound K sz = Some bd -> dead i b P -> okloc locs -> iloc b locs i -> safe [SPkg fn [EVar "xs"; EConv gInt (size_expr sz); EConv (GPtr t) P]] locs.
Proof.
  intros B X D O I. apply safe_one. exists 0%nat. intros m s _ W. rewrite ex_pkg2, (ev_bound m s locs sz bd O B X). cbn [gbind]. destruct (dead_conv i b P locs m s t D O I) as [H|H]; rewrite H; apply okr_pan.
Qed.
Lemma arr_start n s locs P sz g body : (2 <= n)%nat -> okloc locs ->
  seq (ex n) s (fr locs) (arr_body P sz g body) =
  (let! gl := evv G (pred n) s (fr (("__arraysz", VInt 0) :: locs)) (ELen (EDeref P)) in
   match gl with
   | GV (VInt len) =>
       let '(s1, z) := EncodingSetSize s 0 len in
       let! (s2, x) := lib_fun "XdrU32" s1 None (VInt z) in
       seq (ex n) s2 (fr (("__arraysz", x) :: locs))
         (let rest := [SIf (EQuery "xs" "Decoding") [SAssign (EDeref P) (EMake (GSlice g) (EVar "__arraysz"))] None;
                       SFor "i" (EConv gU64 (ENum "0")) (ELt (EVar "i") (EConv gU64 (EVar "__arraysz"))) body] in
          if String.eqb sz "" then rest
          else [SIf (EGt (EVar "__arraysz") (val_expr sz)) [SMeth (EVar "xs") "SetError" [EStr "array too large"]] (Some rest)])
   | _ => GStuck
   end).
Proof.
  intros L O. unfold arr_body. rewrite seq_app'. destruct n as [|n]; [lia|]. cbn [seq pred]. rewrite ex_var. destruct n as [|n]; [lia|]. change (gzero G (S n) gU32) with (Some (VInt 0)). cbn [some_or gbind]. unfold push. cbn [f_recv f_locs].
  rewrite ex_size, evv_addr. cbn [gbind]. destruct (evv G (S n) s (fr (("__arraysz", VInt 0) :: locs)) (ELen (EDeref P))) as [gl| | |]; try reflexivity. cbn [gbind]. destruct gl as [[len| | | | | | |]| | |]; try reflexivity.
  rewrite through_local. destruct (EncodingSetSize s 0 len) as [s1 z]. cbn [gbind]. unfold xU32. rewrite ex_pkg1.
  assert (Ec : evv G (S n) s1 (fr (("__arraysz", VInt z) :: locs)) (EConv (GPtr gU32) (EAddr (EVar "__arraysz"))) = GRet (GP (Some (PLoc (List.length locs))))).
  { unfold evv. cbn [ev f_locs loc_find]. rewrite String.eqb_refl. reflexivity. }
  rewrite Ec. cbn [gbind]. rewrite through_local. destruct (lib_fun "XdrU32" s1 None (VInt z)) as [[s2 x]| | |]; reflexivity.
Qed.
Lemma okz locs z : okloc locs -> okloc (("__arraysz", VInt z) :: locs). Proof. intros O. apply okloc_push; [exact O|cbn; tauto]. Qed.
Lemma ilz i b locs z : iloc b locs i -> iloc b (("__arraysz", VInt z) :: locs) i. Proof. apply iloc_push. discriminate. Qed.
Lemma dead_arr i b P locs sz g body : dead i b P -> okloc locs -> iloc b locs i -> safe [SBlock (arr_body P sz g body)] locs.
Proof.
  intros D O I. apply safe_one. exists 2%nat. intros m s L W. cbn [exec]. unfold block. rewrite arr_start by assumption.
  assert (H : evv G (pred m) s (fr (("__arraysz", VInt 0) :: locs)) (ELen (EDeref P)) = GPanic).
  { unfold evv. pose proof (dead_deref i b P _ (pred m) s D (okz _ 0 O) (ilz _ _ _ 0 I)) as H. cbn [ev] in *. rewrite H. reflexivity. }
  rewrite H. apply okr_pan.
Qed.
Lemma query_xs locs m s : okloc locs -> wok s -> ev_bool G m s (fr locs) (EQuery "xs" "Encoding") = GRet true /\ ev_bool G m s (fr locs) (EQuery "xs" "Decoding") = GRet false.
Proof.
  intros O W. unfold ev_bool, evv. cbn [ev f_locs]. rewrite (okloc_find _ "xs" O) by (cbn; intuition discriminate). cbn. rewrite (wok_enc _ W), (wok_dec _ W). auto.
Qed.
Lemma ptr_start m s locs P e body : okloc locs -> wok s ->
  okr locs (block (ex m) s (fr locs) (enc_opt P body)) -> okr locs (seq (ex (S m)) s (fr locs) (ptr_body P e body)).
Proof.
  intros O W H. unfold ptr_body. cbn [seq]. rewrite ex_if, (proj1 (query_xs locs m s O W)). cbn [gbind]. fold (enc_opt P body). eapply okr_bind; [exact H|]. intros s1 W1. cbv iota beta. rewrite ex_if, (proj2 (query_xs locs m s1 O W1)). cbn [gbind]. apply okr_ret, W1.
Qed.
Lemma ex_def n s locs x e : ex (S n) s (fr locs) (SDef x e) = let! g := evv G n s (fr locs) e in match g with GV w => GRet (s, fr ((x, w) :: locs)) | _ => GStuck end.
Proof. reflexivity. Qed.
Lemma ev_ne m s locs P : ev G m s (fr locs) (ENe (derefP P) (EVar "nil")) = (let! oa := ev G m s (fr locs) (derefP P) in let! ga := rval (fr locs) oa in
          let! ob := ev G m s (fr locs) (EVar "nil") in let! gb := rval (fr locs) ob in
          match ga, gb with GP p, GP None => GRet (OVal (GV (VBool (match p with Some _ => true | None => false end)))) | _, _ => GStuck end).
Proof. reflexivity. Qed.
Lemma dead_ptr i b P locs e body : dead i b P -> okloc locs -> iloc b locs i -> safe (ptr_body P e body) locs.
Proof.
  intros D O I. exists 3%nat. intros m s L W. destruct m as [|m]; [lia|]. apply ptr_start; [exact O|exact W|]. apply okr_block. unfold enc_opt. cbn [seq]. destruct m as [|m]; [lia|]. rewrite ex_def.
  assert (H : evv G m s (fr locs) (ENe (derefP P) (EVar "nil")) = GPanic).
  { unfold evv. rewrite ev_ne. pose proof (dead_deref i b P locs m s D O I) as H. unfold derefP. cbn [ev] in H. cbn [ev]. rewrite H. reflexivity. }
  rewrite H. apply okr_pan.
Qed.
Variable D0 : nat.
Fixpoint dead_safe (t : typespec) {struct t} : forall i b P ss c locs, el K t = Some c -> wf_ty D0 E c -> nokx K E t = true -> GoAst.gx t P = Some ss -> dead i b P -> okloc locs -> iloc b locs i -> safe ss locs
with dead_safe_dt (t : declType) {struct t} : forall i b P ss c locs, el_dt K t = Some c -> wf_ty D0 E c -> nokx_dt K E t = true -> gx_dt t P = Some ss -> dead i b P -> okloc locs -> iloc b locs i -> safe ss locs
with dead_safe_d (d : decl) {struct d} : forall i b P ss c locs, el_arm K d = Some c -> (forall f u, In (f, u) (opt_list c) -> wf_ty D0 E u) -> nokx_d K E d = true -> gx_field d P = Some ss -> dead i b P -> okloc locs -> iloc b locs i -> safe ss locs.
Proof.
  - destruct t as [u|u| | | | |its|items|sw cases def|x]; intros i b P ss c locs A Wf N H D O I; cbn [GoAst.gx] in H; try discriminate H.
    + injection H as <-. destruct u; eapply dead_pkg1; eassumption.
    + injection H as <-. destruct u; eapply dead_pkg1; eassumption.
    + injection H as <-. eapply dead_pkg1; eassumption.
    + rewrite (el_struct ds) in A. destruct (el_items ds items) as [fs|] eqn:A1; [|discriminate]. injection A as <-. inversion Wf as [| | | | | | | | | |fs' _ W1| |]; subst. clear Wf. cbn [nokx] in N. revert ss fs H A1 N W1.
      induction items as [|d items IH]; intros ss fs H A1 N W1; [injection H as <-; apply safe_nil|].
      destruct (gx_field d P) as [a|] eqn:Ga; [|discriminate]. cbn [pbind] in H.
      match type of H with pbind ?o _ = _ => destruct o as [b'|] eqn:B; [|discriminate] end. injection H as <-.
      apply andb_true_iff in N. destruct N as (N1 & N2). cbn [el_items] in A1. fold K in A1. destruct (el_arm K d) as [ca|] eqn:Ea; [|discriminate]. cbn [pbind] in A1. destruct (el_items ds items) as [fs'|]; [|discriminate]. injection A1 as <-.
      apply safe_app; [eapply (dead_safe_d d i b P a ca locs Ea); [|exact N1|exact Ga|exact D|exact O|exact I]|].
      * intros f u Iu. apply (W1 f). apply in_or_app. left. exact Iu.
      * apply (IH b' fs' eq_refl eq_refl N2). intros f u Iu. apply (W1 f). apply in_or_app. right. exact Iu.
    + destruct sw as [|st sn]; [discriminate|]. rewrite (el_union ds) in A. fold K in A. destruct (el_dt K st) as [cst|] eqn:A1; [|discriminate]. cbn [pbind] in A.
      destruct (el_arms ds cases) as [arms|]; [|discriminate]. cbn [pbind] in A. match type of A with pbind ?o _ = _ => destruct o as [ed|]; [|discriminate] end. injection A as <-. inversion Wf as [| | | | | | | | | | |sw' st' arms' def' _ _ W1|]; subst. specialize (W1 (cap sn) cst (or_introl eq_refl)).
      destruct (gx_dt st (fieldP P sn)) as [a|] eqn:Ga; [|discriminate]. cbn [pbind] in H.
      match type of H with pbind ?o _ = _ => destruct o as [b1|]; [|discriminate] end. cbn [pbind] in H.
      match type of H with pbind ?o _ = _ => destruct o as [c1|]; [|discriminate] end. injection H as <-.
      cbn [nokx] in N. apply andb_true_iff in N. destruct N as (N & _). apply andb_true_iff in N. destruct N as (N & _). apply andb_true_iff in N. destruct N as (N1 & N2).
      apply safe_app; [exact (dead_safe_dt st i b (fieldP P sn) a cst locs A1 W1 N2 Ga (dead_field _ _ _ _ D) O I)|].
      apply safe_one. exists 0%nat. intros m s _ W. cbn [exec]. unfold evv. pose proof (dead_sel i b P locs m s (cap sn) D O I) as X. cbn [ev] in *. rewrite X. apply okr_pan.
    + injection H as <-. injection A as <-. inversion Wf as [| | | | | | | | | | | |x' t' F]; subst. pose proof (NestB.type_rel _ _ _ _ Hsup (cap x)) as R. rewrite F in R. destruct R as (g & body & _ & Lb & _).
      apply safe_one. exists 0%nat. intros m s _ W. rewrite ex_meth, Lb. destruct (dead_evv i b P locs D O I) as [X|X]; rewrite X; apply okr_pan.
  - destruct t as [u|u sz|u sz|sz|sz|sz|u]; intros i b P ss c locs A Wf N H D O I; [exact (dead_safe u i b P ss c locs A Wf N H D O I)|discriminate N|..]; cbn [gx_dt] in H.
    + destruct (gt u) as [g|]; [|discriminate]. cbn [pbind] in H. destruct (GoAst.gx u (elemP P)) as [bd|]; [|discriminate]. injection H as <-. eapply dead_arr; eassumption.
    + injection H as <-. apply safe_one. exists 0%nat. intros m s _ W. rewrite ex_pkg1. unfold evv. pose proof (dead_deref i b P locs m s D O I) as X. cbn [ev] in *. rewrite X. apply okr_pan.
    + injection H as <-. cbn [el_dt] in A. destruct (xbound K sz) as [bd|] eqn:X; [|discriminate]. eapply dead_pkg2; eassumption.
    + injection H as <-. cbn [el_dt] in A. destruct (xbound K sz) as [bd|] eqn:X; [|discriminate]. eapply dead_pkg2; eassumption.
    + destruct (gt u) as [g|]; [|discriminate]. cbn [pbind] in H. destruct (GoAst.gx u (derefP P)) as [bd|]; [|discriminate]. injection H as <-. eapply dead_ptr; eassumption.
  - destruct d as [|t n]; intros i b P ss c locs A Wf N H D O I; [injection H as <-; apply safe_nil|]. cbn [gx_field] in H. change (pbind (el_dt K t) (fun c => Some (Some (cap n, c))) = Some c) in A. destruct (el_dt K t) as [ct|] eqn:At; [|discriminate]. injection A as <-.
    eapply (dead_safe_dt t i b (fieldP P n) ss ct locs At); [apply (Wf (cap n)); left; reflexivity|exact N|exact H|apply dead_field, D|exact O|exact I].
Qed.

(** ** Code whose pointer is there *)
Lemma live_evv i b P q w locs : pth i b P q -> path_load v0 q = Some w -> okloc locs -> iloc b locs i -> forall m s, evv G m s (fr locs) P = GRet (GP (Some (PRecv q))).
Proof. intros Q L O I m s. exact (pth_at G v0 i b P q locs Q O I w L m s). Qed.
Lemma live_conv i b P q w locs t : pth i b P q -> path_load v0 q = Some w -> okloc locs -> iloc b locs i -> forall m s, evv G m s (fr locs) (EConv (GPtr t) P) = GRet (GP (Some (PRecv q))).
Proof.
  intros Q L O I m s. destruct (evv_inv _ _ _ _ _ _ (live_evv i b P q w locs Q L O I m s)) as (o & A & B). unfold evv. cbn [ev]. rewrite A. cbn [gbind]. rewrite B. reflexivity.
Qed.
Lemma through_ok locs q w f : path_load v0 q = Some w -> (exists s', f w = GRet (s', w) /\ wok s') -> okr locs (through (fr locs) (GP (Some (PRecv q))) f).
Proof.
  intros L (s' & F & W). unfold through. change (load (fr locs) (PRecv q)) with (path_load v0 q). rewrite L. cbn [some_or gbind]. rewrite F. cbn [gbind].
  rewrite (store_same (fr locs) (PRecv q) w L). cbn. apply okr_ret, W.
Qed.
Lemma live_pkg1 i b P q w locs fn t : pth i b P q -> path_load v0 q = Some w -> okloc locs -> iloc b locs i -> (forall s, wok s -> exists s', lib_fun fn s None w = GRet (s', w) /\ wok s') ->
  safe [SPkg fn [EVar "xs"; EConv (GPtr t) P]] locs.
Proof.
  intros Q L O I F. apply safe_one. exists 0%nat. intros m s _ W. rewrite ex_pkg1, (live_conv i b P q w locs t Q L O I). cbn [gbind]. apply (through_ok locs q w _ L), F, W.
Qed.
Lemma live_pkg2 i b P q w locs fn t sz bd : bound_ok K sz = true -> xbound K sz = Some bd -> pth i b P q -> path_load v0 q = Some w -> okloc locs -> iloc b locs i ->
  (forall s, wok s -> exists s', lib_fun fn s (Some (maxlen_of bd)) w = GRet (s', w) /\ wok s') ->
  safe [SPkg fn [EVar "xs"; EConv gInt (size_expr sz); EConv (GPtr t) P]] locs.
Proof.
  intros B X Q L O I F. apply safe_one. exists 0%nat. intros m s _ W. rewrite ex_pkg2, (ev_bound m s locs sz bd O B X), (live_conv i b P q w locs t Q L O I). cbn [gbind]. apply (through_ok locs q w _ L), F, W.
Qed.
(** A loop whose body is safe for every value of the variable. *)
Lemma all_fuel (R : nat -> nat -> Prop) n : (forall i, (i < n)%nat -> exists m0, forall m, (m0 <= m)%nat -> R i m) -> exists m0, forall i m, (i < n)%nat -> (m0 <= m)%nat -> R i m.
Proof.
  induction n as [|n IH]; intros H; [exists 0%nat; intros i m L; lia|]. destruct IH as (m1 & H1); [intros i L; apply H; lia|]. destruct (H n ltac:(lia)) as (m2 & H2). exists (Nat.max m1 m2). intros i m Li Lm.
  destruct (Nat.eq_dec i n) as [->|Ne]; [apply H2; lia|apply H1; lia].
Qed.
Lemma loop_ok m body locs len : 0 <= len < 2 ^ 32 -> (forall i s, Z.of_nat i < len -> wok s -> okr (("i", VInt (Z.of_nat i)) :: ("__arraysz", VInt len) :: locs) (seq (ex m) s (fr (("i", VInt (Z.of_nat i)) :: ("__arraysz", VInt len) :: locs)) body)) ->
  forall k i s, wok s -> (Z.of_nat i <= len) -> len - Z.of_nat i < Z.of_nat k ->
  okr (("i", VInt len) :: ("__arraysz", VInt len) :: locs) (loop G (ex m) m k "i" (ELt (EVar "i") (EConv gU64 (EVar "__arraysz"))) body s (fr (("i", VInt (Z.of_nat i)) :: ("__arraysz", VInt len) :: locs))).
Proof.
  intros B Hb. induction k as [|k IH]; intros i s W L1 L2; [lia|]. cbn [loop]. rewrite (cond_ev G v0) by exact B. cbn [gbind]. destruct (Z.of_nat i <? len) eqn:C.
  - apply Z.ltb_lt in C. eapply okr_bind; [apply okr_block, Hb; [exact C|exact W]|]. intros s1 W1. cbv iota beta.
    assert (incr "i" (fr (("i", VInt (Z.of_nat i)) :: ("__arraysz", VInt len) :: locs)) = GRet (fr (("i", VInt (Z.of_nat (S i))) :: ("__arraysz", VInt len) :: locs))) as E1.
    { unfold incr. cbn [f_locs loc_find]. change (String.eqb "i" "i") with true. cbv iota. rewrite loc_get_top. cbn [store f_locs]. rewrite loc_set_top. cbn [option_map some_or f_recv]. rewrite Nat2Z.inj_succ. reflexivity. }
    rewrite E1. cbn [gbind]. apply IH; [exact W1|lia|lia].
  - apply Z.ltb_ge in C. assert (len = Z.of_nat i) as -> by lia. apply okr_ret, W.
Qed.
Lemma for_ok m body locs len : 0 <= len < 2 ^ 32 -> len < Z.of_nat m -> (forall i s, Z.of_nat i < len -> wok s -> okr (("i", VInt (Z.of_nat i)) :: ("__arraysz", VInt len) :: locs) (seq (ex m) s (fr (("i", VInt (Z.of_nat i)) :: ("__arraysz", VInt len) :: locs)) body)) ->
  forall s, wok s -> okr (("__arraysz", VInt len) :: locs) (ex (S m) s (fr (("__arraysz", VInt len) :: locs)) (SFor "i" (EConv gU64 (ENum "0")) (ELt (EVar "i") (EConv gU64 (EVar "__arraysz"))) body)).
Proof.
  intros B Lm Hb s W. cbn [exec]. change (evv G m s (fr (("__arraysz", VInt len) :: locs)) (EConv gU64 (ENum "0"))) with (GRet (GV (VInt 0)) : gor gval). cbn [gbind]. unfold push. cbn [f_recv f_locs].
  eapply okr_bind; [apply (loop_ok m body locs len B Hb m 0%nat s W); cbn; lia|]. intros s1 W1. cbv iota beta. unfold depth. cbn [f_locs]. rewrite pop_push. apply okr_ret, W1.
Qed.
Lemma live_arr i b P q o locs sz bd g body : bound_ok K sz = true -> xbound K sz = Some bd -> pth i b P q -> path_load v0 q = Some (VSlice o) -> within bd (zlen (elems o)) -> okloc locs -> iloc b locs i ->
  (forall j, Z.of_nat j < zlen (elems o) -> safe body (("i", VInt (Z.of_nat j)) :: ("__arraysz", VInt (zlen (elems o))) :: locs)) -> safe [SBlock (arr_body P sz g body)] locs.
Proof.
  intros Bo Xb Q L Wn O I Sb. set (len := zlen (elems o)) in *. assert (Bl : 0 <= len < 2 ^ 32) by (split; [unfold len, zlen; lia|exact (proj1 Wn)]).
  destruct (all_fuel (fun j m => forall s, wok s -> okr (("i", VInt (Z.of_nat j)) :: ("__arraysz", VInt len) :: locs) (seq (ex m) s (fr (("i", VInt (Z.of_nat j)) :: ("__arraysz", VInt len) :: locs)) body)) (Z.to_nat len)) as (m1 & Hm).
  { intros j Lj. destruct (Sb j ltac:(lia)) as (m0 & H). exists m0. intros m Lm s W. apply H; assumption. }
  apply safe_one. exists (S (S (S (Nat.max m1 (S (Z.to_nat len)))))). intros m s Lm W. cbn [exec]. unfold block. rewrite arr_start by (try assumption; lia).
  assert (H : evv G (pred m) s (fr (("__arraysz", VInt 0) :: locs)) (ELen (EDeref P)) = GRet (GV (VInt len))).
  { destruct (evv_inv _ _ _ _ _ _ (live_evv i b P q _ _ Q L (okz _ 0 O) (ilz _ _ _ 0 I) (pred m) s)) as (o' & A & B). unfold evv. cbn [ev]. rewrite A. cbn [gbind]. rewrite B. cbn [gbind rval load f_recv]. rewrite L. reflexivity. }
  rewrite H. cbn [gbind]. unfold EncodingSetSize. rewrite (proj2 W), (proj1 W). assert (len >? MaxUint32 = false) as -> by (unfold MaxUint32; lia). rewrite Z.mod_small by exact Bl.
  unfold lib_fun. change (String.eqb "XdrU32" "XdrU32") with true. cbv iota. destruct (u32_ok s len W) as (s1 & -> & W1). cbn [gbind].
  assert (Rest : forall k s, (S (S (Nat.max m1 (S (Z.to_nat len)))) <= k)%nat -> wok s -> okr (("__arraysz", VInt len) :: locs) (seq (ex k) s (fr (("__arraysz", VInt len) :: locs))
     [SIf (EQuery "xs" "Decoding") [SAssign (EDeref P) (EMake (GSlice g) (EVar "__arraysz"))] None; SFor "i" (EConv gU64 (ENum "0")) (ELt (EVar "i") (EConv gU64 (EVar "__arraysz"))) body])).
  { intros k s2 Lk W2. destruct k as [|k]; [lia|]. rewrite <- (app_nil_l [SIf _ _ _; _]). cbn [app]. cbn [seq]. rewrite ex_if, (proj2 (query_xs _ k s2 (okz locs len O) W2)). cbn [gbind].
    eapply okr_bind; [apply (for_ok k body locs len Bl); [lia| |exact W2]; intros j s3 Lj W3; apply Hm; [lia|lia|exact W3]|]. intros s3 W3. apply okr_ret, W3. }
  assert (Out : forall r, okr (("__arraysz", VInt len) :: locs) r -> okr locs (let! (s, fr') := r in GRet (s, pop (depth (fr locs)) fr'))).
  { intros r [->|(s2 & -> & W2)]; [apply okr_pan|]. cbn [gbind]. unfold depth. cbn [f_locs]. rewrite pop_push. apply okr_ret, W2. }
  apply Out. cbv zeta. unfold bound_ok in Bo. unfold xbound in Xb. destruct (String.eqb sz ""); cbn [orb] in Bo.
  - apply Rest; [lia|exact W1].
  - destruct (xval K sz) as [k|] eqn:X; [|discriminate]. destruct ((0 <=? k) && (k <=? MaxUint32)) eqn:R; [|discriminate]. injection Xb as <-. destruct Wn as (_ & Wn). cbn in Wn.
    rewrite seq_one'. destruct m as [|m]; [lia|]. rewrite ex_if.
    assert (Eg : ev_bool G m s1 (fr (("__arraysz", VInt len) :: locs)) (EGt (EVar "__arraysz") (val_expr sz)) = GRet false).
    { unfold ev_bool, evv. change (ev G m s1 (fr (("__arraysz", VInt len) :: locs)) (EGt (EVar "__arraysz") (val_expr sz))) with
        (let! oa := ev G m s1 (fr (("__arraysz", VInt len) :: locs)) (EVar "__arraysz") in let! ga := rval (fr (("__arraysz", VInt len) :: locs)) oa in
         let! ob := ev G m s1 (fr (("__arraysz", VInt len) :: locs)) (val_expr sz) in let! gb := rval (fr (("__arraysz", VInt len) :: locs)) ob in compare Z.gtb ga gb).
      rewrite ev_local. cbn [gbind rval load f_locs]. rewrite loc_get_top. cbn [gbind]. rewrite (NestB.ev_use _ _ _ _ Hsup m s1 v0 _ sz k (okz _ len O) Bo X). cbn. assert (len >? k = false) as -> by lia. reflexivity. }
    rewrite Eg. cbn [gbind]. apply okr_block. apply Rest; [lia|exact W1].
Qed.
Lemma live_ptr i b P q x locs e body : pth i b P q -> path_load v0 q = Some (VPtr x) -> okloc locs -> iloc b locs i ->
  (x <> None -> safe body (("opted", VBool true) :: locs)) -> safe (ptr_body P e body) locs.
Proof.
  intros Q L O I Sb. assert (Hb : exists m0, x = None \/ forall m s, (m0 <= m)%nat -> wok s -> okr (("opted", VBool true) :: locs) (seq (ex m) s (fr (("opted", VBool true) :: locs)) body)).
  { destruct x as [x|]; [|exists 0%nat; left; reflexivity]. destruct Sb as (m0 & H); [discriminate|]. exists m0. right. exact H. }
  destruct Hb as (m0 & Hb). exists (S (S (S m0))). intros m s Lm W. destruct m as [|m]; [lia|]. apply ptr_start; [exact O|exact W|]. unfold block, enc_opt. cbn [seq]. destruct m as [|m]; [lia|]. rewrite ex_def.
  assert (En : evv G m s (fr locs) (ENe (derefP P) (EVar "nil")) = GRet (GV (VBool (match x with Some _ => true | None => false end)))).
  { unfold evv. rewrite ev_ne. destruct (evv_inv _ _ _ _ _ _ (live_evv i b P q _ _ Q L O I m s)) as (o & A & B). unfold derefP. cbn [ev]. rewrite A. cbn [gbind]. rewrite B. cbn [gbind rval load f_recv]. rewrite L.
    pose proof (NestB.ev_pre _ _ _ _ Hsup m s v0 locs "nil" (GP None) O ltac:(cbn; tauto)) as Np. cbn [ev] in Np. destruct x as [x|]; cbn [gbind sub]; rewrite Np; reflexivity. }
  rewrite En. cbn [gbind]. unfold xBool. rewrite ex_pkg1. set (bx := match x with Some _ => true | None => false end).
  assert (Ec : evv G m s (fr (("opted", VBool bx) :: locs)) (EConv (GPtr gBool) (EAddr (EVar "opted"))) = GRet (GP (Some (PLoc (List.length locs))))).
  { unfold evv. cbn [ev f_locs loc_find]. rewrite String.eqb_refl. reflexivity. }
  rewrite Ec. cbn [gbind]. rewrite through_local. unfold lib_fun. change (String.eqb "XdrBool" "XdrBool") with true. cbv iota. destruct (bool_ok s bx W) as (s1 & -> & W1). cbn [gbind]. rewrite ex_if.
  assert (Eb : ev_bool G m s1 (fr (("opted", VBool bx) :: locs)) (EVar "opted") = GRet bx).
  { unfold ev_bool, evv. cbn [ev f_locs loc_find]. rewrite String.eqb_refl. cbn [gbind rval load f_locs]. rewrite loc_get_top. reflexivity. }
  rewrite Eb. cbn [gbind]. assert (Out : forall r, okr (("opted", VBool bx) :: locs) r -> okr locs (let! (s, fr') := let! (s, f1) := r in GRet (s, f1) in GRet (s, pop (depth (fr locs)) fr'))).
  { intros r [->|(s2 & -> & W2)]; [apply okr_pan|]. cbn [gbind]. unfold depth. cbn [f_locs]. rewrite pop_push. apply okr_ret, W2. }
  apply Out. unfold bx in *. destruct x as [x|]; [|apply okr_ret, W1]. destruct Hb as [Hb|Hb]; [discriminate|]. apply okr_block. apply Hb; [lia|exact W1].
Qed.
Lemma run_ok m body cs locs s : falls body cs -> (forall s, wok s -> okr locs (seq (ex m) s (fr locs) body)) -> wok s -> okr locs (run (ex m) s (fr locs) cs).
Proof.
  intros F B. revert s. induction F as [l r|l r F IHF]; intros s W; cbn [run].
  - eapply okr_bind; [apply okr_block, B, W|]. intros s1 W1. apply okr_ret, W1.
  - eapply okr_bind; [apply (okr_block locs m s []); apply okr_ret, W|]. intros s1 W1. apply IHF, W1.
Qed.
Lemma disc_kind_snug k : forall n c bk x, disc_kind E k c = Some bk -> snug n E c x -> kind_ok bk x.
Proof.
  induction k as [|k IHk]; intros n c bk x D H; [discriminate|]. destruct n as [|n]; [destruct H|]. destruct c; cbn [disc_kind] in D; try discriminate; cbn [snug] in H; try (injection D as <-; destruct x; try destruct H; reflexivity).
  destruct H as (t & F & H). rewrite F in D. eapply IHk; eassumption.
Qed.
(** No arm is chosen. *)
Lemma find_none bk dv d locs st P cases def : kind_ok bk dv -> disc_of dv = Some d -> okloc locs ->
  forall cls arms cd, chosen K d cases def = None -> el_arms ds cases = Some arms -> gx_cases P cases = Some cls -> forallb (fun x => forallb (label_ok K bk) (fst x)) cases = true ->
  match def with Some d => do a <- gx_field d P ; Some [(None, a, false)] | None => Some [] end = Some cd ->
  (forall m, find_clause G m st (fr locs) (GV dv) (cls ++ cd) = GRet None) /\ find_default (cls ++ cd) = None.
Proof.
  intros Kd Hd O. induction cases as [|[ls dc1] cases IHc]; intros cls arms cd C A B N D.
  - injection B as <-. cbn [chosen] in C. subst def. injection D as <-. split; reflexivity.
  - cbn [chosen] in C. cbn [el_arms fst snd] in A. fold K in A. destruct (xlabels K ls) as [ks|] eqn:A1; [|discriminate]. cbn [pbind] in A. destruct (el_arm K dc1); [|discriminate]. cbn [pbind] in A. destruct (el_arms ds cases) as [arms2|]; [|discriminate].
    cbn [gx_cases fst snd] in B. destruct (gx_field dc1 P) as [body|] eqn:B1; [|discriminate]. destruct (gx_cases P cases) as [cls2|] eqn:B2; [|discriminate]. injection B as <-.
    cbn [forallb fst] in N. apply andb_true_iff in N. destruct N as (N1 & N2). pose proof (find_labels fl ds E G Hsup v0 bk dv d locs st Kd Hd O ls ks body (cls2 ++ cd) N1 A1) as F.
    destruct (existsb (Z.eqb d) ks); [discriminate|]. destruct (IHc _ _ _ C eq_refl eq_refl N2 D) as (R1 & R2). split; [intros m; rewrite <- app_assoc, F; apply R1|rewrite <- app_assoc, find_default_labels; exact R2].
Qed.
End V.

Lemma through_okr v0 locs q w f : path_load v0 q = Some w -> (f w = GPanic \/ exists s', f w = GRet (s', w) /\ wok s') -> okr v0 locs (through (mkFrame v0 locs) (GP (Some (PRecv q))) f).
Proof.
  intros L [F|F]; [|apply (through_ok v0 locs q w f L F)]. unfold through. change (load (mkFrame v0 locs) (PRecv q)) with (path_load v0 q). rewrite L. cbn [some_or gbind]. rewrite F. left. reflexivity.
Qed.
Variable D0 : nat.
Hypothesis Henv : wf_env D0 E.
Theorem safe_all n : forall v0 dt c b P ss locs i, el_dt K dt = Some c -> wf_ty D0 E c -> nokx_dt K E dt = true -> gx_dt dt P = Some ss -> PQ v0 b P c n -> okloc locs -> iloc b locs i -> safe v0 ss locs.
Proof.
  induction n as [|n IH]; intros v0 dt c b P ss locs i A Wf N H Pq O I.
  { destruct (Pq i) as [(q & w & _ & _ & [])|D]. exact (dead_safe_dt v0 D0 dt i b P ss c locs A Wf N H D O I). }
  destruct (Pq i) as [(q & w & Q & L & S)|D]; [|exact (dead_safe_dt v0 D0 dt i b P ss c locs A Wf N H D O I)].
  destruct dt as [t|t sz|t sz|sz|sz|sz|t]; [|discriminate N|..]; cbn [gx_dt] in H.
  - (* a type without [] or * *)
    change (el K t = Some c) in A. change (nokx K E t = true) in N. destruct t as [u|u| | | | |its|items|sw cases def|x]; cbn [GoAst.gx] in H; try discriminate H.
    + injection H as <-. injection A as <-. destruct u; cbn [snug] in S; (destruct w as [z| | | | | | |]; try (exfalso; exact S)); eapply live_pkg1; try eassumption; intros s W; unfold lib_fun; cbn [String.eqb Ascii.eqb Bool.eqb].
      * destruct (u32_ok s z W) as (s' & F & W'). exists s'. change (String.eqb "XdrU32" "XdrU32") with true. cbv iota. rewrite F. auto.
      * destruct (s32_ok s z W) as (s' & F & W'). exists s'. rewrite F. auto.
    + injection H as <-. injection A as <-. destruct u; cbn [snug] in S; (destruct w as [z| | | | | | |]; try (exfalso; exact S)); eapply live_pkg1; try eassumption; intros s W; unfold lib_fun; cbn [String.eqb Ascii.eqb Bool.eqb].
      * destruct (u64_ok s z W) as (s' & F & W'). exists s'. rewrite F. auto.
      * destruct (s64_ok s z W) as (s' & F & W'). exists s'. rewrite F. auto.
    + injection H as <-. injection A as <-. cbn [snug] in S. destruct w as [|z| | | | | |]; try (exfalso; exact S). eapply live_pkg1; try eassumption. intros s W. unfold lib_fun. cbn [String.eqb Ascii.eqb Bool.eqb].
      destruct (bool_ok s z W) as (s' & F & W'). exists s'. rewrite F. auto.
    + (* struct *)
      rewrite (el_struct ds) in A. destruct (el_items ds items) as [fs|] eqn:A1; [|discriminate]. injection A as <-. inversion Wf as [| | | | | | | | | |fs' _ W1| |]; subst. clear Wf S. cbn [nokx] in N.
      assert (Sub : forall f u, In (f, u) fs -> In (f, u) fs) by auto. revert Sub. generalize fs at 1. intros fs1 Sub.
      assert (X : exists fs2, el_items ds items = Some fs2 /\ forall f u, In (f, u) fs2 -> In (f, u) fs) by (exists fs; auto). clear A1 Sub fs1.
      revert ss H N X. induction items as [|d items IHi]; intros ss H N (fs2 & A1 & Sub); [injection H as <-; apply safe_nil|].
      destruct (gx_field d P) as [a|] eqn:Ga; [|discriminate]. cbn [pbind] in H.
      match type of H with pbind ?o _ = _ => destruct o as [b'|] eqn:B; [|discriminate] end. injection H as <-.
      apply andb_true_iff in N. destruct N as (N1 & N2). cbn [el_items] in A1. fold K in A1. destruct (el_arm K d) as [ca|] eqn:Ea; [|discriminate]. cbn [pbind] in A1. destruct (el_items ds items) as [fs'|] eqn:Ei; [|discriminate]. injection A1 as <-.
      apply safe_app.
      * destruct d as [|u m]; [injection Ga as <-; apply safe_nil|]. destruct (el_dt_name ds _ _ _ _ eq_refl Ea) as (cu & C & ->). cbn [gx_field] in Ga.
        assert (Iu : In (cap m, cu) fs) by (apply Sub; left; reflexivity).
        exact (IH v0 u cu b (fieldP P m) a locs i C (W1 _ _ Iu) N1 Ga (PQ_struct v0 _ _ _ _ _ _ Pq Iu) O I).
      * apply (IHi b' eq_refl N2). exists fs'. split; [reflexivity|]. intros f u Iu. apply Sub, in_or_app. right. exact Iu.
    + (* union *)
      destruct sw as [|st sn]; [discriminate|]. change (GoAst.gx (typeUnion (declName st sn) cases def) P = Some ss) in H. rewrite (el_union ds) in A. fold K in A. destruct (el_dt K st) as [cst|] eqn:A1; [|discriminate]. cbn [pbind] in A.
      destruct (el_arms ds cases) as [arms|] eqn:A2; [|discriminate]. cbn [pbind] in A. destruct (match def with Some d => do a <- el_arm K d ; Some (Some a) | None => Some None end) as [ed|] eqn:A3; [|discriminate]. injection A as <-.
      inversion Wf as [| | | | | | | | | | |sw' st' arms' def' _ _ W1|]; subst.
      rewrite gx_union in H. destruct (gx_dt st (fieldP P sn)) as [ss1|] eqn:B1; [|discriminate]. cbn [pbind] in H. destruct (gx_cases P cases) as [cls|] eqn:B2; [|discriminate]. cbn [pbind] in H.
      destruct (match def with Some d => do a <- gx_field d P ; Some [(None, a, false)] | None => Some [] end) as [cd|] eqn:B3; [|discriminate]. injection H as <-.
      cbn [nokx] in N. apply andb_true_iff in N. destruct N as (N & N4). apply andb_true_iff in N. destruct N as (N & N3). apply andb_true_iff in N. destruct N as (N1 & N2).
      unfold disc_ok in N1. rewrite A1 in N1. destruct (disc_kind E (Datatypes.S (List.length E)) cst) as [bk|] eqn:Dk; [|discriminate].
      apply safe_app; [exact (IH v0 st cst b (fieldP P sn) ss1 locs i A1 (W1 _ _ (or_introl eq_refl)) N2 B1 (PQ_union v0 _ _ _ _ _ _ _ _ _ Pq (or_introl eq_refl)) O I)|].
      cbn [snug] in S. destruct w as [| | | | | | |l]; try (exfalso; exact S). destruct (S (cap sn) cst (or_introl eq_refl)) as (dv & Fd & Sd). pose proof (disc_kind_snug _ _ _ _ _ Dk Sd) as Kd.
      assert (Ev : forall m s, evv G m s (mkFrame v0 locs) (ESel (EParen P) (cap sn)) = GRet (GV dv)).
      { intros m s. destruct (evv_inv _ _ _ _ _ _ (live_evv v0 i b P q _ locs Q L O I m s)) as (o & E1 & E2). unfold evv. cbn [ev]. rewrite E1. cbn [gbind]. rewrite E2. cbn [gbind sub rval load f_recv].
        rewrite path_load_app, L. cbn [step_load]. rewrite Fd. destruct dv; try reflexivity. destruct Kd. }
      assert (Hd : exists d, disc_of dv = Some d) by (destruct dv; try destruct Kd; cbn; eauto). destruct Hd as (d & Hd).
      destruct (chosen K d cases def) as [dc|] eqn:Ch.
      * destruct (chosen_el ds _ _ _ _ _ _ Ch A2 A3) as (a & Ea & _ & Ia).
        destruct (find_chosen fl ds E G Hsup v0 bk dv d locs (MakeWriter []) Kd Hd O P cases def dc cls cd Ch B2 N1 B3) as (body & _ & Gb & _ & _).
        assert (Sb : safe v0 body locs).
        { destruct dc as [|u m]; [injection Gb as <-; apply safe_nil|]. destruct (el_dt_name ds _ _ _ _ eq_refl Ea) as (cu & C & ->). cbn [gx_field] in Gb. specialize (Ia _ eq_refl).
          assert (Iu : In (cap m, cu) (union_fields (cap sn) cst arms ed)) by (right; exact Ia).
          assert (Nu : nokx_dt K E u = true).
          { clear - N3 N4 Ch. revert N3 Ch. induction cases as [|[ls dc] cases IHc]; cbn [chosen]; intros N3 Ch; [subst def; exact N4|]. apply andb_true_iff in N3. destruct N3 as (N3 & N5). cbn [snd] in N3.
            destruct (xlabels K ls) as [ks|]; [|discriminate]. destruct (existsb (Z.eqb d) ks); [injection Ch as ->; exact N3|auto]. }
          exact (IH v0 u cu b (fieldP P m) body locs i C (W1 _ _ Iu) Nu Gb (PQ_union v0 _ _ _ _ _ _ _ _ _ Pq Iu) O I). }
        destruct Sb as (m0 & Sb). apply safe_one. exists m0. intros m s Lm W. cbn [exec]. rewrite Ev. cbn [gbind].
        destruct (find_chosen fl ds E G Hsup v0 bk dv d locs s Kd Hd O P cases def dc cls cd Ch B2 N1 B3) as (body' & cs & Gb' & Fl & Fc). assert (body' = body) as -> by congruence.
        assert (Ro : okr v0 locs (run (exec G m) s (mkFrame v0 locs) cs)) by (eapply run_ok; [exact Fl|intros s1 Ws1; apply Sb; assumption|exact W]).
        destruct (Fc m) as [Fm|(Fm & Fdm)]; rewrite Fm; cbn [gbind]; [exact Ro|rewrite Fdm; exact Ro].
      * apply safe_one. exists 0%nat. intros m s _ W. cbn [exec]. rewrite Ev. cbn [gbind]. destruct (find_none v0 bk dv d locs s P cases def Kd Hd O cls arms cd Ch A2 B2 N1 B3) as (F1 & F2). rewrite F1. cbn [gbind]. rewrite F2. apply okr_ret, W.
    + (* a named type *)
      injection H as <-. injection A as <-. inversion Wf as [| | | | | | | | | | | |x' t' F]; subst. cbn [snug] in S. destruct S as (t & F' & S). assert (t' = t) as -> by congruence. clear F'.
      pose proof (NestB.type_rel _ _ _ _ Hsup (cap x)) as R. rewrite F in R. destruct R as (g & body & _ & Lb & R). destruct (Henv _ _ F) as (Wt & _).
      assert (Sb : safe w body []).
      { destruct R as [u g body cu _ C B Nu|u g body cu _ C B Nu].
        - eapply (IH w u cu false (EVar "v") body [] 0%nat C Wt Nu B); [|apply okloc_nil|apply iloc_false]. intros k. left. exists [], w. split; [constructor|]. split; [reflexivity|exact S].
        - inversion Wt as [| | | | | | | | | |fs' _ W1| |]; subst. 
          eapply (IH w (declTypePtr u) (CPtr cu) false (EAddr (ESel (EVar "v") "P")) body [] 0%nat); [change (pbind (el K u) (fun c => Some (CPtr c)) = Some (CPtr cu)); unfold K; rewrite C; reflexivity|apply (W1 "P"); left; reflexivity|exact Nu|exact B| |apply okloc_nil|apply iloc_false].
          intros k. left. destruct n as [|n]; [destruct S|]. cbn [snug] in S. destruct w as [| | | | | | |l]; try (exfalso; exact S). destruct (S "P" _ (or_introl eq_refl)) as (y & Fy & Sy).
          exists [PField "P"], y. split; [constructor|]. split; [cbn; rewrite Fy; reflexivity|]. apply snug_S, Sy. }
      destruct Sb as (m0 & Sb). apply safe_one. exists m0. intros m s Lm W. rewrite ex_meth, Lb, (live_evv v0 i b P q _ locs Q L O I). cbn [gbind]. apply (through_okr v0 locs q w _ L).
      destruct (okr_block w [] m s body (Sb m s Lm W)) as [X|(s' & X & W')]; unfold frame0; rewrite X; [left; reflexivity|right]. exists s'. auto.
  - (* array *)
    cbn [el_dt] in A. change (pbind (xbound K sz) (fun m => do c <- el K t ; Some (CVarArray m c)) = Some c) in A. destruct (xbound K sz) as [bd|] eqn:X; [|discriminate]. cbn [pbind] in A. destruct (el K t) as [ct|] eqn:At; [|discriminate]. injection A as <-.
    destruct (gt t) as [g|]; [|discriminate]. cbn [pbind] in H. destruct (GoAst.gx t (elemP P)) as [body|] eqn:Gb; [|discriminate]. injection H as <-. cbn [nokx_dt] in N. apply andb_true_iff in N. destruct N as (N1 & N2).
    inversion Wf as [| | | | | | | |m' t' _ Wt _| | | |]; subst. cbn [snug] in S. destruct w as [| | | | |o| |]; try (exfalso; exact S). destruct S as (Wn & _).
    eapply (live_arr v0 i b P q o locs sz bd g body N1 X Q L Wn O I). intros j _.
    eapply (IH v0 (declTypeTypespec t) ct true (elemP P) body _ j At Wt N2 Gb (PQ_elem v0 _ _ _ _ _ Pq)); [|apply iloc_top]. apply okloc_push; [apply okloc_push; [exact O|]|]; cbn; tauto.
  - (* opaque *)
    injection H as <-. cbn [el_dt] in A. change (pbind (xval K sz) (fun k => if (0 <=? k) && (k <=? MaxUint32) then Some (COpaque (Z.to_nat k)) else None) = Some c) in A. destruct (xval K sz) as [k|]; [|discriminate]. cbn [pbind] in A. destruct ((0 <=? k) && (k <=? MaxUint32)); [|discriminate]. injection A as <-.
    cbn [snug] in S. destruct w as [| |bs| | | | |]; try (exfalso; exact S). apply safe_one. exists 0%nat. intros m s _ W. rewrite ex_pkg1.
    assert (Ev : evv G m s (mkFrame v0 locs) (EAll (EParen (EDeref P))) = GRet (GS (PRecv q))).
    { destruct (evv_inv _ _ _ _ _ _ (live_evv v0 i b P q _ locs Q L O I m s)) as (o & E1 & E2). unfold evv. cbn [ev]. rewrite E1. cbn [gbind]. rewrite E2. reflexivity. }
    rewrite Ev. cbn [gbind]. change (through (mkFrame v0 locs) (GS (PRecv q)) (lib_fun "XdrArray" s None)) with (through (mkFrame v0 locs) (GP (Some (PRecv q))) (lib_fun "XdrArray" s None)). apply (through_ok v0 locs q _ _ L).
    destruct (array_ok s bs W) as (s' & F & W'). exists s'. unfold lib_fun. cbn [String.eqb Ascii.eqb Bool.eqb]. rewrite F. auto.
  - injection H as <-. cbn [el_dt] in A. change (pbind (xbound K sz) (fun m => Some (CVarOpaque m)) = Some c) in A. destruct (xbound K sz) as [bd|] eqn:X; [|discriminate]. injection A as <-. cbn [snug] in S. destruct w as [| | |o| | | |]; try (exfalso; exact S).
    eapply (live_pkg2 v0 i b P q _ locs); try eassumption. intros s W. destruct (var_ok s bd o W S) as (s' & F & W'). exists s'. unfold lib_fun. cbn [String.eqb Ascii.eqb Bool.eqb]. rewrite F. auto.
  - injection H as <-. cbn [el_dt] in A. change (pbind (xbound K sz) (fun m => Some (CString m)) = Some c) in A. destruct (xbound K sz) as [bd|] eqn:X; [|discriminate]. injection A as <-. cbn [snug] in S. destruct w as [| | | |bs| | |]; try (exfalso; exact S).
    eapply (live_pkg2 v0 i b P q _ locs); try eassumption. intros s W. destruct (str_ok s bd bs W S) as (s' & F & W'). exists s'. unfold lib_fun. cbn [String.eqb Ascii.eqb Bool.eqb]. rewrite F. auto.
  - (* optional *)
    change (pbind (el K t) (fun c => Some (CPtr c)) = Some c) in A. destruct (el K t) as [ct|] eqn:At; [|discriminate]. injection A as <-. inversion Wf as [| | | | | | | | |t' Wt _| | |]; subst.
    destruct (gt t) as [g|]; [|discriminate]. cbn [pbind] in H. destruct (GoAst.gx t (derefP P)) as [body|] eqn:Gb; [|discriminate]. injection H as <-. change (nokx K E t = true) in N.
    cbn [snug] in S. destruct w as [| | | | | |x|]; try (exfalso; exact S). eapply (live_ptr v0 i b P q x locs g body Q L O I). intros _.
    eapply (IH v0 (declTypeTypespec t) ct b (derefP P) body _ i At Wt N Gb (PQ_deref v0 _ _ _ _ Pq)); [apply okloc_push; [exact O|cbn; tauto]|apply iloc_push; [discriminate|exact I]].
Qed.
End S.
