(** Further facts about the generated and the committed packages: enums, and the fuzz targets
    of the repository run on the generated code. *)
From Coq Require Strings.Byte.
From Verif Require Import GoLex XLex Gram GParse Emit GoAst GoRes GoPkg GoWf RepoText.
From Verif Require Import Bytes XdrLib Types Interp Spec Prim Meta Enc Runs Codec Codec2 Codec4 PrimProps GoSem GElab GSimB GSimC GSimD GoSemP RpcTypes GenCommitted GenText Check GoTypeQ.
Open Scope string_scope.
Open Scope Z_scope.
Open Scope list_scope.

(** ** reflect.DeepEqual *)
Fixpoint bytes_eqb (a b : list byte) : bool :=
  match a, b with
  | [], [] => true
  | x :: a, y :: b => Byte.eqb x y && bytes_eqb a b
  | _, _ => false
  end.
(** reflect.DeepEqual (called at rfc1057/fuzz_test.go:49, rfc1813/fuzz_test.go:44) on values of
    generated types: nil and empty slices differ, pointers are equal when what they point to is. *)
Fixpoint deep_equal (a b : val) {struct a} : bool :=
  match a, b with
  | VInt x, VInt y => x =? y
  | VBool x, VBool y => Bool.eqb x y
  | VArr x, VArr y | VStr x, VStr y => bytes_eqb x y
  | VBytes None, VBytes None => true
  | VBytes (Some x), VBytes (Some y) => bytes_eqb x y
  | VSlice None, VSlice None => true
  | VSlice (Some x), VSlice (Some y) =>
      (fix go x y := match x, y with [], [] => true | u :: x, w :: y => deep_equal u w && go x y | _, _ => false end) x y
  | VPtr None, VPtr None => true
  | VPtr (Some x), VPtr (Some y) => deep_equal x y
  | VStruct x, VStruct y =>
      (fix go x y := match x, y with [], [] => true | (f, u) :: x, (g, w) :: y => String.eqb f g && deep_equal u w && go x y | _, _ => false end) x y
  | _, _ => false
  end.

Lemma bytes_eqb_eq a : forall b, bytes_eqb a b = true <-> a = b.
Proof.
  induction a as [|x a IH]; intros [|y b]; cbn; try (split; congruence).
  rewrite andb_true_iff, IH. destruct (Byte.eqb x y) eqn:E.
  - apply Byte.byte_dec_bl in E. subst y. split; [intros [_ ->]; reflexivity|intros Q; injection Q; auto].
  - split; [intros [Q _]; discriminate|]. intros Q. injection Q as -> _. rewrite (Byte.byte_dec_lb eq_refl) in E. discriminate.
Qed.
Lemma val_rect' (Q : val -> Prop) :
  (forall z, Q (VInt z)) -> (forall b, Q (VBool b)) -> (forall bs, Q (VArr bs)) -> (forall o, Q (VBytes o)) -> (forall bs, Q (VStr bs)) ->
  Q (VSlice None) -> (forall l, Forall Q l -> Q (VSlice (Some l))) -> Q (VPtr None) -> (forall x, Q x -> Q (VPtr (Some x))) ->
  (forall l, Forall (fun fx => Q (snd fx)) l -> Q (VStruct l)) -> forall v, Q v.
Proof.
  intros H1 H2 H3 H4 H5 H6 H7 H8 H9 H10. fix IH 1. intros [z|b|bs|o|bs|[l|]|[x|]|l];
    [apply H1|apply H2|apply H3|apply H4|apply H5|apply H7|apply H6|apply H9, IH|apply H8|apply H10].
  - induction l as [|x l IHl]; constructor; [apply IH|exact IHl].
  - induction l as [|[f x] l IHl]; constructor; [apply IH|exact IHl].
Qed.
(** Values being trees here, it is equality. *)
Lemma deep_equal_iff a : forall b, deep_equal a b = true <-> a = b.
Proof.
  induction a using val_rect'.
  - intros [| | | |?|[?|]|[?|]|?]; cbn; try (split; congruence). rewrite Z.eqb_eq. split; congruence.
  - intros [| | | |?|[?|]|[?|]|?]; cbn; try (split; congruence). rewrite Bool.eqb_true_iff. split; congruence.
  - intros [| | | |?|[?|]|[?|]|?]; cbn; try (split; congruence). rewrite bytes_eqb_eq. split; congruence.
  - intros b. destruct o as [x|], b as [| | |[y|]|?|[?|]|[?|]|?]; cbn; try (split; congruence). rewrite bytes_eqb_eq. split; congruence.
  - intros [| | | |?|[?|]|[?|]|?]; cbn; try (split; congruence). rewrite bytes_eqb_eq. split; congruence.
  - intros [| | | |?|[?|]|[?|]|?]; cbn; split; congruence.
  - intros b. destruct b as [| | | |?|[y|]|[?|]|?]; cbn; try (split; congruence).
    assert ((fix go x y := match x, y with [], [] => true | u :: x, w :: y => deep_equal u w && go x y | _, _ => false end) l y = true <-> l = y) as R; [|rewrite R; split; congruence].
    revert y. induction H as [|u l Hu Hl IH]; intros [|w y]; try (split; congruence). rewrite andb_true_iff, Hu, IH. split; [intros [-> ->]; reflexivity|intros Q; injection Q; auto].
  - intros [| | | |?|[?|]|[?|]|?]; cbn; split; congruence.
  - intros b. destruct b as [| | | |?|[?|]|[y|]|?]; cbn; try (split; congruence). rewrite IHa. split; congruence.
  - intros b. destruct b as [| | | |?|[?|]|[?|]|y]; cbn; try (split; congruence).
    assert ((fix go x y := match x, y with [], [] => true | (f, u) :: x, (g, w) :: y => String.eqb f g && deep_equal u w && go x y | _, _ => false end) l y = true <-> l = y) as R; [|rewrite R; split; congruence].
    revert y. induction H as [|[f u] l Hu Hl IH]; intros [|[g w] y]; try (split; congruence). cbn [snd] in Hu.
    rewrite !andb_true_iff, Hu, IH, String.eqb_eq. split; [intros [[-> ->] ->]; reflexivity|intros Q; injection Q; auto].
Qed.

(** ** The fuzz targets, for the type [x] of the package [G] *)
Section Fuzz.
Variable G : gpkg.
(** xdr/helper.go:3-7 *)
Definition encode_buf (m : nat) (x : string) (v : val) : gor (list byte * option xerr) :=
  let! (s, _) := call G m x (MakeWriter []) v in GRet (WriteBuf s, Error s).
(** xdr/helper.go:9-13; with what the target holds afterwards *)
Definition decode_buf (m : nat) (x : string) (b : list byte) (v : val) : gor (option xerr * val) :=
  let! (s, v) := call G m x (MakeReader b) v in GRet (Error s, v).

(** Returned at once, ran to the end, or called panic. *)
Inductive verdict : Type := Skipped | Passed | EncodeFailed | Differs.
(** rfc1057/fuzz_test.go:32-52, rfc1813/fuzz_test.go:28-47: the function given to f.Fuzz *)
Definition fuzz (m : nat) (x : string) (data : list byte) : gor verdict :=
  let! z := some_or (gzero G m (GNamed x)) GOut in
  let! (err, v) := decode_buf m x data z in
  match err with
  | Some _ => GRet Skipped
  | None =>
      let! (res, err) := encode_buf m x v in
      match err with
      | Some _ => GRet EncodeFailed
      | None =>
          let! y0 := some_or (gzero G m (GNamed x)) GOut in
          let! (_, y) := decode_buf m x res y0 in
          GRet (if deep_equal v y then Passed else Differs)
      end
  end.
End Fuzz.

Section FuzzOk.
Variables (fl : flags) (ds : list defn) (E : env) (G : gpkg) (D : nat).
Hypothesis Hs : supported fl ds = Some (E, G).
Lemma fuzz_runs t data : good D E (CIdent (cap t)) -> exists r, (r = Skipped \/ r = Passed) /\
  (r = Passed <-> exists w rest y, data = w ++ rest /\ Wire DEC E (CIdent (cap t)) y w /\ has_ty E (CIdent (cap t)) y) /\
  exists M, forall m, (M <= m)%nat -> fuzz G m (cap t) data = GRet r.
Proof.
  intros Hg. destruct (good_lookup _ _ _ Hg) as [c Hc].
  assert (exists z, fresh E (CIdent (cap t)) z) as (z & n0 & Hz) by (destruct Hg as (_ & _ & Hz); destruct (zero D E (CIdent (cap t))) as [z|] eqn:Q; [exists z, D; exact Q|congruence]).
  assert (forall m, (n0 <= m)%nat -> gzero G m (GNamed (cap t)) = Some z) as Gz.
  { intros m L. rewrite (gzero_eq fl ds E G Hs m false (declTypeTypespec (typeIdent t)) _ (CIdent (cap t)) eq_refl eq_refl eq_refl). eapply zero_mono; eassumption. }
  destruct (g06 D E (CIdent (cap t)) Hg data z (ex_intro _ n0 Hz)) as (A & e & x & Dx & Ae).
  destruct Dx as [nd Dx]. unfold DecodeBuf in Dx. destruct (xdr nd E (CIdent (cap t)) (MakeReader data) z) as [[s v]| |] eqn:Rx; cbn in Dx; try discriminate Dx.
  injection Dx as Es ->. destruct (gen_sim fl ds E G Hs _ c _ _ _ _ Hc (ex_intro _ nd Rx)) as [M1 C1].
  destruct e as [e|].
  - exists Skipped. split; [left; reflexivity|]. split; [split; [discriminate|intros Q; apply Ae in Q; discriminate]|].
    exists (n0 + M1)%nat. intros m L. unfold fuzz, decode_buf. rewrite Gz by lia. cbn [some_or gbind]. rewrite C1 by lia. cbn [gbind]. rewrite Es. reflexivity.
  - exists Passed. split; [right; reflexivity|]. split; [tauto|].
    assert (Decode E (CIdent (cap t)) data z None x) as Dx by (exists nd; unfold DecodeBuf; rewrite Rx; cbn; rewrite Es; reflexivity).
    destruct (g05 D E (CIdent (cap t)) Hg data z x (ex_intro _ n0 Hz) Dx) as (b' & [ne En] & [n2 D2] & _).
    unfold EncodeBuf in En. destruct (xdr ne E (CIdent (cap t)) (MakeWriter []) x) as [[s2 v2]| |] eqn:R2; cbn in En; try discriminate En. injection En as E2a E2b.
    unfold DecodeBuf in D2. destruct (xdr n2 E (CIdent (cap t)) (MakeReader b') z) as [[s3 v3]| |] eqn:R3; cbn in D2; try discriminate D2. injection D2 as E3 ->.
    destruct (gen_sim fl ds E G Hs _ c _ _ _ _ Hc (ex_intro _ ne R2)) as [M2 C2]. destruct (gen_sim fl ds E G Hs _ c _ _ _ _ Hc (ex_intro _ n2 R3)) as [M3 C3].
    exists (n0 + M1 + M2 + M3)%nat. intros m L. unfold fuzz, decode_buf, encode_buf. rewrite Gz by lia. cbn [some_or gbind]. rewrite C1 by lia. cbn [gbind]. rewrite Es.
    rewrite C2 by lia. cbn [gbind]. rewrite E2b, E2a. rewrite C3 by lia. cbn [gbind]. rewrite (proj2 (deep_equal_iff x x) eq_refl). reflexivity.
Qed.
End FuzzOk.

(** ** The targets of the two packages *)
Lemma text_fuzz fl src E P o P' p D t data : ok_flags fl = true -> spec_prog fl src = Some (E, P) -> generate fl src = Some o -> declares p (files_of o) P' ->
  good D E (CIdent (cap t)) -> exists r, (r = Skipped \/ r = Passed) /\
  (r = Passed <-> exists w rest y, data = w ++ rest /\ Wire DEC E (CIdent (cap t)) y w /\ has_ty E (CIdent (cap t)) y) /\
  exists M, forall m, (M <= m)%nat -> fuzz (gp_pkg P') m (cap t) data = GRet r.
Proof.
  intros F S G Dc Hg. rewrite (text_same _ _ _ _ _ _ _ F S G Dc). apply spec_prog_inv in S. destruct S as (ds & _ & _ & S). eapply fuzz_runs; eassumption.
Qed.
Lemma committed_fuzz fl src p files E D : (exists P, spec_prog fl src = Some (E, P) /\ declares p files P) -> (forall x, In x (map fst E) -> good D E (CIdent x)) ->
  forall P, declares p files P -> forall t data, In (cap t) (map fst E) -> exists r, (r = Skipped \/ r = Passed) /\
  (r = Passed <-> exists w rest y, data = w ++ rest /\ Wire DEC E (CIdent (cap t)) y w /\ has_ty E (CIdent (cap t)) y) /\
  exists M, forall m, (M <= m)%nat -> fuzz (gp_pkg P) m (cap t) data = GRet r.
Proof.
  intros (P' & S & D') Gd P DP t data I. rewrite (declares_det _ _ _ _ _ DP D'). apply spec_prog_inv in S. destruct S as (ds & _ & _ & S).
  eapply fuzz_runs; [exact S|exact (Gd _ I)].
Qed.
Definition fuzz_1057 := committed_fuzz _ _ _ _ _ _ rfc1057_committed rfc1057_good.
Definition fuzz_1813 := committed_fuzz _ _ _ _ _ _ rfc1813_committed rfc1813_good.

(** ** Enums *)
Lemma all_names fl K ds : forall ts E, all_decls (ty_decl fl) ds = Some ts -> all_decls (el_defn fl K) ds = Some E -> map fst E = map fst ts.
Proof.
  induction ds as [|d ds IH]; intros ts E A B; cbn in A, B; [injection A as <-; injection B as <-; reflexivity|].
  destruct (ty_decl fl d) as [a|] eqn:A1; [|discriminate A]. destruct (all_decls (ty_decl fl) ds) as [a2|]; [|discriminate A]. cbn in A. injection A as <-.
  destruct (el_defn fl K d) as [b|] eqn:B1; [|discriminate B]. destruct (all_decls (el_defn fl K) ds) as [b2|]; [|discriminate B]. cbn in B. injection B as <-.
  rewrite !map_app, (IH _ _ eq_refl eq_refl). f_equal.
  destruct d as [n v|[|t n]|n l|n l|n s c o|q]; cbn in A1, B1;
    repeat match goal with
    | H : pbind ?o _ = Some _ |- _ => let E := fresh in destruct o eqn:E; cbn in H; [|discriminate H]
    end;
    try (injection A1 as <-; injection B1 as <-; reflexivity).
Qed.
Section Enum.
Variables (fl : flags) (ds : list defn) (E : env) (G : gpkg).
Hypothesis Hs : supported fl ds = Some (E, G).
Lemma enum_type n items : In (defEnum n items) ds -> lookup (cap n) E = Some (if fl_unsigned fl then CU32 else CS32).
Proof.
  intros I. destruct (supported_inv _ _ _ _ Hs) as (HE & HG & _ & N & _). unfold pkg_of in HG.
  destruct (all_decls (ty_decl fl) ds) as [ts|] eqn:A; [|discriminate HG]. cbn in HG. destruct (all_decls (meth_decl fl) ds) as [ms|]; [|discriminate HG]. cbn in HG. injection HG as <-.
  apply lookup_nodup.
  - rewrite (all_names _ _ _ _ _ A HE). unfold pkg_names in N. cbn [g_types g_consts] in N. apply nodupb_iff in N. exact (nodup_app_l _ _ N).
  - eapply (all_decls_in _ _ _ _ _ _ HE I); [reflexivity|left; reflexivity].
Qed.
(** The integers of the Go type of an enum (main.go:18, out.go:470-476). *)
Definition enum_range (u : bool) (z : Z) : Prop := if u then 0 <= z < 2 ^ 32 else - 2 ^ 31 <= z < 2 ^ 31.
Lemma enum_word u w : List.length w = 4%nat -> exists z, enum_range u z /\ is_be 4 (z mod 2 ^ 32) w.
Proof.
  intros L. pose proof (be_val_4 w L) as B. destruct u; cbn [enum_range].
  - exists (be_val w). split; [exact B|]. split; [exact L|]. rewrite Z.mod_small by exact B. reflexivity.
  - exists (to_s32 (be_val w)). unfold to_s32. rewrite pow32 in *. rewrite pow31. split; [Z.div_mod_to_equations; lia|]. split; [exact L|]. Z.div_mod_to_equations; lia.
Qed.
Lemma enum_runs n items z w : In (defEnum n items) ds -> enum_range (fl_unsigned fl) z -> is_be 4 (z mod 2 ^ 32) w ->
  (forall a, exists M, forall m, (M <= m)%nat -> call G m (cap n) (MakeWriter a) (VInt z) = GRet (MakeWriter (a ++ w), VInt z)) /\
  (forall rest v0, exists M, forall m, (M <= m)%nat -> call G m (cap n) (MakeReader (w ++ rest)) (VInt v0) = GRet (MakeReader rest, VInt z)).
Proof.
  intros I R B. pose proof (enum_type n items I) as L. split.
  - intros a. apply (gen_sim fl ds E G Hs _ _ _ _ _ _ L). exists 2%nat. cbn [xdr]. rewrite L. destruct (fl_unsigned fl); cbn [enum_range] in R; cbn [xdr].
    + unfold MakeWriter. rewrite XdrU32_W. rewrite Z.mod_small in B by exact R. rewrite (is_be_inj _ _ _ _ B (is_be_put_u32 _ R)). reflexivity.
    + unfold MakeWriter. rewrite XdrS32_W. rewrite (is_be_inj _ _ _ _ B (is_be_put_s32 z)). reflexivity.
  - intros rest v0. apply (gen_sim fl ds E G Hs _ _ _ _ _ _ L). exists 2%nat. cbn [xdr]. rewrite L. destruct (fl_unsigned fl); cbn [enum_range] in R; cbn [xdr]; unfold MakeReader.
    + rewrite XdrU32_R by exact (proj1 B). rewrite (proj2 B), Z.mod_small by exact R. reflexivity.
    + rewrite XdrS32_R by exact (proj1 B). rewrite (proj2 B). rewrite to_s32_id by exact R. reflexivity.
Qed.
End Enum.
Lemma text_enum fl src ds E P o P' p n items : ok_flags fl = true -> front src = Some ds -> spec_prog fl src = Some (E, P) -> generate fl src = Some o -> declares p (files_of o) P' ->
  In (defEnum n items) ds -> forall w, List.length w = 4%nat -> exists z, enum_range (fl_unsigned fl) z /\ is_be 4 (z mod 2 ^ 32) w /\
  (forall a, exists M, forall m, (M <= m)%nat -> call (gp_pkg P') m (cap n) (MakeWriter a) (VInt z) = GRet (MakeWriter (a ++ w), VInt z)) /\
  (forall rest v0, exists M, forall m, (M <= m)%nat -> call (gp_pkg P') m (cap n) (MakeReader (w ++ rest)) (VInt v0) = GRet (MakeReader rest, VInt z)).
Proof.
  intros F Fr S G Dc I w L. rewrite (text_same _ _ _ _ _ _ _ F S G Dc). apply spec_prog_inv in S. destruct S as (ds' & Fr' & _ & S).
  assert (ds' = ds) as -> by congruence. destruct (enum_word (fl_unsigned fl) w L) as (z & R & B). exists z. split; [exact R|]. split; [exact B|].
  exact (enum_runs _ _ _ _ S n items z w I R B).
Qed.
Lemma text_enum_all fl src ds E P o P' p n items : ok_flags fl = true -> front src = Some ds -> spec_prog fl src = Some (E, P) -> generate fl src = Some o -> declares p (files_of o) P' ->
  In (defEnum n items) ds -> forall z, enum_range (fl_unsigned fl) z -> exists w, is_be 4 (z mod 2 ^ 32) w /\
  (forall a, exists M, forall m, (M <= m)%nat -> call (gp_pkg P') m (cap n) (MakeWriter a) (VInt z) = GRet (MakeWriter (a ++ w), VInt z)) /\
  (forall rest v0, exists M, forall m, (M <= m)%nat -> call (gp_pkg P') m (cap n) (MakeReader (w ++ rest)) (VInt v0) = GRet (MakeReader rest, VInt z)).
Proof.
  intros F Fr S G Dc I z R. rewrite (text_same _ _ _ _ _ _ _ F S G Dc). apply spec_prog_inv in S. destruct S as (ds' & Fr' & _ & S).
  assert (ds' = ds) as -> by congruence. assert (is_be 4 (z mod 2 ^ 32) (put_u32 (z mod 2 ^ 32))) as B by (apply is_be_put_u32, Z.mod_pos_bound; reflexivity).
  exists (put_u32 (z mod 2 ^ 32)). split; [exact B|]. exact (enum_runs _ _ _ _ S n items z _ I R B).
Qed.

(** ** The seeds of the fuzz targets *)
Definition fx_nfs : gprog := match spec_prog (make_flags "rfc1813") rfc1813_prot_x with Some (_, P) => P | None => mkGprog (mkPkg [] [] []) [] [] [] [] end.
Lemma fx_nfs_declared : declares "rfc1813" [rfc1813_xdr_go; rfc1813_types_go] fx_nfs.
Proof. destruct rfc1813_committed as (P & S & D). unfold fx_nfs. rewrite S. exact D. Qed.
Definition fx_rpc : gprog := match spec_prog (make_flags "rfc1057") rfc1057_prot_x with Some (_, P) => P | None => mkGprog (mkPkg [] [] []) [] [] [] [] end.
Lemma fx_rpc_declared : declares "rfc1057" [rfc1057_xdr_go; rfc1057_types_go] fx_rpc.
Proof. destruct rfc1057_committed as (P & S & D). unfold fx_rpc. rewrite S. exact D. Qed.
(** A variable of type [x]. *)
Definition fx_var (P : gprog) (x : string) : val := match gzero (gp_pkg P) 60 (GNamed x) with Some v => v | None => VStruct [] end.
(** v.f1...fk = u; through a pointer when the field holds one *)
Fixpoint fx_set (v : val) (path : list string) (u : val) {struct path} : val :=
  match path with
  | [] => u
  | f :: path =>
      let upd fs := map (fun c => if String.eqb (fst c) f then (fst c, fx_set (snd c) path u) else c) fs in
      match v with VStruct fs => VStruct (upd fs) | VPtr (Some (VStruct fs)) => VPtr (Some (VStruct (upd fs))) | _ => v end
  end.
(** rfc1057/fuzz_test.go:19-24 *)
Definition fx_msg : val :=
  let m := fx_set (fx_var fx_rpc "Rpc_msg") ["Xid"] (VInt 1) in
  let m := fx_set m ["Body"; "Mtype"] (VInt 2) in
  let m := fx_set m ["Body"; "Cbody"; "Rpcvers"] (VInt 3) in
  let m := fx_set m ["Body"; "Cbody"; "Prog"] (VInt 4) in
  let m := fx_set m ["Body"; "Cbody"; "Cred"; "Flavor"] (VInt 1) in
  fx_set m ["Body"; "Cbody"; "Cred"; "Body"] (VBytes (Some [x01; x02; x03; x04])).
(** rfc1813/fuzz_test.go:19-20 *)
Definition fx_res : val :=
  let r := fx_set (fx_var fx_nfs "READDIRPLUS3res") ["Resok"; "Reply"; "Entries"] (VPtr (Some (fx_var fx_nfs "Entryplus3"))) in
  fx_set r ["Resok"; "Reply"; "Entries"; "Nextentry"] (VPtr (Some (fx_var fx_nfs "Entryplus3"))).
