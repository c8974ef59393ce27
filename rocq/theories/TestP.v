(** The tests of the repository as text: what they do, for every input of the fuzz targets. *)
From Coq Require Import Ascii String List ZArith Lia.
From Verif Require Import GoLex XLex Gram GParse Emit GoAst GoRes GoPkg GoWf RepoText.
From Verif Require Import Bytes XdrLib Types Interp Spec Prim Meta Enc Runs Codec Codec2 Codec4 PrimProps GoSem GElab GSimB GSimC GSimD GoSemP RpcTypes GenCommitted GenText GenFuzz XdrTypes Check GoTypeQ.
From Verif Require Import TestText SrcAst TestAst TestTree.
Import ListNotations.
Open Scope string_scope.
Open Scope Z_scope.
Open Scope list_scope.

Lemma xdr_tests_text : is_test xdr_test_go xdr_tests.
Proof. split; vm_compute; reflexivity. Qed.
Lemma rpc_fuzz_text : is_test rfc1057_fuzz_go rpc_fuzz.
Proof. split; vm_compute; reflexivity. Qed.
Lemma nfs_fuzz_text : is_test rfc1813_fuzz_go nfs_fuzz.
Proof. split; vm_compute; reflexivity. Qed.

(** ** More fuel changes no run that ended *)
Definition gle {A} (a b : gor A) : Prop := a = GOut \/ a = b.
Lemma gle_refl {A} (a : gor A) : gle a a. Proof. right. reflexivity. Qed.
Lemma gle_bind {A B} (a b : gor A) (k l : A -> gor B) : gle a b -> (forall x, gle (k x) (l x)) -> gle (gbind a k) (gbind b l).
Proof. intros [->| ->] H; [left; reflexivity|]. destruct b as [x| | |]; cbn; [apply H|right; reflexivity..]. Qed.
Section Mono.
Variables (pkg : string) (imports : list string) (K : string -> option Z).
Variables (Z0 Z1 : string -> gor val) (X Y : string -> xst -> val -> gor (xst * val)).
Hypothesis HZ : forall x, gle (Z0 x) (Z1 x).
Hypothesis HX : forall t s v, gle (X t s v) (Y t s v).
Ltac mono := repeat first
  [ apply gle_refl
  | apply HZ | apply HX
  | apply gle_bind; [|intros]
  | match goal with |- gle (match ?x with _ => _ end) _ => destruct x end
  | match goal with |- gle (if ?x then _ else _) _ => destruct x end ].
Lemma tval_mono st x : gle (tval pkg Z0 K st x) (tval pkg Z1 K st x).
Proof. unfold tval. mono. Qed.
Lemma tcall_mono st f args : gle (tcall pkg imports Z0 K X st f args) (tcall pkg imports Z1 K Y st f args).
Proof. unfold tcall. repeat first [progress mono|apply tval_mono]. Qed.
Lemma rhs_mono st x : gle (rhs pkg imports Z0 K X st x) (rhs pkg imports Z1 K Y st x).
Proof. unfold rhs. repeat first [progress mono|apply tval_mono|apply tcall_mono]. Qed.
Lemma each_mono {A} f g : (forall st (l : A) v, gle (f st l v) (g st l v)) -> forall ls vs st, gle (each f st ls vs) (each g st ls vs).
Proof. intros H. induction ls as [|l ls IH]; intros [|v vs] st; cbn; mono; auto. Qed.
Lemma tblock_mono ex ex' l : Forall (fun s => forall st, gle (ex st s) (ex' st s)) l -> forall st, gle (tblock ex st l) (tblock ex' st l).
Proof. induction 1 as [|s l H _ IH]; intros st; cbn; [apply gle_refl|]. apply gle_bind; [apply H|]. intros [st' [|]]; [apply gle_refl|apply IH]. Qed.
Lemma texec_mono : forall s st, gle (texec pkg imports Z0 K X st s) (texec pkg imports Z1 K Y st s).
Proof.
  fix IH 1. intros [x|x t|xs x|ls x|c b|] st; cbn [texec].
  - apply gle_bind; [apply rhs_mono|]. intros. apply gle_refl.
  - apply gle_bind; [unfold var_zero; mono|]. intros. apply gle_refl.
  - apply gle_bind; [apply rhs_mono|]. intros [? ?]. apply gle_refl.
  - apply gle_bind; [apply rhs_mono|]. intros [? ?]. apply gle_refl.
  - apply gle_bind; [apply gle_refl|]. intros [|]; [|apply gle_refl]. apply gle_bind; [|intros; apply gle_refl].
    apply tblock_mono. induction b as [|s b IHb]; constructor; [apply IH|exact IHb].
  - apply gle_refl.
Qed.
Lemma run_mono ps body : gle (run_body pkg imports Z0 K X ps body) (run_body pkg imports Z1 K Y ps body).
Proof.
  unfold run_body. destruct (test_param imports ps) as [[x k]|]; [|apply gle_refl]. apply gle_bind; [|intros; apply gle_refl].
  apply tblock_mono. apply Forall_forall. intros s _ st. apply texec_mono.
Qed.
End Mono.
Lemma test_mono f G n m x st : (n <= m)%nat -> test_in f G n x = GRet st -> test_in f G m x = GRet st.
Proof.
  intros L. unfold test_in, run_test. destruct (lookup x (t_funcs f)) as [[ps body]|]; [|discriminate]. intros Q.
  destruct (run_mono (t_pkg f) (t_imports f) (cval G) (fun x => some_or (gzero G n (GNamed x)) GOut) (fun x => some_or (gzero G m (GNamed x)) GOut) (call G n) (call G m)) with (ps := ps) (body := body) as [R|R].
  - intros y. destruct (gzero G n (GNamed y)) as [v|] eqn:E; [|left; reflexivity]. rewrite (gzero_le _ _ _ _ _ L E). right. reflexivity.
  - intros t s v. destruct (call G n t s v) eqn:E; [right; symmetry; eapply call_mono; eauto; discriminate..|left; reflexivity].
  - rewrite R in Q. discriminate Q.
  - rewrite <- R. exact Q.
Qed.

(** ** The function given to f.Fuzz is the one of C58 *)
Definition left_by (v T : string) (st : tst) : Prop :=
  exists a b c d, vars st = [("err", ("", a)); ("res", ("", b)); (v, (T, c)); ("f", ("F", d))].
Ltac go := cbn -[gzero call deep_equal cval].
Lemma closure_ok f v T G m st data z s x : (f, v, T) = (rpc_fuzz, "m", "Rpc_msg") \/ (f, v, T) = (nfs_fuzz, "r", "READDIRPLUS3res") ->
  left_by v T st -> fuzzed st = Some (fuzz_params, fuzz_body T) -> gzero G m (GNamed T) = Some z -> call G m T (MakeReader data) z = GRet (s, x) ->
  (Error s <> None -> fuzz_in f G m st data = GRet (st, true)) /\
  (Error s = None -> forall s2 s3, call G m T (MakeWriter []) x = GRet (s2, x) -> Error s2 = None -> call G m T (MakeReader (WriteBuf s2)) z = GRet (s3, x) ->
   fuzz_in f G m st data = GRet (st, false)).
Proof.
  intros [[= -> -> ->]|[= -> -> ->]] (a & b & c & d & V) F Hz H1; destruct st as [vs bs sd fz asr]; cbn [vars fuzzed] in V, F; subst vs fz;
    unfold fuzz_in, run_fuzz, fuzz_body; go; rewrite Hz; go; rewrite H1; go; (split; [destruct (Error s); [reflexivity|congruence]|]); intros -> s2 s3 H2 E2 H3;
    go; rewrite H2; go; rewrite E2; go; rewrite ?Hz; go; rewrite H3; go; rewrite (proj2 (deep_equal_iff x x) eq_refl); reflexivity.
Qed.

(** ** Every input, for the types of the packages *)
Section Any.
Variables (fl : flags) (ds : list defn) (E : env) (G : gpkg) (D : nat).
Hypothesis Hs : supported fl ds = Some (E, G).
Lemma fuzz_any f v t st data : (f, v, cap t) = (rpc_fuzz, "m", "Rpc_msg") \/ (f, v, cap t) = (nfs_fuzz, "r", "READDIRPLUS3res") ->
  left_by v (cap t) st -> fuzzed st = Some (fuzz_params, fuzz_body (cap t)) -> good D E (CIdent (cap t)) -> exists early,
  (early = false <-> exists w rest y, data = w ++ rest /\ Wire DEC E (CIdent (cap t)) y w /\ has_ty E (CIdent (cap t)) y) /\
  exists M, forall m, (M <= m)%nat -> fuzz_in f G m st data = GRet (st, early).
Proof.
  intros Hf Hl Hz0 Hg. destruct (good_lookup _ _ _ Hg) as [c Hc].
  assert (exists z, fresh E (CIdent (cap t)) z) as (z & n0 & Hz) by (destruct Hg as (_ & _ & Hz); destruct (zero D E (CIdent (cap t))) as [z|] eqn:Q; [exists z, D; exact Q|congruence]).
  assert (forall m, (n0 <= m)%nat -> gzero G m (GNamed (cap t)) = Some z) as Gz.
  { intros m L. rewrite (gzero_eq fl ds E G Hs m false (declTypeTypespec (typeIdent t)) _ (CIdent (cap t)) eq_refl eq_refl eq_refl). eapply zero_mono; eassumption. }
  destruct (g06 D E (CIdent (cap t)) Hg data z (ex_intro _ n0 Hz)) as (A & e & x & Dx & Ae).
  destruct Dx as [nd Dx]. unfold DecodeBuf in Dx. destruct (xdr nd E (CIdent (cap t)) (MakeReader data) z) as [[s w]| |] eqn:Rx; cbn in Dx; try discriminate Dx.
  injection Dx as Es ->. destruct (gen_sim fl ds E G Hs _ c _ _ _ _ Hc (ex_intro _ nd Rx)) as [M1 C1].
  destruct e as [e|].
  - exists true. split; [split; [discriminate|intros Q; apply Ae in Q; discriminate]|].
    exists (n0 + M1)%nat. intros m L. apply (proj1 (closure_ok f v _ G m st data z s x Hf Hl Hz0 (Gz m ltac:(lia)) (C1 m ltac:(lia)))). congruence.
  - exists false. split; [split; [intros _; apply Ae; reflexivity|reflexivity]|].
    assert (Decode E (CIdent (cap t)) data z None x) as Dx by (exists nd; unfold DecodeBuf; rewrite Rx; cbn; rewrite Es; reflexivity).
    destruct (g05 D E (CIdent (cap t)) Hg data z x (ex_intro _ n0 Hz) Dx) as (b' & [ne En] & [n2 D2] & _).
    unfold EncodeBuf in En. destruct (xdr ne E (CIdent (cap t)) (MakeWriter []) x) as [[s2 v2]| |] eqn:R2; cbn in En; try discriminate En. injection En as E2a E2b.
    unfold DecodeBuf in D2. destruct (xdr n2 E (CIdent (cap t)) (MakeReader b') z) as [[s3 v3]| |] eqn:R3; cbn in D2; try discriminate D2. injection D2 as E3 ->.
    assert (has_ty E (CIdent (cap t)) x) as Tx.
    { destruct Hg as (W & T & Z0). eapply (runs_ty D E (CIdent (cap t)) W T); [|exists nd; exact Rx]. apply fresh_ty. exists n0. exact Hz. }
    destruct (g10 D E (CIdent (cap t)) Hg (MakeWriter []) x s2 v2 Tx eq_refl (ex_intro _ ne R2)) as [-> _].
    destruct (gen_sim fl ds E G Hs _ c _ _ _ _ Hc (ex_intro _ ne R2)) as [M2 C2]. destruct (gen_sim fl ds E G Hs _ c _ _ _ _ Hc (ex_intro _ n2 R3)) as [M3 C3].
    exists (n0 + M1 + M2 + M3)%nat. intros m L.
    apply (proj2 (closure_ok f v _ G m st data z s x Hf Hl Hz0 (Gz m ltac:(lia)) (C1 m ltac:(lia))) Es s2 s3 (C2 m ltac:(lia)) E2b). rewrite E2a. apply C3. lia.
Qed.
End Any.

Definition rpc_left : tst := match test_in rpc_fuzz (gp_pkg fx_rpc) 60 "FuzzDecodeEncode" with GRet st => st | _ => mkTst [] 0 [] None [] end.
Definition nfs_left : tst := match test_in nfs_fuzz (gp_pkg fx_nfs) 60 "FuzzDecodeEncode" with GRet st => st | _ => mkTst [] 0 [] None [] end.
Lemma rpc_left_ok : test_in rpc_fuzz (gp_pkg fx_rpc) 60 "FuzzDecodeEncode" = GRet rpc_left /\ left_by "m" "Rpc_msg" rpc_left /\ fuzzed rpc_left = Some (fuzz_params, fuzz_body "Rpc_msg") /\
  seeds rpc_left = [repeat x00 40; [x00; x00; x00; x01; x00; x00; x00; x02]; []].
Proof. split; [vm_compute; reflexivity|]. split; [do 4 eexists; vm_compute; reflexivity|]. split; vm_compute; reflexivity. Qed.
Lemma nfs_left_ok : test_in nfs_fuzz (gp_pkg fx_nfs) 60 "FuzzDecodeEncode" = GRet nfs_left /\ left_by "r" "READDIRPLUS3res" nfs_left /\ fuzzed nfs_left = Some (fuzz_params, fuzz_body "READDIRPLUS3res") /\
  seeds nfs_left = [repeat x00 24; repeat x00 19 ++ [x01] ++ repeat x00 31 ++ [x01] ++ repeat x00 36; []].
Proof. split; [vm_compute; reflexivity|]. split; [do 4 eexists; vm_compute; reflexivity|]. split; vm_compute; reflexivity. Qed.

Lemma existsb_in x l : existsb (String.eqb x) l = true -> In x l.
Proof. rewrite existsb_exists. intros (y & I & Q). apply String.eqb_eq in Q. subst y. exact I. Qed.
Lemma rpc_fuzz_runs P : declares "rfc1057" [rfc1057_xdr_go; rfc1057_types_go] P -> exists st,
  (forall m, (60 <= m)%nat -> test_in rpc_fuzz (gp_pkg P) m "FuzzDecodeEncode" = GRet st) /\
  seeds st = [repeat x00 40; [x00; x00; x00; x01; x00; x00; x00; x02]; []] /\
  forall data, exists early, (early = false <-> exists w rest y, data = w ++ rest /\ Wire DEC rpc_env (CIdent "Rpc_msg") y w /\ has_ty rpc_env (CIdent "Rpc_msg") y) /\
  exists M, forall m, (M <= m)%nat -> fuzz_in rpc_fuzz (gp_pkg P) m st data = GRet (st, early).
Proof.
  intros DP. destruct rpc_left_ok as (R & L & F & Sd). exists rpc_left. split; [|split; [exact Sd|]].
  - intros m Hm. rewrite (declares_det _ _ _ _ _ DP fx_rpc_declared). exact (test_mono _ _ _ _ _ _ Hm R).
  - intros data. destruct rfc1057_committed as (P' & S & D'). rewrite (declares_det _ _ _ _ _ DP D'). apply spec_prog_inv in S. destruct S as (ds & _ & _ & S).
    refine (fuzz_any _ _ _ _ _ S rpc_fuzz "m" "rpc_msg" _ data (or_introl eq_refl) L F (rfc1057_good _ _)). apply (existsb_in "Rpc_msg"). vm_compute. reflexivity.
Qed.
Lemma nfs_fuzz_runs P : declares "rfc1813" [rfc1813_xdr_go; rfc1813_types_go] P -> exists st,
  (forall m, (60 <= m)%nat -> test_in nfs_fuzz (gp_pkg P) m "FuzzDecodeEncode" = GRet st) /\
  seeds st = [repeat x00 24; repeat x00 19 ++ [x01] ++ repeat x00 31 ++ [x01] ++ repeat x00 36; []] /\
  forall data, exists early, (early = false <-> exists w rest y, data = w ++ rest /\ Wire DEC rfc1813_env (CIdent "READDIRPLUS3res") y w /\ has_ty rfc1813_env (CIdent "READDIRPLUS3res") y) /\
  exists M, forall m, (M <= m)%nat -> fuzz_in nfs_fuzz (gp_pkg P) m st data = GRet (st, early).
Proof.
  intros DP. destruct nfs_left_ok as (R & L & F & Sd). exists nfs_left. split; [|split; [exact Sd|]].
  - intros m Hm. rewrite (declares_det _ _ _ _ _ DP fx_nfs_declared). exact (test_mono _ _ _ _ _ _ Hm R).
  - intros data. destruct rfc1813_committed as (P' & S & D'). rewrite (declares_det _ _ _ _ _ DP D'). apply spec_prog_inv in S. destruct S as (ds & _ & _ & S).
    refine (fuzz_any _ _ _ _ _ S nfs_fuzz "r" "READDIRPLUS3res" _ data (or_intror eq_refl) L F (rfc1813_good _ _)). apply (existsb_in "READDIRPLUS3res"). vm_compute. reflexivity.
Qed.

(** ** xdr_test.go *)
(** The test with another expression in place of its literal (the second statement). *)
Definition relit (lit : tx) (body : list ts) : list ts :=
  match body with s :: TDef xs _ :: body => s :: TDef xs lit :: body | _ => body end.
Definition relit_in (lit : tx) (f : tfile) : tfile := mkTfile (t_pkg f) (t_imports f) (map (fun d => (fst d, (fst (snd d), relit lit (snd (snd d))))) (t_funcs f)).
(** [lit] is a literal with the value [v]. *)
Definition literal (lit : tx) (v : val) : Prop :=
  as_call lit = None /\ forall pkg Z0 K st, tval pkg Z0 K st lit = GRet (OVal v).
Lemma rhs_lit pkg im Z0 K X st lit v : literal lit v -> rhs pkg im Z0 K X st lit = GRet (st, [OVal v]).
Proof. intros [A B]. unfold rhs. rewrite A, B. reflexivity. Qed.
Ltac gx := cbn -[XdrString XdrVarArray zlen].
Ltac gx0 := cbn -[rhs XdrString XdrVarArray zlen].
Ltac start H :=
  unfold run_test, run_body, relit_in; gx0;
  match goal with |- context [rhs ?a ?b ?c ?d ?e ?st (call1 ?f ?l)] => let r := eval cbn in (rhs a b c d e st (call1 f l)) in change (rhs a b c d e st (call1 f l)) with r end;
  gx0; rewrite (rhs_lit _ _ _ _ _ _ _ _ H); gx.
Lemma any_string Z0 K X lit bs : literal lit (VStr bs) -> zlen bs <= 100 -> exists st,
  run_test (relit_in lit xdr_tests) Z0 K X "TestXdrString" = GRet st /\ asserts st = [true; true; true].
Proof.
  intros H L. destruct (c61_string 100 bs [] ltac:(lia) L ltac:(lia)) as (buf & H1 & H2 & _).
  eexists. start H. rewrite H1. gx. rewrite H2. gx. rewrite (proj2 (bytes_eqb_eq bs bs) eq_refl). split; reflexivity.
Qed.
Lemma any_array Z0 K X lit bs : literal lit (VBytes (Some bs)) -> zlen bs <= 100 -> exists st,
  run_test (relit_in lit xdr_tests) Z0 K X "TestXdrVarArray" = GRet st /\ asserts st = [true; true; true].
Proof.
  intros H L. destruct (c61_vararray 100 bs None ltac:(lia) L ltac:(lia)) as (buf & H1 & H2 & _).
  eexists. start H. rewrite H1. gx. rewrite H2. gx. rewrite (proj2 (bytes_eqb_eq bs bs) eq_refl). split; reflexivity.
Qed.
Lemma zlen_6 (l : list byte) : 6 < zlen l -> exists a b c d e f r, l = a :: b :: c :: d :: e :: f :: r /\ r <> [].
Proof. unfold zlen. intros H. do 6 (destruct l as [|? l]; [cbn in H; lia|]). do 7 eexists. split; [reflexivity|]. intros ->. cbn in H. lia. Qed.
Lemma fits_true k n : 0 <= n <= k -> k <= MaxUint32 -> fits k n = true.
Proof. intros A B. unfold fits. rewrite (proj2 (Z.leb_le n _)) by lia. rewrite (proj2 (Z.leb_le n k)) by lia. rewrite orb_true_r. reflexivity. Qed.
Lemma six z bs : 1 <= zlen bs -> 6 < zlen ([] ++ put_u32 z ++ bs ++ zeros (padlen (List.length bs))).
Proof.
  unfold zlen. intros H. cbn [List.app]. rewrite !List.app_length. change (List.length (put_u32 z)) with 4%nat.
  destruct bs as [|a [|b [|c bs]]]; cbn [List.length] in *; [lia|reflexivity|reflexivity|lia].
Qed.
Lemma any_large_string Z0 K X lit bs : literal lit (VStr bs) -> 1 <= zlen bs <= 100 -> exists st,
  run_test (relit_in lit xdr_tests) Z0 K X "TestLargeStringLength" = GRet st /\ asserts st = [true].
Proof.
  intros H L. destruct (c61_string 100 bs [] ltac:(lia) (proj2 L) ltac:(lia)) as (buf & H1 & _ & H3).
  assert (6 < zlen buf) as Lb.
  { pose proof H1 as Q. unfold MakeWriter in Q. rewrite XdrString_W in Q. rewrite (fits_true 100 (zlen bs)) in Q by (first [lia|vm_compute; discriminate]).
    injection Q as <-. apply six; exact (proj1 L). }
  destruct (zlen_6 buf Lb) as (a & b & c & d & e & f & r & -> & Hr). specialize (H3 6%nat). cbn [firstn] in H3.
  assert (6 < List.length (a :: b :: c :: d :: e :: f :: r))%nat as Q by (unfold zlen in Lb; lia). specialize (H3 Q).
  destruct (XdrString (MakeReader [a; b; c; d; e; f]) 100 []) as [[[er|] rd bf] x'] eqn:H2; cbn in H3; [clear H3|congruence].
  eexists. start H. rewrite H1. gx. rewrite (proj2 (Z.leb_le 6 _)) by lia. gx. change (Pos.to_nat 6) with 6%nat. gx. rewrite H2. gx. split; reflexivity.
Qed.
Lemma any_large_array Z0 K X lit bs : literal lit (VBytes (Some bs)) -> 1 <= zlen bs <= 100 -> exists st,
  run_test (relit_in lit xdr_tests) Z0 K X "TestLargeVarArrayLength" = GRet st /\ asserts st = [true].
Proof.
  intros H L. destruct (c61_vararray 100 bs None ltac:(lia) (proj2 L) ltac:(lia)) as (buf & H1 & _ & H3).
  assert (6 < zlen buf) as Lb.
  { pose proof H1 as Q. unfold MakeWriter in Q. rewrite XdrVarArray_W in Q. change (bytes_of (Some bs)) with bs in Q. rewrite (fits_true 100 (zlen bs)) in Q by (first [lia|vm_compute; discriminate]).
    injection Q as <-. apply six; exact (proj1 L). }
  destruct (zlen_6 buf Lb) as (a & b & c & d & e & f & r & -> & Hr). specialize (H3 6%nat). cbn [firstn] in H3.
  assert (6 < List.length (a :: b :: c :: d :: e :: f :: r))%nat as Q by (unfold zlen in Lb; lia). specialize (H3 Q).
  destruct (XdrVarArray (MakeReader [a; b; c; d; e; f]) 100 None) as [[[er|] rd bf] x'] eqn:H2; cbn in H3; [clear H3|congruence].
  eexists. start H. rewrite H1. gx. rewrite (proj2 (Z.leb_le 6 _)) by lia. gx. change (Pos.to_nat 6) with 6%nat. gx. rewrite H2. gx. split; reflexivity.
Qed.

(** The four tests as they stand. *)
Lemma xdr_tests_pass Z0 K X : map (fun d => match run_test xdr_tests Z0 K X (fst d) with GRet st => Some (fst d, asserts st) | _ => None end) (t_funcs xdr_tests) =
  [Some ("TestXdrString", [true; true; true]); Some ("TestLargeStringLength", [true]); Some ("TestXdrVarArray", [true; true; true]); Some ("TestLargeVarArrayLength", [true])].
Proof. vm_compute. reflexivity. Qed.
Lemma string_literal s t : str_lit t = Some s -> literal (TX (EStr t)) (VStr (list_byte_of_string s)).
Proof. intros H. split; [reflexivity|]. intros. cbn. rewrite H. reflexivity. Qed.
Lemma bytes_literal es bs : (forall pkg Z0 K st, tval pkg Z0 K st (TLit bytes_t es) = GRet (OVal (VBytes (Some bs)))) -> literal (TLit bytes_t es) (VBytes (Some bs)).
Proof. intros H. split; [reflexivity|exact H]. Qed.
(** An Xdr method that writes a zero byte for every value. *)
Definition bad_X (t : string) (s : xst) (v : val) : gor (xst * val) :=
  if x_reader s then GRet (s, VStr (x_buf s)) else GRet (MakeWriter [x00], v).
