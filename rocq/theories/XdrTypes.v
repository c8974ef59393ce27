(** The types of /repo/xdr/types.go (lines 7-12) with their Xdr methods (17-22), and the unit tests of
    /repo/xdr/xdr_test.go for arbitrary values.  Each method passes its receiver, converted to the underlying type, to
    the primitive, which is what [xdr] does for that type; Void's does nothing.  TRUE, FALSE (14-15) are the values of
    type Bool.  ProcRegistration (24-29) is [registration] of Server.v. *)
From Verif Require Import Bytes XdrLib Types Interp Spec Meta Runs Check Total Codec Codec2 Codec4 PrimProps.
Open Scope string_scope.
Open Scope Z_scope.
Open Scope list_scope.

Definition xdr_env : env :=
  [("Bool", CBool); ("Uint32", CU32); ("Int32", CS32); ("Uint64", CU64); ("Int64", CS64); ("Void", CStruct [])].
Lemma xdr_good x t : lookup x xdr_env = Some t -> good 2 xdr_env (CIdent x).
Proof.
  intros H. unfold xdr_env in H. cbn [lookup] in H.
  repeat match type of H with context [String.eqb ?a ?b] => destruct (String.eqb_spec a b) as [->|] end; try discriminate; apply (goodb_sound 2); reflexivity.
Qed.
(** The methods are the primitives. *)
Lemma xdr_methods n s : 
  (forall b, xdr (S (S n)) xdr_env (CIdent "Bool") s (VBool b) = let '(s', b') := XdrBool s b in Ret (s', VBool b')) /\
  (forall z, xdr (S (S n)) xdr_env (CIdent "Uint32") s (VInt z) = let '(s', z') := XdrU32 s z in Ret (s', VInt z')) /\
  (forall z, xdr (S (S n)) xdr_env (CIdent "Int32") s (VInt z) = let '(s', z') := XdrS32 s z in Ret (s', VInt z')) /\
  (forall z, xdr (S (S n)) xdr_env (CIdent "Uint64") s (VInt z) = let '(s', z') := XdrU64 s z in Ret (s', VInt z')) /\
  (forall z, xdr (S (S n)) xdr_env (CIdent "Int64") s (VInt z) = let '(s', z') := XdrS64 s z in Ret (s', VInt z')) /\
  xdr (S (S n)) xdr_env (CIdent "Void") s (VStruct []) = Ret (s, VStruct []).
Proof. repeat split. Qed.

Lemma enc_wire x t v b : lookup x xdr_env = Some t -> has_ty xdr_env t v -> Encode xdr_env (CIdent x) v b None <-> Wire ENC xdr_env t v b.
Proof.
  intros H Ht. pose proof (xdr_good x t H) as G. assert (Ht' : has_ty xdr_env (CIdent x) v) by (econstructor; eassumption).
  rewrite (proj1 (proj2 (proj2 (g03 _ _ _ G v Ht'))) b). split; intros W.
  - inversion W as [| | | | | | | | | | | | | | | |? ? ? ? L W']; subst. rewrite H in L. injection L as <-. exact W'.
  - econstructor; eassumption.
Qed.
Lemma dec_back x t v b rest z : lookup x xdr_env = Some t -> has_ty xdr_env t v -> canon xdr_env t v -> Wire ENC xdr_env t v b -> fresh xdr_env (CIdent x) z ->
  DecodeRest xdr_env (CIdent x) (b ++ rest) z rest v.
Proof.
  intros H Ht Hc W F. pose proof (xdr_good x t H) as G. assert (Ht' : has_ty xdr_env (CIdent x) v) by (econstructor; eassumption).
  destruct (g04 _ _ _ G v b rest z Ht' (proj2 (enc_wire x t v b H Ht) W) F) as (y & D & _ & _ & _ & Q).
  rewrite (Q ltac:(econstructor; eassumption)) in D. exact D.
Qed.
Lemma c61_wrappers :
  (forall v b, Encode xdr_env (CIdent "Bool") (VBool v) b None <-> is_be 4 (if v then 1 else 0) b) /\
  (forall z b, 0 <= z < 2 ^ 32 -> Encode xdr_env (CIdent "Uint32") (VInt z) b None <-> is_be 4 z b) /\
  (forall z b, - 2 ^ 31 <= z < 2 ^ 31 -> Encode xdr_env (CIdent "Int32") (VInt z) b None <-> is_be 4 (z mod 2 ^ 32) b) /\
  (forall z b, 0 <= z < 2 ^ 64 -> Encode xdr_env (CIdent "Uint64") (VInt z) b None <-> is_be 8 z b) /\
  (forall z b, - 2 ^ 63 <= z < 2 ^ 63 -> Encode xdr_env (CIdent "Int64") (VInt z) b None <-> is_be 8 (z mod 2 ^ 64) b) /\
  (forall b, Encode xdr_env (CIdent "Void") (VStruct []) b None <-> b = []).
Proof.
  split; [|split; [|split; [|split; [|split]]]].
  - intros v b. rewrite (enc_wire "Bool" CBool) by (reflexivity || constructor). split.
    + intros W. inversion W; subst; [assumption|]. rewrite <- (H2 eq_refl). assumption.
    + intros W. destruct v; [eapply W_true; [exact W|lia|auto]|constructor; exact W].
  - intros z b Hz. rewrite (enc_wire "Uint32" CU32) by (reflexivity || constructor; exact Hz). split; intros W; [inversion W; assumption|constructor; assumption].
  - intros z b Hz. rewrite (enc_wire "Int32" CS32) by (reflexivity || constructor; exact Hz). split; intros W; [inversion W; assumption|constructor; assumption].
  - intros z b Hz. rewrite (enc_wire "Uint64" CU64) by (reflexivity || constructor; exact Hz). split; intros W; [inversion W; assumption|constructor; assumption].
  - intros z b Hz. rewrite (enc_wire "Int64" CS64) by (reflexivity || constructor; exact Hz). split; intros W; [inversion W; assumption|constructor; assumption].
  - intros b. rewrite (enc_wire "Void" (CStruct [])) by (reflexivity || (constructor; constructor)). split; intros W; [|subst; constructor; constructor].
    inversion W as [| | | | | | | | | | | |? ? ? F| | | |]; subst. inversion F. reflexivity.
Qed.
Lemma c61_back x t v b rest z : In (x, t) xdr_env -> has_ty xdr_env t v -> Encode xdr_env (CIdent x) v b None -> fresh xdr_env (CIdent x) z ->
  DecodeRest xdr_env (CIdent x) (b ++ rest) z rest v.
Proof.
  intros H Ht He F. assert (L : lookup x xdr_env = Some t).
  { cbn [In xdr_env] in H. repeat (destruct H as [[= <- <-]|H]; [reflexivity|]). destruct H. }
  apply (enc_wire x t v b L Ht) in He. eapply dec_back; try eassumption.
  cbn [In xdr_env] in H. repeat (destruct H as [[= <- <-]|H]; [inversion Ht; subst; try constructor|]); [|destruct H].
  inversion H0; constructor.
Qed.

(** ** xdr_test.go *)
Lemma cut_fails t v w k old : wf_ty 1 [] t -> zero 1 [] t <> None -> has_ty [] t v -> has_ty [] t old -> xdr 1 [] t (MakeWriter []) v = Ret (MakeWriter w, v) ->
  (k < List.length w)%nat -> forall s' x', xdr 1 [] t (MakeReader (firstn k w)) old = Ret (s', x') -> Error s' <> None.
Proof.
  intros Hw Hz Ht Ho He Hk s' x' Hd. assert (G : good 1 [] t) by (split; [intros x t0 Q; discriminate Q|split; assumption]).
  destruct (g07 _ _ _ G v w (firstn k w) (skipn k w) old Ht) as (e & y & n & D).
  - exists 1%nat. unfold EncodeBuf. rewrite He. reflexivity.
  - symmetry. apply firstn_skipn.
  - intros Q. apply (f_equal (@List.length _)) in Q. rewrite skipn_length in Q. cbn in Q. lia.
  - exact Ho.
  - unfold DecodeBuf in D. destruct (xdr n [] t (MakeReader (firstn k w)) old) as [[s2 v2]| |] eqn:E2; try discriminate.
    pose proof (xdr_mono n (n + 1) [] t _ _ _ ltac:(lia) E2) as M. rewrite (xdr_mono 1 (n + 1) [] t _ _ _ ltac:(lia) Hd) in M. injection M as -> ->. injection D as D _. congruence.
Qed.
Lemma c61_string m s old : 0 <= m -> zlen s <= m -> zlen s < 2 ^ 32 -> exists buf,
  XdrString (MakeWriter []) m s = (MakeWriter buf, s) /\
  XdrString (MakeReader buf) m old = (MakeReader [], s) /\
  forall k, (k < List.length buf)%nat -> Error (fst (XdrString (MakeReader (firstn k buf)) m old)) <> None.
Proof.
  intros Hm Hl H32. pose proof (c01 [] []) as C. do 7 apply proj2 in C. destruct (C m s old H32 (fun _ => Hl)) as (w & E1 & E2). cbn [app] in E1. rewrite app_nil_r in E2.
  exists w. split; [exact E1|]. split; [exact E2|]. intros k Hk.
  assert (X : forall st x, xdr 1 [] (CString (Some m)) st (VStr x) = let '(s', x') := XdrString st m x in Ret (s', VStr x')) by reflexivity.
  destruct (XdrString (MakeReader (firstn k w)) m old) as [s' x'] eqn:E3. cbn [fst].
  eapply (cut_fails (CString (Some m)) (VStr s) w k (VStr old)); [constructor; exact Hm|discriminate|constructor|constructor| |exact Hk|].
  - rewrite X, E1. reflexivity.
  - rewrite X, E3. reflexivity.
Qed.
Lemma c61_vararray m s old : 0 <= m -> zlen s <= m -> zlen s < 2 ^ 32 -> exists buf,
  XdrVarArray (MakeWriter []) m (Some s) = (MakeWriter buf, Some s) /\
  XdrVarArray (MakeReader buf) m old = (MakeReader [], Some s) /\
  forall k, (k < List.length buf)%nat -> Error (fst (XdrVarArray (MakeReader (firstn k buf)) m old)) <> None.
Proof.
  intros Hm Hl H32. pose proof (c01 [] []) as C. do 6 apply proj2 in C. destruct (proj1 C m s old H32 (fun _ => Hl)) as (w & E1 & E2). cbn [app] in E1. rewrite app_nil_r in E2.
  exists w. split; [exact E1|]. split; [exact E2|]. intros k Hk.
  assert (X : forall st x, xdr 1 [] (CVarOpaque (Some m)) st (VBytes x) = let '(s', x') := XdrVarArray st m x in Ret (s', VBytes x')) by reflexivity.
  destruct (XdrVarArray (MakeReader (firstn k w)) m old) as [s' x'] eqn:E3. cbn [fst].
  eapply (cut_fails (CVarOpaque (Some m)) (VBytes (Some s)) w k (VBytes old)); [constructor; exact Hm|discriminate|constructor|constructor| |exact Hk|].
  - rewrite X, E1. reflexivity.
  - rewrite X, E3. reflexivity.
Qed.
