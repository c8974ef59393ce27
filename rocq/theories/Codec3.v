(** Remaining codec property proofs (C13 arrays, C16-C18, C22). *)
From Verif Require Import Bytes XdrLib Types Interp Spec Prim Meta Enc Dec Total Canon Local Runs
  Codec Codec2 Alloc.
Open Scope string_scope.
Open Scope Z_scope.
Open Scope list_scope.

(** *** C13 for arrays of other elements *)
Lemma c13_array_enc D E t k o : wf_env D E -> wf_ty D E (CVarArray (Some k) t) ->
  has_ty E (CVarArray (Some k) t) (VSlice o) ->
  exists b e, Encode E (CVarArray (Some k) t) (VSlice o) b e /\
    (zlen (elems o) < 2 ^ 32 -> zlen (elems o) <= k ->
     (forall x, In x (elems o) -> bounded ENC E t x) -> e = None) /\
    (k < zlen (elems o) -> e <> None).
Proof.
  intros Hwf Ht Hv. destruct (c03 D E _ Hwf Ht _ Hv) as ((b & e & He) & Hb & _).
  exists b, e. split; [exact He|]. specialize (Hb b e He). split.
  - intros H1 H2 H3. apply Hb. constructor; [split; auto|].
    clear - H3. induction (elems o) as [|x l IH]; constructor; [apply H3; left; reflexivity|].
    apply IH. intros y Hy. apply H3. right. exact Hy.
  - intros Hk ->. destruct Hb as [Hb _]. specialize (Hb eq_refl). inversion Hb as [| | | | | | | |? ? ? Hw _| | | | | |]; subst.
    destruct Hw as [_ Hw]. lia.
Qed.

Lemma c13_array_dec_ok D E t m hd body rest l z : wf_env D E -> wf_ty D E (CVarArray m t) ->
  within m (zlen l) -> is_be 4 (zlen l) hd -> WireList DEC E t l body ->
  fresh E (CVarArray m t) z ->
  exists l', DecodeRest E (CVarArray m t) (hd ++ body ++ rest) z rest (VSlice (Some l')) /\
    sames E t l l'.
Proof.
  intros Hwf Ht Hw Hh Hb Hz.
  assert (W : Wire DEC E (CVarArray m t) (VSlice (Some l)) (hd ++ body)) by (econstructor; eauto).
  assert (Hz0 : zero D E (CVarArray m t) <> None).
  { inversion Ht as [| | | | | | | |? ? _ _ Hz0| | | |]; subst. destruct D; [exfalso; apply Hz0; reflexivity|]. discriminate. }
  destruct (c19 D E _ Hwf Ht Hz0 DEC _ rest _ z W Hz) as (x & Hx & Hs).
  rewrite <- app_assoc in Hx. inversion Hs as [| | | | | | | |? ? ? o2 Hs'| | | | | |]; subst.
  destruct o2 as [l'|]; [eauto|].
  exfalso. destruct Hz as [k Hz]. destruct k; [discriminate|]. injection Hz as <-.
  assert (Hf : fresh E (CVarArray m t) (VSlice None)) by (exists 1%nat; reflexivity).
  pose proof (runs_fresh_canon D E _ Hwf Ht _ _ _ _ Hf Hx) as Hc. inversion Hc.
Qed.

(** *** C17 *)
Lemma c17 n E t b v s' v' a : xdrA n E t (MakeReader b) v = Ret (s', v', a) ->
  xdr n E t (MakeReader b) v = Ret (s', v') /\ Forall alloc_ok a /\
  4 * zlen a + str_bytes a <= zlen b.
Proof.
  intros H. split.
  - rewrite <- xdrA_erase, H. reflexivity.
  - destruct (alloc_cost n E t (MakeReader b) v s' v' a eq_refl H) as (_ & H1 & H2).
    split; [exact H1|]. change (x_buf (MakeReader b)) with b in H2. pose proof (zlen_nonneg (x_buf s')). lia.
Qed.

Lemma c17_defined D E t b v : good D E t -> has_ty E t v ->
  exists n s' v' a, xdrA n E t (MakeReader b) v = Ret (s', v', a).
Proof.
  intros (Hwf & Ht & Hz) Hv.
  destruct (c14 D E t Hwf Ht Hz (MakeReader b) v eq_refl Hv) as (N & [s' v'] & H).
  specialize (H N (le_n _)). rewrite <- xdrA_erase in H.
  exists N, s', v'. destruct (xdrA N E t (MakeReader b) v) as [[[s1 v1] a]| |]; try discriminate.
  injection H as -> ->. eauto.
Qed.

Lemma c17_unbounded D E t : good D E (CVarArray None t) ->
  exists n s' v' a, xdrA n E (CVarArray None t) (MakeReader [xff; xff; xff; xff]) (VSlice None)
    = Ret (s', v', AElems None (2 ^ 32 - 1) :: a).
Proof.
  intros H. destruct (c17_defined D E _ [xff; xff; xff; xff] (VSlice None) H) as (n & s' & v' & a & K).
  { constructor. constructor. }
  pose proof K as K'. change [xff; xff; xff; xff] with ([xff; xff; xff; xff] ++ []) in K'.
  apply alloc_unbounded in K'; [|reflexivity]. destruct K' as [a' ->]. eauto.
Qed.

(** *** C18 *)
Lemma c18_stale E t rest o : DecodeRest E (CPtr t) ([x00; x00; x00; x00] ++ rest) (VPtr o) rest (VPtr o).
Proof.
  exists 1%nat. cbn [xdr]. unfold MakeReader. rewrite Encoding_R. cbn [obind].
  rewrite Decoding_R. rewrite XdrBool_R by reflexivity. reflexivity.
Qed.

(** *** C22 *)
Lemma c22 E z rest v0 : 0 <= z < 2 ^ 32 -> exists b, Encode E CU32 (VInt z) b None /\
  DecodeRest E CU32 (b ++ rest) (VInt v0) rest (VInt z).
Proof.
  intros H. exists (put_u32 z). split.
  - exists 1%nat. unfold EncodeBuf, MakeWriter. cbn [xdr]. rewrite XdrU32_W. reflexivity.
  - exists 1%nat. unfold MakeReader. cbn [xdr]. rewrite XdrU32_R by reflexivity.
    destruct (is_be_put_u32 _ H) as [_ ->]. reflexivity.
Qed.
Lemma c22_s E z rest v0 : - 2 ^ 31 <= z < 2 ^ 31 -> exists b, Encode E CS32 (VInt z) b None /\
  DecodeRest E CS32 (b ++ rest) (VInt v0) rest (VInt z).
Proof.
  intros H. exists (put_u32 (to_u32 z)). split.
  - exists 1%nat. unfold EncodeBuf, MakeWriter. cbn [xdr]. rewrite XdrS32_W. reflexivity.
  - exists 1%nat. unfold MakeReader. cbn [xdr]. rewrite XdrS32_R by reflexivity.
    destruct (is_be_put_s32 z) as [_ ->]. rewrite to_s32_id by exact H. reflexivity.
Qed.

(** *** C19: different paddings, equal values *)
Lemma c19_eq D E t : good D E t -> forall p q w w' rest v z,
  Wire p E t v w -> Wire q E t v w' -> fresh E t z ->
  exists x, DecodeRest E t (w ++ rest) z rest x /\ DecodeRest E t (w' ++ rest) z rest x /\ same E t v x.
Proof.
  intros (Hwf & Ht & Hz0) p q w w' rest v z H1 H2 Hz.
  destruct (c19 D E t Hwf Ht Hz0 p w rest v z H1 Hz) as (x & Hx & Hsx).
  destruct (c19 D E t Hwf Ht Hz0 q w' rest v z H2 Hz) as (y & Hy & Hsy).
  exists x. split; [exact Hx|]. split; [|exact Hsx].
  pose proof (runs_fresh_canon D E t Hwf Ht _ _ _ _ Hz Hx) as Kx.
  pose proof (runs_fresh_canon D E t Hwf Ht _ _ _ _ Hz Hy) as Ky.
  pose proof (fresh_ty E t _ Hz) as Tz.
  pose proof (runs_ty D E t Hwf Ht _ _ _ _ Tz Hx) as Tx.
  pose proof (runs_ty D E t Hwf Ht _ _ _ _ Tz Hy) as Ty.
  assert (x = y) as ->; [|exact Hy].
  eapply same_canon_eq; eauto. eapply same_trans; [apply (proj1 (same_sym E)); exact Hsx|exact Hsy].
Qed.

Lemma c19_fixed v v0 pad rest : List.length v0 = List.length v -> (List.length pad < 4)%nat ->
  zlen (v ++ pad) mod 4 = 0 -> XdrArray (MakeReader (v ++ pad ++ rest)) v0 = (MakeReader rest, v).
Proof.
  intros H1 H2 H3. apply XdrArray_R; [congruence|].
  unfold zlen in H3. rewrite app_length in H3. apply pad_unique; auto.
Qed.
