(** Round trip and wire format of the primitives (proofs for P_Prim.v). *)
From Verif Require Import Bytes XdrLib Types Interp Spec Prim Enc Runs Codec2.
Open Scope string_scope.
Open Scope Z_scope.
Open Scope list_scope.

Definition pad_ok (n : nat) (pad : list byte) : Prop :=
  (List.length pad < 4)%nat /\ Z.of_nat (n + List.length pad) mod 4 = 0 /\
  Forall (fun b => b = x00) pad.

Lemma pad_ok_zeros n : pad_ok n (zeros (padlen n)).
Proof.
  repeat split; rewrite ?zeros_length; auto using padlen_lt, padlen_mod, zeros_Forall.
Qed.

Lemma bool_rt b v v0 rest : exists w,
  XdrBool (MakeWriter b) v = (MakeWriter (b ++ w), v) /\ is_be 4 (if v then 1 else 0) w /\
  XdrBool (MakeReader (w ++ rest)) v0 = (MakeReader rest, v).
Proof.
  exists (put_u32 (if v then 1 else 0)). unfold MakeWriter, MakeReader. split; [apply XdrBool_W|].
  split; [apply is_be_put_u32; destruct v; lia|].
  rewrite XdrBool_R by reflexivity. destruct v; reflexivity.
Qed.

Lemma u32_rt b v v0 rest : 0 <= v < 2 ^ 32 -> exists w,
  XdrU32 (MakeWriter b) v = (MakeWriter (b ++ w), v) /\ is_be 4 v w /\
  XdrU32 (MakeReader (w ++ rest)) v0 = (MakeReader rest, v).
Proof.
  intros Hv. exists (put_u32 v). unfold MakeWriter, MakeReader. split; [apply XdrU32_W|].
  pose proof (is_be_put_u32 _ Hv) as H. split; [exact H|].
  rewrite XdrU32_R by reflexivity. f_equal. apply H.
Qed.

Lemma s32_rt b v v0 rest : - 2 ^ 31 <= v < 2 ^ 31 -> exists w,
  XdrS32 (MakeWriter b) v = (MakeWriter (b ++ w), v) /\ is_be 4 (v mod 2 ^ 32) w /\
  XdrS32 (MakeReader (w ++ rest)) v0 = (MakeReader rest, v).
Proof.
  intros Hv. exists (put_u32 (to_u32 v)). unfold MakeWriter, MakeReader. split; [apply XdrS32_W|].
  pose proof (is_be_put_s32 v) as H. split; [exact H|].
  rewrite XdrS32_R by reflexivity. f_equal. destruct H as [_ ->]. apply to_s32_id. exact Hv.
Qed.

Lemma u64_rt b v v0 rest : 0 <= v < 2 ^ 64 -> exists w,
  XdrU64 (MakeWriter b) v = (MakeWriter (b ++ w), v) /\ is_be 8 v w /\
  XdrU64 (MakeReader (w ++ rest)) v0 = (MakeReader rest, v).
Proof.
  intros Hv. exists (put_u64 v). unfold MakeWriter, MakeReader. split; [apply XdrU64_W|].
  pose proof (is_be_put_u64 _ Hv) as H. split; [exact H|].
  rewrite XdrU64_R by reflexivity. f_equal. apply H.
Qed.

Lemma s64_rt b v v0 rest : - 2 ^ 63 <= v < 2 ^ 63 -> exists w,
  XdrS64 (MakeWriter b) v = (MakeWriter (b ++ w), v) /\ is_be 8 (v mod 2 ^ 64) w /\
  XdrS64 (MakeReader (w ++ rest)) v0 = (MakeReader rest, v).
Proof.
  intros Hv. exists (put_u64 (to_u64 v)). unfold MakeWriter, MakeReader. split; [apply XdrS64_W|].
  pose proof (is_be_put_s64 v) as H. split; [exact H|].
  rewrite XdrS64_R by reflexivity. f_equal. destruct H as [_ ->]. apply to_s64_id. exact Hv.
Qed.

Lemma array_rt b v v0 rest : List.length v0 = List.length v -> exists pad,
  XdrArray (MakeWriter b) v = (MakeWriter (b ++ v ++ pad), v) /\ pad_ok (List.length v) pad /\
  XdrArray (MakeReader (v ++ pad ++ rest)) v0 = (MakeReader rest, v).
Proof.
  intros Hl. exists (zeros (padlen (List.length v))). unfold MakeWriter, MakeReader.
  split; [apply XdrArray_W|]. split; [apply pad_ok_zeros|].
  apply XdrArray_R; [congruence|apply zeros_length].
Qed.

Lemma fits_in m n : fits_max m n -> in_bound m n = true.
Proof. intros [_ H]. apply in_bound_iff. exact H. Qed.

Lemma vararray_rt b m v v0 rest : fits_max m (zlen (bytes_of v)) -> exists hd pad,
  XdrVarArray (MakeWriter b) m v = (MakeWriter (b ++ hd ++ bytes_of v ++ pad), v) /\
  is_be 4 (zlen (bytes_of v)) hd /\ pad_ok (List.length (bytes_of v)) pad /\
  XdrVarArray (MakeReader (hd ++ bytes_of v ++ pad ++ rest)) m v0
    = (MakeReader rest, Some (bytes_of v)).
Proof.
  intros Hf. exists (put_u32 (zlen (bytes_of v))), (zeros (padlen (List.length (bytes_of v)))).
  unfold MakeWriter, MakeReader. rewrite XdrVarArray_W, (proj2 (fits_max_iff _ _) Hf).
  pose proof (is_be_put_u32 (zlen (bytes_of v)) (conj (zlen_nonneg _) (proj1 Hf))) as H.
  split; [reflexivity|]. split; [exact H|]. split; [apply pad_ok_zeros|].
  apply XdrVarArray_R; [reflexivity|apply H|apply zeros_length|apply fits_in; exact Hf].
Qed.

Lemma string_rt b m v v0 rest : fits_max m (zlen v) -> exists hd pad,
  XdrString (MakeWriter b) m v = (MakeWriter (b ++ hd ++ v ++ pad), v) /\
  is_be 4 (zlen v) hd /\ pad_ok (List.length v) pad /\
  XdrString (MakeReader (hd ++ v ++ pad ++ rest)) m v0 = (MakeReader rest, v).
Proof.
  intros Hf. exists (put_u32 (zlen v)), (zeros (padlen (List.length v))).
  unfold MakeWriter, MakeReader. rewrite XdrString_W, (proj2 (fits_max_iff _ _) Hf).
  pose proof (is_be_put_u32 (zlen v) (conj (zlen_nonneg _) (proj1 Hf))) as H.
  split; [reflexivity|]. split; [exact H|]. split; [apply pad_ok_zeros|].
  apply XdrString_R; [reflexivity|apply H|apply zeros_length|apply fits_in; exact Hf].
Qed.

(** C01 *)
Lemma c01 b rest :
  (forall v v0, exists w, XdrBool (MakeWriter b) v = (MakeWriter (b ++ w), v) /\
     XdrBool (MakeReader (w ++ rest)) v0 = (MakeReader rest, v)) /\
  (forall v v0, 0 <= v < 2 ^ 32 -> exists w, XdrU32 (MakeWriter b) v = (MakeWriter (b ++ w), v) /\
     XdrU32 (MakeReader (w ++ rest)) v0 = (MakeReader rest, v)) /\
  (forall v v0, - 2 ^ 31 <= v < 2 ^ 31 -> exists w, XdrS32 (MakeWriter b) v = (MakeWriter (b ++ w), v) /\
     XdrS32 (MakeReader (w ++ rest)) v0 = (MakeReader rest, v)) /\
  (forall v v0, 0 <= v < 2 ^ 64 -> exists w, XdrU64 (MakeWriter b) v = (MakeWriter (b ++ w), v) /\
     XdrU64 (MakeReader (w ++ rest)) v0 = (MakeReader rest, v)) /\
  (forall v v0, - 2 ^ 63 <= v < 2 ^ 63 -> exists w, XdrS64 (MakeWriter b) v = (MakeWriter (b ++ w), v) /\
     XdrS64 (MakeReader (w ++ rest)) v0 = (MakeReader rest, v)) /\
  (forall v v0, List.length v0 = List.length v -> exists w,
     XdrArray (MakeWriter b) v = (MakeWriter (b ++ w), v) /\
     XdrArray (MakeReader (w ++ rest)) v0 = (MakeReader rest, v)) /\
  (forall m v v0, zlen v < 2 ^ 32 -> (0 <= m -> zlen v <= m) -> exists w,
     XdrVarArray (MakeWriter b) m (Some v) = (MakeWriter (b ++ w), Some v) /\
     XdrVarArray (MakeReader (w ++ rest)) m v0 = (MakeReader rest, Some v)) /\
  (forall m v v0, zlen v < 2 ^ 32 -> (0 <= m -> zlen v <= m) -> exists w,
     XdrString (MakeWriter b) m v = (MakeWriter (b ++ w), v) /\
     XdrString (MakeReader (w ++ rest)) m v0 = (MakeReader rest, v)).
Proof.
  repeat apply conj.
  - intros. destruct (bool_rt b v v0 rest) as (w & ? & ? & ?). eauto.
  - intros. destruct (u32_rt b v v0 rest) as (w & ? & ? & ?); eauto.
  - intros. destruct (s32_rt b v v0 rest) as (w & ? & ? & ?); eauto.
  - intros. destruct (u64_rt b v v0 rest) as (w & ? & ? & ?); eauto.
  - intros. destruct (s64_rt b v v0 rest) as (w & ? & ? & ?); eauto.
  - intros. destruct (array_rt b v v0 rest) as (pad & ? & ? & ?); auto.
    exists (v ++ pad). rewrite <- app_assoc. auto.
  - intros. destruct (vararray_rt b m (Some v) v0 rest) as (hd & pad & ? & ? & ? & ?); [split; auto|].
    exists (hd ++ v ++ pad). rewrite <- !app_assoc. auto.
  - intros. destruct (string_rt b m v v0 rest) as (hd & pad & ? & ? & ? & ?); [split; auto|].
    exists (hd ++ v ++ pad). rewrite <- !app_assoc. auto.
Qed.

(** C02 *)
Lemma c02 b :
  (forall v, exists w, XdrBool (MakeWriter b) v = (MakeWriter (b ++ w), v) /\
     is_be 4 (if v then 1 else 0) w) /\
  (forall v, 0 <= v < 2 ^ 32 -> exists w, XdrU32 (MakeWriter b) v = (MakeWriter (b ++ w), v) /\ is_be 4 v w) /\
  (forall v, - 2 ^ 31 <= v < 2 ^ 31 -> exists w, XdrS32 (MakeWriter b) v = (MakeWriter (b ++ w), v) /\
     is_be 4 (if v <? 0 then v + 2 ^ 32 else v) w) /\
  (forall v, 0 <= v < 2 ^ 64 -> exists w, XdrU64 (MakeWriter b) v = (MakeWriter (b ++ w), v) /\ is_be 8 v w) /\
  (forall v, - 2 ^ 63 <= v < 2 ^ 63 -> exists w, XdrS64 (MakeWriter b) v = (MakeWriter (b ++ w), v) /\
     is_be 8 (if v <? 0 then v + 2 ^ 64 else v) w) /\
  (forall v, exists pad, XdrArray (MakeWriter b) v = (MakeWriter (b ++ v ++ pad), v) /\
     pad_ok (List.length v) pad) /\
  (forall m v, zlen (bytes_of v) < 2 ^ 32 -> (0 <= m -> zlen (bytes_of v) <= m) -> exists hd pad,
     XdrVarArray (MakeWriter b) m v = (MakeWriter (b ++ hd ++ bytes_of v ++ pad), v) /\
     is_be 4 (zlen (bytes_of v)) hd /\ pad_ok (List.length (bytes_of v)) pad) /\
  (forall m v, zlen v < 2 ^ 32 -> (0 <= m -> zlen v <= m) -> exists hd pad,
     XdrString (MakeWriter b) m v = (MakeWriter (b ++ hd ++ v ++ pad), v) /\
     is_be 4 (zlen v) hd /\ pad_ok (List.length v) pad).
Proof.
  repeat apply conj.
  - intros. destruct (bool_rt b v v []) as (w & ? & ? & ?). eauto.
  - intros. destruct (u32_rt b v v []) as (w & ? & ? & ?); eauto.
  - intros v Hv. destruct (s32_rt b v v []) as (w & ? & Hw & ?); auto. exists w. split; auto.
    replace (if v <? 0 then v + 2 ^ 32 else v) with (v mod 2 ^ 32); [exact Hw|].
    rewrite pow32. rewrite pow31 in Hv.
    destruct (Z.ltb_spec v 0); Z.div_mod_to_equations; lia.
  - intros. destruct (u64_rt b v v []) as (w & ? & ? & ?); eauto.
  - intros v Hv. destruct (s64_rt b v v []) as (w & ? & Hw & ?); auto. exists w. split; auto.
    replace (if v <? 0 then v + 2 ^ 64 else v) with (v mod 2 ^ 64); [exact Hw|].
    rewrite pow64. rewrite pow63 in Hv.
    destruct (Z.ltb_spec v 0); Z.div_mod_to_equations; lia.
  - intros. destruct (array_rt b v v []) as (pad & ? & ? & ?); eauto.
  - intros m v H1 H2. destruct (vararray_rt b m v v []) as (hd & pad & ? & ? & ? & ?); [split; auto|]. eauto.
  - intros m v H1 H2. destruct (string_rt b m v v []) as (hd & pad & ? & ? & ? & ?); [split; auto|]. eauto.
Qed.

(** C20 *)
Lemma c20 hd rest v0 : List.length hd = 4%nat ->
  exists r, XdrBool (MakeReader (hd ++ rest)) v0 = (MakeReader rest, r) /\
    (r = false <-> hd = [x00; x00; x00; x00]).
Proof.
  intros Hl. exists (negb (be_val hd =? 0)). unfold MakeReader. split; [apply XdrBool_R; exact Hl|].
  rewrite negb_false_iff, Z.eqb_eq. split; [|intros ->; reflexivity].
  intros H. apply be_val_inj; [rewrite Hl; reflexivity|]. rewrite H. reflexivity.
Qed.

Lemma c20_w b v : XdrBool (MakeWriter b) v
  = (MakeWriter (b ++ if v then [x00; x00; x00; x01] else [x00; x00; x00; x00]), v).
Proof. unfold MakeWriter. rewrite XdrBool_W. destruct v; reflexivity. Qed.
