(** The codec properties in their final form (proofs; the statements are repeated in the
    P files). *)
From Verif Require Import Bytes XdrLib Types Interp Spec Prim Meta Enc Dec Total Canon Local Runs.
Open Scope string_scope.
Open Scope Z_scope.
Open Scope list_scope.

Lemma strict_ENC : strict ENC. Proof. split; reflexivity. Qed.
Lemma strict_RFC : strict RFC. Proof. split; reflexivity. Qed.

(** ** Big-step relations are deterministic *)
Lemma runs_det E t s v s1 v1 s2 v2 :
  runs E t s v s1 v1 -> runs E t s v s2 v2 -> s1 = s2 /\ v1 = v2.
Proof.
  intros [n H] [m K]. pose proof (xdr_det _ _ _ _ _ _ _ _ H K) as [= -> ->]. auto.
Qed.

Lemma Encode_runs E t v b e :
  Encode E t v b e <-> exists s v', runs E t (WR []) v s v' /\ x_buf s = b /\ x_err s = e.
Proof.
  unfold Encode, EncodeBuf, runs. split.
  - intros [n H]. bind_inv H as s v' K. injection H as <- <-.
    exists s, v'. repeat split. exists n. exact K.
  - intros (s & v' & [n K] & <- & <-). exists n. unfold MakeWriter. rewrite K. reflexivity.
Qed.

Lemma Decode_runs E t b v e v' :
  Decode E t b v e v' <-> exists s, runs E t (RD b) v s v' /\ x_err s = e.
Proof.
  unfold Decode, DecodeBuf, runs. split.
  - intros [n H]. bind_inv H as s w K. injection H as <- <-.
    exists s. split; [|reflexivity]. exists n. exact K.
  - intros (s & [n K] & <-). exists n. unfold MakeReader. rewrite K. reflexivity.
Qed.

Lemma Encode_det E t v b e b' e' : Encode E t v b e -> Encode E t v b' e' -> b = b' /\ e = e'.
Proof.
  rewrite !Encode_runs. intros (s & x & H & <- & <-) (s' & x' & K & <- & <-).
  destruct (runs_det _ _ _ _ _ _ _ _ H K) as [-> _]. auto.
Qed.

Lemma Decode_det E t b v e x e' x' : Decode E t b v e x -> Decode E t b v e' x' -> e = e' /\ x = x'.
Proof.
  rewrite !Decode_runs. intros (s & H & <-) (s' & K & <-).
  destruct (runs_det _ _ _ _ _ _ _ _ H K) as [-> ->]. auto.
Qed.

Section Codec.
Variables (D : nat) (E : env) (t : cty).
Hypothesis Hwf : wf_env D E.
Hypothesis Ht : wf_ty D E t.
Hypothesis Hz0 : zero D E t <> None.

Lemma fresh_ex : exists z, fresh E t z.
Proof. unfold fresh. destruct (zero D E t) as [z|] eqn:Ez; [exists z, D; exact Ez|congruence]. Qed.
Lemma fresh_D z : fresh E t z -> zero D E t = Some z.
Proof.
  intros [n H]. pose proof Hz0 as Hz. destruct (zero D E t) as [y|] eqn:Ey; [|congruence].
  f_equal. eapply zero_det; eauto.
Qed.
Lemma fresh_ty z : fresh E t z -> has_ty E t z.
Proof. intros [n H]. eapply zero_ty; eauto. Qed.
Lemma fresh_stale z : fresh E t z -> no_stale z = true.
Proof. intros [n H]. eapply zero_no_stale; eauto. Qed.

(** *** Termination *)
Lemma runs_dec b v : has_ty E t v -> exists s x, runs E t (RD b) v s x.
Proof.
  intros Hv. pose proof Hz0 as Hz.
  destruct (dec_total D E Hwf (D + need (RD b) * D) D t (need (RD b)) Ht Hz (le_n _) (RD b) v)
    as (s & x & H); auto.
  exists s, x. eexists. exact H.
Qed.

Lemma runs_enc s v : x_reader s = false -> has_ty E t v -> exists s' x, runs E t s v s' x.
Proof.
  intros Hs Hv. destruct (enc_total D E Hwf _ _ Ht Hv) as [n Hn].
  destruct (Hn s Hs) as (s' & x & H). exists s', x, n. exact H.
Qed.

Lemma dec_outcome b v : has_ty E t v -> no_stale v = true ->
  (exists w rest x, b = w ++ rest /\ runs E t (RD b) v (RD rest) x /\ Wire DEC E t x w)
  \/ (exists e r x, runs E t (RD b) v (mkXst (Some e) true r) x).
Proof.
  intros Hv Hs. destruct (runs_dec b v Hv) as (s & x & n & H).
  destruct (dec_sound D E Hwf n t Ht _ _ _ _ Hv Hs H) as [(w & r & Hb & -> & Hw)|(e & r & -> & _)].
  - left. exists w, r, x. repeat split; auto. exists n. exact H.
  - right. exists e, r, x, n. exact H.
Qed.

Lemma dec_wire p w rest v v0 : Wire p E t v w -> has_ty E t v0 -> no_stale v0 = true ->
  exists x, runs E t (RD (w ++ rest)) v0 (RD rest) x /\ same E t v x.
Proof.
  intros Hw Hv Hs. destruct (runs_dec (w ++ rest) v0 Hv) as (s & x & n & H).
  destruct (dec_complete D E Hwf p n t Ht _ _ _ _ _ _ Hw Hv Hs H) as [-> Hsm].
  exists x. split; [exists n; exact H|exact Hsm].
Qed.

Lemma runs_ty s v s' v' : has_ty E t v -> runs E t s v s' v' -> has_ty E t v'.
Proof. intros Hv [n H]. eapply (keeps_xdr D E Hwf); eauto. Qed.

Lemma runs_fresh_canon b z r x : fresh E t z -> runs E t (RD b) z (RD r) x -> canon E t x.
Proof. intros [k Hz] [n H]. eapply (dec_fresh D E Hwf n t Ht b k z); eauto. Qed.

Lemma enc_wire p b v w : strict p -> Wire p E t v w -> has_ty E t v ->
  runs E t (WR b) v (WR (b ++ w)) v.
Proof.
  intros Hp Hw Hv. destruct (runs_enc (WR b) v eq_refl Hv) as (s & x & n & H).
  destruct (enc_complete D E Hwf p n t Hp Ht _ _ _ _ _ Hw H) as [-> ->]. exists n. exact H.
Qed.

Lemma enc_outcome b v : has_ty E t v -> exists w,
  (runs E t (WR b) v (WR (b ++ w)) v /\ Wire ENC E t v w)
  \/ (exists e, runs E t (WR b) v (mkXst (Some e) false (b ++ w)) v /\ ~ bounded ENC E t v).
Proof.
  intros Hv. destruct (runs_enc (WR b) v eq_refl Hv) as (s & x & n & H).
  destruct (enc_sound D E Hwf n t Ht _ _ _ _ Hv H) as [-> (w & [[-> Hw]|[e ->]])]; exists w.
  - left. split; [exists n; exact H|exact Hw].
  - right. exists e. split; [exists n; exact H|].
    intros Hb. destruct (proj1 (bounded_Wire D E ENC Hwf) _ _ Hb Ht Hv) as [w' Hw'].
    destruct (enc_complete D E Hwf ENC n t strict_ENC Ht _ _ _ _ _ Hw' H) as [K _]. discriminate.
Qed.

Lemma Encode_ok_wire v b : has_ty E t v -> (Encode E t v b None <-> Wire ENC E t v b).
Proof.
  intros Hv. split.
  - intros H. apply Encode_runs in H. destruct H as (s & x & H & Hb & He).
    destruct (enc_outcome [] v Hv) as (w & [[K Hw]|(e & K & _)]);
      destruct (runs_det _ _ _ _ _ _ _ _ H K) as [-> _]; cbn in *; [congruence|discriminate].
  - intros H. apply Encode_runs. exists (WR ([] ++ b)), v. split; [|auto].
    apply (enc_wire ENC); auto using strict_ENC.
Qed.

(** *** C03 *)
Lemma c03 v : has_ty E t v ->
  (exists b e, Encode E t v b e) /\
  (forall b e, Encode E t v b e -> (e = None <-> bounded ENC E t v)) /\
  (forall b, Encode E t v b None <-> Wire ENC E t v b) /\
  (forall b, bounded RFC E t v -> (Encode E t v b None <-> Wire RFC E t v b)).
Proof.
  intros Hv.
  assert (HR : forall b, Wire RFC E t v b -> Wire ENC E t v b).
  { intros b. apply (Wire_lax _ _ _ lax_RFC_ENC). }
  destruct (enc_outcome [] v Hv) as (w & Hw).
  assert (HE : exists b e, Encode E t v b e /\ (e = None <-> bounded ENC E t v)).
  { destruct Hw as [[K Hw]|(e & K & Hn)].
    - exists w, None. split.
      + apply Encode_runs. eauto 10.
      + split; auto. intros _. eapply (Wire_bounded ENC E). exact Hw.
    - exists w, (Some e). split.
      + apply Encode_runs. eauto 10.
      + split; [discriminate|tauto]. }
  destruct HE as (b & e & HE & Hiff). repeat split.
  - eauto.
  - intros ->. destruct (Encode_det _ _ _ _ _ _ _ HE H) as [_ ->]. tauto.
  - intros Hb. destruct (Encode_det _ _ _ _ _ _ _ HE H) as [_ <-]. tauto.
  - apply Encode_ok_wire; auto.
  - apply Encode_ok_wire; auto.
  - intros H0. destruct (proj1 (bounded_Wire D E RFC Hwf) _ _ H Ht Hv) as [w' Hw'].
    pose proof (proj2 (Encode_ok_wire v w' Hv) (HR _ Hw')) as H1.
    destruct (Encode_det _ _ _ _ _ _ _ H0 H1) as [-> _]. exact Hw'.
  - intros H0. apply Encode_ok_wire; auto.
Qed.

(** *** C04 *)
Lemma c04 v b rest z : has_ty E t v -> Encode E t v b None -> fresh E t z ->
  exists x, DecodeRest E t (b ++ rest) z rest x /\ same E t v x /\ canon E t x /\ has_ty E t x /\
    (canon E t v -> x = v).
Proof.
  intros Hv He Hz. apply Encode_ok_wire in He; [|exact Hv].
  destruct (dec_wire ENC b rest v z He (fresh_ty _ Hz) (fresh_stale _ Hz)) as (x & Hx & Hs).
  pose proof (runs_ty _ _ _ _ (fresh_ty _ Hz) Hx) as Hxt.
  pose proof (runs_fresh_canon _ _ _ _ Hz Hx) as Hc.
  exists x. repeat split; auto.
  intros Hcv. symmetry. eapply same_canon_eq; eauto.
Qed.

(** *** C06 *)
Lemma c06 b z : fresh E t z ->
  (forall rest x, DecodeRest E t b z rest x <->
     exists w, b = w ++ rest /\ Wire DEC E t x w /\ canon E t x /\ has_ty E t x) /\
  (exists e x, Decode E t b z e x /\
     (e = None <-> exists w rest y, b = w ++ rest /\ Wire DEC E t y w /\ has_ty E t y)).
Proof.
  intros Hz. pose proof (fresh_ty _ Hz) as Hzt. pose proof (fresh_stale _ Hz) as Hzs. split.
  - intros rest x. split.
    + intros H. assert (H' := H). destruct H' as [n Hn].
      destruct (dec_sound D E Hwf n t Ht _ _ _ _ Hzt Hzs Hn) as [(w & r & Hb & [= <-] & Hw)|(e & r & [= ] & _)].
      exists w. repeat split; auto.
      * eapply runs_fresh_canon; eauto.
      * eapply runs_ty; eauto.
    + intros (w & -> & Hw & Hc & Hx).
      destruct (dec_wire DEC w rest x z Hw Hzt Hzs) as (y & Hy & Hs).
      assert (y = x) as ->; [|exact Hy].
      symmetry. eapply same_canon_eq; eauto using runs_fresh_canon, runs_ty.
  - destruct (dec_outcome b z Hzt Hzs) as [(w & rest & x & Hb & H & Hw)|(e & r & x & H)].
    + exists None, x. split; [apply Decode_runs; eauto|].
      split; auto. intros _. exists w, rest, x. repeat split; auto. eapply runs_ty; eauto.
    + exists (Some e), x. split; [apply Decode_runs; eauto|]. split; [discriminate|].
      intros (w & rest & y & -> & Hw & Hy).
      destruct (dec_wire DEC w rest y z Hw Hzt Hzs) as (y' & Hy' & _).
      destruct (runs_det _ _ _ _ _ _ _ _ H Hy') as [K _]. discriminate.
Qed.

(** *** C05 *)
Lemma c05 b z x : fresh E t z -> Decode E t b z None x ->
  exists b', Encode E t x b' None /\ Decode E t b' z None x /\ DecodeRest E t b' z [] x.
Proof.
  intros Hz H. pose proof (fresh_ty _ Hz) as Hzt. pose proof (fresh_stale _ Hz) as Hzs.
  apply Decode_runs in H. destruct H as (s & [n H] & He).
  destruct (dec_sound D E Hwf n t Ht _ _ _ _ Hzt Hzs H) as [(w & r & Hb & -> & Hw)|(e & r & -> & _)];
    [|discriminate].
  assert (Hr : runs E t (RD b) z (RD r) x) by (exists n; exact H).
  pose proof (runs_ty _ _ _ _ Hzt Hr) as Hxt.
  pose proof (runs_fresh_canon _ _ _ _ Hz Hr) as Hc.
  assert (Hbd : bounded ENC E t x).
  { apply (bounded_lax DEC ENC E); auto. eapply (Wire_bounded DEC E). exact Hw. }
  destruct (proj1 (bounded_Wire D E ENC Hwf) _ _ Hbd Ht Hxt) as [b' Hb'].
  exists b'. split; [apply Encode_ok_wire; auto|].
  destruct (dec_wire ENC b' [] x z Hb' Hzt Hzs) as (y & Hy & Hs).
  assert (y = x) as ->.
  { symmetry. eapply same_canon_eq; eauto using runs_fresh_canon, runs_ty. }
  rewrite app_nil_r in Hy. split; [apply Decode_runs; eauto|exact Hy].
Qed.

(** *** Locality, C11 *)
Lemma c11_local b v rest x : DecodeRest E t b v rest x ->
  exists w, b = w ++ rest /\ forall rest', DecodeRest E t (w ++ rest') v rest' x.
Proof.
  intros [n H]. destruct (dec_local D E Hwf n t Ht _ _ _ _ H eq_refl) as (w & r & -> & [= <-] & HL).
  exists w. split; [reflexivity|]. intros r'. exists n. apply HL.
Qed.

Lemma c11_suffix b v s' x : runs E t (MakeReader b) v s' x -> exists w, b = w ++ x_buf s'.
Proof.
  intros [n H]. apply xdr_shape in H. destruct H as [_ H]. exact H.
Qed.

Lemma runs_indep s u v s1 u' s2 v' : x_reader s = true -> has_ty E t u -> has_ty E t v ->
  runs E t s u s1 u' -> runs E t s v s2 v' -> s1 = s2.
Proof.
  intros Hr Hu Hv [n H] [m K].
  assert (H' := xdr_mono n (n + m) E t s u _ ltac:(lia) H).
  assert (K' := xdr_mono m (n + m) E t s v _ ltac:(lia) K).
  apply (dec_indep D E Hwf (n + m) t Ht s u v s1 u' s2 v' Hr Hu Hv H' K').
Qed.

(** *** C07 *)
Lemma c07 v b p c v0 : has_ty E t v -> Encode E t v b None -> b = p ++ c -> c <> [] ->
  has_ty E t v0 -> exists e x, Decode E t p v0 (Some e) x.
Proof.
  intros Hv He -> Hc Hv0. apply Encode_ok_wire in He; [|exact Hv].
  destruct (runs_dec p v0 Hv0) as (s & x & H).
  destruct (x_err s) as [e|] eqn:Ee; [exists e, x; apply Decode_runs; eauto|]. exfalso.
  destruct H as [n H].
  destruct (dec_local D E Hwf n t Ht _ _ _ _ H Ee) as (w & r & -> & -> & HL).
  destruct fresh_ex as [z Hfz].
  destruct (dec_wire ENC _ [] v z He (fresh_ty _ Hfz) (fresh_stale _ Hfz)) as (y & Hy & _).
  rewrite app_nil_r in Hy.
  assert (Hn : runs E t (RD ((w ++ r) ++ c)) v0 (RD (r ++ c)) x).
  { exists n. rewrite <- app_assoc. apply HL. }
  pose proof (runs_indep (RD ((w ++ r) ++ c)) _ _ _ _ _ _ eq_refl Hv0 (fresh_ty _ Hfz) Hn Hy) as [= K].
  apply app_eq_nil in K. tauto.
Qed.

(** *** C09, C10 *)
Lemma c09 v b : has_ty E t v -> Encode E t v b None -> zlen b mod 4 = 0.
Proof.
  intros Hv He. apply Encode_ok_wire in He; [|exact Hv]. exact (proj1 (Wire_mod4 ENC E) _ _ _ He).
Qed.

Lemma c10 s v s' v' : has_ty E t v -> x_reader s = false -> runs E t s v s' v' ->
  v' = v /\ exists w, WriteBuf s' = WriteBuf s ++ w.
Proof.
  intros Hv Hs [n H]. split.
  - eapply (enc_unchanged D E Hwf); eauto.
  - apply xdr_shape in H. destruct H as [_ H]. rewrite Hs in H. exact H.
Qed.

(** *** C14, C15 *)
Lemma c14 s v : x_reader s = true -> has_ty E t v ->
  exists N r, forall n, (N <= n)%nat -> xdr n E t s v = Ret r.
Proof.
  intros Hr Hv. pose proof Hz0 as Hz.
  destruct (dec_total D E Hwf (D + need s * D) D t (need s) Ht Hz (le_n _) s v Hr Hv (le_n _))
    as (s' & x & H).
  exists (D + need s * D)%nat, (s', x). intros n Hn. eapply xdr_mono; eauto.
Qed.

Lemma c15 s v : x_reader s = false -> has_ty E t v ->
  exists N r, forall n, (N <= n)%nat -> xdr n E t s v = Ret r.
Proof.
  intros Hs Hv. destruct (runs_enc s v Hs Hv) as (s' & x & N & H).
  exists N, (s', x). intros n Hn. eapply xdr_mono; eauto.
Qed.

(** *** C16 *)
Lemma c16 b v n : has_ty E t v -> (D + (List.length b / 4) * D <= n)%nat ->
  exists s' x, xdr n E t (MakeReader b) v = Ret (s', x).
Proof.
  intros Hv Hn. pose proof Hz0 as Hz.
  apply (dec_total D E Hwf n D t (List.length b / 4) Ht Hz Hn); auto.
Qed.

(** *** C18 *)
Lemma c18_data b u v x y : has_ty E t u -> has_ty E t v ->
  no_stale u = true -> no_stale v = true ->
  Decode E t b u None x -> Decode E t b v None y -> same E t x y.
Proof.
  intros Hu Hv Su Sv Hx Hy. apply Decode_runs in Hx, Hy.
  destruct Hx as (s & [n Hx] & He), Hy as (s' & Hy & He').
  destruct (dec_sound D E Hwf n t Ht _ _ _ _ Hu Su Hx) as [(w & r & -> & -> & Hw)|(e & r & -> & _)];
    [|discriminate].
  destruct (dec_wire DEC w r x v Hw Hv Sv) as (y' & Hy' & Hs).
  destruct (runs_det _ _ _ _ _ _ _ _ Hy Hy') as [_ ->]. exact Hs.
Qed.

(** *** C19 *)
Lemma c19 p w rest v z : Wire p E t v w -> fresh E t z ->
  exists x, DecodeRest E t (w ++ rest) z rest x /\ same E t v x.
Proof. intros Hw Hz. apply (dec_wire p); auto using fresh_ty, fresh_stale. Qed.

(** *** C23 *)
Lemma c23 v v' b b' r r' : has_ty E t v -> has_ty E t v' ->
  Encode E t v b None -> Encode E t v' b' None -> b ++ r = b' ++ r' ->
  same E t v v' /\ b = b' /\ r = r'.
Proof.
  intros Hv Hv' He He' Heq. apply Encode_ok_wire in He, He'; auto.
  destruct fresh_ex as [z Hfz].
  destruct (dec_wire ENC b r v z He (fresh_ty _ Hfz) (fresh_stale _ Hfz)) as (x & Hx & Hs).
  destruct (dec_wire ENC b' r' v' z He' (fresh_ty _ Hfz) (fresh_stale _ Hfz)) as (x' & Hx' & Hs').
  rewrite Heq in Hx. destruct (runs_det _ _ _ _ _ _ _ _ Hx Hx') as [[= <-] <-].
  split; [|split; [|reflexivity]].
  - eapply same_trans; [exact Hs|]. apply (same_sym E). exact Hs'.
  - eapply app_inv_tail; eauto.
Qed.

End Codec.
