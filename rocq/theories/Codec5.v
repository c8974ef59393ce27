(** Padding written by encoders. *)
From Verif Require Import Bytes XdrLib Types Interp Spec Meta Runs Codec.
Open Scope string_scope.
Open Scope Z_scope.
Open Scope list_scope.

Lemma zeros_of pad : Forall (fun b => b = x00) pad -> pad = repeat x00 (List.length pad).
Proof. induction 1 as [|b l E _ IH]; [reflexivity|]. subst b. cbn [repeat List.length]. congruence. Qed.
Lemma c19_zero D E : wf_env D E ->
  (forall n bs b, List.length bs = n -> Encode E (COpaque n) (VArr bs) b None ->
     exists k, (k < 4)%nat /\ zlen b mod 4 = 0 /\ b = bs ++ repeat x00 k) /\
  (forall m o b, max_ok m -> Encode E (CVarOpaque m) (VBytes o) b None ->
     exists hd k, is_be 4 (zlen (bytes_of o)) hd /\ (k < 4)%nat /\ zlen b mod 4 = 0 /\ b = hd ++ bytes_of o ++ repeat x00 k) /\
  (forall m bs b, max_ok m -> Encode E (CString m) (VStr bs) b None ->
     exists hd k, is_be 4 (zlen bs) hd /\ (k < 4)%nat /\ zlen b mod 4 = 0 /\ b = hd ++ bs ++ repeat x00 k).
Proof.
  intros Hwf. split; [|split].
  - intros n bs b Hl He. assert (Ht : has_ty E (COpaque n) (VArr bs)) by (constructor; exact Hl).
    assert (Hw : wf_ty D E (COpaque n)) by constructor.
    pose proof (c09 D E _ Hwf Hw _ _ Ht He) as H9. apply (proj1 (proj2 (proj2 (c03 D E _ Hwf Hw _ Ht)))) in He.
    inversion He as [| | | | | |? ? pad ? (P1 & P2 & P3)| | | | | | | | | |]; subst. exists (List.length pad). split; [exact P1|]. split; [exact H9|]. rewrite <- (zeros_of pad (P3 eq_refl)). reflexivity.
  - intros m o b Hm He. assert (Ht : has_ty E (CVarOpaque m) (VBytes o)) by constructor.
    assert (Hw : wf_ty D E (CVarOpaque m)) by (constructor; exact Hm).
    pose proof (c09 D E _ Hwf Hw _ _ Ht He) as H9. apply (proj1 (proj2 (proj2 (c03 D E _ Hwf Hw _ Ht)))) in He.
    inversion He as [| | | | | | |? ? hd bs pad ? ? Hb4 (P1 & P2 & P3)| | | | | | | | |]; subst. exists hd, (List.length pad). split; [exact Hb4|]. split; [exact P1|]. split; [exact H9|]. rewrite <- (zeros_of pad (P3 eq_refl)). reflexivity.
  - intros m bs b Hm He. assert (Ht : has_ty E (CString m) (VStr bs)) by constructor.
    assert (Hw : wf_ty D E (CString m)) by (constructor; exact Hm).
    pose proof (c09 D E _ Hwf Hw _ _ Ht He) as H9. apply (proj1 (proj2 (proj2 (c03 D E _ Hwf Hw _ Ht)))) in He.
    inversion He as [| | | | | | | |? ? hd pad ? Hb4 (P1 & P2 & P3)| | | | | | | |]; subst. exists hd, (List.length pad). split; [exact Hb4|]. split; [exact P1|]. split; [exact H9|]. rewrite <- (zeros_of pad (P3 eq_refl)). reflexivity.
Qed.
