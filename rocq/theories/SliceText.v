(** The texts in memory, exactly: what C24 and C25 say of [hxdr] they say of the emitted methods. *)
From Verif Require Import SrcLibC.
From Verif Require Import GoLex XLex Gram GParse Emit RepoText Bytes XdrLib Types Interp Meta Spec Total Runs GoAst GoSem GoSemH GoSemHP GoSemHM GElab GoPkg GoWf RpcTypes GoRes GSimC GSimD GSimH GenCommitted GenText.
From Verif Require Import Heap HeapP HeapX HeapS HeapQ MsgTextE.
Open Scope string_scope.
Open Scope Z_scope.
Open Scope list_scope.

(** From some fuel on the method returns [r]. *)
Definition returnsH (G : gpkg) (grow : nat -> nat -> nat) (x : string) (h : heap) (s : hst) (v : hval) (r : heap * hst * hval) : Prop :=
  exists M, forall m, (M <= m)%nat -> callH G grow m x h s v = GRet r.
Lemma callH_det G grow x h s v m1 m2 r1 r2 : callH G grow m1 x h s v = GRet r1 -> callH G grow m2 x h s v = GRet r2 -> r1 = r2.
Proof.
  intros A B. pose proof (callH_mono G grow m1 (Nat.max m1 m2) x h s v _ (Nat.le_max_l _ _) A) as A'. pose proof (callH_mono G grow m2 (Nat.max m1 m2) x h s v _ (Nat.le_max_r _ _) B) as B'.
  rewrite A' in B' by discriminate. specialize (B' ltac:(discriminate)). congruence.
Qed.
Lemma text_exact fl src E P o P' p : ok_flags fl = true -> spec_prog fl src = Some (E, P) -> generate fl src = Some o -> declares p (files_of o) P' ->
  forall grow x c h s v n r, lookup x E = Some c -> hxdr grow n E (CIdent x) h s v = Ret r -> returnsH (gp_pkg P') grow x h s v r.
Proof.
  intros F S Gn D grow x c h s v n [[h' s'] v'] Hx H. rewrite (text_same _ _ _ _ _ _ _ F S Gn D). apply spec_prog_inv in S. destruct S as (ds & _ & _ & S).
  exact (method_H fl ds E _ S grow x c n h s v h' s' v' Hx H).
Qed.
(** For a committed package. *)
Definition exact_effect (E : env) (P : gprog) : Prop := forall grow, grows grow ->
  forall x h s v, In x (map fst E) -> has_ty E (CIdent x) (deref h v) -> gvalid h (h_buf s) -> safe h s v ->
  exists n r, hxdr grow n E (CIdent x) h s v = Ret r /\ returnsH (gp_pkg P) grow x h s v r.
Lemma committed_exact fl src p files E D : (exists P, spec_prog fl src = Some (E, P) /\ declares p files P) -> (forall x, In x (map fst E) -> good D E (CIdent x)) ->
  forall P, declares p files P -> exact_effect E P.
Proof.
  intros (P' & S & D') Gd P DP grow Gr x h s v I T Hv Hs. rewrite (declares_det _ _ _ _ _ DP D'). apply spec_prog_inv in S. destruct S as (ds & _ & _ & S).
  destruct (gen_total fl ds E _ D S x (habs h s) (deref h v) (Gd x I) T) as (s' & v' & (n & R) & _).
  pose proof (heap_refines grow Gr n E (CIdent x) h s v Hv Hs) as K. rewrite R in K. destruct (hxdr grow n E (CIdent x) h s v) as [[[h1 s1] v1]| |] eqn:HX; try discriminate K.
  exists n, (h1, s1, v1). split; [exact HX|].
  assert (exists c, lookup x E = Some c) as (c & Hc). { destruct (lookup x E) as [c|] eqn:L; [eauto|]. destruct n as [|n]; [discriminate HX|]. cbn [hxdr] in HX. rewrite L in HX. destruct v; discriminate HX. }
  exact (method_H fl ds E _ S grow x c n h s v h1 s1 v1 Hc HX).
Qed.
Definition rfc1057_exact := committed_exact _ _ _ _ _ _ rfc1057_committed rfc1057_good.
Definition rfc1813_exact := committed_exact _ _ _ _ _ _ rfc1813_committed rfc1813_good.

(** ** Decoded slices *)
Definition decoded_ok (E : env) (x : string) (h : heap) (b : slice) (z : hval) (h' : heap) (s' : hst) (v' : hval) : Prop :=
  h' = h /\
  runs E (CIdent x) (MakeReader (sread h b)) (deref h z) (mkXst (h_err s') true (gread h (h_buf s'))) (deref h v') /\
  Forall (svalid h) (hslices v') /\ pairwise (hslices v') /\
  forall sl, In sl (hslices v') -> exists k, part_of b sl (4 + k) /\ be_val (firstn 4 (skipn k (sread h b))) = Z.of_nat (sl_len sl).
Lemma exact_decode E P : exact_effect E P -> forall grow, grows grow -> forall m x h b z h' s' v', In x (map fst E) -> has_ty E (CIdent x) (deref h z) -> svalid h b -> hslices z = [] ->
  callH (gp_pkg P) grow m x h (mkHst None true (Some b)) z = GRet (h', s', v') -> decoded_ok E x h b z h' s' v'.
Proof.
  intros X grow Gr m x h b z h' s' v' I T Hb Hz H. destruct (X grow Gr x h (mkHst None true (Some b)) z I T Hb (safe_nil _ _ _ Hz)) as (n & r & R & M & HM).
  assert (r = (h', s', v')) as -> by (eapply callH_det; [apply (HM M); apply Nat.le_refl|exact H]). exact (c24_decode grow Gr n E (CIdent x) h b z h' s' v' Hb Hz R).
Qed.
Lemma text_decode fl src E P o P' p : ok_flags fl = true -> spec_prog fl src = Some (E, P) -> generate fl src = Some o -> declares p (files_of o) P' ->
  forall grow, grows grow -> forall x c h b z s1 v1, lookup x E = Some c -> svalid h b -> hslices z = [] ->
  runs E (CIdent x) (MakeReader (sread h b)) (deref h z) s1 v1 ->
  exists s' v', returnsH (gp_pkg P') grow x h (mkHst None true (Some b)) z (h, s', v') /\ habs h s' = s1 /\ deref h v' = v1 /\ decoded_ok E x h b z h s' v'.
Proof.
  intros F S Gn D grow Gr x c h b z s1 v1 Hx Hb Hz (n & R).
  pose proof (heap_refines grow Gr n E (CIdent x) h (mkHst None true (Some b)) z Hb (safe_nil _ _ _ Hz)) as K.
  change (habs h (mkHst None true (Some b))) with (MakeReader (sread h b)) in K. rewrite R in K.
  destruct (hxdr grow n E (CIdent x) h (mkHst None true (Some b)) z) as [[[h' s'] v']| |] eqn:HX; try discriminate K. destruct K as (K & _). injection K as -> ->.
  pose proof (c24_decode grow Gr n E (CIdent x) h b z h' s' v' Hb Hz HX) as C. destruct C as (-> & C). exists s', v'.
  split; [exact (text_exact fl src E P o P' p F S Gn D grow x c h _ z n _ Hx HX)|]. split; [reflexivity|]. split; [reflexivity|]. split; [reflexivity|exact C].
Qed.

(** ** Several values encoded one after another *)
Inductive twrites (G : gpkg) (grow : nat -> nat -> nat) : list string -> list hval -> heap -> hst -> heap -> hst -> Prop :=
| TW_nil h s : twrites G grow [] [] h s h s
| TW_cons x xs v vs h s h1 s1 v1 h2 s2 : returnsH G grow x h s v (h1, s1, v1) -> twrites G grow xs vs h1 s1 h2 s2 -> twrites G grow (x :: xs) (v :: vs) h s h2 s2.
Lemma hwrites_text fl src E P o P' p : ok_flags fl = true -> spec_prog fl src = Some (E, P) -> generate fl src = Some o -> declares p (files_of o) P' ->
  forall grow xs vs h s h' s', Forall (fun x => lookup x E <> None) xs -> hwrites grow E (map CIdent xs) vs h s h' s' -> twrites (gp_pkg P') grow xs vs h s h' s'.
Proof.
  intros F S Gn D grow xs. induction xs as [|x xs IH]; intros vs h s h' s' HF H; cbn [map] in H; inversion H; subst; [constructor|].
  inversion HF as [|? ? Hx HF']; subst. destruct (lookup x E) as [c|] eqn:Hc; [|congruence].
  econstructor; [eapply (text_exact fl src E P o P' p F S Gn D); eassumption|]. apply IH; assumption.
Qed.
Lemma text_extends fl src E P o P' p D : ok_flags fl = true -> spec_prog fl src = Some (E, P) -> generate fl src = Some o -> declares p (files_of o) P' ->
  forall grow, grows grow -> forall xs vs h b, Forall (fun x => good D E (CIdent x)) xs -> Forall (fun x => lookup x E <> None) xs -> gvalid h b ->
  Forall2 (fun x v => has_ty E (CIdent x) (deref h v) /\ bounded ENC E (CIdent x) (deref h v)) xs vs ->
  Forall (fun v => safe h (mkHst None false b) v) vs ->
  exists h' b' ws, twrites (gp_pkg P') grow xs vs h (mkHst None false b) h' (mkHst None false b') /\
    gread h' b' = gread h b ++ List.concat ws /\ differs_at (in_spare b) h h' /\ gread h' b = gread h b /\
    Forall2 (fun xv w => Wire ENC E (CIdent (fst xv)) (deref h (snd xv)) w) (combine xs vs) ws.
Proof.
  intros F S Gn Dc grow Gr xs vs h b HG HL Hv HT HS.
  assert (exists h' b' ws, hwrites grow E (map CIdent xs) vs h (mkHst None false b) h' (mkHst None false b') /\ gread h' b' = gread h b ++ List.concat ws /\
    Forall2 (fun tv w => Wire ENC E (fst tv) (deref h (snd tv)) w) (combine (map CIdent xs) vs) ws) as (h' & b' & ws & A1 & A2 & A3).
  { destruct xs as [|x0 xs0].
    - inversion HT; subst. exists h, b, []. split; [constructor|]. split; [cbn; rewrite app_nil_r; reflexivity|constructor].
    - pose proof HG as HG0. inversion HG0 as [|? ? (W & _) _]; subst. apply (c25_extends grow Gr D E _ vs W).
      + clear - HG HT. revert vs HT. induction HG as [|x xs Hx HG IH]; intros vs HT; inversion HT; subst; cbn [map]; [constructor|]. constructor; [|auto]. destruct Hx as (_ & A & B). auto.
      + exact Hv.
      + clear - HT. revert HT. generalize (x0 :: xs0). intros xs HT. induction HT; cbn [map]; constructor; auto.
      + eapply Forall_impl; [|exact HS]. intros v Hsv. eapply Forall_impl; [|exact Hsv]. intros sl [A B]. split; [exact A|apply B; reflexivity]. }
  exists h', b', ws. split; [eapply hwrites_text; eassumption|]. split; [exact A2|].
  destruct (c25_frame grow Gr E _ vs h b h' _ Hv A1) as (B1 & B2 & _). split; [exact B1|]. split; [exact B2|].
  clear - A3. revert vs ws A3. induction xs as [|x xs IH]; intros vs ws A3; destruct vs; cbn [map combine] in *; inversion A3; subst; constructor; auto.
Qed.
Lemma text_decode2 fl src E P o P' p : ok_flags fl = true -> spec_prog fl src = Some (E, P) -> generate fl src = Some o -> declares p (files_of o) P' ->
  forall grow, grows grow -> forall x c h b z s1 v1, lookup x E = Some c -> svalid h b -> hslices z = [] ->
  runs E (CIdent x) (MakeReader (sread h b)) (deref h z) s1 v1 ->
  exists s' v', returnsH (gp_pkg P') grow x h (mkHst None true (Some b)) z (h, s', v') /\ habs h s' = s1 /\ deref h v' = v1 /\
    runs E (CIdent x) (MakeReader (sread h b)) (deref h z) (mkXst (h_err s') true (gread h (h_buf s'))) (deref h v') /\
    Forall (svalid h) (hslices v') /\ pairwise (hslices v') /\
    forall sl, In sl (hslices v') -> exists k, part_of b sl (4 + k) /\ be_val (firstn 4 (skipn k (sread h b))) = Z.of_nat (sl_len sl).
Proof.
  intros F S Gn D grow Gr x c h b z s1 v1 Hx Hb Hz R. destruct (text_decode fl src E P o P' p F S Gn D grow Gr x c h b z s1 v1 Hx Hb Hz R) as (s' & v' & A1 & A2 & A3 & _ & A4).
  exists s', v'. auto.
Qed.
