(** Byte arrays, strings and the remaining functions of /repo/xdr/lib.go, as their text says. *)
From Verif Require Import GoLex SrcAst SrcProg.
From Verif Require Import Bytes XdrLib Types Interp Heap HeapP SrcSem SrcLib.
Open Scope string_scope.
Open Scope Z_scope.
Open Scope list_scope.

Section Lib.
Context {W : Type}.
Variable grow : nat -> nat -> nat.
Hypothesis grow_ok : forall c n, (n <= grow c n)%nat.
Variable ext : string -> list gv -> mem W -> outcome (mem W * list gv).
Notation Run := (run grow xdr_pkgs no_consts xdr_structs xdr_pkg ext).

(** A buffer made by make([]byte, n). *)
Lemma zeros_len k : List.length (zeros k) = k.
Proof. apply repeat_length. Qed.

(** The padding written or read after [L] bytes. *)
Definition padb (L : nat) : nat := Z.to_nat (Z.rem (4 - Z.rem (Z.of_nat L) 4) 4).
Lemma pad_make_padb L : pad_make L = zeros (padb L).
Proof. reflexivity. Qed.

(** Byte slices that a writer cannot touch. *)
Definition kept (h : heap) (s : hst) (o : option slice) : Prop :=
  gvalid h o /\ forall b i, inside o b i -> ~ owned s b i.
Lemma inside_lt h o b i : gvalid h o -> inside o b i -> (b < List.length h)%nat.
Proof. destruct o as [s|]; [|intros _ []]. intros (H & _) [-> _]. exact H. Qed.
Lemma kept_step X h s h1 s1 o : tstep X h s h1 s1 -> kept h s o -> kept h1 s1 o.
Proof.
  intros (_ & _ & C & D & _) [Hv Hk]. split; [eapply gvalid_differs; eassumption|].
  intros b i Hi Ho. apply (Hk b i Hi). apply D; [eapply inside_lt; eassumption|exact Ho].
Qed.
Lemma kept_read h s h1 s1 o : tstep none h s h1 s1 -> kept h s o -> gread h1 o = gread h o.
Proof. intros (_ & _ & C & _) [Hv Hk]. eapply gread_differs; [exact C|exact Hv|]. intros b i Hi [Ho|[]]. exact (Hk b i Hi Ho). Qed.
Lemma clear_kept h s o : gvalid h o -> clear s o -> kept h s o.
Proof. intros Hv Hk. split; [exact Hv|]. intros b i Hi. apply Hk. exact Hi. Qed.
Lemma kept_clear h s o : h_reader s = false -> kept h s o -> clear s o.
Proof. intros Hr [_ Hk] b i Hi. split; [apply Hk; exact Hi|congruence]. Qed.
Lemma tstep_none X h s h1 s1 h2 s2 : tstep X h s h1 s1 -> tstep none h1 s1 h2 s2 -> tstep X h s h2 s2.
Proof. intros H1 H2. eapply tstep_trans; [exact H1|exact H2|]. intros b i _ []. Qed.
Lemma tstep_valid X h s h1 s1 : tstep X h s h1 s1 -> gvalid h1 (h_buf s1).
Proof. intros (_ & H & _). exact H. Qed.

Lemma f_Array : find_fun xdr_pkg "XdrArray" = Some ([PS "xs"; ("v", TSlice (EId "byte"))], [], fbody lib_XdrArray).
Proof. reflexivity. Qed.

Lemma set_set2 {A} (l : list A) n a b : set_nth (set_nth l n a) n b = set_nth l n b.
Proof. apply set_set. Qed.

Lemma Array_text n h cs w p s o :
  nth_error cs p = Some (vstate s) -> gvalid h (h_buf s) -> gvalid h o -> clear s o ->
  exists h' s', Run (S (S n)) "XdrArray" [WPtr p; WSl o] (mkMem h cs w) = Ret (mkMem h' (set_nth cs p (vstate s')) w, []) /\
    XdrArray (habs h s) (gread h o) = (habs h' s', gread h' o) /\ tstep (into s o) h s h' s'.
Proof.
  intros Hc Hb Ho Hk. assert (Hp : (p < List.length cs)%nat) by (apply nth_error_Some; congruence).
  enter f_Array. unfold fbody, lib_XdrArray, PS. nx. unfold XdrArray. cbn [habs x_err].
  destruct s as [[e|] rd bf]; cbn [h_err h_reader h_buf] in *; nx.
  { exists h, (mkHst (Some e) rd bf). split; [|split; [reflexivity|apply tstep_refl; exact Hb]].
    cbn [finish]. go. rewrite (set_same cs) by exact Hc. reflexivity. }
  nx. destruct (RW_text grow grow_ok ext n (mkMem h cs w) p _ o Hc Hb Ho Hk) as (h1 & s1 & H1 & H2 & H3). rewrite H1. cbn [m_heap] in *. go.
  change (mkXst None rd (gread h bf)) with (habs h (mkHst None rd bf)). rewrite H2. nx.
  assert (HL : zlen (gread h o) = Z.of_nat (glen o)) by (unfold zlen; rewrite gread_len by exact Ho; reflexivity).
  rewrite HL. rewrite gread_len by exact Ho.
  pose proof (rem4 (Z.of_nat (glen o)) ltac:(lia)) as Hr. destruct (pad_len (glen o) ltac:(lia)) as [Hpad Hpos]. cbn zeta in Hpad.
  rewrite (to_s64_small (Z.rem (Z.of_nat (glen o)) 4)) in * by lia.
  destruct (Z.rem (Z.of_nat (glen o)) 4 =? 0) eqn:E4; go.
  - exists h1, s1. split; [nx; cbn [finish]; reflexivity|]. split; [reflexivity|exact H3].
  - rewrite Hpad. rewrite (proj2 (Z.ltb_ge _ 0)) by lia. go.
    assert (Hc1 : nth_error (set_nth cs p (vstate s1)) p = Some (vstate s1)) by (apply get_set; exact Hp).
    destruct (RW_arr grow grow_ok ext n h1 _ w p s1 (zeros (padb (glen o))) _ Hc1 (tstep_valid _ _ _ _ _ H3) eq_refl) as (h2 & s2 & G1 & G2 & G3 & G4).
    unfold arr in G1. unfold padb in *. rewrite G1. go. rewrite set_set.
    exists h2, s2. split; [nx; cbn [finish]; reflexivity|]. split.
    + rewrite pad_make_padb. unfold padb. rewrite G2. cbn [fst]. rewrite (kept_read _ _ _ _ o G4); [reflexivity|].
      eapply kept_step; [exact H3|]. apply clear_kept; assumption.
    + eapply tstep_none; eassumption.
Qed.

(** ** XdrVarArray *)
Lemma f_VarArray : find_fun xdr_pkg "XdrVarArray" =
  Some ([PS "xs"; ("maxlen", EId "int"); ("v", EUn "*" (TSlice (EId "byte")))], [], fbody lib_XdrVarArray).
Proof. reflexivity. Qed.

Lemma get_u32_bound bs : 0 <= get_u32 bs < 2 ^ 32.
Proof.
  destruct bs as [|a [|b [|c [|d [|e r]]]]]; try (cbn; lia). rewrite get_u32_val by reflexivity.
  pose proof (b2z_range a). pose proof (b2z_range b). pose proof (b2z_range c). pose proof (b2z_range d).
  rewrite !be_val_cons. cbn [List.length]. cbn. lia.
Qed.

(** xdrR's result, as XdrLib.v has it. *)
Lemma hR_rel h s z : gvalid h (h_buf s) -> 0 <= z ->
  xdrR (habs h s) z = (habs h (fst (hxdrR s z)), option_map (sread h) (snd (hxdrR s z))) \/
  (h_buf s = None /\ h_err s = None /\ z = 0 /\ xdrR (habs h s) z = (habs h s, Some []) /\ hxdrR s z = (s, None)).
Proof.
  intros Hb Hz. destruct s as [er rd bf]. unfold xdrR, hxdrR. cbn [h_err h_reader h_buf habs x_buf] in *.
  assert (HL : zlen (gread h bf) = Z.of_nat (glen bf)) by (unfold zlen; rewrite gread_len by exact Hb; reflexivity).
  rewrite HL. destruct (Z.ltb_spec (Z.of_nat (glen bf)) z) as [Hlt|Hge].
  - left. reflexivity.
  - cbn [x_err h_err]. destruct er as [e|]; [left; reflexivity|].
    destruct bf as [sl|].
    + left. cbn [fst snd]. unfold habs, hset_buf, set_buf. cbn [h_err h_reader h_buf x_err x_reader x_buf].
      rewrite gfrom_read by (try exact Hb; lia). f_equal. change (Some (sread h (mkSl (sl_blk sl) (sl_off sl) (Z.to_nat z) (Z.to_nat z)))) with (Some (gread h (gclip (Some sl) (Z.to_nat z)))).
      cbn [gclip option_map]. f_equal. symmetry. apply (gclip_read h (Some sl)); [exact Hb|lia].
    + right. assert (z = 0) by (cbn in Hge; lia). subst z. repeat split.
Qed.
Lemma hR_step h s z : gvalid h (h_buf s) -> 0 <= z -> h_reader s = true ->
  tstep none h s h (fst (hxdrR s z)) /\ gvalid h (snd (hxdrR s z)) /\ (forall b i, inside (snd (hxdrR s z)) b i -> inside (h_buf s) b i).
Proof.
  intros Hb Hz Hr. destruct s as [er rd bf]. unfold hxdrR. cbn [h_err h_reader h_buf] in *. subst rd.
  destruct (Z.ltb_spec (Z.of_nat (glen bf)) z) as [Hlt|Hge]; cbn [h_err fst snd].
  - split; [apply tstep_err, tstep_refl; exact Hb|]. split; [exact I|intros b i []].
  - destruct er as [e|]; unfold hset_buf; cbn [fst snd h_buf h_err h_reader].
    + split; [apply tstep_refl; exact Hb|]. split; [exact I|intros b i []].
    + split; [|split].
      * split; [reflexivity|]. split; [apply gfrom_valid; [exact Hb|lia]|]. split; [apply differs_refl|]. split; [intros b i _ [Hx _]; discriminate Hx|].
        intros _. unfold gsuffix, gfrom. cbn [h_buf]. destruct bf as [sl|]; [|exact I]. cbn [sl_blk sl_off sl_len sl_cap glen hset_buf h_buf] in *.
        destruct Hb as (? & ? & ?). lia.
      * apply gclip_valid; [exact Hb|lia].
      * destruct bf as [sl|]; cbn; [|auto]. intros b i. cbn in Hge. lia.
Qed.

(** The padding, as the second half of VarArray and String reads or writes it. *)
Lemma pad_text n h cs w p s L : nth_error cs p = Some (vstate s) -> gvalid h (h_buf s) ->
  exists h' s', Run (S n) "xdrRW" [WPtr p; WSl (arr h (List.length (zeros (padb L))))] (mkMem (h ++ [zeros (padb L)]) cs w) =
    Ret (mkMem h' (set_nth cs p (vstate s')) w, []) /\ fst (xdrRW (habs h s) (pad_make L)) = habs h' s' /\ tstep none h s h' s'.
Proof.
  intros Hc Hb. destruct (RW_arr grow grow_ok ext n h cs w p s (zeros (padb L)) _ Hc Hb eq_refl) as (h2 & s2 & G1 & G2 & G3 & G4).
  exists h2, s2. rewrite pad_make_padb, G2. auto.
Qed.

Lemma ge_leb a b : (a >=? b) = (b <=? a).
Proof. apply Z.geb_leb. Qed.
Lemma gt_ltb a b : (a >? b) = (b <? a).
Proof. apply Z.gtb_ltb. Qed.

(** The last statement of XdrVarArray (lib.go:220-222). *)
Lemma tail_text n h C w p q s o M :
  nth_error C p = Some (vstate s) -> nth_error C q = Some (WSl o) -> gvalid h (h_buf s) -> gvalid h o ->
  exists h' s', obind (exec_body grow xdr_pkgs no_consts xdr_structs (Run (S n)) (S n) None (skipn 2 (fbody lib_XdrVarArray)) (mkMem h C w)
        [("xs", WPtr p); ("maxlen", WNum "int" M); ("v", WPtr q)]) (finish []) = Ret (mkMem h' (set_nth C p (vstate s')) w, []) /\
    (if negb (Z.rem (zlen (bytes_of (option_map (sread h) o))) 4 =? 0)
     then (fst (xdrRW (habs h s) (pad_make (List.length (bytes_of (option_map (sread h) o))))), option_map (sread h) o)
     else (habs h s, option_map (sread h) o)) = (habs h' s', option_map (sread h) o) /\
    tstep none h s h' s'.
Proof.
  intros Hc Hq Hb Ho.
  assert (HB : bytes_of (option_map (sread h) o) = gread h o) by (destruct o; reflexivity). rewrite HB. unfold zlen. rewrite gread_len by exact Ho.
  unfold fbody, lib_XdrVarArray. cbn [skipn]. nx.
  pose proof (rem4 (Z.of_nat (glen o)) ltac:(lia)) as Hr. destruct (pad_len (glen o) ltac:(lia)) as [Hpad Hpos]. cbn zeta in Hpad.
  rewrite (to_s64_small (Z.rem (Z.of_nat (glen o)) 4)) in * by lia.
  destruct (Z.rem (Z.of_nat (glen o)) 4 =? 0) eqn:E4; go.
  - exists h, s. split; [nx; cbn [finish]; rewrite (set_same C) by exact Hc; reflexivity|]. split; [reflexivity|apply tstep_refl; exact Hb].
  - rewrite Hpad. rewrite (proj2 (Z.ltb_ge _ 0)) by lia. go.
    destruct (pad_text n h C w p s (glen o) Hc Hb) as (h2 & s2 & G1 & G2 & G3).
    unfold arr in G1. unfold padb in *. rewrite G1. go.
    exists h2, s2. split; [nx; cbn [finish]; reflexivity|]. rewrite G2. auto.
Qed.

Lemma VarArray_text n h cs w p q s o M :
  nth_error cs p = Some (vstate s) -> nth_error cs q = Some (WSl o) -> gvalid h (h_buf s) -> gvalid h o -> (h_reader s = false -> clear s o) ->
  exists h' s' o', Run (S (S n)) "XdrVarArray" [WPtr p; WNum "int" M; WPtr q] (mkMem h cs w) =
      Ret (mkMem h' (set_nth (set_nth cs p (vstate s')) q (WSl o')) w, []) /\
    XdrVarArray (habs h s) M (option_map (sread h) o) = (habs h' s', option_map (sread h') o') /\
    tstep none h s h' s' /\
    (o' = o \/ (h_reader s = true /\ gvalid h' o' /\ forall b i, inside o' b i -> inside (h_buf s) b i)).
Proof.
  intros Hc Hq Hb Ho Hk. assert (Hp : (p < List.length cs)%nat) by (apply nth_error_Some; congruence).
  assert (Hpq : p <> q) by (intros ->; rewrite Hc in Hq; discriminate).
  enter f_VarArray. unfold fbody, lib_XdrVarArray, PS. nx. unfold XdrVarArray. cbn [habs x_err].
  destruct s as [[e|] rd bf]; cbn [h_err h_reader h_buf] in *; nx.
  { exists h, (mkHst (Some e) rd bf), o. split; [|split; [reflexivity|split; [apply tstep_refl; exact Hb|auto]]].
    cbn [finish]. go. rewrite (set_same cs) by exact Hc. rewrite (set_same cs) by exact Hq. reflexivity. }
  nx. rewrite (Enc_text grow ext n _ _ _ p (mkHst None rd bf) Hc). go. unfold HEncoding. go.
  unfold Encoding. cbn [habs x_err x_reader h_err h_reader].
  destruct rd; cbn [negb]; go.
  - destruct (RW_arr grow grow_ok ext n h cs w p _ (zeros 4) 4 Hc Hb eq_refl) as (h1 & s1 & H1 & H2 & H3 & H4).
    change (Some (mkSl (List.length h) 0 4 4)) with (arr h 4). rewrite H1.
    change (mkXst None true (gread h bf)) with (habs h (mkHst None true bf)). rewrite H2.
    assert (Hr1 : h_reader s1 = true) by apply H4. pose proof (tstep_valid _ _ _ _ _ H4) as Hb1. go. change (Some (mkSl (List.length h) 0 4 4)) with (arr h 4). rewrite firstn_len by exact H3.
    pose proof (get_u32_bound (gread h1 (arr h 4))) as Hz. set (z := get_u32 (gread h1 (arr h 4))) in *.
    rewrite ?(to_s64_small z) by lia.
    rewrite ge_leb, gt_ltb. rewrite (proj2 (Z.ltb_ge z 0)) by lia.
    assert (Hnil : h_buf s1 = None -> h_err s1 <> None).
    { intros Hn. destruct H4 as (_ & _ & _ & _ & Hs). specialize (Hs eq_refl). rewrite Hn in Hs. cbn [h_buf] in Hs. destruct bf as [sl|]; [destruct Hs|].
      cbn in H2. apply (f_equal (fun x => x_err (fst x))) in H2. cbn in H2. congruence. }
    assert (Hc1 : nth_error (set_nth cs p (vstate s1)) p = Some (vstate s1)) by (apply get_set; exact Hp).
    assert (Hq1 : nth_error (set_nth cs p (vstate s1)) q = Some (WSl o)) by (rewrite get_other by exact Hpq; exact Hq).
    assert (Hko : gread h1 o = gread h o) by (apply (kept_read _ _ _ _ o H4); split; [exact Ho|intros b i _ [Hx _]; discriminate Hx]).
    assert (Ho1 : gvalid h1 o) by (destruct H4 as (_ & _ & D & _); eapply gvalid_differs; eassumption).
    assert (Hm : option_map (sread h1) o = option_map (sread h) o) by (destruct o as [sl|]; cbn in *; congruence).
    assert (Hbad : exists bad, (0 <=? M) && (M <? z) || false = bad) by eauto. destruct Hbad as [bad Hbad]. rewrite Hbad.
    match goal with |- context [obind (if 0 <=? M then Ret (?m, WBool (M <? z)) else ?E) ?k] =>
      replace (if 0 <=? M then Ret (m, WBool (M <? z)) else E) with (Ret (m, WBool bad))
        by (rewrite <- Hbad; destruct (0 <=? M); cbn [andb orb]; rewrite ?orb_false_r; reflexivity) end.
    destruct bad; go.
    + change (str_lit """var array too large""") with (str_bytes "var array too large").
      rewrite (SetError_text grow ext n h1 _ w p s1 _ Hc1). go. rewrite set_set.
      exists h1, (HSetError s1 "var array too large"), o. split; [nx; cbn [finish]; go; rewrite (set_same (set_nth _ _ _) q) by (rewrite get_other by assumption; exact Hq); reflexivity|].
      rewrite Hm. split; [reflexivity|]. split; [apply tstep_err; exact H4|left; reflexivity].
    + rewrite (R_text grow ext n h1 _ w p s1 z Hc1 Hb1) by lia.
      destruct (hR_rel h1 s1 z Hb1 ltac:(lia)) as [HR|(Hn1 & Hn2 & _)]; [|exfalso; exact (Hnil Hn1 Hn2)].
      destruct (hR_step h1 s1 z Hb1 ltac:(lia) Hr1) as (T1 & T2 & T3). rewrite HR. clear HR.
      destruct (hxdrR s1 z) as [s2 o2]. cbn [fst snd] in *. go. rewrite set_set.
      rewrite ?after_next.
      assert (Hc2 : nth_error (set_nth (set_nth cs p (vstate s2)) q (WSl o2)) p = Some (vstate s2)) by (rewrite get_other by congruence; apply get_set; exact Hp).
      assert (Hq2 : nth_error (set_nth (set_nth cs p (vstate s2)) q (WSl o2)) q = Some (WSl o2)) by (apply get_set; rewrite set_nth_len; apply nth_error_Some; congruence).
      destruct (tail_text n h1 _ w p q s2 o2 M Hc2 Hq2 (tstep_valid _ _ _ _ _ T1) T2) as (h3 & s3 & G1 & G2 & G3).
      unfold fbody, lib_XdrVarArray in G1. cbn [skipn] in G1. rewrite G1, G2.
      assert (K3 : kept h1 s2 o2) by (split; [exact T2|]; intros b i _ [Hx _]; destruct T1 as (T1 & _); congruence).
      exists h3, s3, o2. split; [|split; [|split]].
      * rewrite (set_comm _ q p) by congruence. rewrite set_set. reflexivity.
      * f_equal. pose proof (kept_read _ _ _ _ o2 G3 K3) as E. clear - E. destruct o2 as [sl|]; cbn in *; congruence.
      * eapply tstep_none; [exact H4|]. eapply tstep_none; eassumption.
      * right. split; [reflexivity|]. split; [apply (kept_step _ _ _ _ _ _ G3 K3)|]. intros b i Hi. apply T3 in Hi.
        destruct H4 as (_ & _ & _ & _ & Hs). specialize (Hs eq_refl). cbn [h_buf] in Hs. clear - Hs Hi. destruct bf as [sl|], (h_buf s1) as [sl1|]; cbn in *; try contradiction. destruct Hs as (E1 & E2 & E3 & E4). lia.
  - assert (HB : bytes_of (option_map (sread h) o) = gread h o) by (destruct o; reflexivity).
    assert (HL : zlen (bytes_of (option_map (sread h) o)) = Z.of_nat (glen o)) by (rewrite HB; unfold zlen; rewrite gread_len by exact Ho; reflexivity).
    rewrite HL. change MaxUint32 with 4294967295.
    assert (Hbad : exists bad, (Z.of_nat (glen o) >? 4294967295) || (M >=? 0) && (Z.of_nat (glen o) >? M) = bad) by eauto. destruct Hbad as [bad Hbad]. rewrite Hbad.
    match goal with |- context [obind (if Z.of_nat (glen o) >? 4294967295 then Ret (?m, ?b) else ?E) ?k] =>
      replace (if Z.of_nat (glen o) >? 4294967295 then Ret (m, b) else E) with (Ret (m, WBool bad))
        by (rewrite <- Hbad; destruct (Z.of_nat (glen o) >? 4294967295), (M >=? 0); reflexivity) end.
    destruct bad; go.
    + change (str_lit """var array too large""") with (str_bytes "var array too large").
      rewrite (SetError_text grow ext n h _ w p (mkHst None false bf) _ Hc). go.
      exists h, (HSetError (mkHst None false bf) "var array too large"), o. split; [nx; cbn [finish]; go; rewrite (set_same (set_nth _ _ _) q) by (rewrite get_other by assumption; exact Hq); reflexivity|].
      split; [reflexivity|]. split; [apply tstep_err, tstep_refl; exact Hb|left; reflexivity].
    + change (Some (mkSl (List.length h) 0 4 4)) with (arr h 4). rewrite ?arr_store by reflexivity.
      destruct (RW_arr grow grow_ok ext n h cs w p _ (put_u32 (to_u32 (Z.of_nat (glen o)))) 4 Hc Hb eq_refl) as (h1 & s1 & H1 & H2 & H3 & H4).
      rewrite H1. change (mkXst None false (gread h bf)) with (habs h (mkHst None false bf)). rewrite H2. cbn [fst]. go.
      pose proof (tstep_valid _ _ _ _ _ H4) as Hb1.
      assert (K0 : kept h (mkHst None false bf) o) by (apply clear_kept; auto).
      pose proof (kept_step _ _ _ _ _ _ H4 K0) as K1. pose proof (kept_read _ _ _ _ _ H4 K0) as R1.
      assert (Hr1 : h_reader s1 = false) by apply H4.
      assert (Hc1 : nth_error (set_nth cs p (vstate s1)) p = Some (vstate s1)) by (apply get_set; exact Hp).
      destruct (RW_text grow grow_ok ext n (mkMem h1 (set_nth cs p (vstate s1)) w) p s1 o Hc1 Hb1 (proj1 K1) (kept_clear _ _ _ Hr1 K1)) as (h2 & s2 & G1 & G2 & G3).
      cbn [m_heap] in *. rewrite G1. rewrite HB, <- R1, G2. cbn [fst]. go. rewrite set_set. rewrite ?after_next.
      assert (G4 : tstep none h1 s1 h2 s2) by (eapply tstep_weaken; [exact G3|]; intros b i _ [Hx _]; congruence).
      pose proof (kept_step _ _ _ _ _ _ G4 K1) as K2. pose proof (kept_read _ _ _ _ _ G4 K1) as R2. pose proof (tstep_valid _ _ _ _ _ G4) as Hb2.
      assert (Hc2 : nth_error (set_nth cs p (vstate s2)) p = Some (vstate s2)) by (apply get_set; exact Hp).
      assert (Hq2 : nth_error (set_nth cs p (vstate s2)) q = Some (WSl o)) by (rewrite get_other by exact Hpq; exact Hq).
      destruct (tail_text n h2 _ w p q s2 o M Hc2 Hq2 Hb2 (proj1 K2)) as (h3 & s3 & F1 & F2 & F3).
      unfold fbody, lib_XdrVarArray in F1. cbn [skipn] in F1. rewrite F1. rewrite set_set.
      assert (E2 : option_map (sread h) o = option_map (sread h2) o) by (clear - R1 R2; destruct o; cbn in *; congruence).
      assert (E3 : option_map (sread h3) o = option_map (sread h2) o) by (pose proof (kept_read _ _ _ _ _ F3 K2) as R3; clear - R3; destruct o; cbn in *; congruence).
      exists h3, s3, o. split; [|split; [|split]].
      * rewrite (set_same (set_nth _ _ _) q) by (rewrite get_other by assumption; exact Hq). reflexivity.
      * rewrite <- HL, E3, <- F2. rewrite <- R1 in HB. rewrite <- HB, E2. reflexivity.
      * eapply tstep_none; [exact H4|]. eapply tstep_none; eassumption.
      * left. reflexivity.
Qed.

(** ** XdrString *)
Lemma f_String : find_fun xdr_pkg "XdrString" =
  Some ([PS "xs"; ("maxlen", EId "int"); ("v", EUn "*" (EId "string"))], [], fbody lib_XdrString).
Proof. reflexivity. Qed.

Lemma String_text n h cs w p q s v M :
  nth_error cs p = Some (vstate s) -> nth_error cs q = Some (WStr v) -> gvalid h (h_buf s) ->
  exists h' s' v', Run (S (S n)) "XdrString" [WPtr p; WNum "int" M; WPtr q] (mkMem h cs w) =
      Ret (mkMem h' (set_nth (set_nth cs p (vstate s')) q (WStr v')) w, []) /\
    XdrString (habs h s) M v = (habs h' s', v') /\ tstep none h s h' s'.
Proof.
  intros Hc Hq Hb. assert (Hp : (p < List.length cs)%nat) by (apply nth_error_Some; congruence).
  assert (Hpq : p <> q) by (intros ->; rewrite Hc in Hq; discriminate).
  enter f_String. unfold fbody, lib_XdrString, PS. nx. unfold XdrString. cbn [habs x_err].
  destruct s as [[e|] rd bf]; cbn [h_err h_reader h_buf] in *; nx.
  { exists h, (mkHst (Some e) rd bf), v. split; [|split; [reflexivity|apply tstep_refl; exact Hb]].
    cbn [finish]. go. rewrite (set_same cs) by exact Hc. rewrite (set_same cs) by exact Hq. reflexivity. }
  nx. rewrite (Enc_text grow ext n _ _ _ p (mkHst None rd bf) Hc). go. unfold HEncoding. go.
  unfold Encoding. cbn [habs x_err x_reader h_err h_reader].
  destruct rd; cbn [negb]; go.
  - destruct (RW_arr grow grow_ok ext n h cs w p _ (zeros 4) 4 Hc Hb eq_refl) as (h1 & s1 & H1 & H2 & H3 & H4).
    change (Some (mkSl (List.length h) 0 4 4)) with (arr h 4). rewrite H1.
    change (mkXst None true (gread h bf)) with (habs h (mkHst None true bf)). rewrite H2.
    assert (Hr1 : h_reader s1 = true) by apply H4. pose proof (tstep_valid _ _ _ _ _ H4) as Hb1. go. change (Some (mkSl (List.length h) 0 4 4)) with (arr h 4). rewrite firstn_len by exact H3.
    pose proof (get_u32_bound (gread h1 (arr h 4))) as Hz. set (z := get_u32 (gread h1 (arr h 4))) in *.
    rewrite ?(to_s64_small z) by lia.
    rewrite ge_leb, gt_ltb. rewrite (proj2 (Z.ltb_ge z 0)) by lia.
    assert (Hc1 : nth_error (set_nth cs p (vstate s1)) p = Some (vstate s1)) by (apply get_set; exact Hp).
    assert (Hq1 : nth_error (set_nth cs p (vstate s1)) q = Some (WStr v)) by (rewrite get_other by exact Hpq; exact Hq).
    assert (Hbad : exists bad, (0 <=? M) && (M <? z) || false = bad) by eauto. destruct Hbad as [bad Hbad]. rewrite Hbad.
    match goal with |- context [obind (if 0 <=? M then Ret (?m, WBool (M <? z)) else ?E) ?k] =>
      replace (if 0 <=? M then Ret (m, WBool (M <? z)) else E) with (Ret (m, WBool bad))
        by (rewrite <- Hbad; destruct (0 <=? M); cbn [andb orb]; rewrite ?orb_false_r; reflexivity) end.
    destruct bad; go.
    + change (str_lit """string too large""") with (str_bytes "string too large").
      rewrite (SetError_text grow ext n h1 _ w p s1 _ Hc1). go. rewrite set_set.
      exists h1, (HSetError s1 "string too large"), v. split; [nx; cbn [finish]; go; rewrite (set_same (set_nth _ _ _) q) by (rewrite get_other by assumption; exact Hq); reflexivity|].
      split; [reflexivity|]. apply tstep_err; exact H4.
    + rewrite (R_text grow ext n h1 _ w p s1 z Hc1 Hb1) by lia.
      assert (HR : exists X, xdrR (habs h1 s1) z = (habs h1 (fst (hxdrR s1 z)), X) /\ bytes_of X = gread h1 (snd (hxdrR s1 z))).
      { destruct (hR_rel h1 s1 z Hb1 ltac:(lia)) as [->|(_ & _ & _ & -> & ->)]; eexists; (split; [reflexivity|]).
        - destruct (snd (hxdrR s1 z)); reflexivity.
        - reflexivity. }
      destruct HR as (X & HR & HX). rewrite HR, HX. clear HR HX X.
      destruct (hR_step h1 s1 z Hb1 ltac:(lia) Hr1) as (T1 & T2 & T3).
      destruct (hxdrR s1 z) as [s2 o2]. cbn [fst snd] in *. go. rewrite set_set. pose proof (tstep_valid _ _ _ _ _ T1) as Hb2.
      assert (Hc2 : nth_error (set_nth (set_nth cs p (vstate s2)) q (WStr (gread h1 o2))) p = Some (vstate s2)) by (rewrite get_other by congruence; apply get_set; exact Hp).
      assert (Hq2 : nth_error (set_nth (set_nth cs p (vstate s2)) q (WStr (gread h1 o2))) q = Some (WStr (gread h1 o2))) by (apply get_set; rewrite set_nth_len; apply nth_error_Some; congruence).
      go. set (vv := gread h1 o2) in *.
      pose proof (rem4 (Z.of_nat (List.length vv)) ltac:(lia)) as Hr. destruct (pad_len (List.length vv) ltac:(lia)) as [Hpad Hpos]. cbn zeta in Hpad.
      unfold zlen. rewrite Hpad, (proj2 (Z.ltb_ge _ 0)) by lia. go.
      destruct (pad_text n h1 _ w p s2 (List.length vv) Hc2 Hb2) as (h3 & s3 & G1 & G2 & G3).
      unfold arr in G1. unfold padb in *. rewrite G1, G2. go.
      exists h3, s3, vv. split; [|split].
      * nx. cbn [finish]. rewrite (set_comm _ q p) by congruence. rewrite set_set. reflexivity.
      * reflexivity.
      * eapply tstep_none; [exact H4|]. eapply tstep_none; eassumption.
  - change MaxUint32 with 4294967295. unfold zlen.
    assert (Hbad : exists bad, (Z.of_nat (List.length v) >? 4294967295) || (M >=? 0) && (Z.of_nat (List.length v) >? M) = bad) by eauto. destruct Hbad as [bad Hbad]. rewrite Hbad.
    match goal with |- context [obind (if Z.of_nat (List.length v) >? 4294967295 then Ret (?m, ?b) else ?E) ?k] =>
      replace (if Z.of_nat (List.length v) >? 4294967295 then Ret (m, b) else E) with (Ret (m, WBool bad))
        by (rewrite <- Hbad; destruct (Z.of_nat (List.length v) >? 4294967295), (M >=? 0); reflexivity) end.
    destruct bad; go.
    + change (str_lit """string too large""") with (str_bytes "string too large").
      rewrite (SetError_text grow ext n h _ w p (mkHst None false bf) _ Hc). go.
      exists h, (HSetError (mkHst None false bf) "string too large"), v. split; [nx; cbn [finish]; go; rewrite (set_same (set_nth _ _ _) q) by (rewrite get_other by assumption; exact Hq); reflexivity|].
      split; [reflexivity|]. apply tstep_err, tstep_refl; exact Hb.
    + change (Some (mkSl (List.length h) 0 4 4)) with (arr h 4). rewrite ?arr_store by reflexivity.
      destruct (RW_arr grow grow_ok ext n h cs w p _ (put_u32 (to_u32 (Z.of_nat (List.length v)))) 4 Hc Hb eq_refl) as (h1 & s1 & H1 & H2 & H3 & H4).
      rewrite H1. change (mkXst None false (gread h bf)) with (habs h (mkHst None false bf)). rewrite H2. cbn [fst]. go.
      pose proof (tstep_valid _ _ _ _ _ H4) as Hb1.
      assert (Hc1 : nth_error (set_nth cs p (vstate s1)) p = Some (vstate s1)) by (apply get_set; exact Hp).
      destruct (RW_arr grow grow_ok ext n h1 _ w p s1 v _ Hc1 Hb1 eq_refl) as (h2 & s2 & G1 & G2 & G3 & G4).
      unfold arr in G1. rewrite G1, G2. cbn [fst]. go. rewrite set_set. pose proof (tstep_valid _ _ _ _ _ G4) as Hb2.
      assert (Hc2 : nth_error (set_nth cs p (vstate s2)) p = Some (vstate s2)) by (apply get_set; exact Hp).
      go.
      pose proof (rem4 (Z.of_nat (List.length v)) ltac:(lia)) as Hr. destruct (pad_len (List.length v) ltac:(lia)) as [Hpad Hpos]. cbn zeta in Hpad.
      unfold zlen. rewrite Hpad, (proj2 (Z.ltb_ge _ 0)) by lia. go.
      destruct (pad_text n h2 _ w p s2 (List.length v) Hc2 Hb2) as (h3 & s3 & F1 & F2 & F3).
      unfold arr in F1. unfold padb in *. rewrite F1, F2. go. rewrite set_set.
      exists h3, s3, v. split; [|split].
      * nx. cbn [finish]. rewrite (set_same (set_nth _ _ _) q) by (rewrite get_other by assumption; exact Hq). reflexivity.
      * reflexivity.
      * eapply tstep_none; [exact H4|]. eapply tstep_none; eassumption.
Qed.

(** ** The other functions of lib.go *)
Lemma f_MakeReader : find_fun xdr_pkg "MakeReader" = Some ([("buf", TSlice (EId "byte"))], [EUn "*" (EId "XdrState")], fbody lib_MakeReader).
Proof. reflexivity. Qed.
Lemma f_MakeWriter : find_fun xdr_pkg "MakeWriter" = Some ([("buf", TSlice (EId "byte"))], [EUn "*" (EId "XdrState")], fbody lib_MakeWriter).
Proof. reflexivity. Qed.
Lemma f_WriteBuf : find_fun xdr_pkg "XdrState.WriteBuf" = Some ([PS "xs"], [TSlice (EId "byte")], fbody lib_XdrState_WriteBuf).
Proof. reflexivity. Qed.
Lemma f_Error : find_fun xdr_pkg "XdrState.Error" = Some ([PS "xs"], [EId "error"], fbody lib_XdrState_Error).
Proof. reflexivity. Qed.
Lemma f_SetSize : find_fun xdr_pkg "XdrState.EncodingSetSize" =
  Some ([PS "xs"; ("arraysz", EUn "*" (EId "uint32")); ("len", EId "int")], [], fbody lib_XdrState_EncodingSetSize).
Proof. reflexivity. Qed.
Lemma zero_state : xdr_structs "XdrState" = Some (WStruct "XdrState" [("err", WNil); ("reader", WBool false); ("buf", WSl None)]).
Proof. reflexivity. Qed.

(** The pointer returned is to a new variable. *)
Lemma MakeReader_text n h cs w o :
  Run (S n) "MakeReader" [WSl o] (mkMem h cs w) = Ret (mkMem h (cs ++ [vstate (mkHst None true o)]) w, [WPtr (List.length cs)]).
Proof.
  enter f_MakeReader. unfold fbody, lib_MakeReader. nx. rewrite zero_state. go. nx. cbn [finish]. go. reflexivity.
Qed.
Lemma MakeWriter_text n h cs w o :
  Run (S n) "MakeWriter" [WSl o] (mkMem h cs w) = Ret (mkMem h (cs ++ [vstate (mkHst None false o)]) w, [WPtr (List.length cs)]).
Proof.
  enter f_MakeWriter. unfold fbody, lib_MakeWriter. nx. rewrite zero_state. go. nx. cbn [finish]. go. reflexivity.
Qed.
Lemma MakeWriter_nil n h cs w :
  Run (S n) "MakeWriter" [WNil] (mkMem h cs w) = Ret (mkMem h (cs ++ [vstate (mkHst None false None)]) w, [WPtr (List.length cs)]).
Proof.
  enter f_MakeWriter. unfold fbody, lib_MakeWriter. nx. rewrite zero_state. go. nx. cbn [finish]. go. reflexivity.
Qed.
Lemma WriteBuf_text n h cs w p s : nth_error cs p = Some (vstate s) ->
  Run (S n) "XdrState.WriteBuf" [WPtr p] (mkMem h cs w) = Ret (mkMem h cs w, [WSl (h_buf s)]).
Proof. intros Hc. enter f_WriteBuf. unfold fbody, lib_XdrState_WriteBuf, PS. nx. nx. cbn [finish]. go. reflexivity. Qed.
Lemma coerce_err e : coerce (EId "error") (verr e) = verr e.
Proof. destruct e as [[]|]; reflexivity. Qed.
Lemma many_err e : many (verr e) = [verr e].
Proof. destruct e as [[]|]; reflexivity. Qed.
Lemma Error_text n h cs w p s : nth_error cs p = Some (vstate s) ->
  Run (S n) "XdrState.Error" [WPtr p] (mkMem h cs w) = Ret (mkMem h cs w, [verr (h_err s)]).
Proof. intros Hc. enter f_Error. unfold fbody, lib_XdrState_Error, PS. nx. nx. destruct (h_err s) as [[]|]; reflexivity. Qed.

Lemma SetSize_text n h cs w p q s z L :
  nth_error cs p = Some (vstate s) -> nth_error cs q = Some (WNum "uint32" z) -> gvalid h (h_buf s) ->
  exists s' z', Run (S (S n)) "XdrState.EncodingSetSize" [WPtr p; WPtr q; WNum "int" L] (mkMem h cs w) =
      Ret (mkMem h (set_nth (set_nth cs p (vstate s')) q (WNum "uint32" z')) w, []) /\
    EncodingSetSize (habs h s) z L = (habs h s', z') /\ tstep none h s h s'.
Proof.
  intros Hc Hq Hb. assert (Hp : (p < List.length cs)%nat) by (apply nth_error_Some; congruence).
  assert (Hpq : p <> q) by (intros ->; rewrite Hc in Hq; discriminate).
  enter f_SetSize. unfold fbody, lib_XdrState_EncodingSetSize, PS. nx. unfold EncodingSetSize. cbn [habs x_err x_reader].
  destruct s as [[e|] rd bf]; cbn [h_err h_reader h_buf] in *; nx.
  { exists (mkHst (Some e) rd bf), z. split; [|split; [reflexivity|apply tstep_refl; exact Hb]].
    cbn [finish]. go. rewrite (set_same cs) by exact Hc. rewrite (set_same cs) by exact Hq. reflexivity. }
  nx. destruct rd; nx.
  { exists (mkHst None true bf), z. split; [|split; [reflexivity|apply tstep_refl; exact Hb]].
    cbn [finish]. go. rewrite (set_same cs) by exact Hc. rewrite (set_same cs) by exact Hq. reflexivity. }
  nx. change MaxUint32 with 4294967295. destruct (L >? 4294967295) eqn:E; go.
  - change (str_lit """length too large""") with (str_bytes "length too large").
    rewrite (SetError_text grow ext n h _ w p (mkHst None false bf) _ Hc). go.
    exists (HSetError (mkHst None false bf) "length too large"), z. split; [|split; [reflexivity|apply tstep_err, tstep_refl; exact Hb]].
    nx; cbn [finish]; go; rewrite (set_same (set_nth _ _ _) q) by (rewrite get_other by assumption; exact Hq); reflexivity.
  - nx. nx. exists (mkHst None false bf), (to_u32 L). split; [|split; [reflexivity|apply tstep_refl; exact Hb]].
    cbn [finish]. rewrite (set_same cs p) by exact Hc. reflexivity.
Qed.

(** ** helper.go: an encoding or decoding of a value whose Xdr method is declared elsewhere *)
Lemma f_EncodeBuf : find_fun xdr_pkg "EncodeBuf" = Some ([("v", EId "Xdrable")], [TSlice (EId "byte"); EId "error"], fbody helper_EncodeBuf).
Proof. reflexivity. Qed.
Lemma f_DecodeBuf : find_fun xdr_pkg "DecodeBuf" = Some ([("buf", TSlice (EId "byte")); ("v", EId "Xdrable")], [EId "error"], fbody helper_DecodeBuf).
Proof. reflexivity. Qed.

(** The Xdr method of object [i], on a state in cell [p]: does [F] to it, and may do anything to the world. *)
Definition xdr_method (i : nat) (F : xst -> W -> xst * W) : Prop :=
  forall h cs w p s, nth_error cs p = Some (vstate s) -> gvalid h (h_buf s) ->
  exists h' s', ext ".Xdr" [WObj i; WPtr p] (mkMem h cs w) = Ret (mkMem h' (set_nth cs p (vstate s')) (snd (F (habs h s) w)), []) /\
    habs h' s' = fst (F (habs h s) w) /\ tstep none h s h' s'.
Lemma no_Xdr : find_fun xdr_pkg ".Xdr" = None.
Proof. reflexivity. Qed.
Lemma run_ext n f args (m : mem W) : find_fun xdr_pkg f = None -> Run (S n) f args m = ext f args m.
Proof. intros H. cbn [run]. rewrite H. reflexivity. Qed.

Lemma EncodeBuf_text n h cs w i F : xdr_method i F ->
  exists h' cs' o, Run (S (S n)) "EncodeBuf" [WObj i] (mkMem h cs w) =
    Ret (mkMem h' cs' (snd (F (MakeWriter []) w)), [WSl o; verr (x_err (fst (F (MakeWriter []) w)))]) /\
    gread h' o = x_buf (fst (F (MakeWriter []) w)).
Proof.
  intros HF. enter f_EncodeBuf. unfold fbody, helper_EncodeBuf. nx. rewrite MakeWriter_nil. go.
  set (p := List.length cs). set (c1 := cs ++ [vstate (mkHst None false None)]).
  assert (Hc : nth_error c1 p = Some (vstate (mkHst None false None))) by (unfold c1, p; rewrite nth_error_app2, Nat.sub_diag by lia; reflexivity).
  assert (Hp : (p < List.length c1)%nat) by (apply nth_error_Some; congruence).
  nx. rewrite run_ext by reflexivity.
  destruct (HF h c1 w p _ Hc I) as (h' & s' & H1 & H2 & H3). rewrite H1. change (habs h (mkHst None false None)) with (MakeWriter []) in *. go. nx.
  assert (Hc' : nth_error (set_nth c1 p (vstate s')) p = Some (vstate s')) by (apply get_set; exact Hp).
  rewrite (WriteBuf_text n h' _ _ p s' Hc'). go.
  rewrite (Error_text n h' _ _ p s' Hc'). go. nx. cbn [finish]. rewrite <- H2. 
  exists h', (set_nth c1 p (vstate s')), (h_buf s'). split; [change (x_err (habs h' s')) with (h_err s'); destruct (h_err s') as [[]|]; reflexivity|reflexivity].
Qed.
Lemma DecodeBuf_text n h cs w i F o : xdr_method i F -> gvalid h o ->
  exists h' cs', Run (S (S n)) "DecodeBuf" [WSl o; WObj i] (mkMem h cs w) =
    Ret (mkMem h' cs' (snd (F (MakeReader (gread h o)) w)), [verr (x_err (fst (F (MakeReader (gread h o)) w)))]).
Proof.
  intros HF Ho. enter f_DecodeBuf. unfold fbody, helper_DecodeBuf. nx. rewrite MakeReader_text. go.
  set (p := List.length cs). set (c1 := cs ++ [vstate (mkHst None true o)]).
  assert (Hc : nth_error c1 p = Some (vstate (mkHst None true o))) by (unfold c1, p; rewrite nth_error_app2, Nat.sub_diag by lia; reflexivity).
  assert (Hp : (p < List.length c1)%nat) by (apply nth_error_Some; congruence).
  nx. rewrite run_ext by reflexivity.
  destruct (HF h c1 w p _ Hc Ho) as (h' & s' & H1 & H2 & H3). rewrite H1. change (habs h (mkHst None true o)) with (MakeReader (gread h o)) in *. go. nx.
  assert (Hc' : nth_error (set_nth c1 p (vstate s')) p = Some (vstate s')) by (apply get_set; exact Hp).
  rewrite (Error_text n h' _ _ p s' Hc'). go. nx. cbn [finish]. rewrite <- H2.
  exists h', (set_nth c1 p (vstate s')). change (x_err (habs h' s')) with (h_err s'). destruct (h_err s') as [[]|]; reflexivity.
Qed.

(** ** types.go: the methods of the named types *)
Lemma wrap_text {A} (f g : string) (rep : A -> gv) F T t :
  find_fun xdr_pkg g = Some ([("v", EUn "*" (EId T)); PS "xs"], [], [SExpr (ECall (EId f) [EId "xs"; ECall (EParen (EUn "*" (EId t))) [EId "v"] false] false)]) ->
  (forall m args, builtin (W:=W) grow f m args = None) -> String.eqb f "v" = false -> String.eqb f "xs" = false ->
  num_text grow ext f rep F ->
  forall n h cs w p q s v, nth_error cs p = Some (vstate s) -> nth_error cs q = Some (rep v) -> gvalid h (h_buf s) ->
  exists h' s' v', Run (S (S (S n))) g [WPtr q; WPtr p] (mkMem h cs w) =
      Ret (mkMem h' (set_nth (set_nth cs p (vstate s')) q (rep v')) w, []) /\
    F (habs h s) v = (habs h' s', v') /\ tstep none h s h' s'.
Proof.
  intros HG HB V1 V2 HN n h cs w p q s v Hc Hq Hb. enter HG. unfold PS. destruct (HN n h cs w p q s v Hc Hq Hb) as (h' & s' & v' & H1 & H2 & H3).
  rewrite body_cons by reflexivity. cbn [exec eval obind local assoc String.eqb Ascii.eqb Bool.eqb coerce]. rewrite V1, V2. cbn [obind]. unfold invoke. rewrite HB, H1. go. nx. cbn [finish]. exists h', s', v'. split; [reflexivity|auto].
Qed.
End Lib.
