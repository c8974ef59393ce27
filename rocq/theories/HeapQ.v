(** Consequences of the heap facts for C24 and C25. *)
From Verif Require Import Bytes XdrLib Types Interp Spec Runs Meta Codec Heap HeapP HeapX HeapS.
Open Scope string_scope.
Open Scope Z_scope.
Open Scope list_scope.

(** A value with the contents of its byte slices blanked out, lengths kept. *)
Fixpoint blank (v : val) : val :=
  match v with
  | VBytes o => VBytes (option_map (fun l => zeros (List.length l)) o)
  | VSlice o => VSlice (option_map (map blank) o)
  | VPtr o => VPtr (option_map blank o)
  | VStruct l => VStruct (map (fun fx => (fst fx, blank (snd fx))) l)
  | _ => v
  end.

(** Any later memory: blocks stay and keep their sizes, bytes may have any values. *)
Definition later (h h2 : heap) : Prop := differs_at (fun _ _ => True) h h2.

Lemma blank_later h h2 v : later h h2 -> Forall (svalid h) (hslices v) -> blank (deref h2 v) = blank (deref h v).
Proof.
  intros Hl. revert v. apply (hval_rect' (fun v => Forall (svalid h) (hslices v) -> blank (deref h2 v) = blank (deref h v))); auto.
  - intros [sl|] H; [|reflexivity]. cbn. inversion H; subst. rewrite !sread_len; auto. eapply svalid_differs; eassumption.
  - intros l IH H. cbn. rewrite !map_map. do 2 f_equal. apply map_ext_in. intros x Hx. rewrite Forall_forall in IH. apply IH; [exact Hx|].
    rewrite Forall_forall in *. intros sl Hs. apply H. cbn. apply in_flat_map. eauto.
  - intros x IH H. cbn. do 2 f_equal. apply IH. exact H.
  - intros l IH H. cbn. rewrite !map_map. f_equal. apply map_ext_in. intros [f x] Hx. cbn. f_equal.
    rewrite Forall_forall in IH. apply (IH (f, x)); [exact Hx|].
    rewrite Forall_forall in *. intros sl Hs. apply H. cbn. apply in_flat_map. eauto.
Qed.

(** [sl] is the part of [b] that starts [k] bytes into it, just long enough. *)
Definition part_of (b sl : slice) (k : nat) : Prop :=
  sl_blk sl = sl_blk b /\ sl_off sl = (sl_off b + k)%nat /\ (k + sl_len sl <= sl_len b)%nat /\ sl_cap sl = sl_len sl.
Lemma part_read b sl k h : part_of b sl k -> sread h sl = firstn (sl_len sl) (skipn k (sread h b)).
Proof.
  intros (E1 & E2 & E3 & E4). unfold sread. rewrite E1, E2. apply nth_ext. intros i.
  rewrite !nth_firstn, !nth_skipn, nth_firstn. destruct (Nat.ltb_spec i (sl_len sl)); [|reflexivity].
  destruct (Nat.ltb_spec (k + i) (sl_len b)); [|lia]. rewrite nth_skipn. f_equal. lia.
Qed.

Section Grow.
Variable grow : nat -> nat -> nat.
Hypothesis grow_ok : forall c n, (n <= grow c n)%nat.

Lemma c24_decode n E t h b z h' s' v' : svalid h b -> hslices z = [] ->
  hxdr grow n E t h (mkHst None true (Some b)) z = Ret (h', s', v') ->
  h' = h /\
  runs E t (MakeReader (sread h b)) (deref h z) (mkXst (h_err s') true (gread h (h_buf s'))) (deref h v') /\
  Forall (svalid h) (hslices v') /\ pairwise (hslices v') /\
  forall sl, In sl (hslices v') -> exists k, part_of b sl (4 + k) /\
    be_val (firstn 4 (skipn k (sread h b))) = Z.of_nat (sl_len sl).
Proof.
  intros Hb Hz H. set (s := mkHst None true (Some b)) in *.
  assert (Hv : gvalid h (h_buf s)) by exact Hb.
  pose proof (heap_refines grow grow_ok n E t h s z Hv (safe_nil _ _ _ Hz)) as K. rewrite H in K. destruct K as (K1 & K2 & K3).
  destruct (hstep_reader _ _ _ _ K2 eq_refl) as (-> & Hg & Hr).
  destruct (hxdr_dec grow grow_ok n E t h s z h s' v' eq_refl Hv H) as [D1 D2]. rewrite Hz in D1, D2.
  split; [reflexivity|]. split; [exists n; rewrite <- Hr; exact K1|]. split.
  { eapply Forall_impl; [|exact K3]. intros sl [A _]. exact A. }
  split; [apply D2; [exact I|constructor]|].
  intros sl Hi. destruct (D1 sl Hi) as [[]|K]. cbn [h_buf s] in K, Hg. destruct (h_buf s') as [b'|]; [|destruct K].
  cbn [read_at gsuffix] in K, Hg. destruct K as (C1 & C2 & C3 & C4 & C5). destruct Hg as (G1 & G2 & G3 & G4).
  exists (sl_off sl - sl_off b - 4)%nat. split.
  - split; [exact C1|]. split; [lia|]. split; [lia|exact C2].
  - rewrite <- C5. f_equal. unfold sread. cbn [sl_blk sl_off sl_len]. apply nth_ext. intros i.
    rewrite !nth_firstn, !nth_skipn, nth_firstn. destruct (Nat.ltb_spec i 4); [|reflexivity].
    destruct (Nat.ltb_spec (sl_off sl - sl_off b - 4 + i) (sl_len b)); [|lia]. rewrite nth_skipn. f_equal. lia.
Qed.

Lemma c24_append h sl bs h' o' : svalid h sl -> sl_cap sl = sl_len sl -> gappend grow h (Some sl) bs = (h', o') ->
  differs_at (fun _ _ => False) h h' /\ gread h' o' = sread h sl ++ bs.
Proof.
  intros Hv Hc H. pose proof (gappend_spec grow grow_ok h (Some sl) bs Hv) as K. rewrite H in K. destruct K as (K1 & _ & (K3 & K4) & _).
  split; [|exact K1]. split; [exact K3|]. intros b Hb. destruct (K4 b Hb) as [A B]. split; [exact A|].
  intros i _. apply B. cbn. lia.
Qed.

(** ** Writing: a sequence of generated methods on one state *)
Inductive hwrites (E : env) : list cty -> list hval -> heap -> hst -> heap -> hst -> Prop :=
| HW_nil h s : hwrites E [] [] h s h s
| HW_cons t ts v vs n h s h1 s1 v1 h2 s2 :
    hxdr grow n E t h s v = Ret (h1, s1, v1) -> hwrites E ts vs h1 s1 h2 s2 ->
    hwrites E (t :: ts) (v :: vs) h s h2 s2.

Lemma hwrites_step E ts vs h s h' s' : hwrites E ts vs h s h' s' -> gvalid h (h_buf s) -> hstep h s h' s'.
Proof.
  induction 1; intros Hv; [apply hstep_refl; exact Hv|].
  pose proof (hxdr_steps grow grow_ok _ _ _ _ _ _ _ _ _ Hv H) as S1. eapply hstep_trans; [exact S1|]. apply IHhwrites. eapply hstep_valid; exact S1.
Qed.

Lemma c25_frame E ts vs h o h' s' : gvalid h o -> hwrites E ts vs h (mkHst None false o) h' s' ->
  differs_at (in_spare o) h h' /\ gread h' o = gread h o /\
  (gcap o = glen o -> differs_at (fun _ _ => False) h h').
Proof.
  intros Hv H. apply hwrites_step in H; [|exact Hv]. destruct H as (_ & _ & _ & H). destruct (H eq_refl) as [Hd _].
  cbn [h_buf] in Hd. split; [exact Hd|]. split.
  - destruct o as [b|]; [|reflexivity]. eapply sread_differs; [exact Hd|exact Hv|]. intros i Hi [_ Hc]. lia.
  - intros Hc. destruct Hd as [A B]. split; [exact A|]. intros b Hb. destruct (B b Hb) as [B1 B2]. split; [exact B1|].
    intros i _. apply B2. destruct o as [s|]; cbn in *; [lia|auto].
Qed.

Lemma c25_extends D E ts vs : wf_env D E ->
  Forall2 (fun t v => wf_ty D E t /\ zero D E t <> None) ts vs ->
  forall h o, gvalid h o ->
  Forall2 (fun t v => has_ty E t (deref h v) /\ bounded ENC E t (deref h v)) ts vs ->
  Forall (fun v => Forall (fun sl => svalid h sl /\
     forall i, (sl_off sl <= i < sl_off sl + sl_len sl)%nat -> ~ in_spare o (sl_blk sl) i) (hslices v)) vs ->
  exists h' o' ws, hwrites E ts vs h (mkHst None false o) h' (mkHst None false o') /\
    gread h' o' = gread h o ++ List.concat ws /\
    Forall2 (fun tv w => Wire ENC E (fst tv) (deref h (snd tv)) w) (combine ts vs) ws.
Proof.
  intros Hwf Hts. induction Hts as [|t v ts vs [Ht Hz] Hts IH]; intros h o Hv Hty Hsafe.
  - exists h, o, []. split; [constructor|]. split; [cbn; rewrite app_nil_r; reflexivity|constructor].
  - inversion Hty as [|? ? ? ? [Hv1 Hb1] Hty2]; subst. inversion Hsafe as [|? ? Hs1 Hs2]; subst.
    set (s := mkHst None false o) in *.
    assert (HS : forall v, Forall (fun sl => svalid h sl /\ forall i, (sl_off sl <= i < sl_off sl + sl_len sl)%nat -> ~ in_spare o (sl_blk sl) i) (hslices v) -> safe h s v).
    { intros x Hx. eapply Forall_impl; [|exact Hx]. intros sl [A B]. split; [exact A|]. intros _. exact B. }
    destruct (enc_outcome D E t Hwf Ht (gread h o) (deref h v) Hv1) as (w & [[[n Hn] Hw]|(e & _ & Hnb)]); [|contradiction].
    pose proof (heap_refines grow grow_ok n E t h s v Hv (HS v Hs1)) as K.
    unfold habs in K at 1. cbn [s h_err h_reader h_buf] in K. rewrite Hn in K.
    destruct (hxdr grow n E t h s v) as [[[h1 s1] v1]| |] eqn:E1; cbn [outrel] in K; try discriminate.
    destruct K as (K1 & K2 & K3). injection K1 as Er Erd Eb _.
    destruct s1 as [er rd o1]. cbn [h_err h_reader h_buf] in *. subst er rd.
    assert (Hd : forall v, In v vs -> deref h1 v = deref h v).
    { intros x Hx. eapply hstep_deref; [exact K2|]. apply HS. rewrite Forall_forall in Hs2. apply Hs2. exact Hx. }
    destruct (IH h1 o1 (hstep_valid _ _ _ _ K2)) as (h' & o' & ws & I1 & I2 & I3).
    + clear - Hty2 Hd. induction Hty2 as [|t v ts vs H Hty2 IH]; constructor; [rewrite Hd by (left; reflexivity); exact H|].
      apply IH. intros x Hx. apply Hd. right. exact Hx.
    + rewrite Forall_forall in *. intros x Hx. specialize (Hs2 x Hx). apply HS in Hs2. pose proof (hstep_safe _ _ _ _ _ K2 Hs2) as Hq.
      unfold safe in Hq. rewrite Forall_forall in *. intros sl Hi. destruct (Hq sl Hi) as [A B]. split; [exact A|apply B; reflexivity].
    + exists h', o', (w :: ws). split; [econstructor; eassumption|]. split.
      * rewrite I2, <- Eb. cbn [List.concat]. rewrite app_assoc. reflexivity.
      * cbn [combine]. constructor; [exact Hw|]. clear - I3 Hd Hts. revert ws I3 Hd.
        induction Hts as [|t v ts vs _ _ IH]; intros ws H Hd; cbn in *; inversion H; subst; constructor; cbn in *.
        -- rewrite <- Hd by auto. assumption.
        -- apply IH; auto.
Qed.
End Grow.

(** ** Examples *)
Definition exh_t : cty := CStruct [("A", CVarOpaque (Some 8)); ("N", CString None); ("B", CVarOpaque None)].
Definition exh_buf : list byte :=
  [xaa; x00;x00;x00;x05; x01;x02;x03;x04;x05;x00;x00;x00; x00;x00;x00;x02; x68;x69;x00;x00; x00;x00;x00;x04; x0a;x0b;x0c;x0d; xbb; xcc].
Definition exh_b : slice := mkSl 0 1 29 30.
Definition exh_z : hval := HStruct [("A", HBytes None); ("N", HStr []); ("B", HBytes None)].
Definition exh_grow (c n : nat) : nat := (c + n)%nat.

Lemma c24_ex : svalid [exh_buf] exh_b /\ (forall c n, (n <= exh_grow c n)%nat) /\
  hxdr exh_grow 3 [] exh_t [exh_buf] (mkHst None true (Some exh_b)) exh_z
  = Ret ([exh_buf], mkHst None true (Some (mkSl 0 29 1 2)),
         HStruct [("A", HBytes (Some (mkSl 0 5 5 5))); ("N", HStr [x68; x69]); ("B", HBytes (Some (mkSl 0 25 4 4)))]).
Proof.
  split; [unfold svalid; cbn; lia|]. split; [unfold exh_grow; lia|]. vm_compute. reflexivity.
Qed.

(** A caller's buffer with spare capacity, holding one byte; the value's data lies before it. *)
Definition exh_mem : heap := [[x01;x02;x03;x04;x05;x11;xee;xee;xee;xee;xee;xee;xee;xee;xee;xee;xee;xee]].
Definition exh_o : slice := mkSl 0 5 1 12.
Definition exh_v : hval := HStruct [("A", HBytes (Some (mkSl 0 0 5 5))); ("N", HStr [x68]); ("B", HBytes None)].

Lemma c25_ex : gvalid exh_mem (Some exh_o) /\ good 3 [] exh_t /\
  has_ty [] exh_t (deref exh_mem exh_v) /\ bounded ENC [] exh_t (deref exh_mem exh_v) /\
  Forall (fun sl => svalid exh_mem sl /\ forall i, (sl_off sl <= i < sl_off sl + sl_len sl)%nat -> ~ in_spare (Some exh_o) (sl_blk sl) i)
    (hslices exh_v).
Proof.
  split; [unfold gvalid, svalid; cbn; lia|]. split.
  { split; [intros x t H; discriminate|]. split; [|discriminate]. constructor.
    - repeat constructor; cbn; intuition discriminate.
    - intros f t [H|[H|[H|[]]]]; injection H as <- <-; constructor; cbn; lia || exact I. }
  split. { repeat constructor. }
  split. { constructor. repeat (eapply BF_cons; [reflexivity|constructor; unfold within, zlen; cbn; lia|]). constructor. }
  constructor; [|constructor]. split; [unfold svalid; cbn; lia|]. intros i Hi [_ Hc]. cbn in *. lia.
Qed.

(** Overlap with the spare capacity: the length word is written over the data before it is
    copied, so what is written is not the encoding of the value. *)
Lemma c25_overlap : exists h o sl h' o',
  gvalid h (Some o) /\ svalid h sl /\
  hwrites exh_grow [] [CVarOpaque None] [HBytes (Some sl)] h (mkHst None false (Some o)) h' (mkHst None false (Some o')) /\
  deref h (HBytes (Some sl)) = VBytes (Some [x11; x22; x33; x44]) /\
  gread h (Some o) = [] /\ gread h' (Some o') = [x00; x00; x00; x04; x00; x00; x00; x04].
Proof.
  exists [[x11; x22; x33; x44; x55; x66; x77; x88]], (mkSl 0 0 0 8), (mkSl 0 0 4 4). do 2 eexists.
  split; [unfold gvalid, svalid; cbn; lia|]. split; [unfold svalid; cbn; lia|].
  split; [econstructor; [instantiate (4 := 2%nat); vm_compute; reflexivity|constructor]|].
  split; [reflexivity|]. split; reflexivity.
Qed.
