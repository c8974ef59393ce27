(** Where decoded byte slices lie, and what encoding may overwrite. *)
From Verif Require Import Bytes XdrLib Types Interp Heap HeapP HeapX.
Open Scope string_scope.
Open Scope Z_scope.
Open Scope list_scope.

Section Grow.
Variable grow : nat -> nat -> nat.
Hypothesis grow_ok : forall c n, (n <= grow c n)%nat.

(** ** Every run is a step *)
Definition steps (X : hcode) : Prop :=
  forall h s v h' s' v', gvalid h (h_buf s) -> X h s v = Ret (h', s', v') -> hstep h s h' s'.

Lemma rel_step {A} h s h' s' (a : A) q : rel h s (h', s', a) q -> hstep h s h' s'.
Proof. intros [_ H]. exact H. Qed.

Lemma finish_step h s o h' s' o' : gvalid h (h_buf s) -> va_finish grow h s o = (h', s', o') -> hstep h s h' s'.
Proof.
  intros Hv H. unfold va_finish in H. destruct (negb _).
  - pose proof (RW_fst grow grow_ok h s (pad_make (glen o)) Hv) as K. destruct (fst _) as [h2 s2]. injection H as <- <- <-. apply K.
  - injection H as <- <- <-. apply hstep_refl. exact Hv.
Qed.
Lemma VarArray_step h s m o h' s' o' : gvalid h (h_buf s) -> HXdrVarArray grow h s m o = (h', s', o') -> hstep h s h' s'.
Proof.
  intros Hv H. rewrite HVA_eq in H. cbv zeta in H. destruct (h_err s) eqn:Ee.
  { injection H as <- <- <-. apply hstep_refl. exact Hv. }
  destruct (HEncoding s) eqn:Een.
  - destruct (_ || _). { injection H as <- <- <-. apply hstep_err. apply hstep_refl. exact Hv. }
    set (sz := put_u32 _) in *. pose proof (RW_rel grow grow_ok h s sz Hv) as K. destruct (hxdrRW grow h s sz) as [[h1 s1] v1].
    apply rel_step in K. pose proof (RW_rel grow grow_ok h1 s1 (gread h1 o) (hstep_valid _ _ _ _ K)) as K2.
    destruct (hxdrRW grow h1 s1 (gread h1 o)) as [[h2 s2] v2]. apply rel_step in K2.
    apply finish_step in H; [|eapply hstep_valid; exact K2]. eapply hstep_trans; [exact K|eapply hstep_trans; eassumption].
  - assert (Hrd : h_reader s = true). { unfold HEncoding in Een. rewrite Ee in Een. destruct (h_reader s); auto. }
    pose proof (RW_rel grow grow_ok h s (zeros 4) Hv) as K. destruct (hxdrRW grow h s (zeros 4)) as [[h1 s1] szb] eqn:Erw.
    pose proof (RW_nonnil grow _ _ _ _ _ _ Hrd zeros4_ne Erw) as Hnn. apply rel_step in K. destruct (_ || _).
    { injection H as <- <- <-. apply hstep_err. exact K. }
    assert (Hr1 : h_reader s1 = true) by (destruct K as (-> & _); exact Hrd).
    pose proof (R_rel h1 s1 (get_u32 szb) (hstep_valid _ _ _ _ K) (get_u32_nonneg _) Hr1 Hnn) as K2.
    destruct (hxdrR s1 (get_u32 szb)) as [s2 o2]. destruct K2 as (_ & K2 & _).
    apply finish_step in H; [|eapply hstep_valid; exact K2]. eapply hstep_trans; [exact K|eapply hstep_trans; eassumption].
Qed.

Lemma field_steps X f h s v h' s' v' : steps X -> gvalid h (h_buf s) -> hon_field X h s v f = Ret (h', s', v') -> hstep h s h' s'.
Proof.
  intros HX Hv H. destruct v; try discriminate. cbn in H. destruct (lookup f l) as [x|]; [|discriminate].
  destruct (X h s x) as [[[h1 s1] x1]| |] eqn:Ex; try discriminate. cbn in H. injection H as <- <- <-.
  eapply HX; eassumption.
Qed.
Lemma fields_steps X fs : (forall t, steps (X t)) -> forall h s v h' s' v', gvalid h (h_buf s) ->
  hxdr_fields X fs h s v = Ret (h', s', v') -> hstep h s h' s'.
Proof.
  intros HX. induction fs as [|[f t] fs IH]; intros h s v h' s' v' Hv H; cbn [hxdr_fields] in H.
  - injection H as <- <- <-. apply hstep_refl. exact Hv.
  - destruct (hon_field (X t) h s v f) as [[[h1 s1] v1]| |] eqn:E1; try discriminate. cbn [obind] in H.
    apply field_steps in E1; [|apply HX|exact Hv]. eapply hstep_trans; [exact E1|]. eapply IH; [eapply hstep_valid; exact E1|exact H].
Qed.
Lemma elems_steps X k : steps X -> forall l h s h' s' l', gvalid h (h_buf s) ->
  hxdr_elems X k l h s = Ret (h', s', l') -> hstep h s h' s'.
Proof.
  intros HX. induction k as [|k IH]; intros l h s h' s' l' Hv H; cbn [hxdr_elems] in H.
  - injection H as <- <- <-. apply hstep_refl. exact Hv.
  - destruct l as [|x l]; [discriminate|]. destruct (X h s x) as [[[h1 s1] x1]| |] eqn:E1; try discriminate. cbn [obind] in H.
    destruct (hxdr_elems X k l h1 s1) as [[[h2 s2] l2]| |] eqn:E2; try discriminate. cbn [obind] in H. injection H as <- <- <-.
    apply HX in E1; [|exact Hv]. eapply hstep_trans; [exact E1|]. eapply IH; [eapply hstep_valid; exact E1|exact E2].
Qed.

Lemma hxdr_steps n E t : steps (hxdr grow n E t).
Proof.
  revert t. induction n as [|n IH]; intros t h s v h' s' v' Hv H; [discriminate|].
  destruct t; try (destruct v; discriminate).
  - destruct v; try discriminate. cbn [hxdr] in H. pose proof (U32_rel grow grow_ok h s z Hv) as K.
    destruct (HXdrU32 grow h s z) as [[h1 s1] z1]. injection H as <- <- <-. apply K.
  - destruct v; try discriminate. cbn [hxdr] in H. pose proof (S32_rel grow grow_ok h s z Hv) as K.
    destruct (HXdrS32 grow h s z) as [[h1 s1] z1]. injection H as <- <- <-. apply K.
  - destruct v; try discriminate. cbn [hxdr] in H. pose proof (U64_rel grow grow_ok h s z Hv) as K.
    destruct (HXdrU64 grow h s z) as [[h1 s1] z1]. injection H as <- <- <-. apply K.
  - destruct v; try discriminate. cbn [hxdr] in H. pose proof (S64_rel grow grow_ok h s z Hv) as K.
    destruct (HXdrS64 grow h s z) as [[h1 s1] z1]. injection H as <- <- <-. apply K.
  - destruct v; try discriminate. cbn [hxdr] in H. pose proof (Bool_rel grow grow_ok h s b Hv) as K.
    destruct (HXdrBool grow h s b) as [[h1 s1] z1]. injection H as <- <- <-. apply K.
  - destruct v; try discriminate. cbn [hxdr] in H. pose proof (Array_rel grow grow_ok h s bs Hv) as K.
    destruct (HXdrArray grow h s bs) as [[h1 s1] z1]. injection H as <- <- <-. apply K.
  - destruct v; try discriminate. cbn [hxdr] in H.
    destruct (HXdrVarArray grow h s (maxlen_of max) o) as [[h1 s1] o1] eqn:E1. injection H as <- <- <-.
    eapply VarArray_step; eassumption.
  - destruct v; try discriminate. cbn [hxdr] in H. pose proof (String_rel grow grow_ok h s (maxlen_of max) bs Hv) as K.
    destruct (HXdrString grow h s (maxlen_of max) bs) as [[h1 s1] z1]. injection H as <- <- <-. apply K.
  - destruct v as [| | | | |o| |]; try discriminate. cbn [hxdr] in H.
    pose proof (setsize_rel h s 0 (zlen (helems o)) Hv) as K.
    destruct (HEncodingSetSize s 0 (zlen (helems o))) as [s1 sz0]. destruct K as [_ Hst1].
    pose proof (U32_rel grow grow_ok h s1 sz0 (hstep_valid _ _ _ _ Hst1)) as K.
    destruct (HXdrU32 grow h s1 sz0) as [[h2 s2] sz]. destruct K as [_ Hst2].
    pose proof (hstep_trans _ _ _ _ _ _ Hst1 Hst2) as Hst.
    destruct (match max with Some k => sz >? k | None => false end). { injection H as <- <- <-. apply hstep_err. exact Hst. }
    destruct (HDecoding s2).
    + destruct (hzero n E t) as [z|]; [|discriminate].
      destruct (hxdr_elems (hxdr grow n E t) (Z.to_nat sz) (repeat z (Z.to_nat sz)) h2 s2) as [[[h3 s3] l3]| |] eqn:E3; try discriminate.
      cbn [obind] in H. injection H as <- <- <-. eapply hstep_trans; [exact Hst|].
      eapply elems_steps; [apply IH|eapply hstep_valid; exact Hst|exact E3].
    + destruct (hxdr_elems (hxdr grow n E t) (Z.to_nat sz) (helems o) h2 s2) as [[[h3 s3] l3]| |] eqn:E3; try discriminate.
      cbn [obind] in H. injection H as <- <- <-. eapply hstep_trans; [exact Hst|].
      eapply elems_steps; [apply IH|eapply hstep_valid; exact Hst|exact E3].
  - destruct v as [| | | | | |o|]; try discriminate. cbn [hxdr] in H.
    set (A := if HEncoding s then _ else _) in H.
    assert (HA : forall h1 s1 o1, A = Ret (h1, s1, o1) -> hstep h s h1 s1).
    { subst A. intros h1 s1 o1 HA. destruct (HEncoding s).
      - pose proof (Bool_rel grow grow_ok h s (match o with Some _ => true | None => false end) Hv) as K.
        destruct (HXdrBool grow h s _) as [[h2 s2] opted]. apply rel_step in K. destruct opted.
        + destruct o as [x|]; [|discriminate]. destruct (hxdr grow n E t h2 s2 x) as [[[h3 s3] x3]| |] eqn:E3; try discriminate.
          cbn [obind] in HA. injection HA as <- <- <-. eapply hstep_trans; [exact K|]. eapply IH; [eapply hstep_valid; exact K|exact E3].
        + injection HA as <- <- <-. exact K.
      - injection HA as <- <- <-. apply hstep_refl. exact Hv. }
    destruct A as [[[h1 s1] o1]| |]; try discriminate. specialize (HA _ _ _ eq_refl). cbn [obind] in H.
    destruct (HDecoding s1); [|injection H as <- <- <-; exact HA].
    pose proof (Bool_rel grow grow_ok h1 s1 false (hstep_valid _ _ _ _ HA)) as K.
    destruct (HXdrBool grow h1 s1 false) as [[h2 s2] opted]. apply rel_step in K.
    pose proof (hstep_trans _ _ _ _ _ _ HA K) as Hst. destruct opted; [|injection H as <- <- <-; exact Hst].
    destruct (hzero n E t) as [z|]; [|discriminate].
    destruct (hxdr grow n E t h2 s2 z) as [[[h3 s3] x3]| |] eqn:E3; try discriminate.
    cbn [obind] in H. injection H as <- <- <-. eapply hstep_trans; [exact Hst|]. eapply IH; [eapply hstep_valid; exact Hst|exact E3].
  - destruct v; try discriminate. cbn [hxdr] in H. eapply fields_steps; eassumption.
  - destruct v; try discriminate. cbn [hxdr] in H.
    destruct (hon_field (hxdr grow n E t) h s (HStruct l) sw) as [[[h1 s1] v1]| |] eqn:E1; try discriminate. cbn [obind] in H.
    apply field_steps in E1; [|apply IH|exact Hv]. destruct (hfield_disc v1 sw) as [d|]; [|discriminate].
    destruct (pick_arm d arms def) as [[[f ta]|]|]; try (injection H as <- <- <-; exact E1).
    eapply hstep_trans; [exact E1|]. eapply field_steps; [apply (IH ta)|eapply hstep_valid; exact E1|exact H].
  - cbn [hxdr] in H. destruct (lookup x E) as [t|]; [|destruct v; discriminate]. destruct v; eapply IH; eassumption.
Qed.

(** ** Decoded slices *)
(** [sl] lies where [o] was read up to [o'], behind its own length word, with its capacity
    ending at its length. *)
Definition read_at (h : heap) (o o' : option slice) (sl : slice) : Prop :=
  match o, o' with
  | Some b, Some b' =>
      sl_blk sl = sl_blk b /\ sl_cap sl = sl_len sl /\
      (sl_off b + 4 <= sl_off sl)%nat /\ (sl_off sl + sl_len sl <= sl_off b')%nat /\
      be_val (sread h (mkSl (sl_blk b) (sl_off sl - 4) 4 4)) = Z.of_nat (sl_len sl)
  | _, _ => False
  end.
Lemma read_at_mono h o0 o o' o1 sl : gsuffix o0 o -> gsuffix o' o1 -> read_at h o o' sl -> read_at h o0 o1 sl.
Proof.
  destruct o0 as [b0|], o as [b|], o' as [b'|], o1 as [b1|]; cbn; try tauto.
  intros (A1 & A2 & A3 & A4) (B1 & B2 & B3 & B4) (C1 & C2 & C3 & C4 & C5). rewrite <- A1.
  split; [exact C1|]. split; [exact C2|]. split; [lia|]. split; [lia|exact C5].
Qed.

(** Two slices without a common byte, not even in their capacities. *)
Definition disj (a b : slice) : Prop :=
  sl_blk a <> sl_blk b \/ (sl_off a + sl_cap a <= sl_off b)%nat \/ (sl_off b + sl_cap b <= sl_off a)%nat.
Fixpoint pairwise (l : list slice) : Prop :=
  match l with [] => True | a :: l => Forall (disj a) l /\ pairwise l end.
Definition cross (l k : list slice) : Prop := forall a b, In a l -> In b k -> disj a b.
Lemma disj_sym a b : disj a b -> disj b a.
Proof. unfold disj. intuition. Qed.
Lemma cross_sym l k : cross l k -> cross k l.
Proof. intros H a b Ha Hb. apply disj_sym. apply H; assumption. Qed.
Lemma pairwise_app l k : pairwise (l ++ k) <-> pairwise l /\ pairwise k /\ cross l k.
Proof.
  induction l as [|a l IH]; cbn.
  - split; [intros H; repeat split; auto; intros ? ? []|tauto].
  - rewrite Forall_app, IH. unfold cross. cbn. rewrite !Forall_forall. intuition (subst; auto).
Qed.
(** Not in the unread part of the buffer. *)
Definition off_rest (o : option slice) (sl : slice) : Prop :=
  match o with
  | Some b => disj sl (mkSl (sl_blk b) (sl_off b) (sl_len b) (sl_len b))
  | None => True
  end.

Lemma read_at_frame h o o' sl a : gsuffix o o' -> read_at h o o' sl -> off_rest o a -> disj a sl.
Proof.
  destruct o as [b|], o' as [b'|]; cbn; try tauto. unfold disj. cbn.
  intros (E1 & E2 & E3 & E4) (F1 & F2 & F3 & F4 & _) H. rewrite F1. destruct H as [H|[H|H]]; [left; exact H|right; left; lia|right; right; lia].
Qed.
Lemma off_rest_suffix o o' a : gsuffix o o' -> off_rest o a -> off_rest o' a.
Proof.
  destruct o as [b|], o' as [b'|]; cbn; try tauto. unfold disj. cbn. intros (E1 & E2 & E3 & E4). rewrite E1. intuition lia.
Qed.
Lemma read_at_rest h o o' sl : gsuffix o o' -> read_at h o o' sl -> off_rest o' sl.
Proof. destruct o as [b|], o' as [b'|]; cbn; try tauto. unfold disj. cbn. intuition lia. Qed.

Definition sub (h : heap) (o o' : option slice) (L L' : list slice) : Prop :=
  forall sl, In sl L' -> In sl L \/ read_at h o o' sl.
Definition dec_ok {A} (S : A -> list slice) (X : heap -> hst -> A -> outcome (heap * hst * A)) : Prop :=
  forall h s v h' s' v', h_reader s = true -> gvalid h (h_buf s) -> X h s v = Ret (h', s', v') ->
    sub h (h_buf s) (h_buf s') (S v) (S v') /\
    (pairwise (S v) -> Forall (off_rest (h_buf s)) (S v) -> pairwise (S v')).

Lemma sub_frame h o o' L L' F : gsuffix o o' -> sub h o o' L L' -> cross F L -> Forall (off_rest o) F -> cross F L'.
Proof.
  intros Hg Hs Hc Hf a b Ha Hb. destruct (Hs b Hb) as [H|H]; [apply Hc; assumption|].
  rewrite Forall_forall in Hf. eapply read_at_frame; [exact Hg|exact H|]. apply Hf. exact Ha.
Qed.
Lemma sub_rest h o o' L L' : gsuffix o o' -> sub h o o' L L' -> Forall (off_rest o) L -> Forall (off_rest o') L'.
Proof.
  intros Hg Hs Hf. rewrite Forall_forall in *. intros a Ha. destruct (Hs a Ha) as [H|H].
  - eapply off_rest_suffix; [exact Hg|]. apply Hf. exact H.
  - eapply read_at_rest; eassumption.
Qed.
Lemma sub_trans h o o1 o2 L L1 L2 : gsuffix o o1 -> gsuffix o1 o2 -> sub h o o1 L L1 -> sub h o1 o2 L1 L2 -> sub h o o2 L L2.
Proof.
  intros G1 G2 H1 H2 sl Hs. destruct (H2 sl Hs) as [H|H].
  - destruct (H1 sl H) as [K|K]; [left; exact K|right]. eapply read_at_mono; [apply gsuffix_refl|exact G2|exact K].
  - right. eapply read_at_mono; [exact G1|apply gsuffix_refl|exact H].
Qed.
Lemma sub_refl h o o' L : sub h o o' L L.
Proof. intros sl H. auto. Qed.

Lemma update_split {A} f (x y : A) l : lookup f l = Some x ->
  exists k pre post, l = pre ++ (k, x) :: post /\ update f y l = pre ++ (k, y) :: post.
Proof.
  induction l as [|[k a] l IH]; [discriminate|]. cbn. destruct (String.eqb f k).
  - intros [= ->]. exists k, [], l. auto.
  - intros H. destruct (IH H) as (k' & pre & post & -> & ->). exists k', ((k, a) :: pre), post. auto.
Qed.

Lemma hstep_reader h s h' s' : hstep h s h' s' -> h_reader s = true -> h' = h /\ gsuffix (h_buf s) (h_buf s') /\ h_reader s' = true.
Proof. intros (H1 & _ & H3 & _) Hr. destruct (H3 Hr). rewrite H1. auto. Qed.

Lemma dec_field X f : steps X -> dec_ok hslices X -> dec_ok hslices (fun h s v => hon_field X h s v f).
Proof.
  intros Hst HX h s v h' s' v' Hr Hv H. destruct v as [| | | | | | |l]; try discriminate. cbn in H.
  destruct (lookup f l) as [x|] eqn:El; [|discriminate].
  destruct (X h s x) as [[[h1 s1] x1]| |] eqn:Ex; try discriminate. cbn in H. injection H as <- <- <-.
  destruct (update_split f x x1 l El) as (k & pre & post & -> & ->).
  destruct (HX _ _ _ _ _ _ Hr Hv Ex) as [HS HP]. destruct (hstep_reader _ _ _ _ (Hst _ _ _ _ _ _ Hv Ex) Hr) as (-> & Hg & Hr1).
  cbn [hslices]. rewrite !flat_map_app. cbn [flat_map snd]. set (P := flat_map _ pre). set (Q := flat_map _ post). split.
  - intros sl Hi. rewrite !in_app_iff in *. destruct Hi as [Hi|[Hi|Hi]]; auto. destruct (HS sl Hi); auto.
  - rewrite !pairwise_app, !Forall_app. intros (A1 & (A2 & A3 & A4) & A5) (B1 & B2 & B3).
    split; [exact A1|]. split; [split; [apply HP; assumption|split; [exact A3|]]|].
    + apply cross_sym. eapply sub_frame; [exact Hg|exact HS|apply cross_sym; exact A4|exact B3].
    + intros a b Ha Hb. apply in_app_iff in Hb. destruct Hb as [Hb|Hb].
      * eapply sub_frame; [exact Hg|exact HS| |exact B1|exact Ha|exact Hb]. intros c d Hc Hd. apply A5; [exact Hc|]. apply in_app_iff. auto.
      * apply A5; [exact Ha|]. apply in_app_iff. auto.
Qed.

Lemma dec_comp {A} (S : A -> list slice) (X Y : heap -> hst -> A -> outcome (heap * hst * A)) h s v h1 s1 v1 h2 s2 v2 :
  dec_ok S X -> dec_ok S Y -> h_reader s = true -> gvalid h (h_buf s) ->
  X h s v = Ret (h1, s1, v1) -> hstep h s h1 s1 -> Y h1 s1 v1 = Ret (h2, s2, v2) -> hstep h1 s1 h2 s2 ->
  sub h (h_buf s) (h_buf s2) (S v) (S v2) /\ (pairwise (S v) -> Forall (off_rest (h_buf s)) (S v) -> pairwise (S v2)).
Proof.
  intros HX HY Hr Hv E1 S1 E2 S2. destruct (hstep_reader _ _ _ _ S1 Hr) as (-> & G1 & Hr1).
  destruct (hstep_reader _ _ _ _ S2 Hr1) as (-> & G2 & _).
  destruct (HX _ _ _ _ _ _ Hr Hv E1) as [A1 A2]. destruct (HY _ _ _ _ _ _ Hr1 (hstep_valid _ _ _ _ S1) E2) as [B1 B2].
  split; [eapply sub_trans; eassumption|]. intros P R. apply B2; [apply A2; assumption|]. eapply sub_rest; eassumption.
Qed.

Lemma dec_fields X fs : (forall t, steps (X t)) -> (forall t, dec_ok hslices (X t)) -> dec_ok hslices (hxdr_fields X fs).
Proof.
  intros Hst HX. induction fs as [|[f t] fs IH]; intros h s v h' s' v' Hr Hv H; cbn [hxdr_fields] in H.
  - injection H as <- <- <-. split; [apply sub_refl|auto].
  - destruct (hon_field (X t) h s v f) as [[[h1 s1] v1]| |] eqn:E1; try discriminate. cbn [obind] in H.
    pose proof (field_steps _ _ _ _ _ _ _ _ (Hst t) Hv E1) as S1.
    pose proof (fields_steps X fs Hst _ _ _ _ _ _ (hstep_valid _ _ _ _ S1) H) as S2.
    exact (dec_comp hslices (fun h s v => hon_field (X t) h s v f) (hxdr_fields X fs) h s v h1 s1 v1 h' s' v'
             (dec_field (X t) f (Hst t) (HX t)) IH Hr Hv E1 S1 H S2).
Qed.

Lemma dec_elems X k : steps X -> dec_ok hslices X -> dec_ok (flat_map hslices) (fun h s l => hxdr_elems X k l h s).
Proof.
  intros Hst HX. induction k as [|k IH]; intros h s l h' s' l' Hr Hv H; cbn [hxdr_elems] in H.
  - injection H as <- <- <-. split; [apply sub_refl|auto].
  - destruct l as [|x l]; [discriminate|]. destruct (X h s x) as [[[h1 s1] x1]| |] eqn:E1; try discriminate. cbn [obind] in H.
    destruct (hxdr_elems X k l h1 s1) as [[[h2 s2] l2]| |] eqn:E2; try discriminate. cbn [obind] in H. injection H as <- <- <-.
    pose proof (Hst _ _ _ _ _ _ Hv E1) as S1. pose proof (elems_steps X k Hst _ _ _ _ _ _ (hstep_valid _ _ _ _ S1) E2) as S2.
    destruct (hstep_reader _ _ _ _ S1 Hr) as (-> & G1 & Hr1). destruct (hstep_reader _ _ _ _ S2 Hr1) as (-> & G2 & _).
    destruct (HX _ _ _ _ _ _ Hr Hv E1) as [A1 A2]. destruct (IH _ _ _ _ _ _ Hr1 (hstep_valid _ _ _ _ S1) E2) as [B1 B2].
    cbn [flat_map]. split.
    + intros sl Hi. rewrite !in_app_iff in *. destruct Hi as [Hi|Hi].
      * destruct (A1 sl Hi) as [K|K]; [auto|]. right. eapply read_at_mono; [apply gsuffix_refl|exact G2|exact K].
      * destruct (B1 sl Hi) as [K|K]; [auto|]. right. eapply read_at_mono; [exact G1|apply gsuffix_refl|exact K].
    + rewrite !pairwise_app, !Forall_app. intros (P1 & P2 & P3) (R1 & R2).
      assert (R2' : Forall (off_rest (h_buf s1)) (flat_map hslices l)).
      { eapply sub_rest; [exact G1|exact (sub_refl h _ _ _)|exact R2]. }
      split; [apply A2; assumption|]. split; [apply B2; assumption|].
      eapply sub_frame; [exact G2|exact B1| |].
      * apply cross_sym. eapply sub_frame; [exact G1|exact A1|apply cross_sym; exact P3|exact R2].
      * eapply sub_rest; [exact G1|exact A1|exact R1].
Qed.

Lemma no_slices {A} (S : A -> list slice) (h : heap) (s s' : hst) v v' : S v' = [] ->
  sub h (h_buf s) (h_buf s') (S v) (S v') /\ (pairwise (S v) -> Forall (off_rest (h_buf s)) (S v) -> pairwise (S v')).
Proof. intros ->. split; [intros ? []|cbn; auto]. Qed.

(** The one place where slices are made. *)
Lemma VarArray_dec h s m o h' s' o' : h_reader s = true -> gvalid h (h_buf s) ->
  HXdrVarArray grow h s m o = (h', s', o') ->
  match o' with None => True | Some sl => o = Some sl \/ read_at h (h_buf s) (h_buf s') sl end.
Proof.
  intros Hr Hv H. rewrite HVA_eq in H. cbv zeta in H. destruct (h_err s) eqn:Ee.
  { injection H as <- <- <-. destruct o; auto. }
  replace (HEncoding s) with false in H by (unfold HEncoding; rewrite Ee, Hr; reflexivity).
  pose proof (RW_rel grow grow_ok h s (zeros 4) Hv) as K. destruct (hxdrRW grow h s (zeros 4)) as [[h1 s1] szb] eqn:Erw.
  apply rel_step in K. destruct (_ || _). { injection H as <- <- <-. destruct o; auto. }
  unfold hxdrRW in Erw. rewrite Ee, Hr in Erw. destruct (hstep_reader _ _ _ _ K Hr) as (-> & G1 & Hr1).
  destruct (hxdrR s1 (get_u32 szb)) as [s2 o2] eqn:E2.
  assert (Hst2 : gsuffix (h_buf s2) (h_buf s') /\ o' = o2).
  { unfold hxdrR in E2. assert (V2 : gvalid h (h_buf s2)).
    { pose proof (hstep_valid _ _ _ _ K) as V1. destruct (_ <? _) eqn:El; cbn [h_err hset_err] in E2; [injection E2 as <- <-; exact V1|].
      destruct (h_err s1); injection E2 as <- <-; [exact V1|]. cbn [h_buf hset_buf]. apply gfrom_valid; [exact V1|].
      apply Z.ltb_ge in El. pose proof (get_u32_nonneg szb). lia. }
    pose proof (finish_step _ _ _ _ _ _ V2 H) as S3.
    assert (Hr2 : h_reader s2 = true). { destruct (_ <? _); cbn [h_err hset_err] in E2; [injection E2 as <- <-; exact Hr1|].
      destruct (h_err s1); injection E2 as <- <-; exact Hr1. }
    split; [apply (hstep_reader _ _ _ _ S3 Hr2)|]. unfold va_finish in H. destruct (negb _); [destruct (fst _)|]; injection H as <- <- <-; reflexivity. }
  destruct Hst2 as [G2 ->]. destruct o2 as [sl|]; [|exact I]. right.
  unfold hxdrR in E2. destruct (Z.ltb_spec (Z.of_nat (glen (h_buf s1))) (get_u32 szb)) as [Hlt|Hge]; cbn [h_err hset_err] in E2; [discriminate|].
  destruct (h_err s1) eqn:Ee1; [discriminate|]. injection E2 as <- Hsl. cbn [h_buf hset_buf] in G2.
  set (n := Nat.min (List.length (zeros 4)) (List.length (gread h (h_buf s)))) in *.
  destruct (n <? List.length (zeros 4))%nat eqn:En; injection Erw as <- <-; [discriminate|].
  apply Nat.ltb_ge in En. change (List.length (zeros 4)) with 4%nat in En.
  assert (E4 : n = 4%nat) by (pose proof (Nat.le_min_l (List.length (zeros 4)) (List.length (gread h (h_buf s)))) as Hm;
    change (List.length (zeros 4)) with 4%nat in Hm at 2; fold n in Hm; lia).
  assert (E5 : (4 <= List.length (gread h (h_buf s)))%nat) by (pose proof (Nat.le_min_r (List.length (zeros 4)) (List.length (gread h (h_buf s)))) as Hm;
    fold n in Hm; lia).
  clearbody n. subst n.
  cbn [h_buf hset_buf] in *. destruct (h_buf s) as [b|]; [|discriminate]. cbn [gclip gfrom sl_blk sl_off sl_len] in Hsl. injection Hsl as <-.
  cbn [gfrom] in G2. destruct (h_buf s') as [b'|]; [|destruct G2]. cbn in G2. unfold read_at. cbn [sl_blk sl_off sl_len sl_cap].
  destruct G2 as (G2 & G3 & G4 & G5). cbn [glen gfrom sl_len] in Hge.
  split; [reflexivity|]. split; [reflexivity|]. split; [lia|]. split; [lia|].
  replace (sl_off b + 4 - 4)%nat with (sl_off b) by lia.
  assert (L4 : (4 <= sl_len b)%nat). { pose proof (gread_len h (Some b) Hv) as Hl. cbn [glen] in Hl. lia. }
  cbn [gread]. assert (ER : sread h (mkSl (sl_blk b) (sl_off b) 4 4) = firstn 4 (sread h b)).
  { unfold sread. cbn [sl_blk sl_off sl_len]. rewrite firstn_firstn. f_equal. lia. }
  rewrite ER. cbn [skipn zeros repeat]. rewrite app_nil_r.
  set (q := firstn 4 (sread h b)). assert (Lq : List.length q = 4%nat). { subst q. rewrite firstn_length, sread_len by exact Hv. lia. }
  rewrite get_u32_val by exact Lq. rewrite Z2Nat.id by (apply be_val_range). reflexivity.
Qed.

Lemma hxdr_dec n E t : dec_ok hslices (hxdr grow n E t).
Proof.
  revert t. induction n as [|n IH]; intros t h s v h' s' v' Hr Hv H; [discriminate|].
  assert (EN : HEncoding s = false). { unfold HEncoding. rewrite Hr. destruct (h_err s); reflexivity. }
  destruct t; try (destruct v; discriminate).
  - destruct v; try discriminate. cbn [hxdr] in H. destruct (HXdrU32 grow h s z) as [[h1 s1] z1]. injection H as <- <- <-. apply no_slices. reflexivity.
  - destruct v; try discriminate. cbn [hxdr] in H. destruct (HXdrS32 grow h s z) as [[h1 s1] z1]. injection H as <- <- <-. apply no_slices. reflexivity.
  - destruct v; try discriminate. cbn [hxdr] in H. destruct (HXdrU64 grow h s z) as [[h1 s1] z1]. injection H as <- <- <-. apply no_slices. reflexivity.
  - destruct v; try discriminate. cbn [hxdr] in H. destruct (HXdrS64 grow h s z) as [[h1 s1] z1]. injection H as <- <- <-. apply no_slices. reflexivity.
  - destruct v; try discriminate. cbn [hxdr] in H. destruct (HXdrBool grow h s b) as [[h1 s1] z1]. injection H as <- <- <-. apply no_slices. reflexivity.
  - destruct v; try discriminate. cbn [hxdr] in H. destruct (HXdrArray grow h s bs) as [[h1 s1] z1]. injection H as <- <- <-. apply no_slices. reflexivity.
  - destruct v; try discriminate. cbn [hxdr] in H. destruct (HXdrVarArray grow h s (maxlen_of max) o) as [[h1 s1] o1] eqn:E1. injection H as <- <- <-.
    pose proof (VarArray_dec _ _ _ _ _ _ _ Hr Hv E1) as K. destruct o1 as [sl|]; [|apply no_slices; reflexivity].
    split; [|cbn; auto]. intros sl' [<-|[]]. destruct K as [->|K]; [left; left; reflexivity|right; exact K].
  - destruct v; try discriminate. cbn [hxdr] in H. destruct (HXdrString grow h s (maxlen_of max) bs) as [[h1 s1] z1]. injection H as <- <- <-. apply no_slices. reflexivity.
  - destruct v as [| | | | |o| |]; try discriminate. cbn [hxdr] in H.
    pose proof (setsize_rel h s 0 (zlen (helems o)) Hv) as K.
    destruct (HEncodingSetSize s 0 (zlen (helems o))) as [s1 sz0]. destruct K as [_ S1].
    pose proof (U32_rel grow grow_ok h s1 sz0 (hstep_valid _ _ _ _ S1)) as K.
    destruct (HXdrU32 grow h s1 sz0) as [[h2 s2] sz]. destruct K as [_ S2].
    pose proof (hstep_trans _ _ _ _ _ _ S1 S2) as S12. destruct (hstep_reader _ _ _ _ S12 Hr) as (-> & G & Hr2).
    destruct (match max with Some k => sz >? k | None => false end). { injection H as <- <- <-. split; [apply sub_refl|auto]. }
    destruct (HDecoding s2).
    + pose proof (hzero_spec n E t h) as Hz. destruct (hzero n E t) as [z|]; [|discriminate]. destruct Hz as [_ Hz].
      destruct (hxdr_elems (hxdr grow n E t) (Z.to_nat sz) (repeat z (Z.to_nat sz)) h s2) as [[[h3 s3] l3]| |] eqn:E3; try discriminate.
      cbn [obind] in H. injection H as <- <- <-.
      assert (HN : flat_map hslices (repeat z (Z.to_nat sz)) = []).
      { clear - Hz. induction (Z.to_nat sz) as [|k IHk]; cbn; [reflexivity|]. rewrite Hz. exact IHk. }
      destruct (dec_elems _ (Z.to_nat sz) (hxdr_steps n E t) (IH t) h s2 _ _ _ _ Hr2 (hstep_valid _ _ _ _ S12) E3) as [A1 A2].
      rewrite HN in A1, A2. split.
      * intros sl Hi. destruct (A1 sl Hi) as [[]|K]. right. eapply read_at_mono; [exact G|apply gsuffix_refl|exact K].
      * intros _ _. apply A2; [exact I|constructor].
    + destruct (hxdr_elems (hxdr grow n E t) (Z.to_nat sz) (helems o) h s2) as [[[h3 s3] l3]| |] eqn:E3; try discriminate.
      cbn [obind] in H. injection H as <- <- <-. destruct o as [l|]; [|apply no_slices; reflexivity].
      destruct (dec_elems _ (Z.to_nat sz) (hxdr_steps n E t) (IH t) h s2 _ _ _ _ Hr2 (hstep_valid _ _ _ _ S12) E3) as [A1 A2]. split.
      * intros sl Hi. destruct (A1 sl Hi) as [K|K]; [auto|]. right. eapply read_at_mono; [exact G|apply gsuffix_refl|exact K].
      * intros P R. apply A2; [exact P|]. eapply sub_rest; [exact G|exact (sub_refl h _ _ _)|exact R].
  - destruct v as [| | | | | |o|]; try discriminate. cbn [hxdr] in H. rewrite EN in H. cbn [obind] in H.
    destruct (HDecoding s); [|injection H as <- <- <-; split; [apply sub_refl|auto]].
    pose proof (Bool_rel grow grow_ok h s false Hv) as K.
    destruct (HXdrBool grow h s false) as [[h2 s2] opted]. apply rel_step in K.
    destruct (hstep_reader _ _ _ _ K Hr) as (-> & G & Hr2). destruct opted; [|injection H as <- <- <-; split; [apply sub_refl|auto]].
    pose proof (hzero_spec n E t h) as Hz. destruct (hzero n E t) as [z|]; [|discriminate]. destruct Hz as [_ Hz].
    destruct (hxdr grow n E t h s2 z) as [[[h3 s3] x3]| |] eqn:E3; try discriminate.
    cbn [obind] in H. injection H as <- <- <-. destruct (IH t _ _ _ _ _ _ Hr2 (hstep_valid _ _ _ _ K) E3) as [A1 A2].
    rewrite Hz in A1, A2. split.
    + intros sl Hi. destruct (A1 sl Hi) as [[]|K']. right. eapply read_at_mono; [exact G|apply gsuffix_refl|exact K'].
    + intros _ _. apply A2; [exact I|constructor].
  - destruct v; try discriminate. cbn [hxdr] in H.
    exact (dec_fields (hxdr grow n E) fs (hxdr_steps n E) IH h s (HStruct l) h' s' v' Hr Hv H).
  - destruct v; try discriminate. cbn [hxdr] in H.
    destruct (hon_field (hxdr grow n E t) h s (HStruct l) sw) as [[[h1 s1] v1]| |] eqn:E1; try discriminate. cbn [obind] in H.
    pose proof (field_steps _ _ _ _ _ _ _ _ (hxdr_steps n E t) Hv E1) as S1.
    pose proof (dec_field _ sw (hxdr_steps n E t) (IH t)) as D1.
    destruct (hfield_disc v1 sw) as [d|]; [|discriminate].
    destruct (pick_arm d arms def) as [[[f ta]|]|]; try (injection H as <- <- <-; exact (D1 _ _ _ _ _ _ Hr Hv E1)).
    pose proof (field_steps _ _ _ _ _ _ _ _ (hxdr_steps n E ta) (hstep_valid _ _ _ _ S1) H) as S2.
    exact (dec_comp hslices (fun h s v => hon_field (hxdr grow n E t) h s v sw) (fun h s v => hon_field (hxdr grow n E ta) h s v f)
             h s (HStruct l) h1 s1 v1 h' s' v' D1 (dec_field _ f (hxdr_steps n E ta) (IH ta)) Hr Hv E1 S1 H S2).
  - cbn [hxdr] in H. destruct (lookup x E) as [t|]; [|destruct v; discriminate]. destruct v; eapply IH; eassumption.
Qed.
End Grow.
