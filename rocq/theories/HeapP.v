(** Facts about the heap model: it computes what XdrLib.v and Interp.v compute, changes only
    spare capacity of the writer's buffer, and decodes byte slices in place. *)
From Verif Require Import Bytes XdrLib Types Interp Heap.
Open Scope string_scope.
Open Scope Z_scope.
Open Scope list_scope.

(** ** Lists *)
Lemma nth_ext {A} (l l' : list A) : (forall i, nth_error l i = nth_error l' i) -> l = l'.
Proof.
  revert l'. induction l as [|x l IH]; intros [|y l'] H; auto.
  - specialize (H O). discriminate.
  - specialize (H O). discriminate.
  - pose proof (H O) as H0. cbn in H0. injection H0 as ->. f_equal. apply IH. intros i. exact (H (S i)).
Qed.
Lemma nth_firstn {A} n (l : list A) i : nth_error (firstn n l) i = if Nat.ltb i n then nth_error l i else None.
Proof.
  revert l i. induction n as [|n IH]; intros l i; [destruct i; reflexivity|].
  destruct l as [|x l]; [cbn [firstn]; destruct (Nat.ltb i (S n)), i; reflexivity|].
  destruct i as [|i]; [reflexivity|]. cbn [firstn nth_error]. rewrite IH. reflexivity.
Qed.
Lemma nth_skipn {A} n (l : list A) i : nth_error (skipn n l) i = nth_error l (n + i).
Proof. revert l. induction n as [|n IH]; intros l; [reflexivity|]. destruct l; [destruct i; reflexivity|]. apply IH. Qed.

Lemma block_hset h b l c : (b < List.length h)%nat -> block (hset h b l) c = if Nat.eqb c b then l else block h c.
Proof.
  intros Hb. unfold block, hset. rewrite !nth_default_eq || idtac.
  destruct (Nat.eqb_spec c b) as [->|Hne].
  - rewrite app_nth2; rewrite firstn_length_le by lia; [|lia]. rewrite Nat.sub_diag. reflexivity.
  - destruct (Nat.lt_ge_cases c b) as [Hc|Hc].
    + rewrite app_nth1 by (rewrite firstn_length_le; lia). rewrite <- (firstn_skipn b h) at 2.
      rewrite app_nth1 by (rewrite firstn_length_le; lia). reflexivity.
    + rewrite app_nth2; rewrite firstn_length_le by lia; [|lia].
      destruct (c - b)%nat as [|k] eqn:Ek; [lia|]. cbn [nth].
      rewrite <- (firstn_skipn (b + 1) h) at 2. rewrite app_nth2; rewrite firstn_length_le by lia; [|lia].
      f_equal. lia.
Qed.
Lemma hset_len h b l : (b < List.length h)%nat -> List.length (hset h b l) = List.length h.
Proof. intros Hb. unfold hset. rewrite app_length, firstn_length_le by lia. cbn. rewrite skipn_length. lia. Qed.
Lemma poke_len l i bs : (i + List.length bs <= List.length l)%nat -> List.length (poke l i bs) = List.length l.
Proof. intros H. unfold poke. rewrite !app_length, firstn_length_le, skipn_length by lia. lia. Qed.
Lemma poke_nth l i bs j : (i + List.length bs <= List.length l)%nat ->
  nth_error (poke l i bs) j =
  if Nat.ltb j i then nth_error l j
  else if Nat.ltb j (i + List.length bs) then nth_error bs (j - i) else nth_error l j.
Proof.
  intros H. unfold poke. destruct (Nat.ltb_spec j i).
  - rewrite nth_error_app1 by (rewrite firstn_length_le; lia). rewrite nth_firstn.
    destruct (Nat.ltb_spec j i); [reflexivity|lia].
  - rewrite nth_error_app2; rewrite firstn_length_le by lia; [|lia].
    destruct (Nat.ltb_spec j (i + List.length bs)).
    + rewrite nth_error_app1 by lia. reflexivity.
    + rewrite nth_error_app2 by lia. rewrite nth_skipn. f_equal. lia.
Qed.
Lemma block_app1 h h' b : (b < List.length h)%nat -> block (h ++ h') b = block h b.
Proof. intros H. unfold block. apply app_nth1. exact H. Qed.
Lemma block_new h l : block (h ++ [l]) (List.length h) = l.
Proof. unfold block. rewrite app_nth2 by lia. rewrite Nat.sub_diag. reflexivity. Qed.

(** ** Slices *)
Lemma sread_len h s : svalid h s -> List.length (sread h s) = sl_len s.
Proof. intros (H1 & H2 & H3). unfold sread. rewrite firstn_length, skipn_length. lia. Qed.
Lemma gread_len h o : gvalid h o -> List.length (gread h o) = glen o.
Proof. destruct o; cbn; [apply sread_len|reflexivity]. Qed.

Lemma gfrom_read h o n : gvalid h o -> (n <= glen o)%nat -> gread h (gfrom o n) = skipn n (gread h o).
Proof.
  destruct o as [s|]; intros Hv Hn; cbn in *; [|rewrite skipn_nil; reflexivity].
  unfold sread. cbn [sl_len sl_off sl_blk]. rewrite skipn_firstn_comm.
  f_equal. apply nth_ext. intros i. rewrite !nth_skipn. f_equal. lia.
Qed.
Lemma gfrom_valid h o n : gvalid h o -> (n <= glen o)%nat -> gvalid h (gfrom o n).
Proof. destruct o as [s|]; cbn; [|auto]. intros (H1 & H2 & H3) Hn. unfold svalid. cbn [sl_len sl_off sl_blk sl_cap]. lia. Qed.
Lemma gclip_read h o n : gvalid h o -> (n <= glen o)%nat -> gread h (gclip o n) = firstn n (gread h o).
Proof.
  destruct o as [s|]; intros Hv Hn; cbn in *; [|rewrite firstn_nil; reflexivity].
  unfold sread. cbn [sl_len sl_off sl_blk]. rewrite firstn_firstn. f_equal. lia.
Qed.
Lemma gclip_valid h o n : gvalid h o -> (n <= glen o)%nat -> gvalid h (gclip o n).
Proof. destruct o as [s|]; cbn; [|auto]. intros (H1 & H2 & H3) Hn. unfold svalid. cbn [sl_len sl_off sl_blk sl_cap]. lia. Qed.

(** The spare capacity of a slice: addresses beyond its length. *)
Definition in_spare (o : option slice) (b i : nat) : Prop :=
  match o with
  | Some s => b = sl_blk s /\ (sl_off s + sl_len s <= i < sl_off s + sl_cap s)%nat
  | None => False
  end.

(** Memory [h'] has [h]'s blocks, and may differ from it only at addresses in [P]. *)
Definition differs_at (P : nat -> nat -> Prop) (h h' : heap) : Prop :=
  (List.length h <= List.length h')%nat /\
  forall b, (b < List.length h)%nat ->
    List.length (block h' b) = List.length (block h b) /\
    forall i, ~ P b i -> nth_error (block h' b) i = nth_error (block h b) i.

Lemma differs_refl P h : differs_at P h h.
Proof. split; [lia|]. auto. Qed.

Lemma sread_differs P h h' s : differs_at P h h' -> svalid h s ->
  (forall i, (sl_off s <= i < sl_off s + sl_len s)%nat -> ~ P (sl_blk s) i) -> sread h' s = sread h s.
Proof.
  intros [_ Hd] (Hb & _ & _) Hp. unfold sread. apply nth_ext. intros i. rewrite !nth_firstn.
  destruct (Nat.ltb_spec i (sl_len s)); [|reflexivity]. rewrite !nth_skipn. apply Hd; [exact Hb|]. apply Hp. lia.
Qed.
Lemma svalid_differs P h h' s : differs_at P h h' -> svalid h s -> svalid h' s.
Proof. intros [Hl Hd] (Hb & H2 & H3). destruct (Hd _ Hb) as [E _]. unfold svalid. rewrite E. lia. Qed.

Section Grow.
Variable grow : nat -> nat -> nat.
Hypothesis grow_ok : forall c n, (n <= grow c n)%nat.

Lemma gappend_spec h o bs : gvalid h o ->
  let '(h', o') := gappend grow h o bs in
  gread h' o' = gread h o ++ bs /\ gvalid h' o' /\ differs_at (in_spare o) h h' /\
  (forall b i, (b < List.length h)%nat -> in_spare o' b i -> in_spare o b i).
Proof.
  intros Hv. unfold gappend. destruct (Nat.leb_spec (glen o + List.length bs) (gcap o)) as [Hc|Hc].
  - destruct o as [s|].
    2:{ cbn in Hc. destruct bs; [|cbn in Hc; lia]. cbn. repeat split; auto. }
    destruct Hv as (Hb & H2 & H3). cbn [glen gcap] in *.
    assert (Hp : (sl_off s + sl_len s + List.length bs <= List.length (block h (sl_blk s)))%nat) by lia.
    split; [|split; [|split]].
    + cbn [gread]. unfold sread. cbn [sl_blk sl_off sl_len]. rewrite block_hset by exact Hb. rewrite Nat.eqb_refl.
      apply nth_ext. intros i. rewrite nth_firstn, nth_skipn.
      destruct (Nat.ltb_spec i (sl_len s + List.length bs)) as [Hi|Hi].
      * rewrite poke_nth by exact Hp.
        destruct (Nat.ltb_spec (sl_off s + i) (sl_off s + sl_len s)).
        -- rewrite nth_error_app1 by (rewrite firstn_length, skipn_length; lia).
           rewrite nth_firstn, nth_skipn. destruct (Nat.ltb_spec i (sl_len s)); [reflexivity|lia].
        -- destruct (Nat.ltb_spec (sl_off s + i) (sl_off s + sl_len s + List.length bs)); [|lia].
           rewrite nth_error_app2 by (rewrite firstn_length, skipn_length; lia). f_equal.
           rewrite firstn_length, skipn_length. lia.
      * symmetry. apply nth_error_None. rewrite app_length, firstn_length, skipn_length. lia.
    + cbn [gvalid]. unfold svalid. cbn [sl_blk sl_off sl_len sl_cap]. rewrite hset_len by exact Hb.
      rewrite block_hset by exact Hb. rewrite Nat.eqb_refl, poke_len by exact Hp. lia.
    + split; [rewrite hset_len; lia|]. intros b Hbl. rewrite block_hset by exact Hb.
      destruct (Nat.eqb_spec b (sl_blk s)) as [->|Hne]; [|auto]. split; [apply poke_len; exact Hp|].
      intros i Hi. rewrite poke_nth by exact Hp. destruct (Nat.ltb_spec i (sl_off s + sl_len s)); [reflexivity|].
      destruct (Nat.ltb_spec i (sl_off s + sl_len s + List.length bs)); [|reflexivity].
      exfalso. apply Hi. cbn. lia.
    + intros b i Hbl. cbn. intuition lia.
  - pose proof (grow_ok (gcap o) (glen o + List.length bs)) as Hg.
    set (c := grow (gcap o) (glen o + List.length bs)) in *.
    pose proof (gread_len h o Hv) as Hlen.
    split; [|split; [|split]].
    + cbn [gread]. unfold sread. cbn [sl_blk sl_off sl_len]. rewrite block_new. cbn [skipn].
      rewrite app_assoc. rewrite firstn_app. rewrite app_length, Hlen, Nat.sub_diag. cbn [firstn].
      rewrite app_nil_r. apply firstn_all2. rewrite app_length. lia.
    + cbn [gvalid]. unfold svalid. cbn [sl_blk sl_off sl_len sl_cap]. unfold zeros. rewrite block_new, !app_length, Hlen, repeat_length. cbn. lia.
    + split; [rewrite app_length; lia|]. intros b Hbl. rewrite block_app1 by exact Hbl. auto.
    + intros b i Hbl. cbn. lia.
Qed.

(** ** States *)
Definition habs (h : heap) (xs : hst) : xst := mkXst (h_err xs) (h_reader xs) (gread h (h_buf xs)).

(** A suffix of the same slice: what reading leaves. *)
Definition gsuffix (o o' : option slice) : Prop :=
  match o, o' with
  | None, None => True
  | Some s, Some s' =>
      sl_blk s' = sl_blk s /\ (sl_off s <= sl_off s')%nat /\
      (sl_off s' + sl_len s' = sl_off s + sl_len s)%nat /\ (sl_off s' + sl_cap s' = sl_off s + sl_cap s)%nat
  | _, _ => False
  end.

Definition hstep (h : heap) (s : hst) (h' : heap) (s' : hst) : Prop :=
  h_reader s' = h_reader s /\ gvalid h' (h_buf s') /\
  (h_reader s = true -> h' = h /\ gsuffix (h_buf s) (h_buf s')) /\
  (h_reader s = false -> differs_at (in_spare (h_buf s)) h h' /\
     forall b i, (b < List.length h)%nat -> in_spare (h_buf s') b i -> in_spare (h_buf s) b i).

Lemma gsuffix_refl o : gsuffix o o.
Proof. destruct o; cbn; auto. Qed.
Lemma gsuffix_trans a b c : gsuffix a b -> gsuffix b c -> gsuffix a c.
Proof. destruct a, b, c; cbn; intuition lia. Qed.

Lemma hstep_refl h s : gvalid h (h_buf s) -> hstep h s h s.
Proof.
  intros Hv. split; [reflexivity|]. split; [exact Hv|]. split.
  - intros _. split; [reflexivity|apply gsuffix_refl].
  - intros _. split; [apply differs_refl|auto].
Qed.
Lemma hstep_err h s h' s' e : hstep h s h' s' -> hstep h s h' (hset_err s' e).
Proof. intros H. exact H. Qed.
Lemma hstep_trans h s h1 s1 h2 s2 : hstep h s h1 s1 -> hstep h1 s1 h2 s2 -> hstep h s h2 s2.
Proof.
  intros (A1 & A2 & A3 & A4) (B1 & B2 & B3 & B4). split; [congruence|]. split; [exact B2|]. split.
  - intros Hr. destruct (A3 Hr) as [-> Hs]. destruct B3 as [-> Hs']; [congruence|]. split; [reflexivity|].
    eapply gsuffix_trans; eassumption.
  - intros Hr. destruct (A4 Hr) as [[L1 D1] S1]. destruct B4 as [[L2 D2] S2]; [congruence|]. split; [split|].
    + lia.
    + intros b Hb. destruct (D1 b Hb) as [E1 N1]. destruct (D2 b ltac:(lia)) as [E2 N2]. split; [congruence|].
      intros i Hi. rewrite N2; [apply N1; exact Hi|]. intros Hc. apply Hi. apply S1; [exact Hb|exact Hc].
    + intros b i Hb Hi. apply S1; [exact Hb|]. apply S2; [lia|exact Hi].
Qed.
Lemma hstep_valid h s h' s' : hstep h s h' s' -> gvalid h' (h_buf s').
Proof. intros (_ & H & _). exact H. Qed.

(** Byte slices that a step leaves alone: real slices, and not in the spare capacity of a
    writer's buffer. *)
Definition apart (h : heap) (s : hst) (sl : slice) : Prop :=
  svalid h sl /\ (h_reader s = false ->
    forall i, (sl_off sl <= i < sl_off sl + sl_len sl)%nat -> ~ in_spare (h_buf s) (sl_blk sl) i).
Definition gapart (h : heap) (s : hst) (o : option slice) : Prop :=
  match o with Some sl => apart h s sl | None => True end.
Definition safe (h : heap) (s : hst) (v : hval) : Prop := Forall (apart h s) (hslices v).

Lemma hstep_read h s h' s' sl : hstep h s h' s' -> apart h s sl -> sread h' sl = sread h sl.
Proof.
  intros (A1 & A2 & A3 & A4) [Hv Ha]. destruct (h_reader s) eqn:Er.
  - destruct A3 as [-> _]; auto.
  - destruct A4 as [Hd _]; [reflexivity|]. eapply sread_differs; [exact Hd|exact Hv|apply Ha; reflexivity].
Qed.
Lemma hstep_apart h s h' s' sl : hstep h s h' s' -> apart h s sl -> apart h' s' sl.
Proof.
  intros (A1 & A2 & A3 & A4) [Hv Ha]. destruct (h_reader s) eqn:Er.
  - destruct A3 as [-> _]; [reflexivity|]. split; [exact Hv|]. congruence.
  - destruct A4 as [Hd Hs]; [reflexivity|]. split; [eapply svalid_differs; eassumption|].
    intros _ i Hi Hc. eapply Ha; [reflexivity|exact Hi|]. apply Hs; [apply Hv|exact Hc].
Qed.
Lemma hstep_safe h s h' s' v : hstep h s h' s' -> safe h s v -> safe h' s' v.
Proof. intros H Hs. eapply Forall_impl; [|exact Hs]. intros sl. apply hstep_apart. exact H. Qed.
Lemma hstep_gread h s h' s' o : hstep h s h' s' -> gapart h s o -> gread h' o = gread h o.
Proof. intros H. destruct o; cbn; [apply hstep_read with (s := s) (s' := s'); exact H|reflexivity]. Qed.

Lemma hval_rect' (P : hval -> Prop) :
  (forall z, P (HInt z)) -> (forall b, P (HBool b)) -> (forall bs, P (HArr bs)) -> (forall o, P (HBytes o)) ->
  (forall bs, P (HStr bs)) -> (P (HSlice None)) -> (forall l, Forall P l -> P (HSlice (Some l))) ->
  P (HPtr None) -> (forall x, P x -> P (HPtr (Some x))) ->
  (forall l, Forall (fun fx => P (snd fx)) l -> P (HStruct l)) -> forall v, P v.
Proof.
  intros H1 H2 H3 H4 H5 H6 H7 H8 H9 H10. fix IH 1. intros [z|b|bs|o|bs|[l|]|[x|]|l].
  - apply H1.
  - apply H2.
  - apply H3.
  - apply H4.
  - apply H5.
  - apply H7. induction l as [|x l IHl]; constructor; [apply IH|exact IHl].
  - exact H6.
  - apply H9. apply IH.
  - exact H8.
  - apply H10. induction l as [|[f x] l IHl]; constructor; [apply IH|exact IHl].
Qed.

Lemma deref_ext h h' v : (forall sl, In sl (hslices v) -> sread h' sl = sread h sl) -> deref h' v = deref h v.
Proof.
  revert v. apply (hval_rect' (fun v => (forall sl, In sl (hslices v) -> sread h' sl = sread h sl) -> deref h' v = deref h v)); auto.
  - intros [sl|] H; cbn in *; [rewrite H by auto|]; reflexivity.
  - intros l Hl H. cbn. do 2 f_equal. apply map_ext_in. intros x Hx.
    rewrite Forall_forall in Hl. apply Hl; [exact Hx|]. intros sl Hs. apply H. cbn. apply in_flat_map. eauto.
  - intros x Hx H. cbn. do 2 f_equal. apply Hx. exact H.
  - intros l Hl H. cbn. f_equal. apply map_ext_in. intros [f x] Hx. cbn. f_equal.
    rewrite Forall_forall in Hl. apply (Hl (f, x)); [exact Hx|]. intros sl Hs. apply H. cbn. apply in_flat_map. eauto.
Qed.
Lemma hstep_deref h s h' s' v : hstep h s h' s' -> safe h s v -> deref h' v = deref h v.
Proof.
  intros H Hs. apply deref_ext. intros sl Hi. eapply hstep_read; [exact H|].
  unfold safe in Hs. rewrite Forall_forall in Hs. apply Hs. exact Hi.
Qed.

(** ** Library functions *)
(** [f] on the heap does what [g] does on lists. *)
Definition rel {A} (h : heap) (s : hst) (r : heap * hst * A) (q : xst * A) : Prop :=
  let '(h', s', a) := r in q = (habs h' s', a) /\ hstep h s h' s'.

Lemma RW_rel h s v : gvalid h (h_buf s) -> rel h s (hxdrRW grow h s v) (xdrRW (habs h s) v).
Proof.
  intros Hv. unfold hxdrRW, xdrRW. destruct s as [[e|] rd o]; cbn [habs h_err h_reader h_buf x_err x_reader x_buf].
  - split; [reflexivity|apply hstep_refl; exact Hv].
  - cbn [h_buf] in Hv. pose proof (gread_len h o Hv) as Hlen. destruct rd.
    + set (n := Nat.min (List.length v) (List.length (gread h o))).
      assert (Hn : (n <= glen o)%nat) by lia.
      assert (Hs : hstep h (mkHst None true o) h (mkHst None true (gfrom o n))).
      { split; [reflexivity|]. split; [apply gfrom_valid; assumption|]. split; [|discriminate].
        intros _. split; [reflexivity|]. destruct o as [s|]; cbn; [|auto].
        cbn in Hn. destruct Hv as (_ & Hv & _). lia. }
      destruct (n <? List.length v)%nat; (split; [|exact Hs]); unfold habs, set_buf, set_err; cbn [h_err h_reader h_buf x_err x_reader x_buf hset_buf hset_err];
        rewrite gfrom_read by assumption; reflexivity.
    + pose proof (gappend_spec h o v Hv) as Ha. destruct (gappend grow h o v) as [h' o'].
      destruct Ha as (Hr & Hv' & Hd & Hs). split.
      * unfold habs, set_buf. cbn [h_err h_reader h_buf x_err x_reader x_buf hset_buf]. rewrite Hr. reflexivity.
      * split; [reflexivity|]. split; [exact Hv'|]. split; [discriminate|]. intros _. split; assumption.
Qed.

Lemma RW_nonnil h s v h' s' v' : h_reader s = true -> v <> [] -> hxdrRW grow h s v = (h', s', v') ->
  h_err s' = None -> h_buf s' <> None.
Proof.
  unfold hxdrRW. destruct s as [[e|] rd o]; cbn [h_err h_reader h_buf]; intros -> Hv H He.
  - injection H as <- <- <-. discriminate.
  - destruct o as [s|].
    + destruct (_ <? _)%nat; injection H as <- <- <-; discriminate.
    + cbn [gread List.length] in H. rewrite Nat.min_0_r in H. destruct v as [|x v]; [congruence|]. cbn in H.
      injection H as <- <- <-. discriminate.
Qed.

Lemma R_rel h s n : gvalid h (h_buf s) -> 0 <= n -> h_reader s = true -> (h_err s = None -> h_buf s <> None) ->
  let '(s', o) := hxdrR s n in
  xdrR (habs h s) n = (habs h s', option_map (sread h) o) /\ hstep h s h s' /\ gvalid h o.
Proof.
  intros Hv Hn Hrd Hnn. unfold hxdrR, xdrR. destruct s as [e rd o]. cbn [habs h_err h_reader h_buf x_err x_reader x_buf] in *. subst rd.
  pose proof (gread_len h o Hv) as Hlen. unfold zlen. rewrite Hlen.
  destruct (Z.ltb_spec (Z.of_nat (glen o)) n).
  - cbn [hset_err set_err h_err x_err]. split; [reflexivity|]. split; [apply (hstep_err h _ h (mkHst e true o)); apply hstep_refl; exact Hv|].
    exact I.
  - destruct e as [e|]; cbn [h_err x_err h_buf x_buf hset_buf set_buf].
    + split; [reflexivity|]. split; [apply hstep_refl; exact Hv|]. exact I.
    + assert (Hk : (Z.to_nat n <= glen o)%nat) by lia.
      split; [|split].
      * unfold set_buf, habs. cbn [h_err h_reader h_buf x_err x_reader x_buf hset_buf].
        rewrite gfrom_read by assumption. pose proof (gclip_read h o (Z.to_nat n) Hv Hk) as Hc.
        destruct o as [s|]; [|exfalso; apply Hnn; reflexivity]. cbn [gclip gread option_map] in *. rewrite <- Hc. reflexivity.
      * split; [reflexivity|]. split; [apply gfrom_valid; assumption|]. split; [|discriminate].
        intros _. split; [reflexivity|]. destruct o as [s|]; cbn; [|auto]. cbn in Hk. destruct Hv as (_ & Hv & _). lia.
      * apply gclip_valid; assumption.
Qed.

Lemma zeros4_ne : zeros 4 <> [].
Proof. discriminate. Qed.
Lemma get_u32_nonneg bs : 0 <= get_u32 bs.
Proof.
  unfold get_u32. destruct bs as [|a [|b [|c [|d [|e bs]]]]]; try lia.
  assert (forall x, 0 <= b2z x) by (intros x; apply b2z_range).
  rewrite !Z.lor_nonneg, !Z.shiftl_nonneg. auto.
Qed.

Ltac fixed_tac h s Hv :=
  unfold hxdr_fixed; destruct (h_err s) eqn:Ee;
  [ match goal with e : xerr |- _ => replace (x_err (habs h s)) with (Some e) by (symmetry; exact Ee) end;
    split; [reflexivity|apply hstep_refl; exact Hv]
  | replace (x_err (habs h s)) with (@None xerr) by (symmetry; exact Ee);
    change (Encoding (habs h s)) with (HEncoding s);
    set (b := if HEncoding s then _ else _); pose proof (RW_rel h s b Hv) as K;
    destruct (hxdrRW grow h s b) as [[h1 s1] b1]; destruct K as [-> Hs];
    change (Decoding (habs h1 s1)) with (HDecoding s1); destruct (HDecoding s1); (split; [reflexivity|exact Hs]) ].

Lemma Bool_rel h s v : gvalid h (h_buf s) -> rel h s (HXdrBool grow h s v) (XdrBool (habs h s) v).
Proof. intros Hv. unfold HXdrBool, XdrBool. fixed_tac h s Hv. Qed.
Lemma U32_rel h s v : gvalid h (h_buf s) -> rel h s (HXdrU32 grow h s v) (XdrU32 (habs h s) v).
Proof. intros Hv. unfold HXdrU32, XdrU32. fixed_tac h s Hv. Qed.
Lemma S32_rel h s v : gvalid h (h_buf s) -> rel h s (HXdrS32 grow h s v) (XdrS32 (habs h s) v).
Proof. intros Hv. unfold HXdrS32, XdrS32. fixed_tac h s Hv. Qed.
Lemma U64_rel h s v : gvalid h (h_buf s) -> rel h s (HXdrU64 grow h s v) (XdrU64 (habs h s) v).
Proof. intros Hv. unfold HXdrU64, XdrU64. fixed_tac h s Hv. Qed.
Lemma S64_rel h s v : gvalid h (h_buf s) -> rel h s (HXdrS64 grow h s v) (XdrS64 (habs h s) v).
Proof. intros Hv. unfold HXdrS64, XdrS64. fixed_tac h s Hv. Qed.

(** Reading some bytes without their value: padding. *)
Lemma RW_fst h s v : gvalid h (h_buf s) ->
  let '(h', s') := fst (hxdrRW grow h s v) in fst (xdrRW (habs h s) v) = habs h' s' /\ hstep h s h' s'.
Proof.
  intros Hv. pose proof (RW_rel h s v Hv) as K. destruct (hxdrRW grow h s v) as [[h1 s1] b1]. destruct K as [-> Hs].
  cbn. auto.
Qed.

Lemma Array_rel h s v : gvalid h (h_buf s) -> rel h s (HXdrArray grow h s v) (XdrArray (habs h s) v).
Proof.
  intros Hv. unfold HXdrArray, XdrArray. destruct (h_err s) eqn:Ee.
  - replace (x_err (habs h s)) with (Some x) by (symmetry; exact Ee). split; [reflexivity|apply hstep_refl; exact Hv].
  - replace (x_err (habs h s)) with (@None xerr) by (symmetry; exact Ee).
    pose proof (RW_rel h s v Hv) as K. destruct (hxdrRW grow h s v) as [[h1 s1] v1]. destruct K as [-> Hs].
    destruct (negb _); [|split; [reflexivity|exact Hs]].
    pose proof (RW_fst h1 s1 (pad_make (List.length v)) (hstep_valid _ _ _ _ Hs)) as K.
    destruct (fst (hxdrRW grow h1 s1 (pad_make (List.length v)))) as [h2 s2]. destruct K as [-> Hs2].
    split; [reflexivity|eapply hstep_trans; eassumption].
Qed.

Lemma glen_zlen h o : gvalid h o -> zlen (bytes_of (option_map (sread h) o)) = Z.of_nat (glen o).
Proof. destruct o; cbn; [|reflexivity]. intros H. unfold zlen. rewrite sread_len; auto. Qed.
Lemma glen_len h o : gvalid h o -> List.length (bytes_of (option_map (sread h) o)) = glen o.
Proof. destruct o; cbn; [|reflexivity]. intros H. rewrite sread_len; auto. Qed.
Lemma bytes_gread h o : bytes_of (option_map (sread h) o) = gread h o.
Proof. destruct o; reflexivity. Qed.
Lemma gapart_valid h s o : gapart h s o -> gvalid h o.
Proof. destruct o; cbn; [intros []; auto|auto]. Qed.
Lemma hstep_gapart h s h' s' o : hstep h s h' s' -> gapart h s o -> gapart h' s' o.
Proof. destruct o; cbn; [apply hstep_apart|auto]. Qed.
Lemma hstep_gmap h s h' s' o : hstep h s h' s' -> gapart h s o -> option_map (sread h') o = option_map (sread h) o.
Proof. intros H. destruct o; cbn; [|reflexivity]. intros Ha. f_equal. eapply hstep_read; eassumption. Qed.

Definition va_finish (h : heap) (xs : hst) (v : option slice) : heap * hst * option slice :=
  if negb (Z.rem (Z.of_nat (glen v)) 4 =? 0) then (fst (hxdrRW grow h xs (pad_make (glen v))), v) else (h, xs, v).
Definition va_finish' (xs : xst) (v : option (list byte)) : xst * option (list byte) :=
  if negb (Z.rem (zlen (bytes_of v)) 4 =? 0) then (fst (xdrRW xs (pad_make (List.length (bytes_of v)))), v) else (xs, v).

Lemma finish_rel h s o : gvalid h (h_buf s) -> gapart h s o ->
  let '(h', s', o') := va_finish h s o in
  va_finish' (habs h s) (option_map (sread h) o) = (habs h' s', option_map (sread h') o') /\ hstep h s h' s' /\ o' = o.
Proof.
  intros Hv Ha. unfold va_finish, va_finish'. rewrite (glen_zlen h o (gapart_valid _ _ _ Ha)).
  destruct (negb _).
  - rewrite (glen_len h o (gapart_valid _ _ _ Ha)).
    pose proof (RW_fst h s (pad_make (glen o)) Hv) as K. destruct (fst (hxdrRW grow h s (pad_make (glen o)))) as [h2 s2].
    destruct K as [-> Hs]. split; [|split; [exact Hs|reflexivity]]. rewrite (hstep_gmap h s h2 s2 o Hs Ha). reflexivity.
  - split; [reflexivity|split; [apply hstep_refl; exact Hv|reflexivity]].
Qed.

Lemma HVA_eq h xs maxlen v : HXdrVarArray grow h xs maxlen v =
  match h_err xs with
  | Some _ => (h, xs, v)
  | None =>
      if HEncoding xs then
        if (Z.of_nat (glen v) >? MaxUint32) || ((maxlen >=? 0) && (Z.of_nat (glen v) >? maxlen))
        then (h, HSetError xs "var array too large", v)
        else
          let szbuf := put_u32 (to_u32 (Z.of_nat (glen v))) in
          let '(h1, xs1, _) := hxdrRW grow h xs szbuf in
          let '(h2, xs2, _) := hxdrRW grow h1 xs1 (gread h1 v) in
          va_finish h2 xs2 v
      else
        let '(h1, xs1, szbuf) := hxdrRW grow h xs (zeros 4) in
        let sz := get_u32 szbuf in
        if ((maxlen >=? 0) && (sz >? maxlen)) || (sz <? 0)
        then (h1, HSetError xs1 "var array too large", v)
        else let '(xs2, v') := hxdrR xs1 sz in va_finish h1 xs2 v'
  end.
Proof. reflexivity. Qed.
Lemma VA_eq xs maxlen v : XdrVarArray xs maxlen v =
  match x_err xs with
  | Some _ => (xs, v)
  | None =>
      if Encoding xs then
        if (zlen (bytes_of v) >? MaxUint32) || ((maxlen >=? 0) && (zlen (bytes_of v) >? maxlen))
        then (SetError xs "var array too large", v)
        else
          let szbuf := put_u32 (to_u32 (zlen (bytes_of v))) in
          let xs1 := fst (xdrRW xs szbuf) in
          let xs2 := fst (xdrRW xs1 (bytes_of v)) in
          va_finish' xs2 v
      else
        let '(xs1, szbuf) := xdrRW xs (zeros 4) in
        let sz := get_u32 szbuf in
        if ((maxlen >=? 0) && (sz >? maxlen)) || (sz <? 0)
        then (SetError xs1 "var array too large", v)
        else let '(xs2, v') := xdrR xs1 sz in va_finish' xs2 v'
  end.
Proof. reflexivity. Qed.

Lemma VarArray_rel h s m o : gvalid h (h_buf s) -> gapart h s o ->
  let '(h', s', o') := HXdrVarArray grow h s m o in
  XdrVarArray (habs h s) m (option_map (sread h) o) = (habs h' s', option_map (sread h') o') /\
  hstep h s h' s' /\ gapart h' s' o'.
Proof.
  intros Hv Ha. rewrite HVA_eq, VA_eq. cbv zeta.
  destruct (h_err s) eqn:Ee.
  { replace (x_err (habs h s)) with (Some x) by (symmetry; exact Ee). split; [reflexivity|split; [apply hstep_refl; exact Hv|exact Ha]]. }
  replace (x_err (habs h s)) with (@None xerr) by (symmetry; exact Ee).
  change (Encoding (habs h s)) with (HEncoding s). destruct (HEncoding s) eqn:Een.
  - rewrite (glen_zlen h o (gapart_valid _ _ _ Ha)). destruct (_ || _).
    { split; [reflexivity|]. split; [apply hstep_err; apply hstep_refl; exact Hv|exact Ha]. }
    set (sz := put_u32 _). pose proof (RW_rel h s sz Hv) as K. destruct (hxdrRW grow h s sz) as [[h1 s1] v1].
    destruct K as [-> Hs1]. cbn [fst]. rewrite bytes_gread, <- (hstep_gread h s h1 s1 o Hs1 Ha).
    pose proof (RW_rel h1 s1 (gread h1 o) (hstep_valid _ _ _ _ Hs1)) as K.
    destruct (hxdrRW grow h1 s1 (gread h1 o)) as [[h2 s2] v2]. destruct K as [-> Hs2]. cbn [fst].
    pose proof (hstep_trans _ _ _ _ _ _ Hs1 Hs2) as Hs. pose proof (hstep_gapart _ _ _ _ _ Hs Ha) as Ha2.
    pose proof (finish_rel h2 s2 o (hstep_valid _ _ _ _ Hs) Ha2) as K.
    rewrite <- (hstep_gmap h s h2 s2 o Hs Ha).
    destruct (va_finish h2 s2 o) as [[h3 s3] o3]. destruct K as (-> & Hs3 & ->).
    split; [reflexivity|]. split; [eapply hstep_trans; eassumption|]. eapply hstep_gapart; eassumption.
  - assert (Hrd : h_reader s = true). { unfold HEncoding in Een. rewrite Ee in Een. destruct (h_reader s); auto. }
    pose proof (RW_rel h s (zeros 4) Hv) as K. destruct (hxdrRW grow h s (zeros 4)) as [[h1 s1] szb] eqn:Erw.
    pose proof (RW_nonnil _ _ _ _ _ _ Hrd zeros4_ne Erw) as Hnn.
    destruct K as [-> Hs1]. pose proof (get_u32_nonneg szb) as Hsz. destruct (_ || _).
    { pose proof (hstep_gmap h s h1 s1 o Hs1 Ha) as Hm. split; [rewrite <- Hm; reflexivity|].
      split; [apply hstep_err; exact Hs1|]. eapply (hstep_gapart _ _ h1 s1); eassumption. }
    assert (Hr1 : h_reader s1 = true) by (destruct Hs1 as (-> & _); exact Hrd).
    assert (Hh : h1 = h) by (destruct Hs1 as (_ & _ & H3 & _); apply H3; exact Hrd). subst h1.
    pose proof (R_rel h s1 (get_u32 szb) (hstep_valid _ _ _ _ Hs1) ltac:(lia) Hr1 Hnn) as K.
    destruct (hxdrR s1 (get_u32 szb)) as [s2 o2]. destruct K as (-> & Hs2 & Hv2).
    assert (Hr2 : h_reader s2 = true) by (destruct Hs2 as (-> & _); exact Hr1).
    assert (Ha2 : gapart h s2 o2). { destruct o2; [|exact I]. split; [exact Hv2|]. congruence. }
    pose proof (finish_rel h s2 o2 (hstep_valid _ _ _ _ Hs2) Ha2) as K.
    destruct (va_finish h s2 o2) as [[h3 s3] o3]. destruct K as (-> & Hs3 & ->).
    split; [reflexivity|]. split; [eapply hstep_trans; [exact Hs1|eapply hstep_trans; eassumption]|].
    eapply hstep_gapart; eassumption.
Qed.

Lemma String_rel h s m v : gvalid h (h_buf s) -> rel h s (HXdrString grow h s m v) (XdrString (habs h s) m v).
Proof.
  intros Hv. unfold HXdrString, XdrString. destruct (h_err s) eqn:Ee.
  { replace (x_err (habs h s)) with (Some x) by (symmetry; exact Ee). split; [reflexivity|apply hstep_refl; exact Hv]. }
  replace (x_err (habs h s)) with (@None xerr) by (symmetry; exact Ee).
  change (Encoding (habs h s)) with (HEncoding s). destruct (HEncoding s) eqn:Een.
  - destruct (_ || _); [split; [reflexivity|apply hstep_err; apply hstep_refl; exact Hv]|].
    set (sz := put_u32 _). pose proof (RW_rel h s sz Hv) as K. destruct (hxdrRW grow h s sz) as [[h1 s1] v1].
    destruct K as [-> Hs1]. cbn [fst].
    pose proof (RW_rel h1 s1 v (hstep_valid _ _ _ _ Hs1)) as K.
    destruct (hxdrRW grow h1 s1 v) as [[h2 s2] v2]. destruct K as [-> Hs2]. cbn [fst].
    pose proof (RW_fst h2 s2 (pad_make (List.length v)) (hstep_valid _ _ _ _ Hs2)) as K.
    destruct (fst (hxdrRW grow h2 s2 (pad_make (List.length v)))) as [h3 s3]. destruct K as [-> Hs3].
    split; [reflexivity|]. eapply hstep_trans; [exact Hs1|eapply hstep_trans; eassumption].
  - assert (Hrd : h_reader s = true). { unfold HEncoding in Een. rewrite Ee in Een. destruct (h_reader s); auto. }
    pose proof (RW_rel h s (zeros 4) Hv) as K. destruct (hxdrRW grow h s (zeros 4)) as [[h1 s1] szb] eqn:Erw.
    pose proof (RW_nonnil _ _ _ _ _ _ Hrd zeros4_ne Erw) as Hnn.
    destruct K as [-> Hs1]. pose proof (get_u32_nonneg szb) as Hsz. destruct (_ || _).
    { split; [reflexivity|apply hstep_err; exact Hs1]. }
    assert (Hr1 : h_reader s1 = true) by (destruct Hs1 as (-> & _); exact Hrd).
    assert (Hh : h1 = h) by (destruct Hs1 as (_ & _ & H3 & _); apply H3; exact Hrd). subst h1.
    pose proof (R_rel h s1 (get_u32 szb) (hstep_valid _ _ _ _ Hs1) ltac:(lia) Hr1 Hnn) as K.
    destruct (hxdrR s1 (get_u32 szb)) as [s2 o2]. destruct K as (-> & Hs2 & Hv2).
    rewrite bytes_gread.
    pose proof (RW_fst h s2 (pad_make (List.length (gread h o2))) (hstep_valid _ _ _ _ Hs2)) as K.
    destruct (fst (hxdrRW grow h s2 (pad_make (List.length (gread h o2))))) as [h3 s3]. destruct K as [-> Hs3].
    split; [reflexivity|]. eapply hstep_trans; [exact Hs1|eapply hstep_trans; eassumption].
Qed.
End Grow.
