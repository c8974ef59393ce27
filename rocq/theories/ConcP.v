(** Invariants of the concurrent server (Conc.v). *)
From Coq Require Import Permutation.
From Verif Require Import Bytes XdrLib Types Interp Spec Runs RpcTypes RpcSpec RpcWire RpcDec Io Client CallSpec Server ServSpec
  ServerP ServerQ ServerX Heap HeapP Conc.
Open Scope string_scope.
Open Scope Z_scope.
Open Scope list_scope.

(** ** Memory *)
Definition atblk (b : nat) : nat -> nat -> Prop := fun c _ => c = b.

Lemma hwrite_differs h s k bs : svalid h s -> (k + List.length bs <= sl_len s)%nat -> differs_at (atblk (sl_blk s)) h (hwrite h s k bs).
Proof.
  intros (V1 & V2 & V3) Hk. unfold hwrite. split; [rewrite hset_len by exact V1; lia|].
  intros b Hb. rewrite block_hset by exact V1. destruct (Nat.eqb_spec b (sl_blk s)) as [->|Hn].
  - split; [apply poke_len; lia|]. intros i Hi. exfalso. apply Hi. reflexivity.
  - split; [reflexivity|]. reflexivity.
Qed.
Lemma hwrite_nth h s k bs i : svalid h s -> (k + List.length bs <= sl_len s)%nat ->
  nth_error (sread (hwrite h s k bs) s) i =
  if andb (Nat.leb k i) (Nat.ltb i (k + List.length bs)) then nth_error bs (i - k) else nth_error (sread h s) i.
Proof.
  intros (V1 & V2 & V3) Hk. unfold hwrite, sread. rewrite !nth_firstn, !nth_skipn, block_hset by exact V1.
  rewrite Nat.eqb_refl, poke_nth by lia.
  destruct (Nat.ltb_spec i (sl_len s)) as [Hi|Hi].
  - destruct (Nat.leb_spec k i); destruct (Nat.ltb_spec i (k + List.length bs)); cbn [andb];
      destruct (Nat.ltb_spec (sl_off s + i) (sl_off s + k)); try lia;
      destruct (Nat.ltb_spec (sl_off s + i) (sl_off s + k + List.length bs)); try lia; try reflexivity.
    f_equal. lia.
  - destruct (Nat.leb_spec k i); destruct (Nat.ltb_spec i (k + List.length bs)); cbn [andb]; try lia; reflexivity.
Qed.
Lemma hwrite_whole h s bs : svalid h s -> List.length bs = sl_len s -> sread (hwrite h s 0 bs) s = bs.
Proof.
  intros V Hl. apply nth_ext. intros i. rewrite hwrite_nth by (auto; lia). cbn [Nat.leb andb].
  destruct (Nat.ltb_spec i (0 + List.length bs)); [f_equal; lia|].
  rewrite (proj2 (nth_error_None _ _)) by (rewrite sread_len by exact V; lia).
  symmetry. apply nth_error_None. lia.
Qed.
Lemma hwrite_more h s acc bs : svalid h s -> (List.length acc + List.length bs <= sl_len s)%nat ->
  firstn (List.length acc) (sread h s) = acc ->
  firstn (List.length (acc ++ bs)) (sread (hwrite h s (List.length acc) bs) s) = acc ++ bs.
Proof.
  intros V Hl Ha. apply nth_ext. intros i. rewrite nth_firstn, hwrite_nth by (auto; lia). rewrite app_length.
  destruct (Nat.ltb_spec i (List.length acc + List.length bs)) as [Hi|Hi].
  - destruct (Nat.leb_spec (List.length acc) i) as [H1|H1].
    + destruct (Nat.ltb_spec i (List.length acc + List.length bs)); [|lia]. cbn [andb]. rewrite nth_error_app2 by lia. reflexivity.
    + cbn [andb]. rewrite nth_error_app1 by lia. rewrite <- Ha at 1. rewrite nth_firstn.
      destruct (Nat.ltb_spec i (List.length acc)); [reflexivity|lia].
  - symmetry. apply nth_error_None. rewrite app_length. lia.
Qed.
Lemma alloc_differs h l : differs_at (fun _ _ => False) h (h ++ [l]).
Proof.
  split; [rewrite app_length; lia|]. intros b Hb. rewrite block_app1 by exact Hb. split; [reflexivity|]. reflexivity.
Qed.
Lemma alloc_valid h n : svalid (h ++ [zeros n]) (mkSl (List.length h) 0 n n).
Proof.
  unfold svalid. cbn [sl_blk sl_off sl_len sl_cap]. rewrite app_length, block_new. cbn [List.length].
  assert (List.length (zeros n) = n) by apply repeat_length. lia.
Qed.

Lemma stream_read_len s k s' d e : stream_read s k = (s', d, e) -> (List.length d <= k)%nat.
Proof. intros H. exact (stream_ok _ _ _ _ _ H). Qed.

Section Inv.
Context {W L : Type}.
Variable linit : L.
Variable hstep : nat -> list byte -> W -> L -> hresult W L -> Prop.
Notation step := (step linit hstep).
Notation steps := (steps linit hstep).
Notation cfg := (cfg W L).

(** ** Buffers: valid, held once, with the expected contents *)
Definition held (c : cfg) : list nat := map sl_blk (c_pool c) ++ map (fun t => sl_blk (tk_buf t)) (c_tasks c).

Record bufs (c : cfg) : Prop := {
  b_pool : Forall (svalid (c_heap c)) (c_pool c);
  b_task : Forall (fun t => svalid (c_heap c) (tk_buf t) /\ sread (c_heap c) (tk_buf t) = tk_own t) (c_tasks c);
  b_body : forall i b acc, k_rd (c_conns c i) = RBody b acc ->
    svalid (c_heap c) b /\ (List.length acc <= sl_len b)%nat /\ firstn (List.length acc) (sread (c_heap c) b) = acc /\
    ~ In (sl_blk b) (held c);
  b_once : NoDup (held c);
  b_two : forall i j b acc b' acc', k_rd (c_conns c i) = RBody b acc -> k_rd (c_conns c j) = RBody b' acc' ->
    i <> j -> sl_blk b <> sl_blk b' }.

(** Steps that only change reader [i], not to or within a body. *)
Lemma bufs_rd h p f ts w hi w' cr cr' hi' i k : bufs (mkC h p f ts w cr hi) ->
  (forall b acc, k_rd k = RBody b acc -> k_rd (f i) = RBody b acc) ->
  bufs (mkC h p (updk f i k) ts w' cr' hi').
Proof.
  intros [B1 B2 B3 B4 B5] Hk. split; cbn [c_heap c_pool c_conns c_tasks held] in *; auto.
  - intros j b acc H. unfold updk in H. destruct (Nat.eqb_spec j i) as [->|]; eapply B3; eauto.
  - intros j1 j2 b acc b' acc' H1 H2 Hn. unfold updk in H1, H2.
    destruct (Nat.eqb_spec j1 i) as [->|]; destruct (Nat.eqb_spec j2 i) as [->|]; try congruence; eapply B5; eauto.
Qed.

(** A change of memory at one block. *)
Lemma bufs_heap h h' p f ts w cr hi x : bufs (mkC h p f ts w cr hi) -> differs_at (atblk x) h h' ->
  Forall (svalid h') p /\ Forall (fun t => svalid h' (tk_buf t)) ts /\
  Forall (fun t => sl_blk (tk_buf t) <> x -> sread h' (tk_buf t) = tk_own t) ts /\
  (forall i b acc, k_rd (f i) = RBody b acc -> svalid h' b /\ (List.length acc <= sl_len b)%nat /\
     (sl_blk b <> x -> firstn (List.length acc) (sread h' b) = acc)).
Proof.
  intros [B1 B2 B3 B4 B5] Hd. cbn [c_heap c_pool c_conns c_tasks held] in *.
  split; [eapply Forall_impl; [|exact B1]; intros s; apply svalid_differs with (1 := Hd)|].
  split; [eapply Forall_impl; [|exact B2]; intros s [V _]; exact (svalid_differs _ _ _ _ Hd V)|].
  split. { eapply Forall_impl; [|exact B2]. intros t [V <-] Hn. eapply sread_differs; [exact Hd|exact V|]. intros i _ E. exact (Hn E). }
  intros i b acc H. destruct (B3 i b acc H) as (V & Hl & Ha & _). split; [exact (svalid_differs _ _ _ _ Hd V)|]. split; [exact Hl|].
  intros Hn. erewrite sread_differs; [exact Ha|exact Hd|exact V|]. intros j _ E. exact (Hn E).
Qed.

Lemma held_mid h p f t1 t t2 w cr hi : held (mkC h p f (t1 ++ t :: t2) w cr hi) =
  map sl_blk p ++ map (fun t => sl_blk (tk_buf t)) t1 ++ sl_blk (tk_buf t) :: map (fun t => sl_blk (tk_buf t)) t2.
Proof. unfold held. cbn [c_pool c_tasks]. rewrite map_app. reflexivity. Qed.

Lemma bufs_act h p f t1 i k b o ph t2 w cr hi o' ph' w' hi' f' :
  bufs (mkC h p f (t1 ++ mkT i k b o ph :: t2) w cr hi) -> List.length o' = sl_len b ->
  (forall j, k_rd (f' j) = k_rd (f j)) ->
  bufs (mkC (hwrite h b 0 o') p f' (t1 ++ mkT i k b o' ph' :: t2) w' cr hi').
Proof.
  intros B Ho Hf. pose proof B as [B1 B2 B3 B4 B5]. cbn [c_heap c_pool c_conns c_tasks] in *.
  assert (V : svalid h b). { rewrite Forall_forall in B2. apply (B2 (mkT i k b o ph)). apply in_elt. }
  pose proof (hwrite_differs h b 0 o' V ltac:(lia)) as Hd.
  destruct (bufs_heap _ _ _ _ _ _ _ _ _ B Hd) as (H1 & H2 & H3 & H4).
  rewrite held_mid in B4. cbn [tk_buf] in B4.
  assert (Eh : held (mkC (hwrite h b 0 o') p f' (t1 ++ mkT i k b o' ph' :: t2) w' cr hi')
             = held (mkC h p f (t1 ++ mkT i k b o ph :: t2) w cr hi)) by (rewrite !held_mid; reflexivity).
  assert (Hnin : ~ In (sl_blk b) (map sl_blk p ++ map (fun t => sl_blk (tk_buf t)) t1 ++ map (fun t => sl_blk (tk_buf t)) t2)).
  { rewrite app_assoc in B4. apply NoDup_remove_2 in B4. rewrite <- app_assoc in B4. exact B4. }
  split; cbn [c_heap c_pool c_conns c_tasks].
  - exact H1.
  - apply Forall_app in H2, H3. destruct H2 as [H2a H2b], H3 as [H3a H3b]. inversion H2b as [|? ? I1 I2]; subst. inversion H3b as [|? ? I3 I4]; subst.
    apply Forall_app. split.
    + rewrite Forall_forall in *. intros t Ht. split; [auto|]. apply H3a; [exact Ht|]. intros E. apply Hnin.
      apply in_or_app. right. apply in_or_app. left. apply in_map_iff. exists t. auto.
    + constructor; [split; [assumption|cbn; apply hwrite_whole; [exact V|exact Ho]]|].
      rewrite Forall_forall in *. intros t Ht. split; [auto|]. apply I4; [exact Ht|]. intros E. apply Hnin.
      apply in_or_app. right. apply in_or_app. right. apply in_map_iff. exists t. auto.
  - intros j b0 acc H. rewrite Hf in H. destruct (H4 j b0 acc H) as (K1 & K2 & K3). rewrite Eh.
    destruct (B3 j b0 acc H) as (_ & _ & _ & K4). split; [exact K1|]. split; [exact K2|]. split; [|exact K4].
    apply K3. intros E. apply K4. rewrite held_mid. cbn [tk_buf]. rewrite E. apply in_or_app. right. apply in_elt.
  - rewrite Eh, held_mid. exact B4.
  - intros j1 j2 b1 a1 b2 a2. rewrite !Hf. eapply B5.
Qed.

Lemma bufs_ph h p f t1 i k b o ph t2 w cr hi ph' w' cr' hi' f' :
  bufs (mkC h p f (t1 ++ mkT i k b o ph :: t2) w cr hi) ->
  (forall j, k_rd (f' j) = k_rd (f j)) ->
  bufs (mkC h p f' (t1 ++ mkT i k b o ph' :: t2) w' cr' hi').
Proof.
  intros [B1 B2 B3 B4 B5] Hf. cbn [c_heap c_pool c_conns c_tasks] in *.
  assert (Eh : held (mkC h p f' (t1 ++ mkT i k b o ph' :: t2) w' cr' hi')
             = held (mkC h p f (t1 ++ mkT i k b o ph :: t2) w cr hi)) by (rewrite !held_mid; reflexivity).
  split; try rewrite Eh; cbn [c_heap c_pool c_conns c_tasks]; auto.
  - apply Forall_app in B2. destruct B2 as [C1 C2]. inversion C2; subst. apply Forall_app. split; [exact C1|]. constructor; assumption.
  - intros j b0 acc. rewrite Hf. apply B3.
  - intros j1 j2 b1 a1 b2 a2. rewrite !Hf. eapply B5.
Qed.

Lemma held_valid h p f ts w cr hi x : bufs (mkC h p f ts w cr hi) -> In x (held (mkC h p f ts w cr hi)) -> (x < List.length h)%nat.
Proof.
  intros [B1 B2 _ _ _] H. cbn in *. apply in_app_or in H. destruct H as [H|H]; apply in_map_iff in H; destruct H as (t & <- & Ht).
  - rewrite Forall_forall in B1. apply (B1 t Ht).
  - rewrite Forall_forall in B2. destruct (B2 t Ht) as [V _]. apply V.
Qed.

Lemma bufs_get h p f ts w cr hi i s acc n p' h' b :
  bufs (mkC h p f ts w cr hi) -> get_buf p h n p' h' b -> k_rd (f i) = RHdr acc ->
  bufs (mkC h' p' (updk f i (with_rd (f i) s (RBody b []))) ts w cr hi).
Proof.
  intros B G Hi. pose proof B as [B1 B2 B3 B4 B5].
  assert (Hp : incl p' p /\ NoDup (map sl_blk p' ++ map (fun t => sl_blk (tk_buf t)) ts)).
  { destruct G as [p1 b p2 -> Hc|p1 b p2 -> Hc|].
    - split; [intros x Hx; apply in_app_or in Hx; apply in_or_app; cbn; tauto|]. unfold held in B4. cbn in B4. rewrite map_app in *. cbn in B4.
      rewrite <- app_assoc in *. apply NoDup_remove_1 in B4. exact B4.
    - split; [intros x Hx; apply in_app_or in Hx; apply in_or_app; cbn; tauto|]. unfold held in B4. cbn in B4. rewrite map_app in *. cbn in B4.
      rewrite <- app_assoc in *. apply NoDup_remove_1 in B4. exact B4.
    - split; [apply incl_refl|exact B4]. }
  destruct Hp as [Hp Hnd].
  assert (Hd : differs_at (fun _ _ => False) h h') by (destruct G; [apply differs_refl|apply alloc_differs|apply alloc_differs]).
  assert (Hd' : differs_at (atblk (List.length h)) h h').
  { destruct Hd as [D1 D2]. split; [exact D1|]. intros c Hc. destruct (D2 c Hc) as [D3 D4]. split; [exact D3|]. intros j _. apply D4. auto. }
  destruct (bufs_heap _ _ _ _ _ _ _ _ _ B Hd') as (H1 & H2 & H3 & H4).
  assert (Hsub : forall x, In x (map sl_blk p' ++ map (fun t => sl_blk (tk_buf t)) ts) -> In x (held (mkC h p f ts w cr hi))).
  { intros x Hx. unfold held. cbn. apply in_app_or in Hx. apply in_or_app. destruct Hx as [Hx|Hx]; [left|right; exact Hx].
    apply in_map_iff in Hx. destruct Hx as (y & <- & Hy). apply in_map. apply Hp. exact Hy. }
  assert (Hb : svalid h' b /\ ~ In (sl_blk b) (map sl_blk p' ++ map (fun t => sl_blk (tk_buf t)) ts) /\
               forall j b2 a2, k_rd (f j) = RBody b2 a2 -> sl_blk b2 <> sl_blk b).
  { destruct G as [p1 b p2 -> Hc|p1 b p2 -> Hc|].
    - assert (V : svalid h b) by (rewrite Forall_forall in B1; apply B1; apply in_elt).
      split; [destruct V as (V1 & V2 & V3); split; [exact V1|]; cbn; lia|]. cbn [sl_blk]. split.
      + unfold held in B4. cbn in B4. rewrite map_app in *. cbn in B4. rewrite <- app_assoc in *.
        apply NoDup_remove_2 in B4. exact B4.
      + intros j b2 a2 Hj E. destruct (B3 j b2 a2 Hj) as (_ & _ & _ & K). apply K. rewrite E. unfold held. cbn. apply in_or_app. left.
        apply in_map. apply in_elt.
    - split; [apply alloc_valid|]. cbn [sl_blk]. split.
      + intros Hx. apply Hsub in Hx. apply (held_valid _ _ _ _ _ _ _ _ B) in Hx. lia.
      + intros j b2 a2 Hj E. destruct (B3 j b2 a2 Hj) as ((V & _) & _). cbn in V. lia.
    - split; [apply alloc_valid|]. cbn [sl_blk]. split.
      + intros Hx. apply Hsub in Hx. apply (held_valid _ _ _ _ _ _ _ _ B) in Hx. lia.
      + intros j b2 a2 Hj E. destruct (B3 j b2 a2 Hj) as ((V & _) & _). cbn in V. lia. }
  destruct Hb as (Vb & Nb & Ob).
  split; cbn [c_heap c_pool c_conns c_tasks].
  - rewrite Forall_forall in *. auto.
  - cbn in B2. rewrite Forall_forall in *. intros t Ht. split; [auto|]. apply H3; [exact Ht|].
    destruct (B2 t Ht) as [(V & _) _]. lia.
  - intros j b0 a0 H. unfold updk in H. destruct (Nat.eqb_spec j i) as [->|Hj].
    + cbn in H. injection H as <- <-. split; [exact Vb|]. split; [cbn; lia|]. split; [reflexivity|exact Nb].
    + destruct (H4 j b0 a0 H) as (K1 & K2 & K3). destruct (B3 j b0 a0 H) as ((V & _) & _ & _ & K4).
      split; [exact K1|]. split; [exact K2|]. split; [apply K3; cbn in V; lia|]. intros Hx. apply K4. apply Hsub. exact Hx.
  - exact Hnd.
  - intros j1 j2 b1 a1 b2 a2 J1 J2 Hn. unfold updk in J1, J2.
    destruct (Nat.eqb_spec j1 i) as [->|N1]; destruct (Nat.eqb_spec j2 i) as [->|N2]; try congruence.
    + cbn in J1. injection J1 as <- <-. intros E. apply (Ob _ _ _ J2). auto.
    + cbn in J2. injection J2 as <- <-. apply (Ob _ _ _ J1).
    + eapply B5; eauto.
Qed.

Lemma bufs_body h p f ts w cr hi i b acc s d r : bufs (mkC h p f ts w cr hi) -> k_rd (f i) = RBody b acc ->
  (List.length acc + List.length d <= sl_len b)%nat -> (r = RBody b (acc ++ d) \/ exists e, r = RDone e) ->
  bufs (mkC (hwrite h b (List.length acc) d) p (updk f i (with_rd (f i) s r)) ts w cr hi).
Proof.
  intros B Hi Hl Hr. pose proof B as [B1 B2 B3 B4 B5].
  destruct (B3 i b acc Hi) as (V & Ha & Hx & Hn). cbn [c_heap] in V, Hx.
  pose proof (hwrite_differs h b (List.length acc) d V ltac:(lia)) as Hd.
  destruct (bufs_heap _ _ _ _ _ _ _ _ _ B Hd) as (H1 & H2 & H3 & H4).
  split; cbn [c_heap c_pool c_conns c_tasks].
  - exact H1.
  - rewrite Forall_forall in *. intros t Ht. split; [auto|]. apply H3; [exact Ht|]. intros E. apply Hn.
    unfold held. cbn. apply in_or_app. right. apply in_map_iff. exists t. auto.
  - intros j b0 a0 H. unfold updk in H. destruct (Nat.eqb_spec j i) as [->|Hj].
    + cbn in H. destruct Hr as [->|[e ->]]; [|discriminate]. injection H as <- <-.
      split; [exact (svalid_differs _ _ _ _ Hd V)|]. split; [rewrite app_length; exact Hl|]. split; [|exact Hn].
      apply hwrite_more; assumption.
    + destruct (H4 j b0 a0 H) as (K1 & K2 & K3). destruct (B3 j b0 a0 H) as (_ & _ & _ & K4).
      split; [exact K1|]. split; [exact K2|]. split; [apply K3; exact (B5 _ _ _ _ _ _ H Hi Hj)|exact K4].
  - exact B4.
  - intros j1 j2 b1 a1 b2 a2 J1 J2 Hnj. unfold updk in J1, J2.
    destruct (Nat.eqb_spec j1 i) as [->|N1]; destruct (Nat.eqb_spec j2 i) as [->|N2]; try congruence.
    + cbn in J1. destruct Hr as [->|[e ->]]; [|discriminate]. injection J1 as <- <-. exact (B5 _ _ _ _ _ _ Hi J2 Hnj).
    + cbn in J2. destruct Hr as [->|[e ->]]; [|discriminate]. injection J2 as <- <-. exact (B5 _ _ _ _ _ _ J1 Hi Hnj).
    + eapply B5; eauto.
Qed.

Lemma bufs_go h p f ts w cr hi i b acc k n ph : bufs (mkC h p f ts w cr hi) -> k_rd (f i) = RBody b acc ->
  List.length acc = sl_len b -> k_rd k = RHdr [] ->
  bufs (mkC h p (updk f i k) (ts ++ [mkT i n b acc ph]) w cr hi).
Proof.
  intros B Hi Hl Hk. pose proof B as [B1 B2 B3 B4 B5].
  destruct (B3 i b acc Hi) as (V & _ & Hx & Hn). cbn [c_heap] in V, Hx.
  assert (Ho : sread h b = acc). { rewrite Hl, firstn_all2 in Hx by (rewrite sread_len by exact V; lia). exact Hx. }
  assert (Eh : held (mkC h p (updk f i k) (ts ++ [mkT i n b acc ph]) w cr hi) = held (mkC h p f ts w cr hi) ++ [sl_blk b]).
  { unfold held. cbn. rewrite map_app, app_assoc. reflexivity. }
  split; try rewrite Eh; cbn [c_heap c_pool c_conns c_tasks].
  - exact B1.
  - apply Forall_app. split; [exact B2|]. constructor; [|constructor]. split; [exact V|exact Ho].
  - intros j b0 a0 H. unfold updk in H. destruct (Nat.eqb_spec j i) as [->|Hj]; [congruence|].
    destruct (B3 j b0 a0 H) as (K1 & K2 & K3 & K4). repeat (split; [assumption|]). intros E. apply in_app_or in E.
    destruct E as [E|[E|[]]]; [exact (K4 E)|]. exact (B5 _ _ _ _ _ _ Hi H (fun q => Hj (eq_sym q)) E).
  - apply (Permutation_NoDup (l := sl_blk b :: held (mkC h p f ts w cr hi))); [apply Permutation_cons_append|].
    constructor; assumption.
  - intros j1 j2 b1 a1 b2 a2 J1 J2 Hnj. unfold updk in J1, J2.
    destruct (Nat.eqb_spec j1 i) as [->|N1]; destruct (Nat.eqb_spec j2 i) as [->|N2]; try congruence. eapply B5; eauto.
Qed.

Lemma bufs_put h p f t1 i k b o ph t2 w cr hi : bufs (mkC h p f (t1 ++ mkT i k b o ph :: t2) w cr hi) ->
  bufs (mkC h (b :: p) f (t1 ++ t2) w cr hi).
Proof.
  intros [B1 B2 B3 B4 B5]. cbn [c_heap c_pool c_conns c_tasks] in *.
  assert (P : Permutation (held (mkC h p f (t1 ++ mkT i k b o ph :: t2) w cr hi)) (held (mkC h (b :: p) f (t1 ++ t2) w cr hi))).
  { rewrite held_mid. unfold held. cbn [c_pool c_tasks map tk_buf]. rewrite map_app, app_assoc.
    rewrite <- Permutation_middle, <- app_assoc. reflexivity. }
  apply Forall_app in B2. destruct B2 as [C1 C2]. inversion C2 as [|? ? [V _] C3]; subst.
  split; cbn [c_heap c_pool c_conns c_tasks].
  - constructor; assumption.
  - apply Forall_app. auto.
  - intros j b0 a0 H. destruct (B3 j b0 a0 H) as (K1 & K2 & K3 & K4). repeat (split; [assumption|]).
    intros E. apply K4. eapply Permutation_in; [apply Permutation_sym; exact P|exact E].
  - eapply Permutation_NoDup; [exact P|exact B4].
  - exact B5.
Qed.

Lemma bufs_drop h p1 b p2 f ts w cr hi : bufs (mkC h (p1 ++ b :: p2) f ts w cr hi) -> bufs (mkC h (p1 ++ p2) f ts w cr hi).
Proof.
  intros [B1 B2 B3 B4 B5]. cbn [c_heap c_pool c_conns c_tasks] in *.
  assert (Hs : forall x, In x (held (mkC h (p1 ++ p2) f ts w cr hi)) -> In x (held (mkC h (p1 ++ b :: p2) f ts w cr hi))).
  { intros x. unfold held. cbn. rewrite !map_app. cbn. intros H. repeat (apply in_app_or in H; destruct H as [H|H]);
      apply in_or_app; [left|left|right]; auto; apply in_or_app; cbn; auto. }
  split; cbn [c_heap c_pool c_conns c_tasks].
  - apply Forall_app in B1. destruct B1 as [C1 C2]. inversion C2; subst. apply Forall_app. auto.
  - exact B2.
  - intros j b0 a0 H. destruct (B3 j b0 a0 H) as (K1 & K2 & K3 & K4). repeat (split; [assumption|]). auto.
  - unfold held in *. cbn in *. rewrite map_app in *. cbn in B4. rewrite <- app_assoc in *. apply NoDup_remove_1 in B4. exact B4.
  - exact B5.
Qed.

Lemma updk_rd f i k j : k_rd k = k_rd (f i) -> k_rd (updk f i k j) = k_rd (f j).
Proof. intros H. unfold updk. destruct (Nat.eqb_spec j i); subst; auto. Qed.

Lemma bufs_step c c' : step c c' -> bufs c -> bufs c'.
Proof.
  destruct 1; intros B.
  - eapply bufs_rd; [exact B|]. cbn. congruence.
  - eapply bufs_rd; [exact B|]. cbn. congruence.
  - eapply bufs_rd; [exact B|]. cbn. congruence.
  - eapply bufs_get; eassumption.
  - eapply bufs_body; try eassumption; [|left; reflexivity]. apply stream_read_len in H1. lia.
  - eapply bufs_body; try eassumption; [|right; eauto]. apply stream_read_len in H1. lia.
  - eapply bufs_go; try eassumption. reflexivity.
  - eapply bufs_act; try eassumption; reflexivity.
  - eapply bufs_act; try eassumption; reflexivity.
  - eapply bufs_act; try eassumption. intros j. apply updk_rd. reflexivity.
  - eapply bufs_ph; try eassumption; reflexivity.
  - eapply bufs_ph; try eassumption. intros j. apply updk_rd. reflexivity.
  - eapply bufs_ph; try eassumption. intros j. apply updk_rd. reflexivity.
  - eapply bufs_put; eassumption.
  - eapply bufs_drop; eassumption.
Qed.

Lemma bufs_init h ins w : bufs (init h ins w).
Proof. split; cbn; try constructor; try discriminate. Qed.

Lemma bufs_reach h ins w c : steps (init h ins w) c -> bufs c.
Proof.
  intros H. remember (init h ins w) as c0 eqn:E. induction H; subst; [apply bufs_init|]. eapply bufs_step; [eassumption|auto].
Qed.

End Inv.
