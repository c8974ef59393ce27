(** Consequences of the invariants of the concurrent server, for C40-C42. *)
From Coq Require Import Permutation.
From Verif Require Import Bytes XdrLib Types Interp Spec Runs Check RpcTypes RpcSpec RpcWire RpcDec Io Client CallSpec ClientP Server ServSpec
  ServerP ServerQ ServerX ExRpc ServerEx Heap HeapP HeapQ Conc ConcP ConcQ.
Open Scope string_scope.
Open Scope Z_scope.
Open Scope list_scope.

Lemma NoDup_app_remove_l {A} (l l' : list A) : NoDup (l ++ l') -> NoDup l'.
Proof. induction l as [|x l IH]; intros H; [exact H|]. inversion H; subst. auto. Qed.
Lemma NoDup_app_remove_r {A} (l l' : list A) : NoDup (l ++ l') -> NoDup l.
Proof.
  induction l as [|x l IH]; intros H; [constructor|]. inversion H as [|? ? N H']; subst. constructor; [|auto].
  intros K. apply N. apply in_or_app. auto.
Qed.

Section Any.
Context {W L : Type}.
Variable linit : L.
Variable hstep : nat -> list byte -> W -> L -> hresult W L -> Prop.
Notation step := (step linit hstep).
Notation steps := (steps linit hstep).

(** Handlers that do not write to the request's bytes. *)
Definition keeps : Prop := forall i own w l r, hstep i own w l r ->
  match r with HMore _ o _ | HEnd _ o _ => o = own | HPanic => True end.

Definition owns (c : cfg W L) : Prop := forall t, In t (c_tasks c) ->
  nth_error (k_reqs (c_conns c (tk_conn t))) (tk_id t) = Some (tk_own t).

Lemma owns_same c h p f ts w cr hi : owns c -> (forall t, In t ts -> exists t', In t' (c_tasks c) /\ tk_conn t' = tk_conn t /\
    tk_id t' = tk_id t /\ tk_own t' = tk_own t) ->
  (forall i, k_reqs (f i) = k_reqs (c_conns c i)) -> owns (mkC h p f ts w cr hi).
Proof.
  intros O Ht Hf t Hi. cbn [c_conns c_tasks] in *. destruct (Ht t Hi) as (t' & H1 & <- & <- & <-). rewrite Hf. apply O. exact H1.
Qed.

Lemma owns_step c c' : keeps -> step c c' -> bufs c -> owns c -> owns c'.
Proof.
  intros K S B O.
  assert (Hm : forall h p f t1 i k b o ph t2 w cr hi, c = mkC h p f (t1 ++ mkT i k b o ph :: t2) w cr hi -> sread h b = o).
  { intros. subst c. destruct B as [_ B _ _ _]. rewrite Forall_forall in B. apply (B _ (in_elt _ _ _)). }
  assert (Hmid : forall t1 (x : task L) t2 y, tk_conn x = tk_conn y -> tk_id x = tk_id y -> tk_own x = tk_own y ->
    forall t, In t (t1 ++ y :: t2) -> exists t', In t' (t1 ++ x :: t2) /\ tk_conn t' = tk_conn t /\ tk_id t' = tk_id t /\ tk_own t' = tk_own t).
  { intros t1 x t2 y E1 E2 E3 t Ht. apply in_app_or in Ht. destruct Ht as [Ht|[<-|Ht]].
    - exists t. rewrite in_app_iff. auto.
    - exists x. rewrite in_app_iff. cbn. auto 10.
    - exists t. rewrite in_app_iff. cbn. auto. }
  destruct S.
  1-6: (eapply owns_same; [exact O|eauto|]; intros j; cbn [c_conns]; unfold updk; destruct (Nat.eqb_spec j i); subst; reflexivity).
  - intros t Ht. cbn [c_conns c_tasks] in *. apply in_app_or in Ht. destruct Ht as [Ht|[<-|[]]].
    + specialize (O t Ht). cbn in O. unfold updk. destruct (Nat.eqb_spec (tk_conn t) i) as [E|]; [|exact O]. cbn. rewrite E in O.
      rewrite nth_error_app1; [exact O|]. apply nth_error_Some. congruence.
    + cbn. rewrite updk_at. cbn. rewrite nth_error_app2, Nat.sub_diag by lia. reflexivity.
  - specialize (Hm _ _ _ _ _ _ _ _ _ _ _ _ _ eq_refl). apply K in H. cbn in H. rewrite Hm in H. subst o'.
    eapply owns_same; [exact O|cbn; apply Hmid; reflexivity|reflexivity].
  - specialize (Hm _ _ _ _ _ _ _ _ _ _ _ _ _ eq_refl). apply K in H. cbn in H. rewrite Hm in H. subst o'.
    eapply owns_same; [exact O|cbn; apply Hmid; reflexivity|reflexivity].
  - specialize (Hm _ _ _ _ _ _ _ _ _ _ _ _ _ eq_refl). apply K in H. cbn in H. rewrite Hm in H. subst o'.
    eapply owns_same; [exact O|cbn; apply Hmid; reflexivity|]. intros j; cbn [c_conns]; unfold updk; destruct (Nat.eqb_spec j i); subst; reflexivity.
  - eapply owns_same; [exact O|eauto|reflexivity].
  - eapply owns_same; [exact O|cbn; apply Hmid; reflexivity|]. intros j; cbn [c_conns]; unfold updk; destruct (Nat.eqb_spec j i); subst; reflexivity.
  - eapply owns_same; [exact O|cbn; apply Hmid; reflexivity|]. intros j; cbn [c_conns]; unfold updk; destruct (Nat.eqb_spec j i); subst; reflexivity.
  - eapply owns_same; [exact O| |reflexivity]. cbn. intros t Ht. exists t. rewrite in_app_iff in *. cbn. tauto.
  - eapply owns_same; [exact O|eauto|reflexivity].
Qed.

Section Reach.
Variable h0 : heap.
Variable ins : nat -> list (list byte) * ioerr.
Variable w0 : W.
Hypothesis ins_ok : forall i, chunks_ok (fst (ins i)).
Variable c : cfg W L.
Hypothesis reached : steps (init h0 ins w0) c.

Lemma c40_distinct :
  NoDup (map (fun t => sl_blk (tk_buf t)) (c_tasks c)) /\
  (forall t b, In t (c_tasks c) -> In b (c_pool c) -> sl_blk (tk_buf t) <> sl_blk b) /\
  (forall t i b acc, In t (c_tasks c) -> k_rd (c_conns c i) = RBody b acc -> sl_blk (tk_buf t) <> sl_blk b) /\
  (forall i j b acc b' acc', k_rd (c_conns c i) = RBody b acc -> k_rd (c_conns c j) = RBody b' acc' -> i <> j -> sl_blk b <> sl_blk b').
Proof.
  destruct (all_reach linit hstep _ _ _ _ ins_ok reached) as (B & _). destruct B as [B1 B2 B3 B4 B5].
  assert (Hin : forall t, In t (c_tasks c) -> In (sl_blk (tk_buf t)) (held c)).
  { intros t Ht. apply in_or_app. right. apply in_map_iff. exists t. auto. }
  split; [exact (NoDup_app_remove_l _ _ B4)|]. split; [|split].
  - intros t b Ht Hb E. unfold held in B4.
    assert (H1 : In (sl_blk b) (map sl_blk (c_pool c))) by (apply in_map; exact Hb).
    assert (H2 : In (sl_blk b) (map (fun t => sl_blk (tk_buf t)) (c_tasks c))) by (apply in_map_iff; exists t; auto).
    clear - B4 H1 H2. induction (map sl_blk (c_pool c)) as [|x l IH]; [destruct H1|]. inversion B4; subst.
    destruct H1 as [->|H1]; [apply H3; apply in_or_app; auto|auto].
  - intros t i b acc Ht Hb E. destruct (B3 i b acc Hb) as (_ & _ & _ & N). apply N. rewrite <- E. auto.
  - exact B5.
Qed.

Lemma c40_threads i k req : nth_error (k_reqs (c_conns c i)) k = Some req ->
  exists own st, thread linit hstep i req (of_req i k (c_hist c)) own st /\
  forall t, In t (c_tasks c) -> tk_conn t = i -> tk_id t = k -> tk_ph t <> TPut ->
    stat_of (tk_ph t) = Some st /\ sread (c_heap c) (tk_buf t) = own.
Proof.
  intros Hk. destruct (all_reach linit hstep _ _ _ _ ins_ok reached) as (B & _ & A & H).
  destruct (A i) as [P _].
  assert (Hin : In k (map fst (k_out (c_conns c i)) ++ k_quiet (c_conns c i) ++ k_fail (c_conns c i) ++ ids i (c_tasks c))).
  { eapply Permutation_in; [apply Permutation_sym; exact P|]. apply in_seq. split; [lia|]. cbn. apply nth_error_Some. congruence. }
  assert (ND : NoDup (map fst (k_out (c_conns c i)) ++ k_quiet (c_conns c i) ++ k_fail (c_conns c i) ++ ids i (c_tasks c))).
  { eapply Permutation_NoDup; [apply Permutation_sym; exact P|apply seq_NoDup]. }
  assert (Hid : forall t, In t (c_tasks c) -> tk_conn t = i -> tk_id t = k -> tk_ph t <> TPut -> In k (ids i (c_tasks c))).
  { intros t Ht E1 E2 Hp. unfold ids. rewrite <- E2. apply in_map. apply filter_In. split; [exact Ht|]. unfold active. rewrite E1, Nat.eqb_refl.
    destruct (tk_ph t); [reflexivity|reflexivity|congruence]. }
  assert (Hno : forall (l1 l2 : list nat), NoDup (l1 ++ l2) -> In k l1 -> ~ In k l2).
  { clear. induction l1 as [|x l1 IH]; intros l2 Hn H1; [destruct H1|]. cbn in Hn. inversion Hn; subst. destruct H1 as [->|H1]; [|auto].
    intros H. apply H2. apply in_or_app. auto. }
  rewrite !app_assoc in ND. rewrite !app_assoc in Hin. apply in_app_or in Hin. destruct Hin as [Hin|Hin].
  - assert (X : exists own st, thread linit hstep i req (of_req i k (c_hist c)) own st).
    { apply in_app_or in Hin. destruct Hin as [Hin|Hin]; [apply in_app_or in Hin; destruct Hin as [Hin|Hin]|].
      - apply in_map_iff in Hin. destruct Hin as ([k' r] & E & Hin). cbn in E. subst k'.
        destruct (h_out _ _ _ _ H i k r Hin) as (rq & ow & K1 & K2). rewrite Hk in K1. injection K1 as <-. eauto.
      - destruct (h_quiet _ _ _ _ H i k Hin) as (rq & ow & K1 & K2). rewrite Hk in K1. injection K1 as <-. eauto.
      - destruct (h_fail _ _ _ _ H i k Hin) as (rq & ow & r & K1 & K2). rewrite Hk in K1. injection K1 as <-. eauto. }
    destruct X as (ow & st & X). exists ow, st. split; [exact X|]. intros t Ht E1 E2 Hp. exfalso.
    exact (Hno _ _ ND Hin (Hid t Ht E1 E2 Hp)).
  - unfold ids in Hin. apply in_map_iff in Hin. destruct Hin as (t & Et & Ht). apply filter_In in Ht. destruct Ht as [Ht Ha].
    unfold active in Ha. apply andb_prop in Ha. destruct Ha as [Ha1 Ha2]. apply Nat.eqb_eq in Ha1.
    assert (Hst : exists st, stat_of (tk_ph t) = Some st) by (destruct (tk_ph t); [eexists; reflexivity|eexists; reflexivity|discriminate]).
    destruct Hst as [st Hst]. destruct (h_task _ _ _ _ H t st Ht Hst) as (rq & K1 & K2). rewrite Ha1, Et, Hk in K1. injection K1 as <-.
    rewrite Ha1, Et in K2. exists (tk_own t), st. split; [exact K2|]. intros t' Ht' E1 E2 Hp.
    assert (t' = t).
    { apply in_split in Ht. destruct Ht as (t1 & t2 & Es). destruct c as [hh pp ff ts ww cr hi]. cbn [c_tasks c_conns c_heap c_hist] in *. subst ts.
      destruct (act_unique _ _ _ _ _ _ _ _ _ st i A Hst Ha1) as (_ & _ & _ & U).
      apply in_app_or in Ht'. destruct Ht' as [Ht'|[Ht'|Ht']]; [exfalso|auto|exfalso].
      - assert (Hs' : exists st', stat_of (tk_ph t') = Some st') by (destruct (tk_ph t'); [eexists; reflexivity|eexists; reflexivity|congruence]).
        destruct Hs' as [st' Hs']. apply (U t' st'); [apply in_or_app; auto|exact Hs'|exact E1|congruence].
      - assert (Hs' : exists st', stat_of (tk_ph t') = Some st') by (destruct (tk_ph t'); [eexists; reflexivity|eexists; reflexivity|congruence]).
        destruct Hs' as [st' Hs']. apply (U t' st'); [apply in_or_app; auto|exact Hs'|exact E1|congruence]. }
    subst t'. split; [exact Hst|]. destruct B as [_ B _ _ _]. rewrite Forall_forall in B. apply (B t Ht).
Qed.

Lemma c40_own : keeps -> forall t, In t (c_tasks c) ->
  nth_error (k_reqs (c_conns c (tk_conn t))) (tk_id t) = Some (sread (c_heap c) (tk_buf t)).
Proof.
  intros K.
  assert (X : bufs c /\ owns c).
  { clear ins_ok. remember (init h0 ins w0) as c0 eqn:E. induction reached as [|c1 c2 c3 H IH S]; subst.
    - split; [apply bufs_init|intros t []].
    - destruct (IH eq_refl H) as [I1 I2]. split; [eapply bufs_step; eassumption|eapply owns_step; eassumption]. }
  destruct X as [B O]. intros t Ht. rewrite (O t Ht). destruct B as [_ B _ _ _]. rewrite Forall_forall in B. destruct (B t Ht) as [_ ->]. reflexivity.
Qed.

Lemma c40_inputs i : exists rest, List.concat (fst (ins i)) = List.concat (map record (k_reqs (c_conns c i))) ++ rest /\
  Forall (fun m => zlen m < 2 ^ 31) (k_reqs (c_conns c i)) /\
  (forall e, k_rd (c_conns c i) = RDone e -> no_record rest).
Proof.
  destruct (all_reach linit hstep _ _ _ _ ins_ok reached) as (_ & K & _). destruct (K i) as (_ & K2 & K3).
  destruct (k_rd (c_conns c i)) as [acc|b acc|e].
  - destruct K3 as [_ ->]. eexists. split; [reflexivity|]. split; [exact K2|discriminate].
  - destruct K3 as (_ & _ & ->). eexists. split; [reflexivity|]. split; [exact K2|discriminate].
  - destruct K3 as (rest & -> & Hn). exists rest. auto.
Qed.

Lemma c41_valid : keeps -> forall t sl k, In t (c_tasks c) -> part_of (tk_buf t) sl k ->
  exists req, nth_error (k_reqs (c_conns c (tk_conn t))) (tk_id t) = Some req /\
    sread (c_heap c) sl = firstn (sl_len sl) (skipn k req).
Proof.
  intros K t sl k Ht Hp. rewrite (c40_own K t Ht). eexists. split; [reflexivity|]. apply part_read. exact Hp.
Qed.

Lemma c42_account i :
  NoDup (map fst (k_out (c_conns c i))) /\
  (k_broken (c_conns c i) = false -> k_part (c_conns c i) = [] /\ k_fail (c_conns c i) = []) /\
  Permutation (map fst (k_out (c_conns c i)) ++ k_quiet (c_conns c i) ++ k_fail (c_conns c i) ++
               map (@tk_id L) (filter (active i) (c_tasks c))) (seq 0 (List.length (k_reqs (c_conns c i)))).
Proof.
  destruct (all_reach linit hstep _ _ _ _ ins_ok reached) as (_ & _ & A & _). destruct (A i) as [P Q].
  split; [|auto]. eapply NoDup_app_remove_r. eapply Permutation_NoDup; [apply Permutation_sym; exact P|apply seq_NoDup].
Qed.
End Reach.

(** ** No deadlock *)
Lemma c42_reader c i : c_crashed c = false -> (forall e, k_rd (c_conns c i) <> RDone e) ->
  (exists c', step c c') \/ exists acc, k_rd (c_conns c i) = RHdr acc /\ (4 < List.length acc)%nat \/
    exists b, k_rd (c_conns c i) = RBody b acc /\ (sl_len b < List.length acc)%nat.
Proof.
  destruct c as [h p f ts w cr hi]. cbn [c_crashed c_conns]. intros -> Hd. destruct (k_rd (f i)) as [acc|b acc|e] eqn:Er.
  - destruct (Nat.lt_trichotomy (List.length acc) 4) as [Hl|[Hl|Hl]].
    + left. destruct (stream_read (k_in (f i)) (4 - List.length acc)) as [[s d] [e|]] eqn:Es.
      * eexists. eapply S_hdr_err; eassumption.
      * eexists. eapply S_hdr; eassumption.
    + left. destruct (Z.eq_dec (Z.land (get_u32 acc) (2 ^ 31)) 0) as [E|E].
      * eexists. eapply S_frag; eassumption.
      * eexists. eapply S_get; try eassumption. apply G_nil.
    + right. exists acc. auto.
  - destruct (Nat.lt_trichotomy (List.length acc) (sl_len b)) as [Hl|[Hl|Hl]].
    + left. destruct (stream_read (k_in (f i)) (sl_len b - List.length acc)) as [[s d] [e|]] eqn:Es.
      * eexists. eapply S_body_err; eassumption.
      * eexists. eapply S_body; eassumption.
    + left. eexists. eapply S_go; eassumption.
    + right. exists acc. right. exists b. auto.
  - exfalso. eapply Hd. reflexivity.
Qed.

Lemma c42_task c t : c_crashed c = false -> In t (c_tasks c) ->
  (forall l, tk_ph t = TRun l -> exists r, hstep (tk_conn t) (sread (c_heap c) (tk_buf t)) (c_world c) l r /\
     match r with HMore _ o _ | HEnd _ o _ => List.length o = sl_len (tk_buf t) | HPanic => True end) ->
  exists c', step c c'.
Proof.
  destruct c as [h p f ts w cr hi]. cbn [c_crashed c_tasks c_heap c_world]. intros -> Ht Hh.
  apply in_split in Ht. destruct Ht as (t1 & t2 & ->). destruct t as [i k b o ph]. cbn [tk_conn tk_buf tk_ph] in *. destruct ph as [l|r|].
  - destruct (Hh l eq_refl) as ([|w' o' l'|w' o' [r|]] & H1 & H2).
    + eexists. eapply S_panic. exact H1.
    + eexists. eapply S_more; eassumption.
    + eexists. eapply S_end; eassumption.
    + eexists. eapply S_quiet; eassumption.
  - destruct (k_broken (f i)) eqn:Eb.
    + eexists. eapply (S_write_err linit hstep) with (d := []); [exists r; reflexivity|auto].
    + eexists. eapply S_write. exact Eb.
  - eexists. eapply S_put.
Qed.

(** A buffer in the pool can be overwritten by the next request that fits. *)
Lemma c41_reuse c p1 b p2 i acc n d cs :
  c_crashed c = false -> c_pool c = p1 ++ b :: p2 -> svalid (c_heap c) b ->
  k_rd (c_conns c i) = RHdr acc -> List.length acc = 4%nat -> acc = be4 (2 ^ 31 + Z.of_nat n) -> (0 < n <= sl_cap b)%nat ->
  Z.of_nat n < 2 ^ 31 -> si_in (k_in (c_conns c i)) = d :: cs -> List.length d = n ->
  exists c', steps c c' /\ sread (c_heap c') (mkSl (sl_blk b) (sl_off b) n (sl_cap b)) = d.
Proof.
  destruct c as [h p f ts w cr hi]. cbn [c_crashed c_pool c_heap c_conns].
  intros -> -> V Er Hl Ea Hn Hz Ein Hd.
  assert (Hu : u32 (2 ^ 31 + Z.of_nat n)) by (unfold u32; lia).
  destruct (hdr_u32 acc Hl) as [Eg _]. assert (Ev : be_val acc = 2 ^ 31 + Z.of_nat n) by (rewrite Ea; apply be4_val; exact Hu).
  pose proof (last_frag _ Hu) as F. destruct (Z.ltb_spec (2 ^ 31 + Z.of_nat n) (2 ^ 31)); [lia|].
  pose proof (low31 _ Hu ltac:(lia)) as Lw.
  set (b' := mkSl (sl_blk b) (sl_off b) n (sl_cap b)).
  set (f1 := updk f i (with_rd (f i) (k_in (f i)) (RBody b' []))).
  assert (S1 : step (mkC h (p1 ++ b :: p2) f ts w false hi) (mkC h (p1 ++ p2) f1 ts w false hi)).
  { eapply S_get; [exact Er|exact Hl|rewrite Eg, Ev; intros E; rewrite E in F; discriminate|]. rewrite Eg, Ev, Lw.
    replace (Z.to_nat (2 ^ 31 + Z.of_nat n - 2 ^ 31)) with n by lia. apply G_hit; [reflexivity|lia]. }
  assert (V' : svalid h b') by (destruct V as (V1 & V2 & V3); split; [exact V1|]; cbn; lia).
  eexists. split.
  - eapply steps_snoc; [eapply steps_snoc; [apply steps_refl|exact S1]|].
    eapply (S_body linit hstep) with (i := i) (acc := []) (b := b'); subst f1; rewrite ?updk_at; cbn [k_rd k_in with_rd List.length]; [reflexivity|cbn; lia|].
    unfold stream_read. rewrite Ein. cbn [sl_len b']. destruct (Nat.leb_spec (List.length d) (n - 0)); [reflexivity|lia].
  - cbn [c_heap List.length]. apply hwrite_whole; [exact V'|exact Hd].
Qed.
End Any.

(** ** With handleReqErr *)
Section Replies.
Context {W : Type}.
Variable srv : nat -> server W.
Variable regs : nat -> list (registration W).
Hypothesis srv_ok : forall i, reach (srv i) (regs i) /\ regs_ok (regs i).
Notation steps := (steps tt (reply_step srv)).

Lemma reply_keeps : keeps (reply_step srv).
Proof. intros i own w l r H. destruct H; auto. Qed.

Lemma make_reply_sends i n w req w' rec : make_reply n (srv i) w req = Ret (w', inr rec) ->
  exists rep, rec = mark (zlen rep) ++ rep /\ sends (srv i) w req w' rep.
Proof.
  intros H. destruct (srv_ok i) as [Hr Hg].
  assert (Hh : Handles (logged stream_conn) (srv i) (mkStream [] EOF [], []) w req
     (mkStream [] EOF [rec], [rec]) w' None).
  { exists n. unfold handleReqErr. rewrite H. reflexivity. }
  destruct (c37 _ _ _ _ _ _ _ _ _ _ _ Hr Hg Hh) as [E|(xid & rep & _ & E & _)]; [discriminate|].
  apply (f_equal (hd [])) in E. cbn [hd] in E. exists rep. split; [exact E|]. apply makes_sends. exists n. intros m Hm. change (mark (zlen rep) ++ rep) with (be4 (2 ^ 31 + zlen rep mod 2 ^ 31) ++ rep). rewrite <- E.
  eapply make_reply_mono; eassumption.
Qed.
Lemma make_reply_silent i n w req w' e : make_reply n (srv i) w req = Ret (w', inl e) -> silent (srv i) w req w'.
Proof.
  intros H. destruct (srv_ok i) as [Hr Hg]. eapply makes_silent. exists n. intros m Hm. eapply make_reply_mono; eassumption.
Qed.

Lemma thread_reply i req es own st : thread tt (reply_step srv) i req es own st ->
  (es = [] /\ st = TsRun tt) \/
  (exists w w' rep, es = [(w, HEnd w' req (Some (mark (zlen rep) ++ rep)))] /\ sends (srv i) w req w' rep /\ st = TsEnd (Some (mark (zlen rep) ++ rep))) \/
  (exists w w', es = [(w, HEnd w' req None)] /\ silent (srv i) w req w' /\ st = TsEnd None).
Proof.
  assert (G : forall es own st, thread tt (reply_step srv) i req es own st ->
    match st with TsRun _ => es = [] /\ own = req | TsEnd o => exists w w', es = [(w, HEnd w' req o)] /\ reply_step srv i req w tt (HEnd w' req o) end).
  { clear es own st. induction 1 as [|es own l w w' o l' _ IH H|es own l w w' o r _ IH H].
    - auto.
    - inversion H.
    - destruct IH as [-> ->]. exists w, w'. destruct l. pose proof H as H'. inversion H'; subst; auto. }
  intros H. apply G in H. destruct st as [[]|o]; [left; tauto|]. right. destruct H as (w & w' & -> & H).
  inversion H as [n w1 rec Hm|n w1 e Hm|]; subst.
  - left. destruct (make_reply_sends _ _ _ _ _ _ Hm) as (rep & -> & Hs). eauto 10.
  - right. apply make_reply_silent in Hm. eauto 10.
Qed.

(** Handling requests one after another. *)
Inductive serial (reqs : nat -> list (list byte)) (w0 : W) : list (nat * nat * option (list byte)) -> W -> Prop :=
| Se_nil : serial reqs w0 [] w0
| Se_reply tr w i k req w' rep : serial reqs w0 tr w -> nth_error (reqs i) k = Some req -> sends (srv i) w req w' rep ->
    serial reqs w0 (tr ++ [(i, k, Some (mark (zlen rep) ++ rep))]) w'
| Se_quiet tr w i k req w' : serial reqs w0 tr w -> nth_error (reqs i) k = Some req -> silent (srv i) w req w' ->
    serial reqs w0 (tr ++ [(i, k, None)]) w'.

Section Reach.
Variable h0 : heap.
Variable ins : nat -> list (list byte) * ioerr.
Variable w0 : W.
Hypothesis ins_ok : forall i, chunks_ok (fst (ins i)).
Variable c : cfg W unit.
Hypothesis reached : steps (init h0 ins w0) c.

Definition rec_of (r : hresult W unit) : option (list byte) := match r with HEnd _ _ o => o | _ => None end.
Definition entry (e : event W unit) : nat * nat * option (list byte) := (ev_conn e, ev_id e, rec_of (ev_res e)).

Lemma event_thread e : In e (c_hist c) -> exists req, nth_error (k_reqs (c_conns c (ev_conn e))) (ev_id e) = Some req /\
  of_req (ev_conn e) (ev_id e) (c_hist c) = [(ev_world e, ev_res e)] /\
  ((exists w' rep, ev_res e = HEnd w' req (Some (mark (zlen rep) ++ rep)) /\ sends (srv (ev_conn e)) (ev_world e) req w' rep) \/
   (exists w', ev_res e = HEnd w' req None /\ silent (srv (ev_conn e)) (ev_world e) req w')).
Proof.
  intros He. destruct (all_reach tt _ _ _ _ _ ins_ok reached) as (_ & _ & _ & H).
  pose proof (h_ids _ _ _ _ H) as Hi. rewrite Forall_forall in Hi. specialize (Hi e He). cbv beta in Hi.
  destruct (nth_error (k_reqs (c_conns c (ev_conn e))) (ev_id e)) as [req|] eqn:Er; [|apply nth_error_None in Er; lia].
  exists req. split; [reflexivity|].
  destruct (c40_threads tt _ _ _ _ ins_ok _ reached _ _ _ Er) as (own & st & Ht & _).
  assert (Hin : In (ev_world e, ev_res e) (of_req (ev_conn e) (ev_id e) (c_hist c))).
  { unfold of_req. apply in_map_iff. exists e. split; [reflexivity|]. apply filter_In. split; [exact He|]. rewrite !Nat.eqb_refl. reflexivity. }
  apply thread_reply in Ht. destruct Ht as [[E _]|[(w & w' & rep & E & Hs & _)|(w & w' & E & Hs & _)]]; rewrite E in *.
  - destruct Hin.
  - destruct Hin as [Hin|[]]. injection Hin as <- <-. split; [reflexivity|]. left. eauto.
  - destruct Hin as [Hin|[]]. injection Hin as <- <-. split; [reflexivity|]. right. eauto.
Qed.

Lemma hist_nodup : NoDup (map fst (map entry (c_hist c))).
Proof.
  assert (H : forall e, In e (c_hist c) -> List.length (of_req (ev_conn e) (ev_id e) (c_hist c)) = 1%nat).
  { intros e He. destruct (event_thread e He) as (req & _ & -> & _). reflexivity. }
  rewrite map_map. cbn. revert H. generalize (c_hist c). induction l as [|e l IH]; intros H; [constructor|].
  cbn [map fst entry]. constructor.
  - intros Hin. apply in_map_iff in Hin. destruct Hin as (e' & E & He'). injection E as E1 E2.
    specialize (H e (or_introl eq_refl)). unfold of_req in H. rewrite map_length in H. cbn [filter] in H. rewrite !Nat.eqb_refl in H. cbn in H.
    assert (In e' (filter (fun x => Nat.eqb (ev_conn x) (ev_conn e) && Nat.eqb (ev_id x) (ev_id e)) l)).
    { apply filter_In. rewrite E1, E2, !Nat.eqb_refl. auto. }
    destruct (filter _ l); [contradiction|discriminate].
  - apply IH. intros e' He'. specialize (H e' (or_intror He')). unfold of_req in *. rewrite map_length in *. cbn [filter] in H.
    assert (In e' (filter (fun x => Nat.eqb (ev_conn x) (ev_conn e') && Nat.eqb (ev_id x) (ev_id e')) l)).
    { apply filter_In. rewrite !Nat.eqb_refl. auto. }
    destruct (_ && _); [|exact H]. cbn in H. destruct (filter _ l); [contradiction|discriminate].
Qed.

Lemma chain_serial : serial (fun i => k_reqs (c_conns c i)) w0 (map entry (c_hist c)) (c_world c).
Proof.
  destruct (all_reach tt _ _ _ _ _ ins_ok reached) as (_ & _ & _ & H). pose proof (h_chain _ _ _ _ H) as C.
  pose proof event_thread as ET. revert C ET. generalize (c_world c). generalize (c_hist c) at 1 2 4 as hi.
  intros hi w C. induction C as [|hi w e w' C IH Ew Ewo]; intros ET; [constructor|].
  assert (Hx : forall e0, In e0 hi -> In e0 (hi ++ [e])) by (intros; apply in_or_app; auto).
  specialize (IH (fun e0 He => ET e0 (Hx e0 He))). rewrite map_app. cbn [map].
  destruct (ET e ltac:(apply in_or_app; cbn; auto)) as (req & Hk & _ & [(w1 & rep & Er & Hs)|(w1 & Er & Hs)]);
    unfold entry at 2; rewrite Er in *; cbn in Ewo |- *; injection Ewo as <-; subst w.
  - eapply Se_reply; eassumption.
  - eapply Se_quiet; eassumption.
Qed.

Lemma in_entry i k es o w : of_req i k (c_hist c) = (w, es) :: o -> In (i, k, rec_of es) (map entry (c_hist c)).
Proof.
  intros H. assert (Hi : In (w, es) (of_req i k (c_hist c))) by (rewrite H; left; reflexivity).
  unfold of_req in Hi. apply in_map_iff in Hi. destruct Hi as (e & E & He). apply filter_In in He. destruct He as [He Hb].
  apply andb_prop in Hb. destruct Hb as [H1 H2]. apply Nat.eqb_eq in H1, H2. injection E as E1 E2.
  apply in_map_iff. exists e. split; [|exact He]. unfold entry. congruence.
Qed.

Lemma c42_serial : exists tr, serial (fun i => k_reqs (c_conns c i)) w0 tr (c_world c) /\ NoDup (map fst tr) /\
  (forall i k rec, In (k, rec) (k_out (c_conns c i)) -> In (i, k, Some rec) tr) /\
  (forall i k, In k (k_quiet (c_conns c i)) -> In (i, k, None) tr) /\
  (forall i k, In k (k_fail (c_conns c i)) -> exists rec, In (i, k, Some rec) tr) /\
  (forall i, k_part (c_conns c i) = [] \/ exists k rec x, In k (k_fail (c_conns c i)) /\ In (i, k, Some rec) tr /\
     rec = k_part (c_conns c i) ++ x).
Proof.
  destruct (all_reach tt _ _ _ _ _ ins_ok reached) as (_ & _ & _ & H).
  exists (map entry (c_hist c)). split; [apply chain_serial|]. split; [apply hist_nodup|].
  assert (G : forall i k req own o, thread tt (reply_step srv) i req (of_req i k (c_hist c)) own (TsEnd o) -> In (i, k, o) (map entry (c_hist c))).
  { intros i k req own o Ht. apply thread_reply in Ht. destruct Ht as [[_ E]|[(w & w' & rep & E & _ & Eo)|(w & w' & E & _ & Eo)]]; [discriminate| |];
      injection Eo as ->; apply in_entry in E; exact E. }
  split; [|split; [|split]].
  - intros i k rec Hi. destruct (h_out _ _ _ _ H i k rec Hi) as (rq & ow & _ & Ht). eapply G. exact Ht.
  - intros i k Hi. destruct (h_quiet _ _ _ _ H i k Hi) as (rq & ow & _ & Ht). eapply G. exact Ht.
  - intros i k Hi. destruct (h_fail _ _ _ _ H i k Hi) as (rq & ow & r & _ & Ht). exists r. eapply G. exact Ht.
  - intros i. destruct (h_part _ _ _ _ H i) as [E|(k & rq & ow & r & x & Hi & _ & Ht & Hx)]; [auto|]. right. exists k, r, x.
    split; [exact Hi|]. split; [eapply G; exact Ht|exact Hx].
Qed.

Lemma c42_out i k rec : In (k, rec) (k_out (c_conns c i)) ->
  exists req w w' rep, nth_error (k_reqs (c_conns c i)) k = Some req /\ sends (srv i) w req w' rep /\ rec = mark (zlen rep) ++ rep.
Proof.
  intros Hi. destruct (all_reach tt _ _ _ _ _ ins_ok reached) as (_ & _ & _ & H).
  destruct (h_out _ _ _ _ H i k rec Hi) as (rq & ow & Hk & Ht). apply thread_reply in Ht.
  destruct Ht as [[_ E]|[(w & w' & rep & E & Hs & Eo)|(w & w' & E & _ & Eo)]]; [discriminate| |discriminate].
  injection Eo as ->. exists rq, w, w', rep. auto.
Qed.

Lemma c42_quiescent i e : k_rd (c_conns c i) = RDone e -> (forall t, In t (c_tasks c) -> tk_conn t <> i) ->
  k_broken (c_conns c i) = false ->
  (exists N s' e', forall n, (N <= n)%nat ->
     run_loop n stream_conn (mkStream (fst (ins i)) (snd (ins i)) []) [] = Ret (s', k_reqs (c_conns c i), e')) /\
  Permutation (map fst (k_out (c_conns c i)) ++ k_quiet (c_conns c i)) (seq 0 (List.length (k_reqs (c_conns c i)))) /\
  received (c_conns c i) = List.concat (map snd (k_out (c_conns c i))).
Proof.
  intros Hd Ht Hb. destruct (c40_inputs tt _ _ _ _ ins_ok _ reached i) as (rest & E & Hf & Hn).
  destruct (c42_account tt _ _ _ _ ins_ok _ reached i) as (_ & Q & P). destruct (Q Hb) as [Ep Ef].
  split.
  - destruct (c43 _ _ (snd (ins i)) [] rest (ins_ok i) E Hf (Hn _ Hd)) as (N & s' & e' & K). exists N, s', e'.
    intros n Hnn. apply (K n Hnn).
  - split.
    + rewrite Ef in P. cbn [app] in P.
      assert (En : filter (active i) (c_tasks c) = []).
      { clear - Ht. induction (c_tasks c) as [|t l IH]; [reflexivity|]. cbn [filter]. unfold active at 1.
        destruct (Nat.eqb_spec (tk_conn t) i) as [E|]; [exfalso; exact (Ht t (or_introl eq_refl) E)|]. cbn [andb]. apply IH.
        intros t' Hi. apply Ht. right. exact Hi. }
      rewrite En in P. cbn [map] in P. rewrite app_nil_r in P. exact P.
    + unfold received. rewrite Ep, app_nil_r. reflexivity.
Qed.
End Reach.
End Replies.

(** Reachable configurations: something can move as long as a reader has not returned or a
    goroutine is still there (and the process has not crashed), if handlers never get stuck. *)
Lemma c42_progress {W L} (linit : L) (hstep : nat -> list byte -> W -> L -> hresult W L -> Prop) h0 ins w0
  (ins_ok : forall i, chunks_ok (fst (ins i))) c : steps linit hstep (init h0 ins w0) c -> c_crashed c = false ->
  (forall i own w l, exists r, hstep i own w l r /\
     match r with HMore _ o _ | HEnd _ o _ => List.length o = List.length own | HPanic => True end) ->
  c_tasks c <> [] \/ (exists i, forall e, k_rd (c_conns c i) <> RDone e) -> exists c', step linit hstep c c'.
Proof.
  intros R Hc Hh [Ht|[i Hi]]; destruct (all_reach linit hstep h0 ins w0 c ins_ok R) as (B & K & _ & _).
  - destruct (c_tasks c) as [|t ts] eqn:Et; [congruence|]. apply (c42_task linit hstep c t Hc); [rewrite Et; left; reflexivity|]. intros l _.
    destruct (Hh (tk_conn t) (sread (c_heap c) (tk_buf t)) (c_world c) l) as (r & Hr & Hl). exists r. split; [exact Hr|].
    destruct B as [_ B _ _ _]. rewrite Et in B. inversion B as [|? ? [Hv _] _]; subst.
    destruct r; auto; rewrite Hl; apply sread_len; exact Hv.
  - destruct (c42_reader linit hstep c i Hc Hi) as [H|(acc & [[H1 H2]|(b & H1 & H2)])]; [exact H| |];
      specialize (K i); destruct K as (_ & _ & K); rewrite H1 in K; destruct K; lia.
Qed.
