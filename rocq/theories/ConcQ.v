(** More invariants of the concurrent server: requests are the records of the input, replies
    are accounted for, handlers run as their own threads. *)
From Coq Require Import Permutation.
From Verif Require Import Bytes XdrLib Types Interp Spec Runs RpcTypes RpcSpec RpcWire RpcDec Io Client CallSpec ClientP Server ServSpec
  ServerP ServerQ ServerX Heap HeapP Conc ConcP.
Open Scope string_scope.
Open Scope Z_scope.
Open Scope list_scope.

Lemma sr_ok s k s' d : chunks_ok (si_in s) -> stream_read s k = (s', d, None) ->
  chunks_ok (si_in s') /\ List.concat (si_in s) = d ++ List.concat (si_in s') .
Proof.
  intros Hc H. unfold stream_read in H. destruct (si_in s) as [|c cs]; [discriminate|]. inversion Hc; subst.
  destruct (Nat.leb_spec (List.length c) k); injection H as <- <-; cbn [si_in List.concat].
  - auto.
  - split; [|rewrite app_assoc, firstn_skipn; reflexivity]. constructor; [|assumption].
    intros E. apply (f_equal (@List.length _)) in E. rewrite skipn_length in E. cbn in E. lia.
Qed.
Lemma sr_err s k s' d e : stream_read s k = (s', d, Some e) -> d = [] /\ si_in s = [] /\ s' = s.
Proof.
  unfold stream_read. destruct (si_in s) as [|c cs] eqn:E; [|destruct (Nat.leb _ _); discriminate].
  intros H. injection H as <- <- <-. auto.
Qed.

(** ** Input *)
Definition kin (input : list byte) (k : kconn) : Prop :=
  chunks_ok (si_in (k_in k)) /\ Forall (fun m => zlen m < 2 ^ 31) (k_reqs k) /\
  match k_rd k with
  | RHdr acc => (List.length acc <= 4)%nat /\
      input = List.concat (map record (k_reqs k)) ++ acc ++ List.concat (si_in (k_in k))
  | RBody b acc => (List.length acc <= sl_len b)%nat /\ Z.of_nat (sl_len b) < 2 ^ 31 /\
      input = List.concat (map record (k_reqs k)) ++ be4 (2 ^ 31 + Z.of_nat (sl_len b)) ++ acc ++ List.concat (si_in (k_in k))
  | RDone e => exists rest, input = List.concat (map record (k_reqs k)) ++ rest /\ no_record rest
  end.

Lemma hdr_val acc : List.length acc = 4%nat -> Z.land (get_u32 acc) (2 ^ 31) <> 0 ->
  let n := Z.land (get_u32 acc) 2147483647 in 0 <= n < 2 ^ 31 /\ acc = be4 (2 ^ 31 + n).
Proof.
  intros Hl Hb. destruct (hdr_u32 acc Hl) as [Eg Hu]. rewrite Eg in *.
  pose proof (last_frag _ Hu) as K. destruct (Z.ltb_spec (be_val acc) (2 ^ 31)) as [H|H]; [apply Z.eqb_eq in K; congruence|].
  cbv zeta. rewrite low31 by assumption. split; [unfold u32 in Hu; lia|].
  replace (2 ^ 31 + (be_val acc - 2 ^ 31)) with (be_val acc) by lia. apply (be4_be_val acc Hl).
Qed.
Lemma short_no_record b : (List.length b < 4)%nat -> no_record b.
Proof. intros H m rest _ ->. unfold record in H. rewrite !app_length, be4_len in H. lia. Qed.
Lemma frag_no_record acc t : List.length acc = 4%nat -> Z.land (get_u32 acc) (2 ^ 31) = 0 -> no_record (acc ++ t).
Proof.
  intros Hl Hb m rest Hm E. destruct (hdr_u32 acc Hl) as [Eg Hu]. rewrite Eg in Hb.
  pose proof (last_frag _ Hu) as K. rewrite Hb in K. change (0 =? 0) with true in K. symmetry in K. apply Z.ltb_lt in K.
  unfold record in E. rewrite <- app_assoc in E. apply app4 in E; [|exact Hl|apply be4_len]. destruct E as [-> _].
  pose proof (zlen_nonneg m). rewrite be4_val in K; unfold u32; lia.
Qed.
Lemma cut_no_record n acc : (List.length acc < n)%nat -> Z.of_nat n < 2 ^ 31 -> no_record (be4 (2 ^ 31 + Z.of_nat n) ++ acc).
Proof.
  intros Hl Hb m rest Hm E. unfold record in E. rewrite <- app_assoc in E. apply app4 in E; [|apply be4_len|apply be4_len].
  destruct E as [E1 E2]. apply (f_equal be_val) in E1. pose proof (zlen_nonneg m).
  rewrite !be4_val in E1 by (unfold u32; lia). rewrite E2, app_length in Hl. unfold zlen in *. lia.
Qed.

Section Inv.
Context {W L : Type}.
Variable linit : L.
Variable hstep : nat -> list byte -> W -> L -> hresult W L -> Prop.
Notation step := (step linit hstep).
Notation steps := (steps linit hstep).
Notation cfg := (cfg W L).

Definition kins (ins : nat -> list (list byte) * ioerr) (f : nat -> kconn) : Prop :=
  forall i, kin (List.concat (fst (ins i))) (f i).

Lemma kins_upd ins f i k : kins ins f -> kin (List.concat (fst (ins i))) k -> kins ins (updk f i k).
Proof. intros H K j. unfold updk. destruct (Nat.eqb_spec j i) as [->|]; auto. Qed.

Lemma get_buf_len p h n p' h' b : get_buf p h n p' h' b -> sl_len b = n.
Proof. destruct 1; reflexivity. Qed.

Lemma kins_step ins c c' : step c c' -> kins ins (c_conns c) -> kins ins (c_conns c').
Proof.
  destruct 1; cbn [c_conns]; intros K; auto; apply kins_upd; auto; specialize (K i); destruct K as (K1 & K2 & K3);
    unfold kin; cbn [k_in k_reqs k_rd with_rd]; auto.
  - rewrite H in K3. destruct K3 as [K3 K4]. destruct (sr_ok _ _ _ _ K1 H1) as [S1 S2].
    pose proof (stream_read_len _ _ _ _ _ H1). split; [exact S1|]. split; [exact K2|]. rewrite app_length. split; [lia|].
    rewrite K4, S2, <- !app_assoc. reflexivity.
  - rewrite H in K3. destruct K3 as [K3 K4]. destruct (sr_err _ _ _ _ _ H1) as (-> & S1 & ->).
    split; [exact K1|]. split; [exact K2|]. exists acc. rewrite S1 in K4. cbn in K4. rewrite app_nil_r in K4.
    split; [exact K4|]. apply short_no_record. exact H0.
  - rewrite H in K3. destruct K3 as [K3 K4]. split; [exact K1|]. split; [exact K2|].
    eexists. split; [exact K4|]. apply frag_no_record; assumption.
  - rewrite H in K3. destruct K3 as [K3 K4]. split; [exact K1|]. split; [exact K2|].
    apply get_buf_len in H2. destruct (hdr_val acc H0 H1) as [V1 V2]. rewrite H2, Z2Nat.id by lia.
    cbn [List.length app]. split; [lia|]. split; [lia|]. rewrite <- V2. exact K4.
  - rewrite H in K3. destruct K3 as (K3 & Kb & K4). destruct (sr_ok _ _ _ _ K1 H1) as [S1 S2].
    pose proof (stream_read_len _ _ _ _ _ H1). split; [exact S1|]. split; [exact K2|]. rewrite app_length. split; [lia|].
    split; [exact Kb|]. rewrite K4, S2, <- !app_assoc. reflexivity.
  - rewrite H in K3. destruct K3 as (K3 & Kb & K4). destruct (sr_err _ _ _ _ _ H1) as (-> & S1 & ->).
    split; [exact K1|]. split; [exact K2|]. eexists. rewrite S1 in K4. cbn [List.concat] in K4. rewrite app_nil_r in K4.
    split; [exact K4|]. apply cut_no_record; assumption.
  - rewrite H in K3. destruct K3 as (K3 & Kb & K4). split; [exact K1|].
    assert (Hz : zlen acc = Z.of_nat (sl_len b)) by (unfold zlen; lia). split.
    { apply Forall_app. split; [exact K2|]. constructor; [lia|constructor]. }
    split; [cbn; lia|]. rewrite K4, map_app, concat_app. cbn [map List.concat app]. rewrite app_nil_r, <- app_assoc.
    unfold record at 3. rewrite Hz, <- app_assoc. reflexivity.
Qed.

Lemma kins_init ins h (w : W) : (forall i, chunks_ok (fst (ins i))) -> kins ins (c_conns (init (L := L) h ins w)).
Proof. intros H i. unfold kin, init. cbn. split; [apply H|]. split; [constructor|]. split; [lia|reflexivity]. Qed.

(** ** Numbers of requests *)
Definition active (i : nat) (t : task L) : bool :=
  Nat.eqb (tk_conn t) i && match tk_ph t with TPut => false | _ => true end.
Definition ids (i : nat) (ts : list (task L)) : list nat := map (@tk_id L) (filter (active i) ts).

Definition acct (k : kconn) (act : list nat) : Prop :=
  Permutation (map fst (k_out k) ++ k_quiet k ++ k_fail k ++ act) (seq 0 (List.length (k_reqs k))) /\
  (k_broken k = false -> k_part k = [] /\ k_fail k = []).

Lemma ids_mid i t1 t t2 : ids i (t1 ++ t :: t2) = ids i t1 ++ (if active i t then [tk_id t] else []) ++ ids i t2.
Proof. unfold ids. rewrite filter_app, map_app. cbn [filter]. destruct (active i t); reflexivity. Qed.

Definition accts (c : cfg) : Prop := forall i, acct (c_conns c i) (ids i (c_tasks c)).

Lemma accts_same c h p f w cr hi ts : accts c ->
  (forall i, ids i ts = ids i (c_tasks c)) ->
  (forall i, k_out (f i) = k_out (c_conns c i) /\ k_quiet (f i) = k_quiet (c_conns c i) /\ k_fail (f i) = k_fail (c_conns c i) /\
     k_reqs (f i) = k_reqs (c_conns c i) /\ k_broken (f i) = k_broken (c_conns c i) /\ k_part (f i) = k_part (c_conns c i)) ->
  accts (mkC h p f ts w cr hi).
Proof.
  intros A Hi Hf i. specialize (A i). specialize (Hf i). cbn [c_conns c_tasks]. rewrite Hi.
  destruct Hf as (E1 & E2 & E3 & E4 & E5 & E6). unfold acct in *. rewrite E1, E2, E3, E4, E5, E6. exact A.
Qed.

Lemma updk_at f i k : updk f i k i = k.
Proof. unfold updk. rewrite Nat.eqb_refl. reflexivity. Qed.
Lemma updk_ne f i k j : j <> i -> updk f i k j = f j.
Proof. unfold updk. destruct (Nat.eqb_spec j i); congruence. Qed.

Lemma accts_step c c' : step c c' -> accts c -> accts c'.
Proof.
  destruct 1; intros A.
  1-6: (eapply accts_same; [exact A|reflexivity|]; intros j; cbn [c_conns]; unfold updk; destruct (Nat.eqb_spec j i); subst; cbn; auto 10).
  - intros j. specialize (A j). cbn [c_conns c_tasks] in *. unfold ids in *. rewrite filter_app, map_app. cbn [filter].
    unfold active at 2. cbn [tk_conn tk_ph]. destruct (Nat.eqb_spec i j) as [->|Hn].
    + rewrite updk_at. destruct A as [A1 A2]. split; [|exact A2]. cbn [k_out k_quiet k_fail k_reqs andb map tk_id].
      rewrite app_length. cbn [List.length]. rewrite Nat.add_1_r, seq_S, !app_assoc. apply Permutation_app_tail.
      rewrite <- !app_assoc. exact A1.
    + rewrite updk_ne by auto. cbn [andb map]. rewrite app_nil_r. exact A.
  - eapply accts_same; [exact A| |auto 10]. intros j. cbn [c_tasks]. rewrite !ids_mid. reflexivity.
  - eapply accts_same; [exact A| |auto 10]. intros j. cbn [c_tasks]. rewrite !ids_mid. reflexivity.
  - intros j. specialize (A j). cbn [c_conns c_tasks] in *. rewrite ids_mid in *. unfold active in *. cbn [tk_conn tk_ph tk_id] in *.
    destruct (Nat.eqb_spec i j) as [->|Hn].
    + rewrite updk_at. destruct A as [A1 A2]. split; [|exact A2]. cbn [k_out k_quiet k_fail k_reqs andb app] in *.
      rewrite <- A1. apply Permutation_app_head. rewrite <- !app_assoc. apply Permutation_app_head. cbn [app].
      rewrite !app_assoc. apply Permutation_middle.
    + rewrite updk_ne by auto. exact A.
  - eapply accts_same; [exact A| |auto 10]. intros j. cbn [c_tasks]. rewrite !ids_mid. reflexivity.
  - intros j. specialize (A j). cbn [c_conns c_tasks] in *. rewrite ids_mid in *. unfold active in *. cbn [tk_conn tk_ph tk_id] in *.
    destruct (Nat.eqb_spec i j) as [->|Hn].
    + rewrite updk_at. destruct A as [A1 A2]. split; cbn [k_out k_quiet k_fail k_reqs andb app k_broken k_part] in *.
      * rewrite <- A1, map_app, <- app_assoc. apply Permutation_app_head. cbn [map fst app].
        rewrite !app_assoc. apply Permutation_middle.
      * intros _. apply A2. exact H.
    + rewrite updk_ne by auto. exact A.
  - intros j. specialize (A j). cbn [c_conns c_tasks] in *. rewrite ids_mid in *. unfold active in *. cbn [tk_conn tk_ph tk_id] in *.
    destruct (Nat.eqb_spec i j) as [->|Hn].
    + rewrite updk_at. destruct A as [A1 A2]. split; [|discriminate]. cbn [k_out k_quiet k_fail k_reqs andb app k_broken k_part] in *.
      rewrite <- A1. apply Permutation_app_head. apply Permutation_app_head. rewrite <- app_assoc. apply Permutation_app_head.
      cbn [app]. apply Permutation_middle.
    + rewrite updk_ne by auto. exact A.
  - eapply accts_same; [exact A| |auto 10]. intros j. cbn [c_tasks]. rewrite ids_mid. unfold active. cbn [tk_conn tk_ph].
    rewrite andb_false_r. cbn [app]. unfold ids. rewrite filter_app, map_app. reflexivity.
  - eapply accts_same; [exact A|reflexivity|auto 10].
Qed.

Lemma accts_init h ins w : accts (init h ins w).
Proof. intros i. unfold acct. cbn. auto. Qed.

(** ** Histories *)
Inductive tstat : Type := TsRun (l : L) | TsEnd (o : option (list byte)).
Definition world_of (r : hresult W L) : option W :=
  match r with HPanic => None | HMore w _ _ | HEnd w _ _ => Some w end.
(** The worlds of a history, action after action. *)
Inductive chain (w0 : W) : list (event W L) -> W -> Prop :=
| Ch_nil : chain w0 [] w0
| Ch_snoc hi w e w' : chain w0 hi w -> ev_world e = w -> world_of (ev_res e) = Some w' -> chain w0 (hi ++ [e]) w'.

(** The actions of one handler. *)
Definition of_req (i k : nat) (hi : list (event W L)) : list (W * hresult W L) :=
  map (fun e => (ev_world e, ev_res e)) (filter (fun e => Nat.eqb (ev_conn e) i && Nat.eqb (ev_id e) k) hi).

(** A handler of [req] on connection [i], alone with a buffer that at first holds [req] and
    that nobody else touches: after these actions it has left [own] there and is in this state. *)
Inductive thread (i : nat) (req : list byte) : list (W * hresult W L) -> list byte -> tstat -> Prop :=
| Th_start : thread i req [] req (TsRun linit)
| Th_more es own l w w' o l' : thread i req es own (TsRun l) -> hstep i own w l (HMore w' o l') ->
    thread i req (es ++ [(w, HMore w' o l')]) o (TsRun l')
| Th_end es own l w w' o r : thread i req es own (TsRun l) -> hstep i own w l (HEnd w' o r) ->
    thread i req (es ++ [(w, HEnd w' o r)]) o (TsEnd r).

Definition stat_of (ph : phase (L := L)) : option tstat :=
  match ph with TRun l => Some (TsRun l) | TWrite r => Some (TsEnd (Some r)) | TPut => None end.

Record hist (w0 : W) (c : cfg) : Prop := {
  h_chain : chain w0 (c_hist c) (c_world c);
  h_ids : Forall (fun e => (ev_id e < List.length (k_reqs (c_conns c (ev_conn e))))%nat) (c_hist c);
  h_task : forall t st, In t (c_tasks c) -> stat_of (tk_ph t) = Some st ->
    exists req, nth_error (k_reqs (c_conns c (tk_conn t))) (tk_id t) = Some req /\
      thread (tk_conn t) req (of_req (tk_conn t) (tk_id t) (c_hist c)) (tk_own t) st;
  h_out : forall i k r, In (k, r) (k_out (c_conns c i)) ->
    exists req own, nth_error (k_reqs (c_conns c i)) k = Some req /\ thread i req (of_req i k (c_hist c)) own (TsEnd (Some r));
  h_quiet : forall i k, In k (k_quiet (c_conns c i)) ->
    exists req own, nth_error (k_reqs (c_conns c i)) k = Some req /\ thread i req (of_req i k (c_hist c)) own (TsEnd None);
  h_fail : forall i k, In k (k_fail (c_conns c i)) ->
    exists req own r, nth_error (k_reqs (c_conns c i)) k = Some req /\ thread i req (of_req i k (c_hist c)) own (TsEnd (Some r));
  h_part : forall i, k_part (c_conns c i) = [] \/
    exists k req own r x, In k (k_fail (c_conns c i)) /\ nth_error (k_reqs (c_conns c i)) k = Some req /\
      thread i req (of_req i k (c_hist c)) own (TsEnd (Some r)) /\ r = k_part (c_conns c i) ++ x }.

Lemma hist_same w0 c h p f ts cr : hist w0 c ->
  (forall t st, In t ts -> stat_of (tk_ph t) = Some st -> In t (c_tasks c)) ->
  (forall i, k_out (f i) = k_out (c_conns c i) /\ k_quiet (f i) = k_quiet (c_conns c i) /\ k_fail (f i) = k_fail (c_conns c i) /\
     k_reqs (f i) = k_reqs (c_conns c i) /\ k_part (f i) = k_part (c_conns c i)) ->
  hist w0 (mkC h p f ts (c_world c) cr (c_hist c)).
Proof.
  intros [H1 H2 H3 H4 H5 H6 H7] Ht Hf. split; cbn [c_hist c_world c_conns c_tasks]; auto.
  - eapply Forall_impl; [|exact H2]. intros e. cbn. destruct (Hf (ev_conn e)) as (_ & _ & _ & -> & _). auto.
  - intros t st Hi Hs. destruct (Hf (tk_conn t)) as (_ & _ & _ & -> & _). eauto.
  - intros i k r. destruct (Hf i) as (-> & _ & _ & -> & _). apply H4.
  - intros i k. destruct (Hf i) as (_ & -> & _ & -> & _). apply H5.
  - intros i k. destruct (Hf i) as (_ & _ & -> & -> & _). apply H6.
  - intros i. destruct (Hf i) as (_ & _ & -> & -> & ->). apply H7.
Qed.

Lemma of_req_snoc i k hi e : of_req i k (hi ++ [e]) =
  of_req i k hi ++ (if Nat.eqb (ev_conn e) i && Nat.eqb (ev_id e) k then [(ev_world e, ev_res e)] else []).
Proof. unfold of_req. rewrite filter_app, map_app. cbn [filter]. destruct (_ && _); reflexivity. Qed.

Lemma stat_active i t st : stat_of (tk_ph t) = Some st -> active i t = Nat.eqb (tk_conn t) i.
Proof. unfold active. destruct (tk_ph t); try discriminate; intros _; apply andb_true_r. Qed.

Lemma act_unique h p f t1 t t2 w cr hi st i : accts (mkC h p f (t1 ++ t :: t2) w cr hi) ->
  stat_of (tk_ph t) = Some st -> tk_conn t = i ->
  (forall m r, In (m, r) (k_out (f i)) -> m <> tk_id t) /\ ~ In (tk_id t) (k_quiet (f i)) /\ ~ In (tk_id t) (k_fail (f i)) /\
  (forall t' st', In t' (t1 ++ t2) -> stat_of (tk_ph t') = Some st' -> tk_conn t' = i -> tk_id t' <> tk_id t).
Proof.
  intros A Hs Hc. destruct (A i) as [P _]. cbn [c_conns c_tasks] in P.
  rewrite ids_mid, (stat_active _ _ _ Hs), Hc, Nat.eqb_refl in P. cbn [app] in P.
  assert (ND : NoDup (tk_id t :: map fst (k_out (f i)) ++ k_quiet (f i) ++ k_fail (f i) ++ ids i t1 ++ ids i t2)).
  { eapply Permutation_NoDup; [|eapply Permutation_NoDup; [apply Permutation_sym; exact P|apply seq_NoDup]].
    symmetry. rewrite !app_assoc. apply Permutation_middle. }
  inversion ND as [|? ? N _]; subst. repeat split.
  - intros m r Hm E. apply N. apply in_or_app. left. apply in_map_iff. exists (m, r). auto.
  - intros Hm. apply N. apply in_or_app. right. apply in_or_app. auto.
  - intros Hm. apply N. apply in_or_app. right. apply in_or_app. right. apply in_or_app. auto.
  - intros t' st' Ht' Hs' Hc' E. apply N. do 3 (apply in_or_app; right). rewrite <- E.
    assert (Ha : active (tk_conn t) t' = true) by (rewrite (stat_active _ _ _ Hs'), Hc', Nat.eqb_refl; reflexivity).
    apply in_app_or in Ht'. apply in_or_app. destruct Ht' as [Ht'|Ht']; [left|right]; apply in_map; apply filter_In; auto.
Qed.

Lemma hist_act w0 h p f t1 i k b o l t2 w hi h' f' w' o' R ph' :
  hist w0 (mkC h p f (t1 ++ mkT i k b o (TRun l) :: t2) w false hi) ->
  accts (mkC h p f (t1 ++ mkT i k b o (TRun l) :: t2) w false hi) ->
  hstep i o w l R -> world_of R = Some w' ->
  (forall j, k_out (f' j) = k_out (f j) /\ k_fail (f' j) = k_fail (f j) /\ k_reqs (f' j) = k_reqs (f j) /\ k_part (f' j) = k_part (f j)) ->
  match R with
  | HMore _ o1 l' => o1 = o' /\ ph' = TRun l' /\ forall j, k_quiet (f' j) = k_quiet (f j)
  | HEnd _ o1 (Some r) => o1 = o' /\ ph' = TWrite r /\ forall j, k_quiet (f' j) = k_quiet (f j)
  | HEnd _ o1 None => o1 = o' /\ ph' = TPut /\ forall j m, In m (k_quiet (f' j)) -> In m (k_quiet (f j)) \/ (j = i /\ m = k)
  | HPanic => False
  end ->
  hist w0 (mkC h' p f' (t1 ++ mkT i k b o' ph' :: t2) w' false (hi ++ [mkEv i k w R])).
Proof.
  intros [H1 H2 H3 H4 H5 H6 H7] A Hs Hw Hf HR. cbn [c_hist c_world c_conns c_tasks] in *.
  destruct (H3 _ _ (in_elt _ _ _) eq_refl) as (req & Hreq & Hth). cbn [tk_conn tk_id tk_own] in *.
  destruct (act_unique _ _ _ _ _ _ _ _ _ (TsRun l) i A eq_refl eq_refl) as (U1 & U2 & U3 & U4). cbn [tk_id] in *.
  assert (Eo : forall j m, (j, m) <> (i, k) -> of_req j m (hi ++ [mkEv i k w R]) = of_req j m hi).
  { intros j m Hn. rewrite of_req_snoc. cbn [ev_conn ev_id]. destruct (Nat.eqb_spec i j); destruct (Nat.eqb_spec k m);
      try (subst; congruence); cbn; apply app_nil_r. }
  assert (Es : of_req i k (hi ++ [mkEv i k w R]) = of_req i k hi ++ [(w, R)]).
  { rewrite of_req_snoc. cbn. rewrite !Nat.eqb_refl. reflexivity. }
  split; cbn [c_hist c_world c_conns c_tasks].
  - eapply Ch_snoc; [exact H1|reflexivity|exact Hw].
  - apply Forall_app. split.
    + eapply Forall_impl; [|exact H2]. intros e. cbn. destruct (Hf (ev_conn e)) as (_ & _ & -> & _). auto.
    + constructor; [|constructor]. cbn. destruct (Hf i) as (_ & _ & -> & _). apply nth_error_Some. congruence.
  - intros t st Ht Hst. destruct (Hf (tk_conn t)) as (_ & _ & -> & _).
    assert (D : t = mkT i k b o' ph' \/ In t (t1 ++ t2)).
    { apply in_app_or in Ht. destruct Ht as [Ht|[Ht|Ht]]; [right|left|right]; try apply in_or_app; auto. }
    destruct D as [->|D].
    + cbn [tk_conn tk_id tk_own tk_ph] in *. exists req. split; [exact Hreq|]. rewrite Es.
      destruct R as [|w1 o1 l1|w1 o1 [r|]]; [destruct HR| | |]; destruct HR as (-> & -> & _); cbn in Hst; try discriminate; injection Hst as <-.
      * eapply Th_more; eassumption.
      * eapply Th_end; eassumption.
    + assert (Ht' : In t (t1 ++ mkT i k b o (TRun l) :: t2)).
      { apply in_app_or in D. apply in_or_app. cbn. tauto. }
      destruct (H3 t st Ht' Hst) as (rq & K1 & K2). exists rq. split; [exact K1|]. rewrite Eo; [exact K2|].
      intros E. injection E as E1 E2. exact (U4 t st D Hst E1 E2).
  - intros j m r. destruct (Hf j) as (-> & _ & -> & _). intros Hi. destruct (H4 j m r Hi) as (rq & ow & K1 & K2).
    exists rq, ow. split; [exact K1|]. rewrite Eo; [exact K2|]. intros E. injection E as -> ->. exact (U1 _ _ Hi eq_refl).
  - intros j m Hi. destruct (Hf j) as (_ & _ & -> & _).
    assert (D : In m (k_quiet (f j)) \/ (j = i /\ m = k /\ exists w1, R = HEnd w1 o' None)).
    { destruct R as [|w1 o1 l1|w1 o1 [r|]]; [destruct HR| | |]; destruct HR as (-> & -> & HR).
      - rewrite HR in Hi. auto.
      - rewrite HR in Hi. auto.
      - apply HR in Hi. destruct Hi as [Hi|[-> ->]]; eauto 10. }
    destruct D as [D|(-> & -> & w1 & ->)].
    + destruct (H5 j m D) as (rq & ow & K1 & K2). exists rq, ow. split; [exact K1|]. rewrite Eo; [exact K2|].
      intros E. injection E as -> ->. exact (U2 D).
    + exists req, o'. split; [exact Hreq|]. rewrite Es. eapply Th_end; eassumption.
  - intros j m. destruct (Hf j) as (_ & -> & -> & _). intros Hi. destruct (H6 j m Hi) as (rq & ow & r & K1 & K2).
    exists rq, ow, r. split; [exact K1|]. rewrite Eo; [exact K2|]. intros E. injection E as -> ->. exact (U3 Hi).
  - intros j. destruct (Hf j) as (_ & -> & -> & ->). destruct (H7 j) as [E|(m & rq & ow & r & x & Hi & K1 & K2 & K3)]; [auto|].
    right. exists m, rq, ow, r, x. split; [exact Hi|]. split; [exact K1|]. split; [|exact K3].
    rewrite Eo; [exact K2|]. intros E. injection E as -> ->. exact (U3 Hi).
Qed.

Lemma hist_go w0 h p f ts w hi i b acc kk :
  hist w0 (mkC h p f ts w false hi) -> k_reqs kk = k_reqs (f i) ++ [acc] -> k_out kk = k_out (f i) -> k_quiet kk = k_quiet (f i) ->
  k_fail kk = k_fail (f i) -> k_part kk = k_part (f i) ->
  hist w0 (mkC h p (updk f i kk) (ts ++ [mkT i (List.length (k_reqs (f i))) b acc (TRun linit)]) w false hi).
Proof.
  intros [H1 H2 H3 H4 H5 H6 H7] Er Eo Eq Ef Ep. cbn [c_hist c_world c_conns c_tasks] in *.
  assert (Nx : forall j k rq, nth_error (k_reqs (f j)) k = Some rq -> nth_error (k_reqs (updk f i kk j)) k = Some rq).
  { intros j k rq H. unfold updk. destruct (Nat.eqb_spec j i) as [->|]; [|exact H]. rewrite Er, nth_error_app1; [exact H|].
    apply nth_error_Some. congruence. }
  split; cbn [c_hist c_world c_conns c_tasks].
  - exact H1.
  - eapply Forall_impl; [|exact H2]. intros e He. cbv beta in He |- *. unfold updk. destruct (Nat.eqb_spec (ev_conn e) i) as [Ee|]; [|exact He].
    rewrite Ee in He. rewrite Er, app_length. lia.
  - intros t st Ht Hs. apply in_app_or in Ht. destruct Ht as [Ht|[<-|[]]].
    + destruct (H3 t st Ht Hs) as (rq & K1 & K2). exists rq. split; [apply Nx; exact K1|exact K2].
    + cbn [tk_conn tk_id tk_own tk_ph stat_of] in *. injection Hs as <-. exists acc. rewrite updk_at, Er. split.
      * rewrite nth_error_app2, Nat.sub_diag by lia. reflexivity.
      * assert (E : of_req i (List.length (k_reqs (f i))) hi = []).
        { clear - H2. unfold of_req. induction hi as [|e hi IH]; [reflexivity|]. inversion H2 as [|? ? Hx Hy]; subst. cbn [filter].
          destruct (Nat.eqb_spec (ev_conn e) i) as [Ee|]; cbn [andb]; [|apply IH; exact Hy].
          destruct (Nat.eqb_spec (ev_id e) (List.length (k_reqs (f i)))) as [Ed|]; [|apply IH; exact Hy].
          rewrite Ee in Hx. lia. }
        rewrite E. apply Th_start.
  - intros j k r Hi. assert (Hi' : In (k, r) (k_out (f j))).
    { unfold updk in Hi. destruct (Nat.eqb_spec j i) as [->|]; [rewrite Eo in Hi|]; exact Hi. }
    destruct (H4 j k r Hi') as (rq & ow & K1 & K2). exists rq, ow. auto.
  - intros j k Hi. assert (Hi' : In k (k_quiet (f j))).
    { unfold updk in Hi. destruct (Nat.eqb_spec j i) as [->|]; [rewrite Eq in Hi|]; exact Hi. }
    destruct (H5 j k Hi') as (rq & ow & K1 & K2). exists rq, ow. auto.
  - intros j k Hi. assert (Hi' : In k (k_fail (f j))).
    { unfold updk in Hi. destruct (Nat.eqb_spec j i) as [->|]; [rewrite Ef in Hi|]; exact Hi. }
    destruct (H6 j k Hi') as (rq & ow & r & K1 & K2). exists rq, ow, r. auto.
  - intros j. assert (E : k_part (updk f i kk j) = k_part (f j) /\ k_fail (updk f i kk j) = k_fail (f j)).
    { unfold updk. destruct (Nat.eqb_spec j i) as [->|]; auto. }
    destruct E as [-> ->]. destruct (H7 j) as [E|(m & rq & ow & r & x & Hi & K1 & K2 & K3)]; [auto|].
    right. exists m, rq, ow, r, x. auto.
Qed.

(** A Write: the task's reply moves to the connection. *)
Lemma hist_write w0 h p f t1 i k b o r t2 w hi kk :
  hist w0 (mkC h p f (t1 ++ mkT i k b o (TWrite r) :: t2) w false hi) ->
  k_reqs kk = k_reqs (f i) -> k_quiet kk = k_quiet (f i) ->
  (forall m r', In (m, r') (k_out kk) -> In (m, r') (k_out (f i)) \/ (m = k /\ r' = r)) ->
  (forall m, In m (k_fail kk) -> In m (k_fail (f i)) \/ m = k) ->
  (k_part kk = k_part (f i) /\ k_fail kk = k_fail (f i) \/ (k_part kk = [] \/ k_part kk = k_part (f i) \/ exists x, r = k_part kk ++ x) /\ k_fail kk = k_fail (f i) ++ [k]) ->
  hist w0 (mkC h p (updk f i kk) (t1 ++ mkT i k b o TPut :: t2) w false hi).
Proof.
  intros [H1 H2 H3 H4 H5 H6 H7] Er Eq Eo Ef Ep. cbn [c_hist c_world c_conns c_tasks] in *.
  destruct (H3 _ _ (in_elt _ _ _) eq_refl) as (req & Hreq & Hth). cbn [tk_conn tk_id tk_own] in *.
  assert (Nx : forall j, k_reqs (updk f i kk j) = k_reqs (f j)).
  { intros j. unfold updk. destruct (Nat.eqb_spec j i) as [->|]; auto. }
  split; cbn [c_hist c_world c_conns c_tasks].
  - exact H1.
  - eapply Forall_impl; [|exact H2]. intros e He. rewrite Nx. exact He.
  - intros t st Ht Hs. rewrite Nx. apply H3; [|exact Hs]. apply in_app_or in Ht. apply in_or_app. destruct Ht as [Ht|[<-|Ht]]; [auto|discriminate|cbn; auto].
  - intros j m r' Hi. rewrite Nx.
    assert (D : In (m, r') (k_out (f j)) \/ (j = i /\ m = k /\ r' = r)).
    { unfold updk in Hi. destruct (Nat.eqb_spec j i) as [->|]; [|auto]. apply Eo in Hi. tauto. }
    destruct D as [D|(-> & -> & ->)]; [apply H4; exact D|]. exists req, o. auto.
  - intros j m Hi. rewrite Nx. apply H5. unfold updk in Hi. destruct (Nat.eqb_spec j i) as [->|]; [rewrite Eq in Hi|]; exact Hi.
  - intros j m Hi. rewrite Nx.
    assert (D : In m (k_fail (f j)) \/ (j = i /\ m = k)).
    { unfold updk in Hi. destruct (Nat.eqb_spec j i) as [->|]; [|auto]. apply Ef in Hi. tauto. }
    destruct D as [D|(-> & ->)]; [apply H6; exact D|]. exists req, o, r. auto.
  - intros j. rewrite Nx. destruct (Nat.eqb_spec j i) as [->|Hn]; [rewrite updk_at|rewrite updk_ne by exact Hn; apply H7].
    destruct Ep as [[-> ->]|[[E|[->|(x & E)]] Ei]].
    + apply H7.
    + auto.
    + destruct (H7 i) as [E|(m & rq & ow & r' & x & Hi & K)]; [auto|]. right. exists m, rq, ow, r', x. rewrite Ei.
      split; [apply in_or_app; auto|exact K].
    + right. exists k, req, o, r, x. rewrite Ei. split; [apply in_or_app; cbn; auto|]. auto.
Qed.

Lemma hist_step w0 c c' : step c c' -> bufs c -> accts c -> hist w0 c -> hist w0 c'.
Proof.
  destruct 1; intros B A K.
  1-6: (apply (hist_same w0 _ _ _ _ ts false K); [auto|]; intros j; cbn [c_conns]; unfold updk; destruct (Nat.eqb_spec j i); subst; cbn; auto 10).
  - eapply hist_go; [exact K|reflexivity..].
  - assert (Eo : sread h b = o). { destruct B as [_ B _ _ _]. rewrite Forall_forall in B. apply (B _ (in_elt _ _ _)). }
    rewrite Eo in H. eapply hist_act; eauto.
  - assert (Eo : sread h b = o). { destruct B as [_ B _ _ _]. rewrite Forall_forall in B. apply (B _ (in_elt _ _ _)). }
    rewrite Eo in H. eapply hist_act; eauto.
  - assert (Eo : sread h b = o). { destruct B as [_ B _ _ _]. rewrite Forall_forall in B. apply (B _ (in_elt _ _ _)). }
    rewrite Eo in H. eapply hist_act; [exact K|exact A|exact H|reflexivity| |].
    + intros j. unfold updk. destruct (Nat.eqb_spec j i) as [->|]; cbn; auto.
    + cbn. split; [reflexivity|]. split; [reflexivity|]. intros j m. unfold updk. destruct (Nat.eqb_spec j i) as [->|]; cbn; auto.
      intros Hi. apply in_app_or in Hi. destruct Hi as [Hi|[<-|[]]]; auto.
  - apply (hist_same w0 _ _ _ _ _ true K); auto 10.
  - eapply hist_write; [exact K|reflexivity|reflexivity| |auto|auto].
    cbn. intros m r' Hi. apply in_app_or in Hi. destruct Hi as [Hi|[Hi|[]]]; [auto|]. injection Hi as <- <-. auto.
  - eapply hist_write; [exact K|reflexivity|reflexivity|auto| |].
    + cbn. intros m Hi. apply in_app_or in Hi. destruct Hi as [Hi|[Hi|[]]]; auto.
    + cbn. right. split; [|reflexivity]. destruct (k_broken (f i)) eqn:Eb.
      * rewrite (H0 eq_refl), app_nil_r. auto.
      * destruct (A i) as [_ A2]. cbn [c_conns] in A2. destruct (A2 Eb) as [-> _]. auto.
  - apply (hist_same w0 _ _ _ _ _ false K); [|auto 10]. cbn [c_tasks]. intros t st Ht _. apply in_app_or in Ht. apply in_or_app. cbn. tauto.
  - apply (hist_same w0 _ _ _ _ ts false K); auto 10.
Qed.

Lemma hist_init h ins w : hist w (init h ins w).
Proof. split; cbn; try constructor; auto; try contradiction. Qed.

Lemma all_reach h ins w c : (forall i, chunks_ok (fst (ins i))) -> steps (init h ins w) c ->
  bufs c /\ kins ins (c_conns c) /\ accts c /\ hist w c.
Proof.
  intros Hc H. remember (init h ins w) as c0 eqn:E. induction H as [|c1 c2 c3 H IH S]; subst.
  - split; [apply bufs_init|]. split; [apply kins_init; exact Hc|]. split; [apply accts_init|apply hist_init].
  - destruct (IH eq_refl) as (I1 & I2 & I3 & I4). split; [eapply bufs_step; eassumption|].
    split; [eapply kins_step; eassumption|]. split; [eapply accts_step; eassumption|eapply hist_step; eassumption].
Qed.

End Inv.
